(* Invariants of the objects reachable through the API, standard properties, integer
   stores. *)
From Coq Require Import ZArith List Bool Lia ZifyBool ZifyNat.
From Verif Require Import CSem M_Const M_Misc M_Property M_PropertyList M_Object M_Std Spec_Map Spec_Object
  Run_Object P_Base P_Misc P_Map P_PropertyList P_MapProps P_Object P_ObjectRun.
Import ListNotations.
Open Scope Z_scope.
Ltac Zify.zify_post_hook ::= Z.div_mod_to_equations.

Definition epl (l : list prop) : Prop := Forall (fun p => epc (p_code p)) l.
Definition einv (o : obj) : Prop := inv o /\ epl (o_props o).

Lemma epl_codes : forall l, epl l <-> forall c, In c (codes l) -> epc c.
Proof.
  intros. unfold epl. rewrite Forall_forall. split.
  - intros H c I. apply in_map_iff in I. destruct I as (p & <- & I). auto.
  - intros H p I. apply H. apply in_map. assumption.
Qed.

Lemma copy_eq : forall p, uecho_property_copy p = mkProp (p_code p) (p_attr p) (p_data p) false.
Proof. intros. unfold uecho_property_copy. rewrite setdata_eq. reflexivity. Qed.

Definition owned (p : prop) : prop := mkProp (p_code p) (p_attr p) (p_data p) true.

Lemma has_find : forall o c, uecho_object_hasproperty o c =
  match find (o_props o) c with Some _ => true | None => false end.
Proof. reflexivity. Qed.

Lemma addproperty_missing : forall o p, find (o_props o) (p_code p) = None ->
  uecho_object_addproperty o p = o_with_props (o_props o ++ [uecho_property_setparentobject true p]) o.
Proof.
  intros. unfold uecho_object_addproperty, uecho_propertylist_add. cbn [p_code uecho_property_setparentobject].
  rewrite H. reflexivity.
Qed.

Lemma addmissing_spec : forall src o,
  (forall c, find (o_props (addmissing o src)) c =
     match find (o_props o) c with Some p => Some p | None => option_map owned (find src c) end)
  /\ (NoDup (codes (o_props o)) -> NoDup (codes (o_props (addmissing o src))))
  /\ (forall p, In p (o_props (addmissing o src)) -> In p (o_props o) \/ exists q, In q src /\ p = owned q)
  /\ o_getsz (addmissing o src) = o_getsz o
  /\ (o_grp (addmissing o src), o_cls (addmissing o src), o_ins (addmissing o src)) = (o_grp o, o_cls o, o_ins o)
  /\ o_attached (addmissing o src) = o_attached o.
Proof.
  induction src as [|q src IH]; intros o.
  - cbn. split; [intros; destruct (find (o_props o) c); reflexivity|].
    split; [auto|]. split; [auto|]. auto.
  - cbn [addmissing]. rewrite has_find. destruct (find (o_props o) (p_code q)) eqn:E.
    + destruct (IH o) as (F & N & I & G). split; [|split; [assumption|split; [|assumption]]].
      * intros c. rewrite F. cbn [uecho_propertylist_findbycode]. destruct (Z.eqb_spec (p_code q) c); [|reflexivity].
        subst c. rewrite E. reflexivity.
      * intros p0 Hp. apply I in Hp. destruct Hp as [?|(x & ? & ?)]; [auto|]. right. exists x. cbn. auto.
    + rewrite addproperty_missing by (rewrite copy_eq; assumption). rewrite copy_eq.
      set (o1 := o_with_props (o_props o ++ [_]) o).
      destruct (IH o1) as (F & N & I & G1 & G2 & G3). split; [|split; [|split; [|split; [|split]]]].
      * intros c. rewrite F. unfold o1. rewrite obj_props_with, find_app. cbn [uecho_propertylist_findbycode p_code uecho_property_setparentobject].
        destruct (find (o_props o) c) eqn:Ec; [reflexivity|]. destruct (Z.eqb_spec (p_code q) c); reflexivity.
      * intros Hn. apply N. unfold o1. rewrite obj_props_with. unfold codes. rewrite map_app.
        apply nodup_snoc; [assumption|]. apply find_none. assumption.
      * intros p Hp. apply I in Hp. unfold o1 in Hp. rewrite obj_props_with in Hp.
        destruct Hp as [Hp|(x & ? & ?)].
        -- apply in_app_or in Hp. destruct Hp as [?|[<-|[]]]; [auto|]. right. exists q. cbn. auto.
        -- right. exists x. cbn. auto.
      * rewrite G1. reflexivity.
      * rewrite G2. reflexivity.
      * rewrite G3. reflexivity.
Qed.

(* the class entry of a database *)
Definition db_props (db : list obj) (g c : Z) : list prop :=
  match uecho_database_getobject db g c with Some o => o_props o | None => [] end.

Lemma addstd_with_eq : forall db o g c,
  fst (uecho_object_addstandardpropertieswithcode db o g c) = addmissing o (db_props db g c).
Proof.
  intros. unfold uecho_object_addstandardpropertieswithcode, db_props, uecho_object_addmissingobjectproperties.
  destruct (uecho_database_getobject db g c); reflexivity.
Qed.

Lemma addstd_eq : forall db o,
  fst (uecho_object_addstandardproperties db o)
  = addmissing (addmissing o (db_props db 0 0)) (db_props db (o_grp o) (o_cls o)).
Proof.
  intros. unfold uecho_object_addstandardproperties.
  pose proof (addstd_with_eq db o 0 0) as H.
  destruct (uecho_object_addstandardpropertieswithcode db o 0 0) as [o1 b1]. cbn [fst] in H. subst o1.
  destruct (addmissing_spec (db_props db 0 0) o) as (_ & _ & _ & _ & G & _).
  inversion G as [[G1 G2 G3]]. rewrite G1, G2.
  pose proof (addstd_with_eq db (addmissing o (db_props db 0 0)) (o_grp o) (o_cls o)) as H.
  destruct (uecho_object_addstandardpropertieswithcode db (addmissing o (db_props db 0 0)) (o_grp o) (o_cls o)).
  exact H.
Qed.

Definition first_some {A} (a b : option A) : option A := match a with Some _ => a | None => b end.

Lemma addstd_find : forall db o c,
  find (o_props (fst (uecho_object_addstandardproperties db o))) c
  = first_some (find (o_props o) c)
      (option_map owned (first_some (find (db_props db 0 0) c) (find (db_props db (o_grp o) (o_cls o)) c))).
Proof.
  intros. rewrite addstd_eq.
  destruct (addmissing_spec (db_props db (o_grp o) (o_cls o)) (addmissing o (db_props db 0 0))) as (F & _).
  rewrite F. destruct (addmissing_spec (db_props db 0 0) o) as (F1 & _). rewrite F1.
  destruct (find (o_props o) c); [reflexivity|]. destruct (find (db_props db 0 0) c); reflexivity.
Qed.

Lemma db_props_ok : forall db g c p, db_ok db -> In p (db_props db g c) ->
  epc (p_code p) /\ bytes_ok (p_data p).
Proof.
  intros db g c p H I. unfold db_props in I.
  assert (G : forall o, uecho_database_getobject db g c = Some o -> In o db).
  { clear. induction db; cbn; intros; [discriminate|].
    destruct ((o_grp a =? g) && (o_cls a =? c)); [inversion H; auto|auto]. }
  destruct (uecho_database_getobject db g c) as [o|] eqn:E; [|destruct I].
  unfold db_ok in H. rewrite Forall_forall in H. specialize (H o (G o eq_refl)).
  rewrite Forall_forall in H. apply H. assumption.
Qed.

Lemma addmissing_einv : forall src o,
  (forall p, In p src -> epc (p_code p) /\ bytes_ok (p_data p)) -> einv o -> einv (addmissing o src).
Proof.
  intros src o Hs [[Hn Hp] He]. destruct (addmissing_spec src o) as (F & N & I & _).
  split; [split|].
  - apply N. assumption.
  - apply Forall_forall. intros p Ip. apply I in Ip. destruct Ip as [Ip|(q & Iq & ->)].
    + apply (plist_ok_in _ _ Hp Ip).
    + apply Hs in Iq. cbn. unfold is_byte. unfold epc in Iq. split; [lia|tauto].
  - apply Forall_forall. intros p Ip. apply I in Ip. destruct Ip as [Ip|(q & Iq & ->)].
    + unfold epl in He. rewrite Forall_forall in He. auto.
    + apply Hs in Iq. cbn. tauto.
Qed.

Lemma addstd_einv : forall db o, db_ok db -> einv o -> einv (fst (uecho_object_addstandardproperties db o)).
Proof.
  intros. rewrite addstd_eq. repeat apply addmissing_einv; auto; intros; eapply db_props_ok; eauto.
Qed.

Lemma with_code_einv : forall g c i o, einv o -> einv (o_with_code g c i o).
Proof. intros. exact H. Qed.

Lemma update_einv : forall junk o o' ann, junk_ok junk -> einv o ->
  uecho_object_updatepropertymaps junk o = Ok (o', ann) -> einv o'.
Proof.
  intros junk o o' ann Hj [Hi He] H. destruct (update_view _ _ _ _ Hj Hi H) as (I' & _ & _ & C).
  split; [assumption|]. apply epl_codes. intros c Ic. apply C in Ic. rewrite epl_codes in He.
  destruct Ic as [?|Ic]; [auto|]. unfold map_epc in Ic. unfold epc. lia.
Qed.

Lemma step_einv : forall junk o op o' ann, junk_ok junk -> einv o -> oop_ok op ->
  (forall c, oop_code op = Some c -> epc c) -> ostep junk o op = Ok (o', ann) -> einv o'.
Proof.
  intros junk o op o' ann Hj [Hi He] Hok Hc H.
  destruct (step_spec _ _ _ _ _ Hj Hi Hok H) as [Hi' V].
  split; [assumption|]. apply epl_codes. intros c Ic. rewrite epl_codes in He.
  assert (D : map_epc c \/ ~ map_epc c) by (unfold map_epc; lia).
  destruct D as [D|D]; [unfold map_epc in D; unfold epc; lia|].
  specialize (V c (or_introl D)).
  assert (W : view o' c <> None).
  { rewrite view_lview. unfold lview. destruct (find (o_props o') c) eqn:E; [discriminate|].
    apply find_none in E. tauto. }
  rewrite V in W.
  assert (S : (exists c', oop_code op = Some c' /\ c' = c) \/ view o c <> None).
  { destruct op; cbn [pm_step oop_code] in *; unfold pm_set in W;
      try (destruct (Z.eqb_spec c c0); [left; eexists; split; [reflexivity|congruence]|right; exact W]).
    - destruct (view o c0) as [[? ?]|]; [|auto].
      destruct (Z.eqb_spec c c0); [left; eexists; split; [reflexivity|congruence]|right; exact W].
    - destruct (view o c0) as [[? ?]|]; [|auto].
      destruct (Z.eqb_spec c c0); [left; eexists; split; [reflexivity|congruence]|right; exact W].
    - unfold pm_empty in W. congruence. }
  destruct S as [(c' & E & <-)|S]; [auto|].
  apply He. destruct (in_dec Z.eq_dec c (codes (o_props o))) as [?|Hn]; [assumption|].
  apply find_none in Hn. exfalso. apply S. rewrite view_lview. unfold lview. rewrite Hn. reflexivity.
Qed.

Lemma getbycode_einv : forall o c, einv o -> epc c ->
  einv (o_with_props (match find (o_props o) c with Some _ => o_props o | None => o_props o ++ [dflt c] end) o).
Proof.
  intros o c [[Hn Hp] He] Hc. destruct (find (o_props o) c) eqn:E; [split; [split|]; assumption|].
  split; [split|]; rewrite obj_props_with.
  - unfold codes. rewrite map_app. apply nodup_snoc; [assumption|]. apply find_none. assumption.
  - apply Forall_app. split; [assumption|]. constructor; [|constructor]. unfold epc in Hc. split; [unfold is_byte; cbn; lia|constructor].
  - apply Forall_app. split; [assumption|]. constructor; [exact Hc|constructor].
Qed.

Lemma integer2byte_bytes : forall v size bs, uecho_integer2byte v size = Ok bs -> bytes_ok bs.
Proof.
  intros v size bs H. apply integer2byte_iff in H. destruct H as [_ ->]. apply bytes_ok_bytes.
Qed.

Lemma setint_eq : forall o c v size o' ann,
  uecho_object_setpropertyintegerdata o c v size = Ok (o', ann) ->
  exists bs, uecho_integer2byte v size = Ok bs /\ bytes_ok bs
    /\ (o', ann) = uecho_object_setpropertydata o c bs.
Proof.
  intros o c v size o' ann H. unfold uecho_object_setpropertyintegerdata, uecho_propertylist_setintegerdata in H.
  unfold uecho_object_setpropertydata, uecho_propertylist_setdata.
  destruct (uecho_propertylist_getbycode (o_props o) c) as [l1 p].
  unfold uecho_property_setintegerdata in H.
  destruct (uecho_integer2byte v size) as [bs|] eqn:E; [|discriminate H]. cbn [bind] in H.
  exists bs. split; [reflexivity|]. split; [eapply integer2byte_bytes; eauto|].
  destruct (uecho_property_setdata bs p) as [p1 a1]. cbn [bind] in H. inversion H. reflexivity.
Qed.

Definition codes_byte (o : obj) : Prop := is_byte (o_grp o) /\ is_byte (o_cls o) /\ is_byte (o_ins o).

Lemma land_byte : forall v, is_byte (Z.land v 255).
Proof. intros. change 255 with (Z.ones 8). rewrite Z.land_ones by lia. unfold is_byte. apply Z.mod_pos_bound. lia. Qed.

Lemma mask_shift : forall v n, 0 <= n -> Z.shiftr (Z.land v (Z.shiftl 255 n)) n = Z.land (Z.shiftr v n) 255.
Proof.
  intros. rewrite Z.shiftr_land. f_equal. rewrite Z.shiftr_shiftl_l by lia. rewrite Z.sub_diag. reflexivity.
Qed.

Definition code_of (v k : Z) : Z := byte_of v k.
Lemma land_byte_of0 : forall v, Z.land v 255 = byte_of v 0.
Proof.
  intros. change 255 with (Z.ones 8). rewrite Z.land_ones by lia. unfold byte_of.
  change (256 ^ 0) with 1. rewrite Z.div_1_r. reflexivity.
Qed.
Lemma mask8 : forall v, Z.shiftr (Z.land v 65280) 8 = byte_of v 1.
Proof.
  intros. change 65280 with (Z.shiftl 255 8). rewrite mask_shift by lia.
  change 8 with (Z.of_nat 1 * 8). apply shiftr_byte.
Qed.
Lemma mask16 : forall v, Z.shiftr (Z.land v 16711680) 16 = byte_of v 2.
Proof.
  intros. change 16711680 with (Z.shiftl 255 16). rewrite mask_shift by lia.
  change 16 with (Z.of_nat 2 * 8). apply shiftr_byte.
Qed.

Lemma addmissing_code : forall src o,
  o_grp (addmissing o src) = o_grp o /\ o_cls (addmissing o src) = o_cls o /\ o_ins (addmissing o src) = o_ins o.
Proof.
  intros. destruct (addmissing_spec src o) as (_ & _ & _ & _ & G & _). inversion G. auto.
Qed.

Lemma addstd_code : forall db o,
  let o' := fst (uecho_object_addstandardproperties db o) in
  o_grp o' = o_grp o /\ o_cls o' = o_cls o /\ o_ins o' = o_ins o.
Proof.
  intros. unfold o'. rewrite addstd_eq.
  destruct (addmissing_code (db_props db (o_grp o) (o_cls o)) (addmissing o (db_props db 0 0))) as (-> & -> & ->).
  apply addmissing_code.
Qed.

Lemma setmap_code : forall o m cs o' ann, uecho_object_setpropertymap o m cs = Ok (o', ann) ->
  exists l, o' = o_with_props l o.
Proof.
  intros o m cs o' ann H. unfold uecho_object_setpropertymap in H. destruct cs as [cs|]; [|discriminate].
  destruct (len cs <=? MapFormat1MaxSize).
  - destruct (uecho_propertylist_set (o_props o) m AttrRead (to_byte (len cs) :: cs)).
    inversion H; eauto.
  - destruct (map_format2 cs _) as [dd|]; cbn [bind] in H; [|discriminate].
    destruct (uecho_propertylist_setdata (o_props o) m dd). inversion H. eauto.
Qed.

Lemma update_shape : forall junk o o' ann, uecho_object_updatepropertymaps junk o = Ok (o', ann) ->
  exists l, o' = o_with_props l (o_with_getsz (o_getsz o + length (rcodes (o_props o))) o).
Proof.
  intros junk o o' ann H. unfold uecho_object_updatepropertymaps, uecho_object_clearpropertymapcaches in H.
  cbv zeta in H.
  match type of H with bind (uecho_object_setpropertymap ?a ?b ?c) _ = _ =>
    destruct (uecho_object_setpropertymap a b c) as [[o1 a1]|] eqn:E1; [|discriminate] end. cbn [bind] in H.
  match type of H with bind (uecho_object_setpropertymap ?a ?b ?c) _ = _ =>
    destruct (uecho_object_setpropertymap a b c) as [[o2 a2]|] eqn:E2; [|discriminate] end. cbn [bind] in H.
  match type of H with bind (uecho_object_setpropertymap ?a ?b ?c) _ = _ =>
    destruct (uecho_object_setpropertymap a b c) as [[o3 a3]|] eqn:E3; [|discriminate] end. cbn [bind] in H.
  inversion H; subst.
  apply setmap_code in E1. apply setmap_code in E2. apply setmap_code in E3.
  destruct E1 as [l1 ->]. destruct E2 as [l2 ->]. destruct E3 as [l3 ->].
  exists l3. unfold rcodes. rewrite map_length. reflexivity.
Qed.

Lemma setproperty_shape : forall junk o c a o' ann, uecho_object_setproperty junk o c a = Ok (o', ann) ->
  exists l n, o' = o_with_props l (o_with_getsz n o).
Proof.
  intros junk o c a o' ann H. unfold uecho_object_setproperty in H.
  destruct (uecho_propertylist_set (o_props o) c a []) as [l an].
  match type of H with bind ?e _ = _ => destruct e as [[o1 a1]|] eqn:E; [|discriminate] end.
  cbn [bind] in H. inversion H; subst. apply update_shape in E. destruct E as [l' ->].
  eexists _, _. reflexivity.
Qed.

Lemma ostep_shape : forall junk o op o' ann, ostep junk o op = Ok (o', ann) ->
  exists l n, o' = o_with_props l (o_with_getsz n o).
Proof.
  intros junk o op o' ann H.
  assert (G : forall l, o_with_props l o = o_with_props l (o_with_getsz (o_getsz o) o)) by reflexivity.
  destruct op; cbn [ostep] in H.
  - eapply setproperty_shape; eauto.
  - inversion H. eexists _, _. apply G.
  - unfold uecho_object_setpropertydata in H. destruct (uecho_propertylist_setdata (o_props o) c d).
    inversion H. eexists _, _. apply G.
  - unfold uecho_object_setpropertybytedata in H. destruct (uecho_propertylist_setbytedata (o_props o) c b).
    inversion H. eexists _, _. apply G.
  - inversion H. eexists _, _. apply G.
  - unfold object_property_setdata in H. destruct (uecho_object_getproperty o c).
    + destruct (uecho_property_setdata d p). inversion H. eexists _, _. apply G.
    + inversion H. exists (o_props o'), (o_getsz o'). destruct o'. reflexivity.
  - unfold object_property_adddata in H. destruct (uecho_object_getproperty o c).
    + destruct (uecho_property_adddata d p). inversion H. eexists _, _. apply G.
    + inversion H. exists (o_props o'), (o_getsz o'). destruct o'. reflexivity.
  - inversion H. eexists _, _. apply G.
Qed.

Lemma einv_props : forall l o o', o_props o' = l -> einv (o_with_props l o) -> einv o'.
Proof. intros l o o' <- H. exact H. Qed.

Lemma get_shape : forall o c,
  fst (uecho_object_getpropertydata o c)
  = o_with_props (match find (o_props o) c with Some _ => o_props o | None => o_props o ++ [dflt c] end) o.
Proof.
  intros. unfold uecho_object_getpropertydata, uecho_propertylist_getdata. rewrite getbycode_eq. reflexivity.
Qed.

Theorem api_einv : forall db o, db_ok db -> api_obj db o -> einv o /\ codes_byte o.
Proof.
  intros db o Hdb H. induction H.
  - split; [split; [apply inv_new|constructor]|]. unfold codes_byte, is_byte. cbn. lia.
  - destruct IHapi_obj as [I1 I2]. split; [eapply step_einv; eauto|].
    apply ostep_shape in H3. destruct H3 as (l & n & ->). exact I2.
  - destruct IHapi_obj as [I1 I2]. unfold uecho_object_setcode in H1.
    split.
    + eapply update_einv; [exact H0| |exact H1]. apply addstd_einv; [assumption|]. exact I1.
    + apply update_shape in H1. destruct H1 as (l & ->).
      match goal with |- codes_byte (o_with_props _ (o_with_getsz _ ?x)) => change (codes_byte x) end.
      match goal with |- codes_byte (fst (uecho_object_addstandardproperties db ?x)) =>
        destruct (addstd_code db x) as (E1 & E2 & E3) end.
      unfold codes_byte. rewrite E1, E2, E3. cbn [o_grp o_cls o_ins o_with_code].
      rewrite mask16, mask8, land_byte_of0. auto using byte_of_range.
  - destruct IHapi_obj as [I1 (A & B & C)]. unfold uecho_object_setgroupcode.
    split; [apply addstd_einv; [assumption|exact I1]|].
    destruct (addstd_code db (o_with_code v (o_cls o) (o_ins o) o)) as (E1 & E2 & E3).
    unfold codes_byte. rewrite E1, E2, E3. split; [assumption|split; assumption].
  - destruct IHapi_obj as [I1 (A & B & C)]. unfold uecho_object_setclasscode.
    split; [apply addstd_einv; [assumption|exact I1]|].
    destruct (addstd_code db (o_with_code (o_grp o) v (o_ins o) o)) as (E1 & E2 & E3).
    unfold codes_byte. rewrite E1, E2, E3. split; [assumption|split; assumption].
  - destruct IHapi_obj as [I1 (A & B & C)]. split; [exact I1|]. split; [assumption|split; assumption].
  - destruct IHapi_obj as [I1 I2]. apply setint_eq in H1. destruct H1 as (bs & E1 & E2 & E3).
    assert (S : ostep (fun _ => 0) o (OSetData c bs) = Ok (o', ann)) by (cbn [ostep]; rewrite <- E3; reflexivity).
    split; [|apply ostep_shape in S; destruct S as (l & n & ->); exact I2].
    apply (step_einv (fun _ => 0) o (OSetData c bs) o' ann); [intro; unfold is_byte; lia|assumption| | |exact S].
    + split; [cbn; lia|exact E2].
    + intros c0 E; inversion E; subst; exact H0.
  - destruct IHapi_obj as [I1 I2]. unfold uecho_object_getpropertydatasize, uecho_propertylist_getdatasize.
    rewrite getbycode_eq. cbn [fst]. split; [apply getbycode_einv; assumption|exact I2].
  - destruct IHapi_obj as [I1 I2]. rewrite get_shape. split; [apply getbycode_einv; assumption|exact I2].
  - destruct IHapi_obj as [I1 I2]. unfold uecho_object_getpropertyintegerdata, uecho_propertylist_getintegerdata in H1.
    rewrite getbycode_eq in H1. destruct (uecho_property_getintegerdata _); [|discriminate]. cbn [bind] in H1.
    inversion H1. split; [apply getbycode_einv; assumption|exact I2].
  - destruct IHapi_obj as [I1 I2]. unfold uecho_object_getpropertybytedata, uecho_propertylist_getbytedata in H1.
    rewrite getbycode_eq in H1. destruct (uecho_property_getbytedata _); [|discriminate]. cbn [bind] in H1.
    inversion H1. split; [apply getbycode_einv; assumption|exact I2].
  - exact IHapi_obj.
  - exact IHapi_obj.
  - exact IHapi_obj.
Qed.

(* ---- the contents of the three maps after an update ---- *)

Lemma filter_codes_epc : forall l f, epl l -> Forall epc (map p_code (filter f l)).
Proof.
  intros l f H. apply Forall_forall. intros c I. apply in_map_iff in I. destruct I as (p & <- & I).
  apply filter_In in I. unfold epl in H. rewrite Forall_forall in H. apply H. tauto.
Qed.
Lemma filter_codes_nodup : forall l (f : prop -> bool), NoDup (codes l) -> NoDup (map p_code (filter f l)).
Proof.
  induction l; cbn; intros; [constructor|]. inversion H; subst. destruct (f a); [|auto].
  cbn. constructor; [|auto]. intros I. apply H2. apply in_map_iff in I. destruct I as (p & E & I).
  apply filter_In in I. rewrite <- E. apply in_map. tauto.
Qed.
Lemma in_filter_codes : forall l (f : prop -> bool) c, NoDup (codes l) ->
  (In c (map p_code (filter f l)) <-> exists p, find l c = Some p /\ f p = true).
Proof.
  intros l f c N. rewrite in_map_iff. split.
  - intros (p & <- & I). apply filter_In in I. exists p. split; [apply find_in_nodup; tauto|tauto].
  - intros (p & E & F). apply find_code in E. destruct E as [<- I]. exists p. split; [reflexivity|].
    apply filter_In. auto.
Qed.

Lemma stored_lists : forall o m cs d r, NoDup cs -> Forall epc cs ->
  uecho_object_setpropertymap o m (Some cs)
    = Ok (o_with_props (put (o_props o) m (map_store (len cs) d)) o, r) ->
  map_complete d /\ nth_error d 0 = Some (len cs)
  /\ forall c, map_lists d c <-> In c cs /\ (len cs <= 15 \/ c < 192).
Proof.
  intros o m cs d r N E H. destruct (setmap_spec o m cs E) as (d' & H' & B & F1 & F2).
  assert (d = d') by (eapply setmap_det; eauto). subst d'.
  apply setmap_lists; assumption.
Qed.

Lemma map_code_ne : forall n d (m : Z) p, p_code p = m -> p_code (map_store n d p) = m.
Proof. intros. rewrite map_store_code. assumption. Qed.

(* property maps after an update: each map property holds a complete map that lists the
   codes selected before the update (minus those above 0xBF in bitmap format) *)
Lemma update_maps : forall junk o o' ann, junk_ok junk -> einv o ->
  uecho_object_updatepropertymaps junk o = Ok (o', ann) ->
  (forall m f, (m = 158 /\ f = uecho_property_iswritable) \/ (m = 157 /\ f = uecho_property_isannounceable)
             \/ (m = 159 /\ f = uecho_property_isreadable /\ o_getsz o = O) ->
     exists p, find (o_props o') m = Some p /\ map_complete (p_data p)
       /\ nth_error (p_data p) 0 = Some (len (filter f (o_props o)))
       /\ forall c, map_lists (p_data p) c
            <-> (exists q, find (o_props o) c = Some q /\ f q = true)
                /\ (len (filter f (o_props o)) <= 15 \/ c < 192))
  /\ (exists p, find (o_props o') 159 = Some p
        /\ nth_error (p_data p) 0
           = Some ((Z.of_nat (o_getsz o) + len (filter uecho_property_isreadable (o_props o))) mod 256)).
Proof.
  intros junk o o' ann Hj [[Hn Hp] He] H.
  destruct (update_spec _ _ _ _ Hj Hp H) as (gs & dg & ds & da & Eg & X). cbv zeta in X.
  destruct X as (-> & _ & B1 & B2 & B3 & N1 & S1 & S2 & S3).
  set (l := o_props o) in *.
  rewrite obj_props_with.
  assert (L : forall f, len (map p_code (filter f l)) = len (filter f l)).
  { intros. unfold len. rewrite map_length. reflexivity. }
  assert (Q : forall m gs d (f : prop -> bool), gs = map p_code (filter f l) ->
     map_complete d /\ nth_error d 0 = Some (len gs) /\ (forall c, map_lists d c <-> In c gs /\ (len gs <= 15 \/ c < 192)) ->
     forall l', find (put l' m (map_store (len gs) d)) m = Some (map_store (len gs) d (got l' m)) ->
     exists p, find (put l' m (map_store (len gs) d)) m = Some p /\ map_complete (p_data p)
       /\ nth_error (p_data p) 0 = Some (len (filter f l))
       /\ forall c, map_lists (p_data p) c
            <-> (exists q, find l c = Some q /\ f q = true) /\ (len (filter f l) <= 15 \/ c < 192)).
  { intros m gs' d f -> (M1 & M2 & M3) l' F. eexists. split; [exact F|]. rewrite map_store_data.
    rewrite L in M2, M3. split; [assumption|]. split; [assumption|]. intros c. rewrite M3.
    rewrite in_filter_codes by assumption. tauto. }
  assert (P : forall l' m n d, find (put l' m (map_store n d)) m = Some (map_store n d (got l' m))).
  { intros. rewrite put_find by (apply map_code_ne). rewrite Z.eqb_refl. reflexivity. }
  assert (P' : forall l' m n d m', m' <> m -> find (put l' m (map_store n d)) m' = find l' m').
  { intros. rewrite put_find by (apply map_code_ne). replace (m' =? m) with false by lia. reflexivity. }
  split.
  - intros m f [[-> ->]|[[-> ->]|(-> & -> & G)]].
    + rewrite P' by lia. apply Q; [reflexivity| |apply P].
      destruct (S2 (o_with_props (put l 159 (map_store (len gs) dg)) o) eq_refl) as [r S].
      apply (stored_lists _ _ _ _ _ (filter_codes_nodup _ _ Hn) (filter_codes_epc _ _ He) S).
    + apply Q; [reflexivity| |apply P].
      destruct (S3 (o_with_props (put (put l 159 (map_store (len gs) dg)) 158 (map_store (len (wcodes l)) ds)) o) eq_refl) as [r S].
      apply (stored_lists _ _ _ _ _ (filter_codes_nodup _ _ Hn) (filter_codes_epc _ _ He) S).
    + rewrite P' by lia. rewrite P' by lia.
      assert (gs = rcodes l).
      { unfold get_cache in Eg. rewrite G in Eg. cbv zeta in Eg. unfold rcodes.
        destruct (map p_code (filter uecho_property_isreadable l)); inversion Eg; reflexivity. }
      subst gs. apply Q; [reflexivity| |apply P].
      destruct (S1 (o_with_props l o) eq_refl) as [r S].
      apply (stored_lists (o_with_props l o) _ _ _ _ (filter_codes_nodup _ _ Hn) (filter_codes_epc _ _ He) S).
  - rewrite P' by lia. rewrite P' by lia. eexists. split; [apply P|]. rewrite map_store_data, N1. f_equal.
    unfold to_byte. f_equal. unfold get_cache in Eg. cbv zeta in Eg.
    rewrite <- (L uecho_property_isreadable).
    destruct (map p_code (filter uecho_property_isreadable l)) eqn:E.
    + destruct (o_getsz o); inversion Eg. reflexivity.
    + inversion Eg. unfold len. rewrite app_length, map_length, seq_length. lia.
Qed.
