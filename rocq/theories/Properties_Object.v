(* C08 (objects), C15, C16, C20, C45: objects, their properties and property maps, and the
   standard object database. *)
From Coq Require Import ZArith List Bool Lia ZifyBool ZifyNat.
From Verif Require Import CSem M_Const M_Misc M_Property M_PropertyList M_Object StdDB_Data M_Std Spec_Map Spec_Object
  Spec_Std Run_Object P_Base P_Misc P_Map P_PropertyList P_MapProps P_Object P_ObjectRun P_ObjectReach P_Std
  Properties_Map.
Import ListNotations.
Open Scope Z_scope.
Ltac Zify.zify_post_hook ::= Z.div_mod_to_equations.

Definition zeros : nat -> Z := fun _ => 0.
Lemma zeros_ok : forall i, is_byte (zeros i).
Proof. intros. unfold zeros, is_byte. lia. Qed.

(* ---------- C08: object codes ---------- *)

Lemma getcode_eq : forall o, codes_byte o ->
  uecho_object_getcode o = o_grp o * 65536 + o_cls o * 256 + o_ins o.
Proof.
  intros o (H1 & H2 & H3). unfold uecho_object_getcode, is_byte in *.
  change 16711680 with (Z.shiftl 255 16). change 65280 with (Z.shiftl 255 8).
  rewrite <- !Z.shiftl_land.
  change 255 with (Z.ones 8). rewrite !Z.land_ones by lia.
  rewrite !(Z.mod_small _ (2 ^ 8)) by lia. rewrite Z.lor_0_l.
  assert (A : Z.lor (Z.shiftl (o_grp o) 16) (Z.shiftl (o_cls o) 8) = Z.shiftl (o_grp o) 16 + Z.shiftl (o_cls o) 8).
  { symmetry. rewrite <- Z.lxor_lor; [apply Z.add_nocarry_lxor|];
    (apply Z.bits_inj'; intros n Hn; rewrite Z.land_spec, Z.bits_0;
     destruct (Z.ltb_spec n 16);
     [rewrite Z.shiftl_spec_low by lia; reflexivity|];
     rewrite (Z.shiftl_spec _ 8) by lia; rewrite (Z.bits_above_log2 (o_cls o)); [apply andb_false_r|lia|];
     destruct (Z.eq_dec (o_cls o) 0) as [->|]; [cbn; lia|];
     apply Z.log2_lt_pow2; [lia|]; apply Z.lt_le_trans with (2 ^ 8); [lia|apply Z.pow_le_mono_r; lia]). }
  rewrite A.
  assert (B : Z.lor (Z.shiftl (o_grp o) 16 + Z.shiftl (o_cls o) 8) (o_ins o)
              = Z.shiftl (o_grp o) 16 + Z.shiftl (o_cls o) 8 + o_ins o).
  { replace (Z.shiftl (o_grp o) 16 + Z.shiftl (o_cls o) 8) with (Z.shiftl (o_grp o * 256 + o_cls o) 8)
      by (rewrite !Z.shiftl_mul_pow2 by lia; lia).
    symmetry. rewrite <- Z.lxor_lor; [apply Z.add_nocarry_lxor|];
    (apply Z.bits_inj'; intros n Hn; rewrite Z.land_spec, Z.bits_0;
     destruct (Z.ltb_spec n 8);
     [rewrite Z.shiftl_spec_low by lia; reflexivity|];
     rewrite (Z.bits_above_log2 (o_ins o)); [apply andb_false_r|lia|];
     destruct (Z.eq_dec (o_ins o) 0) as [->|]; [cbn; lia|];
     apply Z.log2_lt_pow2; [lia|]; apply Z.lt_le_trans with (2 ^ 8); [lia|apply Z.pow_le_mono_r; lia]). }
  rewrite B. rewrite !Z.shiftl_mul_pow2 by lia. lia.
Qed.

Lemma setcode_code : forall db o junk v o' ann,
  uecho_object_setcode db junk o v = Ok (o', ann) ->
  o_grp o' = v / 65536 mod 256 /\ o_cls o' = v / 256 mod 256 /\ o_ins o' = v mod 256.
Proof.
  intros db o junk v o' ann H. unfold uecho_object_setcode in H. apply update_shape in H. destruct H as (l & ->).
  cbn [o_grp o_cls o_ins o_with_props o_with_getsz].
  match goal with |- context [fst (uecho_object_addstandardproperties db ?x)] =>
    destruct (addstd_code db x) as (E1 & E2 & E3) end.
  rewrite E1, E2, E3. cbn [o_grp o_cls o_ins o_with_code].
  rewrite mask16, mask8, land_byte_of0. unfold byte_of.
  change (256 ^ 2) with 65536. change (256 ^ 1) with 256. change (256 ^ 0) with 1.
  rewrite Z.div_1_r. auto.
Qed.

(* Reading back the code of an object gives the code set, modulo 2^24; it is group, class
   and instance in that order. *)
Theorem C08_object_setcode : forall o junk v o' ann,
  api_obj std_db o -> (forall i, is_byte (junk i)) ->
  uecho_object_setcode std_db junk o v = Ok (o', ann) ->
  uecho_object_getcode o' = v mod 16777216
  /\ o_grp o' = v / 65536 mod 256 /\ o_cls o' = v / 256 mod 256 /\ o_ins o' = v mod 256.
Proof.
  intros o junk v o' ann Ho Hj H.
  assert (Ho' : api_obj std_db o') by (eapply ao_setcode; eauto).
  destruct (api_einv _ _ std_db_ok Ho') as [_ Hb].
  rewrite (getcode_eq _ Hb). destruct (setcode_code _ _ _ _ _ _ H) as (-> & -> & ->). lia.
Qed.
Print Assumptions C08_object_setcode.

Definition byte1 (n : Z) (code : Z) : Z := code / 256 ^ n mod 256.

Lemma object_parts : forall db o v, db_ok db -> api_obj db o -> is_byte v ->
  (let c' := uecho_object_getcode (uecho_object_setgroupcode db o v) in
   byte1 2 c' = v /\ c' mod 65536 = uecho_object_getcode o mod 65536)
  /\ (let c' := uecho_object_getcode (uecho_object_setclasscode db o v) in
      byte1 1 c' = v /\ byte1 2 c' = byte1 2 (uecho_object_getcode o)
      /\ byte1 0 c' = byte1 0 (uecho_object_getcode o))
  /\ (let c' := uecho_object_getcode (uecho_object_setinstancecode o v) in
      byte1 0 c' = v /\ c' / 256 = uecho_object_getcode o / 256)
  /\ 0 <= uecho_object_getcode o < 16777216.
Proof.
  intros db o v Hdb Ho Hv. destruct (api_einv _ _ Hdb Ho) as [_ Hb]. pose proof Hb as (B1 & B2 & B3).
  rewrite (getcode_eq o Hb).
  rewrite (getcode_eq (uecho_object_setgroupcode db o v))
    by (apply (api_einv db); [assumption|constructor; assumption]).
  rewrite (getcode_eq (uecho_object_setclasscode db o v))
    by (apply (api_einv db); [assumption|constructor; assumption]).
  rewrite (getcode_eq (uecho_object_setinstancecode o v))
    by (apply (api_einv db); [assumption|constructor; assumption]).
  unfold uecho_object_setgroupcode, uecho_object_setclasscode, uecho_object_setinstancecode.
  destruct (addstd_code db (o_with_code v (o_cls o) (o_ins o) o)) as (E1 & E2 & E3).
  destruct (addstd_code db (o_with_code (o_grp o) v (o_ins o) o)) as (F1 & F2 & F3).
  rewrite E1, E2, E3, F1, F2, F3. cbn [o_grp o_cls o_ins o_with_code].
  unfold byte1. change (256 ^ 2) with 65536. change (256 ^ 1) with 256. change (256 ^ 0) with 1.
  unfold is_byte in *. repeat split; lia.
Qed.

(* Setting one of the three parts leaves the two others unchanged. *)
Theorem C08_object_parts : forall o v, api_obj std_db o -> is_byte v ->
  (let c' := uecho_object_getcode (uecho_object_setgroupcode std_db o v) in
   byte1 2 c' = v /\ c' mod 65536 = uecho_object_getcode o mod 65536)
  /\ (let c' := uecho_object_getcode (uecho_object_setclasscode std_db o v) in
      byte1 1 c' = v /\ byte1 2 c' = byte1 2 (uecho_object_getcode o)
      /\ byte1 0 c' = byte1 0 (uecho_object_getcode o))
  /\ (let c' := uecho_object_getcode (uecho_object_setinstancecode o v) in
      byte1 0 c' = v /\ c' / 256 = uecho_object_getcode o / 256)
  /\ 0 <= uecho_object_getcode o < 16777216.
Proof. intros. apply object_parts; [apply std_db_ok|assumption|assumption]. Qed.
Print Assumptions C08_object_parts.

(* a home air conditioner, instance 1 *)
Example C08_example : exists o' ann,
  uecho_object_setcode std_db zeros uecho_object_new 77825 = Ok (o', ann)
  /\ uecho_object_getcode o' = 77825 /\ uecho_object_getpropertycount o' = 68.
Proof. eexists _, _. split; [vm_compute; reflexivity|]. split; vm_compute; reflexivity. Qed.

(* ---------- C15: the properties are a finite map ---------- *)

(* Through any history of calls each code occurs once, and what the object shows for a
   code is what the history wrote to it, starting from what it showed before.  Only the
   three property maps can differ, and only when the history calls
   uecho_object_setproperty, which rewrites them. *)
Theorem C15_finite_map : forall o h o',
  api_obj std_db o -> hist_ok h -> orun o h = Ok o' ->
  NoDup (map p_code (uecho_object_getproperties o'))
  /\ (forall c, ~ map_epc c -> view o' c = pm_run (view o) (map fst h) c)
  /\ ((forall c a, ~ In (OSetProperty c a) (map fst h)) ->
      forall c, view o' c = pm_run (view o) (map fst h) c).
Proof.
  intros o h o' Ho Hh H. destruct (api_einv _ _ std_db_ok Ho) as [[Hi _] _].
  destruct (run_spec _ _ _ Hh Hi H) as [[N _] V].
  split; [exact N|]. split; intros; apply V; auto.
Qed.
Print Assumptions C15_finite_map.

(* An operation on one code leaves every other code unchanged, except the property maps
   when it is uecho_object_setproperty. *)
Theorem C15_other_codes_unchanged : forall o junk op o' ann c,
  api_obj std_db o -> oop_ok op -> (forall i, is_byte (junk i)) ->
  ostep junk o op = Ok (o', ann) ->
  op <> OClear -> oop_code op <> Some c ->
  (~ map_epc c \/ forall c' a', op <> OSetProperty c' a') ->
  view o' c = view o c.
Proof.
  intros o junk op o' ann c Ho Hok Hj H Hc Hn Hm. destruct (api_einv _ _ std_db_ok Ho) as [[Hi _] _].
  destruct (step_spec _ _ _ _ _ Hj Hi Hok H) as [_ V]. rewrite V by assumption.
  assert (E : forall e c0, oop_code op = Some c0 -> pm_set (view o) c0 e c = view o c).
  { intros e c0 E. unfold pm_set. destruct (Z.eqb_spec c c0); [subst; congruence|reflexivity]. }
  destruct op; cbn [pm_step oop_code] in *; try congruence; try (apply E; reflexivity);
    destruct (view o c0) as [[? ?]|]; try reflexivity; apply E; reflexivity.
Qed.
Print Assumptions C15_other_codes_unchanged.

(* The getters return the attribute and the data shown by [view]. *)
Theorem C15_getters_partial : forall o c a d, view o c = Some (a, d) ->
  (exists p, uecho_object_getproperty o c = Some p /\ p_code p = c
     /\ p_attr p = a /\ p_data p = d
     /\ uecho_property_getdatasize p = len d)
  /\ uecho_object_getpropertydata o c = (o, d)
  /\ (len d < 256 -> uecho_object_getpropertydatasize o c = (o, len d))
  /\ uecho_object_getpropertybytedata o c = Ok (o, match d with [x] => Some x | _ => None end).
Proof.
  intros o c a d H. unfold view, uecho_object_getproperty in H.
  destruct (find (o_props o) c) as [p|] eqn:E; [|discriminate]. inversion H; subst. clear H.
  assert (W : o_with_props (o_props o) o = o) by (destruct o; reflexivity).
  split; [exists p; split; [exact E|]; split; [apply find_code in E; tauto|]; auto|].
  unfold uecho_object_getpropertydata, uecho_propertylist_getdata, uecho_object_getpropertydatasize,
    uecho_propertylist_getdatasize, uecho_object_getpropertybytedata, uecho_propertylist_getbytedata.
  rewrite getbycode_eq. unfold got. rewrite E. rewrite W. split; [reflexivity|]. split.
  - intros L. unfold uecho_property_getdatasize. rewrite to_byte_id; [reflexivity|].
    unfold is_byte. pose proof (len_nonneg _ (p_data p)). lia.
  - unfold uecho_property_getbytedata, uecho_property_getdatasize.
    destruct (p_data p) as [|x [|y r]]; [cbn; rewrite W; reflexivity|cbn; rewrite W; reflexivity|].
    rewrite !len_cons. pose proof (len_nonneg _ r). replace (1 + (1 + len r) =? 1) with false by lia.
    cbn. rewrite W. reflexivity.
Qed.
Print Assumptions C15_getters_partial.

(* Missing from the statement above: the size of data longer than 255 bytes. *)
Theorem C15_size_refuted : exists o c a d,
  api_obj std_db o /\ view o c = Some (a, d) /\ snd (uecho_object_getpropertydatasize o c) <> len d.
Proof.
  exists (fst (uecho_object_setpropertydata uecho_object_new 128 (repeat 0 300))), 128, 3, (repeat 0 300).
  split.
  - apply (ao_step _ uecho_object_new zeros (OSetData 128 (repeat 0 300)) _ (snd (uecho_object_setpropertydata uecho_object_new 128 (repeat 0 300)))).
    + constructor.
    + split; [cbn; lia|]. apply Forall_forall. intros x I. apply repeat_spec in I. subst. lia.
    + intros c E. inversion E. lia.
    + apply zeros_ok.
    + reflexivity.
  - split; [reflexivity|]. vm_compute. discriminate.
Qed.
Print Assumptions C15_size_refuted.

(* the Get property map is readable after an update *)
Lemma update_safe : forall junk o o' ann, junk_ok junk -> inv o ->
  (forall p, find (o_props o) 159 = Some p -> uecho_property_isreadable p = true) ->
  uecho_object_updatepropertymaps junk o = Ok (o', ann) ->
  safe o' /\ forall p, find (o_props o') 159 = Some p -> uecho_property_isreadable p = true.
Proof.
  intros junk o o' ann Hj Hi Hr E.
  destruct (update_spec _ _ _ _ Hj (proj2 Hi) E) as (gs & dg & ds & da & Eg & Eo & _). cbv zeta in Eo.
  destruct (get_map_readable (o_props o) (len gs) dg (len (wcodes (o_props o))) ds (len (acodes (o_props o))) da Hr)
    as (q & Q1 & Q2).
  assert (Q3 : find (o_props o') 159 = Some q) by (rewrite Eo; exact Q1).
  split; [right; exists q; auto|]. intros p Hp. congruence.
Qed.

Lemma setcode_safe : forall db junk v, db_ok db -> junk_ok junk ->
  (forall g c p, find (db_props db g c) 159 = Some p -> uecho_property_isreadable p = true) ->
  exists o ann, uecho_object_setcode db junk uecho_object_new v = Ok (o, ann)
    /\ inv o /\ safe o /\ forall p, find (o_props o) 159 = Some p -> uecho_property_isreadable p = true.
Proof.
  intros db junk v Hdb Hj Hr. unfold uecho_object_setcode.
  set (o0 := o_with_code _ _ _ uecho_object_new).
  assert (E0 : einv o0) by (split; [apply inv_new|constructor]).
  pose proof (addstd_einv db o0 Hdb E0) as E1.
  assert (G : o_getsz (fst (uecho_object_addstandardproperties db o0)) = O).
  { rewrite addstd_eq.
    destruct (addmissing_spec (db_props db (o_grp o0) (o_cls o0)) (addmissing o0 (db_props db 0 0))) as (_ & _ & _ & -> & _).
    destruct (addmissing_spec (db_props db 0 0) o0) as (_ & _ & _ & -> & _). reflexivity. }
  destruct (proj2 (update_ok_iff junk _ Hj (proj2 (proj1 E1))) (or_introl G)) as ([o ann] & U).
  exists o, ann. split; [exact U|].
  pose proof (update_einv _ _ _ _ Hj E1 U) as [I _]. split; [exact I|].
  eapply update_safe; [exact Hj|exact (proj1 E1)| |exact U].
  intros p F. rewrite addstd_find in F. cbn [o_props o0 o_with_code uecho_object_new uecho_propertylist_findbycode first_some] in F.
  destruct (find (db_props db 0 0) 159) as [q|] eqn:Q.
  - cbn in F. inversion F; subst. apply (Hr _ _ _ Q).
  - cbn [first_some] in F. destruct (find (db_props db (o_grp o0) (o_cls o0)) 159) as [q|] eqn:Q'; [|discriminate].
    cbn in F. inversion F; subst. apply (Hr _ _ _ Q').
Qed.

Lemma listed_159 : forall g cls r, listed g cls 159 = Some r -> grants (fst (fst r)) = true.
Proof.
  intros g cls r H. unfold listed, class_rows in H.
  assert (A : forallb (fun e => forallb (fun x => negb (row_code x =? 159) || grants (snd (fst (fst x)))) (snd e)) std_rows = true)
    by (vm_compute; reflexivity).
  rewrite forallb_forall in A.
  match type of H with context [List.find ?f std_rows] => destruct (List.find f std_rows) as [e|] eqn:E end.
  - apply find_some in E. specialize (A _ (proj1 E)). rewrite forallb_forall in A.
    destruct (List.find _ (rev (snd e))) as [[[[c1 g1] s1] a1]|] eqn:E2; [|discriminate].
    apply find_some in E2. destruct E2 as [I2 E2]. specialize (A _ (proj2 (in_rev _ _) I2)).
    cbn in *. rewrite E2 in A. inversion H. subst. exact A.
  - cbn in H. discriminate.
Qed.

Lemma std_159 : forall g c p, find (db_props std_db g c) 159 = Some p -> uecho_property_isreadable p = true.
Proof.
  intros g c p H. rewrite std_find in H. destruct (listed g c 159) as [[[r s] a]|] eqn:E; [|discriminate].
  apply listed_159 in E. cbn [fst] in E. cbn [option_map] in H. inversion H.
  destruct (std_prop_spec 159 r s a) as (_ & _ & _ & R & _). rewrite E in R. exact R.
Qed.

(* No history that stays away from clearproperties and from the three map codes meets
   undefined behaviour, on a new object or on an object of any standard code. *)
Theorem C15_no_undefined_behaviour : forall h, hist_ok h ->
  Forall (fun op => op <> OClear /\ forall c, oop_code op = Some c -> ~ map_epc c) (map fst h) ->
  (exists o', orun uecho_object_new h = Ok o')
  /\ (forall junk v, (forall i, is_byte (junk i)) ->
      exists o ann o', uecho_object_setcode std_db junk uecho_object_new v = Ok (o, ann) /\ orun o h = Ok o').
Proof.
  intros h Hh Hm. split.
  - apply run_safe; auto; [apply inv_new|discriminate|left; reflexivity].
  - intros junk v Hj. destruct (setcode_safe std_db junk v std_db_ok Hj std_159) as (o & ann & E & I & S & R).
    destruct (run_safe h o Hh I Hm R S) as [o' E']. exists o, ann, o'. auto.
Qed.
Print Assumptions C15_no_undefined_behaviour.

Example C15_example : exists o',
  let h := [(OSetProperty 128 3, zeros); (OSetData 128 [48], zeros); (OSetProperty 200 1, zeros);
            (OSetAttr 128 1, zeros); (OPropAppend 128 [49], zeros); (OSetByte 201 7, zeros)] in
  hist_ok h /\ orun uecho_object_new h = Ok o'
  /\ view o' 128 = Some (1, [48; 49]) /\ view o' 200 = Some (1, []) /\ view o' 201 = Some (3, [7])
  /\ view o' 199 = None.
Proof.
  eexists. cbv zeta. split.
  - repeat (apply Forall_cons; [split; [split; [cbn; lia|cbn; try exact I; repeat constructor; lia]|apply zeros_ok]|]). apply Forall_nil.
  - split; [vm_compute; reflexivity|]. repeat split; reflexivity.
Qed.

(* ---------- C16: reading does not change the object ---------- *)

(* uecho_object_getproperty and uecho_object_hasproperty are functions of the object in the
   model: they return no new object because the C code stores nothing.  The four data
   getters store the object; on a property the object has, it is unchanged. *)
Theorem C16_reads_partial : forall o c, uecho_object_hasproperty o c = true ->
  fst (uecho_object_getpropertydata o c) = o
  /\ fst (uecho_object_getpropertydatasize o c) = o
  /\ (forall o' v, uecho_object_getpropertyintegerdata o c = Ok (o', v) -> o' = o)
  /\ (forall o' v, uecho_object_getpropertybytedata o c = Ok (o', v) -> o' = o).
Proof.
  intros o c H. rewrite has_find in H. destruct (find (o_props o) c) as [p|] eqn:E; [|discriminate].
  assert (W : o_with_props (o_props o) o = o) by (destruct o; reflexivity).
  unfold uecho_object_getpropertydata, uecho_propertylist_getdata, uecho_object_getpropertydatasize,
    uecho_propertylist_getdatasize, uecho_object_getpropertybytedata, uecho_propertylist_getbytedata,
    uecho_object_getpropertyintegerdata, uecho_propertylist_getintegerdata.
  rewrite getbycode_eq, E. cbn [fst]. rewrite W. split; [reflexivity|]. split; [reflexivity|].
  split; intros o' v H1.
  - destruct (uecho_property_getintegerdata _); [|discriminate]. inversion H1. exact W.
  - destruct (uecho_property_getbytedata _); [|discriminate]. inversion H1. exact W.
Qed.
Print Assumptions C16_reads_partial.

(* Whether or not the object has the property, the getters change no other property. *)
Theorem C16_other_properties : forall o c c', c' <> c ->
  uecho_object_getproperty (fst (uecho_object_getpropertydata o c)) c' = uecho_object_getproperty o c'
  /\ uecho_object_getproperty (fst (uecho_object_getpropertydatasize o c)) c' = uecho_object_getproperty o c'
  /\ (forall o' v, uecho_object_getpropertyintegerdata o c = Ok (o', v) ->
      uecho_object_getproperty o' c' = uecho_object_getproperty o c')
  /\ (forall o' v, uecho_object_getpropertybytedata o c = Ok (o', v) ->
      uecho_object_getproperty o' c' = uecho_object_getproperty o c').
Proof.
  intros o c c' H.
  assert (F : find (match find (o_props o) c with Some _ => o_props o | None => o_props o ++ [dflt c] end) c'
              = find (o_props o) c').
  { destruct (find (o_props o) c); [reflexivity|]. rewrite find_app. cbn. replace (c =? c') with false by lia.
    destruct (find (o_props o) c'); reflexivity. }
  unfold uecho_object_getpropertydata, uecho_propertylist_getdata, uecho_object_getpropertydatasize,
    uecho_propertylist_getdatasize, uecho_object_getpropertybytedata, uecho_propertylist_getbytedata,
    uecho_object_getpropertyintegerdata, uecho_propertylist_getintegerdata, uecho_object_getproperty.
  rewrite getbycode_eq. cbn [fst]. rewrite obj_props_with. split; [exact F|]. split; [exact F|].
  split; intros o' v H1.
  - destruct (uecho_property_getintegerdata _); [|discriminate]. inversion H1. exact F.
  - destruct (uecho_property_getbytedata _); [|discriminate]. inversion H1. exact F.
Qed.
Print Assumptions C16_other_properties.

(* Every read of a code the object does not have creates it, readable and writable. *)
Theorem C16_reads_refuted :
  (exists o c, api_obj std_db o /\ uecho_object_hasproperty o c = false
     /\ uecho_object_hasproperty (fst (uecho_object_getpropertydatasize o c)) c = true)
  /\ forall o c, uecho_object_hasproperty o c = false ->
       view (fst (uecho_object_getpropertydatasize o c)) c = Some (3, [])
       /\ uecho_object_getpropertycount (fst (uecho_object_getpropertydatasize o c))
          = uecho_object_getpropertycount o + 1.
Proof.
  assert (G : forall o c, uecho_object_hasproperty o c = false ->
       view (fst (uecho_object_getpropertydatasize o c)) c = Some (3, [])
       /\ uecho_object_getpropertycount (fst (uecho_object_getpropertydatasize o c))
          = uecho_object_getpropertycount o + 1).
  { intros o c H. rewrite has_find in H. destruct (find (o_props o) c) eqn:E; [discriminate|].
    unfold uecho_object_getpropertydatasize, uecho_propertylist_getdatasize. rewrite getbycode_eq, E. cbn [fst].
    split.
    - unfold view, uecho_object_getproperty. rewrite obj_props_with, find_app, E. cbn. rewrite Z.eqb_refl. reflexivity.
    - unfold uecho_object_getpropertycount. rewrite obj_props_with, len_app. reflexivity. }
  split; [|exact G]. exists uecho_object_new, 128. split; [constructor|]. split; reflexivity.
Qed.
Print Assumptions C16_reads_refuted.

Example C16_example : exists o ann,
  uecho_object_setcode std_db zeros uecho_object_new 77825 = Ok (o, ann)
  /\ uecho_object_hasproperty o 128 = true /\ uecho_object_hasproperty o 245 = false.
Proof. eexists _, _. split; [vm_compute; reflexivity|]. split; vm_compute; reflexivity. Qed.

(* ---------- C20: the property maps track the properties ---------- *)

(* uecho_object_setproperty, split: the properties before the maps are rewritten *)
Lemma setproperty_split : forall junk o c a o' ann, junk_ok junk -> einv o -> epc c ->
  uecho_object_setproperty junk o c a = Ok (o', ann) ->
  exists o1 ann1, einv o1 /\ o_getsz o1 = o_getsz o /\ uecho_object_updatepropertymaps junk o1 = Ok (o', ann1)
    /\ o1 = o_with_props (put (o_props o) c (fun p => uecho_property_setparentobject true (uecho_property_setattribute a (put_data [] p)))) o.
Proof.
  intros junk o c a o' ann Hj [Hi He] Hc H. unfold uecho_object_setproperty in H.
  rewrite pl_set_eq in H. rewrite put_put in H by (intros; assumption).
  match type of H with bind ?e _ = _ => destruct e as [[o2 a2]|] eqn:E; [|discriminate] end.
  cbn [bind] in H. inversion H; subst.
  eexists _, _. split; [|split; [|split; [exact E|reflexivity]]]; [|reflexivity].
  split.
  - apply put_inv; auto; [unfold epc in Hc; unfold is_byte; lia|intros; constructor].
  - apply epl_codes. intros x I. rewrite obj_props_with, put_codes in I by (intros; assumption).
    apply in_add_end in I. rewrite epl_codes in He. destruct I as [->|I]; auto.
Qed.

Lemma view_access : forall o o' c (f : prop -> bool), (forall p q, p_attr p = p_attr q -> f p = f q) ->
  view o' c = view o c ->
  ((exists q, find (o_props o) c = Some q /\ f q = true) <-> exists q, find (o_props o') c = Some q /\ f q = true).
Proof.
  intros o o' c f Hf V. unfold view, uecho_object_getproperty in V.
  destruct (find (o_props o) c) as [q|], (find (o_props o') c) as [q'|]; try discriminate.
  - inversion V. assert (f q = f q') by (apply Hf; congruence).
    split; intros (x & E & F); inversion E; subst; eexists; (split; [reflexivity|congruence]).
  - split; intros (x & E & F); discriminate.
Qed.

Definition has_access (f : prop -> bool) (o : obj) (c : Z) : Prop :=
  exists p, uecho_object_getproperty o c = Some p /\ f p = true.

(* [o'] shows in map property [m] a complete property map which lists, among the codes other
   than the three maps, exactly those with access [f]; codes 0xC0..0xFF are only covered
   when the map lists at most 15 properties. *)
Definition map_tracks (o' : obj) (m : Z) (f : prop -> bool) : Prop :=
  exists p n, uecho_object_getproperty o' m = Some p /\ map_complete (p_data p)
    /\ nth_error (p_data p) 0 = Some n
    /\ forall c, ~ map_epc c ->
         (map_lists (p_data p) c <-> has_access f o' c /\ (n <= 15 \/ c < 192)).

Lemma update_tracks : forall junk o o' ann m f, junk_ok junk -> einv o ->
  uecho_object_updatepropertymaps junk o = Ok (o', ann) ->
  (m = 158 /\ f = uecho_property_iswritable) \/ (m = 157 /\ f = uecho_property_isannounceable)
    \/ (m = 159 /\ f = uecho_property_isreadable /\ o_getsz o = O) ->
  map_tracks o' m f.
Proof.
  intros junk o o' ann m f Hj He U D.
  assert (Hf : forall p q, p_attr p = p_attr q -> f p = f q).
  { intros p q E. destruct D as [[_ ->]|[[_ ->]|[_ [-> _]]]];
      unfold uecho_property_iswritable, uecho_property_isannounceable, uecho_property_isreadable; rewrite E; reflexivity. }
  destruct (update_maps _ _ _ _ Hj He U) as [M _]. destruct (M m f D) as (p & F & C & N & L).
  exists p. eexists. split; [exact F|]. split; [exact C|]. split; [exact N|].
  intros c Hc. rewrite L. destruct (update_view _ _ _ _ Hj (proj1 He) U) as (_ & V & _ & _).
  unfold has_access, uecho_object_getproperty.
  rewrite (view_access o o' c f Hf); [reflexivity|].
  unfold view, uecho_object_getproperty. rewrite V by exact Hc. reflexivity.
Qed.

(* After every uecho_object_setproperty that returns, the Set and Announce maps track the
   writable and announceable properties.
   Missing: codes above 0xBF in maps of more than 15 properties; the map codes themselves;
   the Get map, see below. *)
Theorem C20_set_and_announce_maps_partial : forall o junk c a o' ann,
  api_obj std_db o -> (forall i, is_byte (junk i)) -> epc c ->
  uecho_object_setproperty junk o c a = Ok (o', ann) ->
  map_tracks o' 158 uecho_property_iswritable /\ map_tracks o' 157 uecho_property_isannounceable.
Proof.
  intros o junk c a o' ann Ho Hj Hc H. destruct (api_einv _ _ std_db_ok Ho) as [He _].
  destruct (setproperty_split _ _ _ _ _ _ Hj He Hc H) as (o1 & a1 & E1 & _ & U & _).
  split; eapply update_tracks; eauto.
Qed.
Print Assumptions C20_set_and_announce_maps_partial.

Lemma setcode_tracks : forall db junk o v o' ann, db_ok db -> junk_ok junk -> einv o -> o_getsz o = O ->
  uecho_object_setcode db junk o v = Ok (o', ann) -> map_tracks o' 159 uecho_property_isreadable.
Proof.
  intros db junk o v o' ann Hdb Hj He Hg H. unfold uecho_object_setcode in H.
  eapply update_tracks; [exact Hj| |exact H|].
  - apply addstd_einv; [exact Hdb|exact He].
  - right. right. split; [reflexivity|]. split; [reflexivity|]. rewrite addstd_eq.
    match goal with |- o_getsz (addmissing (addmissing ?o0 ?s1) ?s2) = _ =>
      destruct (addmissing_spec s2 (addmissing o0 s1)) as (_ & _ & _ & -> & _);
      destruct (addmissing_spec s1 o0) as (_ & _ & _ & -> & _) end. exact Hg.
Qed.

(* The first time the maps of an object are computed, the Get map tracks the readable
   properties as well. *)
Theorem C20_first_get_map_partial : forall o junk c a v o' ann,
  api_obj std_db o -> (forall i, is_byte (junk i)) -> epc c -> o_getsz o = O ->
  uecho_object_setproperty junk o c a = Ok (o', ann)
  \/ uecho_object_setcode std_db junk o v = Ok (o', ann) ->
  map_tracks o' 159 uecho_property_isreadable.
Proof.
  intros o junk c a v o' ann Ho Hj Hc Hg [H|H]; destruct (api_einv _ _ std_db_ok Ho) as [He _].
  - destruct (setproperty_split _ _ _ _ _ _ Hj He Hc H) as (o1 & a1 & E1 & G & U & _).
    eapply update_tracks; eauto. right. right. rewrite G. auto.
  - apply (setcode_tracks std_db junk o v o' ann std_db_ok Hj He Hg H).
Qed.
Print Assumptions C20_first_get_map_partial.

(* Every later time it is wrong: the old size is never reset, so the count byte of the Get
   map is the sum of the readable properties over all updates (mod 256). *)
Theorem C20_get_map_count : forall o junk c a o' ann,
  api_obj std_db o -> (forall i, is_byte (junk i)) -> epc c ->
  uecho_object_setproperty junk o c a = Ok (o', ann) ->
  exists p n readable, uecho_object_getproperty o' 159 = Some p /\ nth_error (p_data p) 0 = Some n
    /\ (o_getsz o' = o_getsz o + readable)%nat
    /\ n = Z.of_nat (o_getsz o') mod 256.
Proof.
  intros o junk c a o' ann Ho Hj Hc H. destruct (api_einv _ _ std_db_ok Ho) as [He _].
  destruct (setproperty_split _ _ _ _ _ _ Hj He Hc H) as (o1 & a1 & E1 & G & U & _).
  destruct (update_maps _ _ _ _ Hj E1 U) as [_ (p & F & N)].
  apply update_shape in U. destruct U as [l ->].
  exists p. eexists _, _. split; [exact F|]. split; [exact N|]. cbn [o_getsz o_with_props o_with_getsz].
  split; [rewrite G; reflexivity|]. f_equal. unfold len, rcodes. rewrite map_length. lia.
Qed.
Print Assumptions C20_get_map_count.

(* Exactly when setproperty is defined: the caches are empty, or some property is readable
   once the new attribute is in place. *)
Theorem C20_defined_iff : forall o junk c a,
  api_obj std_db o -> (forall i, is_byte (junk i)) -> epc c ->
  ((exists r, uecho_object_setproperty junk o c a = Ok r)
   <-> o_getsz o = O \/ Z.land a 17 <> 0
       \/ exists c', c' <> c /\ has_access uecho_property_isreadable o c').
Proof.
  intros o junk c a Ho Hj Hc. destruct (api_einv _ _ std_db_ok Ho) as [[Hi He] _].
  unfold uecho_object_setproperty. rewrite pl_set_eq, put_put by (intros; assumption).
  set (f := fun p => uecho_property_setparentobject true (uecho_property_setattribute a (put_data [] p))) in *.
  assert (Hf : forall p, p_code p = c -> p_code (f p) = c) by (intros; assumption).
  set (o1 := o_with_props (put (o_props o) c f) o).
  assert (I1 : inv o1) by (apply put_inv; auto; [unfold epc in Hc; unfold is_byte; lia|intros; constructor]).
  transitivity (exists r, uecho_object_updatepropertymaps junk o1 = Ok r).
  { destruct (uecho_object_updatepropertymaps junk o1) as [[? ?]|]; cbn [bind].
    - split; intros _; eexists; reflexivity.
    - split; intros [r E]; discriminate. }
  rewrite (update_ok_iff junk o1 Hj (proj2 I1)).
  assert (A : forall p, uecho_property_isreadable (f p) = negb (Z.land a 17 =? 0)) by reflexivity.
  split.
  - intros [E|(p & I & R)]; [left; exact E|]. right.
    apply (find_in_nodup _ _ (proj1 I1)) in I. unfold o1 in I. rewrite obj_props_with, put_find in I by assumption.
    destruct (Z.eqb_spec (p_code p) c).
    + inversion I. left. rewrite <- H0, A in R. lia.
    + right. exists (p_code p). split; [assumption|]. exists p. auto.
  - intros [E|[E|(c' & N & p & F & R)]]; [left; exact E| |]; right.
    + exists (f (got (o_props o) c)). split; [|rewrite A; lia].
      assert (F : find (o_props o1) c = Some (f (got (o_props o) c)))
        by (unfold o1; rewrite obj_props_with, put_find, Z.eqb_refl by assumption; reflexivity).
      apply find_code in F. tauto.
    + exists p. split; [|assumption].
      assert (F1 : find (o_props o1) c' = Some p).
      { unfold o1. rewrite obj_props_with, put_find by assumption. replace (c' =? c) with false by lia. exact F. }
      apply find_code in F1. tauto.
Qed.
Print Assumptions C20_defined_iff.

Lemma api1 : forall o junk op o' ann, api_obj std_db o -> (forall i, is_byte (junk i)) -> oop_ok op ->
  (forall c, oop_code op = Some c -> 128 <= c <= 255) -> ostep junk o op = Ok (o', ann) -> api_obj std_db o'.
Proof. intros. eapply ao_step; eauto. Qed.

(* The full statement is false:
   - after two setproperty calls the Get map lists a code the object does not have;
   - setproperty after clearproperties copies from a NULL pointer;
   - the map codes themselves are missing from the Get map although they are readable. *)
Theorem C20_maps_refuted :
  (exists o o' ann p c, api_obj std_db o /\ uecho_object_setproperty zeros o 129 AttrRead = Ok (o', ann)
     /\ uecho_object_getproperty o' 159 = Some p /\ map_lists (p_data p) c
     /\ uecho_object_hasproperty o' c = false)
  /\ (exists o, api_obj std_db o /\ uecho_object_setproperty zeros o 129 AttrWrite = Undef UB_null)
  /\ (exists o' ann p, uecho_object_setproperty zeros uecho_object_new 128 AttrRead = Ok (o', ann)
     /\ uecho_object_getproperty o' 159 = Some p /\ has_access uecho_property_isreadable o' 159
     /\ ~ map_lists (p_data p) 159).
Proof.
  set (o1 := match uecho_object_setproperty zeros uecho_object_new 128 AttrRead with Ok (o, _) => o | _ => uecho_object_new end).
  assert (A1 : api_obj std_db o1).
  { apply (api1 uecho_object_new zeros (OSetProperty 128 1) o1 []); [constructor|apply zeros_ok|split; [cbn; lia|exact I]| |reflexivity].
    intros c E. inversion E. lia. }
  split; [|split].
  - exists o1. eexists _, _, _, 0. split; [exact A1|]. split; [vm_compute; reflexivity|].
    split; [reflexivity|]. split; [|reflexivity]. vm_compute. auto 20.
  - exists (uecho_object_clearproperties o1). split; [|vm_compute; reflexivity].
    apply (api1 o1 zeros OClear _ []); [assumption|apply zeros_ok|split; exact I|discriminate|reflexivity].
  - exists o1. eexists _, _. split; [vm_compute; reflexivity|]. split; [reflexivity|].
    split; [eexists; split; reflexivity|]. cbn. intros [H|[]]. discriminate.
Qed.
Print Assumptions C20_maps_refuted.

Example C20_example : exists o o' ann ann',
  uecho_object_setcode std_db zeros uecho_object_new 77825 = Ok (o, ann)
  /\ uecho_object_setproperty zeros o 200 AttrWrite = Ok (o', ann')
  /\ has_access uecho_property_iswritable o' 200 /\ (0 < o_getsz o)%nat.
Proof.
  eexists _, _, _, _. split; [vm_compute; reflexivity|]. split; [vm_compute; reflexivity|].
  split; [eexists; split; reflexivity|]. cbn [o_getsz]. lia.
Qed.

(* ---------- C45: the standard object database ---------- *)

Lemma setcode_view : forall db o junk v o' ann c, db_ok db -> api_obj db o -> (forall i, is_byte (junk i)) ->
  uecho_object_setcode db junk o v = Ok (o', ann) -> ~ map_epc c ->
  view o' c = first_some (view o c)
     (option_map ent (first_some (find (db_props db 0 0) c) (find (db_props db (v / 65536 mod 256) (v / 256 mod 256)) c))).
Proof.
  intros db o junk v o' ann c Hdb Ho Hj H Hc. destruct (api_einv _ _ Hdb Ho) as [He _].
  pose proof H as H0. unfold uecho_object_setcode in H.
  set (o1 := o_with_code _ _ _ o) in H.
  pose proof (addstd_einv db o1 Hdb He) as E1.
  destruct (update_view _ _ _ _ Hj (proj1 E1) H) as (_ & V & _ & _).
  rewrite view_lview. unfold lview. rewrite V by exact Hc. rewrite addstd_find.
  replace (o_grp o1) with (v / 65536 mod 256); [|unfold o1; cbn [o_grp o_with_code]; rewrite mask16; reflexivity].
  replace (o_cls o1) with (v / 256 mod 256); [|unfold o1; cbn [o_cls o_with_code]; rewrite mask8; reflexivity].
  rewrite view_lview. unfold lview. change (o_props o1) with (o_props o).
  destruct (find (o_props o) c); [reflexivity|]. cbn [first_some option_map].
  destruct (first_some (find (db_props db 0 0) c) _) as [q|]; reflexivity.
Qed.

(* Setting a code adds the listed properties the object does not have, super class first,
   and changes nothing else (the three property maps aside). *)
Theorem C45_standard_properties_partial : forall o junk v o' ann c,
  api_obj std_db o -> (forall i, is_byte (junk i)) ->
  uecho_object_setcode std_db junk o v = Ok (o', ann) -> ~ map_epc c ->
  match view o c, listed 0 0 c, listed (v / 65536 mod 256) (v / 256 mod 256) c with
  | Some e, _, _ => view o' c = Some e
  | None, Some (g, s, a), _ | None, None, Some (g, s, a) =>
      exists p, uecho_object_getproperty o' c = Some p /\ p_data p = []
        /\ uecho_property_isreadable p = grants g /\ uecho_property_isreadrequired p = required g
        /\ uecho_property_iswritable p = grants s /\ uecho_property_iswriterequired p = required s
        /\ uecho_property_isannounceable p = grants a /\ uecho_property_isannouncerequired p = required a
  | None, None, None => view o' c = None
  end.
Proof.
  intros o junk v o' ann c Ho Hj H Hc.
  pose proof (setcode_view _ _ _ _ _ _ c std_db_ok Ho Hj H Hc) as V. rewrite !std_find in V.
  destruct (view o c); [exact V|]. cbn [first_some] in V.
  assert (G : forall g s a, view o' c = Some (ent (std_prop c (g, s, a))) ->
      exists p, uecho_object_getproperty o' c = Some p /\ p_data p = []
        /\ uecho_property_isreadable p = grants g /\ uecho_property_isreadrequired p = required g
        /\ uecho_property_iswritable p = grants s /\ uecho_property_iswriterequired p = required s
        /\ uecho_property_isannounceable p = grants a /\ uecho_property_isannouncerequired p = required a).
  { intros g s a E. unfold view in E. destruct (uecho_object_getproperty o' c) as [p|]; [|discriminate].
    exists p. split; [reflexivity|]. unfold ent in E.
    assert (E1 : p_attr p = p_attr (owned (std_prop c (g, s, a))))
      by (apply (f_equal (fun x => match x with Some (y, _) => y | None => 0 end)) in E; exact E).
    assert (E2 : p_data p = p_data (owned (std_prop c (g, s, a))))
      by (apply (f_equal (fun x => match x with Some (_, y) => y | None => [] end)) in E; exact E).
    destruct (std_prop_spec c g s a) as (D & _ & _ & R1 & R2 & R3 & R4 & R5 & R6).
    revert R1 R2 R3 R4 R5 R6. rewrite D in E2.
    unfold uecho_property_isreadable, uecho_property_isreadrequired, uecho_property_iswritable,
      uecho_property_iswriterequired, uecho_property_isannounceable, uecho_property_isannouncerequired.
    rewrite <- E1. auto 10. }
  destruct (listed 0 0 c) as [[[g s] a]|]; cbn [option_map first_some] in V; [apply G; exact V|].
  destruct (listed (v / 65536 mod 256) (v / 256 mod 256) c) as [[[g s] a]|]; cbn [option_map first_some] in V;
    [apply G; exact V|exact V].
Qed.
Print Assumptions C45_standard_properties_partial.

(* A node profile object always has the lists the library maintains. *)
Theorem C45_node_profile_properties : forall o junk ins o' ann c,
  api_obj std_db o -> (forall i, is_byte (junk i)) -> 0 <= ins < 256 ->
  uecho_object_setcode std_db junk o (14 * 65536 + 240 * 256 + ins) = Ok (o', ann) ->
  In c [128; 130; 131; 138; 211; 212; 213; 214; 215] -> uecho_object_hasproperty o' c = true.
Proof.
  intros o junk ins o' ann c Ho Hj Hi H Hc.
  assert (Hm : ~ map_epc c) by (unfold map_epc; cbn in Hc; lia).
  pose proof (C45_standard_properties_partial o junk _ o' ann c Ho Hj H Hm) as V.
  replace ((14 * 65536 + 240 * 256 + ins) / 65536 mod 256) with 14 in V by lia.
  replace ((14 * 65536 + 240 * 256 + ins) / 256 mod 256) with 240 in V by lia.
  assert (L : listed 0 0 c <> None \/ listed 14 240 c <> None).
  { assert (B : forallb (fun c => match listed 0 0 c, listed 14 240 c with None, None => false | _, _ => true end)
              [128; 130; 131; 138; 211; 212; 213; 214; 215] = true) by (vm_compute; reflexivity).
    rewrite forallb_forall in B. specialize (B c Hc).
    destruct (listed 0 0 c); [left; discriminate|]. destruct (listed 14 240 c); [right; discriminate|discriminate]. }
  unfold uecho_object_hasproperty. unfold view in V.
  destruct (uecho_object_getproperty o' c); [reflexivity|]. exfalso.
  destruct (uecho_object_getproperty o c); [discriminate|].
  destruct (listed 0 0 c) as [[[? ?] ?]|]; [destruct V as (p & E & _); discriminate|].
  destruct (listed 14 240 c) as [[[? ?] ?]|]; [destruct V as (p & E & _); discriminate|].
  destruct L; congruence.
Qed.
Print Assumptions C45_node_profile_properties.

(* The class rules are not always the ones that apply:
   - the super class allows writing 0x80 although the node profile class forbids it;
   - a property whose Get rule is "required_c" cannot be read (0xE0 of the
     illuminance sensor, class 0x00D0). *)
Theorem C45_class_rules_refuted :
  (exists o' ann p s, uecho_object_setcode std_db zeros uecho_object_new uEchoNodeProfileObject = Ok (o', ann)
     /\ listed 14 240 128 = Some s /\ allows (snd (fst s)) = false
     /\ uecho_object_getproperty o' 128 = Some p /\ uecho_property_iswritable p = true)
  /\ (exists o' ann p s, uecho_object_setcode std_db zeros uecho_object_new (208 * 256 + 1) = Ok (o', ann)
     /\ listed 0 208 224 = Some s /\ allows (fst (fst s)) = true
     /\ uecho_object_getproperty o' 224 = Some p /\ uecho_property_isreadable p = false).
Proof.
  split.
  - eexists _, _, _, _. split; [vm_compute; reflexivity|]. split; [vm_compute; reflexivity|].
    split; [reflexivity|]. split; [vm_compute; reflexivity|]. reflexivity.
  - eexists _, _, _, _. split; [vm_compute; reflexivity|]. split; [vm_compute; reflexivity|].
    split; [reflexivity|]. split; [vm_compute; reflexivity|]. reflexivity.
Qed.
Print Assumptions C45_class_rules_refuted.

(* An object that already has a property keeps it: 0xB0 of a home air conditioner. *)
Example C45_example : exists o o' ann ann',
  uecho_object_setproperty zeros uecho_object_new 176 AttrRead = Ok (o, ann)
  /\ uecho_object_setcode std_db zeros o (48 * 256 + 65536 + 1) = Ok (o', ann')
  /\ view o 176 = Some (1, []) /\ listed 1 48 176 = Some (Rq, Rq, Rq)
  /\ view o' 176 = Some (1, []) /\ view o 179 = None /\ view o' 179 <> None.
Proof.
  eexists _, _, _, _. split; [vm_compute; reflexivity|]. split; [vm_compute; reflexivity|].
  split; [reflexivity|]. split; [vm_compute; reflexivity|]. split; [vm_compute; reflexivity|].
  split; [reflexivity|]. vm_compute. discriminate.
Qed.
