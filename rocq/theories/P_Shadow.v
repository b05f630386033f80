(* The controller's shadow nodes: creating them, adding listed objects, storing reported
   property values. *)
From Coq Require Import String ZArith List Bool Lia ZifyBool ZifyNat.
From Verif Require Import CSem M_Const M_Misc M_Property M_Message M_PropertyList M_Object M_Std M_Node M_NodeListener
  M_Controller Spec_Frame Spec_Message Spec_Object Spec_Std Spec_Node Spec_Request Spec_Controller Spec_Map
  Run_Object Run_Node P_Base P_Misc P_Message P_MsgApi P_Map P_PropertyList P_Object P_ObjectRun P_ObjectReach P_Std
  Properties_Object P_Node P_Request P_NodeReach P_NodeProfile P_NodeInv P_NodeRun P_NodeProps P_RequestProps P_NodeSafe.
Import ListNotations.
Open Scope Z_scope.
Ltac Zify.zify_post_hook ::= Z.div_mod_to_equations.

(* ---- property maps are short ---- *)
Lemma setmap_small : forall o m cs d r,
  uecho_object_setpropertymap o m (Some cs) = Ok (o_with_props (put (o_props o) m (map_store (len cs) d)) o, r) ->
  bytes_ok cs -> len d <= 17.
Proof.
  intros o m cs d r E Hc.
  assert (T : exists d', uecho_object_setpropertymap o m (Some cs)
     = Ok (o_with_props (put (o_props o) m (map_store (len cs) d')) o, announced (got (o_props o) m) d') /\ len d' <= 17).
  { unfold uecho_object_setpropertymap, MapFormat1MaxSize, MapFormat2MapSize, map_store.
    destruct (Z.leb_spec (len cs) 15).
    - exists (to_byte (len cs) :: cs). rewrite pl_set_eq. split; [reflexivity|]. rewrite len_cons. lia.
    - set (d0 := to_byte (len cs) :: repeat 0 (Z.to_nat 16)).
      destruct (format2_total cs d0) as (d' & E1 & E2 & E3 & E4); [reflexivity| |].
      { unfold d0. apply bytes_ok_cons. split; [apply to_byte_range|].
        apply Forall_forall. intros x I. apply repeat_spec in I. subst. unfold is_byte. lia. }
      rewrite E1. cbn [bind]. exists d'. rewrite pl_setdata_eq. split; [reflexivity|]. unfold len. rewrite E2. lia. }
  destruct T as (d' & T & L). rewrite (setmap_det _ _ _ _ _ _ _ E T). exact L.
Qed.

Lemma cache_bytes : forall junk k l gs, junk_ok junk -> plist_ok l -> get_cache junk k l = Some gs -> bytes_ok gs.
Proof.
  intros junk k l gs Hj Hl Eg. unfold get_cache in Eg. cbv zeta in Eg.
  pose proof (codes_bytes l uecho_property_isreadable Hl) as Hr.
  destruct (map p_code (filter uecho_property_isreadable l)) as [|x r].
  - destruct k; [|discriminate]. inversion Eg. constructor.
  - inversion Eg. apply bytes_ok_app. split; [|assumption].
    apply Forall_forall. intros y I. apply in_map_iff in I. destruct I as (i & <- & _). apply Hj.
Qed.

Lemma announced_ok : forall l c d, is_byte c -> bytes_ok d -> len d <= DATA_MAX -> Forall ann_ok (announced (got l c) d).
Proof.
  intros l c d Hc Hd Hl. apply Forall_forall. intros p I. apply (announced_in l c d) in I. destruct I as [<- <-].
  exact (conj Hc (conj Hd Hl)).
Qed.

Lemma update_ann : forall junk o o' ann, junk_ok junk -> plist_ok (o_props o) ->
  uecho_object_updatepropertymaps junk o = Ok (o', ann) -> Forall ann_ok ann.
Proof.
  intros junk o o' ann Hj Hp H.
  destruct (update_spec _ _ _ _ Hj Hp H) as (gs & dg & ds & da & Hg & _ & Ea & B1 & B2 & B3 & _ & M1 & M2 & M3).
  cbv zeta in Ea, M2, M3. set (l := o_props o) in *.
  pose proof (cache_bytes _ _ _ _ Hj Hp Hg) as Bg.
  destruct (M1 o eq_refl) as (r1 & E1).
  assert (L1 : len dg <= 17) by (eapply setmap_small; [exact E1|exact Bg]).
  match type of M2 with forall oo, o_props oo = ?l1 -> _ => destruct (M2 (o_with_props l1 o) eq_refl) as (r2 & E2) end.
  assert (L2 : len ds <= 17) by (eapply setmap_small; [exact E2|apply codes_bytes; exact Hp]).
  match type of M3 with forall oo, o_props oo = ?l2 -> _ => destruct (M3 (o_with_props l2 o) eq_refl) as (r3 & E3) end.
  assert (L3 : len da <= 17) by (eapply setmap_small; [exact E3|apply codes_bytes; exact Hp]).
  rewrite Ea. repeat rewrite Forall_app.
  split; [|split]; apply announced_ok; try assumption; unfold DATA_MAX, is_byte; lia.
Qed.

(* ---- uecho_object_setproperty with a code the object does not have ---- *)
Lemma setproperty_new : forall junk o c a o' ann, junk_ok junk -> oinv o -> is_byte c -> uecho_object_getproperty o c = None ->
  uecho_object_setproperty junk o c a = Ok (o', ann) ->
  oinv o' /\ keeps o o' /\ Forall ann_ok ann
  /\ (forall x, ~ map_epc x -> uecho_object_getproperty o' x = if x =? c then Some (mkProp c a [] true) else uecho_object_getproperty o x)
  /\ (forall x, uecho_object_getproperty o x <> None -> uecho_object_getproperty o' x <> None)
  /\ uecho_object_getproperty o' c <> None
  /\ (exists l k, o' = o_with_props l (o_with_getsz k o)).
Proof.
  intros junk o c a o' ann Hj Ho Hc Hn E.
  destruct (odo_ok (KStep (OSetProperty c a) junk) o o' ann Ho) as (A & B & _).
  { cbn [ocall_ok oop_code]. split; [|split].
    - split; [exact Hc|exact I].
    - intros x X. injection X as <-. unfold epc_code. unfold is_byte in Hc. lia.
    - exact Hj. }
  { exact E. }
  destruct Ho as ((Hi & _) & _ & _).
  assert (Hf : find (o_props o) c = None) by exact Hn.
  unfold uecho_object_setproperty in E. rewrite pl_set_eq in E.
  match type of E with bind (uecho_object_updatepropertymaps junk ?x) _ = _ => set (o1 := x) in E end.
  apply bind_ok in E. destruct E as ([o2 a2] & E2 & E).
  assert (X : o2 = o') by congruence. subst o2.
  assert (Y : ann = announced (got (o_props o) c) [] ++ a2) by congruence. subst ann. clear E.
  assert (I1 : inv o1) by (unfold o1; rewrite put_put by (intros; assumption); apply put_inv; auto; intros; constructor).
  assert (F : forall x, find (o_props o1) x = if x =? c then Some (mkProp c a [] true) else find (o_props o) x).
  { intros x. unfold o1. rewrite obj_props_with, put_put by (intros; assumption).
    rewrite put_find by (intros; assumption). unfold got. rewrite Hf. reflexivity. }
  destruct (update_view _ _ _ _ Hj I1 E2) as (_ & V & _ & W).
  split; [exact A|]. split; [exact B|]. split; [|split; [|split; [|split]]].
  - cbn [announced app]. eapply update_ann; [exact Hj|apply I1|exact E2].
  - intros x Hx. unfold uecho_object_getproperty. change uecho_propertylist_findbycode with find. rewrite V by exact Hx. apply F.
  - intros x Hx Hy. unfold uecho_object_getproperty in Hx, Hy. apply find_none in Hy. apply Hy. apply W. left.
    specialize (F x). destruct (find (o_props o1) x) as [q|] eqn:Q; [apply find_code in Q; destruct Q as [<- Q]; apply in_map; exact Q|].
    destruct (x =? c); [discriminate|]. symmetry in F. contradiction.
  - intros Hy. apply find_none in Hy. apply Hy. apply W. left. specialize (F c). rewrite Z.eqb_refl in F.
    apply find_code in F. destruct F as [_ F]. apply (in_map p_code) in F. exact F.
  - apply P_ObjectReach.update_shape in E2. destruct E2 as (l & ->). exists l, (o_getsz o + length (rcodes (o_props o1)))%nat. reflexivity.
Qed.

(* the object keeps its Get property map readable *)
Lemma setproperty_good : forall junk o c a, junk_ok junk -> oinv o -> is_byte c -> uecho_object_getproperty o c = None ->
  good o -> exists o' ann, uecho_object_setproperty junk o c a = Ok (o', ann) /\ good o'.
Proof.
  intros junk o c a Hj Ho Hc Hn [Hr Hz]. destruct Ho as ((Hi & _) & _ & _).
  assert (Hf : find (o_props o) c = None) by exact Hn.
  unfold uecho_object_setproperty. rewrite pl_set_eq.
  match goal with |- context [uecho_object_updatepropertymaps junk ?x] => set (o1 := x) end.
  assert (I1 : inv o1) by (unfold o1; rewrite put_put by (intros; assumption); apply put_inv; auto; intros; constructor).
  assert (F : find (o_props o1) 159 = find (o_props o) 159).
  { unfold o1. rewrite obj_props_with, put_put by (intros; assumption).
    rewrite put_find by (intros; assumption). destruct (Z.eqb_spec 159 c) as [<-|]; [|reflexivity].
    destruct Hr as (p & P & _). unfold uecho_object_getproperty in P. congruence. }
  assert (R1 : map_readable o1) by (eapply find_readable; [exact F|exact Hr]).
  assert (T : exists r, uecho_object_updatepropertymaps junk o1 = Ok r).
  { apply update_ok_iff; [exact Hj|apply I1|]. right. destruct R1 as (p & P1 & P2). exists p. split; [|exact P2].
    apply find_code in P1. apply P1. }
  destruct T as ([o' a'] & T). rewrite T. cbn [bind]. eexists _, _. split; [reflexivity|]. split.
  - eapply update_readable; [exact Hj|exact I1| |exact T]. apply readable_inv. exact R1.
  - apply P_ObjectReach.update_shape in T. destruct T as (l & ->). exact Hz.
Qed.

Lemma put_obj_twice : forall l c o1 o2, uecho_object_getcode o1 = c -> put_obj c o2 (put_obj c o1 l) = put_obj c o2 l.
Proof.
  induction l as [|o l IH]; intros c o1 o2 H; cbn [put_obj]; [reflexivity|].
  destruct (uecho_object_getcode o =? c) eqn:E; cbn [put_obj].
  - rewrite H, Z.eqb_refl. reflexivity.
  - rewrite E, IH by exact H. reflexivity.
Qed.

Lemma put_obj_found : forall n oc o o' t, uecho_node_getobjectbycode n oc = Some o -> uecho_object_getcode o' = oc ->
  uecho_node_getobjectbycode (n_with_tid t (n_with_objs (put_obj oc o' (n_objs n)) n)) oc = Some o'.
Proof.
  intros n oc o o' t G K. unfold uecho_node_getobjectbycode in *. cbn [n_objs n_with_tid n_with_objs].
  change uecho_objectlist_getbycode with oget in *. rewrite put_obj_get by exact K. rewrite Z.eqb_refl, G. reflexivity.
Qed.

Section Shadow.
Variable le : bool.
Variable snet : post -> bool.

(* ---- one reported value ---- *)
Definition ustep (junk : nat -> Z) (n : node) (oc : Z) (p : prop) : res (node * bool) :=
  match uecho_node_getobjectbycode n oc with
  | None => Undef UB_null
  | Some o =>
      do x <- (if uecho_object_hasproperty o (p_code p) then Ok (n, [])
               else node_object_op le snet (fun o => uecho_object_setproperty junk o (p_code p) AttrNone) n oc) ;;
      let n1 := fst x in
      match uecho_node_getobjectbycode n1 oc with
      | None => Undef UB_null
      | Some o1 =>
          match uecho_object_getproperty o1 (p_code p) with
          | None => Ok (n1, false)
          | Some q =>
              if uecho_property_isdataequal q (p_data p) then Ok (n1, false)
              else do y <- node_object_op le snet (fun o => Ok (object_property_setdata o (p_code p) (p_data p))) n1 oc ;;
                   Ok (fst y, true)
          end
      end
  end.

Lemma update_loop_cons : forall fr j n oc p r u,
  update_loop le snet fr j n oc (p :: r) u
  = (do x <- ustep (fr_more fr j) n oc p ;; update_loop le snet fr (S j) (fst x) oc r (u || snd x)).
Proof.
  intros. cbn [update_loop]. unfold ustep.
  destruct (uecho_node_getobjectbycode n oc) as [o|]; [|reflexivity].
  match goal with |- bind ?x _ = _ => destruct x as [[n1 a1]|]; [|reflexivity] end. cbn [bind fst].
  destruct (uecho_node_getobjectbycode n1 oc) as [o1|]; [|reflexivity].
  destruct (uecho_object_getproperty o1 (p_code p)) as [q|]; [|cbn [bind fst snd]; rewrite orb_false_r; reflexivity].
  destruct (uecho_property_isdataequal q (p_data p)); [cbn [bind fst snd]; rewrite orb_false_r; reflexivity|].
  match goal with |- bind ?x _ = _ => destruct x as [[n2 a2]|]; [|reflexivity] end. cbn [bind fst snd].
  rewrite orb_true_r. reflexivity.
Qed.

Lemma isdataequal_iff : forall q d, uecho_property_isdataequal q d = true <-> p_data q = d.
Proof.
  intros q d. unfold uecho_property_isdataequal, uecho_property_getdatasize. split.
  - destruct (len (p_data q) =? len d); cbn [negb]; [apply bytes_eqb_iff|discriminate].
  - intros <-. rewrite Z.eqb_refl. cbn [negb]. apply bytes_eqb_iff. reflexivity.
Qed.

Record took (n n' : node) (oc : Z) (o o' : obj) (m : dstate) : Prop := mkTook {
  tk_node : n' = n_with_tid (n_tid n') (n_with_objs (put_obj oc o' (n_objs n)) n);
  tk_inv : ninv n';
  tk_obj : oinv o';
  tk_keeps : keeps o o';
  tk_data : forall x, ~ map_epc x -> odata o' x = m x;
  tk_has : forall x, odata o x <> None -> odata o' x <> None;
  tk_good : good o -> good o'
}.

Lemma node_id : forall n oc o, uecho_node_getobjectbycode n oc = Some o ->
  n = n_with_tid (n_tid n) (n_with_objs (put_obj oc o (n_objs n)) n).
Proof.
  intros n oc o G. rewrite put_obj_same by exact G. destruct n; reflexivity.
Qed.

Lemma odata_none : forall o c, odata o c = None <-> uecho_object_getproperty o c = None.
Proof. intros o c. unfold odata. destruct (uecho_object_getproperty o c); cbn [option_map]; split; congruence. Qed.

(* storing into a property the object has *)
Lemma ustep_store : forall n oc o p q n' b, ninv n -> uecho_node_getobjectbycode n oc = Some o -> ann_ok p ->
  uecho_object_getproperty o (p_code p) = Some q ->
  (if uecho_property_isdataequal q (p_data p) then Ok (n, false)
   else do y <- node_object_op le snet (fun o => Ok (object_property_setdata o (p_code p) (p_data p))) n oc ;;
        Ok (fst y, true)) = Ok (n', b) ->
  exists o', took n n' oc o o' (dset (odata o) (p_code p) (p_data p))
    /\ (forall x, odata o' x = dset (odata o) (p_code p) (p_data p) x) /\ same_shape o o'
    /\ b = (if list_eq_dec Z.eq_dec (p_data q) (p_data p) then false else true).
Proof.
  intros n oc o p q n' b N G (Pc & Pd & Pl) Q H. destruct (ninv_get _ _ _ N G) as [Ho Hc].
  assert (Qd : odata o (p_code p) = Some (p_data q)) by (unfold odata; rewrite Q; reflexivity).
  destruct (uecho_property_isdataequal q (p_data p)) eqn:E.
  - apply isdataequal_iff in E. injection H as <- <-. exists o.
    assert (D : forall x, odata o x = dset (odata o) (p_code p) (p_data p) x).
    { intros x. unfold dset. destruct (Z.eqb_spec x (p_code p)) as [->|]; [rewrite Qd, E|]; reflexivity. }
    split; [|split; [exact D|split; [apply same_shape_refl|]]].
    + constructor; auto. { apply node_id. exact G. } { repeat split. }
    + destruct (list_eq_dec Z.eq_dec (p_data q) (p_data p)); [reflexivity|contradiction].
  - assert (Ne : p_data q <> p_data p) by (intros X; apply isdataequal_iff in X; congruence).
    apply bind_ok in H. destruct H as ([n2 ps] & E2 & H). cbn [fst] in H. injection H as <- <-.
    pose proof (node_store le snet n oc o (p_code p) q (p_data p) (KStep (OPropData (p_code p) (p_data p)) (fun _ => 0)) N G Q Pd Pl
                  (ex_intro _ _ (or_intror eq_refl))) as S.
    cbv zeta in S. pose proof (eq_trans (eq_sym E2) S) as S'. clear S. rename S' into S. apply (f_equal (fun x => match x with Ok y => fst y | _ => n end)) in S.
    cbn [fst] in S. set (o' := o_with_props (put (o_props o) (p_code p) (put_data (p_data p))) o) in *.
    assert (Sh : same_shape o o') by (eapply put_shape; exact Q).
    assert (K : keeps o o') by (repeat split).
    assert (Hw : winv o') by (eapply put_einv; [apply Ho|exact Q|exact Pd]).
    exists o'. split; [|split; [|split; [exact Sh|]]].
    + constructor.
      * rewrite S. reflexivity.
      * rewrite S. apply ninv_tid; [eapply ninv_put; [exact N|exact G|eapply keeps_oinv; eauto|exact K]|].
        apply tid_iter_nonneg. apply N.
      * eapply keeps_oinv; eauto.
      * exact K.
      * intros x _. apply put_odata.
      * intros x Hx. unfold o'. rewrite put_odata. unfold dset. destruct (x =? p_code p); [discriminate|exact Hx].
      * intros [Hr Hz]. split; [|exact Hz]. apply put_readable; auto.
    + intros x. apply put_odata.
    + destruct (list_eq_dec Z.eq_dec (p_data q) (p_data p)); [contradiction|reflexivity].
Qed.

Lemma took_trans : forall n n1 n2 oc o o1 o2 m1 m2, took n n1 oc o o1 m1 -> took n1 n2 oc o1 o2 m2 ->
  uecho_object_getcode o = oc -> took n n2 oc o o2 m2.
Proof.
  intros n n1 n2 oc o o1 o2 m1 m2 A B C. constructor.
  - rewrite (tk_node _ _ _ _ _ _ B) at 1. rewrite (tk_node _ _ _ _ _ _ A) at 1 2.
    cbn [n_objs n_with_tid n_with_objs n_classes n_addr n_listener n_tid].
    rewrite put_obj_twice by (rewrite (keeps_code _ _ (tk_keeps _ _ _ _ _ _ A)); exact C). reflexivity.
  - apply B.
  - apply B.
  - destruct (tk_keeps _ _ _ _ _ _ A) as (A1 & A2 & A3 & A4). destruct (tk_keeps _ _ _ _ _ _ B) as (B1 & B2 & B3 & B4).
    unfold keeps. rewrite B1, B2, B3, B4. auto.
  - apply B.
  - intros x Hx. apply (tk_has _ _ _ _ _ _ B). apply (tk_has _ _ _ _ _ _ A). exact Hx.
  - intros H. apply (tk_good _ _ _ _ _ _ B). apply (tk_good _ _ _ _ _ _ A). exact H.
Qed.

Lemma took_get : forall n n' oc o o' m, uecho_node_getobjectbycode n oc = Some o -> uecho_object_getcode o = oc ->
  took n n' oc o o' m -> uecho_node_getobjectbycode n' oc = Some o'.
Proof.
  intros n n' oc o o' m G C T. rewrite (tk_node _ _ _ _ _ _ T). eapply put_obj_found; [exact G|].
  rewrite (keeps_code _ _ (tk_keeps _ _ _ _ _ _ T)). exact C.
Qed.

(* creating a property the object does not have *)
Lemma ustep_new : forall junk n oc o p n1 ps, junk_ok junk -> ninv n -> uecho_node_getobjectbycode n oc = Some o -> ann_ok p ->
  uecho_object_getproperty o (p_code p) = None ->
  node_object_op le snet (fun o => uecho_object_setproperty junk o (p_code p) AttrNone) n oc = Ok (n1, ps) ->
  exists o1, took n n1 oc o o1 (dset (odata o) (p_code p) [])
    /\ uecho_object_getproperty o1 (p_code p) <> None.
Proof.
  intros junk n oc o p n1 ps Hj N G (Pc & _) Q H. destruct (ninv_get _ _ _ N G) as [Ho Hc].
  pose proof (fun K => object_op_ok le snet _ n oc n1 ps N K H) as SE. destruct SE as (S & E).
  { intros x x' a Gx Hx F. rewrite G in Gx. injection Gx as <-.
    destruct (setproperty_new _ _ _ _ _ _ Hj Ho Pc Q F) as (A & B & C & _). auto. }
  rewrite G in E. destruct E as (o1 & a & F & E).
  destruct (setproperty_new _ _ _ _ _ _ Hj Ho Pc Q F) as (A & B & _ & D & W & L & _).
  exists o1. split; [|exact L]. constructor; auto.
  - apply S.
  - intros x Hx. unfold odata, dset. rewrite D by exact Hx. destruct (x =? p_code p); reflexivity.
  - intros x. rewrite !odata_none. apply W.
  - intros Hg. destruct (setproperty_good junk o (p_code p) AttrNone Hj Ho Pc Q Hg) as (o2 & a2 & F2 & G2). congruence.
Qed.

Definition dflt_data (m : dstate) (c : Z) : list Z := match m c with Some d => d | None => [] end.

Lemma took_ext : forall n n' oc o o' m m', (forall x, ~ map_epc x -> m x = m' x) -> took n n' oc o o' m -> took n n' oc o o' m'.
Proof.
  intros n n' oc o o' m m' E T. destruct T. constructor; auto. intros x Hx. rewrite <- E by exact Hx. auto.
Qed.

Lemma ustep_spec : forall junk n oc o p n' b, junk_ok junk -> ninv n -> uecho_node_getobjectbycode n oc = Some o -> ann_ok p ->
  ustep junk n oc p = Ok (n', b) ->
  exists o', took n n' oc o o' (dset (odata o) (p_code p) (p_data p))
    /\ odata o' (p_code p) = Some (p_data p)
    /\ (odata o (p_code p) <> None ->
          (forall x, odata o' x = dset (odata o) (p_code p) (p_data p) x) /\ same_shape o o')
    /\ (~ map_epc (p_code p) \/ odata o (p_code p) <> None ->
          b = if list_eq_dec Z.eq_dec (dflt_data (odata o) (p_code p)) (p_data p) then false else true).
Proof.
  intros junk n oc o p n' b Hj N G Hp H. unfold ustep in H. rewrite G in H.
  destruct (ninv_get _ _ _ N G) as [Ho Hc].
  unfold uecho_object_hasproperty in H.
  destruct (uecho_object_getproperty o (p_code p)) as [q|] eqn:Q.
  - cbn [bind fst] in H. rewrite G, Q in H.
    destruct (ustep_store n oc o p q n' b N G Hp Q H) as (o' & T & D & S & B).
    exists o'. split; [exact T|]. split; [rewrite D; unfold dset; rewrite Z.eqb_refl; reflexivity|]. split; [auto|].
    intros _. rewrite B. unfold dflt_data, odata. rewrite Q. reflexivity.
  - apply bind_ok in H. destruct H as ([n1 ps] & E & H). cbn [fst] in H.
    destruct (ustep_new _ _ _ _ _ _ _ Hj N G Hp Q E) as (o1 & T1 & L1).
    pose proof (took_get _ _ _ _ _ _ G Hc T1) as G1. rewrite G1 in H.
    destruct (uecho_object_getproperty o1 (p_code p)) as [q|] eqn:Q1; [|congruence].
    destruct (ustep_store n1 oc o1 p q n' b (tk_inv _ _ _ _ _ _ T1) G1 Hp Q1 H) as (o' & T & D & S & B).
    exists o'. split; [|split; [|split]].
    + apply took_ext with (m := dset (odata o1) (p_code p) (p_data p)).
      * intros x Hx. unfold dset. destruct (Z.eqb_spec x (p_code p)); [reflexivity|].
        rewrite (tk_data _ _ _ _ _ _ T1) by exact Hx. unfold dset. destruct (Z.eqb_spec x (p_code p)); [contradiction|reflexivity].
      * eapply took_trans; eauto.
    + rewrite D. unfold dset. rewrite Z.eqb_refl. reflexivity.
    + intros X. apply odata_none in Q. contradiction.
    + intros [X|X]; [|apply odata_none in Q; contradiction].
      pose proof (tk_data _ _ _ _ _ _ T1 (p_code p) X) as Y. unfold odata, dset in Y. rewrite Q1, Z.eqb_refl in Y. cbn in Y.
      injection Y as Y. rewrite B, Y. unfold dflt_data, odata. rewrite Q. reflexivity.
Qed.

Lemma ustep_total : forall junk n oc o p, junk_ok junk -> ninv n -> uecho_node_getobjectbycode n oc = Some o -> ann_ok p ->
  good o -> exists x, ustep junk n oc p = Ok x.
Proof.
  intros junk n oc o p Hj N G Hp Hg. unfold ustep. rewrite G. destruct (ninv_get _ _ _ N G) as [Ho Hc].
  assert (St : forall n1 o1 q, ninv n1 -> uecho_node_getobjectbycode n1 oc = Some o1 -> uecho_object_getproperty o1 (p_code p) = Some q ->
     exists x, (if uecho_property_isdataequal q (p_data p) then Ok (n1, false)
       else do y <- node_object_op le snet (fun o => Ok (object_property_setdata o (p_code p) (p_data p))) n1 oc ;; Ok (fst y, true)) = Ok x).
  { intros n1 o1 q N1 G1 Q1. destruct (uecho_property_isdataequal q (p_data p)); [eexists; reflexivity|].
    destruct Hp as (Pc & Pd & Pl).
    pose proof (node_store le snet n1 oc o1 (p_code p) q (p_data p) (KStep (OPropData (p_code p) (p_data p)) (fun _ => 0)) N1 G1 Q1 Pd Pl
                  (ex_intro _ _ (or_intror eq_refl))) as S.
    cbv zeta in S. match type of S with _ = ?r => assert (S' : node_object_op le snet (fun o => Ok (object_property_setdata o (p_code p) (p_data p))) n1 oc = r) by exact S end.
    rewrite S'. eexists. reflexivity. }
  unfold uecho_object_hasproperty. destruct (uecho_object_getproperty o (p_code p)) as [q|] eqn:Q.
  - cbn [bind fst]. rewrite G, Q. eapply St; eauto.
  - destruct (object_op_total le snet (fun o => uecho_object_setproperty junk o (p_code p) AttrNone) n oc N) as (n1 & ps & E).
    { intros x Gx Hx. rewrite G in Gx. injection Gx as <-. destruct Hp as (Pc & _).
      destruct (setproperty_good junk o (p_code p) AttrNone Hj Ho Pc Q Hg) as (o2 & a2 & F2 & G2). exists o2, a2. split; [exact F2|].
      apply (setproperty_new _ _ _ _ _ _ Hj Ho Pc Q F2). }
    rewrite E. cbn [bind fst]. destruct (ustep_new _ _ _ _ _ _ _ Hj N G Hp Q E) as (o1 & T1 & L1).
    pose proof (took_get _ _ _ _ _ _ G Hc T1) as G1. rewrite G1.
    destruct (uecho_object_getproperty o1 (p_code p)) as [q|] eqn:Q1; [|congruence]. eapply St; eauto. apply T1.
Qed.

(* ---- all reported values ---- *)
Definition overwrite (m : dstate) (ps : list epair) : dstate :=
  fun c => match last_data ps c with Some d => Some d | None => m c end.

Lemma overwrite_cons : forall m e ps c, overwrite m (e :: ps) c = overwrite (dset m (fst e) (snd e)) ps c.
Proof.
  intros m e ps c. unfold overwrite. cbn [last_data]. destruct (last_data ps c); [reflexivity|].
  unfold dset. rewrite (Z.eqb_sym c). destruct (fst e =? c); reflexivity.
Qed.

Lemma overwrite_ext : forall m m' ps c, m c = m' c -> overwrite m ps c = overwrite m' ps c.
Proof. intros m m' ps c E. unfold overwrite. rewrite E. reflexivity. Qed.

Lemma differs_ext : forall ps m m', (forall e, In e ps -> m (fst e) = m' (fst e)) -> differs m ps = differs m' ps.
Proof.
  induction ps as [|e r IH]; intros m m' E; cbn [differs]; [reflexivity|]. rewrite (E e (or_introl eq_refl)). f_equal.
  apply IH. intros x I. destruct (fst x =? fst e); [reflexivity|]. apply E. right. exact I.
Qed.

Lemma update_loop_spec : forall fr ps j n oc o u n' u', (forall k i, is_byte (fr_more fr k i)) -> ninv n ->
  uecho_node_getobjectbycode n oc = Some o -> Forall ann_ok ps ->
  update_loop le snet fr j n oc ps u = Ok (n', u') ->
  let es := map ep_of ps in
  exists o', took n n' oc o o' (overwrite (odata o) es)
    /\ (forall e, In e es -> odata o' (fst e) <> None)
    /\ ((forall e, In e es -> odata o (fst e) <> None) ->
          (forall x, odata o' x = overwrite (odata o) es x) /\ same_shape o o')
    /\ ((forall e, In e es -> ~ map_epc (fst e)) \/ (forall e, In e es -> odata o (fst e) <> None) ->
          u' = u || differs (odata o) es).
Proof.
  intros fr ps. induction ps as [|p r IH]; intros j n oc o u n' u' Hj N G Hp H; cbv zeta.
  - cbn [update_loop] in H. injection H as <- <-. destruct (ninv_get _ _ _ N G) as [Ho Hc]. exists o.
    split; [|split; [intros e []|split; [split; [reflexivity|apply same_shape_refl]|intros _; cbn; rewrite orb_false_r; reflexivity]]].
    constructor; auto. { apply node_id. exact G. } { repeat split. }
  - rewrite update_loop_cons in H. apply bind_ok in H. destruct H as ([n1 b] & E & H). cbn [fst snd] in H.
    inversion Hp as [|? ? P1 P2]; subst. destruct (ninv_get _ _ _ N G) as [Ho Hc].
    destruct (ustep_spec _ _ _ _ _ _ _ (Hj j) N G P1 E) as (o1 & T1 & D1 & K1 & B1).
    pose proof (took_get _ _ _ _ _ _ G Hc T1) as G1.
    destruct (IH (S j) n1 oc o1 (u || b) n' u' Hj (tk_inv _ _ _ _ _ _ T1) G1 P2 H) as (o' & T & A & K & B). clear IH.
    assert (C1 : uecho_object_getcode o1 = oc) by (rewrite (keeps_code _ _ (tk_keeps _ _ _ _ _ _ T1)); exact Hc).
    exists o'. split; [|split; [|split]].
    + apply took_ext with (m := overwrite (odata o1) (map ep_of r)).
      * intros x Hx. cbn [map]. rewrite overwrite_cons. apply overwrite_ext. apply (tk_data _ _ _ _ _ _ T1). exact Hx.
      * eapply took_trans; eauto.
    + intros e [<-|I]; [|apply A; exact I]. apply (tk_has _ _ _ _ _ _ T). cbn [ep_of fst]. rewrite D1. discriminate.
    + intros Hk. assert (Hk1 : odata o (p_code p) <> None) by (apply (Hk (ep_of p)); left; reflexivity).
      destruct (K1 Hk1) as [D S]. destruct K as [K S'].
      { intros e I. rewrite D. unfold dset. destruct (fst e =? p_code p); [discriminate|]. apply Hk. right. exact I. }
      split; [|eapply same_shape_trans; eauto].
      intros x. rewrite K. cbn [map]. rewrite overwrite_cons. apply overwrite_ext. apply D.
    + intros Hk. rewrite B.
      * rewrite B1 by (destruct Hk as [Hk|Hk]; [left|right]; apply (Hk (ep_of p)); left; reflexivity).
        cbn [map differs ep_of fst snd]. rewrite <- orb_assoc. f_equal. f_equal. apply differs_ext. intros e I.
        change (odata o1 (fst e) = dset (odata o) (p_code p) (p_data p) (fst e)).
        destruct Hk as [Hk|Hk].
        -- apply (tk_data _ _ _ _ _ _ T1). apply Hk. right. exact I.
        -- apply K1. apply (Hk (ep_of p)). left. reflexivity.
      * destruct Hk as [Hk|Hk]; [left; intros e I; apply Hk; right; exact I|right].
        intros e I. apply (tk_has _ _ _ _ _ _ T1). apply Hk. right. exact I.
Qed.

Lemma update_loop_total : forall fr ps j n oc o u, (forall k i, is_byte (fr_more fr k i)) -> ninv n ->
  uecho_node_getobjectbycode n oc = Some o -> Forall ann_ok ps -> good o ->
  exists x, update_loop le snet fr j n oc ps u = Ok x.
Proof.
  intros fr ps. induction ps as [|p r IH]; intros j n oc o u Hj N G Hp Hg; [eexists; reflexivity|].
  inversion Hp as [|? ? P1 P2]; subst. destruct (ninv_get _ _ _ N G) as [Ho Hc].
  destruct (ustep_total (fr_more fr j) n oc o p (Hj j) N G P1 Hg) as ([n1 b] & E). rewrite update_loop_cons, E. cbn [bind fst snd].
  destruct (ustep_spec _ _ _ _ _ _ _ (Hj j) N G P1 E) as (o1 & T1 & _).
  pose proof (took_get _ _ _ _ _ _ G Hc T1) as G1.
  apply (IH (S j) n1 oc o1 (u || b) Hj (tk_inv _ _ _ _ _ _ T1) G1 P2). apply T1. exact Hg.
Qed.

(* ---- listed objects ---- *)
Lemma known_iff : forall n e, ninv n ->
  existsb (eoj_eqb e) (eojs n) = match uecho_node_getobjectbycode n (eoj_code e) with Some _ => true | None => false end.
Proof.
  intros n e (_ & Ho & _). unfold uecho_node_getobjectbycode, eojs. induction (n_objs n) as [|o l IH]; [reflexivity|].
  inversion Ho as [|? ? H1 H2]; subst. cbn [map existsb uecho_objectlist_getbycode].
  rewrite IH by exact H2. unfold eoj_eqb at 1. destruct H1 as (_ & Hb & _). rewrite (getcode_eq _ Hb).
  cbn [eoj_code]. rewrite Z.eqb_sym. destruct (_ =? eoj_code e); reflexivity.
Qed.

Variable db : list obj.
Hypothesis Hdb : db_ok db.

Lemma setobject_effect : forall junk n e n' ps r, junk_ok junk -> ninv n -> profile n <> None -> eoj_ok e ->
  uecho_node_getobjectbycode n (eoj_code e) = None ->
  uecho_node_setobject le snet db junk n (eoj_code e) = Ok (n', ps, r) ->
  ninv n' /\ profile n' <> None /\ eojs n' = eojs n ++ [e] /\ n_addr n' = n_addr n /\ n_listener n' = n_listener n
  /\ (forall c, c <> 978945 -> uecho_node_getobjectbycode n c <> None -> uecho_node_getobjectbycode n' c = uecho_node_getobjectbycode n c)
  /\ (forall c, ~ In c [211; 212; 213; 214; 215] -> node_data n' 978945 c = node_data n 978945 c)
  /\ describes n'
  /\ (exists o ann, uecho_object_setcode db junk uecho_object_new (eoj_code e) = Ok (o, ann)
        /\ uecho_node_getobjectbycode n' (eoj_code e) = Some (uecho_object_attach o))
  /\ (forall c, c <> eoj_code e -> uecho_node_getobjectbycode n c = None -> uecho_node_getobjectbycode n' c = None).
Proof.
  intros junk n e n' ps r Hj N P He G H.
  pose proof (setobject_ok le snet db junk n _ n' ps r Hdb Hj N H) as S.
  unfold uecho_node_setobject in H. rewrite G in H. apply bind_ok in H. destruct H as ([o a] & E & H). cbn [fst] in H.
  assert (Ho : api_obj db o) by (eapply ao_setcode; [constructor|exact Hj|exact E]).
  destruct (api_winv _ _ Hdb Ho) as [Hw Hb].
  destruct (setcode_code _ _ _ _ _ _ E) as (E1 & E2 & E3).
  assert (Eo : eoj_of o = e /\ uecho_object_getcode o = eoj_code e).
  { destruct e as [[g c] i]. destruct He as (H1 & H2 & H3). unfold byte_val in *. cbn [eoj_code] in *.
    assert (A : o_grp o = g /\ o_cls o = c /\ o_ins o = i) by (rewrite E1, E2, E3; lia).
    destruct A as (A1 & A2 & A3). split; [unfold eoj_of; rewrite A1, A2, A3; reflexivity|].
    rewrite (getcode_eq _ Hb), A1, A2, A3. reflexivity. }
  destruct Eo as [Eo Ec].
  assert (Pr : profile (appended o n) = profile n).
  { unfold profile, uecho_node_getobjectbycode in *. cbn [appended n_objs n_with_classes n_with_objs]. rewrite oget_app.
    change uEchoNodeProfileObject with 978945. change uEchoNodeProfileObject with 978945 in P.
    destruct (oget (n_objs n) 978945); [reflexivity|contradiction]. }
  assert (Hne : eoj_code e <> 978945).
  { intros X. rewrite X in G. unfold profile in P. change uEchoNodeProfileObject with 978945 in P. contradiction. }
  rewrite <- Ec in G.
  destruct (addobject_effect le snet n o n' ps r N Hw Hb G) as (-> & A & B & C & D & F1 & F2); [congruence|exact H|].
  assert (Dp : forall c, ~ In c [211; 212; 213; 214; 215] -> node_data n' 978945 c = node_data n 978945 c).
  { intros c Hc. specialize (D c Hc). rewrite Pr in D. unfold node_data. unfold profile in D.
    change uEchoNodeProfileObject with 978945 in D.
    destruct (uecho_node_getobjectbycode n' 978945); [|contradiction].
    destruct (uecho_node_getobjectbycode n 978945); [|contradiction]. rewrite D. reflexivity. }
  split; [apply S|]. split.
  { specialize (D 0). rewrite Pr in D. destruct (profile n'); [discriminate|]. intros _. apply D. cbn. lia. }
  split; [rewrite <- Eo; exact A|]. split; [exact F1|]. split; [exact F2|]. split; [|split; [exact Dp|split; [exact B|split]]].
  - intros c H1 H2. rewrite C by exact H1. destruct (Z.eqb_spec c (uecho_object_getcode o)) as [->|]; [contradiction|reflexivity].
  - exists o, a. split; [exact E|]. rewrite C by exact Hne. rewrite Ec, Z.eqb_refl. reflexivity.
  - intros c H1 H2. rewrite C.
    + destruct (Z.eqb_spec c (uecho_object_getcode o)) as [->|]; [congruence|exact H2].
    + intros ->. unfold profile in P. change uEchoNodeProfileObject with 978945 in P. contradiction.
Qed.

Lemma skipn_three : forall (l : list Z) i, (i + 2 < length l)%nat ->
  exists a b c, skipn i l = a :: b :: c :: skipn (i + 3) l /\ l = firstn i l ++ [a; b; c] ++ skipn (i + 3) l.
Proof.
  intros l i H. pose proof (firstn_skipn i l) as E. pose proof (skipn_length i l) as L.
  destruct (skipn i l) as [|a [|b [|c r]]] eqn:S; cbn [length] in L; try lia.
  assert (R : skipn (i + 3) l = r).
  { rewrite <- E at 1. rewrite skipn_app, firstn_length_le by lia. replace (i + 3 - i)%nat with 3%nat by lia.
    rewrite skipn_all2 by (rewrite firstn_length_le; lia). reflexivity. }
  exists a, b, c. rewrite R. split; [reflexivity|]. cbn [app]. symmetry. exact E.
Qed.

Lemma skipn_short : forall (l : list Z) i, (length l <= i + 2)%nat -> triples (skipn i l) = [].
Proof.
  intros l i H. pose proof (skipn_length i l) as L. destruct (skipn i l) as [|a [|b [|c r]]]; cbn [length] in L; try reflexivity. lia.
Qed.

Lemma learn_cons : forall k e l, learn k (e :: l) = learn (add_eoj k e) l.
Proof. reflexivity. Qed.

Lemma learn_len : forall l k, (length k <= length (learn k l))%nat.
Proof.
  induction l as [|e l IH]; intros k; cbn; [lia|]. unfold learn in IH. specialize (IH (add_eoj k e)).
  assert (length k <= length (add_eoj k e))%nat by (unfold add_eoj; destruct (existsb _ _); [lia|rewrite app_length; cbn; lia]).
  lia.
Qed.

Record searched (n n' : node) (l : list (Z * Z * Z)) : Prop := mkSearched {
  sr_inv : ninv n';
  sr_profile : profile n' <> None;
  sr_eojs : eojs n' = learn (eojs n) l;
  sr_addr : n_addr n' = n_addr n;
  sr_listener : n_listener n' = n_listener n;
  sr_objects : forall c, c <> 978945 -> uecho_node_getobjectbycode n c <> None ->
     uecho_node_getobjectbycode n' c = uecho_node_getobjectbycode n c;
  sr_data : forall c, ~ In c [211; 212; 213; 214; 215] -> node_data n' 978945 c = node_data n 978945 c;
  sr_same : eojs n' = eojs n -> n' = n;
  sr_describes : eojs n' <> eojs n -> describes n';
  sr_new : forall c o, uecho_node_getobjectbycode n c = None -> uecho_node_getobjectbycode n' c = Some o ->
     exists junk o0 ann, junk_ok junk /\ uecho_object_setcode db junk uecho_object_new c = Ok (o0, ann) /\ o = uecho_object_attach o0
}.

Lemma searched_refl : forall n, ninv n -> profile n <> None -> searched n n [].
Proof. intros n N P. constructor; auto; [intros X; contradiction|]. intros c o X Y. congruence. Qed.

Lemma len_lt : forall (data : list Z) (i : nat), Z.of_nat i + 2 <? len data = true <-> (i + 2 < length data)%nat.
Proof. intros. unfold len. lia. Qed.

Lemma search_loop_spec : forall fr data, (forall k i, is_byte (fr_more fr k i)) -> bytes_ok data ->
  forall fuel i j n u n' u', ninv n -> profile n <> None ->
  search_loop le snet db fuel fr data (Z.of_nat i) j n u = Ok (n', u') ->
  searched n n' (triples (skipn i data))
  /\ u' = u || negb (length (eojs n') =? length (eojs n))%nat.
Proof.
  intros fr data Hj Hd fuel. induction fuel as [|fuel IH]; intros i j n u n' u' N P H; cbn [search_loop] in H.
  - destruct (Z.of_nat i + 2 <? len data) eqn:L; [discriminate|]. injection H as <- <-.
    rewrite skipn_short by (destruct (len_lt data i) as [_ X]; rewrite L in X; destruct (Nat.ltb_spec (i + 2) (length data)); [specialize (X H); discriminate|assumption]).
    split; [apply searched_refl; assumption|]. rewrite Nat.eqb_refl, orb_false_r. reflexivity.
  - destruct (Z.of_nat i + 2 <? len data) eqn:L.
    2:{ injection H as <- <-.
    rewrite skipn_short by (destruct (len_lt data i) as [_ X]; rewrite L in X; destruct (Nat.ltb_spec (i + 2) (length data)); [specialize (X H); discriminate|assumption]).
    split; [apply searched_refl; assumption|]. rewrite Nat.eqb_refl, orb_false_r. reflexivity. }
    apply len_lt in L. destruct (skipn_three data i L) as (a & b & c & E1 & E2).
    assert (R : rd_range data (Z.of_nat i) 3 = Ok [a; b; c]).
    { rewrite E2. apply rd_range_app; [unfold len; rewrite firstn_length_le by lia; reflexivity|reflexivity]. }
    rewrite R in H. cbn [bind] in H.
    assert (Hb : is_byte a /\ is_byte b /\ is_byte c).
    { rewrite E2 in Hd. unfold bytes_ok in Hd. rewrite !Forall_app in Hd. destruct Hd as (_ & Hd & _).
      inversion Hd as [|? ? A1 Hd1]; subst. inversion Hd1 as [|? ? A2 Hd2]; subst. inversion Hd2; subst. auto. }
    destruct (getobj_eoj [a; b; c]) as (a' & b' & c' & Eq & Ec).
    { exists a, b, c. split; [reflexivity|exact Hb]. }
    injection Eq as <- <- <-. rewrite Ec in H. cbn [bind] in H.
    replace (Z.of_nat i + 3) with (Z.of_nat (i + 3)) in H by lia. rewrite E1. cbn [triples].
    assert (He : eoj_ok (a, b, c)) by (destruct Hb as (B1 & B2 & B3); apply is_byte_val in B1, B2, B3; exact (conj B1 (conj B2 B3))).
    pose proof (known_iff n (a, b, c) N) as K.
    destruct (uecho_node_getobjectbycode n (eoj_code (a, b, c))) as [o|] eqn:G.
    + apply IH in H; [|assumption|assumption]. destruct H as [S U]. split; [|exact U]. destruct S as [S1 S2 S3 S4 S5 S6 S7 S8 S9 S10].
      assert (S3' : eojs n' = learn (eojs n) ((a, b, c) :: triples (skipn (i + 3) data))).
      { rewrite S3. rewrite learn_cons. unfold add_eoj. rewrite K. reflexivity. }
      constructor; assumption.
    + apply bind_ok in H. destruct H as ([[n1 ps] r] & E & H).
      destruct (setobject_effect _ _ _ _ _ _ (Hj j) N P He G E) as (A1 & A2 & A3 & A4 & A5 & A6 & A7 & A8 & (o1 & a1 & A9 & A10) & A11).
      apply IH in H; [|assumption|assumption]. destruct H as [[S1 S2 S3 S4 S5 S6 S7 S8 S9 S10] U].
      assert (S3' : eojs n' = learn (eojs n) ((a, b, c) :: triples (skipn (i + 3) data))).
      { rewrite S3, A3. rewrite learn_cons. unfold add_eoj. rewrite K. reflexivity. }
      assert (Ne : (length (eojs n) < length (eojs n'))%nat).
      { rewrite S3. pose proof (learn_len (triples (skipn (i + 3) data)) (eojs n1)) as X. rewrite A3, app_length in X at 1. cbn in X. lia. }
      split.
      * constructor; [assumption|assumption|exact S3'|congruence|congruence| | | | |].
        -- intros x X1 X2. rewrite S6; [apply A6; assumption|exact X1|]. rewrite A6 by assumption. exact X2.
        -- intros x X. rewrite S7 by exact X. apply A7. exact X.
        -- intros X. rewrite X in Ne. lia.
        -- intros X. destruct (list_eq_dec (fun x y : Z * Z * Z => ltac:(repeat decide equality)) (eojs n') (eojs n1)) as [Y|Y].
           ++ rewrite (S8 Y). exact A8.
           ++ exact (S9 Y).
        -- intros x o X1 X2. destruct (Z.eq_dec x (eoj_code (a, b, c))) as [->|X3]; [|exact (S10 _ _ (A11 _ X3 X1) X2)].
           rewrite S6 in X2; [rewrite A10 in X2; injection X2 as <-; exists (fr_more fr j), o1, a1; split; [exact (Hj j)|split; [exact A9|reflexivity]]| |rewrite A10; discriminate].
           intros X3. rewrite X3 in X1. unfold profile in P. change uEchoNodeProfileObject with 978945 in P. contradiction.
      * rewrite U. cbn [orb]. destruct (length (eojs n') =? length (eojs n))%nat eqn:X; [apply Nat.eqb_eq in X; lia|].
        cbn [negb]. rewrite orb_true_r. reflexivity.
Qed.

Hypothesis Hmaps : db_maps db.

Lemma setobject_good : forall junk n e, junk_ok junk -> ninv n -> ngood n ->
  exists n' ps r, uecho_node_setobject le snet db junk n e = Ok (n', ps, r) /\ ngood n'.
Proof.
  intros junk n e Hj N Hg. destruct (uecho_node_getobjectbycode n e) eqn:G.
  - unfold uecho_node_setobject. rewrite G. eexists _, _, _. split; [reflexivity|exact Hg].
  - unfold uecho_node_setobject. rewrite G.
    destruct (setcode_good db junk e Hdb Hmaps Hj) as (o & a & E & Go). rewrite E. cbn [bind fst].
    assert (Ho : api_obj db o) by (eapply ao_setcode; [constructor|exact Hj|exact E]).
    destruct (api_winv _ _ Hdb Ho) as [Hw Hb].
    destruct (addobject_total le snet n o N Hw Hb) as (n' & ps & r & F). exists n', ps, r. split; [exact F|].
    eapply addobject_good; eauto.
Qed.

Lemma search_loop_total : forall fr data, (forall k i, is_byte (fr_more fr k i)) -> bytes_ok data ->
  forall fuel i j n u, ninv n -> profile n <> None -> ngood n -> (length data <= i + fuel)%nat ->
  exists n' u', search_loop le snet db fuel fr data (Z.of_nat i) j n u = Ok (n', u') /\ ngood n'.
Proof.
  intros fr data Hj Hd fuel. induction fuel as [|fuel IH]; intros i j n u N P Hg Hf; cbn [search_loop].
  - destruct (Z.of_nat i + 2 <? len data) eqn:L; [apply len_lt in L; lia|]. eexists _, _. split; [reflexivity|exact Hg].
  - destruct (Z.of_nat i + 2 <? len data) eqn:L; [|eexists _, _; split; [reflexivity|exact Hg]].
    apply len_lt in L. destruct (skipn_three data i L) as (a & b & c & E1 & E2).
    assert (R : rd_range data (Z.of_nat i) 3 = Ok [a; b; c]).
    { rewrite E2. apply rd_range_app; [unfold len; rewrite firstn_length_le by lia; reflexivity|reflexivity]. }
    rewrite R. cbn [bind].
    assert (Hb : is_byte a /\ is_byte b /\ is_byte c).
    { rewrite E2 in Hd. unfold bytes_ok in Hd. rewrite !Forall_app in Hd. destruct Hd as (_ & Hd & _).
      inversion Hd as [|? ? A1 Hd1]; subst. inversion Hd1 as [|? ? A2 Hd2]; subst. inversion Hd2; subst. auto. }
    destruct (getobj_eoj [a; b; c]) as (a' & b' & c' & Eq & Ec).
    { exists a, b, c. split; [reflexivity|exact Hb]. }
    injection Eq as <- <- <-. rewrite Ec. cbn [bind].
    replace (Z.of_nat i + 3) with (Z.of_nat (i + 3)) by lia.
    destruct (uecho_node_getobjectbycode n (eoj_code (a, b, c))) as [o|] eqn:G; [apply IH; auto; lia|].
    destruct (setobject_good (fr_more fr j) n (eoj_code (a, b, c)) (Hj j) N Hg) as (n1 & ps & r & E & Hg1). rewrite E. cbn [bind].
    assert (He : eoj_ok (a, b, c)) by (destruct Hb as (B1 & B2 & B3); apply is_byte_val in B1, B2, B3; exact (conj B1 (conj B2 B3))).
    destruct (setobject_effect _ _ _ _ _ _ (Hj j) N P He G E) as (A1 & A2 & _).
    apply IH; auto. lia.
Qed.
End Shadow.
