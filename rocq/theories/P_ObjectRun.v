(* The finite-map refinement of objects. *)
From Coq Require Import ZArith List Bool Lia ZifyBool ZifyNat.
From Verif Require Import CSem M_Const M_Misc M_Property M_PropertyList M_Object Spec_Map Spec_Object
  Run_Object P_Base P_Map P_PropertyList P_MapProps P_Object.
Import ListNotations.
Open Scope Z_scope.
Ltac Zify.zify_post_hook ::= Z.div_mod_to_equations.

Definition ent (p : prop) : entry := (p_attr p, p_data p).
Definition lview (l : list prop) : pmap := fun c => option_map ent (find l c).

Lemma view_lview : forall o, view o = lview (o_props o).
Proof. reflexivity. Qed.

Definition inv (o : obj) : Prop := NoDup (codes (o_props o)) /\ plist_ok (o_props o).

Lemma inv_new : inv uecho_object_new.
Proof. split; constructor. Qed.

(* codes other than the maps are untouched by an update *)
Lemma update_view : forall junk o o' ann, junk_ok junk -> inv o ->
  uecho_object_updatepropertymaps junk o = Ok (o', ann) ->
  inv o' /\ (forall c, ~ map_epc c -> find (o_props o') c = find (o_props o) c)
  /\ o_getsz o' = (o_getsz o + length (rcodes (o_props o)))%nat
  /\ (forall c, In c (codes (o_props o')) <-> In c (codes (o_props o)) \/ map_epc c).
Proof.
  intros junk o o' ann Hj [Hn Hp] H.
  destruct (update_spec _ _ _ _ Hj Hp H) as (gs & dg & ds & da & Eg & E & _ & B1 & B2 & B3 & _).
  cbv zeta in E. subst o'. cbn [o_props o_with_props o_with_getsz o_getsz].
  assert (P1 : forall n d q c, p_code q = c -> p_code (map_store n d q) = c)
    by (intros; rewrite map_store_code; assumption).
  split.
  - split.
    + repeat (apply put_nodup; [intros; apply P1; assumption|]). assumption.
    + repeat (apply put_plist_ok;
        [intros; apply P1; assumption| |unfold is_byte; lia|intros; rewrite map_store_data; assumption]).
      assumption.
  - split.
    + intros c Hc. unfold map_epc in Hc.
      rewrite !put_find by (intros; apply P1; assumption).
      replace (c =? 157) with false by lia. replace (c =? 158) with false by lia.
      replace (c =? 159) with false by lia. reflexivity.
    + split; [reflexivity|]. intros c. rewrite !put_codes by (intros; apply P1; assumption).
      rewrite !in_add_end. unfold map_epc. tauto.
Qed.

Lemma obj_props_with : forall l o, o_props (o_with_props l o) = l.
Proof. reflexivity. Qed.

Lemma inv_props : forall l o, NoDup (codes l) -> plist_ok l -> inv (o_with_props l o).
Proof. intros. split; assumption. Qed.

Lemma put_inv : forall o c f, inv o -> is_byte c -> (forall p, p_code p = c -> p_code (f p) = c) ->
  (forall p, is_byte (p_code p) /\ bytes_ok (p_data p) -> bytes_ok (p_data (f p))) ->
  inv (o_with_props (put (o_props o) c f) o).
Proof.
  intros o c f [H1 H2] Hc Hf Hd. apply inv_props; [apply put_nodup; assumption|].
  apply put_plist_ok; assumption.
Qed.

Lemma plist_ok_in : forall l p, plist_ok l -> In p l -> is_byte (p_code p) /\ bytes_ok (p_data p).
Proof. intros l p H I. unfold plist_ok in H. rewrite Forall_forall in H. auto. Qed.

Lemma update_first_put : forall l c q f, find l c = Some q -> update_first c (fun _ => f q) l = put l c f.
Proof. intros. unfold put. rewrite H. apply update_first_found. assumption. Qed.

Lemma adddata_eq : forall p d, uecho_property_adddata d p =
  (put_data (p_data p ++ d) p,
   match d with [] => [] | _ => if uecho_property_isannounceable p && p_parent p then [put_data (p_data p ++ d) p] else [] end).
Proof.
  intros. unfold uecho_property_adddata. destruct d as [|x d].
  - cbn. rewrite app_nil_r. destruct p; reflexivity.
  - replace (len (x :: d) =? 0) with false by (rewrite len_cons; pose proof (len_nonneg _ d); lia).
    unfold uecho_property_announce. cbn. unfold uecho_property_isannounceable. cbn.
    destruct (has_bits (p_attr p) 68); destruct (p_parent p); reflexivity.
Qed.

Lemma put_put : forall l c f g, (forall p, p_code p = c -> p_code (f p) = c) ->
  update_first c g (put l c f) = put l c (fun p => g (f p)).
Proof.
  intros l c f g Hf. unfold put.
  assert (G : forall l', update_first c g (update_first c f l') = update_first c (fun p => g (f p)) l').
  { induction l'; cbn; [reflexivity|]. destruct (p_code a =? c) eqn:E; cbn.
    - rewrite Hf by lia. rewrite Z.eqb_refl. reflexivity.
    - rewrite E. f_equal. assumption. }
  apply G.
Qed.

Lemma remove_first_in : forall l c p, In p (remove_first c l) -> In p l.
Proof. induction l; cbn; intros; auto. destruct (p_code a =? c); cbn in *; [auto|]. destruct H; eauto. Qed.

(* one step of the refinement *)
Lemma step_spec : forall junk o op o' ann, junk_ok junk -> inv o -> oop_ok op ->
  ostep junk o op = Ok (o', ann) ->
  inv o'
  /\ forall c, (~ map_epc c \/ (forall c' a', op <> OSetProperty c' a')) ->
       view o' c = pm_step (view o) op c.
Proof.
  intros junk o op o' ann Hj Hi [Hc Hd] H. destruct op; cbn [ostep oop_code] in *.
  - (* OSetProperty *)
    unfold uecho_object_setproperty in H. rewrite pl_set_eq in H. 
    rewrite put_put in H by (intros; assumption).
    set (f := fun p => uecho_property_setparentobject true (uecho_property_setattribute a (put_data [] p))) in H.
    set (o1 := o_with_props (put (o_props o) c f) o) in *.
    assert (Hf : forall p, p_code p = c -> p_code (f p) = c) by (intros; assumption).
    assert (I1 : inv o1) by (apply put_inv; auto; intros; constructor).
    destruct (uecho_object_updatepropertymaps junk o1) as [[o2 a2]|] eqn:E; [|discriminate].
    cbn [bind] in H. inversion H; subst o' ann.
    destruct (update_view _ _ _ _ Hj I1 E) as (I2 & V2 & _). split; [assumption|].
    intros c' [Hm|Hm]; [|exfalso; eapply Hm; reflexivity].
    rewrite view_lview. unfold lview. rewrite V2 by assumption.
    unfold o1. rewrite obj_props_with, put_find by assumption.
    cbn [pm_step]. unfold pm_set. destruct (c' =? c) eqn:Ec; [|reflexivity]. reflexivity.
  - inversion H; subst o' ann. unfold uecho_object_setpropertyattribute. rewrite pl_setattr_eq.
    split; [apply put_inv; auto; intros; tauto|]. intros c' _.
    rewrite view_lview. unfold lview. rewrite obj_props_with, put_find by (intros; assumption).
    cbn [pm_step]. unfold pm_set, data_of, view, got, uecho_object_getproperty.
    destruct (c' =? c); [|reflexivity]. destruct (find (o_props o) c); reflexivity.
  - unfold uecho_object_setpropertydata in H. rewrite pl_setdata_eq in H. inversion H; subst o' ann.
    split; [apply put_inv; auto|]. intros c' _.
    rewrite view_lview. unfold lview. rewrite obj_props_with, put_find by (intros; assumption).
    cbn [pm_step]. unfold pm_set, attr_of, view, got, uecho_object_getproperty.
    destruct (c' =? c); [|reflexivity]. destruct (find (o_props o) c); reflexivity.
  - unfold uecho_object_setpropertybytedata, uecho_propertylist_setbytedata, uecho_property_setbytedata in H.
    rewrite getbycode_eq, setdata_eq in H. rewrite upd_put in H. inversion H; subst o' ann.
    assert (Hb : is_byte b) by exact Hd. rewrite to_byte_id by assumption.
    split; [apply put_inv; auto; intros; apply bytes_ok_cons; split; [assumption|constructor]|].
    intros c' _.
    rewrite view_lview. unfold lview. rewrite obj_props_with, put_find by (intros; assumption).
    cbn [pm_step]. unfold pm_set, attr_of, view, got, uecho_object_getproperty.
    destruct (c' =? c); [|reflexivity]. destruct (find (o_props o) c); reflexivity.
  - inversion H; subst o' ann. unfold uecho_object_addproperty.
    destruct Hi as [Hn Hp].
    destruct (add_spec (o_props o) (uecho_property_setparentobject true (mkProp c a d false)) Hn) as [F N].
    split.
    { apply inv_props; [assumption|]. apply Forall_forall. intros p I.
      unfold uecho_propertylist_add in I.
      assert (In p (o_props o) \/ p = uecho_property_setparentobject true (mkProp c a d false)).
      { destruct (find (o_props o) _); apply in_app_or in I; destruct I as [I|I];
          try (left; eapply remove_first_in; eassumption); try (left; assumption);
          right; destruct I as [I|[]]; symmetry; exact I. }
      destruct H0 as [I'|E]; [apply (plist_ok_in _ _ Hp I')|]. subst p. split; [exact Hc|exact Hd]. }
    intros c' _. rewrite view_lview. unfold lview. rewrite obj_props_with, F.
    cbn [pm_step uecho_property_setparentobject p_code]. unfold pm_set.
    destruct (c' =? c); reflexivity.
  - unfold object_property_setdata in H. unfold uecho_object_getproperty in H.
    destruct (find (o_props o) c) as [q|] eqn:E.
    + rewrite setdata_eq in H. inversion H; subst o' ann.
      rewrite (update_first_put _ _ _ (put_data d)) by assumption.
      split; [apply put_inv; auto|]. intros c' _.
      rewrite view_lview. unfold lview. rewrite obj_props_with, put_find by (intros; assumption).
      cbn [pm_step]. unfold pm_set, view, got, uecho_object_getproperty. rewrite E.
      destruct (c' =? c); reflexivity.
    + inversion H; subst o' ann. split; [assumption|]. intros c' _. cbn [pm_step].
      unfold view at 2, uecho_object_getproperty. rewrite E. reflexivity.
  - unfold object_property_adddata in H. unfold uecho_object_getproperty in H.
    destruct (find (o_props o) c) as [q|] eqn:E.
    + rewrite adddata_eq in H. inversion H; subst o' ann.
      rewrite (update_first_put _ _ _ (fun p => put_data (p_data p ++ d) p)) by assumption.
      split; [apply put_inv; auto; intros; apply bytes_ok_app; tauto|]. intros c' _.
      rewrite view_lview. unfold lview. rewrite obj_props_with, put_find by (intros; assumption).
      cbn [pm_step]. unfold pm_set, view, got, uecho_object_getproperty. rewrite E.
      destruct (c' =? c); reflexivity.
    + inversion H; subst o' ann. split; [assumption|]. intros c' _. cbn [pm_step].
      unfold view at 2, uecho_object_getproperty. rewrite E. reflexivity.
  - inversion H; subst o' ann. unfold uecho_object_clearproperties, uecho_object_clearpropertymapcaches.
    split; [apply inv_props; constructor|]. intros. reflexivity.
Qed.

(* the effect of a step on a code depends on that code's entry only *)
Lemma pm_step_local : forall op m1 m2 c, m1 c = m2 c -> pm_step m1 op c = pm_step m2 op c.
Proof.
  intros op m1 m2 c H.
  assert (P : forall x y k e1 e2, (k = c -> e1 = e2) -> x c = y c -> pm_set x k e1 c = pm_set y k e2 c).
  { intros. unfold pm_set. destruct (Z.eqb_spec c k); [rewrite H0; auto|assumption]. }
  assert (D : forall k, k = c -> data_of m1 k = data_of m2 k) by (intros; subst; unfold data_of; rewrite H; reflexivity).
  assert (A : forall k, k = c -> attr_of m1 k = attr_of m2 k) by (intros; subst; unfold attr_of; rewrite H; reflexivity).
  destruct op; cbn [pm_step]; try (apply P; [|assumption]; intros E; rewrite ?(D _ E), ?(A _ E); reflexivity);
    try reflexivity.
  - destruct (Z.eq_dec c0 c) as [E|E].
    + subst c0. rewrite H. destruct (m2 c) as [[a0 d0]|] eqn:E2; [unfold pm_set; rewrite Z.eqb_refl; reflexivity|]. congruence.
    + destruct (m1 c0) as [[? ?]|], (m2 c0) as [[? ?]|]; unfold pm_set; try (destruct (Z.eqb_spec c c0); [congruence|]); assumption.
  - destruct (Z.eq_dec c0 c) as [E|E].
    + subst c0. rewrite H. destruct (m2 c) as [[a0 d0]|] eqn:E2; [unfold pm_set; rewrite Z.eqb_refl; reflexivity|]. congruence.
    + destruct (m1 c0) as [[? ?]|], (m2 c0) as [[? ?]|]; unfold pm_set; try (destruct (Z.eqb_spec c c0); [congruence|]); assumption.
Qed.

Lemma pm_run_local : forall ops m1 m2 c, m1 c = m2 c -> pm_run m1 ops c = pm_run m2 ops c.
Proof.
  induction ops; cbn; intros; auto. apply IHops. apply pm_step_local. assumption.
Qed.

Lemma run_spec : forall h o o', hist_ok h -> inv o -> orun o h = Ok o' ->
  inv o' /\ forall c,
    (~ map_epc c \/ forall c' a', ~ In (OSetProperty c' a') (map fst h)) ->
    view o' c = pm_run (view o) (map fst h) c.
Proof.
  induction h as [|[op junk] h IH]; intros o o' Hh Hi H.
  - inversion H; subst. split; [assumption|]. reflexivity.
  - inversion Hh as [|? ? [H1 H2] H3]; subst. cbn [fst snd] in *. cbn [orun] in H.
    destruct (ostep junk o op) as [[o1 a1]|] eqn:E; [|discriminate]. cbn [bind fst] in H.
    destruct (step_spec _ _ _ _ _ H2 Hi H1 E) as [I1 V1].
    destruct (IH _ _ H3 I1 H) as [I2 V2]. split; [assumption|]. intros c Hc. cbn [map fst pm_run fold_left].
    rewrite V2.
    + apply pm_run_local. apply V1. destruct Hc as [Hc|Hc]; [auto|]. right. intros c' a' Eo.
      apply (Hc c' a'). cbn. auto.
    + destruct Hc as [Hc|Hc]; [auto|]. right. intros c' a' I. apply (Hc c' a'). cbn. auto.
Qed.

(* ---- absence of undefined behaviour ---- *)

(* the get map is readable, or nothing is cached *)
Definition safe (o : obj) : Prop :=
  o_getsz o = O \/ exists p, find (o_props o) 159 = Some p /\ uecho_property_isreadable p = true.

Lemma get_map_readable : forall l gs dg n d n' d',
  (forall p, find l 159 = Some p -> uecho_property_isreadable p = true) ->
  exists p, find (put (put (put l 159 (map_store gs dg)) 158 (map_store n d)) 157 (map_store n' d')) 159 = Some p
            /\ uecho_property_isreadable p = true.
Proof.
  intros. rewrite !put_find by (intros; rewrite map_store_code; assumption). cbn.
  eexists. split; [reflexivity|].
  assert (G : uecho_property_isreadable (got l 159) = true)
    by (unfold got; destruct (find l 159) eqn:E; [auto|reflexivity]).
  revert G. unfold map_store, uecho_property_isreadable. destruct (gs <=? 15); [reflexivity|cbn; auto].
Qed.

(* operations that keep the property maps out of the user's hands *)
Definition no_map_op (op : oop) : Prop :=
  op <> OClear /\ forall c, oop_code op = Some c -> ~ map_epc c.

Lemma step_other : forall junk o op, no_map_op op -> (forall c a, op <> OSetProperty c a) ->
  exists o' ann, ostep junk o op = Ok (o', ann) /\ o_getsz o' = o_getsz o
    /\ find (o_props o') 159 = find (o_props o) 159.
Proof.
  intros junk o op [Hnc Hnm] Hns.
  destruct op; cbn [ostep oop_code] in *; try congruence;
    try (specialize (Hnm _ eq_refl); unfold map_epc in Hnm).
  - eexists _, _. split; [reflexivity|]. split; [reflexivity|].
    unfold uecho_object_setpropertyattribute. rewrite pl_setattr_eq, obj_props_with, put_find by (intros; assumption).
    replace (159 =? c) with false by lia. reflexivity.
  - unfold uecho_object_setpropertydata. rewrite pl_setdata_eq.
    eexists _, _. split; [reflexivity|]. split; [reflexivity|].
    rewrite obj_props_with, put_find by (intros; assumption).
    replace (159 =? c) with false by lia. reflexivity.
  - unfold uecho_object_setpropertybytedata, uecho_propertylist_setbytedata, uecho_property_setbytedata.
    rewrite getbycode_eq, setdata_eq, upd_put.
    eexists _, _. split; [reflexivity|]. split; [reflexivity|].
    rewrite obj_props_with, put_find by (intros; assumption).
    replace (159 =? c) with false by lia. reflexivity.
  - eexists _, _. split; [reflexivity|]. split; [reflexivity|].
    unfold uecho_object_addproperty. rewrite obj_props_with. unfold uecho_propertylist_add. cbn [p_code uecho_property_setparentobject].
    destruct (find (o_props o) c); rewrite find_app; cbn; (destruct (c =? 159) eqn:E; [lia|]);
      rewrite ?find_remove_other by lia; destruct (find (o_props o) 159); reflexivity.
  - unfold object_property_setdata, uecho_object_getproperty.
    destruct (find (o_props o) c) as [q|] eqn:E; [|eexists _, _; split; [reflexivity|]; split; reflexivity].
    rewrite setdata_eq, (update_first_put _ _ _ (put_data d)) by assumption.
    eexists _, _. split; [reflexivity|]. split; [reflexivity|].
    rewrite obj_props_with, put_find by (intros; assumption).
    replace (159 =? c) with false by lia. reflexivity.
  - unfold object_property_adddata, uecho_object_getproperty.
    destruct (find (o_props o) c) as [q|] eqn:E; [|eexists _, _; split; [reflexivity|]; split; reflexivity].
    rewrite adddata_eq, (update_first_put _ _ _ (fun p => put_data (p_data p ++ d) p)) by assumption.
    eexists _, _. split; [reflexivity|]. split; [reflexivity|].
    rewrite obj_props_with, put_find by (intros; assumption).
    replace (159 =? c) with false by lia. reflexivity.
Qed.

Lemma step_safe : forall junk o op, junk_ok junk -> inv o -> oop_ok op -> no_map_op op ->
  (forall p, find (o_props o) 159 = Some p -> uecho_property_isreadable p = true) -> safe o ->
  exists o' ann, ostep junk o op = Ok (o', ann)
    /\ (forall p, find (o_props o') 159 = Some p -> uecho_property_isreadable p = true) /\ safe o'.
Proof.
  intros junk o op Hj Hi Hok Hnm Hr Hs.
  assert (D : (exists c a, op = OSetProperty c a) \/ forall c a, op <> OSetProperty c a)
    by (destruct op; try (right; intros; discriminate); left; eauto).
  destruct D as [(c & a & ->)|D].
  - destruct Hnm as [_ Hnm]. specialize (Hnm _ eq_refl). unfold map_epc in Hnm.
    cbn [ostep]. unfold uecho_object_setproperty.
    rewrite pl_set_eq. rewrite put_put by (intros; assumption).
    set (f := fun p => uecho_property_setparentobject true (uecho_property_setattribute a (put_data [] p))) in *.
    set (o1 := o_with_props (put (o_props o) c f) o) in *.
    assert (Hf : forall p, p_code p = c -> p_code (f p) = c) by (intros; assumption).
    destruct Hok as [Hc _]. cbn in Hc.
    assert (I1 : inv o1) by (apply put_inv; auto; intros; constructor).
    assert (F1 : find (o_props o1) 159 = find (o_props o) 159).
    { unfold o1. rewrite obj_props_with, put_find by assumption. replace (159 =? c) with false by lia. reflexivity. }
    assert (U : exists r, uecho_object_updatepropertymaps junk o1 = Ok r).
    { apply update_ok_iff; [assumption|apply I1|]. destruct Hs as [Hs|(p & P1 & P2)]; [left; exact Hs|].
      right. exists p. split; [|assumption]. rewrite <- F1 in P1. apply find_code in P1. tauto. }
    destruct U as ([o2 a2] & E2). rewrite E2. cbn [bind]. eexists _, _. split; [reflexivity|].
    destruct (update_spec _ _ _ _ Hj (proj2 I1) E2) as (gs & dg & ds & da & Eg & Eo & _).
    cbv zeta in Eo.
    destruct (get_map_readable (o_props o1) (len gs) dg (len (wcodes (o_props o1))) ds (len (acodes (o_props o1))) da)
      as (q & Q1 & Q2); [rewrite F1; assumption|].
    assert (Q3 : find (o_props o2) 159 = Some q) by (rewrite Eo; exact Q1).
    split; [intros p Hp; congruence|]. right. exists q. auto.
  - destruct (step_other junk o op Hnm D) as (o' & ann & E & G & F).
    exists o', ann. split; [assumption|]. rewrite F. split; [assumption|].
    unfold safe. rewrite G, F. exact Hs.
Qed.

Lemma run_safe : forall h o, hist_ok h -> inv o -> Forall no_map_op (map fst h) ->
  (forall p, find (o_props o) 159 = Some p -> uecho_property_isreadable p = true) -> safe o ->
  exists o', orun o h = Ok o'.
Proof.
  induction h as [|[op junk] h IH]; intros o Hh Hi Hm Hr Hs; [eexists; reflexivity|].
  inversion Hh as [|? ? [H1 H2] H3]; subst. inversion Hm; subst. cbn [fst snd] in *. cbn [orun].
  destruct (step_safe junk o op) as (o1 & a1 & E & R1 & S1); auto.
  rewrite E. cbn [bind fst]. apply IH; auto. eapply step_spec; eauto.
Qed.
