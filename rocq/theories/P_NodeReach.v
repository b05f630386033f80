(* The invariant of every node a program can have, and the numbering of the frames it sends. *)
From Coq Require Import String ZArith List Bool Lia ZifyBool ZifyNat.
From Verif Require Import CSem M_Const M_Misc M_Property M_Message M_PropertyList M_Object M_Node M_NodeListener
  Spec_Frame Spec_Message Spec_Map Spec_Object Spec_Node Run_Object Run_Node P_Base P_Misc P_Message P_Encode P_MsgApi P_PropertyList
  P_Object P_ObjectRun P_ObjectReach P_Node P_Request Properties_Object.
Import ListNotations.
Open Scope Z_scope.
Ltac Zify.zify_post_hook ::= Z.div_mod_to_equations.

(* ---- announced values ---- *)

(* [p] shows the value stored in [l] *)
Definition snap (l : list prop) (p : prop) : Prop :=
  exists q, find l (p_code p) = Some q /\ p_data q = p_data p.

Lemma announced_in : forall l c d p, In p (announced (got l c) d) -> p_code p = c /\ p_data p = d.
Proof.
  intros l c d p H. unfold announced in H. destruct d as [|x d]; [destruct H|].
  destruct (_ && _); [|destruct H]. destruct H as [<-|[]]. cbn [put_data p_code p_data]. rewrite got_code. auto.
Qed.

Lemma snap_put_same : forall l c d f p, (forall q, p_code q = c -> p_code (f q) = c) -> (forall q, p_data (f q) = d) ->
  In p (announced (got l c) d) -> snap (put l c f) p.
Proof.
  intros l c d f p Hc Hf H. apply announced_in in H. destruct H as [C E].
  exists (f (got l c)). rewrite C, put_find by assumption. rewrite Z.eqb_refl, Hf, E. auto.
Qed.

Lemma snap_put_other : forall l c f p, (forall q, p_code q = c -> p_code (f q) = c) -> p_code p <> c ->
  snap l p -> snap (put l c f) p.
Proof.
  intros l c f p Hc Hn (q & F & E). exists q. rewrite put_find by assumption.
  destruct (Z.eqb_spec (p_code p) c); [congruence|auto].
Qed.

Lemma map_store_keeps : forall n d c q, p_code q = c -> p_code (map_store n d q) = c.
Proof. intros. rewrite map_store_code. assumption. Qed.

Lemma update_snap : forall junk o o' ann, junk_ok junk -> plist_ok (o_props o) ->
  uecho_object_updatepropertymaps junk o = Ok (o', ann) -> Forall (snap (o_props o')) ann.
Proof.
  intros junk o o' ann Hj Hp H. destruct (update_spec _ _ _ _ Hj Hp H) as (gs & dg & ds & da & _ & Eo & Ea & _).
  cbv zeta in Eo, Ea. rewrite Eo, Ea, obj_props_with. apply Forall_forall. intros p Hin.
  set (l := o_props o) in *.
  apply in_app_or in Hin. destruct Hin as [Hin|Hin]; [|apply in_app_or in Hin; destruct Hin as [Hin|Hin]].
  - pose proof (announced_in _ _ _ _ Hin) as [C _].
    apply snap_put_other; [apply map_store_keeps|lia|]. apply snap_put_other; [apply map_store_keeps|lia|].
    eapply snap_put_same; [apply map_store_keeps|apply map_store_data|exact Hin].
  - pose proof (announced_in _ _ _ _ Hin) as [C _].
    apply snap_put_other; [apply map_store_keeps|lia|].
    eapply snap_put_same; [apply map_store_keeps|apply map_store_data|exact Hin].
  - eapply snap_put_same; [apply map_store_keeps|apply map_store_data|exact Hin].
Qed.

Lemma setdata_snap : forall o c d o' ann, uecho_object_setpropertydata o c d = (o', ann) ->
  Forall (snap (o_props o')) ann.
Proof.
  intros o c d o' ann H. unfold uecho_object_setpropertydata in H. rewrite pl_setdata_eq in H. injection H as <- <-.
  apply Forall_forall. intros p Hp. rewrite obj_props_with.
  eapply snap_put_same; [intros; assumption| |exact Hp]; reflexivity.
Qed.

Lemma got_some : forall l c q, find l c = Some q -> got l c = q.
Proof. intros l c q H. unfold got. rewrite H. reflexivity. Qed.

Lemma ostep_snap : forall junk o op o' ann, junk_ok junk -> inv o -> oop_ok op ->
  ostep junk o op = Ok (o', ann) -> Forall (snap (o_props o')) ann.
Proof.
  intros junk o op o' ann Hj Hi Hok H. destruct op; cbn [ostep] in H.
  - unfold uecho_object_setproperty in H. rewrite pl_set_eq in H. rewrite put_put in H by (intros; assumption).
    match type of H with context [uecho_object_updatepropertymaps junk ?x] => set (o1 := x) in * end.
    destruct (uecho_object_updatepropertymaps junk o1) as [[o2 a2]|] eqn:E; [|discriminate].
    cbn [bind] in H. injection H as <- <-.
    assert (I1 : inv o1).
    { apply put_inv; auto. - apply (proj1 Hok). - intros. constructor. }
    destruct I1 as [_ I1]. eapply update_snap; eauto.
  - injection H as <- <-. constructor.
  - apply (f_equal (fun x => match x with Ok y => y | _ => (o, []) end)) in H. eapply setdata_snap; exact H.
  - unfold uecho_object_setpropertybytedata, uecho_propertylist_setbytedata, uecho_property_setbytedata in H.
    rewrite getbycode_eq, setdata_eq in H. rewrite upd_put in H. injection H as <- <-.
    apply Forall_forall. intros p Hp. rewrite obj_props_with.
    apply (snap_put_same _ c [to_byte b]); [intros; assumption|reflexivity|exact Hp].
  - injection H as <- <-. constructor.
  - unfold object_property_setdata, uecho_object_getproperty in H.
    destruct (find (o_props o) c) as [q|] eqn:E; [|injection H as <- <-; constructor].
    rewrite setdata_eq in H. injection H as <- <-. rewrite obj_props_with.
    apply Forall_forall. intros p Hp.
    replace (update_first c (fun _ => put_data d q) (o_props o)) with (put (o_props o) c (put_data d)).
    + rewrite <- (got_some _ _ _ E) in Hp. eapply snap_put_same; [intros; assumption| |exact Hp]; reflexivity.
    + rewrite <- upd_put. unfold got. rewrite E. reflexivity.
  - unfold object_property_adddata, uecho_object_getproperty in H.
    destruct (find (o_props o) c) as [q|] eqn:E; [|injection H as <- <-; constructor].
    rewrite adddata_eq in H. injection H as <- <-. rewrite obj_props_with.
    apply Forall_forall. intros p Hp.
    match goal with |- snap (update_first c ?g _) p =>
      replace (update_first c g (o_props o)) with (put (o_props o) c (put_data (p_data q ++ d))) end.
    + assert (Hp' : In p (announced q (p_data q ++ d))).
      { destruct d as [|x d]; [destruct Hp|]. unfold announced. destruct (p_data q ++ x :: d) eqn:Ed; [|exact Hp].
        destruct (p_data q); discriminate. }
      rewrite <- (got_some _ _ _ E) in Hp' at 1. eapply snap_put_same; [intros; assumption| |exact Hp']; reflexivity.
    + rewrite <- upd_put. unfold got. rewrite E. reflexivity.
  - injection H as <- <-. constructor.
Qed.

(* ---- calls on one object of the node ---- *)

(* distinct codes and byte contents; nodes also hold properties with codes below 0x80 *)
Definition winv (o : obj) : Prop := inv o /\ True.

Lemma einv_winv : forall o, einv o -> winv o.
Proof. intros o [H _]. split; [exact H|exact I]. Qed.

Lemma step_winv : forall junk o op o' ann, junk_ok junk -> winv o -> oop_ok op ->
  (forall c, oop_code op = Some c -> epc_code c) -> ostep junk o op = Ok (o', ann) -> winv o'.
Proof.
  intros junk o op o' ann Hj [Hi _] Hok _ H. destruct (step_spec _ _ _ _ _ Hj Hi Hok H) as [Hi' _]. split; [exact Hi'|exact I].
Qed.

Lemma getbycode_winv : forall o c, winv o -> epc_code c ->
  winv (o_with_props (match find (o_props o) c with Some _ => o_props o | None => o_props o ++ [dflt c] end) o).
Proof.
  intros o c [[Hn Hp] _] Hc. destruct (find (o_props o) c) eqn:E; [split; [split; assumption|exact I]|].
  split; [split|exact I]; rewrite obj_props_with.
  - unfold codes. rewrite map_app. apply nodup_snoc; [assumption|]. apply find_none. assumption.
  - apply Forall_app. split; [exact Hp|]. constructor; [|constructor]. unfold epc_code in Hc.
    split; [unfold is_byte; cbn; lia|constructor].
Qed.

Lemma api_winv : forall db o, db_ok db -> api_obj db o -> winv o /\ codes_byte o.
Proof. intros db o Hdb Ho. destruct (api_einv _ _ Hdb Ho). split; [apply einv_winv|]; assumption. Qed.

Lemma addmissing_winv : forall src o,
  (forall p, In p src -> epc (p_code p) /\ bytes_ok (p_data p)) -> winv o -> winv (addmissing o src).
Proof.
  intros src o Hs [[Hn Hp] _]. destruct (addmissing_spec src o) as (F & N & J & _). split; [split|exact I].
  - apply N. assumption.
  - apply Forall_forall. intros p Ip. apply J in Ip. destruct Ip as [Ip|(q & Iq & ->)].
    + apply (plist_ok_in _ _ Hp Ip).
    + apply Hs in Iq. cbn. unfold is_byte. unfold epc in Iq. split; [lia|tauto].
Qed.

Definition oinv (o : obj) : Prop := winv o /\ codes_byte o /\ o_attached o = true.

Definition keeps (o o' : obj) : Prop :=
  o_grp o' = o_grp o /\ o_cls o' = o_cls o /\ o_ins o' = o_ins o /\ o_attached o' = o_attached o.

Lemma keeps_oinv : forall o o', oinv o -> winv o' -> keeps o o' -> oinv o'.
Proof.
  intros o o' (_ & (A & B & C) & At) E (K1 & K2 & K3 & K4). split; [assumption|].
  unfold codes_byte. rewrite K1, K2, K3, K4. split; [split; [exact A|split; [exact B|exact C]]|exact At].
Qed.

Lemma keeps_code : forall o o', keeps o o' -> uecho_object_getcode o' = uecho_object_getcode o.
Proof. intros o o' (K1 & K2 & K3 & _). unfold uecho_object_getcode. rewrite K1, K2, K3. reflexivity. Qed.

Lemma snap_ann_ok : forall o p, winv o -> omem o -> snap (o_props o) p -> ann_ok p.
Proof.
  intros o p [[_ Hp] _] Hm (q & F & E). apply find_code in F. destruct F as [C I].
  pose proof (plist_ok_in _ _ Hp I) as [Hc Hd]. unfold omem in Hm. rewrite Forall_forall in Hm. apply Hm in I.
  rewrite C in Hc. rewrite E in Hd, I. exact (conj Hc (conj Hd I)).
Qed.

Lemma odo_ok : forall k o o' ann, oinv o -> ocall_ok k -> odo k o = Ok (o', ann) ->
  oinv o' /\ keeps o o' /\ Forall (snap (o_props o')) ann.
Proof.
  intros k o o' ann (He & Hb & Ha) Hk H.
  assert (X : winv o' /\ keeps o o' /\ Forall (snap (o_props o')) ann).
  { destruct k; cbn [odo ocall_ok] in *.
    - destruct Hk as (K1 & K2 & K3). split; [eapply step_winv; eauto|]. split.
      + apply ostep_shape in H. destruct H as (l & m & ->). repeat split.
      + eapply ostep_snap; [exact K3|apply He|exact K1|exact H].
    - apply setint_eq in H. destruct H as (bs & E1 & E2 & E3).
      assert (S : ostep (fun _ => 0) o (OSetData c bs) = Ok (o', ann)) by (cbn [ostep]; rewrite <- E3; reflexivity).
      split; [|split].
      + apply (step_winv (fun _ => 0) o (OSetData c bs) o' ann); [intro; unfold is_byte; lia|assumption| | |exact S].
        * unfold epc_code in Hk. split; [cbn; lia|exact E2].
        * intros c0 E; injection E as <-; exact Hk.
      + apply ostep_shape in S. destruct S as (l & m & ->). repeat split.
      + eapply setdata_snap. symmetry. exact E3.
    - injection H as <- <-. rewrite get_shape. split; [apply getbycode_winv; assumption|]. split; [repeat split|constructor].
    - injection H as <- <-. split; [exact He|]. split; [repeat split|constructor].
    - injection H as <- <-. split; [exact He|]. split; [repeat split|constructor]. }
  destruct X as (X1 & X2 & X3). split; [|auto]. eapply keeps_oinv; [split; [exact He|split; assumption]|assumption|assumption].
Qed.
