(* Lemmas about property lists. *)
From Coq Require Import ZArith List Bool Lia ZifyBool ZifyNat.
From Verif Require Import CSem M_Const M_Misc M_Property M_PropertyList P_Base.
Import ListNotations.
Open Scope Z_scope.
Ltac Zify.zify_post_hook ::= Z.div_mod_to_equations.

Notation find := uecho_propertylist_findbycode.
Definition codes (l : list prop) : list Z := map p_code l.
Definition dflt (c : Z) : prop := mkProp c AttrReadWrite [] false.
(* the property getbycode returns *)
Definition got (l : list prop) (c : Z) : prop :=
  match find l c with Some p => p | None => dflt c end.

Lemma find_code : forall l c p, find l c = Some p -> p_code p = c /\ In p l.
Proof.
  induction l; cbn; intros; [discriminate|].
  destruct (p_code a =? c) eqn:E.
  - inversion H; subst. split; [lia|auto].
  - apply IHl in H. tauto.
Qed.

Lemma find_none : forall l c, find l c = None <-> ~ In c (codes l).
Proof.
  induction l; cbn; intros; [tauto|].
  destruct (p_code a =? c) eqn:E.
  - split; [discriminate|]. intros H. exfalso. apply H. left. lia.
  - rewrite IHl. split; intros H; [intros [?|?]; [lia|tauto]|tauto].
Qed.

Lemma find_app : forall a b c,
  find (a ++ b) c = match find a c with Some p => Some p | None => find b c end.
Proof. induction a; cbn; intros; auto. destruct (p_code a =? c); auto. Qed.

Lemma find_in_nodup : forall l p, NoDup (codes l) -> In p l -> find l (p_code p) = Some p.
Proof.
  induction l; cbn; intros p H I; [tauto|]. inversion H; subst.
  destruct I as [E|I].
  - subst a. rewrite Z.eqb_refl. reflexivity.
  - destruct (Z.eqb_spec (p_code a) (p_code p)) as [E|E].
    + exfalso. apply H2. rewrite E. apply in_map. assumption.
    + apply IHl; assumption.
Qed.

Lemma find_remove_first : forall l c c', NoDup (codes l) ->
  find (remove_first c l) c' = if c' =? c then None else find l c'.
Proof.
  induction l; cbn; intros c c' H; [destruct (c' =? c); reflexivity|].
  inversion H; subst.
  destruct (p_code a =? c) eqn:E.
  - destruct (c' =? c) eqn:E1.
    + apply find_none. replace c' with (p_code a) by lia. assumption.
    + destruct (p_code a =? c') eqn:E2; [lia|reflexivity].
  - cbn. destruct (p_code a =? c') eqn:E2.
    + destruct (c' =? c) eqn:E1; [lia|reflexivity].
    + apply IHl. assumption.
Qed.

Lemma find_remove_other : forall l c c', c' <> c -> find (remove_first c l) c' = find l c'.
Proof.
  induction l; cbn; intros c c' H; [reflexivity|].
  destruct (p_code a =? c) eqn:E.
  - destruct (p_code a =? c') eqn:E2; [lia|reflexivity].
  - cbn. destruct (p_code a =? c') eqn:E2; auto.
Qed.

Lemma in_codes_remove : forall l c c', In c' (codes (remove_first c l)) -> In c' (codes l).
Proof.
  induction l; cbn; intros; auto. destruct (p_code a =? c); cbn in *; [auto|].
  destruct H; auto. right. eapply IHl. eauto.
Qed.

Lemma nodup_remove_first : forall l c, NoDup (codes l) -> NoDup (codes (remove_first c l)).
Proof.
  induction l; cbn; intros; auto. inversion H; subst. destruct (p_code a =? c); auto.
  cbn. constructor; auto. intros I. apply H2. eapply in_codes_remove. exact I.
Qed.

Lemma find_update_first : forall l c f c', (forall p, p_code p = c -> p_code (f p) = c) ->
  find (update_first c f l) c' = if c' =? c then option_map f (find l c) else find l c'.
Proof.
  induction l; cbn; intros c f c' Hf; [destruct (c' =? c); reflexivity|].
  destruct (p_code a =? c) eqn:E.
  - cbn. rewrite Hf by lia. rewrite (Z.eqb_sym c c'). destruct (c' =? c) eqn:E1; [reflexivity|].
    destruct (p_code a =? c') eqn:E2; [lia|reflexivity].
  - cbn. destruct (p_code a =? c') eqn:E2.
    + destruct (c' =? c) eqn:E1; [lia|reflexivity].
    + rewrite IHl by assumption. destruct (c' =? c); reflexivity.
Qed.

Lemma codes_update_first : forall l c f, (forall p, p_code p = c -> p_code (f p) = c) ->
  codes (update_first c f l) = codes l.
Proof.
  induction l; cbn; intros; auto. destruct (p_code a =? c) eqn:E; cbn.
  - rewrite H by lia. f_equal. lia.
  - f_equal. apply IHl. assumption.
Qed.

Lemma nodup_snoc : forall A (l : list A) x, NoDup l -> ~ In x l -> NoDup (l ++ [x]).
Proof.
  induction l; cbn; intros; [constructor; auto|]. inversion H; subst. constructor.
  - rewrite in_app_iff. cbn. intros [?|[?|?]]; subst; tauto.
  - apply IHl; tauto.
Qed.

Lemma add_spec : forall l p, NoDup (codes l) ->
  (forall c, find (uecho_propertylist_add l p) c = if c =? p_code p then Some p else find l c)
  /\ NoDup (codes (uecho_propertylist_add l p)).
Proof.
  intros l p H. unfold uecho_propertylist_add. destruct (find l (p_code p)) eqn:E.
  - split.
    + intros c. rewrite find_app, find_remove_first by assumption. cbn.
      rewrite (Z.eqb_sym (p_code p) c). destruct (c =? p_code p); [reflexivity|].
      destruct (find l c); reflexivity.
    + unfold codes. rewrite map_app. apply nodup_snoc; [apply nodup_remove_first; assumption|].
      apply find_none. rewrite find_remove_first by assumption. rewrite Z.eqb_refl. reflexivity.
  - split.
    + intros c. rewrite find_app. cbn. rewrite (Z.eqb_sym (p_code p) c).
      destruct (c =? p_code p) eqn:E1; [replace c with (p_code p) by lia; rewrite E; reflexivity|].
      destruct (find l c); reflexivity.
    + unfold codes. rewrite map_app. apply nodup_snoc; [assumption|]. apply find_none. assumption.
Qed.

Lemma getbycode_eq : forall l c,
  uecho_propertylist_getbycode l c
  = (match find l c with Some _ => l | None => l ++ [dflt c] end, got l c).
Proof.
  intros. unfold uecho_propertylist_getbycode, got. destruct (find l c) eqn:E; [reflexivity|].
  unfold uecho_propertylist_add. cbn. rewrite E. reflexivity.
Qed.

(* the list after getbycode, then a store through the pointer *)
Definition put (l : list prop) (c : Z) (f : prop -> prop) : list prop :=
  update_first c f (match find l c with Some _ => l | None => l ++ [dflt c] end).

Definition add_end (c : Z) (cs : list Z) : list Z :=
  if existsb (Z.eqb c) cs then cs else cs ++ [c].

Lemma existsb_in : forall c l, existsb (Z.eqb c) l = true <-> In c l.
Proof.
  intros. rewrite existsb_exists. split.
  - intros (x & I & E). apply Z.eqb_eq in E. subst. assumption.
  - intros. exists c. split; [assumption|apply Z.eqb_refl].
Qed.

Lemma put_find : forall l c f c', (forall p, p_code p = c -> p_code (f p) = c) ->
  find (put l c f) c' = if c' =? c then Some (f (got l c)) else find l c'.
Proof.
  intros. unfold put, got. rewrite find_update_first by assumption.
  destruct (find l c) eqn:E; cbn; [rewrite E; reflexivity|].
  rewrite find_app, E. cbn. rewrite Z.eqb_refl. cbn.
  rewrite find_app. cbn. rewrite (Z.eqb_sym c c'). destruct (c' =? c); [reflexivity|].
  destruct (find l c'); reflexivity.
Qed.

Lemma put_codes : forall l c f, (forall p, p_code p = c -> p_code (f p) = c) ->
  codes (put l c f) = add_end c (codes l).
Proof.
  intros. unfold put, add_end. rewrite codes_update_first by assumption.
  destruct (find l c) eqn:E.
  - destruct (existsb (Z.eqb c) (codes l)) eqn:E1; [reflexivity|].
    exfalso. apply find_code in E. destruct E as [E I].
    assert (In c (codes l)) by (subst c; apply in_map; assumption).
    apply existsb_in in H0. congruence.
  - destruct (existsb (Z.eqb c) (codes l)) eqn:E1.
    + apply existsb_in in E1. apply find_none in E. tauto.
    + unfold codes. rewrite map_app. reflexivity.
Qed.

Lemma add_end_nodup : forall c l, NoDup l -> NoDup (add_end c l).
Proof.
  intros. unfold add_end. destruct (existsb (Z.eqb c) l) eqn:E; [assumption|].
  apply nodup_snoc; [assumption|]. intros I. apply existsb_in in I. congruence.
Qed.

Lemma in_add_end : forall c l x, In x (add_end c l) <-> x = c \/ In x l.
Proof.
  intros. unfold add_end. destruct (existsb (Z.eqb c) l) eqn:E.
  - apply existsb_in in E. split; [tauto|]. intros [?|?]; subst; auto.
  - rewrite in_app_iff. cbn. split; [intros [?|[?|[]]]; auto|intros [?|?]; auto].
Qed.

Lemma put_nodup : forall l c f, (forall p, p_code p = c -> p_code (f p) = c) ->
  NoDup (codes l) -> NoDup (codes (put l c f)).
Proof. intros. rewrite put_codes by assumption. apply add_end_nodup. assumption. Qed.

(* announcements made by storing [d] into [p] *)
Definition announced (p : prop) (d : list Z) : list prop :=
  match d with
  | [] => []
  | _ => if uecho_property_isannounceable p && p_parent p then [put_data d p] else []
  end.

Lemma setdata_eq : forall p d, uecho_property_setdata d p = (put_data d p, announced p d).
Proof.
  intros. unfold uecho_property_setdata, announced. destruct d as [|x d].
  - reflexivity.
  - cbv zeta. replace (len (x :: d) =? 0) with false by (rewrite len_cons; pose proof (len_nonneg _ d); lia).
    unfold uecho_property_announce, uecho_property_setcount, uecho_property_cleardata.
    cbn. unfold uecho_property_isannounceable. cbn.
    destruct (has_bits (p_attr p) 68); destruct (p_parent p); reflexivity.
Qed.

Lemma update_first_ext : forall l c f g, (forall p, In p l -> p_code p = c -> f p = g p) ->
  (* only the first match is touched *)
  update_first c f l = update_first c g l.
Proof.
  induction l; cbn; intros; auto. destruct (p_code a =? c) eqn:E.
  - f_equal. apply H; [auto|lia].
  - f_equal. apply IHl. auto.
Qed.

Lemma update_first_found : forall l c q f, find l c = Some q ->
  update_first c (fun _ => f q) l = update_first c f l.
Proof.
  induction l; cbn; intros; [discriminate|]. destruct (p_code a =? c) eqn:E.
  - inversion H; subst. reflexivity.
  - f_equal. apply IHl. assumption.
Qed.

Lemma upd_put : forall l c f,
  update_first c (fun _ => f (got l c)) (match find l c with Some _ => l | None => l ++ [dflt c] end)
  = put l c f.
Proof.
  intros. unfold put, got. destruct (find l c) eqn:E.
  - apply update_first_found. assumption.
  - apply update_first_found. rewrite find_app, E. cbn. rewrite Z.eqb_refl. reflexivity.
Qed.

Lemma pl_set_eq : forall l c a d,
  uecho_propertylist_set l c a d
  = (put l c (fun p => uecho_property_setattribute a (put_data d p)), announced (got l c) d).
Proof.
  intros. unfold uecho_propertylist_set. rewrite getbycode_eq, setdata_eq. cbv zeta.
  rewrite <- upd_put. reflexivity.
Qed.

Lemma pl_setdata_eq : forall l c d,
  uecho_propertylist_setdata l c d = (put l c (put_data d), announced (got l c) d).
Proof.
  intros. unfold uecho_propertylist_setdata. rewrite getbycode_eq, setdata_eq.
  rewrite <- upd_put. reflexivity.
Qed.

Lemma pl_setattr_eq : forall l c a,
  uecho_propertylist_setattribute l c a = put l c (uecho_property_setattribute a).
Proof.
  intros. unfold uecho_propertylist_setattribute. rewrite getbycode_eq.
  rewrite <- upd_put. reflexivity.
Qed.

Lemma got_code : forall l c, p_code (got l c) = c.
Proof.
  intros. unfold got. destruct (find l c) eqn:E; [|reflexivity]. apply find_code in E. tauto.
Qed.

Fixpoint nodupb (l : list Z) : bool :=
  match l with [] => true | x :: r => negb (existsb (Z.eqb x) r) && nodupb r end.

Lemma nodupb_ok : forall l, nodupb l = true -> NoDup l.
Proof.
  induction l; cbn; intros; constructor; apply andb_true_iff in H; destruct H; auto.
  intros I. apply existsb_in in I. rewrite I in H. discriminate.
Qed.
