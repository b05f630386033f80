(* Lemmas about M_PropThreads.v. *)
From Coq Require Import ZArith List Bool Lia PeanoNat.
From Verif Require Import CSem M_PropThreads Spec_PropThreads.
Import ListNotations.
Open Scope nat_scope.

Lemma set_fun_same : forall {A} (f : nat -> A) i x, set_fun f i x i = x.
Proof. intros. unfold set_fun. rewrite Nat.eqb_refl. reflexivity. Qed.
Lemma set_fun_other : forall {A} (f : nat -> A) i x j, j <> i -> set_fun f i x j = f j.
Proof. intros. unfold set_fun. destruct (j =? i) eqn:E; [apply Nat.eqb_eq in E; congruence|reflexivity]. Qed.

Lemma nth_put : forall {A} (l : list A) i x y j, nth_error l i = Some x ->
  nth_error (firstn i l ++ y :: skipn (S i) l) j = if j =? i then Some y else nth_error l j.
Proof.
  intros A l. induction l as [|a l IH]; intros i x y j H.
  - destruct i; discriminate.
  - destruct i as [|i].
    + destruct j; reflexivity.
    + destruct j as [|j]; [reflexivity|]. cbn [firstn skipn app nth_error Nat.eqb]. apply IH with (1 := H).
Qed.
Lemma put_len : forall {A} (l : list A) i x y, nth_error l i = Some x ->
  length (firstn i l ++ y :: skipn (S i) l) = length l.
Proof.
  intros A l. induction l as [|a l IH]; intros i x y H; [destruct i; discriminate|].
  destruct i; [reflexivity|]. cbn. f_equal. eapply IH. exact H.
Qed.

(* ---- the map ---- *)
Lemma acts_app : forall l1 l2 v,
  acts v (l1 ++ l2) = (fst (acts (fst (acts v l1)) l2), snd (acts v l1) ++ snd (acts (fst (acts v l1)) l2)).
Proof.
  induction l1 as [|a l1 IH]; intros l2 v.
  - cbn. destruct (acts v l2); reflexivity.
  - cbn [acts app]. destruct (act v a) as [v1 x]. rewrite IH.
    destruct (acts v1 l1) as [v2 y]. reflexivity.
Qed.
Lemma acts_len : forall l v, length (snd (acts v l)) = length l.
Proof.
  induction l as [|a l IH]; intros v; [reflexivity|]. cbn [acts]. destruct (act v a) as [v1 x].
  specialize (IH v1). destruct (acts v1 l); cbn in *. lia.
Qed.

(* ---- what the memory holds while a property is being set ---- *)
Inductive pstate : Type := St (v : list Z) | Ph (s : sphase) (v v' : list Z).

Definition filled (c : pcell) (m : pmem) (b : option nat) (n : nat) (v : list Z) : Prop :=
  exists d, c = mkPcell (Some d) n /\ b = Some d /\ m_blks m d = Some v.
Definition old_value (c : pcell) (m : pmem) (b : option nat) (n : nat) (v : list Z) : Prop :=
  match v with [] => c = mkPcell None 0 /\ b = None | _ => filled c m b n v end.
Definition zeros (n : nat) : list Z := repeat 0%Z n.

Definition rep (m : pmem) (p : nat) (b : option nat) (ps : pstate) : Prop :=
  let c := m_props m p in
  match ps with
  | St v => old_value c m b (length v) v
  | Ph SSize0 v v' => old_value c m b (length v) v
  | Ph STest v v' => old_value c m b 0 v
  | Ph SLoadFree v v' => filled c m b 0 v
  | Ph (SFree o) v v' => filled c m b 0 v /\ o = b
  | Ph SNull v v' => c_size c = 0 /\ b = None
  | Ph SAlloc v v' => c = mkPcell None 0 /\ b = None
  | Ph SCheck v v' => v' <> [] /\ filled c m b 0 (zeros (length v'))
  | Ph SSize v v' => v' <> [] /\ filled c m b 0 (zeros (length v'))
  | Ph SLoadCopy v v' => v' <> [] /\ filled c m b (length v') (zeros (length v'))
  | Ph (SCopy d k) v v' =>
      v' <> [] /\ b = Some d /\ k <= length v' /\ filled c m b (length v') (firstn k v' ++ zeros (length v' - k))
  end.

Record Inv (m : pmem) (ph : nat -> pstate) (bo : nat -> option nat) : Prop := {
  i_rep : forall p, rep m p (bo p) (ph p);
  i_inj : forall p q b, bo p = Some b -> bo q = Some b -> p = q;
  i_lt : forall p b, bo p = Some b -> b < m_next m;
  i_all : forall d, m_blks m d <> None -> exists p, bo p = Some d }.

(* rep looks only at the property and its block *)
Lemma rep_frame : forall m m' p b ps,
  m_props m' p = m_props m p -> (forall d, b = Some d -> m_blks m' d = m_blks m d) -> rep m p b ps -> rep m' p b ps.
Proof.
  intros m m' p b ps Hp Hb H.
  assert (F : forall n v, filled (m_props m p) m b n v -> filled (m_props m' p) m' b n v).
  { intros n v (d & A & B & C). exists d. rewrite Hp, (Hb d B). auto. }
  assert (O : forall n v, old_value (m_props m p) m b n v -> old_value (m_props m' p) m' b n v).
  { intros n v. unfold old_value. destruct v; [rewrite Hp; auto|apply F]. }
  unfold rep in *. rewrite Hp in *. destruct ps as [v|s v v']; [apply O, H|].
  destruct s; try (apply O, H); try (apply F, H); try exact H; try (destruct H; split; auto; fail).
  destruct H as (A & B & C & D). auto.
Qed.

Definition same_but (p : nat) (m m' : pmem) : Prop := forall q, q <> p -> m_props m' q = m_props m q.

(* a step on one property, without a new block *)
Lemma inv_step : forall m m' ph bo p b' ps',
  Inv m ph bo ->
  same_but p m m' -> m_next m' = m_next m ->
  (forall d, bo p <> Some d -> m_blks m' d = m_blks m d) ->
  (b' = bo p \/ (b' = None /\ forall d, bo p = Some d -> m_blks m' d = None)) ->
  rep m' p b' ps' ->
  Inv m' (set_fun ph p ps') (set_fun bo p b').
Proof.
  intros m m' ph bo p b' ps' [R I L A] Hsame Hn Hb Hb' Hr.
  assert (BO : forall q b, set_fun bo p b' q = Some b -> bo q = Some b).
  { intros q b E. destruct (Nat.eq_dec q p) as [->|Hq].
    - rewrite set_fun_same in E. destruct Hb' as [->|[-> _]]; congruence.
    - rewrite set_fun_other in E by exact Hq. exact E. }
  constructor.
  - intros q. destruct (Nat.eq_dec q p) as [->|Hq]; [rewrite !set_fun_same; exact Hr|].
    rewrite !set_fun_other by exact Hq. eapply rep_frame; [apply Hsame, Hq| |apply R].
    intros d E. apply Hb. intros F. apply Hq. exact (I q p d E F).
  - intros q1 q2 b E1 E2. eapply I; apply BO; eassumption.
  - intros q b E. rewrite Hn. eapply L. apply BO. exact E.
  - intros d Hd. destruct (Nat.eq_dec 0 0) as [_|C]; [|congruence].
    assert (Hcase : bo p = Some d \/ bo p <> Some d) by (destruct (bo p) as [x|]; [destruct (Nat.eq_dec x d); [left; congruence|right; congruence]|right; congruence]).
    destruct Hcase as [E|E].
    + exists p. rewrite set_fun_same. destruct Hb' as [->|[-> N]]; [exact E|]. exfalso. apply Hd. apply N. exact E.
    + rewrite (Hb d E) in Hd. destruct (A d Hd) as [q Hq]. exists q.
      rewrite set_fun_other; [exact Hq|]. intros ->. congruence.
Qed.

(* a step that allocates *)
Lemma inv_alloc : forall m m' ph bo p ps' l,
  Inv m ph bo -> bo p = None ->
  same_but p m m' -> m_next m' = S (m_next m) ->
  (forall d, m_blks m' d = if d =? m_next m then Some l else m_blks m d) ->
  rep m' p (Some (m_next m)) ps' ->
  Inv m' (set_fun ph p ps') (set_fun bo p (Some (m_next m))).
Proof.
  intros m m' ph bo p ps' l [R I L A] H0 Hsame Hn Hb Hr.
  constructor.
  - intros q. destruct (Nat.eq_dec q p) as [->|Hq]; [rewrite !set_fun_same; exact Hr|].
    rewrite !set_fun_other by exact Hq. eapply rep_frame; [apply Hsame, Hq| |apply R].
    intros d E. rewrite Hb. specialize (L q d E). destruct (d =? m_next m) eqn:F; [apply Nat.eqb_eq in F; lia|reflexivity].
  - intros q1 q2 b E1 E2.
    destruct (Nat.eq_dec q1 p) as [->|H1], (Nat.eq_dec q2 p) as [->|H2]; auto.
    + rewrite set_fun_same in E1. rewrite set_fun_other in E2 by exact H2. specialize (L _ _ E2). injection E1 as <-. lia.
    + rewrite set_fun_same in E2. rewrite set_fun_other in E1 by exact H1. specialize (L _ _ E1). injection E2 as <-. lia.
    + rewrite set_fun_other in E1 by exact H1. rewrite set_fun_other in E2 by exact H2. eapply I; eassumption.
  - intros q b E. rewrite Hn. destruct (Nat.eq_dec q p) as [->|Hq].
    + rewrite set_fun_same in E. injection E as <-. lia.
    + rewrite set_fun_other in E by exact Hq. specialize (L _ _ E). lia.
  - intros d Hd. rewrite Hb in Hd. destruct (d =? m_next m) eqn:F.
    + apply Nat.eqb_eq in F. exists p. rewrite set_fun_same. congruence.
    + destruct (A d Hd) as [q Hq]. exists q. rewrite set_fun_other; [exact Hq|]. intros ->. congruence.
Qed.

Lemma same_with_size : forall p n m, same_but p m (with_size p n m).
Proof. intros p n m q Hq. cbn. apply set_fun_other, Hq. Qed.
Lemma same_with_data : forall p n m, same_but p m (with_data p n m).
Proof. intros p n m q Hq. cbn. apply set_fun_other, Hq. Qed.
Lemma same_refl : forall p m, same_but p m m.
Proof. intros p m q Hq. reflexivity. Qed.
Lemma same_with_blk : forall p d b m, same_but p m (with_blk d b m).
Proof. intros p d b m q Hq. reflexivity. Qed.

Definition next_state (x : sphase + bool) (v v' : list Z) : pstate :=
  match x with inl s => Ph s v v' | inr _ => St v' end.

Lemma copy_byte : forall k (v : list Z) c, nth_error v k = Some c ->
  let l := firstn k v ++ zeros (length v - k) in
  k < length l /\ firstn k l ++ c :: skipn (S k) l = firstn (S k) v ++ zeros (length v - S k).
Proof.
  induction k as [|k IH]; intros v c E; (destruct v as [|a v]; [discriminate|]); cbn zeta.
  - cbn in E. injection E as ->. cbn [firstn app length zeros]. unfold zeros. cbn [Nat.sub repeat length]. rewrite Nat.sub_0_r.
    split; [lia|]. reflexivity.
  - destruct (IH v c E) as [A B]. cbn zeta in A, B. cbn [firstn app length Nat.sub]. split; [lia|].
    cbn [firstn skipn app] in *. f_equal. exact B.
Qed.

Ltac istep m HI same := apply inv_step with (m := m); [exact HI|apply same|reflexivity|intros; reflexivity|left; reflexivity|].

Lemma set_step_ok : forall m ph bo p v v' s, Inv m ph bo -> ph p = Ph s v v' ->
  exists m' x b', set_step m p v' s = Ok (m', x) /\ (forall ok, x = inr ok -> ok = true) /\
    Inv m' (set_fun ph p (next_state x v v')) (set_fun bo p b').
Proof.
  intros m ph bo p v v' s HI E. pose proof (i_rep _ _ _ HI p) as R. rewrite E in R.
  destruct s as [ | | |o| | | | | |d k]; cbn [rep] in R; cbn [set_step].
  - (* SSize0 *)
    exists (with_size p 0 m), (inl STest), (bo p). split; [reflexivity|]. split; [discriminate|].
    istep m HI same_with_size.
    cbn [rep next_state]. cbn [m_props with_size]. rewrite set_fun_same.
    destruct v as [|a v].
    + destruct R as [R1 R2]. split; [rewrite R1; reflexivity|exact R2].
    + destruct R as (d & R1 & R2 & R3). exists d. rewrite R1. repeat split; [exact R2|exact R3].
  - (* STest *)
    destruct v as [|a v].
    + destruct R as [R1 R2]. rewrite R1. cbn [c_data].
      exists m, (inl SAlloc), (bo p). split; [reflexivity|]. split; [discriminate|].
      istep m HI same_refl. cbn. auto.
    + pose proof R as R0. destruct R as (d & R1 & R2 & R3). rewrite R1. cbn [c_data].
      exists m, (inl SLoadFree), (bo p). split; [reflexivity|]. split; [discriminate|].
      istep m HI same_refl. exact R0.
  - (* SLoadFree *)
    pose proof R as R0. destruct R as (d & R1 & R2 & R3). rewrite R1. cbn [c_data].
    exists m, (inl (SFree (Some d))), (bo p). split; [reflexivity|]. split; [discriminate|].
    istep m HI same_refl. cbn [rep next_state]. split; [exact R0|congruence].
  - (* SFree *)
    destruct R as [(d & R1 & R2 & R3) ->]. rewrite R2, R3.
    exists (with_blk d None m), (inl SNull), None. split; [reflexivity|]. split; [discriminate|].
    apply inv_step with (m := m); [exact HI|apply same_with_blk|reflexivity| | |].
    + intros d' Hd'. cbn. apply set_fun_other. congruence.
    + right. split; [reflexivity|]. intros d' Hd'. cbn. rewrite R2 in Hd'. injection Hd' as <-. apply set_fun_same.
    + cbn [rep next_state m_props with_blk]. rewrite R1. auto.
  - (* SNull *)
    destruct R as [R1 R2].
    exists (with_data p None m), (inl SAlloc), (bo p). split; [reflexivity|]. split; [discriminate|].
    istep m HI same_with_data.
    cbn [rep next_state m_props with_data]. rewrite set_fun_same, R1. auto.
  - (* SAlloc *)
    destruct R as [R1 R2]. destruct v' as [|a v'].
    + cbn [length]. exists m, (inr true), (bo p). split; [reflexivity|]. split; [congruence|].
      istep m HI same_refl. cbn. auto.
    + set (n := length (a :: v')). cbn [length].
      eexists (mkPmem _ _ _), (inl SCheck), (Some (m_next m)). split; [reflexivity|]. split; [discriminate|].
      eapply inv_alloc with (m := m) (l := zeros n); [exact HI|exact R2| |reflexivity| |].
      * intros q Hq. cbn. apply set_fun_other, Hq.
      * intros d. cbn. reflexivity.
      * cbn [rep next_state m_props with_data with_blk m_blks]. rewrite set_fun_same. split; [congruence|].
        exists (m_next m). rewrite R1. cbn [c_size]. repeat split. apply set_fun_same.
  - (* SCheck *)
    destruct R as [R0 R]. pose proof R as R'. destruct R as (d & R1 & R2 & R3). rewrite R1. cbn [c_data].
    exists m, (inl SSize), (bo p). split; [reflexivity|]. split; [discriminate|].
    istep m HI same_refl. cbn [rep next_state]. auto.
  - (* SSize *)
    destruct R as [R0 (d & R1 & R2 & R3)].
    exists (with_size p (length v') m), (inl SLoadCopy), (bo p). split; [reflexivity|]. split; [discriminate|].
    istep m HI same_with_size.
    cbn [rep next_state m_props with_size]. rewrite set_fun_same. split; [exact R0|]. exists d. rewrite R1. auto.
  - (* SLoadCopy *)
    destruct R as [R0 R]. pose proof R as R'. destruct R as (d & R1 & R2 & R3). rewrite R1. cbn [c_data].
    exists m, (inl (SCopy d 0)), (bo p). split; [reflexivity|]. split; [discriminate|].
    istep m HI same_refl. cbn [rep next_state firstn app].
    rewrite Nat.sub_0_r. repeat split; auto; lia.
  - (* SCopy *)
    destruct R as (R0 & Rb & Rk & (d' & R1 & R2 & R3)).
    assert (d' = d) by congruence. subst d'.
    destruct (nth_error v' k) as [c|] eqn:Ek.
    + rewrite R3. destruct (copy_byte k v' c Ek) as [A B]. cbn zeta in A, B.
      pose proof A as A'. apply Nat.ltb_lt in A. rewrite A, B.
      eexists (with_blk d _ m), (inl (SCopy d (S k))), (bo p). split; [reflexivity|]. split; [discriminate|].
      apply inv_step with (m := m); [exact HI|apply same_with_blk|reflexivity| |left; reflexivity|].
      * intros e He. cbn. apply set_fun_other. congruence.
      * cbn [rep next_state m_props with_blk]. split; [exact R0|]. split; [exact Rb|].
        assert (k < length v') by (apply nth_error_Some; congruence). split; [lia|].
        exists d. repeat split; auto. cbn [m_blks with_blk]. apply set_fun_same.
    + apply nth_error_None in Ek. assert (k = length v') by lia. subst k.
      exists m, (inr true), (bo p). split; [reflexivity|]. split; [congruence|].
      istep m HI same_refl. cbn [rep next_state].
      rewrite firstn_all, Nat.sub_diag in R3. unfold zeros in R3. cbn [repeat] in R3. rewrite app_nil_r in R3.
      unfold old_value. destruct v'; [congruence|]. exists d. auto.
Qed.

Definition gok (b : option nat) (v : list Z) (g : gphase) : Prop :=
  match g with
  | GFirst => True
  | GSize d => d = b
  | GData n => n = length v
  | GCopy d n acc => d = b /\ n = length v /\ acc = firstn (length acc) v
  end.

Lemma get_step_ok : forall sf m ph bo p v g, Inv m ph bo -> ph p = St v -> gok (bo p) v g ->
  exists x, get_step sf m p g = Ok x /\ match x with inl g' => gok (bo p) v g' | inr l => l = v end.
Proof.
  intros sf m ph bo p v g HI E G. pose proof (i_rep _ _ _ HI p) as R. rewrite E in R. cbn [rep] in R.
  assert (D : c_data (m_props m p) = bo p).
  { destruct v; [destruct R as [-> ->]; reflexivity|destruct R as (d & -> & -> & _); reflexivity]. }
  assert (Z0 : c_size (m_props m p) = length v).
  { destruct v; [destruct R as [-> _]; reflexivity|destruct R as (d & -> & _ & _); reflexivity]. }
  destruct g as [|d|n|d n acc]; cbn [get_step gok] in *.
  - eexists. split; [reflexivity|]. destruct sf; cbn; assumption.
  - subst d. eexists. split; [reflexivity|]. cbn. auto.
  - subst n. eexists. split; [reflexivity|]. cbn. auto.
  - destruct G as (-> & -> & G). destruct (length v <=? length acc) eqn:El.
    + apply Nat.leb_le in El. eexists. split; [reflexivity|]. cbn. rewrite G. apply firstn_all2. exact El.
    + apply Nat.leb_gt in El. destruct v as [|a v]; [cbn in El; lia|].
      destruct R as (d & R1 & R2 & R3). rewrite R2, R3.
      destruct (nth_error (a :: v) (length acc)) as [c|] eqn:Ec; [|apply nth_error_None in Ec; lia].
      eexists. split; [reflexivity|]. cbn [gok]. repeat split.
      rewrite app_length. cbn [length]. rewrite Nat.add_1_r.
      destruct (nth_error_split _ _ Ec) as (l1 & l2 & S1 & S2). rewrite S1 in G |- *.
      rewrite G at 1. rewrite <- S2. rewrite !firstn_app, Nat.sub_diag, firstn_O, app_nil_r.
      rewrite firstn_all. replace (S (length l1) - length l1) with 1 by lia.
      rewrite firstn_all2 by lia. reflexivity.
Qed.

(* ---- all threads ---- *)
Definition vals (v0 : values) (tr : list (nat * pact)) : values := fst (acts v0 (map snd tr)).

Lemma of_thread_app : forall {A} i (a b : list (nat * A)), of_thread i (a ++ b) = of_thread i a ++ of_thread i b.
Proof. intros. unfold of_thread. rewrite filter_app, map_app. reflexivity. Qed.
Lemma combine_app : forall {A B} (a1 a2 : list A) (b1 b2 : list B), length a1 = length b1 ->
  combine (a1 ++ a2) (b1 ++ b2) = combine a1 b1 ++ combine a2 b2.
Proof.
  induction a1 as [|x a1 IH]; intros a2 b1 b2 H; destruct b1; try discriminate; [reflexivity|].
  cbn. f_equal. apply IH. cbn in H. lia.
Qed.
Lemma results_snoc : forall v0 tr i a,
  results v0 (tr ++ [(i, a)]) = results v0 tr ++ [(i, snd (act (vals v0 tr) a))].
Proof.
  intros. unfold results, vals. rewrite !map_app, acts_app. cbn [map snd fst acts].
  destruct (act (fst (acts v0 (map snd tr))) a) as [v1 x] eqn:E. cbn [fst snd].
  rewrite combine_app; [reflexivity|]. rewrite map_length, acts_len, map_length. reflexivity.
Qed.
Lemma vals_snoc : forall v0 tr i a, vals v0 (tr ++ [(i, a)]) = fst (act (vals v0 tr) a).
Proof.
  intros. unfold vals. rewrite map_app, acts_app. cbn [map snd fst acts].
  destruct (act (fst (acts v0 (map snd tr))) a) as [v1 x] eqn:E. reflexivity.
Qed.
Lemma of_thread_one : forall {A} i j (a : A), of_thread i [(j, a)] = if j =? i then [a] else [].
Proof. intros. unfold of_thread. cbn. destruct (j =? i); reflexivity. Qed.

Record GInv (v0 : values) (m : pmem) (ts : list pthr) (tr : list (nat * pact)) (ph : nat -> pstate) (bo : nat -> option nat) : Prop := {
  g_inv : Inv m ph bo;
  g_set : forall i t p v' s, nth_error ts i = Some t -> t_pc t = PInSet p v' s -> ph p = Ph s (vals v0 tr p) v';
  g_not : forall p, (forall i t v' s, nth_error ts i = Some t -> t_pc t <> PInSet p v' s) -> ph p = St (vals v0 tr p);
  g_get : forall i t p g, nth_error ts i = Some t -> t_pc t = PInGet p g -> gok (bo p) (vals v0 tr p) g }.

Lemma put_cases : forall (ts : list pthr) i t t' j u,
  nth_error ts i = Some t -> nth_error (firstn i ts ++ t' :: skipn (S i) ts) j = Some u ->
  (j = i /\ u = t') \/ (j <> i /\ nth_error ts j = Some u).
Proof.
  intros ts i t t' j u H E. rewrite (nth_put ts i t t' j H) in E. destruct (j =? i) eqn:F.
  - apply Nat.eqb_eq in F. left. split; [exact F|congruence].
  - apply Nat.eqb_neq in F. right. auto.
Qed.
Lemma put_self : forall (ts : list pthr) i t t', nth_error ts i = Some t ->
  nth_error (firstn i ts ++ t' :: skipn (S i) ts) i = Some t'.
Proof. intros ts i t t' H. rewrite (nth_put ts i t t' i H), Nat.eqb_refl. reflexivity. Qed.
Lemma put_other : forall (ts : list pthr) i t t' j u, nth_error ts i = Some t -> j <> i -> nth_error ts j = Some u ->
  nth_error (firstn i ts ++ t' :: skipn (S i) ts) j = Some u.
Proof.
  intros ts i t t' j u H N E. rewrite (nth_put ts i t t' j H). apply Nat.eqb_neq in N. rewrite N. exact E.
Qed.

Lemma step_ok : forall sf v0 progs m ts tr ph bo i t,
  GInv v0 m ts tr ph bo -> explained v0 progs ts tr -> no_conflict ts -> nth_error ts i = Some t ->
  exists m' t', pstep sf m t = Ok (m', t') /\
    (no_conflict (firstn i ts ++ t' :: skipn (S i) ts) ->
     exists tr' ph' bo', GInv v0 m' (firstn i ts ++ t' :: skipn (S i) ts) tr' ph' bo' /\
                         explained v0 progs (firstn i ts ++ t' :: skipn (S i) ts) tr').
Proof.
  intros sf v0 progs m ts tr ph bo i t G (Hlen & Htr & Hex) NC Hi.
  destruct G as [GI GS GN GG].
  destruct (Hex i t Hi) as [Hprog Hlog].
  assert (Hil : i < length progs) by (apply nth_error_Some; congruence).
  destruct t as [pc todo log]. cbn [t_pc t_todo t_log] in *. unfold pstep. cbn [t_pc t_todo t_log].
  destruct pc as [|p v' s|p g].
  - (* idle *)
    unfold at_work in Hprog. cbn [t_pc app] in Hprog.
    destruct todo as [|a todo].
    + eexists _, _. split; [reflexivity|]. intros _. exists tr, ph, bo.
      assert (Hsame : firstn i ts ++ mkPthr PIdle [] log :: skipn (S i) ts = ts).
      { clear -Hi. revert i Hi. induction ts as [|x ts IH]; intros i Hi; [destruct i; discriminate|].
        destruct i; cbn in *; [congruence|]. f_equal. apply IH, Hi. }
      rewrite Hsame. split; [constructor; assumption|]. split; [exact Hlen|]. split; [exact Htr|exact Hex].
    + destruct a as [p x|p].
      * eexists _, _. split; [reflexivity|]. intros NC'.
        assert (Hfree : forall j u w s, nth_error ts j = Some u -> t_pc u <> PInSet p w s).
        { intros j u w s Hj Hpc. destruct (Nat.eq_dec j i) as [->|Hji]; [rewrite Hi in Hj; injection Hj as <-; discriminate|].
          refine (NC' j i u _ p w (PSet p x) Hji _ (put_self ts i _ _ Hi) _ _ eq_refl).
          - exact (put_other ts i _ _ j u Hi Hji Hj).
          - unfold at_work. rewrite Hpc. reflexivity.
          - reflexivity. }
        pose proof (GN p Hfree) as HpS.
        exists tr, (set_fun ph p (Ph SSize0 (vals v0 tr p) x)), bo.
        assert (HI' : Inv m (set_fun ph p (Ph SSize0 (vals v0 tr p) x)) bo).
        { destruct GI as [R I L A]. constructor; auto. intros q. destruct (Nat.eq_dec q p) as [->|Hq].
          - rewrite set_fun_same. specialize (R p). rewrite HpS in R. exact R.
          - rewrite set_fun_other by exact Hq. apply R. }
        split.
        -- constructor; [exact HI'| | |].
           ++ intros j u q w s Hj Hpc. destruct (put_cases _ _ _ _ _ _ Hi Hj) as [[-> ->]|[Hji Hj']].
              ** cbn in Hpc. injection Hpc as <- <- <-. apply set_fun_same.
              ** rewrite set_fun_other; [eapply GS; eassumption|]. intros ->. exact (Hfree j u w s Hj' Hpc).
           ++ intros q Hq. destruct (Nat.eq_dec q p) as [->|Hqp].
              ** exfalso. eapply Hq; [exact (put_self ts i _ _ Hi)|reflexivity].
              ** rewrite set_fun_other by exact Hqp. apply GN. intros j u w s Hj Hpc.
                 destruct (Nat.eq_dec j i) as [->|Hji]; [rewrite Hi in Hj; injection Hj as <-; discriminate|].
                 eapply Hq; [exact (put_other ts i _ _ j u Hi Hji Hj)|exact Hpc].
           ++ intros j u q g Hj Hpc. destruct (put_cases _ _ _ _ _ _ Hi Hj) as [[-> ->]|[Hji Hj']]; [discriminate|].
              eapply GG; eassumption.
        -- split; [rewrite (put_len ts i _ _ Hi); exact Hlen|]. split; [exact Htr|].
           intros j u Hj. destruct (put_cases _ _ _ _ _ _ Hi Hj) as [[-> ->]|[Hji Hj']]; [|apply Hex, Hj'].
           split; [exact Hprog|exact Hlog].
      * eexists _, _. split; [reflexivity|]. intros NC'. exists tr, ph, bo. split.
        -- constructor; [exact GI| | |].
           ++ intros j u q w s Hj Hpc. destruct (put_cases _ _ _ _ _ _ Hi Hj) as [[-> ->]|[Hji Hj']]; [discriminate|].
              eapply GS; eassumption.
           ++ intros q Hq. apply GN. intros j u w s Hj Hpc.
              destruct (Nat.eq_dec j i) as [->|Hji]; [rewrite Hi in Hj; injection Hj as <-; discriminate|].
              eapply Hq; [exact (put_other ts i _ _ j u Hi Hji Hj)|exact Hpc].
           ++ intros j u q g Hj Hpc. destruct (put_cases _ _ _ _ _ _ Hi Hj) as [[-> ->]|[Hji Hj']].
              ** cbn in Hpc. injection Hpc as <- <-. exact Logic.I.
              ** eapply GG; eassumption.
        -- split; [rewrite (put_len ts i _ _ Hi); exact Hlen|]. split; [exact Htr|].
           intros j u Hj. destruct (put_cases _ _ _ _ _ _ Hi Hj) as [[-> ->]|[Hji Hj']]; [|apply Hex, Hj'].
           split; [exact Hprog|exact Hlog].
  - (* in a write *)
    pose proof (GS i _ p v' s Hi eq_refl) as Hp.
    destruct (set_step_ok m ph bo p (vals v0 tr p) v' s GI Hp) as (m' & x & b' & E & Hok & HI').
    rewrite E. cbn [bind fst snd]. eexists _, _. split; [reflexivity|]. intros _.
    assert (Hothers : forall j u a, j <> i -> nth_error ts j = Some u -> at_work u = Some a -> target a <> p).
    { intros j u a Hji Hj Ha. refine (NC i j _ u p v' a _ Hi Hj _ Ha); [congruence|reflexivity]. }
    assert (Hset : forall j u q w s', j <> i -> nth_error ts j = Some u -> t_pc u = PInSet q w s' -> q <> p).
    { intros j u q w s' Hji Hj Hpc. refine (Hothers j u (PSet q w) Hji Hj _). unfold at_work. rewrite Hpc. reflexivity. }
    assert (Hget : forall j u q g, j <> i -> nth_error ts j = Some u -> t_pc u = PInGet q g -> q <> p).
    { intros j u q w Hji Hj Hpc. refine (Hothers j u (PGet q) Hji Hj _). unfold at_work. rewrite Hpc. reflexivity. }
    destruct x as [s'|ok]; cbn [next_state] in HI'.
    + exists tr. eexists _, _. split.
      * constructor; [exact HI'| | |].
        -- intros j u q w s2 Hj Hpc. destruct (put_cases _ _ _ _ _ _ Hi Hj) as [[-> ->]|[Hji Hj']].
           ++ cbn in Hpc. injection Hpc as <- <- <-. apply set_fun_same.
           ++ rewrite set_fun_other; [eapply GS; eassumption|]. eapply Hset; eassumption.
        -- intros q Hq. destruct (Nat.eq_dec q p) as [->|Hqp].
           ++ exfalso. eapply Hq; [exact (put_self ts i _ _ Hi)|reflexivity].
           ++ rewrite set_fun_other by exact Hqp. apply GN. intros j u w s2 Hj Hpc.
              destruct (Nat.eq_dec j i) as [->|Hji]; [rewrite Hi in Hj; injection Hj as <-; cbn in Hpc; congruence|].
              eapply Hq; [exact (put_other ts i _ _ j u Hi Hji Hj)|exact Hpc].
        -- intros j u q g Hj Hpc. destruct (put_cases _ _ _ _ _ _ Hi Hj) as [[-> ->]|[Hji Hj']]; [discriminate|].
           rewrite set_fun_other; [eapply GG; eassumption|]. eapply Hget; eassumption.
      * split; [rewrite (put_len ts i _ _ Hi); exact Hlen|]. split; [exact Htr|].
        intros j u Hj. destruct (put_cases _ _ _ _ _ _ Hi Hj) as [[-> ->]|[Hji Hj']]; [|apply Hex, Hj'].
        split; [exact Hprog|exact Hlog].
    + assert (ok = true) by (apply Hok; reflexivity). subst ok.
      exists (tr ++ [(i, PSet p v')]). eexists _, _. split.
      * constructor; [exact HI'| | |].
        -- intros j u q w s2 Hj Hpc. destruct (put_cases _ _ _ _ _ _ Hi Hj) as [[-> ->]|[Hji Hj']]; [discriminate|].
           assert (q <> p) as Hqp by (eapply Hset; eassumption).
           rewrite set_fun_other by exact Hqp. rewrite vals_snoc. cbn [act fst].
           apply Nat.eqb_neq in Hqp. rewrite Hqp. eapply GS; eassumption.
        -- intros q Hq. rewrite vals_snoc. cbn [act fst]. destruct (Nat.eq_dec q p) as [->|Hqp].
           ++ rewrite set_fun_same, Nat.eqb_refl. reflexivity.
           ++ rewrite set_fun_other by exact Hqp. apply Nat.eqb_neq in Hqp as Hqb. rewrite Hqb. apply GN. intros j u w s2 Hj Hpc.
              destruct (Nat.eq_dec j i) as [->|Hji]; [rewrite Hi in Hj; injection Hj as <-; cbn in Hpc; congruence|].
              eapply Hq; [exact (put_other ts i _ _ j u Hi Hji Hj)|exact Hpc].
        -- intros j u q g Hj Hpc. destruct (put_cases _ _ _ _ _ _ Hi Hj) as [[-> ->]|[Hji Hj']]; [discriminate|].
           assert (q <> p) as Hqp by (eapply Hget; eassumption).
           rewrite set_fun_other by exact Hqp. rewrite vals_snoc. cbn [act fst].
           apply Nat.eqb_neq in Hqp. rewrite Hqp. eapply GG; eassumption.
      * split; [rewrite (put_len ts i _ _ Hi); exact Hlen|]. split.
        { intros y Hy. apply in_app_or in Hy. destruct Hy as [Hy|[<-|[]]]; [apply Htr, Hy|exact Hil]. }
        intros j u Hj. rewrite of_thread_app, results_snoc, of_thread_app, !of_thread_one.
        destruct (put_cases _ _ _ _ _ _ Hi Hj) as [[-> ->]|[Hji Hj']].
        -- rewrite Nat.eqb_refl. cbn [at_work t_pc t_todo t_log app]. rewrite <- app_assoc. cbn [app].
           split; [exact Hprog|]. rewrite Hlog. reflexivity.
        -- assert (Hij : (i =? j) = false) by (apply Nat.eqb_neq; congruence). rewrite Hij, !app_nil_r. apply Hex, Hj'.
  - (* in a read *)
    assert (Hfree : forall j u w s, nth_error ts j = Some u -> t_pc u <> PInSet p w s).
    { intros j u w s Hj Hpc. destruct (Nat.eq_dec j i) as [->|Hji]; [rewrite Hi in Hj; injection Hj as <-; discriminate|].
      refine (NC j i u _ p w (PGet p) Hji Hj Hi _ _ eq_refl); [unfold at_work; rewrite Hpc; reflexivity|reflexivity]. }
    pose proof (GN p Hfree) as HpS.
    destruct (get_step_ok sf m ph bo p (vals v0 tr p) g GI HpS (GG i _ p g Hi eq_refl)) as (x & E & Hx).
    rewrite E. cbn [bind fst snd]. eexists _, _. split; [reflexivity|]. intros _.
    destruct x as [g'|l].
    + exists tr, ph, bo. split.
      * constructor; [exact GI| | |].
        -- intros j u q w s Hj Hpc. destruct (put_cases _ _ _ _ _ _ Hi Hj) as [[-> ->]|[Hji Hj']]; [discriminate|].
           eapply GS; eassumption.
        -- intros q Hq. apply GN. intros j u w s Hj Hpc.
           destruct (Nat.eq_dec j i) as [->|Hji]; [rewrite Hi in Hj; injection Hj as <-; discriminate|].
           eapply Hq; [exact (put_other ts i _ _ j u Hi Hji Hj)|exact Hpc].
        -- intros j u q g2 Hj Hpc. destruct (put_cases _ _ _ _ _ _ Hi Hj) as [[-> ->]|[Hji Hj']].
           ++ cbn in Hpc. injection Hpc as <- <-. exact Hx.
           ++ eapply GG; eassumption.
      * split; [rewrite (put_len ts i _ _ Hi); exact Hlen|]. split; [exact Htr|].
        intros j u Hj. destruct (put_cases _ _ _ _ _ _ Hi Hj) as [[-> ->]|[Hji Hj']]; [|apply Hex, Hj'].
        split; [exact Hprog|exact Hlog].
    + subst l. exists (tr ++ [(i, PGet p)]), ph, bo.
      assert (Hv : vals v0 (tr ++ [(i, PGet p)]) = vals v0 tr) by (rewrite vals_snoc; reflexivity).
      split.
      * constructor; rewrite ?Hv; [exact GI| | |].
        -- intros j u q w s Hj Hpc. destruct (put_cases _ _ _ _ _ _ Hi Hj) as [[-> ->]|[Hji Hj']]; [discriminate|].
           eapply GS; eassumption.
        -- intros q Hq. apply GN. intros j u w s Hj Hpc.
           destruct (Nat.eq_dec j i) as [->|Hji]; [rewrite Hi in Hj; injection Hj as <-; discriminate|].
           eapply Hq; [exact (put_other ts i _ _ j u Hi Hji Hj)|exact Hpc].
        -- intros j u q g2 Hj Hpc. destruct (put_cases _ _ _ _ _ _ Hi Hj) as [[-> ->]|[Hji Hj']]; [discriminate|].
           eapply GG; eassumption.
      * split; [rewrite (put_len ts i _ _ Hi); exact Hlen|]. split.
        { intros y Hy. apply in_app_or in Hy. destruct Hy as [Hy|[<-|[]]]; [apply Htr, Hy|exact Hil]. }
        intros j u Hj. rewrite of_thread_app, results_snoc, of_thread_app, !of_thread_one.
        destruct (put_cases _ _ _ _ _ _ Hi Hj) as [[-> ->]|[Hji Hj']].
        -- rewrite Nat.eqb_refl. cbn [at_work t_pc t_todo t_log app]. rewrite <- app_assoc. cbn [app].
           split; [exact Hprog|]. rewrite Hlog. reflexivity.
        -- assert (Hij : (i =? j) = false) by (apply Nat.eqb_neq; congruence). rewrite Hij, !app_nil_r. apply Hex, Hj'.
Qed.

Lemma holds_inv : forall v m, holds v m -> Inv m (fun p => St (v p)) (fun p => c_data (m_props m p)).
Proof.
  intros v m (A & B & C).
  assert (R : forall p, rep m p (c_data (m_props m p)) (St (v p))).
  { intros p. specialize (A p). cbn [rep]. destruct (v p) as [|x l]; unfold old_value.
    - rewrite A. auto.
    - destruct A as (d & A1 & A2). exists d. rewrite A1. auto. }
  constructor; auto.
  - intros p b Hb. apply C. specialize (R p). rewrite Hb in R. cbn [rep] in R. unfold old_value in R.
    destruct (v p); [destruct R; discriminate|]. destruct R as (d & R1 & R2 & R3). congruence.
  - intros d Hd. apply C, Hd.
Qed.
Lemma inv_holds : forall v m ph bo, Inv m ph bo -> (forall p, ph p = St (v p)) -> holds v m.
Proof.
  intros v m ph bo [R I L A] H.
  assert (D : forall p, c_data (m_props m p) = bo p).
  { intros p. specialize (R p). rewrite H in R. cbn [rep] in R. unfold old_value in R.
    destruct (v p); [destruct R as [-> ->]; reflexivity|destruct R as (d & -> & -> & _); reflexivity]. }
  split; [|split].
  - intros p. specialize (R p). rewrite H in R. cbn [rep] in R. unfold old_value in R.
    destruct (v p); [apply R|]. destruct R as (d & R1 & R2 & R3). exists d. auto.
  - intros p q d. rewrite !D. apply I.
  - intros d Hd. destruct (A d Hd) as [p Hp]. split; [exact (L p d Hp)|]. exists p. rewrite D. exact Hp.
Qed.

Lemma careful_cons : forall sf m ts i r, careful sf m ts (i :: r) ->
  no_conflict ts /\
  (nth_error ts i = None -> careful sf m ts r) /\
  (forall t m' t', nth_error ts i = Some t -> pstep sf m t = Ok (m', t') ->
     careful sf m' (firstn i ts ++ t' :: skipn (S i) ts) r).
Proof.
  intros sf m ts i r H. split; [|split].
  - apply (H 0 m ts). reflexivity.
  - intros Hn k m' ts' E. apply (H (S k) m' ts'). cbn [firstn psched]. rewrite Hn. exact E.
  - intros t m1 t' Hi Hs k m' ts' E. apply (H (S k) m' ts'). cbn [firstn psched]. rewrite Hi, Hs. cbn [bind fst snd]. exact E.
Qed.

Lemma run_ok : forall sf v0 progs sched m ts tr ph bo,
  GInv v0 m ts tr ph bo -> explained v0 progs ts tr -> careful sf m ts sched ->
  exists m' ts' tr' ph' bo', psched sf m ts sched = Ok (m', ts') /\ GInv v0 m' ts' tr' ph' bo' /\ explained v0 progs ts' tr'.
Proof.
  induction sched as [|i r IH]; intros m ts tr ph bo G E C.
  - exists m, ts, tr, ph, bo. split; [reflexivity|]. split; assumption.
  - destruct (careful_cons _ _ _ _ _ C) as (NC & C1 & C2). cbn [psched].
    destruct (nth_error ts i) as [t|] eqn:Hi.
    + destruct (step_ok sf v0 progs m ts tr ph bo i t G E NC Hi) as (m' & t' & Hs & Hn).
      rewrite Hs. cbn [bind fst snd]. specialize (C2 t m' t' eq_refl Hs).
      assert (NC' : no_conflict (firstn i ts ++ t' :: skipn (S i) ts)) by (apply (C2 0 m' _); reflexivity).
      destruct (Hn NC') as (tr' & ph' & bo' & G' & E'). eapply IH; eassumption.
    + eapply IH; [exact G|exact E|]. apply C1. reflexivity.
Qed.

Lemma start_nth : forall progs i t, nth_error (pstart progs) i = Some t ->
  exists l, nth_error progs i = Some l /\ t = mkPthr PIdle l [].
Proof.
  intros progs i t H. unfold pstart in H. rewrite nth_error_map in H.
  destruct (nth_error progs i) as [l|]; [|discriminate]. injection H as <-. eauto.
Qed.
Lemma start_ok : forall v0 m progs, holds v0 m ->
  GInv v0 m (pstart progs) [] (fun p => St (v0 p)) (fun p => c_data (m_props m p)) /\ explained v0 progs (pstart progs) [].
Proof.
  intros v0 m progs H. split.
  - constructor.
    + apply holds_inv, H.
    + intros i t p v' s Hi Hpc. destruct (start_nth _ _ _ Hi) as (l & _ & ->). discriminate.
    + intros p _. reflexivity.
    + intros i t p g Hi Hpc. destruct (start_nth _ _ _ Hi) as (l & _ & ->). discriminate.
  - split; [unfold pstart; apply map_length|]. split; [intros x []|].
    intros i t Hi. destruct (start_nth _ _ _ Hi) as (l & Hl & ->). split; [exact Hl|reflexivity].
Qed.

Lemma careful_run : forall sf v0 m progs sched, holds v0 m -> careful sf m (pstart progs) sched ->
  exists m' ts' tr, psched sf m (pstart progs) sched = Ok (m', ts') /\ explained v0 progs ts' tr /\
    ((forall t, In t ts' -> at_work t = None) -> holds (fst (acts v0 (map snd tr))) m').
Proof.
  intros sf v0 m progs sched H C. destruct (start_ok v0 m progs H) as [G E].
  destruct (run_ok _ _ _ _ _ _ _ _ _ G E C) as (m' & ts' & tr & ph & bo & Hr & G' & E').
  exists m', ts', tr. split; [exact Hr|]. split; [exact E'|]. intros Hidle.
  apply inv_holds with (ph := ph) (bo := bo); [apply G'|]. intros p. apply (g_not _ _ _ _ _ _ G').
  intros i t v s Hi Hpc. apply nth_error_In in Hi. specialize (Hidle t Hi). unfold at_work in Hidle. rewrite Hpc in Hidle. discriminate.
Qed.

(* ---- threads that do not touch what others write ---- *)
Definition within (progs : list (list pact)) (ts : list pthr) : Prop :=
  forall i t a, nth_error ts i = Some t -> at_work t = Some a \/ In a (t_todo t) ->
    exists l, nth_error progs i = Some l /\ In a l.
Lemma within_step : forall sf progs m ts i t m' t', within progs ts -> nth_error ts i = Some t -> pstep sf m t = Ok (m', t') ->
  within progs (firstn i ts ++ t' :: skipn (S i) ts).
Proof.
  intros sf progs m ts i t m' t' W Hi E j u a Hj Ha.
  destruct (put_cases _ _ _ _ _ _ Hi Hj) as [[-> ->]|[Hji Hj']]; [|eapply W; eassumption].
  apply (W i t a Hi). destruct t as [pc todo log]. unfold pstep in E. cbn [t_pc t_todo t_log] in *.
  destruct pc as [|p v s|p g].
  - destruct todo as [|[p x|p] todo]; injection E as <- <-; unfold at_work in *; cbn [t_pc t_todo] in *.
    + exact Ha.
    + right. destruct Ha as [Ha|Ha]; [left; congruence|right; exact Ha].
    + right. destruct Ha as [Ha|Ha]; [left; congruence|right; exact Ha].
  - destruct (set_step m p v s) as [[m1 x]|]; [|discriminate]. cbn [bind fst snd] in E.
    destruct x; injection E as <- <-; unfold at_work in *; cbn [t_pc t_todo] in *; [exact Ha|].
    destruct Ha as [Ha|Ha]; [discriminate|right; exact Ha].
  - destruct (get_step sf m p g) as [x|]; [|discriminate]. cbn [bind fst snd] in E.
    destruct x; injection E as <- <-; unfold at_work in *; cbn [t_pc t_todo] in *; [exact Ha|].
    destruct Ha as [Ha|Ha]; [discriminate|right; exact Ha].
Qed.
Lemma within_run : forall sf progs sched m ts m' ts', within progs ts -> psched sf m ts sched = Ok (m', ts') -> within progs ts'.
Proof.
  induction sched as [|i r IH]; intros m ts m' ts' W E.
  - injection E as <- <-. exact W.
  - cbn [psched] in E. destruct (nth_error ts i) as [t|] eqn:Hi; [|eapply IH; eassumption].
    destruct (pstep sf m t) as [[m1 t1]|] eqn:Hs; [|discriminate]. cbn [bind fst snd] in E.
    eapply IH; [|exact E]. eapply within_step; eassumption.
Qed.
Lemma within_start : forall progs, within progs (pstart progs).
Proof.
  intros progs i t a Hi Ha. destruct (start_nth _ _ _ Hi) as (l & Hl & ->). destruct Ha as [Ha|Ha]; [discriminate|].
  exists l. auto.
Qed.
Lemma apart_careful : forall sf m progs sched, apart progs -> careful sf m (pstart progs) sched.
Proof.
  intros sf m progs sched AP k m' ts' E. pose proof (within_run _ _ _ _ _ _ _ (within_start progs) E) as W.
  intros i j t t' p v a Hij Hi Hj Ha Ha' Ht.
  destruct (W i t _ Hi (or_introl Ha)) as (l & Hl & Il). destruct (W j t' _ Hj (or_introl Ha')) as (l' & Hl' & Il').
  apply (AP i j l l' p Hij Hl Hl'); [exists v; exact Il|exists a; auto].
Qed.

Lemma in_of_thread : forall {A} (tr : list (nat * A)) i a, In (i, a) tr -> In a (of_thread i tr).
Proof.
  intros A tr i a H. unfold of_thread. apply in_map_iff. exists (i, a). split; [reflexivity|].
  apply filter_In. split; [exact H|]. apply Nat.eqb_refl.
Qed.

(* the actions of a thread as if it were alone *)
Lemma alone : forall v0 i (own : nat -> Prop) tr,
  (forall x, In x tr -> fst x = i -> own (target (snd x))) ->
  (forall j p x, In (j, PSet p x) tr -> j <> i -> ~ own p) ->
  of_thread i (results v0 tr) = snd (acts v0 (of_thread i tr)) /\
  forall p, own p -> vals v0 tr p = fst (acts v0 (of_thread i tr)) p.
Proof.
  intros v0 i own tr. induction tr as [|[j a] tr IH] using rev_ind; intros H1 H2.
  - split; [reflexivity|]. intros p _. reflexivity.
  - destruct IH as [IH1 IH2].
    { intros x Hx. apply H1. apply in_or_app. auto. }
    { intros k p x Hx. apply (H2 k p x). apply in_or_app. auto. }
    rewrite results_snoc, !of_thread_app, !of_thread_one, vals_snoc.
    destruct (j =? i) eqn:Ej.
    + apply Nat.eqb_eq in Ej. subst j. rewrite acts_app. cbn [acts].
      assert (Hown : own (target a)).
      { apply (H1 (i, a)); [apply in_or_app; right; left; reflexivity|reflexivity]. }
      rewrite IH1. destruct a as [p x|p]; cbn [act fst snd target] in *.
      * split; [reflexivity|]. intros q Hq. destruct (q =? p); [reflexivity|apply IH2, Hq].
      * split; [rewrite IH2 by exact Hown; reflexivity|]. intros q Hq. apply IH2, Hq.
    + apply Nat.eqb_neq in Ej. rewrite !app_nil_r. split; [exact IH1|]. intros p Hp.
      destruct a as [q x|q]; cbn [act fst]; [|apply IH2, Hp].
      destruct (p =? q) eqn:Eq; [|apply IH2, Hp]. apply Nat.eqb_eq in Eq. subst q. exfalso.
      apply (H2 j p x); [apply in_or_app; right; left; reflexivity|exact Ej|exact Hp].
Qed.

Lemma unwritten : forall v0 tr p, (forall j x, ~ In (j, PSet p x) tr) -> vals v0 tr p = v0 p.
Proof.
  intros v0 tr p. induction tr as [|[j a] tr IH] using rev_ind; intros H; [reflexivity|].
  rewrite vals_snoc. destruct a as [q x|q]; cbn [act fst].
  - destruct (p =? q) eqn:E; [apply Nat.eqb_eq in E; subst q; exfalso; apply (H j x); apply in_or_app; right; left; reflexivity|].
    apply IH. intros k y Hy. apply (H k y). apply in_or_app. auto.
  - apply IH. intros k y Hy. apply (H k y). apply in_or_app. auto.
Qed.

Lemma apart_run : forall sf v0 m progs sched, holds v0 m -> apart progs ->
  exists m' ts', psched sf m (pstart progs) sched = Ok (m', ts') /\ length ts' = length progs /\
    (forall i l t, nth_error progs i = Some l -> nth_error ts' i = Some t ->
       (exists k, t_log t = firstn k (snd (acts v0 l))) /\ (finished t -> t_log t = snd (acts v0 l))) /\
    ((forall t, In t ts' -> finished t) -> exists v, holds v m' /\ final v0 progs v).
Proof.
  intros sf v0 m progs sched H AP.
  destruct (careful_run sf v0 m progs sched H (apart_careful _ _ _ _ AP)) as (m' & ts' & tr & Hr & (Hlen & Htr & Hex) & Hfin).
  exists m', ts'. split; [exact Hr|]. split; [exact Hlen|].
  assert (Hsub : forall j a, In (j, a) tr -> exists l, nth_error progs j = Some l /\ In a l).
  { intros j a Hin. pose proof (Htr _ Hin) as Hj. cbn in Hj. rewrite <- Hlen in Hj.
    destruct (nth_error ts' j) as [t|] eqn:Ht; [|apply nth_error_None in Ht; lia].
    destruct (Hex j t Ht) as [Hp _]. eexists. split; [exact Hp|]. apply in_or_app. left. apply in_of_thread, Hin. }
  assert (Hal : forall i l, nth_error progs i = Some l ->
    of_thread i (results v0 tr) = snd (acts v0 (of_thread i tr)) /\
    forall p, touches l p -> vals v0 tr p = fst (acts v0 (of_thread i tr)) p).
  { intros i l Hl. apply alone.
    - intros [j a] Hin Hj. cbn in Hj. subst j. destruct (Hsub i a Hin) as (l' & Hl' & Ia).
      rewrite Hl in Hl'. injection Hl' as <-. exists a. auto.
    - intros j p x Hin Hji Ht. destruct (Hsub j _ Hin) as (l' & Hl' & Ia).
      apply (AP j i l' l p Hji Hl' Hl); [exists x; exact Ia|exact Ht]. }
  split.
  - intros i l t Hl Ht. destruct (Hex i t Ht) as [Hp Hlog]. destruct (Hal i l Hl) as [Ha _].
    rewrite Hl in Hp. injection Hp as Hp. rewrite Hlog, Ha. split.
    + exists (length (snd (acts v0 (of_thread i tr)))). rewrite Hp, acts_app. cbn [snd].
      rewrite firstn_app, Nat.sub_diag, firstn_O, app_nil_r, firstn_all. reflexivity.
    + intros [F1 F2]. unfold at_work in Hp. rewrite F1, F2, !app_nil_r in Hp. rewrite Hp. reflexivity.
  - intros Hall. exists (vals v0 tr). split.
    + apply Hfin. intros t Ht. destruct (Hall t Ht) as [F _]. unfold at_work. rewrite F. reflexivity.
    + intros p. split.
      * intros i l Hl [x Hx].
        assert (Hi : i < length ts') by (rewrite Hlen; apply nth_error_Some; congruence).
        destruct (nth_error ts' i) as [t|] eqn:Ht; [|apply nth_error_None in Ht; lia].
        destruct (Hex i t Ht) as [Hp _]. rewrite Hl in Hp. injection Hp as Hp.
        destruct (Hall t (nth_error_In _ _ Ht)) as [F1 F2]. unfold at_work in Hp. rewrite F1, F2, !app_nil_r in Hp.
        destruct (Hal i l Hl) as [_ Ha]. rewrite (Ha p (ex_intro _ (PSet p x) (conj Hx eq_refl))), <- Hp. reflexivity.
      * intros Hno. apply unwritten. intros j x Hin. destruct (Hsub j _ Hin) as (l & Hl & Il).
        apply (Hno j l Hl). exists x. exact Il.
Qed.
