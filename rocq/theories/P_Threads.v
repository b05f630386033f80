(* Proofs about threads: the invariant behind C78. *)
From Coq Require Import List Bool Arith Lia.
From Verif Require Import CSem M_Threads Spec_Threads.
Import ListNotations.

Lemma upd_len {A} n (x : A) l : length (upd n x l) = length l.
Proof. revert n. induction l as [|y l IH]; intros [|n]; cbn; auto. Qed.
Lemma upd_same {A} n (x : A) l : n < length l -> nth_error (upd n x l) n = Some x.
Proof. revert n. induction l as [|y l IH]; intros [|n] H; cbn in *; try lia; auto. apply IH. lia. Qed.
Lemma upd_other {A} n m (x : A) l : n <> m -> nth_error (upd n x l) m = nth_error l m.
Proof. revert n m. induction l as [|y l IH]; intros [|n] [|m] H; cbn; auto; try congruence. Qed.
Lemma nth_lt {A} (l : list A) n x : nth_error l n = Some x -> n < length l.
Proof. intros H. apply nth_error_Some. congruence. Qed.
Lemma nth_upd {A} n m (x : A) l y : nth_error (upd n x l) m = Some y ->
  (n = m /\ y = x /\ n < length l) \/ (n <> m /\ nth_error l m = Some y).
Proof.
  intros H. destruct (Nat.eq_dec n m) as [->|N].
  - left. pose proof (nth_lt _ _ _ H) as L. rewrite upd_len in L. rewrite upd_same in H by auto.
    inversion H. auto.
  - right. rewrite upd_other in H; auto.
Qed.
Lemma nth_last {A} (l : list A) x : nth_error (l ++ [x]) (length l) = Some x.
Proof. rewrite nth_error_app2 by lia. rewrite Nat.sub_diag. reflexivity. Qed.
Lemma nth_snoc {A} (l : list A) x n y : nth_error (l ++ [x]) n = Some y ->
  nth_error l n = Some y \/ (n = length l /\ y = x).
Proof.
  intros H. destruct (Nat.lt_ge_cases n (length l)) as [L|L].
  - rewrite nth_error_app1 in H by auto. auto.
  - pose proof (nth_lt _ _ _ H) as B. rewrite app_length in B. cbn in B.
    assert (n = length l) as -> by lia. rewrite nth_last in H. inversion H. auto.
Qed.

(* the thread being stopped, if there is one *)
Definition halts (k : option nat) (t : nat) : bool := match k with Some u => (t =? u)%nat | None => false end.

Definition thr_is (k : option nat) (t : nat) (x : sth) (o : thr) : Prop :=
  match x with
  | Gone => th_live o = false
  | Idle a => th_live o = true /\ th_flag o = false /\ th_action o = a
  | Runs i => th_live o = true /\ th_flag o = negb (halts k t) /\ th_action o = true /\ th_id o = Some i
  end.

Record Inv (k : option nat) (s : sst) (w : world) : Prop := mkInv {
  inv_len : length (w_thr w) = length (fst s);
  inv_n : length (w_inst w) = snd s;
  inv_thr : forall t x o, nth_error (fst s) t = Some x -> nth_error (w_thr w) t = Some o -> thr_is k t x o;
  inv_run : forall t i, nth_error (fst s) t = Some (Runs i) ->
    exists y, nth_error (w_inst w) i = Some y /\ in_thr y = t /\ (halts k t = false -> in_pc y <> IEnd);
  inv_inst : forall i y, nth_error (w_inst w) i = Some y -> in_pc y <> IEnd ->
    nth_error (fst s) (in_thr y) = Some (Runs i)
}.

Lemma inv_at k s w t x : Inv k s w -> nth_error (fst s) t = Some x -> x <> Gone ->
  exists o, nth_error (w_thr w) t = Some o /\ thr_at t w = Ok o /\ th_live o = true /\ thr_is k t x o.
Proof.
  intros I H N.
  destruct (nth_error (w_thr w) t) as [o|] eqn:E.
  - pose proof (inv_thr _ _ _ I _ _ _ H E) as T.
    assert (th_live o = true) as L by (destruct x; cbn in T; [congruence | tauto | tauto]).
    exists o. unfold thr_at. rewrite E, L. auto.
  - exfalso. apply nth_error_None in E. rewrite (inv_len _ _ _ I) in E. apply nth_lt in H. lia.
Qed.

(* an instance whose place changes, but which does not end unless its thread is being stopped *)
Lemma inv_move k s w i y pc n : Inv k s w -> nth_error (w_inst w) i = Some y -> in_pc y <> IEnd ->
  (pc = IEnd -> halts k (in_thr y) = true) ->
  Inv k s (set_inst i (mkInst (in_thr y) pc n) w).
Proof.
  intros I Hi Hp Hk. pose proof (inv_inst _ _ _ I _ _ Hi Hp) as R. constructor; cbn [set_inst w_thr w_inst].
  - apply (inv_len _ _ _ I).
  - rewrite upd_len. apply (inv_n _ _ _ I).
  - apply (inv_thr _ _ _ I).
  - intros t j Hj. destruct (inv_run _ _ _ I _ _ Hj) as (y' & A & B & C).
    destruct (Nat.eq_dec i j) as [->|Nij].
    + assert (y' = y) as -> by congruence.
      exists (mkInst (in_thr y) pc n). rewrite upd_same by (eapply nth_lt; eauto). repeat split; auto.
      cbn. rewrite B in *. intros F E. rewrite Hk in F by auto. discriminate.
    + exists y'. rewrite upd_other; auto.
  - intros j y' Hj Hn. apply nth_upd in Hj. destruct Hj as [(-> & -> & _)|(Nij & Hj)].
    + cbn. exact R.
    + apply (inv_inst _ _ _ I); auto.
Qed.

Definition rank (i : nat) (w : world) : nat :=
  match nth_error (w_inst w) i with
  | Some y => match in_pc y with IBegin => 2 | IWork => 2 | IAsk => 1 | IEnd => 0 end
  | None => 0
  end.

Lemma istep_inv k s w j : Inv k s w ->
  exists w', istep j true w = Ok w' /\ Inv k s w' /\ w_thr w' = w_thr w /\
    (forall i, i <> j -> nth_error (w_inst w') i = nth_error (w_inst w) i) /\
    (forall t, nth_error (fst s) t = Some (Runs j) -> halts k t = true -> rank j w' <= rank j w - 1) /\
    rank j w' <= 2.
Proof.
  intros I. unfold istep. destruct (nth_error (w_inst w) j) as [y|] eqn:Ej.
  2:{ exists w. unfold rank. rewrite Ej. do 4 (split; auto); split; intros; lia. }
  assert (in_pc y = IEnd \/ in_pc y <> IEnd) as [En|Nn] by (destruct (in_pc y); auto; right; discriminate).
  { rewrite En. exists w. unfold rank. rewrite Ej, En. do 4 (split; auto); split; intros; lia. }
  pose proof (inv_inst _ _ _ I _ _ Ej Nn) as R.
  destruct (inv_at _ _ _ _ _ I R) as (o & O1 & O2 & O3 & T); [discriminate|].
  cbn in T. destruct T as (_ & F & A & Id).
  assert (forall pc n, nth_error (w_inst (set_inst j (mkInst (in_thr y) pc n) w)) j = Some (mkInst (in_thr y) pc n)) as S1
    by (intros; cbn; apply upd_same; eapply nth_lt; eauto).
  assert (forall pc n i, i <> j -> nth_error (w_inst (set_inst j (mkInst (in_thr y) pc n) w)) i = nth_error (w_inst w) i) as S2
    by (intros; cbn; apply upd_other; auto).
  unfold isrunnable. rewrite O2, A.
  destruct (in_pc y) eqn:Ep; [ | | |congruence].
  - eexists. split; [reflexivity|]. split; [apply inv_move; auto; [rewrite Ep; auto | discriminate]|].
    unfold rank. rewrite S1, Ej, Ep. split; [reflexivity|]. split; [intros; apply S2; auto|]. cbn. split; intros; lia.
  - eexists. split; [reflexivity|]. split.
    + apply inv_move; auto; [rewrite Ep; auto|]. rewrite F. destruct (halts k (in_thr y)); [auto | discriminate].
    + unfold rank. rewrite S1, Ej, Ep. split; [reflexivity|]. split; [intros; apply S2; auto|]. cbn [in_pc]. split.
      * intros t Ht Hk. destruct (inv_run _ _ _ I _ _ Ht) as (y' & Y1 & Y2 & _).
        assert (y' = y) as -> by congruence. rewrite F, Y2, Hk. cbn. auto.
      * destruct (th_flag o); cbn; auto.
  - eexists. split; [reflexivity|]. split; [apply inv_move; auto; [rewrite Ep; auto | discriminate]|].
    unfold rank. rewrite S1, Ej, Ep. split; [reflexivity|]. split; [intros; apply S2; auto|]. cbn. split; intros; lia.
Qed.

Lemma isteps_inv k s l : goes_on l = true -> forall w, Inv k s w ->
  exists w', isteps l w = Ok w' /\ Inv k s w' /\ w_thr w' = w_thr w /\
    (forall i, count i l = 0 -> nth_error (w_inst w') i = nth_error (w_inst w) i) /\
    (forall t i, nth_error (fst s) t = Some (Runs i) -> halts k t = true -> rank i w' <= rank i w - count i l).
Proof.
  induction l as [|(j, more) l IH]; intros G w I.
  - exists w. cbn. do 4 (split; auto). intros. lia.
  - cbn in G. apply andb_true_iff in G. destruct G as (-> & G).
    destruct (istep_inv _ _ _ j I) as (w1 & E1 & I1 & T1 & O1 & R1 & _).
    destruct (IH G w1 I1) as (w2 & E2 & I2 & T2 & O2 & R2).
    exists w2. cbn [isteps]. rewrite E1. split; [exact E2|]. split; [exact I2|]. split; [congruence|]. split.
    + intros i C. unfold count in C. cbn in C. destruct (j =? i) eqn:Eji; [discriminate|].
      apply Nat.eqb_neq in Eji. rewrite O2 by exact C. apply O1. auto.
    + intros t i Hi Hk. specialize (R2 t i Hi Hk). unfold count. cbn. destruct (j =? i) eqn:Eji.
      * apply Nat.eqb_eq in Eji. subst j. specialize (R1 _ Hi Hk). cbn. unfold count in R2. lia.
      * apply Nat.eqb_neq in Eji. assert (rank i w1 = rank i w) as Er by (unfold rank; rewrite O1; auto).
        unfold count in R2. lia.
Qed.

Lemma rank2 i w : rank i w <= 2.
Proof. unfold rank. destruct (nth_error (w_inst w) i) as [y|]; auto. destruct (in_pc y); auto. Qed.

(* a thread object that is not the one of an instance may change *)
Lemma inv_change k k' s w t x o : Inv k s w -> t < length (fst s) ->
  (forall i, nth_error (fst s) t = Some (Runs i) -> exists y, nth_error (w_inst w) i = Some y /\ in_pc y = IEnd) ->
  (forall i, x <> Runs i) -> thr_is k' t x o -> (forall u, u <> t -> halts k u = halts k' u) ->
  Inv k' (sput t x s) (set_thr t o w).
Proof.
  intros I L E N T K. constructor; cbn [sput set_thr fst snd w_thr w_inst].
  - rewrite !upd_len. apply (inv_len _ _ _ I).
  - apply (inv_n _ _ _ I).
  - intros u x' o' H1 H2. apply nth_upd in H1. apply nth_upd in H2.
    destruct H1 as [(-> & -> & _)|(D1 & H1)]; destruct H2 as [(D2 & H2 & _)|(D2 & H2)]; try congruence.
    pose proof (inv_thr _ _ _ I _ _ _ H1 H2) as T'. unfold thr_is in *. rewrite <- K by auto. exact T'.
  - intros u i H. apply nth_upd in H. destruct H as [(_ & H & _)|(D & H)]; [exfalso; eapply N; eauto|].
    destruct (inv_run _ _ _ I _ _ H) as (y & A & B & C). exists y. repeat split; auto. rewrite <- K by auto. exact C.
  - intros i y Hi Hp. pose proof (inv_inst _ _ _ I _ _ Hi Hp) as R.
    destruct (Nat.eq_dec t (in_thr y)) as [Et|D].
    + exfalso. rewrite <- Et in R. destruct (E _ R) as (y' & A & B). congruence.
    + rewrite upd_other; auto.
Qed.

Lemma upd_id {A} n (x : A) l : nth_error l n = Some x -> upd n x l = l.
Proof. revert n. induction l as [|y l IH]; intros [|n] H; cbn in *; try congruence. f_equal. auto. Qed.
Lemma upd_upd {A} n (x y : A) l : upd n x (upd n y l) = upd n x l.
Proof. revert n. induction l as [|z l IH]; intros [|n]; cbn; auto. f_equal. auto. Qed.

Lemma inv_same s w t x o : Inv None s w -> nth_error (fst s) t = Some x -> (forall i, x <> Runs i) ->
  thr_is None t x o -> Inv None s (set_thr t o w).
Proof.
  intros I H N T.
  replace s with (sput t x s) by (destruct s; unfold sput; cbn in *; rewrite upd_id; auto).
  apply inv_change with (k := None); auto.
  - eapply nth_lt; eauto.
  - intros i E. exfalso. eapply N. rewrite H in E. injection E as E. exact E.
Qed.

Lemma start_ok h a s s' b w : r_start h a s = Some (s', b) -> Inv None s w ->
  exists w', start h a w = Ok (w', b) /\ Inv None s' w'.
Proof.
  unfold r_start, start. intros H I. destruct h as [t|]; [|inversion H; subst; eauto].
  destruct (nth_error (fst s) t) as [[|[]|]|] eqn:Et; try discriminate.
  destruct (inv_at _ _ _ _ _ I Et) as (o & O1 & O2 & O3 & T); [discriminate|].
  cbn in T. destruct T as (_ & F & A). rewrite O2.
  destruct a; inversion H; subst; clear H.
  2-4: eexists; (split; [reflexivity|]); (eapply inv_same; [eauto|eauto|discriminate|]); cbn; auto.
  eexists. split; [reflexivity|]. rewrite A.
  constructor; cbn [fst snd w_thr w_inst].
  - rewrite !upd_len. apply (inv_len _ _ _ I).
  - rewrite app_length. cbn. rewrite (inv_n _ _ _ I). lia.
  - intros u x' o' H1 H2. apply nth_upd in H1. apply nth_upd in H2.
    destruct H1 as [(-> & -> & _)|(D1 & H1)]; destruct H2 as [(D2 & -> & _)|(D2 & H2)]; try congruence.
    + cbn. repeat split; auto. rewrite (inv_n _ _ _ I). reflexivity.
    + eapply (inv_thr _ _ _ I); eauto.
  - intros u i H. apply nth_upd in H. destruct H as [(-> & E & _)|(D & H)].
    + injection E as ->. exists (mkInst u IBegin 0). rewrite <- (inv_n _ _ _ I), nth_last. repeat split; auto.
      intros _. discriminate.
    + destruct (inv_run _ _ _ I _ _ H) as (y & Y1 & Y2 & Y3). exists y.
      rewrite nth_error_app1 by (eapply nth_lt; eauto). auto.
  - intros i y Hi Hp. apply nth_snoc in Hi. destruct Hi as [Hi|(-> & ->)].
    + pose proof (inv_inst _ _ _ I _ _ Hi Hp) as R. rewrite upd_other; auto.
      intros E. rewrite <- E, Et in R. discriminate.
    + cbn. rewrite upd_same by (eapply nth_lt; eauto). rewrite (inv_n _ _ _ I). reflexivity.
Qed.

Lemma stop_ok h z x s s' b w : r_stop h z x s = Some (s', b) -> Inv None s w ->
  exists w', stop h z x w = Ok (w', b) /\ Inv None s' w'.
Proof.
  unfold r_stop, stop. intros H I. destruct h as [t|]; [|inversion H; subst; eauto].
  destruct (nth_error (fst s) t) as [[|ac|i]|] eqn:Et; try discriminate.
  - inversion H; subst; clear H.
    destruct (inv_at _ _ _ _ _ I Et) as (o & O1 & O2 & O3 & T); [discriminate|].
    cbn in T. destruct T as (_ & F & A). rewrite O2, F. eauto.
  - destruct (prompt i z x) eqn:P; inversion H; subst; clear H.
    unfold prompt in P. rewrite !andb_true_iff in P. destruct P as (((P1 & P2) & P3) & P4).
    apply Nat.eqb_eq in P1. apply Nat.leb_le in P2.
    destruct (inv_at _ _ _ _ _ I Et) as (o & O1 & O2 & O3 & T); [discriminate|].
    cbn in T. destruct T as (_ & F & A & Id). rewrite O2, F.
    set (o1 := mkThr true false (th_id o) (th_action o)).
    assert (Inv (Some t) s (set_thr t o1 w)) as I1.
    { constructor; cbn [set_thr w_thr w_inst].
      - rewrite upd_len. apply (inv_len _ _ _ I).
      - apply (inv_n _ _ _ I).
      - intros u x' o' H1 H2. apply nth_upd in H2. destruct H2 as [(-> & -> & _)|(D2 & H2)].
        + rewrite Et in H1. injection H1 as <-. cbn. rewrite Nat.eqb_refl. auto.
        + pose proof (inv_thr _ _ _ I _ _ _ H1 H2) as T'. unfold thr_is in *. cbn [halts] in *.
          replace (u =? t) with false by (symmetry; apply Nat.eqb_neq; auto). exact T'.
      - intros u j H. destruct (inv_run _ _ _ I _ _ H) as (y & Y1 & Y2 & Y3). exists y. repeat split; auto.
      - apply (inv_inst _ _ _ I). }
    destruct (isteps_inv _ _ _ P3 _ I1) as (w1 & E1 & I2 & T1 & S1 & R1).
    destruct (isteps_inv _ _ _ P4 _ I2) as (w2 & E2 & I3 & T2 & S2 & R2).
    destruct (inv_run _ _ _ I _ _ Et) as (y & Y1 & Y2 & Y3).
    assert (kill (th_id o) w1 = Ok tt) as K.
    { rewrite Id. cbn. rewrite S1 by auto. cbn [set_thr w_inst]. rewrite Y1.
      specialize (Y3 eq_refl). destruct (in_pc y); auto; congruence. }
    rewrite E1, K, E2. exists w2. split; [reflexivity|].
    assert (halts (Some t) t = true) as Hk by (cbn; apply Nat.eqb_refl).
    specialize (R2 t i Et Hk). pose proof (rank2 i w1) as R0.
    assert (rank i w2 = 0) as R3 by lia.
    destruct (inv_run _ _ _ I3 _ _ Et) as (y2 & Z1 & Z2 & _).
    assert (in_pc y2 = IEnd) as Z3.
    { unfold rank in R3. rewrite Z1 in R3. destruct (in_pc y2); auto; discriminate. }
    assert (w2 = set_thr t o1 w2) as ->.
    { destruct w2 as [a c]. unfold set_thr. cbn. f_equal. symmetry. apply upd_id.
      cbn in T2. rewrite T2, T1. cbn. apply upd_same. eapply nth_lt; eauto. }
    apply inv_change with (k := Some t); auto.
    + eapply nth_lt; eauto.
    + intros j Hj. rewrite Et in Hj. injection Hj as <-. eauto.
    + discriminate.
    + cbn. auto.
    + intros u D. cbn. apply Nat.eqb_neq; auto.
Qed.

Lemma delete_ok h z x s s' b w : r_delete h z x s = Some (s', b) -> Inv None s w ->
  exists w', delete h z x w = Ok (w', b) /\ Inv None s' w'.
Proof.
  unfold r_delete, delete. intros H I. destruct h as [t|]; [|inversion H; subst; eauto].
  destruct (r_stop (Some t) z x s) as [(s1, b1)|] eqn:E; [|discriminate]. inversion H; subst; clear H.
  destruct (stop_ok _ _ _ _ _ _ _ E I) as (w1 & E1 & I1). rewrite E1.
  assert (exists a, nth_error (fst s1) t = Some (Idle a)) as (a & Ha).
  { cbn in E. destruct (nth_error (fst s) t) as [[|ac|i]|] eqn:Et; try discriminate.
    - inversion E; subst. eauto.
    - destruct (prompt i z x); inversion E; subst. exists true. cbn. apply upd_same. eapply nth_lt; eauto. }
  destruct (inv_at _ _ _ _ _ I1 Ha) as (o & O1 & O2 & O3 & T); [discriminate|]. rewrite O2.
  eexists. split; [reflexivity|]. apply inv_change with (k := None); auto.
  - eapply nth_lt; eauto.
  - intros i Hi. rewrite Ha in Hi. discriminate.
  - discriminate.
  - cbn. reflexivity.
Qed.

Lemma list_start_ok l : forall s s' b w, r_list_start l s = Some (s', b) -> Inv None s w ->
  exists w', list_start l w = Ok (w', b) /\ Inv None s' w'.
Proof.
  induction l as [|(t, a) l IH]; intros s s' b w H I; cbn [r_list_start list_start] in *.
  - inversion H; subst. eauto.
  - destruct (r_start (Some t) a s) as [(s1, b1)|] eqn:E; [|discriminate].
    destruct (start_ok _ _ _ _ _ _ E I) as (w1 & E1 & I1). rewrite E1. eauto.
Qed.

Lemma list_stop_ok l : forall s s' b w, r_list_stop l s = Some (s', b) -> Inv None s w ->
  exists w', list_stop l w = Ok (w', b) /\ Inv None s' w'.
Proof.
  induction l as [|(t, (z, x)) l IH]; intros s s' b w H I; cbn [r_list_stop list_stop] in *.
  - inversion H; subst. eauto.
  - destruct (r_stop (Some t) z x s) as [(s1, b1)|] eqn:E; [|discriminate].
    destruct (stop_ok _ _ _ _ _ _ _ E I) as (w1 & E1 & I1). rewrite E1. eauto.
Qed.

Lemma estep_ok e s s' v w : r_step e s = Some (s', v) -> Inv None s w ->
  exists w', estep e w = Ok (w', v) /\ Inv None s' w'.
Proof.
  intros H I. destruct e; cbn [r_step estep] in *.
  - destruct mem; inversion H; subst; clear H; cbn [thread_new].
    + rewrite (inv_len _ _ _ I). eexists. split; [reflexivity|].
      constructor; cbn [fst snd w_thr w_inst].
      * rewrite !app_length, (inv_len _ _ _ I). reflexivity.
      * apply (inv_n _ _ _ I).
      * intros t x o H1 H2. apply nth_snoc in H1. apply nth_snoc in H2.
        destruct H1 as [H1|(-> & ->)]; destruct H2 as [H2|(E & ->)].
        -- eapply (inv_thr _ _ _ I); eauto.
        -- apply nth_lt in H1. rewrite (inv_len _ _ _ I) in E. lia.
        -- apply nth_lt in H2. rewrite (inv_len _ _ _ I) in H2. lia.
        -- cbn. auto.
      * intros t i H. apply nth_snoc in H. destruct H as [H|(_ & H)]; [|discriminate].
        apply (inv_run _ _ _ I); auto.
      * intros i y Hi Hp. pose proof (inv_inst _ _ _ I _ _ Hi Hp) as R.
        rewrite nth_error_app1; auto. eapply nth_lt; eauto.
    + eauto.
  - destruct h as [t|]; [|inversion H; subst; cbn; eauto].
    destruct (nth_error (fst s) t) as [[|ac|i]|] eqn:Et; try discriminate.
    2:{ destruct act; [|discriminate]. inversion H; subst; clear H.
        destruct (inv_at _ _ _ _ _ I Et) as (o & O1 & O2 & O3 & T); [discriminate|].
        cbn in T. destruct T as (T1 & _ & T3 & _). cbn [setaction]. rewrite O2. exists w. split; [|exact I].
        destruct o as [lv fl id ac]; cbn [th_live th_flag th_id th_action] in *. subst lv ac.
        unfold set_thr. rewrite upd_id by exact O1. destruct w; reflexivity. }
    inversion H; subst; clear H.
    destruct (inv_at _ _ _ _ _ I Et) as (o & O1 & O2 & O3 & T); [discriminate|].
    cbn in T. destruct T as (_ & F & A). cbn [setaction]. rewrite O2. eexists. split; [reflexivity|].
    apply inv_change with (k := None); auto.
    + eapply nth_lt; eauto.
    + intros i Hi. rewrite Et in Hi. discriminate.
    + discriminate.
    + cbn. auto.
  - destruct (r_start h a s) as [(s1, b1)|] eqn:E; inversion H; subst.
    destruct (start_ok _ _ _ _ _ _ E I) as (w1 & E1 & I1). rewrite E1. eauto.
  - destruct (r_stop h z s0 s) as [(s1, b1)|] eqn:E; inversion H; subst.
    destruct (stop_ok _ _ _ _ _ _ _ E I) as (w1 & E1 & I1). rewrite E1. eauto.
  - unfold r_restart in H. destruct (r_stop h z s0 s) as [(s1, b1)|] eqn:E; [|discriminate].
    destruct (r_start h a s1) as [(s2, b2)|] eqn:E'; inversion H; subst.
    destruct (stop_ok _ _ _ _ _ _ _ E I) as (w1 & E1 & I1).
    destruct (start_ok _ _ _ _ _ _ E' I1) as (w2 & E2 & I2).
    unfold restart. rewrite E1, E2. eauto.
  - destruct (r_delete h z s0 s) as [(s1, b1)|] eqn:E; inversion H; subst.
    destruct (delete_ok _ _ _ _ _ _ _ E I) as (w1 & E1 & I1). rewrite E1. eauto.
  - destruct h as [t|]; [|inversion H; subst; cbn; eauto].
    destruct (nth_error (fst s) t) as [[|ac|i]|] eqn:Et; try discriminate; inversion H; subst; clear H;
      destruct (inv_at _ _ _ _ _ I Et) as (o & O1 & O2 & O3 & T); try discriminate;
      cbn in T; cbn [isrunning]; rewrite O2; destruct T as (_ & F & _); rewrite F; eauto.
  - destruct (r_list_start l s) as [(s1, b1)|] eqn:E; inversion H; subst.
    destruct (list_start_ok _ _ _ _ _ E I) as (w1 & E1 & I1). rewrite E1. eauto.
  - destruct (r_list_stop l s) as [(s1, b1)|] eqn:E; inversion H; subst.
    destruct (list_stop_ok _ _ _ _ _ E I) as (w1 & E1 & I1). rewrite E1. eauto.
  - destruct more; inversion H; subst.
    destruct (istep_inv _ _ _ i I) as (w1 & E1 & I1 & _). rewrite E1. eauto.
Qed.

Lemma erun_ok l : forall s s' xs w, r_run l s = Some (s', xs) -> Inv None s w ->
  exists w', erun l w = Ok (w', xs) /\ Inv None s' w'.
Proof.
  induction l as [|e l IH]; intros s s' xs w H I; cbn [r_run erun] in *.
  - inversion H; subst. eauto.
  - destruct (r_step e s) as [(s1, x)|] eqn:E; [|discriminate].
    destruct (r_run l s1) as [(s2, ys)|] eqn:E'; inversion H; subst.
    destruct (estep_ok _ _ _ _ _ E I) as (w1 & E1 & I1). rewrite E1.
    destruct (IH _ _ _ _ E' I1) as (w2 & E2 & I2). rewrite E2. eauto.
Qed.

Lemma inv_empty : Inv None r_empty empty.
Proof.
  constructor; cbn; auto.
  - intros [|t] x o H; discriminate.
  - intros [|t] i H; discriminate.
  - intros [|i] y H; discriminate.
Qed.

Lemma filter_none {A} (f : A -> bool) l : (forall i x, nth_error l i = Some x -> f x = false) -> filter f l = [].
Proof.
  induction l as [|y l IH]; intros H; cbn; auto. rewrite (H 0 y) by reflexivity.
  apply IH. intros i x E. apply (H (S i)); auto.
Qed.
Lemma filter_one {A} (f : A -> bool) l : forall i x, nth_error l i = Some x -> f x = true ->
  (forall j y, nth_error l j = Some y -> f y = true -> j = i) -> length (filter f l) = 1.
Proof.
  induction l as [|y l IH]; intros [|i] x H F U; cbn in H; try discriminate.
  - injection H as ->. cbn. rewrite F. cbn. f_equal. rewrite filter_none; auto.
    intros j z Hj. destruct (f z) eqn:E; auto. specialize (U (S j) z Hj E). discriminate.
  - cbn. destruct (f y) eqn:E; [specialize (U 0 y eq_refl E); discriminate|].
    apply (IH i x); auto. intros j z Hj Hz. specialize (U (S j) z Hj Hz). lia.
Qed.

Lemma inv_active s w t : Inv None s w -> active t w = expected t s.
Proof.
  intros I. unfold active, expected.
  set (f := fun x => (in_thr x =? t) && match in_pc x with IEnd => false | _ => true end).
  assert (forall y, f y = true -> in_thr y = t /\ in_pc y <> IEnd) as Hf.
  { intros y H. unfold f in H. apply andb_true_iff in H. destruct H as (H1 & H2). apply Nat.eqb_eq in H1.
    split; auto. intros E. rewrite E in H2. discriminate. }
  destruct (nth_error (fst s) t) as [[|ac|i]|] eqn:Et.
  3:{ destruct (inv_run _ _ _ I _ _ Et) as (y & Y1 & Y2 & Y3). specialize (Y3 eq_refl).
      apply (filter_one f _ i y); auto.
      - unfold f. rewrite Y2, Nat.eqb_refl. destruct (in_pc y); auto; congruence.
      - intros j z Hj Hz. destruct (Hf _ Hz) as (T & P). pose proof (inv_inst _ _ _ I _ _ Hj P) as R.
        rewrite T, Et in R. congruence. }
  all: rewrite filter_none; auto; intros j z Hj; destruct (f z) eqn:Fz; auto;
    destruct (Hf _ Fz) as (T & P); pose proof (inv_inst _ _ _ I _ _ Hj P) as R; rewrite T, Et in R; discriminate.
Qed.
