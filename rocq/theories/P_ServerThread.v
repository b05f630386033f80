(* Proofs about a receiving and a stopping thread. *)
From Coq Require Import ZArith List Bool Lia.
From Verif Require Import CSem P_Base M_ServerThread Spec_ServerThread.
Import ListNotations.
Open Scope nat_scope.

Definition waits (p : rpc) : Prop := p = RRecv \/ p = RRun false \/ p = RBound false \/ p = RExit.
Definition tail_ok (tl : list kact) : Prop := tl = [] \/ tl = [KFreeNode].

(* the states that mild turns reach, by what the stopping thread has yet to do *)
Inductive minv (tl : list kact) : tst -> Prop :=
| m_up : forall p c, p <> RId false -> minv tl (mkTst true true true true true true p (stop_prog ++ tl) c)
| m_closed : forall p c, p = RRecv \/ p = RExit -> minv tl (mkTst false true true true true true p ([KNull; KFlag; KFreeThread; KFreeServer] ++ tl) c)
| m_null : forall p c, waits p -> minv tl (mkTst false false true true true true p ([KFlag; KFreeThread; KFreeServer] ++ tl) c)
| m_flag : forall p c, waits p -> minv tl (mkTst false false true false true true p ([KFreeThread; KFreeServer] ++ tl) c)
| m_thread : forall c, minv tl (mkTst false false false false true true RExit ([KFreeServer] ++ tl) c)
| m_server : forall c, minv tl (mkTst false false false false false true RExit tl c)
| m_node : forall c, minv tl (mkTst false false false false false false RExit [] c).

Lemma mild_step : forall tl s t, tail_ok tl -> minv tl s -> mild s t -> exists s', turn_step s t = Ok s' /\ minv tl s'.
Proof.
  intros tl s t T I M. destruct t as [|o]; cbn [turn_step].
  - eexists. split; [reflexivity|].
    destruct I as [p c H|p c H|p c H|p c H|c|c|c]; cbn [stop_step stop_prog t_prog app] in *; cbn [mild t_prog t_rpc] in M.
    + apply m_closed. exact M.
    + apply m_null. unfold waits. tauto.
    + apply m_flag. exact H.
    + subst p. apply m_thread.
    + apply m_server.
    + destruct T as [->| ->]; cbn [stop_step t_prog]; [apply m_server|apply m_node].
    + apply m_node.
  - destruct M as [M1 M2].
    destruct I as [p c H|p c H|p c H|p c H|c|c|c]; unfold recv_step, use, with_rpc;
      cbn [t_sock t_ptr t_thread t_run t_server t_node t_rpc t_prog t_calls negb] in *.
    + destruct p as [| | |[|]| | |d|d|d| | |]; try congruence; eexists; (split; [reflexivity|]); try apply m_up; try congruence.
      * destruct o; congruence.
      * destruct d; congruence.
    + destruct M1.
    + specialize (M2 eq_refl). destruct H as [->|[->|[->| ->]]]; eexists; (split; [reflexivity|]); apply m_null; unfold waits; auto.
      destruct o; auto; congruence.
    + specialize (M2 eq_refl). destruct H as [->|[->|[->| ->]]]; eexists; (split; [reflexivity|]); apply m_flag; unfold waits; auto.
      destruct o; auto; congruence.
    + eexists. split; [reflexivity|]. apply m_thread.
    + eexists. split; [reflexivity|]. apply m_server.
    + eexists. split; [reflexivity|]. apply m_node.
Qed.
Lemma mild_run : forall tl l s, tail_ok tl -> minv tl s -> mild_turns s l -> exists s', turns s l = Ok s' /\ minv tl s'.
Proof.
  intros tl l. induction l as [|t l IH]; intros s T I M; cbn [turns mild_turns] in *; [eauto|].
  destruct M as [M1 M2]. destruct (mild_step tl s t T I M1) as (s1 & E & I1). rewrite E. cbn [bind]. apply IH; auto.
Qed.
Lemma minv_returned : forall tl s, minv tl s -> returned s -> t_rpc s = RExit.
Proof. intros tl s I R. unfold returned in R. destruct I; cbn in *; try discriminate; reflexivity. Qed.
Lemma exit_stays : forall l s, t_rpc s = RExit -> t_prog s = [] -> turns s l = Ok s.
Proof.
  induction l as [|t l IH]; intros s E P; cbn [turns]; [reflexivity|]. destruct t as [|o]; cbn [turn_step].
  - unfold stop_step. rewrite P. cbn [bind]. auto.
  - unfold recv_step. rewrite E. cbn [bind]. auto.
Qed.

Definition ends_mildly (s : tst) : Prop := exists l, mild_turns s l /\ exists e, turns s l = Ok e /\ returned e.
Lemma ends_by : forall s t s', mild s t -> turn_step s t = Ok s' -> ends_mildly s' -> ends_mildly s.
Proof.
  intros s t s' M E (l & Ml & e & El & R). exists (t :: l). split.
  - cbn [mild_turns]. split; [exact M|]. intros s1 E1. rewrite E in E1. injection E1 as <-. exact Ml.
  - exists e. split; [|exact R]. cbn [turns]. rewrite E. exact El.
Qed.
Lemma ends_here : forall s, returned s -> ends_mildly s.
Proof. intros s R. exists []. split; [exact Logic.I|]. exists s. auto. Qed.

Lemma minv_ends : forall tl s, tail_ok tl -> minv tl s -> ends_mildly s.
Proof.
  intros tl s T I.
  assert (S6 : forall c, ends_mildly (mkTst false false false false false true RExit tl c)).
  { intros c. destruct T as [->| ->]; [apply ends_here; reflexivity|].
    eapply (ends_by _ TStop); [exact Logic.I|reflexivity|]. apply ends_here. reflexivity. }
  assert (S5 : forall c, ends_mildly (mkTst false false false false true true RExit ([KFreeServer] ++ tl) c)).
  { intros c. eapply (ends_by _ TStop); [exact Logic.I|reflexivity|]. apply S6. }
  assert (S4x : forall c, ends_mildly (mkTst false false true false true true RExit ([KFreeThread; KFreeServer] ++ tl) c)).
  { intros c. eapply (ends_by _ TStop); [reflexivity|reflexivity|]. apply S5. }
  assert (NS : forall (p : rpc) pr c, match pr with KNull :: _ => False | _ => True end ->
     forall a b d, mild (mkTst false a b d true true p pr c) (TRecv OFail)).
  { intros p pr c H a b d. split; [exact H|]. intros _. discriminate. }
  assert (S4 : forall p c, waits p -> ends_mildly (mkTst false false true false true true p ([KFreeThread; KFreeServer] ++ tl) c)).
  { intros p c [->|[->|[->| ->]]]; [| | |apply S4x]; (eapply (ends_by _ (TRecv OFail)); [apply NS; exact Logic.I|reflexivity|apply S4x]). }
  assert (S3 : forall p c, waits p -> ends_mildly (mkTst false false true true true true p ([KFlag; KFreeThread; KFreeServer] ++ tl) c)).
  { intros p c W. eapply (ends_by _ TStop); [exact Logic.I|reflexivity|]. apply S4. exact W. }
  assert (S2 : forall p c, p = RRecv \/ p = RExit -> ends_mildly (mkTst false true true true true true p ([KNull; KFlag; KFreeThread; KFreeServer] ++ tl) c)).
  { intros p c W. eapply (ends_by _ TStop); [exact Logic.I|reflexivity|]. apply S3. unfold waits. tauto. }
  assert (S1 : forall p c, p = RRecv \/ p = RExit -> ends_mildly (mkTst true true true true true true p (stop_prog ++ tl) c)).
  { intros p c W. eapply (ends_by _ TStop); [exact W|reflexivity|]. apply S2. exact W. }
  assert (MR : forall p c, mild (mkTst true true true true true true p (stop_prog ++ tl) c) (TRecv OFail)).
  { intros p c. split; [exact Logic.I|]. intros _. discriminate. }
  destruct I as [p c H|p c H|p c H|p c H|c|c|c]; auto.
  - assert (B1 : forall c, ends_mildly (mkTst true true true true true true (RId true) (stop_prog ++ tl) c)).
    { intros c'. eapply (ends_by _ (TRecv OFail)); [apply MR|reflexivity|]. apply S1. auto. }
    assert (B2 : forall c, ends_mildly (mkTst true true true true true true RLoad (stop_prog ++ tl) c)).
    { intros c'. eapply (ends_by _ (TRecv OFail)); [apply MR|reflexivity|]. apply B1. }
    assert (B3 : forall c, ends_mildly (mkTst true true true true true true RLoop (stop_prog ++ tl) c)).
    { intros c'. eapply (ends_by _ (TRecv OFail)); [apply MR|reflexivity|]. apply B2. }
    assert (B4 : forall c, ends_mildly (mkTst true true true true true true RHandler (stop_prog ++ tl) c)).
    { intros c'. eapply (ends_by _ (TRecv OFail)); [apply MR|reflexivity|]. apply B3. }
    assert (B5 : forall c, ends_mildly (mkTst true true true true true true RPerform (stop_prog ++ tl) c)).
    { intros c'. eapply (ends_by _ (TRecv OFail)); [apply MR|reflexivity|]. apply B4. }
    assert (B6 : forall d c, ends_mildly (mkTst true true true true true true (RBoundId d) (stop_prog ++ tl) c)).
    { intros d c'. eapply (ends_by _ (TRecv OFail)); [apply MR|reflexivity|]. destruct d; [apply B5|apply B3]. }
    assert (B7 : forall d c, ends_mildly (mkTst true true true true true true (RBound d) (stop_prog ++ tl) c)).
    { intros d c'. eapply (ends_by _ (TRecv OFail)); [apply MR|reflexivity|]. apply B6. }
    assert (B8 : forall d c, ends_mildly (mkTst true true true true true true (RRun d) (stop_prog ++ tl) c)).
    { intros d c'. eapply (ends_by _ (TRecv OFail)); [apply MR|reflexivity|]. apply B7. }
    destruct p as [| | |[|]| | |d|d|d| | |]; auto; try congruence.
    + eapply (ends_by _ (TRecv OFail)); [apply MR|reflexivity|]. apply B3.
    + eapply (ends_by _ (TRecv OFail)); [apply MR|reflexivity|]. apply B8.
  - apply ends_here. reflexivity.
Qed.

(* after the flag is down at most one more handler call begins *)
Definition pending (p : rpc) : nat := match p with RBound true | RBoundId true | RPerform => 1 | _ => 0 end.
Lemma flag_step : forall s t s', t_run s = false -> turn_step s t = Ok s' ->
  t_run s' = false /\ t_calls s' + pending (t_rpc s') <= t_calls s + pending (t_rpc s).
Proof.
  intros s t s' R E. destruct t as [|o]; cbn [turn_step] in E.
  - injection E as <-. unfold stop_step. destruct (t_prog s) as [|k r]; [auto|]. destruct k; cbn; rewrite ?R; auto.
  - unfold recv_step, use, with_rpc in E. rewrite R in E.
    destruct (t_rpc s) as [| | |[|]| | |d|d|d| | |] eqn:Rp;
      repeat match type of E with (if ?b then _ else _) = _ => destruct b end; try discriminate;
      injection E as <-; cbn [t_run t_calls t_rpc pending]; (split; [first [exact R|reflexivity]|]); try lia.
    all: try destruct d; try destruct o; try destruct (t_ptr s); cbn; rewrite ?Rp; cbn; try lia.
Qed.
Lemma flag_run : forall l s s', t_run s = false -> turns s l = Ok s' ->
  t_calls s' + pending (t_rpc s') <= t_calls s + pending (t_rpc s).
Proof.
  induction l as [|t l IH]; intros s s' R E; cbn [turns] in E; [injection E as <-; lia|].
  destruct (turn_step s t) as [s1|] eqn:E1; [cbn [bind] in E|discriminate].
  destruct (flag_step _ _ _ R E1) as [R1 L1]. specialize (IH _ _ R1 E). lia.
Qed.
