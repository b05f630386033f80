(* C55: stopping a server while it receives. *)
From Coq Require Import ZArith List Bool Lia.
From Verif Require Import CSem P_Base M_ServerThread Spec_ServerThread P_ServerThread.
Import ListNotations.
Open Scope nat_scope.

(* The full statement: on every schedule no thread uses a released object, and when the stop has
   returned no handler runs or will run.  It is false (below).  It holds on all schedules whose turns are
   mild: for stopping a node and for stopping and then deleting it. *)
Theorem C55_safe_partial : forall prog l, prog = stop_prog \/ prog = stop_delete_prog ->
  mild_turns (serving_state prog) l ->
  exists s, turns (serving_state prog) l = Ok s
    /\ (returned s -> t_rpc s = RExit /\ forall l', turns s l' = Ok s).
Proof.
  intros prog l P M. assert (X : exists tl, tail_ok tl /\ prog = stop_prog ++ tl).
  { destruct P as [->| ->]; [exists []|exists [KFreeNode]]; (split; [unfold tail_ok; auto|reflexivity]). }
  destruct X as (tl & T & ->). unfold serving_state in *.
  destruct (mild_run tl l _ T (m_up tl RStart 0 ltac:(discriminate)) M) as (s & E & I). exists s. split; [exact E|].
  intros R. pose proof (minv_returned _ _ I R) as X. split; [exact X|]. intros l'. apply exit_stays; [exact X|exact R].
Qed.
Print Assumptions C55_safe_partial.

(* the stop can always come to its end that way: whatever mild turns were made, mild turns lead on
   to a state in which it has returned *)
Theorem C55_returns_partial : forall prog l s, prog = stop_prog \/ prog = stop_delete_prog ->
  mild_turns (serving_state prog) l -> turns (serving_state prog) l = Ok s ->
  exists l' e, mild_turns s l' /\ turns s l' = Ok e /\ returned e.
Proof.
  intros prog l s P M E. assert (X : exists tl, tail_ok tl /\ prog = stop_prog ++ tl).
  { destruct P as [->| ->]; [exists []|exists [KFreeNode]]; (split; [unfold tail_ok; auto|reflexivity]). }
  destruct X as (tl & T & ->). unfold serving_state in *.
  destruct (mild_run tl l _ T (m_up tl RStart 0 ltac:(discriminate)) M) as (s' & E' & I). rewrite E in E'. injection E' as <-.
  destruct (minv_ends tl s T I) as (l' & M' & e & E2 & R). eauto.
Qed.
Print Assumptions C55_returns_partial.

(* On every schedule, mild or not, as long as nothing undefined happens: once the thread is told to end, at
   most one more handler call begins. *)
Theorem C55_at_most_one : forall s l s', t_run s = false -> turns s l = Ok s' -> t_calls s' <= S (t_calls s).
Proof.
  intros s l s' R E. pose proof (flag_run _ _ _ R E) as H.
  assert (P : pending (t_rpc s) <= 1) by (destruct (t_rpc s) as [| | |[|]| | |[|]|[|]|[|]| | |]; cbn; lia). lia.
Qed.
Print Assumptions C55_at_most_one.

Definition rest (n : nat) : list turn := repeat (TRecv ODatagram) n.
Definition all_stop : list turn := repeat TStop 5.
(* one datagram is handled, then the stop runs while the thread waits *)
Definition good_schedule : list turn := rest 14 ++ [TStop; TStop; TRecv OZero; TStop; TRecv OZero; TStop; TStop].
Example C55_example : mild_turns (serving_state stop_prog) good_schedule
  /\ exists s, turns (serving_state stop_prog) good_schedule = Ok s /\ returned s /\ t_calls s = 1.
Proof.
  split; [|eexists; split; [reflexivity|split; reflexivity]].
  unfold good_schedule. cbn [rest repeat app].
  repeat (cbn [mild_turns]; (split; [try exact Logic.I; try (left; reflexivity); try reflexivity; try (split; [exact Logic.I|intros; discriminate])|
    intros ? E; cbn in E; injection E as <-])); exact Logic.I.
Qed.

(* the socket is released between the load of its pointer and its use *)
Theorem C55_socket_refuted : exists l, turns (serving_state stop_prog) l = Undef UB_free /\ length l = 5.
Proof. exists (rest 3 ++ [TStop; TRecv OZero]). split; reflexivity. Qed.
Print Assumptions C55_socket_refuted.

(* a datagram that arrives as the socket is released: its port is read from the released socket *)
Theorem C55_datagram_refuted : exists l s, turns (serving_state stop_prog) l = Ok s /\ t_rpc s = RRecv
  /\ turns s [TStop; TStop; TRecv ODatagram; TRecv ODatagram] = Undef UB_free.
Proof. exists (rest 4). eexists. split; [reflexivity|]. split; reflexivity. Qed.
Print Assumptions C55_datagram_refuted.

(* a handler that takes longer than the stop waits: the stop has returned, the handler still runs, and
   the thread goes on with a released thread object *)
Theorem C55_slow_handler_refuted : exists l s, turns (serving_state stop_prog) l = Ok s /\ returned s /\ t_rpc s = RHandler
  /\ turns s (rest 2) = Undef UB_free.
Proof. exists (rest 10 ++ all_stop). eexists. split; [reflexivity|]. split; [reflexivity|]. split; reflexivity. Qed.
Print Assumptions C55_slow_handler_refuted.

(* deleting a running node: its objects are released before the servers are stopped; even on a mild schedule a
   handler meets released objects *)
Theorem C55_delete_refuted : exists l, mild_turns (serving_state delete_prog) l /\ turns (serving_state delete_prog) l = Undef UB_free.
Proof.
  exists (TStop :: rest 11). split; [|reflexivity]. cbn [rest repeat].
  repeat (cbn [mild_turns]; (split; [try exact Logic.I; try (split; [exact Logic.I|intros; discriminate])|
    intros ? E; cbn in E; first [discriminate E|injection E as <-]])); exact Logic.I.
Qed.
Print Assumptions C55_delete_refuted.
