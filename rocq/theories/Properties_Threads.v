(* C78: a thread that was started runs until it is stopped, once, and not after. *)
From Coq Require Import List Bool Arith Lia.
From Verif Require Import CSem M_Threads Spec_Threads P_Threads.
Import ListNotations.

(* The property, in full: for every program that uses no deleted thread, at every point of every schedule, a thread runs one
   instance of its action from a successful start until it is stopped and none at any other time, uecho_thread_isrunning
   tells which, and no freed memory or identity of an ended thread is used.

   Proved for programs and schedules within the rules of Spec_Threads; the theorems named _refuted below show that each rule
   is needed. *)
Theorem C78_threads_partial : forall evs s answers,
  r_run evs r_empty = Some (s, answers) ->
  exists w, erun evs empty = Ok (w, answers) /\ forall t, active t w = expected t s.
Proof.
  intros evs s answers H. destruct (erun_ok _ _ _ _ _ H inv_empty) as (w & E & I).
  exists w. split; [exact E|]. intros t. apply inv_active. exact I.
Qed.
Print Assumptions C78_threads_partial.

(* two threads; the first is stopped, restarted and deleted while the second works on; a start that fails *)
Definition twice (i : nat) : list (nat * bool) := [(i, true); (i, true)].
Definition story : list event :=
  [ENew true; ENew true; ENew false; EAction (Some 0) true; EAction (Some 1) true; ERunning (Some 0);
   EStart (Some 0) AnsCreate; ERunning (Some 0); EListStart [(0, AnsOk); (1, AnsOk)];
   EStep 0 true; EStep 1 true; EStep 0 true; EStep 1 true; EStep 0 true;
   ERunning (Some 0);
   EStop (Some 0) [(1, true)] [(0, true); (1, true); (0, true); (1, true)];
   ERunning (Some 0); ERunning (Some 1); EStep 1 true; EStop (Some 0) [] [];
   ERestart (Some 0) [] [] AnsOk; EStep 2 true; ERestart (Some 0) [] (twice 2) AnsOk;
   EStep 3 true; EStep 3 true; EStep 3 true; EDelete (Some 0) [] (twice 3); ERunning (Some 1);
   EListStop [(1, ([], twice 1))]; EDelete None [] []; EStart None AnsOk].
Example C78_threads_example : exists w,
  r_run story r_empty =
    Some (([Gone; Idle true], 4),
          [SThread (Some 0); SThread (Some 1); SThread None; SNothing; SNothing; SBool false;
           SBool false; SBool false; SBool true; SNothing; SNothing; SNothing; SNothing; SNothing;
           SBool true; SBool true; SBool false; SBool true; SNothing; SBool true; SBool true; SNothing; SBool true;
           SNothing; SNothing; SNothing; SBool true; SBool true; SBool true; SBool false; SBool false]) /\
  (exists l, erun story empty = Ok (w, l)) /\ worked 0 w = 1 /\ worked 1 w = 3 /\ active 1 w = 0.
Proof.
  exists (match erun story empty with Ok (w, _) => w | Undef _ => empty end).
  split; [vm_compute; reflexivity|]. split.
  - exists (match erun story empty with Ok (_, l) => l | Undef _ => [] end). vm_compute. reflexivity.
  - repeat split; vm_compute; reflexivity.
Qed.

(* Without any rule but one: once the flag is cleared, and as long as the thread is not started again, every instance of it
   does at most the one piece of work at hand, and has ended after its second step; whatever the program and the other
   instances do, as long as nothing undefined happens. *)
Definition leaves (t : nat) (e : event) : bool :=
  match e with
  | EStart (Some u) _ | ERestart (Some u) _ _ _ => negb (u =? t)
  | EListStart l => forallb (fun x => negb (fst x =? t)) l
  | _ => true
  end.
Definition own_steps (i : nat) (evs : list event) : nat :=
  length (filter (fun e => match e with EStep j _ => j =? i | _ => false end) evs).

Definition pieces (y : inst) : nat := in_work y + match in_pc y with IWork => 1 | _ => 0 end.
Definition left (y : inst) : nat := match in_pc y with IBegin => 2 | IWork => 2 | IAsk => 1 | IEnd => 0 end.
Definition quiet (t i m r : nat) (w : world) : Prop :=
  (exists o, nth_error (w_thr w) t = Some o /\ th_flag o = false) /\
  (exists y, nth_error (w_inst w) i = Some y /\ in_thr y = t /\ pieces y <= m /\ left y <= r).

Lemma quiet_istep t i m r w j b w' : quiet t i m r w -> istep j b w = Ok w' ->
  quiet t i m (if j =? i then r - 1 else r) w'.
Proof.
  intros ((o & O1 & O2) & y & Y1 & Y2 & Y3 & Y4) H. unfold istep in H.
  destruct (nth_error (w_inst w) j) as [x|] eqn:Ej.
  2:{ injection H as <-. destruct (Nat.eqb_spec j i) as [->|N]; [congruence|].
      split; [eauto|]. exists y. auto. }
  assert (forall pc n, Ok (set_inst j (mkInst (in_thr x) pc n) w) = Ok w' ->
            (j = i -> n + match pc with IWork => 1 | _ => 0 end <= pieces y /\ left (mkInst t pc n) <= r - 1) ->
            quiet t i m (if j =? i then r - 1 else r) w') as G.
  { intros pc n Hw' Hn. injection Hw' as <-. split; [cbn; eauto|]. cbn [set_inst w_inst].
    destruct (Nat.eqb_spec j i) as [->|N].
    - assert (x = y) as -> by congruence. destruct (Hn eq_refl) as (N1 & N2). rewrite Y2.
      exists (mkInst t pc n). rewrite upd_same by (eapply nth_lt; eauto).
      split; [reflexivity|]. split; [reflexivity|]. split; [|exact N2]. unfold pieces at 1. cbn [in_work in_pc]. lia.
    - exists y. rewrite upd_other; auto. }
  assert (j = i -> x = y) as Xy by (intros ->; congruence).
  unfold pieces, left in G, Y4, Y3. cbn [in_pc] in G. unfold isrunnable, thr_at in H.
  destruct (in_pc x) eqn:Ep.
  - destruct (nth_error (w_thr w) (in_thr x)) as [q|] eqn:Eq; [|discriminate].
    destruct (th_live q); [|discriminate]. eapply G; [exact H|]. intros E. specialize (Xy E). subst x.
    rewrite Ep in *. destruct (th_action q); lia.
  - destruct (nth_error (w_thr w) (in_thr x)) as [q|] eqn:Eq; [|discriminate].
    destruct (th_live q); [|discriminate]. eapply G; [exact H|]. intros E. specialize (Xy E). subst x.
    rewrite Ep in *. rewrite Y2, O1 in Eq. injection Eq as <-. rewrite O2. lia.
  - eapply G; [exact H|]. intros E. specialize (Xy E). subst x. rewrite Ep in *. destruct b; lia.
  - injection H as <-. split; [eauto|]. exists y. unfold pieces, left.
    destruct (Nat.eqb_spec j i) as [->|N]; [|auto].
    assert (x = y) as -> by congruence. rewrite Ep in *. repeat split; auto. lia.
Qed.
Lemma quiet_weak t i m r r' w : r <= r' -> quiet t i m r w -> quiet t i m r' w.
Proof. intros L (A & y & B & C & D & E). split; auto. exists y. repeat split; auto. lia. Qed.
Lemma quiet_isteps t i m r l : forall w w', quiet t i m r w -> isteps l w = Ok w' -> quiet t i m r w'.
Proof.
  induction l as [|(j, b) l IH]; intros w w' Q H; cbn [isteps] in H.
  - injection H as <-. exact Q.
  - destruct (istep j b w) as [w1|] eqn:E; [|discriminate].
    eapply IH; [|exact H]. eapply quiet_weak; [|eapply quiet_istep; eauto]. destruct (j =? i); lia.
Qed.
Lemma quiet_thr t i m r w u o : quiet t i m r w -> (u = t -> th_flag o = false) -> quiet t i m r (set_thr u o w).
Proof.
  intros ((q & A & B) & Y) H. split; [|exact Y]. cbn [set_thr w_thr].
  destruct (Nat.eq_dec u t) as [->|N].
  - exists o. rewrite upd_same by (eapply nth_lt; eauto). auto.
  - exists q. rewrite upd_other; auto.
Qed.
Lemma quiet_stop t i m r h z s w w' b : quiet t i m r w -> stop h z s w = Ok (w', b) -> quiet t i m r w'.
Proof.
  intros Q H. unfold stop in H. destruct h as [u|]; [|injection H as <- <-; exact Q].
  destruct (thr_at u w) as [o|]; [|discriminate]. destruct (th_flag o); [|injection H as <- <-; exact Q].
  destruct (isteps z _) as [w1|] eqn:E1; [|discriminate]. destruct (kill (th_id o) w1); [|discriminate].
  destruct (isteps s w1) as [w2|] eqn:E2; [|discriminate]. injection H as <- <-.
  eapply quiet_isteps; [|exact E2]. eapply quiet_isteps; [|exact E1]. apply quiet_thr; auto.
Qed.
Lemma quiet_start t i m r u a w w' b : u <> t -> quiet t i m r w -> start (Some u) a w = Ok (w', b) -> quiet t i m r w'.
Proof.
  intros N Q H. unfold start in H. destruct (thr_at u w) as [o|]; [|discriminate].
  destruct a; injection H as <- <-; try (apply quiet_thr; auto).
  destruct Q as ((q & A & B) & y & Y1 & Y2). split.
  - exists q. cbn [w_thr]. rewrite upd_other; auto.
  - exists y. cbn [w_inst]. rewrite nth_error_app1 by (eapply nth_lt; eauto). auto.
Qed.
Lemma quiet_estep t i m r e w w' v : leaves t e = true -> quiet t i m r w -> estep e w = Ok (w', v) ->
  quiet t i m (match e with EStep j _ => if j =? i then r - 1 else r | _ => r end) w'.
Proof.
  intros L Q H. destruct e; cbn [estep leaves] in *.
  - unfold thread_new in H. destruct mem; injection H as <- <-; [|exact Q].
    destruct Q as ((q & A & B) & Y). split; [|exact Y]. exists q. cbn [w_thr].
    rewrite nth_error_app1 by (eapply nth_lt; eauto). auto.
  - unfold setaction in H. destruct h as [u|]; [|injection H as <- <-; exact Q].
    unfold thr_at in H. destruct (nth_error (w_thr w) u) as [o|] eqn:Eu; [|discriminate].
    destruct (th_live o); [|discriminate]. injection H as <- <-. apply quiet_thr; auto.
    intros ->. destruct Q as ((q & A & B) & _). cbn. congruence.
  - destruct h as [u|]; [|injection H as <- <-; exact Q].
    destruct (start (Some u) a w) as [(w1, b1)|] eqn:E; [|discriminate]. injection H as <- <-.
    apply negb_true_iff, Nat.eqb_neq in L. eapply quiet_start; eauto.
  - destruct (stop h z s w) as [(w1, b1)|] eqn:E; [|discriminate]. injection H as <- <-. eapply quiet_stop; eauto.
  - unfold restart in H. destruct (stop h z s w) as [(w1, b1)|] eqn:E; [|discriminate].
    pose proof (quiet_stop _ _ _ _ _ _ _ _ _ _ Q E) as Q1.
    destruct h as [u|]; [|injection H as <- <-; exact Q1].
    destruct (start (Some u) a w1) as [(w2, b2)|] eqn:E2; [|discriminate]. injection H as <- <-.
    apply negb_true_iff, Nat.eqb_neq in L. eapply quiet_start; eauto.
  - unfold delete in H. destruct h as [u|]; [|injection H as <- <-; exact Q].
    destruct (stop (Some u) z s w) as [(w1, b1)|] eqn:E; [|discriminate].
    pose proof (quiet_stop _ _ _ _ _ _ _ _ _ _ Q E) as Q1.
    unfold thr_at in H. destruct (nth_error (w_thr w1) u) as [o|] eqn:Eu; [|discriminate].
    destruct (th_live o); [|discriminate]. injection H as <- <-. apply quiet_thr; auto.
    intros ->. destruct Q1 as ((q & A & B) & _). cbn. congruence.
  - destruct (isrunning h w); [|discriminate]. injection H as <- <-. exact Q.
  - assert (forall l w w' b, forallb (fun x => negb (fst x =? t)) l = true -> quiet t i m r w ->
              list_start l w = Ok (w', b) -> quiet t i m r w') as G.
    { clear. induction l as [|(u, a) l IH]; intros w w' b L Q H; cbn [list_start] in H; [injection H as <- <-; exact Q|].
      cbn [forallb fst] in L. apply andb_true_iff in L. destruct L as (L1 & L2).
      destruct (start (Some u) a w) as [(w1, b1)|] eqn:E; [|discriminate].
      apply negb_true_iff, Nat.eqb_neq in L1. eapply IH; [exact L2| |exact H]. eapply quiet_start; eauto. }
    destruct (list_start l w) as [(w1, b1)|] eqn:E; [|discriminate]. injection H as <- <-. eapply G; eauto.
  - assert (forall l w w' b, quiet t i m r w -> list_stop l w = Ok (w', b) -> quiet t i m r w') as G.
    { clear. induction l as [|(u, (z, s)) l IH]; intros w w' b Q H; cbn [list_stop] in H; [injection H as <- <-; exact Q|].
      destruct (stop (Some u) z s w) as [(w1, b1)|] eqn:E; [|discriminate].
      eapply IH; [|exact H]. eapply quiet_stop; eauto. }
    destruct (list_stop l w) as [(w1, b1)|] eqn:E; [|discriminate]. injection H as <- <-. eapply G; eauto.
  - destruct (istep i0 more w) as [w1|] eqn:E; [|discriminate]. injection H as <- <-. eapply quiet_istep; eauto.
Qed.
Lemma quiet_erun t i m evs : forall r w w' l, forallb (leaves t) evs = true -> quiet t i m r w ->
  erun evs w = Ok (w', l) -> quiet t i m (r - own_steps i evs) w'.
Proof.
  induction evs as [|e evs IH]; intros r w w' l L Q H; cbn [erun forallb] in *.
  - injection H as <- <-. eapply quiet_weak; [|exact Q]. cbn. lia.
  - apply andb_true_iff in L. destruct L as (L1 & L2).
    destruct (estep e w) as [(w1, x)|] eqn:E; [|discriminate].
    destruct (erun evs w1) as [(w2, xs)|] eqn:E2; [|discriminate]. injection H as <- <-.
    pose proof (quiet_estep _ _ _ _ _ _ _ _ L1 Q E) as Q1. pose proof (IH _ _ _ _ L2 Q1 E2) as Q2.
    eapply quiet_weak; [|exact Q2]. unfold own_steps. destruct e; cbn [filter]; try lia.
    destruct (i0 =? i); cbn [length]; lia.
Qed.

Theorem C78_stops : forall t i y o evs w w' l,
  nth_error (w_thr w) t = Some o -> th_flag o = false ->
  nth_error (w_inst w) i = Some y -> in_thr y = t ->
  forallb (leaves t) evs = true -> erun evs w = Ok (w', l) ->
  worked i w' <= worked i w + 1 /\
  (2 <= own_steps i evs -> exists y', nth_error (w_inst w') i = Some y' /\ in_pc y' = IEnd).
Proof.
  intros t i y o evs w w' l O1 O2 Y1 Y2 L H.
  assert (quiet t i (in_work y + 1) 2 w) as Q.
  { split; [eauto|]. exists y. repeat split; auto; unfold pieces, left; destruct (in_pc y); lia. }
  pose proof (quiet_erun _ _ _ _ _ _ _ _ L Q H) as (_ & y' & Z1 & Z2 & Z3 & Z4).
  assert (worked i w = in_work y) as -> by (unfold worked; rewrite Y1; reflexivity).
  assert (worked i w' = in_work y') as -> by (unfold worked; rewrite Z1; reflexivity).
  unfold pieces in Z3. unfold left in Z4.
  split; [lia|]. intros T. exists y'. split; auto. destruct (in_pc y'); auto; lia.
Qed.
Print Assumptions C78_stops.

(* a slow instance: the stop returns while it still works; a second thread is started and deleted meanwhile *)
Definition slow : list event :=
  [ENew true; ENew true; EAction (Some 0) true; EAction (Some 1) true; EStart (Some 0) AnsOk; EStep 0 true; EStep 0 true;
   EStop (Some 0) [] []].
Definition later : list event :=
  [EStart (Some 1) AnsOk; EStep 1 true; EStep 0 true; EDelete (Some 1) [] (twice 1); EStep 0 true; EStep 0 true].
Example C78_stops_example : exists w w' l,
  (exists l0, erun slow empty = Ok (w, l0)) /\
  nth_error (w_thr w) 0 = Some (mkThr true false (Some 0) true) /\ nth_error (w_inst w) 0 = Some (mkInst 0 IWork 0) /\
  forallb (leaves 0) later = true /\ erun later w = Ok (w', l) /\ own_steps 0 later = 3 /\ worked 0 w' = 1.
Proof.
  exists (match erun slow empty with Ok (w, _) => w | Undef _ => empty end).
  exists (match erun (slow ++ later) empty with Ok (w, _) => w | Undef _ => empty end).
  exists [SBool true; SNothing; SNothing; SBool true; SNothing; SNothing].
  split; [|repeat split; vm_compute; reflexivity].
  exists (match erun slow empty with Ok (_, l) => l | Undef _ => [] end). vm_compute. reflexivity.
Qed.

(* Each rule is needed. *)
Definition made : list event := [ENew true; EAction (Some 0) true].
Definition outcome (evs : list event) : res (nat * list seen) :=
  match erun evs empty with Ok (w, l) => Ok (active 0 w, l) | Undef u => Undef u end.

(* Starting a thread that runs starts its action a second time: two instances run, and nothing says so. *)
Theorem C78_start_twice_refuted : exists evs,
  evs = made ++ [EStart (Some 0) AnsOk; EStart (Some 0) AnsOk; EStep 0 true; EStep 1 true] /\
  outcome evs = Ok (2, [SThread (Some 0); SNothing; SBool true; SBool true; SNothing; SNothing]).
Proof. eexists. split; [reflexivity|]. vm_compute. reflexivity. Qed.
Print Assumptions C78_start_twice_refuted.

Lemma erun_app a b : forall w w1 xs w2 ys, erun a w = Ok (w1, xs) -> erun b w1 = Ok (w2, ys) ->
  erun (a ++ b) w = Ok (w2, xs ++ ys).
Proof.
  induction a as [|e a IH]; intros w w1 xs w2 ys H1 H2; cbn [erun app] in *.
  - injection H1 as <- <-. exact H2.
  - destruct (estep e w) as [(w', x)|]; [|discriminate].
    destruct (erun a w') as [(w'', xs')|] eqn:E; [|discriminate]. injection H1 as -> <-.
    rewrite (IH _ _ _ _ _ E H2). reflexivity.
Qed.

(* A restart while the action is busy for longer than the sleep leaves the old instance running beside the new one: it
   finds the flag set again, and goes on for as long as one likes. *)
Theorem C78_restart_refuted : forall n, exists w l,
  erun (made ++ [EStart (Some 0) AnsOk; EStep 0 true; EStep 0 true; ERestart (Some 0) [] [] AnsOk; EStep 1 true] ++
        concat (repeat [EStep 0 true; EStep 0 true; EStep 1 true; EStep 1 true] n)) empty = Ok (w, l) /\
  active 0 w = 2 /\ worked 0 w = n /\ worked 1 w = n.
Proof.
  intros n.
  assert (forall k a b, exists l, erun (concat (repeat [EStep 0 true; EStep 0 true; EStep 1 true; EStep 1 true] k))
            (mkWorld [mkThr true true (Some 1) true] [mkInst 0 IWork a; mkInst 0 IAsk b]) =
          Ok (mkWorld [mkThr true true (Some 1) true] [mkInst 0 IWork (a + k); mkInst 0 IAsk (b + k)], l)) as G.
  { induction k as [|k IH]; intros a b.
    - exists []. cbn. rewrite !Nat.add_0_r. reflexivity.
    - destruct (IH (S a) (S b)) as (l & E). exists ([SNothing; SNothing; SNothing; SNothing] ++ l).
      replace (a + S k) with (S a + k) by lia. replace (b + S k) with (S b + k) by lia.
      cbn [repeat concat]. eapply erun_app; [reflexivity|exact E]. }
  destruct (G n 0 0) as (l & E).
  exists (mkWorld [mkThr true true (Some 1) true] [mkInst 0 IWork n; mkInst 0 IAsk n]).
  exists ([SThread (Some 0); SNothing; SBool true; SNothing; SNothing; SBool true; SNothing] ++ l).
  split; [|repeat split; reflexivity].
  rewrite app_assoc. eapply erun_app; [reflexivity|exact E].
Qed.
Print Assumptions C78_restart_refuted.

(* An action that returns by itself leaves a thread that is said to run, and stopping it uses the identity of a thread that is
   gone. *)
Theorem C78_returned_refuted : exists evs,
  evs = made ++ [EStart (Some 0) AnsOk; EStep 0 true; EStep 0 true; EStep 0 false; ERunning (Some 0)] /\
  outcome evs = Ok (0, [SThread (Some 0); SNothing; SBool true; SNothing; SNothing; SNothing; SBool true]) /\
  outcome (evs ++ [EStop (Some 0) [] []]) = Undef UB_free /\
  outcome (evs ++ [EDelete (Some 0) [] []]) = Undef UB_free.
Proof. eexists. split; [reflexivity|]. repeat split; vm_compute; reflexivity. Qed.
Print Assumptions C78_returned_refuted.

(* So does stopping a thread whose action ends the moment the flag is cleared, before pthread_kill: the better the action obeys,
   the sooner this happens. *)
Theorem C78_stop_race_refuted : exists evs,
  evs = made ++ [EStart (Some 0) AnsOk; EStep 0 true; EStop (Some 0) [(0, true)] []] /\ outcome evs = Undef UB_free.
Proof. eexists. split; [reflexivity|]. vm_compute. reflexivity. Qed.
Print Assumptions C78_stop_race_refuted.

(* Deleting a thread whose action is busy for longer than the sleep frees the object the action asks afterwards. *)
Theorem C78_delete_refuted : exists evs,
  evs = made ++ [EStart (Some 0) AnsOk; EStep 0 true; EStep 0 true; EDelete (Some 0) [] []] /\
  outcome evs = Ok (1, [SThread (Some 0); SNothing; SBool true; SNothing; SNothing; SBool true]) /\
  outcome (evs ++ [EStep 0 true; EStep 0 true]) = Undef UB_free.
Proof. eexists. split; [reflexivity|]. repeat split; vm_compute; reflexivity. Qed.
Print Assumptions C78_delete_refuted.

(* A thread without an action is said to run. *)
Theorem C78_no_action_refuted : exists evs,
  evs = [ENew true; EStart (Some 0) AnsOk; EStep 0 true; ERunning (Some 0)] /\
  outcome evs = Ok (0, [SThread (Some 0); SBool true; SNothing; SBool true]).
Proof. eexists. split; [reflexivity|]. vm_compute. reflexivity. Qed.
Print Assumptions C78_no_action_refuted.

(* Starting a list of threads answers true although the system made none of them. *)
Theorem C78_list_start_refuted : exists evs,
  evs = made ++ [EListStart [(0, AnsCreate)]; ERunning (Some 0)] /\
  outcome evs = Ok (0, [SThread (Some 0); SNothing; SBool true; SBool false]).
Proof. eexists. split; [reflexivity|]. vm_compute. reflexivity. Qed.
Print Assumptions C78_list_start_refuted.
