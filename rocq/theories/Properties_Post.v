(* C37: posting a request and waiting for its response, with every interleaving of calling threads
   and receiving threads.  C52: how long the call waits. *)
From Coq Require Import String ZArith List Bool Lia ZifyBool ZifyNat.
From Verif Require Import CSem M_Const M_Misc M_Property M_Message M_Object M_Node Spec_Frame Spec_Message
  P_Base P_Misc P_Message P_Encode P_MsgApi P_Node M_Post Spec_Post P_Post Properties_Node.
Import ListNotations.
Open Scope Z_scope.

(* the messages that exist at the beginning were made with the API *)
Definition messages (le : bool) (mem : Z -> option msg) : Prop := forall a m, mem a = Some m -> a_message le m.

(* ---------- C37: what is proved ---------- *)

(* The full statement -- a call that returns true has stored a copy of a message that was handled
   after the call and carries the request's TID, in every schedule -- is false
   (C37_true_refuted, C37_stale_refuted).  It holds in the schedules without spurious wakeups in
   which no call switches the two pointers while a receiver is between its check and its signal. *)
Theorem C37_true_partial : forall le n k mem req sched s, messages le mem ->
  calm_run le (post_init n k mem req) sched s -> forallb (fun l => negb (spurious l)) sched = true ->
  forall A i r B, ps_log s = A ++ EReturn i true r :: B -> answered i B r.
Proof.
  intros le n k mem req sched s Hm R Hs. pose proof (init_inv True le n k mem req Hm) as I.
  apply (pi_returns True s); [|exact Logic.I]. apply (calm_run_inv True le _ _ _ R); [intros _; exact Hs|exact I].
Qed.
Print Assumptions C37_true_partial.

(* In such schedules, spurious wakeups included, nothing undefined happens; the next step is
   always defined. *)
Theorem C37_safe_partial : forall le n k mem req sched s l, messages le mem ->
  calm_run le (post_init n k mem req) sched s -> calm le s l -> exists s', pstep le s l = Ok s'.
Proof.
  intros le n k mem req sched s l Hm R Hc.
  assert (I : pinv False s) by (apply (calm_run_inv False le _ _ _ R); [intros []|apply (init_inv False le); exact Hm]).
  destruct (step_inv False le s l I Hc (fun f : False => match f with end)) as (s' & E & _). exists s'. exact E.
Qed.
Print Assumptions C37_safe_partial.

(* and no call is ever stuck: from every state reached, thread [i] can return *)
Theorem C37_returns_partial : forall le n k mem req sched s i p, messages le mem ->
  calm_run le (post_init n k mem req) sched s -> nth_error (ps_posters s) i = Some p ->
  exists sched' s' p', calm_run le s sched' s' /\ nth_error (ps_posters s') i = Some p' /\ p_pc p' = PIdle.
Proof.
  intros le n k mem req sched s i p Hm R Ei.
  assert (I : pinv False s) by (apply (calm_run_inv False le _ _ _ R); [intros []|apply (init_inv False le); exact Hm]).
  apply (can_finish le s i p I); [|exact Ei]. apply (run_tinv le sched (post_init n k mem req)); [apply init_tinv|apply calm_prun; exact R].
Qed.
Print Assumptions C37_returns_partial.

(* A response that gets to the listener while the call waits, and is handled before the time is
   over, is stored and makes the call return true. *)
Theorem C37_in_time_partial : forall le n k mem req sched s i p j m q, messages le mem ->
  calm_run le (post_init n k mem req) sched s ->
  nth_error (ps_posters s) i = Some p -> p_pc p = PWaiting -> nth_error (ps_receivers s) j = Some (mkReceiver RArrived m) ->
  ps_mem s (p_req p) = Some q -> answers q m ->
  exists s' rm, prun le s (repeat (LStep j) 8 ++ repeat (LPost i true) 3) = Ok s' /\ copied m rm /\
    ps_log s' = EReturn i true (Some rm) :: EWake i :: EHandle m :: ps_log s.
Proof.
  intros le n k mem req sched s i p j m q Hm R Ei Ep Ej Eq Ha.
  apply (in_time le s i p j m q); try assumption.
  - apply (calm_run_inv False le _ _ _ R); [intros []|apply (init_inv False le); exact Hm].
  - apply (run_tinv le sched (post_init n k mem req)); [apply init_tinv|apply calm_prun; exact R].
Qed.
Print Assumptions C37_in_time_partial.

(* In every schedule whatsoever: two calls never run between lock and unlock at the same time, *)
Theorem C37_one_at_a_time : forall le n k mem req sched s i p j q, prun le (post_init n k mem req) sched = Ok s ->
  nth_error (ps_posters s) i = Some p -> nth_error (ps_posters s) j = Some q ->
  inside (p_pc p) = true -> inside (p_pc q) = true -> i = j.
Proof.
  intros le n k mem req sched s i p j q E Ei Ej Hi Hj.
  assert (T : tinv s) by (apply (run_tinv le sched (post_init n k mem req)); [apply init_tinv|exact E]).
  apply (t_owner _ T i p Ei) in Hi. apply (t_owner _ T j q Ej) in Hj. congruence.
Qed.
Print Assumptions C37_one_at_a_time.

(* and when a receiver signals while a call waits, that call returns true. *)
Theorem C37_signalled : forall le n k mem req sched s i p j r sched' s' A b x C,
  prun le (post_init n k mem req) sched = Ok s ->
  nth_error (ps_posters s) i = Some p -> p_pc p = PWaiting -> nth_error (ps_receivers s) j = Some r -> r_pc r = RSignal ->
  prun le s (LStep j :: sched') = Ok s' ->
  ps_log s' = A ++ EReturn i b x :: C ++ ps_log s -> Forall (fun e => ~ ends i e) C -> b = true.
Proof.
  intros le n k mem req sched s i p j r sched' s' A b x C E Ei Ep Ej Er E' EL F.
  apply (woken_returns le s i p j r sched' s' A b x C); try assumption.
  apply (run_tinv le sched (post_init n k mem req)); [apply init_tinv|exact E].
Qed.
Print Assumptions C37_signalled.

(* ---------- examples and refutations ---------- *)

(* a Get request for property 0x80 of object 0x013001, in memory at 1 and 3, empty messages at 2 and 4 *)
Definition get_request : msg :=
  match uecho_message_setdestinationobjectcode 77825 (uecho_message_setesv 98 uecho_message_new) with
  | Ok m => match uecho_message_setproperty 128 [] m with Ok m' => m' | _ => m end | _ => uecho_message_new end.
Definition mem0 : Z -> option msg := fun a =>
  if (a =? 1) || (a =? 3) then Some get_request else if (a =? 2) || (a =? 4) then Some uecho_message_new else None.
Lemma mem0_ok : messages true mem0.
Proof.
  intros a m E. unfold mem0 in E.
  assert (X : a_message true get_request).
  { split; [|unfold in_memory; vm_compute; discriminate].
    assert (E1 : exists m1, uecho_message_setdestinationobjectcode 77825 (uecho_message_setesv 98 uecho_message_new) = Ok m1) by (eexists; vm_compute; reflexivity).
    destruct E1 as (m1 & E1). unfold get_request. rewrite E1.
    assert (A1 : api_msg true m1) by (apply (am_setdst true _ 77825 _ (am_setesv true _ 98 (am_new true) ltac:(unfold is_byte; lia)) E1)).
    destruct (uecho_message_setproperty 128 [] m1) as [m2|] eqn:E2; [|exact A1].
    apply (am_setprop true m1 128 [] m2 A1); [unfold is_byte; lia|constructor|exact E2]. }
  destruct ((a =? 1) || (a =? 3)); [injection E as <-; exact X|].
  destruct ((a =? 2) || (a =? 4)); [injection E as <-|discriminate]. split; [apply am_new|unfold in_memory; vm_compute; discriminate].
Qed.

(* responses from object 0x013001: Get_Res (0x72) with property 0x80, and SetGet_Res (0x7E) with
   one property set and one read; [t] is the TID *)
Definition got80 (t : Z) : list Z := [16;129; t;0; 1;48;1; 5;255;1; 114; 1; 128;1;48].
Definition setgot (t : Z) : list Z := [16;129; t;0; 1;48;1; 5;255;1; 126; 1; 128;0; 1; 129;1;8].
Definition received (d : list Z) : msg :=
  match uecho_message_parsepacket uecho_message_new d None (Some "10.0.0.2"%string) with Ok (_, m) => m | _ => uecho_message_new end.
Lemma received_ok : forall d, forallb (fun b => (0 <=? b) && (b <? 256)) d = true -> Z.of_nat (length d) < 1000 ->
  in_memory (received d) -> a_message true (received d).
Proof.
  intros d Hd Hl Hm. split; [|exact Hm]. unfold received.
  destruct (uecho_message_parsepacket uecho_message_new d None (Some "10.0.0.2"%string)) as [[r m]|] eqn:E; [|apply am_new].
  eapply (am_packet true _ d None _ r m (am_new true)); [|exact E]. split.
  - apply Forall_forall. intros x I. rewrite forallb_forall in Hd. apply Hd in I. unfold is_byte. lia.
  - unfold len, OBJ_MAX. lia.
Qed.

(* a schedule is checked step by step *)
Definition okmsg (le : bool) (l : label) : Prop :=
  match l with LReceive m | LNew _ m => a_message le m | _ => True end.
Definition unusedb (s : pstate) (a : Z) : bool :=
  negb (a =? 0) && forallb (fun p => match p_pc p with PIdle => true | _ => negb (a =? p_req p) && negb (a =? p_res p) end) (ps_posters s).
Definition argsb (s : pstate) (q r : Z) : bool :=
  negb (q =? r) && negb (q =? 0) && negb (r =? 0) && match ps_mem s q with Some _ => true | None => false end
  && match ps_mem s r with Some _ => true | None => false end.
Definition quietb (s : pstate) : bool := forallb (fun r => negb (in_section (r_pc r))) (ps_receivers s).
Definition politeb (s : pstate) (l : label) : bool :=
  match l with LCall _ _ q r => argsb s q r | LNew a _ | LFree a => unusedb s a | _ => true end.
Definition calmb (s : pstate) (l : label) : bool :=
  match l with
  | LPost i _ => match nth_error (ps_posters s) i with Some p => negb (switches (p_pc p)) || quietb s | None => true end
  | LNew a _ | LFree a => unusedb s a && negb (a =? ps_req s) && negb (a =? ps_res s)
  | _ => politeb s l
  end.
Fixpoint checked_run (ok : pstate -> label -> bool) (le : bool) (s : pstate) (sched : list label) : bool :=
  match sched with
  | [] => true
  | l :: r => ok s l && match pstep le s l with Ok s' => checked_run ok le s' r | _ => false end
  end.
Lemma unusedb_ok : forall s a, unusedb s a = true -> unused s a.
Proof.
  intros s a H. unfold unusedb in H. apply andb_prop in H. destruct H as [H1 H2]. split; [lia|].
  intros i p Ei Hb. rewrite forallb_forall in H2. apply nth_error_In in Ei. apply H2 in Ei.
  assert (X : negb (a =? p_req p) && negb (a =? p_res p) = true) by (destruct (p_pc p) eqn:E; try exact Ei; exfalso; apply Hb; exact E). lia.
Qed.
Lemma argsb_ok : forall s q r, argsb s q r = true -> q <> r /\ q <> 0 /\ r <> 0 /\ ps_mem s q <> None /\ ps_mem s r <> None.
Proof.
  intros s q r H. unfold argsb in H. destruct (ps_mem s q); [|rewrite andb_false_r in H; discriminate].
  destruct (ps_mem s r); [|rewrite andb_false_r in H; discriminate]. split; [lia|]. split; [lia|]. split; [lia|]. split; discriminate.
Qed.
Lemma politeb_ok : forall le s l, okmsg le l -> politeb s l = true -> polite le s l.
Proof.
  intros le s l Hm H. destruct l; cbn [politeb polite okmsg] in *; try exact Logic.I; try exact Hm.
  - apply argsb_ok. exact H.
  - split; [apply unusedb_ok; exact H|exact Hm].
  - apply unusedb_ok. exact H.
Qed.
Lemma calmb_ok : forall le s l, okmsg le l -> calmb s l = true -> calm le s l.
Proof.
  intros le s l Hm H. destruct l; cbn [calmb politeb calm okmsg] in *; try exact Logic.I; try exact Hm.
  - apply argsb_ok. exact H.
  - intros p E Hs. rewrite E, Hs in H. cbn [negb orb] in H. apply Forall_forall. intros r I. unfold quietb in H. rewrite forallb_forall in H.
    apply H in I. destruct (in_section (r_pc r)); [discriminate|reflexivity].
  - apply andb_prop in H. destruct H as [H H3]. apply andb_prop in H. destruct H as [H H2]. apply unusedb_ok in H. destruct H as [U1 U2].
    split; [|exact Hm]. split; [exact U1|]. split; [lia|]. split; [lia|exact U2].
  - apply andb_prop in H. destruct H as [H H3]. apply andb_prop in H. destruct H as [H H2]. apply unusedb_ok in H. destruct H as [U1 U2].
    split; [exact U1|]. split; [lia|]. split; [lia|exact U2].
Qed.
Lemma checked_calm : forall le sched s, Forall (okmsg le) sched -> checked_run calmb le s sched = true ->
  exists s', prun le s sched = Ok s' /\ calm_run le s sched s'.
Proof.
  intros le sched. induction sched as [|l sched IH]; intros s F H; [exists s; split; [reflexivity|constructor]|].
  inversion F as [|? ? Fl F']; subst. cbn [checked_run] in H. apply andb_prop in H. destruct H as [H1 H2].
  destruct (pstep le s l) as [s1|] eqn:E; [|discriminate]. destruct (IH s1 F' H2) as (s' & E1 & E2). exists s'.
  split; [cbn [prun]; rewrite E; exact E1|]. econstructor; [apply calmb_ok; assumption|exact E|exact E2].
Qed.
Lemma checked_polite : forall le sched s, Forall (okmsg le) sched -> checked_run politeb le s sched = true ->
  exists s', prun le s sched = Ok s' /\ polite_run le s sched s'.
Proof.
  intros le sched. induction sched as [|l sched IH]; intros s F H; [exists s; split; [reflexivity|constructor]|].
  inversion F as [|? ? Fl F']; subst. cbn [checked_run] in H. apply andb_prop in H. destruct H as [H1 H2].
  destruct (pstep le s l) as [s1|] eqn:E; [|discriminate]. destruct (IH s1 F' H2) as (s' & E1 & E2). exists s'.
  split; [cbn [prun]; rewrite E; exact E1|]. econstructor; [apply politeb_ok; assumption|exact E|exact E2].
Qed.

Definition target : node := mkNode 0 [] [] (Some "10.0.0.2"%string) false.
Definition start : pstate := post_init node0 1 mem0 77.
Definition after_run (sched : list label) : pstate := match prun true start sched with Ok s => s | _ => start end.
(* a call of thread 0 up to the wait, and from the end of the wait to the return *)
Definition call (q r : Z) : list label := [LCall 0 target q r; LPost 0 true; LPost 0 true; LPost 0 true; LPost 0 true; LPost 0 true].
Definition leave : list label := [LPost 0 true; LPost 0 true; LPost 0 true].
Definition serve (j : nat) : list label := repeat (LStep j) 8.
Lemma after_calm : forall sched, Forall (okmsg true) sched -> checked_run calmb true start sched = true -> calm_run true start sched (after_run sched).
Proof. intros sched F H. destruct (checked_calm true sched start F H) as (s' & E & R). unfold after_run. rewrite E. exact R. Qed.
Lemma after_polite : forall sched, Forall (okmsg true) sched -> checked_run politeb true start sched = true -> polite_run true start sched (after_run sched).
Proof. intros sched F H. destruct (checked_polite true sched start F H) as (s' & E & R). unfold after_run. rewrite E. exact R. Qed.
Lemma got80_ok : a_message true (received (got80 1)).
Proof. apply received_ok; [reflexivity|cbn; lia|]. unfold in_memory. vm_compute. discriminate. Qed.
Lemma setgot_ok : a_message true (received (setgot 1)).
Proof. apply received_ok; [reflexivity|cbn; lia|]. unfold in_memory. vm_compute. discriminate. Qed.

Definition nohandle (e : event) : bool := match e with EHandle _ => false | _ => true end.
Lemma not_answered : forall i B r, forallb nohandle B = true -> ~ answered i B r.
Proof.
  intros i B r H (q & D & m & rm & (C & -> & _) & I & _). rewrite forallb_forall in H.
  assert (X : In (EHandle m) (D ++ ESend i q :: C)) by (apply in_or_app; left; exact I). apply H in X. discriminate.
Qed.
Ltac okmsgs := repeat (apply Forall_cons; [solve [exact Logic.I|exact got80_ok|exact setgot_ok]|]); apply Forall_nil.

(* a calm schedule: the request is sent, the response is received, stored and signalled *)
Definition sched_good : list label := call 1 2 ++ [LReceive (received (got80 1))] ++ serve 0 ++ leave.
Example C37_example : messages true mem0 /\ calm_run true (post_init node0 1 mem0 77) sched_good (after_run sched_good)
  /\ forallb (fun l => negb (spurious l)) sched_good = true
  /\ exists r B, ps_log (after_run sched_good) = [] ++ EReturn 0 true (Some r) :: B /\ map prop_pair (stored (m_p r)) = [(128, [48])].
Proof.
  split; [exact mem0_ok|]. split; [apply after_calm; [okmsgs|vm_compute; reflexivity]|]. split; [reflexivity|].
  eexists. eexists. split; [vm_compute; reflexivity|reflexivity].
Qed.

(* and one in which a call waits and the response has arrived *)
Definition sched_waiting : list label := call 1 2 ++ [LReceive (received (got80 1))].
Example C37_in_time_example : exists p q, calm_run true (post_init node0 1 mem0 77) sched_waiting (after_run sched_waiting)
  /\ nth_error (ps_posters (after_run sched_waiting)) 0 = Some p /\ p_pc p = PWaiting
  /\ nth_error (ps_receivers (after_run sched_waiting)) 0 = Some (mkReceiver RArrived (received (got80 1)))
  /\ ps_mem (after_run sched_waiting) (p_req p) = Some q /\ answers q (received (got80 1)).
Proof.
  eexists. eexists. split; [apply after_calm; [okmsgs|vm_compute; reflexivity]|]. split; [vm_compute; reflexivity|]. split; [reflexivity|].
  split; [vm_compute; reflexivity|]. split; [vm_compute; reflexivity|]. split; [vm_compute; reflexivity|vm_compute; discriminate].
Qed.

(* pthread_cond_timedwait may return without a signal; the call then returns true although no
   message has been handled at all. *)
Definition sched_spurious : list label := call 1 2 ++ [LSpurious 0] ++ leave.
Theorem C37_true_refuted : exists n k mem req sched s i r B, messages true mem
  /\ calm_run true (post_init n k mem req) sched s
  /\ ps_log s = EReturn i true r :: B /\ ~ answered i B r /\ forall m, ~ In (EHandle m) B.
Proof.
  exists node0, 1%nat, mem0, 77, sched_spurious, (after_run sched_spurious), 0%nat. eexists. eexists. split; [exact mem0_ok|].
  split; [apply after_calm; [okmsgs|vm_compute; reflexivity]|]. split; [vm_compute; reflexivity|]. split; [apply not_answered; reflexivity|].
  intros m H. cbn in H. repeat (destruct H as [H|H]; [discriminate|]). exact H.
Qed.
Print Assumptions C37_true_refuted.

(* A response that is handled after the request was sent and before the call waits is stored, but
   its signal is lost: the call times out and returns false with the response in its message. *)
Definition sched_lost : list label :=
  [LCall 0 target 1 2; LPost 0 true; LPost 0 true; LPost 0 true; LPost 0 true] ++ [LReceive (received (got80 1))] ++ serve 0
  ++ [LPost 0 true; LTimeout 0] ++ leave.
Theorem C37_delivered_refuted : exists n k mem req sched s i r B, messages true mem
  /\ calm_run true (post_init n k mem req) sched s /\ forallb (fun l => negb (spurious l)) sched = true
  /\ ps_log s = EReturn i false r :: B /\ answered i B r.
Proof.
  exists node0, 1%nat, mem0, 77, sched_lost, (after_run sched_lost), 0%nat. eexists. eexists. split; [exact mem0_ok|].
  split; [apply after_calm; [okmsgs|vm_compute; reflexivity]|]. split; [reflexivity|]. split; [vm_compute; reflexivity|].
  eexists. exists [EHandle (received (got80 1))], (received (got80 1)). eexists.
  split; [eexists; split; [vm_compute; reflexivity|repeat constructor; intros []]|].
  split; [left; reflexivity|]. split; [split; [vm_compute; reflexivity|vm_compute; discriminate]|]. split; [reflexivity|].
  vm_compute. refine (conj eq_refl (conj eq_refl (conj eq_refl (conj eq_refl (conj eq_refl (conj eq_refl (conj eq_refl (conj eq_refl eq_refl)))))))).
Qed.
Print Assumptions C37_delivered_refuted.

(* Without spurious wakeups, but with a slow receiver: it has compared the response with the
   first request, the first call times out, and the second call gets the response to the
   first request. *)
Definition sched_stale : list label :=
  call 1 2 ++ [LReceive (received (got80 1))] ++ repeat (LStep 0) 5 ++ [LTimeout 0] ++ leave
  ++ call 3 4 ++ repeat (LStep 0) 3 ++ leave.
Theorem C37_stale_refuted : exists n k mem req sched s i r B q D, messages true mem
  /\ polite_run true (post_init n k mem req) sched s /\ forallb (fun l => negb (spurious l)) sched = true
  /\ ps_log s = EReturn i true (Some r) :: B /\ sent_in i B q D /\ m_tid r <> m_tid q /\ forall m, ~ In (EHandle m) D.
Proof.
  exists node0, 1%nat, mem0, 77, sched_stale, (after_run sched_stale), 0%nat. eexists. eexists. eexists. exists [EWake 0]. split; [exact mem0_ok|].
  split; [apply after_polite; [okmsgs|vm_compute; reflexivity]|]. split; [reflexivity|]. split; [vm_compute; reflexivity|].
  split; [eexists; split; [vm_compute; reflexivity|repeat constructor; intros []]|]. split; [vm_compute; discriminate|].
  intros m [H|H]; [discriminate|exact H].
Qed.
Print Assumptions C37_stale_refuted.

(* A receiver has loaded the pointer to the request when the call times out; the application frees
   the request after the call has returned, and the receiver then reads freed memory. *)
Definition sched_freed : list label :=
  call 1 2 ++ [LReceive (received (got80 1))] ++ repeat (LStep 0) 4 ++ [LTimeout 0] ++ leave ++ [LFree 1].
Theorem C37_freed_refuted : exists n k mem req sched s j, messages true mem
  /\ polite_run true (post_init n k mem req) sched s
  /\ Forall (fun p => p_pc p = PIdle) (ps_posters s) /\ pstep true s (LStep j) = Undef UB_free.
Proof.
  exists node0, 1%nat, mem0, 77, sched_freed, (after_run sched_freed), 0%nat. split; [exact mem0_ok|].
  split; [apply after_polite; [okmsgs|vm_compute; reflexivity]|]. split; [vm_compute; repeat constructor|]. vm_compute. reflexivity.
Qed.
Print Assumptions C37_freed_refuted.

(* A call that cannot send the request returns false and leaves the pointers set: the request is
   freed, a message arrives later, when no call is in progress, and freed memory is read.  No receiver
   was at work during the call. *)
Definition sched_unsent : list label :=
  [LCall 0 target 1 2; LPost 0 true; LPost 0 true; LPost 0 true; LPost 0 false; LPost 0 true; LFree 1]
  ++ [LReceive (received (got80 1))] ++ repeat (LStep 0) 4.
Theorem C37_unsent_refuted : exists n k mem req sched s r B j, messages true mem
  /\ polite_run true (post_init n k mem req) sched s
  /\ ps_log s = EHandle r :: EReturn 0 false (Some uecho_message_new) :: B /\ pstep true s (LStep j) = Undef UB_free.
Proof.
  exists node0, 1%nat, mem0, 77, sched_unsent, (after_run sched_unsent). eexists. eexists. exists 0%nat. split; [exact mem0_ok|].
  split; [apply after_polite; [okmsgs|vm_compute; reflexivity]|]. split; [vm_compute; reflexivity|]. vm_compute. reflexivity.
Qed.
Print Assumptions C37_unsent_refuted.

(* The response message does not hold all of a SetGet response: uecho_message_set copies the
   ordinary properties only. *)
Definition sched_setget : list label := call 1 2 ++ [LReceive (received (setgot 1))] ++ serve 0 ++ leave.
Theorem C37_setget_refuted : exists n k mem req sched s i r B m, messages true mem
  /\ calm_run true (post_init n k mem req) sched s /\ forallb (fun l => negb (spurious l)) sched = true
  /\ ps_log s = EReturn i true (Some r) :: B /\ In (EHandle m) B
  /\ map prop_pair (stored (m_pset m)) = [(128, [])] /\ map prop_pair (stored (m_pget m)) = [(129, [8])]
  /\ m_esv r = m_esv m /\ stored (m_pset r) = [] /\ stored (m_pget r) = [].
Proof.
  exists node0, 1%nat, mem0, 77, sched_setget, (after_run sched_setget), 0%nat. eexists. eexists. exists (received (setgot 1)). split; [exact mem0_ok|].
  split; [apply after_calm; [okmsgs|vm_compute; reflexivity]|]. split; [reflexivity|]. split; [vm_compute; reflexivity|].
  split; [right; left; reflexivity|]. split; [vm_compute; reflexivity|]. split; [vm_compute; reflexivity|]. split; [vm_compute; reflexivity|].
  split; [reflexivity|reflexivity].
Qed.
Print Assumptions C37_setget_refuted.

(* ---------- C52: how long a call waits ---------- *)

(* Times are in nanoseconds; the waiting time is set in clock ticks, [cps] of them in a second.
   A whole number [t] of seconds is waited for, up to a second less. *)
Theorem C52_wait_partial : forall cps now t, 0 < cps -> 0 <= now -> 0 <= t ->
  let d := wait_deadline cps now (t * cps) in
  now + (t - 1) * 1000000000 < d <= now + t * 1000000000.
Proof.
  intros cps now t Hc Hn Ht. unfold wait_deadline. cbv zeta. rewrite Z.quot_mul by lia.
  pose proof (Z.div_mod now 1000000000). pose proof (Z.mod_pos_bound now 1000000000). lia.
Qed.
Print Assumptions C52_wait_partial.

(* the default of five seconds: the call waits more than four and at most five seconds *)
Example C52_example : 0 < 1000000 /\ wait_deadline 1000000 1700000000123456789 (5 * 1000000) - 1700000000123456789 = 4876543211.
Proof. split; reflexivity. Qed.

(* In general the fraction of a second that was asked for is dropped, *)
Theorem C52_bounds : forall cps now ticks, 0 < cps -> 0 <= now -> 0 <= ticks ->
  let d := wait_deadline cps now ticks in
  d <= now + ticks * 1000000000 / cps /\ now + ticks * 1000000000 / cps - d < 2 * 1000000000.
Proof.
  intros cps now ticks Hc Hn Ht. unfold wait_deadline. cbv zeta. rewrite Z.quot_div_nonneg by lia.
  pose proof (Z.div_mod now 1000000000). pose proof (Z.mod_pos_bound now 1000000000).
  pose proof (Z.div_mod ticks cps ltac:(lia)). pose proof (Z.mod_pos_bound ticks cps Hc).
  assert (A : ticks / cps * 1000000000 <= ticks * 1000000000 / cps) by (apply Z.div_le_lower_bound; nia).
  assert (B : ticks * 1000000000 / cps < (ticks / cps + 1) * 1000000000) by (apply Z.div_lt_upper_bound; nia).
  lia.
Qed.
Print Assumptions C52_bounds.

(* and the value is not in milliseconds, as the name of the setter says: 3000 does not wait
   at all, on any POSIX system (CLOCKS_PER_SEC is one million). *)
Theorem C52_milliseconds_refuted : exists ms, 0 < ms /\
  forall now, 0 <= now -> wait_deadline 1000000 now ms <= now.
Proof.
  exists 3000. split; [lia|]. intros now Hn. unfold wait_deadline. change (3000 ÷ 1000000) with 0. rewrite Z.add_0_r.
  pose proof (Z.div_mod now 1000000000). pose proof (Z.mod_pos_bound now 1000000000). lia.
Qed.
Print Assumptions C52_milliseconds_refuted.
(* nor any value up to 999999 *)
Theorem C52_short : forall cps now ticks, 0 < cps -> 0 <= ticks < cps -> 0 <= now -> wait_deadline cps now ticks <= now.
Proof.
  intros cps now ticks Hc Ht Hn. unfold wait_deadline. rewrite Z.quot_small by lia. rewrite Z.add_0_r.
  pose proof (Z.div_mod now 1000000000). pose proof (Z.mod_pos_bound now 1000000000). lia.
Qed.
Print Assumptions C52_short.
