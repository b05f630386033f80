(* C74: values of properties written and read by several threads at once. *)
From Coq Require Import ZArith List Bool Lia PeanoNat.
From Verif Require Import CSem M_PropThreads Spec_PropThreads P_PropThreads.
Import ListNotations.
Open Scope nat_scope.

(* Full statement: several threads (the receiving threads of a node, one for each of its servers, and the threads of the
   application) write and read the values of properties; whatever the schedule, nothing undefined happens, and every read gives
   a value that was written before, as if the reads and writes had been made one after the other.

   It is false, see below: nothing excludes two threads from one property at once.  It is true of every schedule in which no
   thread is in the middle of writing a property while another one is in the middle of writing or reading the same property. *)
Theorem C74_one_after_the_other_partial : forall sf v0 m progs sched,
  holds v0 m -> careful sf m (pstart progs) sched ->
  exists m' ts' tr,
    psched sf m (pstart progs) sched = Ok (m', ts') /\
    explained v0 progs ts' tr /\
    ((forall t, In t ts' -> at_work t = None) -> holds (fst (acts v0 (map snd tr))) m').
Proof. exact careful_run. Qed.
Print Assumptions C74_one_after_the_other_partial.

(* Whatever the schedule, if no property that a thread writes is touched by another one: every thread sees what it would see
   alone, and no memory is lost.  In particular any number of threads may read. *)
Theorem C74_apart_partial : forall sf v0 m progs sched,
  holds v0 m -> apart progs ->
  exists m' ts', psched sf m (pstart progs) sched = Ok (m', ts') /\ length ts' = length progs /\
    (forall i l t, nth_error progs i = Some l -> nth_error ts' i = Some t ->
       (exists k, t_log t = firstn k (snd (acts v0 l))) /\ (finished t -> t_log t = snd (acts v0 l))) /\
    ((forall t, In t ts' -> finished t) -> exists v, holds v m' /\ final v0 progs v).
Proof. exact apart_run. Qed.
Print Assumptions C74_apart_partial.

(* three properties with the values 1 2, nothing and 7 *)
Definition v_start : values := fun p => match p with 0 => [1; 2]%Z | 2 => [7]%Z | _ => [] end.
Definition m_start : pmem :=
  mkPmem (fun p => match p with 0 => mkPcell (Some 0) 2 | 2 => mkPcell (Some 1) 1 | _ => mkPcell None 0 end)
         (fun d => match d with 0 => Some [1; 2]%Z | 1 => Some [7]%Z | _ => None end) 2.
Lemma m_start_holds : holds v_start m_start.
Proof.
  split; [|split].
  - intros [|[|[|p]]]; cbn; eauto.
  - intros [|[|[|p]]] [|[|[|q]]] d; cbn; congruence.
  - intros [|[|d]]; cbn; intros H; try congruence; (split; [lia|]).
    + exists 0. reflexivity.
    + exists 2. reflexivity.
Qed.

(* the hypotheses of C74_apart_partial: one thread writes and reads property 0, two others read property 2, one of them also
   writes property 1; all interleaved step by step *)
Example C74_apart_example :
  let progs := [[PSet 0 [5; 6; 7]%Z; PGet 0]; [PGet 2; PSet 1 [9]%Z; PGet 1]; [PGet 2; PGet 2]] in
  apart progs /\
  exists m', psched true m_start (pstart progs) (concat (repeat [0; 1; 2] 40)) =
    Ok (m', [mkPthr PIdle [] [RSet true; RGet [5; 6; 7]%Z]; mkPthr PIdle [] [RGet [7]%Z; RSet true; RGet [9]%Z];
             mkPthr PIdle [] [RGet [7]%Z; RGet [7]%Z]]).
Proof.
  cbv zeta. split.
  - intros [|[|[|i]]] [|[|[|j]]] l l' p Hij Hi Hj [x Hx] [a [Ha Ht]]; try congruence; cbn in Hi, Hj;
      try (destruct i; discriminate); try (destruct j; discriminate);
      injection Hi as <-; injection Hj as <-; cbn in Hx, Ha;
      repeat match goal with H : _ \/ _ |- _ => destruct H end; try contradiction; subst; cbn in *; try congruence;
      match goal with H : PSet _ _ = PSet _ _ |- _ => injection H as <- <- end; cbn in *; congruence.
  - eexists. vm_compute. reflexivity.
Qed.

(* the hypotheses of C74_one_after_the_other_partial: two threads use one property in turn, the second one starts when the first
   has finished its write *)
Definition turns : list nat := repeat 0 14 ++ repeat 1 20 ++ repeat 0 9.
Definition no_conflict_b (ts : list pthr) : bool :=
  match ts with
  | [a; b] =>
      match at_work a, at_work b with
      | Some (PSet p _), Some x => negb (target x =? p)
      | Some x, Some (PSet p _) => negb (target x =? p)
      | _, _ => true
      end
  | _ => false
  end.
Lemma no_conflict_b_ok : forall ts, no_conflict_b ts = true -> no_conflict ts.
Proof.
  intros [|t0 [|t1 [|t2 ts]]] H; try discriminate.
  intros i j t t' p v a Hij Hi Hj Ha Hb.
  destruct i as [|[|i]], j as [|[|j]]; cbn in Hi, Hj; try congruence;
    try (destruct i; discriminate); try (destruct j; discriminate);
    injection Hi as <-; injection Hj as <-; cbn in H; rewrite Ha, Hb in H.
  - apply negb_true_iff, Nat.eqb_neq in H. exact H.
  - destruct a as [q w|q]; apply negb_true_iff, Nat.eqb_neq in H; cbn in *; congruence.
Qed.
Example C74_one_after_the_other_example :
  let progs := [[PSet 0 [5; 6; 7]%Z; PGet 0]; [PGet 0; PSet 0 [9]%Z]] in
  careful true m_start (pstart progs) turns /\
  exists m', psched true m_start (pstart progs) turns =
    Ok (m', [mkPthr PIdle [] [RSet true; RGet [9]%Z]; mkPthr PIdle [] [RGet [5; 6; 7]%Z; RSet true]]).
Proof.
  cbv zeta. split.
  - intros k m' ts' E. apply no_conflict_b_ok.
    assert (F : forallb (fun k => match psched true m_start (pstart [[PSet 0 [5; 6; 7]%Z; PGet 0]; [PGet 0; PSet 0 [9]%Z]]) (firstn k turns) with
                                  | Ok (_, ts) => no_conflict_b ts | Undef _ => false end) (seq 0 44) = true) by (vm_compute; reflexivity).
    rewrite forallb_forall in F.
    assert (Hk : k < 44 \/ 43 <= k) by lia. destruct Hk as [Hk|Hk].
    + specialize (F k). rewrite E in F. apply F. apply in_seq. lia.
    + assert (Hf : firstn k turns = firstn 43 turns) by (rewrite !firstn_all2; [reflexivity|vm_compute; lia|change (length turns) with 43; lia]).
      rewrite Hf in E. specialize (F 43). rewrite E in F. apply F. apply in_seq. lia.
  - eexists. vm_compute. reflexivity.
Qed.

(* Two write requests for one property at the same time: its old data are freed twice. *)
Theorem C74_two_writers_refuted : exists v0 m progs sched,
  holds v0 m /\ progs = [[PSet 0 [5]%Z]; [PSet 0 [6]%Z]] /\ forall sf, psched sf m (pstart progs) sched = Undef UB_free.
Proof.
  exists v_start, m_start, [[PSet 0 [5]%Z]; [PSet 0 [6]%Z]], [0; 0; 0; 0; 1; 1; 1; 1; 0; 1].
  split; [apply m_start_holds|]. split; [reflexivity|]. intros []; vm_compute; reflexivity.
Qed.
Print Assumptions C74_two_writers_refuted.

(* A read request and a write request for one property at the same time: freed data are read. *)
Theorem C74_reader_writer_refuted : exists v0 m progs sched,
  holds v0 m /\ progs = [[PGet 0]; [PSet 0 [6]%Z]] /\ forall sf, psched sf m (pstart progs) sched = Undef UB_free.
Proof.
  exists v_start, m_start, [[PGet 0]; [PSet 0 [6]%Z]], [0; 0; 0; 1; 1; 1; 1; 1; 0].
  split; [apply m_start_holds|]. split; [reflexivity|]. intros []; vm_compute; reflexivity.
Qed.
Print Assumptions C74_reader_writer_refuted.

(* Data with sizes that differ: a write past the end of the shorter block. *)
Theorem C74_overflow_refuted : exists v0 m progs sched,
  holds v0 m /\ progs = [[PSet 0 [1; 2; 3]%Z]; [PSet 0 [6]%Z]] /\ forall sf, psched sf m (pstart progs) sched = Undef UB_write.
Proof.
  exists v_start, m_start, [[PSet 0 [1; 2; 3]%Z]; [PSet 0 [6]%Z]],
    (repeat 0 7 ++ repeat 1 7 ++ repeat 0 5).
  split; [apply m_start_holds|]. split; [reflexivity|]. intros []; vm_compute; reflexivity.
Qed.
Print Assumptions C74_overflow_refuted.

(* Without any crash, a read can give a value that the property never had. *)
Theorem C74_torn_refuted : exists v0 m progs sched m' ts',
  holds v0 m /\ v0 0 = [1; 2]%Z /\ progs = [[PGet 0]; [PSet 0 [5; 6]%Z]] /\
  (forall sf, psched sf m (pstart progs) sched = Ok (m', ts')) /\
  (forall t, In t ts' -> finished t) /\ map t_log ts' = [[RGet [5; 0]%Z]; [RSet true]].
Proof.
  eexists v_start, m_start, [[PGet 0]; [PSet 0 [5; 6]%Z]], (repeat 1 11 ++ repeat 0 6 ++ repeat 1 6), _, _.
  split; [apply m_start_holds|]. split; [reflexivity|]. split; [reflexivity|]. split; [intros []; vm_compute; reflexivity|].
  split; [|reflexivity]. intros t [<-|[<-|[]]]; split; reflexivity.
Qed.
Print Assumptions C74_torn_refuted.

(* Without any crash, two writes can lose a block of memory. *)
Theorem C74_leak_refuted : exists v0 m progs sched m' ts' d,
  holds v0 m /\ progs = [[PSet 1 [5]%Z]; [PSet 1 [6]%Z]] /\ (forall sf, psched sf m (pstart progs) sched = Ok (m', ts')) /\
  (forall t, In t ts' -> finished t) /\ m_blks m' d <> None /\ forall p, c_data (m_props m' p) <> Some d.
Proof.
  eexists v_start, m_start, [[PSet 1 [5]%Z]; [PSet 1 [6]%Z]], (repeat 0 3 ++ repeat 1 3 ++ repeat 0 1 ++ repeat 1 10 ++ repeat 0 10), _, _, 2.
  split; [apply m_start_holds|]. split; [reflexivity|]. split; [intros []; vm_compute; reflexivity|].
  split; [|split].
  - intros t [<-|[<-|[]]]; split; reflexivity.
  - vm_compute. discriminate.
  - intros [|[|[|p]]]; vm_compute; discriminate.
Qed.
Print Assumptions C74_leak_refuted.
