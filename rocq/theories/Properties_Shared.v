(* C71: the shared standard database. *)
From Coq Require Import ZArith Lia List Bool.
From Verif Require Import CSem P_Base StdNames_Data StdDB_Data M_Property M_PropertyList M_Object M_Shared.
Import ListNotations.
Open Scope nat_scope.

(* the state at the start of the program, and one with all lines of both tables in the database of the pointer *)
Definition unused : shared := mkShared None [] 0.
Definition ready (s : shared) : Prop := s = mkShared (Some 0) [mkSdb (length man_rows) (length std_rows) false] 1.
Definition waiting (n : nat) : list place := repeat AtTest n.

(* ---- calls one after the other ---- *)
Fixpoint calls (n : nat) (s : shared) : option (shared * list (option nat)) :=
  match n with
  | O => Some (s, [])
  | S k =>
      match grun 1000 s AtTest with
      | (s, Returned d) => match calls k s with Some (s, ds) => Some (s, d :: ds) | None => None end
      | _ => None
      end
  end.

(* every call returns the same, complete database, which is made once and freed once at the end *)
Theorem C71_sequential : forall n, exists s, calls (S n) unused = Some (s, repeat (Some 0) (S n)) /\ ready s
  /\ exists s', uecho_standard_freedatabase s = Ok s' /\ g_dbs s' = [mkSdb (length man_rows) (length std_rows) true].
Proof.
  assert (F : grun 1000 unused AtTest = (mkShared (Some 0) [mkSdb (length man_rows) (length std_rows) false] 1, Returned (Some 0))) by (vm_compute; reflexivity).
  set (s := mkShared (Some 0) [mkSdb (length man_rows) (length std_rows) false] 1) in *.
  assert (G : grun 1000 s AtTest = (s, Returned (Some 0))) by reflexivity.
  assert (L : forall n, calls n s = Some (s, repeat (Some 0) n)).
  { induction n as [|n IH]; [reflexivity|]. cbn [calls]. rewrite G, IH. reflexivity. }
  intros n. exists s. split; [|split; [reflexivity|]].
  - cbn [calls]. rewrite F, L. reflexivity.
  - eexists. split; [reflexivity|]. reflexivity.
Qed.
Print Assumptions C71_sequential.

(* ---- threads ---- *)

(* The full property: in every interleaving every call returns the same, complete database.  Proved for threads that
   start after a first call has returned. *)
Lemma nth_set : forall A (l : list A) n m x y, nth_error l n = Some y -> nth_error (set_nth n x l) m = if Nat.eqb m n then Some x else nth_error l m.
Proof.
  intros A l n m x y H. unfold set_nth. rewrite H. assert (L : n < length l) by (apply nth_error_Some; congruence). assert (FL : length (firstn n l) = n) by (rewrite firstn_length; lia).
  destruct (Nat.eqb_spec m n) as [->|D].
  - rewrite nth_error_app2 by lia. rewrite FL, Nat.sub_diag. reflexivity.
  - destruct (Nat.lt_ge_cases m n).
    + rewrite nth_error_app1 by lia. rewrite <- (firstn_skipn n l) at 2. rewrite nth_error_app1 by lia. reflexivity.
    + rewrite nth_error_app2 by lia. rewrite FL. destruct (m - n) as [|k] eqn:E; [lia|]. cbn [app nth_error]. rewrite <- (firstn_skipn (S n) l) at 2. rewrite nth_error_app2; rewrite firstn_length; [|lia].
      f_equal. lia.
Qed.
Theorem C71_threads_partial : forall s n sched, ready s ->
  fst (trun (s, waiting n) sched) = s
  /\ forall t p, nth_error (snd (trun (s, waiting n) sched)) t = Some p ->
       (forall d, p = Returned d -> d = Some 0)
       /\ (2 <= count_occ Nat.eq_dec sched t -> p = Returned (Some 0)).
Proof.
  intros s n sched R. 
  assert (I : forall sched ps, (forall t p, nth_error ps t = Some p -> p = AtTest \/ p = AtReturn \/ p = Returned (Some 0)) ->
     fst (trun (s, ps) sched) = s /\ forall t p, nth_error (snd (trun (s, ps) sched)) t = Some p ->
       exists p0, nth_error ps t = Some p0 /\ (p = AtTest \/ p = AtReturn \/ p = Returned (Some 0))
       /\ ((match p0 with AtTest => 2 | AtReturn => 1 | _ => 0 end) <= count_occ Nat.eq_dec sched t -> p = Returned (Some 0))).
  { induction sched0 as [|u sched0 IH]; intros ps H.
    - split; [reflexivity|]. intros t p E. cbn in E. exists p. split; [exact E|]. split; [exact (H t p E)|]. cbn. destruct (H t p E) as [->|[->| ->]]; [lia|lia|reflexivity].
    - cbn [trun fold_left]. unfold tstep at 2 4. cbn [fst snd]. destruct (nth_error ps u) as [q|] eqn:E.
      2:{ destruct (IH ps H) as [A B]. split; [exact A|]. intros t p X. destruct (B t p X) as (p0 & P0 & K & C). exists p0. split; [exact P0|]. split; [exact K|]. intros Y. apply C.
          cbn [count_occ] in Y. destruct (Nat.eq_dec u t); [subst; congruence|exact Y]. }
      assert (Q : gstep s q = (s, match q with AtTest => AtReturn | _ => Returned (Some 0) end)).
      { destruct (H u q E) as [->|[->| ->]]; rewrite R; reflexivity. }
      rewrite Q. set (q' := match q with AtTest => AtReturn | _ => Returned (Some 0) end) in *.
      assert (H' : forall t p, nth_error (set_nth u q' ps) t = Some p -> p = AtTest \/ p = AtReturn \/ p = Returned (Some 0)).
      { intros t p X. rewrite (nth_set _ _ _ _ _ _ E) in X. destruct (Nat.eqb t u); [|exact (H t p X)]. injection X as <-. unfold q'. destruct (H u q E) as [->|[->| ->]]; auto. }
      destruct (IH _ H') as [A B]. split; [exact A|]. intros t p X. destruct (B t p X) as (p0 & P0 & K & C). rewrite (nth_set _ _ _ _ _ _ E) in P0. destruct (Nat.eqb_spec t u) as [->|D].
      + injection P0 as <-. exists q. split; [exact E|]. split; [exact K|]. intros Y. apply C. cbn [count_occ] in Y. destruct (Nat.eq_dec u u); [|congruence]. unfold q'. destruct (H u q E) as [->|[->| ->]]; lia.
      + exists p0. split; [exact P0|]. split; [exact K|]. intros Y. apply C. cbn [count_occ] in Y. destruct (Nat.eq_dec u t); [congruence|exact Y]. }
  assert (W : forall t p, nth_error (waiting n) t = Some p -> p = AtTest).
  { intros t p E. apply nth_error_In in E. apply repeat_spec in E. exact E. }
  destruct (I sched (waiting n)) as [A B]; [intros t p E; left; exact (W t p E)|]. split; [exact A|]. intros t p E. destruct (B t p E) as (p0 & P0 & K & C). rewrite (W t p0 P0) in C. split; [|exact C].
  intros d X. subst p. destruct K as [K|[K|K]]; try discriminate K. injection K as ->. reflexivity.
Qed.
Print Assumptions C71_threads_partial.
Example C71_threads_example : exists s, calls 1 unused = Some (s, [Some 0]) /\ ready s
  /\ snd (trun (s, waiting 2) [0; 1; 1; 0]) = [Returned (Some 0); Returned (Some 0)].
Proof. eexists. split; [vm_compute; reflexivity|]. split; reflexivity. Qed.

(* two threads that make the first calls at the same time: the second gets a database with nothing in it ... *)
Theorem C71_incomplete_refuted : exists sched s p d, trun (unused, waiting 2) sched = (s, [p; Returned (Some d)])
  /\ nth_error (g_dbs s) d = Some (mkSdb 0 0 false) /\ p <> Returned (Some d).
Proof. exists [0; 0; 1; 1]. do 3 eexists. split; [vm_compute; reflexivity|]. split; [reflexivity|]. discriminate. Qed.
Print Assumptions C71_incomplete_refuted.
(* ... with which a new device lacks the properties every device must have: it has its property maps only *)
Theorem C71_bare_refuted : exists o, uecho_object_setcode [] (fun _ => 0%Z) uecho_object_new 0x029001 = Ok (o, [])
  /\ map p_code (o_props o) = [0x9F; 0x9E; 0x9D]%Z.
Proof. eexists. split; vm_compute; reflexivity. Qed.
Print Assumptions C71_bare_refuted.
(* ... or each makes a database: one is lost, the other has every entry twice, and is freed twice when the program
   ends *)
Theorem C71_double_refuted : exists sched s d, trun (unused, waiting 2) sched = (s, [Returned (Some d); Returned (Some d)])
  /\ length (g_dbs s) = 2 /\ nth_error (g_dbs s) d = Some (mkSdb (2 * length man_rows) (2 * length std_rows) false)
  /\ g_atexit s = 2 /\ exists s', uecho_standard_freedatabase s = Ok s' /\ uecho_standard_freedatabase s' = Undef UB_free.
Proof.
  exists ([0; 1; 0; 1] ++ repeat 0 300 ++ repeat 1 300). do 2 eexists. split; [vm_compute; reflexivity|]. split; [reflexivity|]. split; [vm_compute; reflexivity|]. split; [reflexivity|].
  eexists. split; [vm_compute; reflexivity|]. vm_compute. reflexivity.
Qed.
Print Assumptions C71_double_refuted.
(* after the database has been freed a call still returns it *)
Theorem C71_freed_refuted : forall s s', ready s -> uecho_standard_freedatabase s = Ok s' ->
  exists d x, grun 1000 s' AtTest = (s', Returned (Some d)) /\ nth_error (g_dbs s') d = Some x /\ d_freed x = true.
Proof. intros s s' -> H. injection H as <-. exists 0. eexists. split; [reflexivity|]. split; reflexivity. Qed.
Print Assumptions C71_freed_refuted.
Example C71_freed_example : exists s s', ready s /\ uecho_standard_freedatabase s = Ok s'.
Proof. eexists. eexists. split; reflexivity. Qed.
