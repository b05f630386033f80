(* Threads that call uecho_node_getnexttid on one node at the same time.  Nothing in
   uecho locks the node there, so loads and stores of lastTid interleave in any order.
   Each load and each store is one step; that a data race has no defined meaning at all
   in C11 is not used. *)
From Coq Require Import ZArith List Bool.
From Verif Require Import CSem M_Const.
Import ListNotations.
Open Scope Z_scope.

(* where a thread is in node.c:441-453 uecho_node_getnexttid *)
Inductive tidpc : Type :=
| TCheck                (* line 446, about to load lastTid for the comparison *)
| TReset                (* line 447, about to store 1 *)
| TLoad                 (* line 450, about to load lastTid for ++ *)
| TStore (v : Z)        (* line 450, about to store v *)
| TReturn               (* line 452, about to load lastTid for the result *)
| TDone (t : Z).        (* returned t *)

(* one step of a thread: lastTid and the thread afterwards.
   node.c:441-453 uecho_node_getnexttid; lastTid is an unsigned int *)
Definition tid_step (x : Z) (pc : tidpc) : Z * tidpc :=
  match pc with
  | TCheck => (x, if uEchoTidMax <=? x then TReset else TLoad)
  | TReset => (1, TReturn)
  | TLoad => (x, TStore (u32 (x + 1)))
  | TStore v => (v, TReturn)
  | TReturn => (x, TDone x)
  | TDone t => (x, TDone t)
  end.

(* the schedule says which thread makes each step; numbers of no thread are skipped *)
Fixpoint tid_sched (x : Z) (ths : list tidpc) (sched : list nat) : Z * list tidpc :=
  match sched with
  | [] => (x, ths)
  | i :: r =>
      match nth_error ths i with
      | None => tid_sched x ths r
      | Some pc =>
          let '(x', pc') := tid_step x pc in
          tid_sched x' (firstn i ths ++ pc' :: skipn (S i) ths) r
      end
  end.
