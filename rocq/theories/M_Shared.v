(* Model of std/standard.c: the shared standard database, made on first use, and threads that ask for it at the same
   time.  Memory is sequentially consistent. *)
From Coq Require Import ZArith List Bool.
From Verif Require Import CSem StdNames_Data StdDB_Data.
Import ListNotations.

(* a database: how many lines of std/manufacturers.c and of std/objects_mra.c have been added, and whether it has been
   freed.  The lines are added in order, so that after [n] lines of one thread the first [n] objects are there *)
Record sdb : Type := mkSdb { d_mans : nat; d_objs : nat; d_freed : bool }.
Definition n_mans : nat := length man_rows.
Definition n_objs : nat := length std_rows.

(* where a thread is in std/standard.c:28-39 uecho_standard_getdatabase *)
Inductive place : Type :=
| AtTest                      (* before line 30 *)
| AtNew                       (* the test has found NULL *)
| AtCheck                     (* line 32, after the store of line 31 *)
| AtMans (d : nat) (left : nat)   (* line 34: lines left to add to database d *)
| AtObjs0                     (* before the pointer is read for line 35 *)
| AtObjs (d : nat) (left : nat)   (* line 35 *)
| AtReturn                    (* line 38 *)
| Returned (d : option nat).
(* gSharedStdDatabase, the databases made so far, the functions given to atexit *)
Record shared : Type := mkShared { g_ptr : option nat; g_dbs : list sdb; g_atexit : nat }.

Definition upd_db (d : nat) (f : sdb -> sdb) (l : list sdb) : list sdb :=
  firstn d l ++ match nth_error l d with Some x => [f x] | None => [] end ++ skipn (S d) l.
Definition add_man (x : sdb) : sdb := mkSdb (S (d_mans x)) (d_objs x) (d_freed x).
Definition add_obj (x : sdb) : sdb := mkSdb (d_mans x) (S (d_objs x)) (d_freed x).

(* std/standard.c:28-39 uecho_standard_getdatabase: one step of a thread; each access to the shared pointer and each line
   added is a step.  Memory is not short. *)
Definition gstep (s : shared) (p : place) : shared * place :=
  match p with
  | AtTest => (s, match g_ptr s with None => AtNew | Some _ => AtReturn end)
  | AtNew => (mkShared (Some (length (g_dbs s))) (g_dbs s ++ [mkSdb 0 0 false]) (g_atexit s), AtCheck)
  | AtCheck => (s, match g_ptr s with None => Returned None | Some d => AtMans d n_mans end)
  | AtMans d O => (s, AtObjs0)
  | AtMans d (S k) => (mkShared (g_ptr s) (upd_db d add_man (g_dbs s)) (g_atexit s), AtMans d k)
  | AtObjs0 => (s, match g_ptr s with None => Returned None | Some d => AtObjs d n_objs end)
  | AtObjs d O => (mkShared (g_ptr s) (g_dbs s) (S (g_atexit s)), AtReturn)
  | AtObjs d (S k) => (mkShared (g_ptr s) (upd_db d add_obj (g_dbs s)) (g_atexit s), AtObjs d k)
  | AtReturn => (s, Returned (g_ptr s))
  | Returned d => (s, Returned d)
  end.

(* a schedule names the thread that takes the next step *)
Definition set_nth {A} (n : nat) (x : A) (l : list A) : list A :=
  firstn n l ++ match nth_error l n with Some _ => [x] | None => [] end ++ skipn (S n) l.
Definition tstep (c : shared * list place) (t : nat) : shared * list place :=
  match nth_error (snd c) t with
  | None => c
  | Some p => let '(s, p') := gstep (fst c) p in (s, set_nth t p' (snd c))
  end.
Definition trun (c : shared * list place) (sched : list nat) : shared * list place := fold_left tstep sched c.

(* std/standard.c:17-22 uecho_standard_freedatabase: the pointer keeps its value *)
Definition uecho_standard_freedatabase (s : shared) : res shared :=
  match g_ptr s with
  | None => Ok s
  | Some d =>
      match nth_error (g_dbs s) d with
      | None => Undef UB_free
      | Some x => if d_freed x then Undef UB_free
                  else Ok (mkShared (g_ptr s) (upd_db d (fun x => mkSdb (d_mans x) (d_objs x) true) (g_dbs s)) (g_atexit s))
      end
  end.
(* a call with no other thread in between *)
Fixpoint grun (fuel : nat) (s : shared) (p : place) : shared * place :=
  match fuel with O => (s, p) | S f => match p with Returned _ => (s, p) | _ => let '(s, p) := gstep s p in grun f s p end end.
