(* Model of the example program uechobench with the option -v (examples/controller/uechobench/uechobench.c:52-117 and
   180-185): as often as the option -n says, the devices found are listed and asked for every property they must let others
   read.
   Simplifications: those of M_Verbose.v.  The end of a round and the beginning of the next one are one step. *)
From Coq Require Import String ZArith List Bool.
From Verif Require Import CSem M_Const M_Misc M_Property M_Message M_PropertyList M_Object M_Node M_NodeListener M_Controller
  M_Query M_PostTool M_ShowTool M_Verbose Run_Node Run_Controller.
Import ListNotations.
Open Scope Z_scope.

(* uechobench.c:182: the rounds that follow the present one, and where the program is in this one *)
Definition bpos : Type := Z * vpos.
Definition next_round (p : bpos) : bpos :=
  match p with
  | (k, AtEnd) => if 0 <? k then (k - 1, AtNode 0) else p
  | _ => p
  end.
(* uechobench.c:149-151 and 180-183: [n] is the number given with -n, which becomes a size_t *)
Definition bench_start (c : ctrl) (n : Z) : bpos :=
  if 0 <? len (c_nodes c) then next_round (n mod SIZE_MOD, AtEnd) else (0, AtEnd).

Section Bench.
Variable le : bool.
Variable net snet : post -> bool.
Variable db : list obj.

(* uechobench.c:71-117: one turn.  The line of a device is printed at once; objects and properties are as in uechosearch *)
Definition bstep (c : ctrl) (p : bpos) (w : list arrival) : res (ctrl * bpos * list post * list vline) :=
  match snd p with
  | AtNode i =>
      do y <- vwait le net snet db c w ;;
      match nth_error (c_nodes (fst y)) i with
      | None => Ok (fst y, next_round (fst p, AtEnd), [], [])
      | Some n => Ok (fst y, (fst p, AtObj i 0), [], [VDevice (n_addr n) None])
      end
  | q =>
      do x <- vstep le net snet db c q w ;;
      let '(c1, q1, s, t) := x in
      Ok (c1, (fst p, q1), s, t)
  end.
Fixpoint brun (c : ctrl) (p : bpos) (ws : list (list arrival)) : res (ctrl * bpos * list post * list vline) :=
  match ws with
  | [] => Ok (c, p, [], [])
  | w :: r =>
      do x <- bstep c p w ;;
      let '(c1, p1, s1, t1) := x in
      do y <- brun c1 p1 r ;;
      let '(c2, p2, s2, t2) := y in
      Ok (c2, p2, s1 ++ s2, t1 ++ t2)
  end.
End Bench.
