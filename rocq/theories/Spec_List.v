(* What lists are for: sequences of elements.  A state holds the lists, each named by its
   header, with their elements in order, and the initialised elements that are in no list. *)
From Coq Require Import ZArith List Bool.
Import ListNotations.
Open Scope Z_scope.

Record lists : Type := mkLists { seqs : list (Z * list Z); loose : list Z }.

Definition ring (s : Z * list Z) : list Z := fst s :: snd s.
(* every address in use *)
Definition used (w : lists) : list Z := flat_map ring (seqs w) ++ loose w.

(* [has w h l]: the list with header [h] holds [l] *)
Definition has (w : lists) (h : Z) (l : list Z) : Prop := In (h, l) (seqs w).

(* replace the contents of list [h] *)
Definition put_seq (h : Z) (f : list Z -> list Z) (s : list (Z * list Z)) : list (Z * list Z) :=
  map (fun e => if fst e =? h then (fst e, f (snd e)) else e) s.
Definition drop (x : Z) (l : list Z) : list Z := filter (fun y => negb (y =? x)) l.
Fixpoint after (p x : Z) (l : list Z) : list Z :=
  match l with
  | [] => []
  | y :: r => if y =? p then y :: x :: r else y :: after p x r
  end.

(* [LHeader a], [LNode a]  allocate a cell and initialise it as a header, as an element
   [LAdd h x]              append element [x] to list [h]
   [LInsert p x]           put element [x] behind [p], a header or an element of a list
   [LRemove x]             take element [x] out of its list, if it is in one
   [LFree x]               free an element that is in no list, or the header of an empty list
   [LClear h]              take all elements out of list [h] and free them *)
Inductive lop : Type :=
| LHeader (a : Z)
| LNode (a : Z)
| LAdd (h x : Z)
| LInsert (p x : Z)
| LRemove (x : Z)
| LFree (x : Z)
| LClear (h : Z).

Definition elements (w : lists) : list Z := flat_map (@snd Z (list Z)) (seqs w).
Definition headers (w : lists) : list Z := map (@fst Z (list Z)) (seqs w).

(* what a caller has to respect *)
Definition lop_ok (w : lists) (o : lop) : Prop :=
  match o with
  | LHeader a | LNode a => a <> 0 /\ ~ In a (used w)
  | LAdd h x => In h (headers w) /\ In x (loose w)
  | LInsert p x => (In p (headers w) \/ In p (elements w)) /\ In x (loose w)
  | LRemove x => In x (elements w) \/ In x (loose w)
  | LFree x => In x (loose w) \/ has w x []
  | LClear h => In h (headers w)
  end.

Definition lstep (w : lists) (o : lop) : lists :=
  match o with
  | LHeader a => mkLists (seqs w ++ [(a, [])]) (loose w)
  | LNode a => mkLists (seqs w) (loose w ++ [a])
  | LAdd h x => mkLists (put_seq h (fun l => l ++ [x]) (seqs w)) (drop x (loose w))
  | LInsert p x =>
      mkLists (map (fun e => (fst e, if fst e =? p then x :: snd e else after p x (snd e))) (seqs w)) (drop x (loose w))
  | LRemove x => mkLists (map (fun e => (fst e, drop x (snd e))) (seqs w)) (drop x (loose w) ++ [x])
  | LFree x => mkLists (filter (fun e => negb (fst e =? x)) (seqs w)) (drop x (loose w))
  | LClear h => mkLists (put_seq h (fun _ => []) (seqs w)) (loose w)
  end.

(* a history all of whose operations respect their conditions, and where it leads *)
Inductive lruns : lists -> list lop -> lists -> Prop :=
| lruns_nil : forall w, lruns w [] w
| lruns_cons : forall w o r w', lop_ok w o -> lruns (lstep w o) r w' -> lruns w (o :: r) w'.

Definition no_lists : lists := mkLists [] [].
