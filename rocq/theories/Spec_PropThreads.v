(* What threads that write and read the values of properties may rely on: a map from properties to values. *)
From Coq Require Import ZArith List Bool.
From Verif Require Import CSem M_PropThreads.
Import ListNotations.
Open Scope nat_scope.

Definition values : Type := nat -> list Z.

(* one action on the map, alone *)
Definition act (v : values) (a : pact) : values * pres :=
  match a with
  | PSet p x => (fun q => if q =? p then x else v q, RSet true)
  | PGet p => (v, RGet (v p))
  end.
(* a program on the map: the map afterwards and the results *)
Fixpoint acts (v : values) (l : list pact) : values * list pres :=
  match l with
  | [] => (v, [])
  | a :: r => let '(v1, x) := act v a in let '(v2, y) := acts v1 r in (v2, x :: y)
  end.

Definition target (a : pact) : nat := match a with PSet p _ => p | PGet p => p end.
Definition touches (l : list pact) (p : nat) : Prop := exists a, In a l /\ target a = p.
Definition writes (l : list pact) (p : nat) : Prop := exists x, In (PSet p x) l.

(* no property that one thread writes is touched by another *)
Definition apart (progs : list (list pact)) : Prop :=
  forall i j l l' p, i <> j -> nth_error progs i = Some l -> nth_error progs j = Some l' -> writes l p -> ~ touches l' p.

(* the memory holds the values: every property with a value has a block of its own with the value, every other one has none,
   and there is no other block *)
Definition holds (v : values) (m : pmem) : Prop :=
  (forall p, match v p with
             | [] => m_props m p = mkPcell None 0
             | x => exists d, m_props m p = mkPcell (Some d) (length x) /\ m_blks m d = Some x
             end) /\
  (forall p q d, c_data (m_props m p) = Some d -> c_data (m_props m q) = Some d -> p = q) /\
  (forall d, m_blks m d <> None -> d < m_next m /\ exists p, c_data (m_props m p) = Some d).

(* the values once every program has run: that of the thread that writes the property *)
Definition final (v0 : values) (progs : list (list pact)) (v : values) : Prop :=
  forall p,
    (forall i l, nth_error progs i = Some l -> writes l p -> v p = fst (acts v0 l) p) /\
    ((forall i l, nth_error progs i = Some l -> ~ writes l p) -> v p = v0 p).
Definition finished (t : pthr) : Prop := t_pc t = PIdle /\ t_todo t = [].

(* the action a thread is in the middle of *)
Definition at_work (t : pthr) : option pact :=
  match t_pc t with PIdle => None | PInSet p v _ => Some (PSet p v) | PInGet p _ => Some (PGet p) end.
(* nobody is at work on a property that another thread is writing *)
Definition no_conflict (ts : list pthr) : Prop :=
  forall i j t t' p v a, i <> j -> nth_error ts i = Some t -> nth_error ts j = Some t' ->
    at_work t = Some (PSet p v) -> at_work t' = Some a -> target a <> p.
(* as a schedule would have it if the callers excluded each other *)
Definition careful (sf : bool) (m : pmem) (ts : list pthr) (sched : list nat) : Prop :=
  forall k m' ts', psched sf m ts (firstn k sched) = Ok (m', ts') -> no_conflict ts'.

(* one after the other: [tr] is the order in which the threads' actions took effect *)
Definition of_thread {A : Type} (i : nat) (tr : list (nat * A)) : list A := map snd (filter (fun x => fst x =? i) tr).
Definition results (v0 : values) (tr : list (nat * pact)) : list (nat * pres) :=
  combine (map fst tr) (snd (acts v0 (map snd tr))).
Definition explained (v0 : values) (progs : list (list pact)) (ts : list pthr) (tr : list (nat * pact)) : Prop :=
  length ts = length progs /\
  (forall x, In x tr -> fst x < length progs) /\
  forall i t, nth_error ts i = Some t ->
    nth_error progs i = Some (of_thread i tr ++ match at_work t with None => [] | Some a => [a] end ++ t_todo t) /\
    t_log t = of_thread i (results v0 tr).
