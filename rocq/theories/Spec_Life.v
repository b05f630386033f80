(* What a program that uses classes, manufacturers, values of enumerations, network interfaces, threads and their lists may
   do, and what it must see when there is memory: elements and lists as values, no memory. *)
From Coq Require Import ZArith List Bool.
From Verif Require Import CSem M_Life.
Import ListNotations.
Open Scope Z_scope.

(* an element: its code and its texts (None: never set) *)
Definition elem : Type := (Z * list (option (list Z)))%type.
(* what the program created, in order; [SGone]: deleted, or given to a list *)
Inductive slot : Type :=
| SElem (k : kind) (e : elem)
| SList (k : kind) (l : list elem)
| SGone.

Definition fresh_elem (k : kind) : elem := (0, repeat None (strings_of k)).
Fixpoint put_at {A : Type} (i : nat) (x : A) (l : list A) : list A :=
  match l, i with
  | [], _ => []
  | _ :: r, O => x :: r
  | y :: r, S n => y :: put_at n x r
  end.
(* the list without its first element of the code [c] *)
Fixpoint without (c : Z) (l : list elem) : list elem :=
  match l with
  | [] => []
  | e :: r => if fst e =? c then r else e :: without c r
  end.
(* an enumeration has one value per code *)
Definition append (k : kind) (l : list elem) (e : elem) : list elem :=
  match k with KEnum => without (fst e) l ++ [e] | _ => l ++ [e] end.
(* the element number [n] changed, or taken out; nothing happens when there is none *)
Fixpoint change_at {A : Type} (n : nat) (f : A -> A) (l : list A) : list A :=
  match l, n with
  | [], _ => []
  | e :: r, O => f e :: r
  | e :: r, S m => e :: change_at m f r
  end.
Fixpoint drop_at {A : Type} (n : nat) (l : list A) : list A :=
  match l, n with
  | [], _ => []
  | _ :: r, O => r
  | e :: r, S m => e :: drop_at m r
  end.
Definition text_of (o : option elem) (j : nat) : option (list Z) := match o with Some e => nth j (snd e) None | None => None end.

(* one call; None: it is not allowed *)
Definition spec_step (op : lop) (st : list slot) : option (lobs * list slot) :=
  match op with
  | LNew k => Some (VDone, st ++ [SElem k (fresh_elem k)])
  | LList k => Some (VDone, st ++ [SList k []])
  | LCode i c =>
      match nth_error st i with
      | Some (SElem k e) => if has_code k then Some (VDone, put_at i (SElem k (c, snd e)) st) else None
      | _ => None
      end
  | LText i j t =>
      match nth_error st i with
      | Some (SElem k e) =>
          if (j <? strings_of k)%nat && forallb (fun c => negb (c =? 0)) t && (len t + 1 <? SIZE_MOD)
          then Some (VDone, put_at i (SElem k (fst e, put_at j (Some t) (snd e))) st) else None
      | _ => None
      end
  | LGet i j =>
      match nth_error st i with
      | Some (SElem k e) => if (j <? strings_of k)%nat then Some (VText (text_of (Some e) j), st) else None
      | _ => None
      end
  | LGetCode i =>
      match nth_error st i with
      | Some (SElem k e) => if has_code k then Some (VNum (fst e), st) else None
      | _ => None
      end
  | LDelete i => match nth_error st i with Some (SElem _ _) => Some (VDone, put_at i SGone st) | _ => None end
  | LAdd l i =>
      match nth_error st l, nth_error st i with
      | Some (SList k es), Some (SElem k' e) =>
          if kind_eqb k k' then Some (VDone, put_at l (SList k (append k es e)) (put_at i SGone st)) else None
      | _, _ => None
      end
  | LWalk l => match nth_error st l with Some (SList _ es) => Some (VAll es, st) | _ => None end
  | LFind l c j =>
      match nth_error st l with
      | Some (SList k es) =>
          if has_code k && (j <? strings_of k)%nat
          then Some (VText (text_of (List.find (fun e => fst e =? c) es) j), st) else None
      | _ => None
      end
  | LDrop l => match nth_error st l with Some (SList _ _) => Some (VDone, put_at l SGone st) | _ => None end
  | LCodeAt l n c =>
      match nth_error st l with
      | Some (SList k es) =>
          if has_code k then Some (VDone, put_at l (SList k (change_at n (fun e => (c, snd e)) es)) st) else None
      | _ => None
      end
  | LTextAt l n j t =>
      match nth_error st l with
      | Some (SList k es) =>
          if (j <? strings_of k)%nat && forallb (fun c => negb (c =? 0)) t && (len t + 1 <? SIZE_MOD)
          then Some (VDone, put_at l (SList k (change_at n (fun e => (fst e, put_at j (Some t) (snd e))) es)) st) else None
      | _ => None
      end
  | LDeleteAt l n =>
      match nth_error st l with Some (SList k es) => Some (VDone, put_at l (SList k (drop_at n es)) st) | _ => None end
  end.
Fixpoint spec_run (ops : list lop) (st : list slot) : option (list lobs * list slot) :=
  match ops with
  | [] => Some ([], st)
  | op :: r =>
      match spec_step op st with
      | None => None
      | Some (v, st1) => match spec_run r st1 with None => None | Some (vs, st2) => Some (v :: vs, st2) end
      end
  end.
Definition everything_gone (st : list slot) : Prop := Forall (fun s => s = SGone) st.
