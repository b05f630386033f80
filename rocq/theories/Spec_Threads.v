(* What a program that keeps to the rules may expect of threads: each thread object is gone, idle or runs exactly one
   instance, and the answers follow from that.

   The rules: a thread object that was deleted is not used; a thread is started only when it is idle and has an action;
   the action of a running thread is not taken away, though it may be replaced;
   an action does not return before it is told to stop; the instance to be stopped takes no step between the clearing of the
   flag and pthread_kill, and at least two during the sleep, that is, it finishes the work at hand and asks. *)
From Coq Require Import List Bool Arith.
From Verif Require Import CSem M_Threads.
Import ListNotations.

(* [Runs i]: instance number [i], counted in the order of the successful starts, runs *)
Inductive sth : Type := Gone | Idle (action : bool) | Runs (i : nat).

(* the thread objects in the order of their making, and how many starts have succeeded *)
Definition sst : Type := (list sth * nat)%type.

Definition count (i : nat) (l : list (nat * bool)) : nat := length (filter (fun x => (fst x =? i)%nat) l).
Definition goes_on (l : list (nat * bool)) : bool := forallb snd l.

(* the sleep is long enough for instance [i] *)
Definition prompt (i : nat) (z s : list (nat * bool)) : bool :=
  (count i z =? 0)%nat && (2 <=? count i s)%nat && goes_on z && goes_on s.

Definition sput (t : nat) (x : sth) (s : sst) : sst := (upd t x (fst s), snd s).

Definition r_start (h : option nat) (a : answer) (s : sst) : option (sst * bool) :=
  match h with
  | None => Some (s, false)
  | Some t =>
      match nth_error (fst s) t with
      | Some (Idle true) =>
          match a with
          | AnsOk => Some ((upd t (Runs (snd s)) (fst s), S (snd s)), true)
          | _ => Some (s, false)
          end
      | _ => None
      end
  end.

Definition r_stop (h : option nat) (z x : list (nat * bool)) (s : sst) : option (sst * bool) :=
  match h with
  | None => Some (s, false)
  | Some t =>
      match nth_error (fst s) t with
      | Some (Idle _) => Some (s, true)
      | Some (Runs i) => if prompt i z x then Some (sput t (Idle true) s, true) else None
      | _ => None
      end
  end.

Definition r_restart (h : option nat) (z x : list (nat * bool)) (a : answer) (s : sst) : option (sst * bool) :=
  match r_stop h z x s with Some (s', _) => r_start h a s' | None => None end.

Definition r_delete (h : option nat) (z x : list (nat * bool)) (s : sst) : option (sst * bool) :=
  match h with
  | None => Some (s, false)
  | Some t => match r_stop (Some t) z x s with Some (s', _) => Some (sput t Gone s', true) | None => None end
  end.

Fixpoint r_list_start (l : list (nat * answer)) (s : sst) : option (sst * bool) :=
  match l with
  | [] => Some (s, true)
  | (t, a) :: r => match r_start (Some t) a s with Some (s', _) => r_list_start r s' | None => None end
  end.

Fixpoint r_list_stop (l : list (nat * (list (nat * bool) * list (nat * bool)))) (s : sst) : option (sst * bool) :=
  match l with
  | [] => Some (s, true)
  | (t, (z, x)) :: r => match r_stop (Some t) z x s with Some (s', _) => r_list_stop r s' | None => None end
  end.

(* None: the event breaks a rule *)
Definition r_step (e : event) (s : sst) : option (sst * seen) :=
  let said r := match r with Some (s', b) => Some (s', SBool b) | None => None end in
  match e with
  | ENew true => Some ((fst s ++ [Idle false], snd s), SThread (Some (length (fst s))))
  | ENew false => Some (s, SThread None)
  | EAction None _ => Some (s, SNothing)
  | EAction (Some t) act =>
      match nth_error (fst s) t with
      | Some (Idle _) => Some (sput t (Idle act) s, SNothing)
      | Some (Runs _) => if act then Some (s, SNothing) else None
      | _ => None
      end
  | EStart h a => said (r_start h a s)
  | EStop h z x => said (r_stop h z x s)
  | ERestart h z x a => said (r_restart h z x a s)
  | EDelete h z x => said (r_delete h z x s)
  | ERunning None => Some (s, SBool false)
  | ERunning (Some t) =>
      match nth_error (fst s) t with
      | Some (Idle _) => Some (s, SBool false)
      | Some (Runs _) => Some (s, SBool true)
      | _ => None
      end
  | EListStart l => said (r_list_start l s)
  | EListStop l => said (r_list_stop l s)
  | EStep _ more => if more then Some (s, SNothing) else None
  end.

Fixpoint r_run (l : list event) (s : sst) : option (sst * list seen) :=
  match l with
  | [] => Some (s, [])
  | e :: r =>
      match r_step e s with
      | None => None
      | Some (s1, x) => match r_run r s1 with Some (s2, xs) => Some (s2, x :: xs) | None => None end
      end
  end.

Definition r_empty : sst := ([], 0).

(* how many instances of thread [t] are to run *)
Definition expected (t : nat) (s : sst) : nat :=
  match nth_error (fst s) t with Some (Runs _) => 1 | _ => 0 end.
