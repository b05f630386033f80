(* Which schedules of a receiving and a stopping thread are harmless. *)
From Coq Require Import ZArith List Bool.
From Verif Require Import CSem M_ServerThread.
Import ListNotations.

(* the stop has returned *)
Definition returned (s : tst) : Prop := t_prog s = [].

(* Turns that avoid the races: the socket is released only while the thread waits in recvfrom (or has
   ended), and the thread takes no step before the pointer to it is NULL; a socket that was shut down gives no
   datagram; the thread has ended before its thread object is released (so the wait of 200 ms was
   long enough). *)
Definition mild (s : tst) (t : turn) : Prop :=
  match t with
  | TStop => match t_prog s with
             | KClose :: _ => t_rpc s = RRecv \/ t_rpc s = RExit
             | KFreeThread :: _ => t_rpc s = RExit
             | _ => True
             end
  | TRecv o => match t_prog s with KNull :: _ => False | _ => True end
               /\ (t_sock s = false -> o <> ODatagram)
  end.
Fixpoint mild_turns (s : tst) (l : list turn) : Prop :=
  match l with
  | [] => True
  | t :: r => mild s t /\ forall s', turn_step s t = Ok s' -> mild_turns s' r
  end.
