(* What a posted request is for: when the call returns true, the response message is a copy of a
   message that was handled after the request had been sent and that answers it.  The log of a
   run is newest first. *)
From Coq Require Import ZArith List Bool.
From Verif Require Import CSem M_Const M_Property M_Message M_Node Spec_Message M_Post.
Import ListNotations.
Open Scope Z_scope.

(* [r] is a copy of message [m]: header, TID, objects, service, addresses and the properties *)
Definition prop_pair (p : prop) : Z * list Z := (p_code p, p_data p).
Definition copied (m r : msg) : Prop :=
  m_ehd1 r = m_ehd1 m /\ m_ehd2 r = m_ehd2 m /\ m_tid r = m_tid m /\ m_seoj r = m_seoj m /\ m_deoj r = m_deoj m
  /\ m_esv r = m_esv m /\ m_from r = m_from m /\ m_to r = m_to m
  /\ map prop_pair (stored (m_p r)) = map prop_pair (stored (m_p m)).

(* [m] answers request [q]: it carries its TID and is of another service *)
Definition answers (q m : msg) : Prop := m_tid m = m_tid q /\ m_esv m <> m_esv q.

(* event [e] starts a call of thread [i] or sends its request *)
Definition begins (i : nat) (e : event) : Prop :=
  match e with ECall k | ESend k _ => k = i | _ => False end.

(* in [L], thread [i] has sent [q] in its latest call, and [B] is what happened since *)
Definition sent_in (i : nat) (L : list event) (q : msg) (B : list event) : Prop :=
  exists C, L = B ++ ESend i q :: C /\ Forall (fun e => ~ begins i e) B.

(* the response message [r] of thread [i]'s latest call is a copy of an answer that was handled
   after the request had been sent *)
Definition answered (i : nat) (L : list event) (r : option msg) : Prop :=
  exists q B m rm, sent_in i L q B /\ In (EHandle m) B /\ answers q m /\ r = Some rm /\ copied m rm.

(* a receiver that has found a request pending and has not signalled yet *)
Definition in_section (c : rpc) : bool :=
  match c with RSawReq | RHandle | RCheck | RCompare _ | RStore | RCopy _ | RSignal => true | RArrived | RDone => false end.
Definition quiet (s : pstate) : Prop := Forall (fun r => in_section (r_pc r) = false) (ps_receivers s).

(* steps of a call that change the two pointers or the request *)
Definition switches (c : ppc) : bool :=
  match c with PSetReq | PSetRes | PSending | PClearReq _ | PClearRes _ => true | _ => false end.

Definition busy_call (p : poster) : Prop := p_pc p <> PIdle.
(* nobody but the application uses the message at [a] *)
Definition private (s : pstate) (a : Z) : Prop :=
  a <> 0 /\ a <> ps_req s /\ a <> ps_res s /\
  forall i p, nth_error (ps_posters s) i = Some p -> busy_call p -> a <> p_req p /\ a <> p_res p.

Definition a_message (le : bool) (m : msg) : Prop := api_msg le m /\ in_memory m.

(* What the code relies on: two different messages are passed and they live during the
   call, and the pointers are not switched while a receiver is between its check and its signal. *)
Definition calm (le : bool) (s : pstate) (l : label) : Prop :=
  match l with
  | LCall _ _ q r => q <> r /\ q <> 0 /\ r <> 0 /\ ps_mem s q <> None /\ ps_mem s r <> None
  | LPost i _ => forall p, nth_error (ps_posters s) i = Some p -> switches (p_pc p) = true -> quiet s
  | LTimeout _ | LSpurious _ | LStep _ => True
  | LReceive m => a_message le m
  | LNew a m => private s a /\ a_message le m
  | LFree a => private s a
  end.
Definition spurious (l : label) : bool := match l with LSpurious _ => true | _ => false end.

(* a schedule from [s] to [s'] all of whose steps are calm *)
Inductive calm_run (le : bool) : pstate -> list label -> pstate -> Prop :=
| calm_nil : forall s, calm_run le s [] s
| calm_cons : forall s l s1 r s2, calm le s l -> pstep le s l = Ok s1 -> calm_run le s1 r s2 -> calm_run le s (l :: r) s2.

(* the steps of a call between taking and giving back the mutex *)
Definition inside (c : ppc) : bool := match c with PIdle | PLock => false | _ => true end.

(* What an application can see to on its own: it passes two different live messages, and it does
   not change or free a message of a call in progress.  It cannot see what receivers do. *)
Definition unused (s : pstate) (a : Z) : Prop :=
  a <> 0 /\ forall i p, nth_error (ps_posters s) i = Some p -> busy_call p -> a <> p_req p /\ a <> p_res p.
Definition polite (le : bool) (s : pstate) (l : label) : Prop :=
  match l with
  | LCall _ _ q r => q <> r /\ q <> 0 /\ r <> 0 /\ ps_mem s q <> None /\ ps_mem s r <> None
  | LPost _ _ | LTimeout _ | LSpurious _ | LStep _ => True
  | LReceive m => a_message le m
  | LNew a m => unused s a /\ a_message le m
  | LFree a => unused s a
  end.
Inductive polite_run (le : bool) : pstate -> list label -> pstate -> Prop :=
| polite_nil : forall s, polite_run le s [] s
| polite_cons : forall s l s1 r s2, polite le s l -> pstep le s l = Ok s1 -> polite_run le s1 r s2 -> polite_run le s (l :: r) s2.

(* event [e] is the beginning or the end of a call of thread [i] *)
Definition ends (i : nat) (e : event) : Prop := match e with ECall k | EReturn k _ _ => k = i | _ => False end.
