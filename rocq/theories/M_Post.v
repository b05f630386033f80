(* Posting a request and waiting for its response, with all threads interleaved: application
   threads in uecho_controller_postmessage and the threads of the servers in
   uecho_controller_servermessagelistener.  Every load and store of postReqMsg and postResMsg,
   every lock, wait, wakeup and signal is a step of its own.  Messages are in memory at
   addresses; 0 is NULL and a freed message is absent.  That a data race has no defined meaning
   at all in C11 is not used.

   Simplifications: copying the response (message.c:975-1006 uecho_message_set), comparing
   it with the request (message.c:418-430 uecho_message_isresponsemessage) and sending the request
   (node.c:502-517 uecho_node_sendmessage) are one step each.  uecho_cond_signal and the entry
   into the wait are one step each: they hold the mutex of the condition variable and do nothing
   else.  What the listener does besides (message listener, search responses, shadow nodes) does
   not touch the two pointers and is left out. *)
From Coq Require Import ZArith List Bool String.
From Verif Require Import CSem M_Const M_Message M_Node.
Import ListNotations.
Open Scope Z_scope.

(* where a thread is in controller.c:482-519 uecho_controller_postmessage *)
Inductive ppc : Type :=
| PIdle                       (* not in a call *)
| PLock                       (* line 490 *)
| PSetReq                     (* line 492 *)
| PSetRes                     (* line 493 *)
| PSending                    (* line 495 *)
| PFailed                     (* line 496, the request could not be sent *)
| PWait                       (* line 510, about to wait: cond.c:71-87 uecho_cond_timedwait *)
| PWaiting                    (* waiting *)
| PClearReq (b : bool)        (* line 513; the wait ended with b *)
| PClearRes (b : bool)        (* line 514 *)
| PUnlock (b : bool).         (* line 516 *)
Record poster : Type := mkPoster { p_pc : ppc; p_dst : node; p_req : Z; p_res : Z }.

(* where a server thread is in controller_listener.c:190-216 uecho_controller_servermessagelistener
   with the message it has received *)
Inductive rpc : Type :=
| RArrived                    (* controller.c:448, about to load postReqMsg *)
| RSawReq                     (* controller.c:448, about to load postResMsg *)
| RHandle                     (* controller.c:421, about to load postReqMsg *)
| RCheck                      (* controller.c:424, about to load postReqMsg *)
| RCompare (a : Z)            (* about to compare with the message at a *)
| RStore                      (* controller_listener.c:154, about to load postResMsg *)
| RCopy (a : Z)               (* about to copy into the message at a *)
| RSignal                     (* controller_listener.c:155 *)
| RDone.
Record receiver : Type := mkReceiver { r_pc : rpc; r_msg : msg }.

(* what happened, newest first.  [EReturn i b m]: the call of thread [i] returned [b] and the
   response message of the call is then [m] *)
Inductive event : Type :=
| ECall (i : nat)
| ESend (i : nat) (q : msg)
| EHandle (m : msg)
| EWake (i : nat)
| EReturn (i : nat) (b : bool) (m : option msg).

Record pstate : Type := mkP {
  ps_mem : Z -> option msg;
  ps_req : Z;                 (* postReqMsg *)
  ps_res : Z;                 (* postResMsg *)
  ps_owner : option nat;      (* the thread that holds the mutex of the controller *)
  ps_node : node;             (* the node of the controller *)
  ps_posters : list poster;
  ps_receivers : list receiver;
  ps_log : list event
}.

Definition with_mem (f : Z -> option msg) (s : pstate) : pstate :=
  mkP f (ps_req s) (ps_res s) (ps_owner s) (ps_node s) (ps_posters s) (ps_receivers s) (ps_log s).
Definition with_req (a : Z) (s : pstate) : pstate :=
  mkP (ps_mem s) a (ps_res s) (ps_owner s) (ps_node s) (ps_posters s) (ps_receivers s) (ps_log s).
Definition with_res (a : Z) (s : pstate) : pstate :=
  mkP (ps_mem s) (ps_req s) a (ps_owner s) (ps_node s) (ps_posters s) (ps_receivers s) (ps_log s).
Definition with_owner (o : option nat) (s : pstate) : pstate :=
  mkP (ps_mem s) (ps_req s) (ps_res s) o (ps_node s) (ps_posters s) (ps_receivers s) (ps_log s).
Definition with_pnode (n : node) (s : pstate) : pstate :=
  mkP (ps_mem s) (ps_req s) (ps_res s) (ps_owner s) n (ps_posters s) (ps_receivers s) (ps_log s).
Definition with_posters (l : list poster) (s : pstate) : pstate :=
  mkP (ps_mem s) (ps_req s) (ps_res s) (ps_owner s) (ps_node s) l (ps_receivers s) (ps_log s).
Definition with_receivers (l : list receiver) (s : pstate) : pstate :=
  mkP (ps_mem s) (ps_req s) (ps_res s) (ps_owner s) (ps_node s) (ps_posters s) l (ps_log s).
Definition log (e : event) (s : pstate) : pstate :=
  mkP (ps_mem s) (ps_req s) (ps_res s) (ps_owner s) (ps_node s) (ps_posters s) (ps_receivers s) (e :: ps_log s).

Definition store (a : Z) (m : option msg) (f : Z -> option msg) : Z -> option msg :=
  fun x => if x =? a then m else f x.
Fixpoint put {A : Type} (i : nat) (x : A) (l : list A) : list A :=
  match l, i with
  | [], _ => []
  | _ :: r, O => x :: r
  | y :: r, S j => y :: put j x r
  end.

(* a message behind a pointer that is not NULL *)
Definition load (s : pstate) (a : Z) : res msg :=
  match ps_mem s a with Some m => Ok m | None => Undef UB_free end.

Definition goto (i : nat) (p : poster) (c : ppc) (s : pstate) : pstate :=
  with_posters (put i (mkPoster c (p_dst p) (p_req p) (p_res p)) (ps_posters s)) s.
Definition rgoto (j : nat) (r : receiver) (c : rpc) (s : pstate) : pstate :=
  with_receivers (put j (mkReceiver c (r_msg r)) (ps_receivers s)) s.

(* the first waiting thread (at most one can wait, since it holds the mutex of the controller) *)
Fixpoint waiting (i : nat) (l : list poster) : option (nat * poster) :=
  match l with
  | [] => None
  | p :: r => match p_pc p with PWaiting => Some (i, p) | _ => waiting (S i) r end
  end.

Section Post.
Variable le : bool.

(* controller.c:482-519 uecho_controller_postmessage, one step of thread [i]; [ok] says whether
   the socket takes the request if this is the step that sends it.  A thread that cannot go
   on (it waits for the mutex or for the condition variable) stays where it is. *)
Definition post_step (ok : bool) (i : nat) (p : poster) (s : pstate) : res pstate :=
  match p_pc p with
  | PIdle | PWaiting => Ok s
  | PLock =>
      match ps_owner s with
      | Some _ => Ok s
      | None => Ok (goto i p PSetReq (with_owner (Some i) s))
      end
  | PSetReq => Ok (goto i p PSetRes (with_req (p_req p) s))
  | PSetRes => Ok (goto i p PSending (with_res (p_res p) s))
  | PSending =>
      if p_req p =? 0 then Ok (goto i p PFailed s)
      else
        do q <- load s (p_req p) ;;
        do x <- uecho_node_sendmessage le (fun _ => ok) (ps_node s) (p_dst p) q ;;
        Ok (log (ESend i (s_msg x))
             (goto i p (if s_ret x then PWait else PFailed)
               (with_mem (store (p_req p) (Some (s_msg x)) (ps_mem s)) (with_pnode (s_node x) s))))
  | PFailed => Ok (log (EReturn i false (ps_mem s (p_res p))) (goto i p PIdle (with_owner None s)))
  | PWait => Ok (goto i p PWaiting s)
  | PClearReq b => Ok (goto i p (PClearRes b) (with_req 0 s))
  | PClearRes b => Ok (goto i p (PUnlock b) (with_res 0 s))
  | PUnlock b => Ok (log (EReturn i b (ps_mem s (p_res p))) (goto i p PIdle (with_owner None s)))
  end.

(* cond.c:93-103 uecho_cond_signal: wakes a waiting thread, if there is one *)
Definition uecho_cond_signal (s : pstate) : pstate :=
  match waiting 0 (ps_posters s) with
  | None => s
  | Some (i, p) => log (EWake i) (goto i p (PClearReq true) s)
  end.

(* controller_listener.c:149-156 uecho_controller_handlepostresponse,
   controller.c:416-425 uecho_controller_ispostresponsemessage,
   controller.c:446-452 uecho_controller_ispostresponsewaiting: one step of receiver [j] *)
Definition recv_step (j : nat) (r : receiver) (s : pstate) : res pstate :=
  match r_pc r with
  | RArrived => Ok (if ps_req s =? 0 then rgoto j r RDone s else log (EHandle (r_msg r)) (rgoto j r RSawReq s))
  | RSawReq => Ok (rgoto j r (if ps_res s =? 0 then RDone else RHandle) s)
  | RHandle => Ok (rgoto j r (if ps_req s =? 0 then RDone else RCheck) s)
  | RCheck => Ok (rgoto j r (RCompare (ps_req s)) s)
  | RCompare a =>
      if a =? 0 then Ok (rgoto j r RDone s)
      else do q <- load s a ;;
           Ok (rgoto j r (if uecho_message_isresponsemessage le q (r_msg r) then RStore else RDone) s)
  | RStore => Ok (rgoto j r (RCopy (ps_res s)) s)
  | RCopy a =>
      if a =? 0 then Ok (rgoto j r RSignal s)
      else do m <- load s a ;;
           do m' <- uecho_message_set le m (r_msg r) ;;
           Ok (rgoto j r RSignal (with_mem (store a (Some m') (ps_mem s)) s))
  | RSignal => Ok (rgoto j r RDone (uecho_cond_signal s))
  | RDone => Ok s
  end.

(* [LCall i d q r]      thread [i] calls uecho_controller_postmessage for node [d]
   [LPost i ok]         thread [i] takes a step
   [LTimeout i]         the wait of thread [i] times out
   [LSpurious i]        pthread_cond_timedwait of thread [i] returns 0 without a signal
   [LReceive m]         a server thread has received [m] and gets to the listener
   [LStep j]            receiver [j] takes a step
   [LNew a m], [LFree a]  the application creates (or rewrites) or frees a message *)
Inductive label : Type :=
| LCall (i : nat) (d : node) (q r : Z)
| LPost (i : nat) (ok : bool)
| LTimeout (i : nat)
| LSpurious (i : nat)
| LReceive (m : msg)
| LStep (j : nat)
| LNew (a : Z) (m : msg)
| LFree (a : Z).

Definition pstep (s : pstate) (l : label) : res pstate :=
  match l with
  | LCall i d q r =>
      match nth_error (ps_posters s) i with
      | Some p => match p_pc p with
                  | PIdle => Ok (log (ECall i) (with_posters (put i (mkPoster PLock d q r) (ps_posters s)) s))
                  | _ => Ok s
                  end
      | None => Ok s
      end
  | LPost i ok => match nth_error (ps_posters s) i with Some p => post_step ok i p s | None => Ok s end
  | LTimeout i =>
      match nth_error (ps_posters s) i with
      | Some p => match p_pc p with PWaiting => Ok (goto i p (PClearReq false) s) | _ => Ok s end
      | None => Ok s
      end
  | LSpurious i =>
      match nth_error (ps_posters s) i with
      | Some p => match p_pc p with PWaiting => Ok (goto i p (PClearReq true) s) | _ => Ok s end
      | None => Ok s
      end
  | LReceive m => Ok (with_receivers (ps_receivers s ++ [mkReceiver RArrived m]) s)
  | LStep j => match nth_error (ps_receivers s) j with Some r => recv_step j r s | None => Ok s end
  | LNew a m => Ok (with_mem (store a (Some m) (ps_mem s)) s)
  | LFree a => Ok (with_mem (store a None (ps_mem s)) s)
  end.

Fixpoint prun (s : pstate) (sched : list label) : res pstate :=
  match sched with
  | [] => Ok s
  | l :: r => do s' <- pstep s l ;; prun s' r
  end.
End Post.

(* [k] application threads, no message received yet; postReqMsg is not initialised by
   controller.c:20-47 uecho_controller_new, so it may be anything *)
Definition post_init (n : node) (k : nat) (mem : Z -> option msg) (req : Z) : pstate :=
  mkP mem req 0 None n (repeat (mkPoster PIdle n 0 0) k) [] [].

(* cond.c:71-87 uecho_cond_timedwait: the deadline in nanoseconds for the time [now] in
   nanoseconds (time(NULL) gives whole seconds); [cps] is CLOCKS_PER_SEC *)
Definition wait_deadline (cps now mtime : Z) : Z := (now / 1000000000 + mtime ÷ cps) * 1000000000.
