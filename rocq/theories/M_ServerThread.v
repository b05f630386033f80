(* A server thread that receives while another thread stops the server or deletes the node.  Every
   read of shared memory and every release is one step; the steps of the two threads interleave in
   any order.  One server and its thread are modelled; the servers of a node share nothing but the node.

   Simplifications: the compiler and the processor do not reorder; the wait of 200 ms in
   uecho_thread_stop (util/thread.c:144-163) has no step of its own, as it waits for nothing and any number of steps of
   the receiver may happen between two steps of the stopping thread anyway. *)
From Coq Require Import ZArith List Bool.
From Verif Require Import CSem.
Import ListNotations.

(* what recvfrom returns *)
Inductive outcome : Type := ODatagram | OZero | OFail.

(* where the receiving thread is in udp_server.c:139-184 uecho_udp_server_action
   (mcast_server.c:134-179 uecho_mcast_server_action is the same) *)
Inductive rpc : Type :=
| RStart                 (* if (!uecho_socket_isbound(server->socket)) *)
| RLoop                  (* while (uecho_thread_isrunnable(thread)) *)
| RLoad                  (* server->socket is loaded for uecho_socket_recv *)
| RId (ptr : bool)       (* sock->id is read; [ptr]: the pointer loaded is not NULL *)
| RRecv                  (* in recvfrom *)
| RPort                  (* a datagram came: uecho_socket_getport(sock) *)
| RRun (d : bool)        (* uecho_thread_isrunnable; [d]: there is a datagram *)
| RBound (d : bool)      (* server->socket is loaded *)
| RBoundId (d : bool)    (* ... and its id read *)
| RPerform               (* the observers of the server are read *)
| RHandler               (* the handler runs on the node *)
| RExit.

(* the actions of the stopping thread on one server, in the order of server.c:126-144 uecho_server_stop *)
Inductive kact : Type :=
| KClose                 (* udp_server.c:96-109 uecho_udp_server_close: the socket is shut down and freed *)
| KNull                  (* ... and server->socket set to NULL *)
| KFlag                  (* util/thread.c:143-161 uecho_thread_stop: runnableFlag = false *)
| KFreeThread            (* util/thread.c:86-100 uecho_thread_delete *)
| KFreeServer            (* udp_server.c:40-52 uecho_udp_server_delete *)
| KFreeNode.             (* node.c:56-72 uecho_node_delete: mutex, classes and objects are freed *)

(* server.c:126-144 uecho_server_stop *)
Definition stop_prog : list kact := [KClose; KNull; KFlag; KFreeThread; KFreeServer].
(* node.c:56-72 uecho_node_delete: the objects are freed before server.c:39-51 uecho_server_delete stops the servers *)
Definition delete_prog : list kact := KFreeNode :: stop_prog.
(* controller.c:53-68 uecho_controller_delete stops the node before it deletes it *)
Definition stop_delete_prog : list kact := stop_prog ++ [KFreeNode].

Record tst : Type := mkTst {
  t_sock : bool;     (* the socket is not freed *)
  t_ptr : bool;      (* server->socket is not NULL *)
  t_thread : bool;   (* the thread object is not freed *)
  t_run : bool;      (* runnableFlag *)
  t_server : bool;   (* the server is not freed *)
  t_node : bool;     (* the objects of the node are not freed *)
  t_rpc : rpc;
  t_prog : list kact;   (* what the stopping thread has yet to do *)
  t_calls : nat         (* handler calls so far *)
}.
Definition with_rpc (p : rpc) (s : tst) : tst :=
  mkTst (t_sock s) (t_ptr s) (t_thread s) (t_run s) (t_server s) (t_node s) p (t_prog s) (t_calls s).

(* a use of an object that may have been freed *)
Definition use (live : bool) (s : tst) : res tst := if live then Ok s else Undef UB_free.

(* one step of the receiving thread; [o] is the outcome if it is in recvfrom.
   udp_server.c:139-184 uecho_udp_server_action *)
Definition recv_step (o : outcome) (s : tst) : res tst :=
  match t_rpc s with
  | RStart => if negb (t_server s) then Undef UB_free
              else if t_ptr s then use (t_sock s) (with_rpc RLoop s) else Ok (with_rpc RExit s)
  | RLoop => use (t_thread s) (with_rpc (if t_run s then RLoad else RExit) s)
  | RLoad => use (t_server s) (with_rpc (RId (t_ptr s)) s)
  | RId true => use (t_sock s) (with_rpc RRecv s)
  | RId false => Ok (with_rpc RExit s)
  | RRecv => Ok (with_rpc (match o with ODatagram => RPort | OZero => RRun false | OFail => RExit end) s)
  | RPort => use (t_sock s) (with_rpc (RRun true) s)
  | RRun d => use (t_thread s) (with_rpc (if t_run s then RBound d else RExit) s)
  | RBound d => use (t_server s) (with_rpc (if t_ptr s then RBoundId d else RExit) s)
  | RBoundId d => use (t_sock s) (with_rpc (if d then RPerform else RLoop) s)
  | RPerform => use (t_server s)
      (mkTst (t_sock s) (t_ptr s) (t_thread s) (t_run s) (t_server s) (t_node s) RHandler (t_prog s) (S (t_calls s)))
  | RHandler => use (t_node s) (with_rpc RLoop s)
  | RExit => Ok s
  end.

(* one step of the stopping thread; server.c:126-144 uecho_server_stop *)
Definition stop_step (s : tst) : tst :=
  match t_prog s with
  | [] => s
  | k :: r =>
      match k with
      | KClose => mkTst false (t_ptr s) (t_thread s) (t_run s) (t_server s) (t_node s) (t_rpc s) r (t_calls s)
      | KNull => mkTst (t_sock s) false (t_thread s) (t_run s) (t_server s) (t_node s) (t_rpc s) r (t_calls s)
      | KFlag => mkTst (t_sock s) (t_ptr s) (t_thread s) false (t_server s) (t_node s) (t_rpc s) r (t_calls s)
      | KFreeThread => mkTst (t_sock s) (t_ptr s) false (t_run s) (t_server s) (t_node s) (t_rpc s) r (t_calls s)
      | KFreeServer => mkTst (t_sock s) (t_ptr s) (t_thread s) (t_run s) false (t_node s) (t_rpc s) r (t_calls s)
      | KFreeNode => mkTst (t_sock s) (t_ptr s) (t_thread s) (t_run s) (t_server s) false (t_rpc s) r (t_calls s)
      end
  end.

(* a schedule: which thread makes each step, and what recvfrom returns if it is there *)
Inductive turn : Type := TStop | TRecv (o : outcome).
Definition turn_step (s : tst) (t : turn) : res tst :=
  match t with TStop => Ok (stop_step s) | TRecv o => recv_step o s end.
Fixpoint turns (s : tst) (l : list turn) : res tst :=
  match l with [] => Ok s | t :: r => do s' <- turn_step s t ;; turns s' r end.

(* the server is up and its thread about to begin; the other thread is about to run [prog] *)
Definition serving_state (prog : list kact) : tst := mkTst true true true true true true RStart prog 0.
