(* What a user may expect of the resources of a server. *)
From Coq Require Import String ZArith List Bool.
From Verif Require Import CSem M_Socket.
Import ListNotations.
Open Scope Z_scope.

(* ---- histories of one server, a UDP server or a multicast server: opened, closed and used for sending, with
   any answers of the system ---- *)
Inductive kop : Type :=
| KOpen (addr : string) (a : answers)
| KClose
| KPost (addr : string) (data : list Z) (a : answers).
Definition kstep (multicast : bool) (x : world * option sock) (op : kop) : res (world * option sock) :=
  let '(w, s) := x in
  match op with
  | KOpen addr a =>
      do r <- (if multicast then uecho_mcast_server_open else uecho_udp_server_open) a w s addr ;; let '(w, s, _) := r in Ok (w, s)
  | KClose => server_close w s
  | KPost addr data a => do r <- server_post a w s addr data ;; let '(w, s, _, _) := r in Ok (w, s)
  end.
Fixpoint krun (multicast : bool) (x : world * option sock) (ops : list kop) : res (world * option sock) :=
  match ops with [] => Ok x | op :: r => do y <- kstep multicast x op ;; krun multicast y r end.

(* the system gives descriptors that are not in use, so far as this history goes *)
Definition fd_ok (w : world) (fd : Z) : Prop := fd = -1 \/ (0 <= fd /\ ~ In fd (w_fds w)).
Definition op_answers (op : kop) : option answers :=
  match op with KOpen _ a => Some a | KClose => None | KPost _ _ a => Some a end.
Inductive fresh (multicast : bool) : world * option sock -> list kop -> Prop :=
| f_nil : forall x, fresh multicast x []
| f_cons : forall x op y r, (forall a, op_answers op = Some a -> fd_ok (fst x) (an_socket a)) ->
    kstep multicast x op = Ok y -> fresh multicast y r -> fresh multicast x (op :: r).
(* no descriptor is 0 *)
Definition not_zero (op : kop) : Prop := forall a, op_answers op = Some a -> an_socket a <> 0.

(* the address record of an open is not freed: the address was found, and then socket() or an option failed *)
Definition loses (multicast : bool) (op : kop) : bool :=
  match op with
  | KOpen _ a => an_info a && (negb multicast || an_info2 a)
      && ((an_socket a =? -1) || negb (an_reuse a) || (multicast && negb (an_ttl a)))
  | _ => false
  end.
Definition lost (multicast : bool) (ops : list kop) : Z := len (filter (loses multicast) ops).

(* the last value set for an option *)
Definition option_is (w : world) (fd : Z) (o : optname) (v : optval) : Prop :=
  exists p q, w_opts w = p ++ (fd, o, v) :: q /\ forall v', ~ In (fd, o, v') p.
Definition option_unset (w : world) (fd : Z) (o : optname) : Prop := forall v, ~ In (fd, o, v) (w_opts w).
