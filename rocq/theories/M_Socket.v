(* net/socket.c, frame/udp_server.c and frame/mcast_server.c: the system resources of a server, and the
   stream functions of a socket.

   The world is what the process holds: the open descriptors, the address records of getaddrinfo not yet
   freed, the options set on descriptors, and the counter of uecho_socket_startup.  The answers of the
   system to a call are arguments.  Not modelled: Windows, OpenSSL, SO_NOSIGPIPE, IP_PKTINFO, IPv6.
   malloc succeeds. *)
From Coq Require Import String ZArith List Bool.
From Verif Require Import CSem.
Import ListNotations.
Open Scope Z_scope.

Inductive optname : Type := O_REUSEADDR | O_MULTICAST_TTL | O_MULTICAST_LOOP | O_MULTICAST_IF | O_ADD_MEMBERSHIP.
Inductive optval : Type := VInt (z : Z) | VIf (addr : string) | VMember (group addr : string).
Record world : Type := mkWorld {
  w_fds : list Z;
  w_infos : Z;
  w_opts : list (Z * optname * optval);
  w_users : Z }.

Definition with_fds f w := mkWorld f (w_infos w) (w_opts w) (w_users w).
Definition with_infos i w := mkWorld (w_fds w) i (w_opts w) (w_users w).
Definition with_opts o w := mkWorld (w_fds w) (w_infos w) o (w_users w).
Definition with_users u w := mkWorld (w_fds w) (w_infos w) (w_opts w) u.

(* socket(): -1 or a new descriptor *)
Definition sys_socket (fd : Z) (w : world) : world := if fd =? -1 then w else with_fds (fd :: w_fds w) w.
(* close(): the options go with the descriptor *)
Definition sys_close (fd : Z) (w : world) : world :=
  mkWorld (filter (fun x => negb (x =? fd)) (w_fds w)) (w_infos w)
    (filter (fun o => negb (fst (fst o) =? fd)) (w_opts w)) (w_users w).
(* setsockopt(), if it succeeds *)
Definition sys_setopt (ok : bool) (fd : Z) (o : optname) (v : optval) (w : world) : world :=
  if ok then with_opts ((fd, o, v) :: w_opts w) w else w.

(* socket.h:57-67 uEchoSocket *)
Record sock : Type := mkSock { k_id : Z; k_addr : string; k_port : Z }.

(* socket.c:61-81 uecho_socket_startup: the counter is an int *)
Definition uecho_socket_startup (w : world) : res world := do u <- int_chk (w_users w + 1) ;; Ok (with_users u w).
(* socket.c:87-100 uecho_socket_cleanup: SIGPIPE is back to its default if the counter is 0 or less *)
Definition uecho_socket_cleanup (w : world) : res world := do u <- int_chk (w_users w - 1) ;; Ok (with_users u w).
(* socket.c:106-136 uecho_socket_new *)
Definition uecho_socket_new (w : world) : res (world * sock) :=
  do w <- uecho_socket_startup w ;; Ok (w, mkSock (-1) "" (-1)).
(* socket.c:160-170 uecho_socket_isbound *)
Definition uecho_socket_isbound (k : sock) : bool := 0 <? k_id k.
(* socket.c:188-207 uecho_socket_setid *)
Definition uecho_socket_setid (k : sock) (id : Z) : sock := mkSock id (k_addr k) (k_port k).
(* socket.c:213-255 uecho_socket_close *)
Definition uecho_socket_close (w : world) (k : sock) : world * sock :=
  if negb (uecho_socket_isbound k) then (w, k) else (sys_close (k_id k) w, mkSock (-1) "" (-1)).
(* socket.c:142-154 uecho_socket_delete *)
Definition uecho_socket_delete (w : world) (k : sock) : res world := uecho_socket_cleanup (fst (uecho_socket_close w k)).

(* socket.c:846-867 uecho_socket_tosockaddrinfo: the answers of the two calls of getaddrinfo *)
Definition uecho_socket_tosockaddrinfo (w : world) (a1 a2 bindaddr : bool) : res (world * bool) :=
  do w <- uecho_socket_startup w ;;
  if negb a1 then Ok (w, false)
  else
    let w := with_infos (w_infos w + 1) w in
    if bindaddr then Ok (w, true)
    else
      let w := with_infos (w_infos w - 1) w in
      if negb a2 then Ok (w, false) else Ok (with_infos (w_infos w + 1) w, true).
Definition freeaddrinfo (w : world) : world := with_infos (w_infos w - 1) w.

(* socket.c:624-650 uecho_socket_setreuseaddress, without SO_REUSEPORT *)
Definition uecho_socket_setreuseaddress (ok : bool) (w : world) (k : sock) (flag : bool) : world * bool :=
  (sys_setopt ok (k_id k) O_REUSEADDR (VInt (if flag then 1 else 0)) w, ok).
(* socket.c:656-677 uecho_socket_setmulticastloop *)
Definition uecho_socket_setmulticastloop (ok : bool) (w : world) (k : sock) (flag : bool) : world * bool :=
  (sys_setopt ok (k_id k) O_MULTICAST_TTL (VInt (if flag then 1 else 0)) w, ok).
(* socket.c:683-704 uecho_socket_setmulticastttl *)
Definition uecho_socket_setmulticastttl (ok : bool) (w : world) (k : sock) (val : Z) : world * bool :=
  (sys_setopt ok (k_id k) O_MULTICAST_TTL (VInt val) w, ok).

(* socket_option.h: uEchoSocketOption *)
Record sockopt : Type := mkOpt { so_reuse : bool; so_bind : bool; so_loop : bool }.

(* the answers of the system to one call *)
Record answers : Type := mkAns {
  an_info : bool;       (* getaddrinfo *)
  an_info2 : bool;      (* getaddrinfo again *)
  an_socket : Z;        (* socket: -1 or a new descriptor *)
  an_reuse : bool;      (* setsockopt SO_REUSEADDR *)
  an_ttl : bool;        (* setsockopt IP_MULTICAST_TTL *)
  an_bind : bool;       (* bind *)
  an_minfo : bool;      (* getaddrinfo for the group *)
  an_iinfo : bool;      (* getaddrinfo for the interface *)
  an_if : bool;         (* setsockopt IP_MULTICAST_IF *)
  an_join : bool;       (* setsockopt IP_ADD_MEMBERSHIP *)
  an_sent : Z }.        (* sendto *)

(* socket.c:274-318 uecho_socket_bind *)
Definition uecho_socket_bind (a : answers) (w : world) (k : sock) (port : Z) (addr : string) (opt : sockopt) : res (world * sock * bool) :=
  if port <=? 0 then Ok (w, k, false)
  else
    do x <- uecho_socket_tosockaddrinfo w (an_info a) (an_info2 a) (so_bind opt) ;;
    let '(w, ok) := x in
    if negb ok then Ok (w, k, false)
    else
      let w := sys_socket (an_socket a) w in
      let k := uecho_socket_setid k (an_socket a) in
      if k_id k =? -1 then let '(w, k) := uecho_socket_close w k in Ok (w, k, false)
      else
        let '(w, ok) := if so_reuse opt then uecho_socket_setreuseaddress (an_reuse a) w k true else (w, true) in
        if negb ok then let '(w, k) := uecho_socket_close w k in Ok (w, k, false)
        else
          let '(w, ok) := if so_loop opt then uecho_socket_setmulticastloop (an_ttl a) w k true else (w, true) in
          if negb ok then let '(w, k) := uecho_socket_close w k in Ok (w, k, false)
          else
            let w := freeaddrinfo w in
            if negb (an_bind a) then Ok (w, k, false)
            else Ok (w, mkSock (k_id k) addr port, true).

(* socket.c:745-813 uecho_socket_joingroup, the part for IPv4 *)
Definition uecho_socket_joingroup (a : answers) (w : world) (k : sock) (group ifaddr : string) : world * bool :=
  if negb (an_minfo a) then (w, false)
  else
    let w := with_infos (w_infos w + 1) w in
    if negb (an_iinfo a) then (freeaddrinfo w, false)
    else
      let w := with_infos (w_infos w + 1) w in
      let w := sys_setopt (an_if a) (k_id k) O_MULTICAST_IF (VIf ifaddr) w in
      let w := sys_setopt (an_join a) (k_id k) O_ADD_MEMBERSHIP (VMember group ifaddr) w in
      (freeaddrinfo (freeaddrinfo w), an_if a && an_join a).

(* a datagram handed to the system: the descriptor, the destination and the bytes *)
Record dgram : Type := mkDgram { g_fd : Z; g_to : string; g_bytes : list Z }.
(* socket.h: UECHO_NET_SOCKET_MULTICAST_DEFAULT_TTL *)
Definition DEFAULT_TTL : Z := 4.
(* socket.c:540-574 uecho_socket_sendto: data is not NULL; the result as size_t; the datagrams handed over *)
Definition uecho_socket_sendto (a : answers) (w : world) (k : sock) (addr : string) (data : list Z) : res (world * sock * Z * list dgram) :=
  let bound := uecho_socket_isbound k in
  do x <- uecho_socket_tosockaddrinfo w (an_info a) (an_info2 a) true ;;
  let '(w, ok) := x in
  if negb ok then Ok (w, k, sz (-1), [])
  else
    let '(w, k) := if bound then (w, k) else (sys_socket (an_socket a) w, uecho_socket_setid k (an_socket a)) in
    let '(w, _) := uecho_socket_setmulticastttl (an_ttl a) w k DEFAULT_TTL in
    let '(sent, ds) := if 0 <=? k_id k then (an_sent a, [mkDgram (k_id k) addr data]) else (-1, []) in
    let w := freeaddrinfo w in
    let '(w, k) := if bound then (w, k) else uecho_socket_close w k in
    Ok (w, k, sz sent, ds).

(* ---- servers: udp_server.c, mcast_server.c ---- *)
Definition UDP_PORT : Z := 3610.
Definition GROUP : string := "224.0.23.0".

(* udp_server.c:96-109 uecho_udp_server_close, mcast_server.c:91-104 uecho_mcast_server_close: None is a NULL socket *)
Definition server_close (w : world) (s : option sock) : res (world * option sock) :=
  match s with
  | None => Ok (w, None)
  | Some k => let '(w, k) := uecho_socket_close w k in do w <- uecho_socket_delete w k ;; Ok (w, None)
  end.
(* udp_server.c:69-90 uecho_udp_server_open *)
Definition uecho_udp_server_open (a : answers) (w : world) (s : option sock) (addr : string) : res (world * option sock * bool) :=
  do x <- server_close w s ;;
  let '(w, _) := x in
  do x <- uecho_socket_new w ;;
  let '(w, k) := x in
  do x <- uecho_socket_bind a w k UDP_PORT addr (mkOpt true true false) ;;
  let '(w, k, ok) := x in
  if negb ok then do x <- server_close w (Some k) ;; Ok (fst x, snd x, false)
  else Ok (w, Some k, true).
(* mcast_server.c:59-85 uecho_mcast_server_open *)
Definition uecho_mcast_server_open (a : answers) (w : world) (s : option sock) (addr : string) : res (world * option sock * bool) :=
  do x <- server_close w s ;;
  let '(w, _) := x in
  do x <- uecho_socket_new w ;;
  let '(w, k) := x in
  do x <- uecho_socket_bind a w k UDP_PORT addr (mkOpt true false true) ;;
  let '(w, k, ok) := x in
  if negb ok then do x <- server_close w (Some k) ;; Ok (fst x, snd x, false)
  else
    let '(w, ok) := uecho_socket_joingroup a w k GROUP addr in
    if negb ok then do x <- server_close w (Some k) ;; Ok (fst x, snd x, false)
    else Ok (w, Some k, true).
(* mcast_server.c:256-269 uecho_mcast_server_post; udp_server_list.c:178-193 uecho_udp_serverlist_sendto sends through
   the socket of a server in the same way *)
Definition server_post (a : answers) (w : world) (s : option sock) (addr : string) (data : list Z) : res (world * option sock * bool * list dgram) :=
  match s with
  | None => Ok (w, None, false, [])
  | Some k =>
      do x <- uecho_socket_sendto a w k addr data ;;
      let '(w, k, n, ds) := x in
      Ok (w, Some k, n =? len data, ds)
  end.
(* server.c:186-198 uecho_server_sendto: a socket of its own *)
Definition server_post_alone (a : answers) (w : world) (addr : string) (data : list Z) : res (world * bool * list dgram) :=
  do x <- uecho_socket_new w ;;
  let '(w, k) := x in
  do x <- uecho_socket_sendto a w k addr data ;;
  let '(w, k, n, ds) := x in
  do w <- uecho_socket_delete w k ;;
  Ok (w, n =? len data, ds).

(* ---- streams ---- *)

(* socket.c:424-425 UECHO_NET_SOCKET_SEND_RETRY_CNT *)
Definition SEND_RETRY_CNT : Z := 10.
(* socket.c:431-477 uecho_socket_write: the loop.  [send k n] is the result of the k-th call, for n bytes; the
   bytes left and those accepted so far *)
Fixpoint write_loop (send : nat -> Z -> Z) (fuel k : nat) (left done : list Z) (retry : Z) : res (Z * list Z) :=
  match fuel with
  | O => Undef UB_loop
  | S f =>
      let n := send k (len left) in
      if n <=? 0 then
        if SEND_RETRY_CNT <? retry + 1 then Ok (0, done)
        else write_loop send f (S k) left done (retry + 1)
      else
        let done' := done ++ firstn (Z.to_nat n) left in
        let left' := skipn (Z.to_nat n) left in
        if 0 <? len left' then write_loop send f (S k) left' done' 0 else Ok (sz (len done'), done')
  end.
(* socket.c:431-477 uecho_socket_write: the result and the bytes accepted by the system *)
Definition uecho_socket_write (send : nat -> Z -> Z) (cmd : list Z) : res (Z * list Z) :=
  if len cmd <=? 0 then Ok (0, []) else write_loop send (11 * length cmd) 0 cmd [] 0.

(* socket.c: UECHO_SOCKET_LF *)
Definition LF : Z := 10.
(* the bytes a stream has to offer, then its end or an error *)
(* socket.c:482-510 uecho_socket_readline: the first loop, with a limit of bufferLen - 1; None: -1 is returned *)
Fixpoint readline_loop (input : list Z) (buf : list (option Z)) (cnt limit : Z) {struct input} : res (option (list (option Z) * Z * list Z)) :=
  if cnt <? limit then
    match input with
    | [] => Ok None
    | c :: r =>
        do buf <- wr buf cnt (Some c) ;;
        if c =? LF then Ok (Some (buf, cnt + 1, r)) else readline_loop r buf (cnt + 1) limit
    end
  else Ok (Some (buf, cnt, input)).
(* the second loop *)
Fixpoint after_lf (input : list Z) : list Z :=
  match input with [] => [] | c :: r => if c =? LF then r else after_lf r end.
(* socket.c:482-510 uecho_socket_readline: the result, the buffer and what is left of the stream.  If the first
   loop fails the buffer holds what has been read, which the model leaves out *)
Definition uecho_socket_readline (input : list Z) (buf : list (option Z)) (buflen : Z) : res (Z * list (option Z) * list Z) :=
  do x <- readline_loop input buf 0 (sz (buflen - 1)) ;;
  match x with
  | None => Ok (-1, buf, [])
  | Some (buf, cnt, r) =>
      do buf <- wr buf cnt (Some 0) ;;
      do c <- rd buf (cnt - 1) ;;
      match c with
      | None => Undef UB_uninit
      | Some c => Ok (cnt, buf, if c =? LF then r else after_lf r)
      end
  end.
(* socket.c:516-534 uecho_socket_skip *)
Definition uecho_socket_skip (input : list Z) (n : Z) : Z * list Z :=
  (Z.min n (len input), skipn (Z.to_nat n) input).
