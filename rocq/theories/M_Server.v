(* frame/server.c, udp_server.c, mcast_server.c, their lists and message_observer_manager.c:
   opening, starting and stopping the servers, delivering received datagrams to the observers
   and sending announcements and responses.

   Simplifications: the operating system is given by [osenv] (interfaces, and which sockets
   and threads it grants) and by an oracle for sending.  malloc succeeds.  A granted
   socket has a positive descriptor (uecho_socket_isbound takes descriptor 0 for an unbound
   socket).  The thread of a server is started or not here; M_ServerThread.v models its steps.
   uecho_server_stop clears the multicast servers with the destructor of the UDP servers
   (server.c:137); the two structures have the same members and the destructor does the same, as
   the servers are closed and stopped before. *)
From Coq Require Import String ZArith List Bool.
From Verif Require Import CSem M_Const M_Message M_Node.
Import ListNotations.
Open Scope Z_scope.

(* frame/message.h: a message observer, object and handler; 0 is NULL *)
Record mobs : Type := mkMobs { mo_object : Z; mo_handler : Z }.

(* frame/server.h: a UDP or multicast server: its socket (the address it is bound to), its
   thread (runnableFlag) and the observers of its message manager *)
Record srv : Type := mkSrv { v_sock : option string; v_thread : option bool; v_obs : list mobs }.
(* frame/server.h: the server.  [sv_lost] is not in the code: it collects the servers that were
   freed while they still had a thread. *)
Record server : Type := mkServer { sv_udp : list srv; sv_mcast : list srv; sv_obs : list mobs; sv_option : Z; sv_lost : list srv }.

(* what the operating system grants: the addresses of the interfaces that are up; whether a socket
   can be opened and bound (for multicast also join the group) at an address; whether a
   thread can be started.  The flag is true for multicast. *)
Record osenv : Type := mkOs { os_ifs : list string; os_open : bool -> string -> bool; os_thread : bool -> string -> bool }.

(* server.c:17-33 uecho_server_new *)
Definition uecho_server_new : server := mkServer [] [] [] 0 [].

(* message_observer_manager.c:45-57 uecho_message_observer_manager_addobserver *)
Definition uecho_message_observer_manager_addobserver (l : list mobs) (obj handler : Z) : list mobs := l ++ [mkMobs obj handler].
(* server.c:234-237 uecho_server_addobserver *)
Definition uecho_server_addobserver (s : server) (obj handler : Z) : server :=
  mkServer (sv_udp s) (sv_mcast s) (uecho_message_observer_manager_addobserver (sv_obs s) obj handler) (sv_option s) (sv_lost s).
(* server.h:84 uecho_server_setoption *)
Definition uecho_server_setoption (s : server) (value : Z) : server := mkServer (sv_udp s) (sv_mcast s) (sv_obs s) value (sv_lost s).
(* server.h:85-86 uecho_server_isudpserverenabled *)
Definition uecho_server_isudpserverenabled (s : server) : bool := Z.land (sv_option s) 1 =? 0.

(* udp_server.c:18-34 uecho_udp_server_new, mcast_server.c:19-35 uecho_mcast_server_new *)
Definition srv_new : srv := mkSrv None None [].

(* udp_server.c:96-109 uecho_udp_server_close, mcast_server.c:91-104 uecho_mcast_server_close *)
Definition srv_close (v : srv) : srv * bool :=
  match v_sock v with
  | None => (v, true)
  | Some _ => (mkSrv None (v_thread v) (v_obs v), true)
  end.

(* udp_server.c:69-90 uecho_udp_server_open, mcast_server.c:59-85 uecho_mcast_server_open *)
Definition srv_open (grant : bool) (addr : string) (v : srv) : srv * bool :=
  let '(v1, _) := srv_close v in
  if grant then (mkSrv (Some addr) (v_thread v1) (v_obs v1), true) else (mkSrv None (v_thread v1) (v_obs v1), false).

(* udp_server.c:215-229 uecho_udp_server_stop, mcast_server.c:221-235 uecho_mcast_server_stop *)
Definition srv_stop (v : srv) : srv * bool :=
  match v_thread v with
  | None => (v, true)
  | Some _ => let '(v1, _) := srv_close v in (mkSrv (v_sock v1) None (v_obs v1), true)
  end.

(* udp_server.c:190-209 uecho_udp_server_start, mcast_server.c:196-215 uecho_mcast_server_start *)
Definition srv_start (grant : bool) (v : srv) : srv * bool :=
  let '(v1, _) := srv_stop v in
  match v_sock v1 with
  | None => (v1, false)
  | Some _ =>
      if grant then (mkSrv (v_sock v1) (Some true) (v_obs v1), true)
      else let '(v2, _) := srv_stop (mkSrv (v_sock v1) (Some false) (v_obs v1)) in (v2, false)
  end.

(* an action on each server of a list; the results are combined without stopping at a failure *)
Fixpoint each (f : srv -> srv * bool) (l : list srv) : list srv * bool :=
  match l with
  | [] => ([], true)
  | v :: r => let '(v', b) := f v in let '(r', b') := each f r in (v' :: r', b && b')
  end.

(* udp_server_list.c:96-107 uecho_udp_serverlist_close, mcast_server_list.c:96-107 uecho_mcast_serverlist_close *)
Definition serverlist_close (l : list srv) : list srv * bool := each srv_close l.
(* udp_server_list.c:132-143 uecho_udp_serverlist_stop, mcast_server_list.c:132-143 uecho_mcast_serverlist_stop *)
Definition serverlist_stop (l : list srv) : list srv * bool := each srv_stop l.
(* udp_server_list.c:113-126 uecho_udp_serverlist_start, mcast_server_list.c:113-126 uecho_mcast_serverlist_start;
   the thread is granted by address *)
Definition srv_addr (v : srv) : string := match v_sock v with Some a => a | None => ""%string end.
Definition serverlist_start (grant : string -> bool) (l : list srv) : list srv * bool :=
  let '(l1, _) := serverlist_stop l in each (fun v => srv_start (grant (srv_addr v)) v) l1.

(* udp_server_list.c:48-90 uecho_udp_serverlist_open, mcast_server_list.c:48-90 uecho_mcast_serverlist_open:
   a server for each interface is appended, up to the first that cannot be opened *)
Fixpoint open_loop (grant : string -> bool) (ifs : list string) (l : list srv) : list srv * bool :=
  match ifs with
  | [] => (l, true)
  | a :: r =>
      let '(v, ok) := srv_open (grant a) a srv_new in
      if ok then open_loop grant r (l ++ [v]) else (l, false)
  end.
Definition serverlist_open (grant : string -> bool) (ifs : list string) (l : list srv) : list srv * bool :=
  let '(l1, _) := serverlist_close l in
  match ifs with
  | [] => (l1, false)
  | _ => let '(l2, ok) := open_loop grant ifs l1 in
         if ok then (l2, true) else (fst (serverlist_close l2), false)
  end.

(* udp_server.c:40-52 uecho_udp_server_delete for each server of a list: the socket is closed, a thread is not
   stopped.  The result is what is lost. *)
Definition serverlist_clear (l : list srv) : list srv :=
  filter (fun v => match v_thread v with Some _ => true | None => false end) l.

(* server.c:126-144 uecho_server_stop *)
Definition uecho_server_stop (s : server) : server * bool :=
  let '(m1, b1) := serverlist_close (sv_mcast s) in
  let '(m2, b2) := serverlist_stop m1 in
  let '(u1, b3) := serverlist_close (sv_udp s) in
  let '(u2, b4) := serverlist_stop u1 in
  (mkServer [] [] (sv_obs s) (sv_option s) (sv_lost s ++ serverlist_clear m2 ++ serverlist_clear u2), b1 && b2 && b3 && b4).

(* server.c:75-120 uecho_server_start, lines 93-106: the loop over the observers *)
Fixpoint add_observers (obs : list mobs) (u m : list srv) : list srv * list srv * bool :=
  match obs with
  | [] => (u, m, true)
  | o :: r =>
      if (mo_handler o =? 0) || (mo_object o =? 0) then let '(u', m', _) := add_observers r u m in (u', m', false)
      else
        let add v := mkSrv (v_sock v) (v_thread v) (uecho_message_observer_manager_addobserver (v_obs v) (mo_object o) (mo_handler o)) in
        add_observers r (map add u) (map add m)
  end.

(* server.c:75-120 uecho_server_start *)
Definition uecho_server_start (e : osenv) (s : server) : server * bool :=
  let '(s1, _) := uecho_server_stop s in
  let '(m1, b1) := serverlist_open (os_open e true) (os_ifs e) (sv_mcast s1) in
  let '(u1, b2) := if uecho_server_isudpserverenabled s1 then serverlist_open (os_open e false) (os_ifs e) (sv_udp s1) else (sv_udp s1, true) in
  let '(u2, m2, b3) := add_observers (sv_obs s1) u1 m1 in
  let '(m3, b4) := serverlist_start (os_thread e true) m2 in
  let '(u3, b5) := if uecho_server_isudpserverenabled s1 then serverlist_start (os_thread e false) u2 else (u2, true) in
  let all := b1 && b2 && b3 && b4 && b5 in
  let s2 := mkServer u3 m3 (sv_obs s1) (sv_option s1) (sv_lost s1) in
  if all then (s2, true) else (fst (uecho_server_stop s2), false).

(* server.c:150-165 uecho_server_isrunning, udp_server_list.c:149-152 uecho_udp_serverlist_isrunning,
   mcast_server_list.c:149-152 uecho_mcast_serverlist_isrunning *)
Definition serverlist_isrunning (l : list srv) : bool := match l with [] => false | _ => true end.
Definition uecho_server_isrunning (s : server) : bool :=
  serverlist_isrunning (sv_mcast s) && (if uecho_server_isudpserverenabled s then serverlist_isrunning (sv_udp s) else true).

(* socket.c:176-182 uecho_socket_isboundaddress, udp_server_list.c:158-172 uecho_udp_serverlist_isboundaddress,
   mcast_server_list.c:176-190 uecho_mcast_serverlist_isboundaddress, server.c:57-69 uecho_server_isboundaddress *)
Definition serverlist_isboundaddress (l : list srv) (addr : option string) : bool :=
  existsb (fun v => match v_sock v, addr with Some a, Some b => String.eqb a b | _, _ => false end) l.
Definition uecho_server_isboundaddress (s : server) (addr : option string) : bool :=
  if serverlist_isboundaddress (sv_udp s) addr then true else serverlist_isboundaddress (sv_mcast s) addr.

(* server.c:171-180 uecho_server_getaddress: the address of the first multicast server *)
Definition uecho_server_getaddress (s : server) : string :=
  match sv_mcast s with [] => ""%string | v :: _ => srv_addr v end.

(* server.c:39-51 uecho_server_delete, udp_server_list.c:35-42 uecho_udp_serverlist_delete,
   mcast_server_list.c:35-42 uecho_mcast_serverlist_delete: the servers lost *)
Definition uecho_server_delete (s : server) : list srv :=
  let del l := serverlist_clear (fst (serverlist_stop (fst (serverlist_close l)))) in
  sv_lost s ++ del (sv_udp s) ++ del (sv_mcast s).

(* ---- receiving ---- *)

(* what recvfrom gives to socket.c:580-618 uecho_socket_recv: a datagram with the sender's address
   ("" if it has no name) and the local address chosen for it, an empty datagram, or an error *)
Inductive arrival : Type :=
| AData (bytes : list Z) (from : string) (local : option string)
| AEmpty
| AError.

(* socket.h:47 UECHO_NET_SOCKET_DGRAM_RECV_BUFSIZE: longer datagrams are cut *)
Definition RECV_BUFSIZE : nat := 512.

Section Receive.
(* what the handler of an observer does to the message it is given *)
Variable eff : mobs -> msg -> msg.

(* message_observer_manager.c:63-78 uecho_message_observer_manager_perform: the deliveries *)
Fixpoint uecho_message_observer_manager_perform (obs : list mobs) (m : msg) : list (mobs * msg) :=
  match obs with
  | [] => []
  | o :: r =>
      if (mo_handler o =? 0) || (mo_object o =? 0) then uecho_message_observer_manager_perform r m
      else (o, m) :: uecho_message_observer_manager_perform r (eff o m)
  end.

(* udp_server.c:139-184 uecho_udp_server_action, mcast_server.c:134-179 uecho_mcast_server_action: the
   loop of a server thread that is not stopped, over what arrives; it ends at an error *)
Fixpoint server_action (obs : list mobs) (l : list arrival) : res (list (mobs * msg)) :=
  match l with
  | [] => Ok []
  | AError :: _ => Ok []
  | AData b from local :: r =>
      do x <- uecho_message_parsepacket uecho_message_new (firstn RECV_BUFSIZE b) local (Some from) ;;
      do y <- server_action obs r ;;
      Ok ((if fst x then uecho_message_observer_manager_perform obs (snd x) else []) ++ y)
  | AEmpty :: r =>
      do x <- uecho_message_parsepacket uecho_message_new [] None None ;;
      do y <- server_action obs r ;;
      Ok ((if fst x then uecho_message_observer_manager_perform obs (snd x) else []) ++ y)
  end.
End Receive.

(* ---- sending ---- *)

(* an attempt to send: the address the socket is bound to (None: a new socket), the destination
   and the bytes; the port is always 3610 *)
Record attempt : Type := mkAtt { a_from : option string; a_to : string; a_bytes : list Z }.

Section Send.
(* whether the network takes the whole datagram, given the attempts before *)
Variable take : list (attempt * bool) -> attempt -> bool.

(* socket.c:540-574 uecho_socket_sendto *)
Definition try_send (h : list (attempt * bool)) (a : attempt) : list (attempt * bool) * bool :=
  let ok := take h a in (h ++ [(a, ok)], ok).

(* mcast_server.c:256-269 uecho_mcast_server_post *)
Definition uecho_mcast_server_post (h : list (attempt * bool)) (v : srv) (bytes : list Z) : list (attempt * bool) * bool :=
  match v_sock v with
  | None => (h, false)
  | Some a => try_send h (mkAtt (Some a) "224.0.23.0" bytes)
  end.
(* mcast_server_list.c:158-170 uecho_mcast_serverlist_post *)
Fixpoint uecho_mcast_serverlist_post (h : list (attempt * bool)) (l : list srv) (bytes : list Z) : list (attempt * bool) * bool :=
  match l with
  | [] => (h, true)
  | v :: r => let '(h1, b) := uecho_mcast_server_post h v bytes in
              let '(h2, b') := uecho_mcast_serverlist_post h1 r bytes in (h2, b && b')
  end.
(* server.c:186-198 uecho_server_sendto: with a new socket *)
Definition uecho_server_sendto (h : list (attempt * bool)) (addr : string) (bytes : list Z) : list (attempt * bool) * bool :=
  try_send h (mkAtt None addr bytes).
(* server.c:204-213 uecho_server_postannounce *)
Definition uecho_server_postannounce (h : list (attempt * bool)) (s : server) (bytes : list Z) : list (attempt * bool) * bool :=
  let '(h1, b) := uecho_mcast_serverlist_post h (sv_mcast s) bytes in
  if b then (h1, true) else uecho_server_sendto h1 "224.0.23.0" bytes.

(* udp_server_list.c:178-193 uecho_udp_serverlist_sendto: the first server with a socket *)
Fixpoint uecho_udp_serverlist_sendto (h : list (attempt * bool)) (l : list srv) (addr : string) (bytes : list Z) : list (attempt * bool) * bool :=
  match l with
  | [] => (h, false)
  | v :: r => match v_sock v with
              | None => uecho_udp_serverlist_sendto h r addr bytes
              | Some a => try_send h (mkAtt (Some a) addr bytes)
              end
  end.
(* server.c:219-228 uecho_server_postresponse *)
Definition uecho_server_postresponse (h : list (attempt * bool)) (s : server) (addr : string) (bytes : list Z) : list (attempt * bool) * bool :=
  let '(h1, b) := uecho_udp_serverlist_sendto h (sv_udp s) addr bytes in
  if b then (h1, true) else uecho_server_sendto h1 addr bytes.

(* a node hands a frame to its server (node.c:459-464, 470-475) *)
Definition server_post (h : list (attempt * bool)) (s : server) (p : post) : list (attempt * bool) * bool :=
  match p with
  | PAnnounce b => uecho_server_postannounce h s b
  | PSend a b => uecho_server_postresponse h s a b
  end.
Fixpoint server_posts (h : list (attempt * bool)) (s : server) (l : list post) : list (attempt * bool) :=
  match l with [] => h | p :: r => server_posts (fst (server_post h s p)) s r end.
End Send.
