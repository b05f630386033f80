(* util/logs.c and util/log.c: the log of packets, and the places of net/socket.c and of the server threads
   that call it.

   snprintf writes at most n - 1 characters and a NUL.  POSIX lets it fail with EOVERFLOW, writing nothing, if n
   is above INT_MAX; [strict] tells whether the C library does so.  If it does not, it writes what the format
   gives, here always less than n.  Forming a pointer past the end of a buffer is not counted as undefined by
   itself.  [now] is the text of the current time.  printf always works; the printed lines are the result. *)
From Coq Require Import String Ascii ZArith List Bool.
From Verif Require Import CSem M_String M_Message M_Server.
Import ListNotations.
Open Scope Z_scope.

Definition cstr (s : string) : list Z := map (fun c => Z.of_N (N_of_ascii c)) (list_ascii_of_string s).

(* log.h:22-29 *)
Definition UECHO_LOG_ERROR : Z := 1.
Definition UECHO_LOG_WARN : Z := 2.
Definition UECHO_LOG_INFO : Z := 4.
Definition UECHO_LOG_DEBUG : Z := 8.
(* _log.h:23 *)
Definition MAX_LOG_BUF : Z := 2048.
(* logs.c:22 *)
Definition NET_LOG_BUF : Z := 256.

Section Log.
Variable strict : bool.

(* snprintf(buf + off, n, ...) where the format gives the text [out] *)
Definition c_snprintf (buf : list (option Z)) (off n : Z) (out : list Z) : res (list (option Z)) :=
  if n =? 0 then Ok buf
  else if strict && (INT_MAX <? n) then Ok buf
  else wr_range buf off (map Some (firstn (Z.to_nat (n - 1)) out ++ [0])).

(* a pointer given to %s *)
Definition c_string (p : option (list (option Z))) : res (list Z) :=
  match p with None => Undef UB_null | Some c => cells_text c end.

(* log.c:31-52 uecho_log_type2string *)
Definition uecho_log_type2string (severity : Z) : list Z :=
  if severity =? UECHO_LOG_ERROR then cstr "ERROR"
  else if severity =? UECHO_LOG_WARN then cstr "WARN"
  else if severity =? UECHO_LOG_INFO then cstr "INFO"
  else if severity =? UECHO_LOG_DEBUG then cstr "DEBUG"
  else [].

(* log.c:59-83 uecho_log_output with the format "%s": the printed lines.  [level] is logLevel.  strftime is
   taken to fit its buffer. *)
Definition uecho_log_output (level severity : Z) (now : list Z) (arg : list (option Z)) : res (list (list Z)) :=
  if level <? severity then Ok []
  else
    let head := now ++ cstr " : " ++ uecho_log_type2string severity ++ cstr " " in
    do m1 <- c_snprintf (fresh_buf MAX_LOG_BUF) 0 MAX_LOG_BUF head ;;
    do t <- cells_text arg ;;
    do m2 <- c_snprintf m1 (len head) (sz (MAX_LOG_BUF - len head)) t ;;
    do line <- cells_text m2 ;;
    Ok [line].

(* "%-15s" *)
Definition pad15 (t : list Z) : list Z := t ++ repeat 32 (15 - length t).
(* "%02X" of a byte *)
Definition hexdigit (d : Z) : Z := if d <? 10 then 48 + d else 55 + d.
Definition hex02 (b : Z) : list Z := [hexdigit (b / 16); hexdigit (b mod 16)].

(* logs.c:36-39 the loop over the bytes *)
Fixpoint log_bytes (buf : list (option Z)) (off : Z) (data : list Z) : res (list (option Z)) :=
  match data with
  | [] => Ok buf
  | b :: r => do buf' <- c_snprintf buf off (sz (NET_LOG_BUF - off)) (hex02 b) ;; log_bytes buf' (sz (off + 2)) r
  end.

(* logs.c:20-42 uecho_net_socket_log; severity is not used, the line is always a debug line *)
Definition uecho_net_socket_log (level : Z) (now : list Z) (severity : Z) (prefix fromAddr toAddr : option (list (option Z)))
  (data : list Z) : res (list (list Z)) :=
  if len data <=? 0 then Ok []
  else
    let buf := fresh_buf NET_LOG_BUF in
    do x <- match prefix with
            | None => Ok (buf, 0)
            | Some p =>
                do t <- cells_text p ;;
                if 0 <? len t then
                  do b <- c_snprintf buf 0 NET_LOG_BUF (t ++ cstr " ") ;; do u <- cells_text b ;; Ok (b, len u)
                else Ok (buf, 0)
            end ;;
    let '(buf, offset) := x in
    do f <- c_string fromAddr ;;
    do t <- c_string toAddr ;;
    do buf <- c_snprintf buf offset (sz (NET_LOG_BUF - offset)) (pad15 f ++ cstr " -> " ++ pad15 t ++ cstr " ") ;;
    do u <- cells_text buf ;;
    do buf <- log_bytes buf (len u) data ;;
    uecho_log_output level UECHO_LOG_DEBUG now buf.

(* logs.c:48-51 uecho_net_socket_debug *)
Definition uecho_net_socket_debug (level : Z) (now : list Z) (prefix fromAddr toAddr : option (list (option Z))) (data : list Z) :=
  uecho_net_socket_log level now UECHO_LOG_DEBUG prefix fromAddr toAddr data.
(* logs.c:53-56 uecho_net_socket_error *)
Definition uecho_net_socket_error (level : Z) (now : list Z) (prefix fromAddr toAddr : option (list (option Z))) (data : list Z) :=
  uecho_net_socket_log level now UECHO_LOG_ERROR prefix fromAddr toAddr data.

(* a string object or literal as a C string *)
Definition cptr (s : string) : list (option Z) := map Some (cstr s) ++ [Some 0].
(* logs.h:16-17 *)
Definition PREFIX_SEND : option (list (option Z)) := Some (cptr "S").
Definition PREFIX_RECV : option (list (option Z)) := Some (cptr "R").

(* socket.c:580-618 uecho_socket_recv: what it logs.  remoteAddr is an array of 32 that getnameinfo fills, unless it
   fails (then the packet's address is ""). *)
Definition recv_log (level : Z) (now : list Z) (bytes : list Z) (from : string) (local : option string) : res (list (list Z)) :=
  let remoteAddr := if String.eqb from "" then fresh_buf 32 else cptr from in
  uecho_net_socket_debug level now PREFIX_RECV (Some remoteAddr) (option_map cptr local) bytes.

(* logs.c:62-73 uecho_net_datagram_packet_error; the packet of a datagram as uecho_socket_recv left it *)
Definition uecho_net_datagram_packet_error (level : Z) (now : list Z) (bytes : list Z) (from : string) (local : option string) : res (list (list Z)) :=
  uecho_net_socket_error level now PREFIX_RECV (Some (cptr from)) (option_map cptr local) bytes.

(* socket.c:540-574 uecho_socket_sendto: what it logs; a new socket has the address "" (socket.c:127) *)
Definition sendto_log (level : Z) (now : list Z) (a : attempt) : res (list (list Z)) :=
  uecho_net_socket_debug level now PREFIX_SEND
    (Some (cptr (match a_from a with Some s => s | None => EmptyString end))) (Some (cptr (a_to a))) (a_bytes a).
Fixpoint attempts_log (level : Z) (now : list Z) (l : list attempt) : res (list (list Z)) :=
  match l with
  | [] => Ok []
  | a :: r => do x <- sendto_log level now a ;; do y <- attempts_log level now r ;; Ok (x ++ y)
  end.

(* udp_server.c:139-184 uecho_udp_server_action, mcast_server.c:134-179 uecho_mcast_server_action as in M_Server.v,
   with their logs; the second component are the printed lines *)
Fixpoint logged_action (level : Z) (now : list Z) (eff : mobs -> msg -> msg) (obs : list mobs) (l : list arrival)
  : res (list (mobs * msg) * list (list Z)) :=
  match l with
  | [] => Ok ([], [])
  | AError :: _ => Ok ([], [])
  | AData b from local :: r =>
      let d := firstn RECV_BUFSIZE b in
      do w1 <- recv_log level now d from local ;;
      do x <- uecho_message_parsepacket uecho_message_new d local (Some from) ;;
      do w2 <- (if fst x then Ok [] else uecho_net_datagram_packet_error level now d from local) ;;
      do y <- logged_action level now eff obs r ;;
      Ok ((if fst x then uecho_message_observer_manager_perform eff obs (snd x) else []) ++ fst y, w1 ++ w2 ++ snd y)
  | AEmpty :: r =>
      do x <- uecho_message_parsepacket uecho_message_new [] None None ;;
      do y <- logged_action level now eff obs r ;;
      Ok ((if fst x then uecho_message_observer_manager_perform eff obs (snd x) else []) ++ fst y, snd y)
  end.
End Log.
