(* net/interface_function.c and net/net_function.c: the interfaces a node listens on, the local
   address reported for a datagram, and IPv6 addresses as texts.

   Modelled is the variant with HAVE_IFADDRS_H, not for Windows or iOS.  getifaddrs is given by its
   result: None if it fails, else the entries in order.  A socket address is its family and the
   number in the four bytes at the place of sin_addr, in host order: for AF_INET6 these bytes are the
   flow information, for AF_PACKET the interface index (ntohl of it).  getnameinfo with
   NI_NUMERICHOST is an oracle.  malloc and strdup succeed.  The hardware address of an interface
   is left out. *)
From Coq Require Import String Ascii ZArith List Bool.
From Verif Require Import CSem M_String.
Import ListNotations.
Open Scope Z_scope.

Record sockaddr : Type := mkSa { sa_family : Z; sa_word : Z }.
(* struct ifaddrs *)
Record ifaddr : Type := mkIfa { ia_name : string; ia_flags : Z; ia_addr : option sockaddr; ia_mask : option sockaddr }.

Definition AF_INET : Z := 2.
Definition AF_INET6 : Z := 10.
Definition IFF_UP : Z := 1.
Definition IFF_LOOPBACK : Z := 8.
Definition IFF_POINTOPOINT : Z := 16.
Definition flagged (flags bit : Z) : bool := negb (Z.land flags bit =? 0).

(* a text as a Coq string *)
Definition text_string (l : list Z) : string := string_of_list_ascii (map (fun c => ascii_of_N (Z.to_N c)) l).
(* inet_ntoa *)
Definition inet_ntoa (a : Z) : string :=
  text_string (printed (a / 16777216) ++ [46] ++ printed (a / 65536 mod 256) ++ [46] ++ printed (a / 256 mod 256) ++ [46] ++ printed (a mod 256)).

(* ---- interfaces ---- *)

(* interface.h:45-53 uEchoNetworkInterface *)
Record netif : Type := mkNetif { nf_name : string; nf_addr : string; nf_mask : string }.

Section Names.
(* getnameinfo(a, ..., NI_NUMERICHOST) *)
Variable numeric : sockaddr -> option string.

(* interface_function.c:222-283 uecho_net_gethostinterfaces: the body of the loop *)
Definition host_interface (i : ifaddr) : option netif :=
  match ia_addr i, ia_mask i with
  | Some a, Some m =>
      if negb (sa_family a =? AF_INET) then None
      else if negb (flagged (ia_flags i) IFF_UP) then None
      else if flagged (ia_flags i) IFF_LOOPBACK then None
      else match numeric a with
           | None => None
           | Some ta => match numeric m with
                        | None => None
                        | Some tm => Some (mkNetif (ia_name i) ta tm)
                        end
           end
  | _, _ => None
  end.
Fixpoint interfaces_loop (l : list ifaddr) (acc : list netif) : list netif :=
  match l with
  | [] => acc
  | i :: r => interfaces_loop r (match host_interface i with None => acc | Some n => acc ++ [n] end)
  end.
(* interface_function.c:222-283 uecho_net_gethostinterfaces: the list afterwards, whatever was in it, and
   the result *)
Definition uecho_net_gethostinterfaces (os : option (list ifaddr)) (old : list netif) : list netif * Z :=
  match os with
  | None => ([], 0)
  | Some l => let l' := interfaces_loop l [] in (l', len l')
  end.
End Names.

(* ---- the local address of a datagram ---- *)

(* socket.h:50 UECHO_NET_SOCKET_AUTO_IP_NET *)
Definition AUTO_IP_NET : Z := 2851995648.    (* 0xa9fe0000 *)

(* interface_function.c:405-473 uecho_net_selectaddr: the loop; the candidates are address_candidate and
   auto_ip_address_candidate *)
Fixpoint select_loop (l : list ifaddr) (raddr : Z) (cand auto : option string) : option string * option string :=
  match l with
  | [] => (cand, auto)
  | i :: r =>
      match ia_addr i with
      | None => select_loop r raddr cand auto
      | Some a =>
          if negb (flagged (ia_flags i) IFF_UP) then select_loop r raddr cand auto
          else if flagged (ia_flags i) IFF_LOOPBACK then select_loop r raddr cand auto
          else if flagged (ia_flags i) IFF_POINTOPOINT then select_loop r raddr cand auto
          else match ia_mask i with
               | None => select_loop r raddr cand auto
               | Some m =>
                   let laddr := sa_word a in
                   let lmask := sa_word m in
                   if Z.land laddr lmask =? Z.land raddr lmask then (Some (inet_ntoa laddr), auto)
                   else if Z.land laddr lmask =? AUTO_IP_NET then select_loop r raddr cand (Some (inet_ntoa laddr))
                   else select_loop r raddr (Some (inet_ntoa laddr)) auto
               end
      end
  end.
(* interface_function.c:405-473 uecho_net_selectaddr; None is NULL *)
Definition uecho_net_selectaddr (os : option (list ifaddr)) (remote : sockaddr) : option string :=
  match os with
  | None => None
  | Some l =>
      match select_loop l (sa_word remote) None None with
      | (Some a, _) => Some a
      | (None, Some a) => Some a
      | (None, None) => Some "127.0.0.1"%string
      end
  end.

(* ---- IPv6 addresses as texts ---- *)

(* net_function.c:45-54 uecho_net_isipv6address *)
Definition uecho_net_isipv6address (addr : option (list Z)) : res bool :=
  match addr with
  | None => Ok false
  | Some _ => do i <- uecho_strchr addr (Some [58; 0]) 1 ;; Ok (0 <? i)
  end.

(* net_function.c:28-39 uecho_net_isuseaddress; the two flags are never set *)
Definition uecho_net_isuseaddress (only6 only4 : bool) (addr : option (list Z)) : res bool :=
  do a <- (if only6 then uecho_net_isipv6address addr else Ok true) ;;
  if negb a then Ok false
  else do b <- (if only4 then uecho_net_isipv6address addr else Ok false) ;; Ok (negb b).

(* net_function.c:60-76 uecho_net_getipv6scopeid: scopeIdBuf has 9 bytes *)
Definition uecho_net_getipv6scopeid (addr : option (list Z)) : res Z :=
  do b <- uecho_net_isipv6address addr ;;
  if negb b then Ok 0
  else
    match addr with
    | None => Ok 0
    | Some blk =>
        do per <- uecho_strchr addr (Some [37; 0]) 1 ;;
        if per <? 0 then Ok 0
        else
          do w <- c_strncpy (skipn (Z.to_nat (per + 1)) blk) 8 ;;
          do buf <- wr_range (fresh_buf 9) 0 (map Some w) ;;
          do buf <- wr buf 8 (Some 0) ;;
          do t <- cells_text buf ;;
          Ok (c_atoi t)
    end.
