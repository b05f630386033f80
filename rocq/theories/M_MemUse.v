(* Programs that use messages through pointers: a caller that creates, fills, reads, sends, copies and deletes
   messages in any order, and the receiving loop of a server thread.  The functions called are those of M_Mem.v. *)
From Coq Require Import String ZArith List Bool.
From Verif Require Import CSem M_Const M_Misc M_String M_Property M_Log M_Server M_Message M_Mem.
Import ListNotations.
Open Scope Z_scope.

(* a buffer of the caller, on its stack: it is gone after the call *)
Definition given {A : Type} (b : list Z) (f : Z -> mm A) : mm A :=
  let! p := malloc (fun _ => true) (fun _ => BBytes (map Some b)) in
  let! r := f p in
  let! _ := mfree p in
  ret r.
(* a char* of the caller; None is NULL *)
Definition given_text {A : Type} (o : option string) (f : Z -> mm A) : mm A :=
  match o with None => f 0 | Some s => given (cstr s ++ [0]) f end.

(* ---- what the getters show ---- *)

Record seen : Type := mkSeen {
  v_tid : Z * Z; v_src : list Z; v_dst : list Z; v_esv : Z;
  v_plain : list (Z * Z * list Z); v_set : list (Z * Z * list Z); v_get : list (Z * Z * list Z);
  v_from : option (list Z); v_to : option (list Z)
}.

(* property.c:438-443 uecho_property_getcode, property.c:482-487 uecho_property_getattribute, property.c:460-465
   uecho_property_getdatasize, property.c:449-454 uecho_property_getdata *)
Definition read_property (p : Z) : mm (Z * Z * list Z) :=
  let! q := load_prop p in
  let! d := (if q_size q <=? 0 then ret []
             else let! l := load_bytes (q_data q) in let! c := lift (rd_range l 0 (q_size q)) in lift (init_bytes c)) in
  ret (q_code q, q_attr q, d).
(* message.c:629-648 uecho_message_getproperty, getpropertyset, getpropertyget for n, n+1, ... *)
Fixpoint read_properties (w : part) (msg n : Z) (k : nat) : mm (list (Z * Z * list Z)) :=
  match k with
  | O => ret []
  | S k' =>
      let! p := uecho_message_getproperty w msg n in
      let! x := read_property p in
      let! r := read_properties w msg (n + 1) k' in
      ret (x :: r)
  end.
Definition read_text (p : Z) : mm (option (list Z)) :=
  if p =? 0 then ret None else let! t := text_at p in ret (Some t).
(* the getters of a message, one after the other: message.c:155-159 uecho_message_gettid, 174-177
   uecho_message_getsourceobjectcode, 201-204 uecho_message_getdestinationobjectcode, 334-340 uecho_message_getesv,
   257-260 uecho_message_getopc, 445-448 uecho_message_getsourceaddress, 472-475 uecho_message_getdestinationaddress *)
Definition read_message (msg : Z) : mm seen :=
  let! g := load_msg msg in
  let! a := read_properties PPlain msg 0 (Z.to_nat (g_opc g)) in
  let! b := read_properties PSet msg 0 (Z.to_nat (g_opcset g)) in
  let! c := read_properties PGet msg 0 (Z.to_nat (g_opcget g)) in
  let! f := read_text (g_from g) in
  let! t := read_text (g_to g) in
  ret (mkSeen (g_tid g) (g_seoj g) (g_deoj g) (g_esv g) a b c f t).

(* ---- a caller ---- *)

Inductive mop : Type :=
| MNew                                                    (* uecho_message_new *)
| MSearch                                                 (* uecho_message_search_new *)
| MCopy (i : nat)                                         (* uecho_message_copy *)
| MDelete (i : nat)                                       (* uecho_message_delete *)
| MClear (i : nat)                                        (* uecho_message_clear *)
| MTid (i : nat) (v : Z)                                  (* uecho_message_settid *)
| MSrc (i : nat) (c : Z)                                  (* uecho_message_setsourceobjectcode *)
| MDst (i : nat) (c : Z)                                  (* uecho_message_setdestinationobjectcode *)
| MEsv (i : nat) (v : Z)                                  (* uecho_message_setesv *)
| MFrom (i : nat) (a : option string)                     (* uecho_message_setsourceaddress *)
| MTo (i : nat) (a : option string)                       (* uecho_message_setdestinationaddress *)
| MSetProp (w : part) (i : nat) (code : Z) (data : list Z)             (* uecho_message_setproperty, ...set, ...get *)
| MAddProp (w : part) (i : nat) (code attr : Z) (data : list Z)        (* a new property, uecho_message_addproperty *)
| MParse (i : nat) (data : list Z)                        (* uecho_message_parse *)
| MPacket (i : nat) (data : list Z) (local remote : option string)     (* uecho_message_parsepacket of a packet *)
| MBytes (i : nat)                                        (* uecho_message_getbytes *)
| MSet (i j : nat)                                        (* uecho_message_set *)
| MEquals (i j : nat)                                     (* uecho_message_equals *)
| MRead (i : nat).                                        (* the getters *)

Inductive obs : Type := ONone | OBool (b : bool) | OBytes (l : list Z) | OSeen (s : seen).

Section Room.
Variable room : Z -> bool.
Variable le : bool.

(* the i-th pointer of the caller; it stays when its message is deleted *)
Definition handle (ps : list Z) (i : nat) : mm Z :=
  match nth_error ps i with Some a => ret a | None => wrong UB_null end.

Definition hstep (op : mop) (ps : list Z) : mm (obs * list Z) :=
  match op with
  | MNew => let! a := M_Mem.uecho_message_new room in ret (ONone, ps ++ [a])
  | MSearch => let! a := M_Mem.uecho_message_search_new room in ret (ONone, ps ++ [a])
  | MCopy i => let! a := handle ps i in let! b := M_Mem.uecho_message_copy room le a in ret (ONone, ps ++ [b])
  | MDelete i => let! a := handle ps i in let! r := M_Mem.uecho_message_delete a in ret (OBool r, ps)
  | MClear i => let! a := handle ps i in let! r := M_Mem.uecho_message_clear a in ret (OBool r, ps)
  | MTid i v => let! a := handle ps i in let! r := M_Mem.uecho_message_settid le a v in ret (OBool r, ps)
  | MSrc i c => let! a := handle ps i in let! _ := M_Mem.uecho_message_setsourceobjectcode a c in ret (ONone, ps)
  | MDst i c => let! a := handle ps i in let! _ := M_Mem.uecho_message_setdestinationobjectcode a c in ret (ONone, ps)
  | MEsv i v => let! a := handle ps i in let! r := M_Mem.uecho_message_setesv a v in ret (OBool r, ps)
  | MFrom i o => let! a := handle ps i in
                 let! _ := given_text o (M_Mem.uecho_message_setsourceaddress room a) in ret (ONone, ps)
  | MTo i o => let! a := handle ps i in
               let! _ := given_text o (M_Mem.uecho_message_setdestinationaddress room a) in ret (ONone, ps)
  | MSetProp w i code data =>
      let! a := handle ps i in
      let! r := given data (fun p => M_Mem.uecho_message_setproperty room w a code p 0 (len data)) in ret (OBool r, ps)
  | MAddProp w i code attr data =>
      let! a := handle ps i in
      let! q := M_Mem.uecho_property_new room in
      let! _ := M_Mem.uecho_property_setcode q code in
      let! _ := M_Mem.uecho_property_setattribute q attr in
      let! _ := given data (fun p => M_Mem.uecho_property_setdata room q p 0 (len data)) in
      let! r := M_Mem.uecho_message_addproperty room w a q in ret (OBool r, ps)
  | MParse i data =>
      let! a := handle ps i in
      let! r := given data (fun p => M_Mem.uecho_message_parse room a p (len data)) in ret (OBool r, ps)
  | MPacket i data local remote =>
      let! a := handle ps i in
      let! k := uecho_socket_datagram_packet_new room in
      let! _ := given data (fun p => uecho_socket_datagram_packet_setdata room k p (len data)) in
      let! _ := given_text local (pkt_setlocaladdress room k) in
      let! _ := given_text remote (pkt_setremoteaddress room k) in
      let! r := M_Mem.uecho_message_parsepacket room a k in
      let! _ := uecho_socket_datagram_packet_delete k in
      ret (OBool r, ps)
  | MBytes i =>
      let! a := handle ps i in
      let! n := M_Mem.uecho_message_size a in
      let! b := M_Mem.uecho_message_getbytes room a in
      let! l := load_bytes b in
      let! c := lift (rd_range l 0 n) in
      let! r := lift (init_bytes c) in
      ret (OBytes r, ps)
  | MSet i j => let! a := handle ps i in let! b := handle ps j in
                let! r := M_Mem.uecho_message_set room le a b in ret (OBool r, ps)
  | MEquals i j => let! a := handle ps i in let! b := handle ps j in
                   let! r := M_Mem.uecho_message_equals room a b in ret (OBool r, ps)
  | MRead i => let! a := handle ps i in let! s := read_message a in ret (OSeen s, ps)
  end.

Fixpoint hrun (ops : list mop) (ps : list Z) : mm (list obs * list Z) :=
  match ops with
  | [] => ret ([], ps)
  | op :: r => let! x := hstep op ps in let! y := hrun r (snd x) in ret (fst x :: fst y, snd y)
  end.

(* ---- the receiving loop ---- *)

(* what the handler of an observer does: the calls it makes, which depend on what it sees of the message it is given.
   Its first message is the one it is given. *)
Variable prog : mobs -> seen -> list mop.

(* message_observer_manager.c:63-78 uecho_message_observer_manager_perform; each delivery is what the getters show *)
Fixpoint perform (obs : list mobs) (msg : Z) : mm (list (mobs * seen)) :=
  match obs with
  | [] => ret []
  | o :: r =>
      if (mo_handler o =? 0) || (mo_object o =? 0) then perform r msg
      else
        let! s := read_message msg in
        let! _ := hrun (prog o s) [msg] in
        let! l := perform r msg in
        ret ((o, s) :: l)
  end.

(* socket.c:580-618 uecho_socket_recv of a datagram: recvBuf and remoteAddr are on the stack, "" is a literal,
   localAddr is a new text (net_function.c, M_Net.v) or NULL.  The ports are not modelled here (M_Socket.v); the log
   line is in M_Log.v. *)
Definition recv_data (k : Z) (b : list Z) (from : string) (local : option string) : mm unit :=
  given (firstn RECV_BUFSIZE b) (fun recvBuf =>
    let! _ := uecho_socket_datagram_packet_setdata room k recvBuf (len (firstn RECV_BUFSIZE b)) in
    let! _ := given_text (Some EmptyString) (pkt_setremoteaddress room k) in
    let! _ := given_text (Some from) (pkt_setremoteaddress room k) in
    let! localAddr := (match local with
                       | None => ret 0
                       | Some s => malloc room (fun _ => BBytes (map Some (cstr s) ++ [Some 0]))
                       end) in
    let! _ := pkt_setlocaladdress room k localAddr in
    mfree localAddr).

(* udp_server.c:139-184 uecho_udp_server_action, mcast_server.c:134-179 uecho_mcast_server_action: the loop of a
   server thread that is not stopped, over what arrives.  After the last arrival the thread is stopped while it
   waits: the packet it made for the next datagram is deleted. *)
Fixpoint receive_loop (os : list mobs) (l : list arrival) : mm (list (mobs * seen)) :=
  let! k := uecho_socket_datagram_packet_new room in
  if k =? 0 then ret []
  else
    match l with
    | [] => let! _ := uecho_socket_datagram_packet_delete k in ret []
    | AError :: _ => let! _ := uecho_socket_datagram_packet_delete k in ret []
    | x :: r =>
        let! _ := (match x with AData b from local => recv_data k b from local | _ => ret tt end) in
        let! m := M_Mem.uecho_message_new room in
        if m =? 0 then receive_loop os r
        else
          let! ok := M_Mem.uecho_message_parsepacket room m k in
          let! d := (if ok then perform os m else ret []) in
          let! _ := uecho_socket_datagram_packet_delete k in
          let! _ := M_Mem.uecho_message_delete m in
          let! e := receive_loop os r in
          ret (d ++ e)
    end.
End Room.
