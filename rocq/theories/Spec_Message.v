(* What a user of the message API can do and see.  Only public functions of
   include/uecho/message.h (and the frame type) appear here. *)
From Coq Require Import String ZArith List Bool.
From Verif Require Import CSem M_Const M_Misc M_Property M_Message Spec_Frame.
Import ListNotations.
Open Scope Z_scope.

(* a C object has at most this many bytes *)
Definition OBJ_MAX : Z := 9223372036854775807.
Definition buffer (data : list Z) : Prop := bytes_ok data /\ len data <= OBJ_MAX.

(* a free-standing property: any byte as code, any bytes as data, not owned by an object *)
Definition free_prop (p : prop) : Prop :=
  is_byte (p_code p) /\ bytes_ok (p_data p) /\ p_parent p = false.

(* every message obtainable by calls of the public API, from freshly created
   ones, in any order.  Calls that would be undefined give no message. *)
Inductive api_msg (le : bool) : msg -> Prop :=
| am_new : api_msg le uecho_message_new
| am_clear : forall m m', api_msg le m -> uecho_message_clear m = Ok m' -> api_msg le m'
| am_parse : forall m data r m', api_msg le m -> buffer data ->
    uecho_message_parse m data = Ok (r, m') -> api_msg le m'
| am_packet : forall m data la ra r m', api_msg le m -> buffer data ->
    uecho_message_parsepacket m data la ra = Ok (r, m') -> api_msg le m'
| am_settid : forall m v, api_msg le m -> api_msg le (uecho_message_settid le v m)
| am_setsrc : forall m c m', api_msg le m ->
    uecho_message_setsourceobjectcode c m = Ok m' -> api_msg le m'
| am_setdst : forall m c m', api_msg le m ->
    uecho_message_setdestinationobjectcode c m = Ok m' -> api_msg le m'
| am_setesv : forall m e, api_msg le m -> is_byte e -> api_msg le (uecho_message_setesv e m)
| am_add : forall m p m', api_msg le m -> free_prop p ->
    uecho_message_addproperty p m = Ok m' -> api_msg le m'
| am_addset : forall m p m', api_msg le m -> free_prop p ->
    uecho_message_addpropertyset p m = Ok m' -> api_msg le m'
| am_addget : forall m p m', api_msg le m -> free_prop p ->
    uecho_message_addpropertyget p m = Ok m' -> api_msg le m'
| am_setprop : forall m c d m', api_msg le m -> is_byte c -> bytes_ok d ->
    uecho_message_setproperty c d m = Ok m' -> api_msg le m'
| am_setpropset : forall m c d m', api_msg le m -> is_byte c -> bytes_ok d ->
    uecho_message_setpropertyset c d m = Ok m' -> api_msg le m'
| am_setpropget : forall m c d m', api_msg le m -> is_byte c -> bytes_ok d ->
    uecho_message_setpropertyget c d m = Ok m' -> api_msg le m'
| am_setfrom : forall m a, api_msg le m -> api_msg le (uecho_message_setsourceaddress a m)
| am_setto : forall m a, api_msg le m -> api_msg le (uecho_message_setdestinationaddress a m)
| am_set : forall m src m', api_msg le m -> api_msg le src ->
    uecho_message_set le m src = Ok m' -> api_msg le m'.

(* an indexed getter shows exactly the list [ps] of EPC/EDT pairs *)
Definition shows_props (get : Z -> res (option prop)) (ps : list epair) : Prop :=
  forall i, 0 <= i < SIZE_MOD ->
    match nth_error ps (Z.to_nat i) with
    | Some (epc, edt) => exists p, get i = Ok (Some p) /\ p_code p = epc /\ p_data p = edt
    | None => get i = Ok None
    end.

(* the getters of a message return the fields of the frame [f] *)
Definition shows (le : bool) (m : msg) (f : frame) : Prop :=
  m_tid m = f_tid f
  /\ uecho_message_getsourceobjectcode m = Ok (eoj_code (f_seoj f))
  /\ uecho_message_getdestinationobjectcode m = Ok (eoj_code (f_deoj f))
  /\ uecho_message_getesv m = f_esv f
  /\ match f_body f with
     | Plain ps =>
         uecho_message_getopc m = Z.of_nat (List.length ps)
         /\ shows_props (uecho_message_getproperty m) ps
     | SetGetBody ss gs =>
         uecho_message_getopcset m = Z.of_nat (List.length ss)
         /\ shows_props (uecho_message_getpropertyset m) ss
         /\ uecho_message_getopcget m = Z.of_nat (List.length gs)
         /\ shows_props (uecho_message_getpropertyget m) gs
     end.

(* the property lists of a message as stored *)
Definition stored (v : pvec) : list prop :=
  match pv_ep v with Some l => l | None => [] end.

Definition total_data (l : list prop) : Z := fold_right (fun p n => len (p_data p) + n) 0 l.

(* the message's property data together are not larger than the address space:
   true of every message that exists in memory *)
Definition in_memory (m : msg) : Prop :=
  total_data (stored (m_p m)) + total_data (stored (m_pset m)) + total_data (stored (m_pget m))
  <= 9223372036854770000.

(* every property's data fit the one-byte length field PDC *)
Definition pdc_fits (m : msg) : Prop :=
  Forall (fun p => len (p_data p) <= 255)
    (stored (m_p m) ++ stored (m_pset m) ++ stored (m_pget m)).

(* same contents in every respect a getter can observe: header, TID, objects,
   service, addresses, and the code, attribute and data of every property of
   all three lists, in order *)
Definition same_prop (p q : prop) : Prop :=
  p_code p = p_code q /\ p_attr p = p_attr q /\ p_data p = p_data q.
Definition same_msg (m m' : msg) : Prop :=
  m_ehd1 m = m_ehd1 m' /\ m_ehd2 m = m_ehd2 m' /\ m_tid m = m_tid m'
  /\ m_seoj m = m_seoj m' /\ m_deoj m = m_deoj m' /\ m_esv m = m_esv m'
  /\ Forall2 same_prop (stored (m_p m)) (stored (m_p m'))
  /\ Forall2 same_prop (stored (m_pset m)) (stored (m_pset m'))
  /\ Forall2 same_prop (stored (m_pget m)) (stored (m_pget m'))
  /\ m_from m = m_from m' /\ m_to m = m_to m'.

(* calls in sequence *)
Fixpoint add_all (ps : list prop) (m : msg) : res msg :=
  match ps with
  | [] => Ok m
  | p :: r => do m' <- uecho_message_addproperty p m ;; add_all r m'
  end.

Fixpoint set_all (kvs : list (Z * list Z)) (m : msg) : res msg :=
  match kvs with
  | [] => Ok m
  | (c, d) :: r => do m' <- uecho_message_setproperty c d m ;; set_all r m'
  end.

(* the value written last to [c] *)
Fixpoint last_write (kvs : list (Z * list Z)) (c : Z) : option (list Z) :=
  match kvs with
  | [] => None
  | (c', d) :: r =>
      match last_write r c with
      | Some d' => Some d'
      | None => if c' =? c then Some d else None
      end
  end.

(* codes in order of first write *)
Definition add_code (acc : list Z) (c : Z) : list Z :=
  if existsb (Z.eqb c) acc then acc else acc ++ [c].
Definition first_writes (kvs : list (Z * list Z)) : list Z :=
  fold_left add_code (map fst kvs) [].

(* ---- ESV tables of the ECHONET Lite specification, part II, 3.2.5 ---- *)
Inductive service : Set := SvcSetI | SvcSetC | SvcGet | SvcInfReq | SvcSetGet | SvcInfC.
Definition svc_request (s : service) : Z :=
  match s with SvcSetI => 96 | SvcSetC => 97 | SvcGet => 98 | SvcInfReq => 99
             | SvcSetGet => 110 | SvcInfC => 116 end.
Definition svc_response (s : service) : option Z :=
  match s with SvcSetI => None | SvcSetC => Some 113 | SvcGet => Some 114 | SvcInfReq => Some 115
             | SvcSetGet => Some 126 | SvcInfC => Some 122 end.
Definition svc_error (s : service) : option Z :=
  match s with SvcSetI => Some 80 | SvcSetC => Some 81 | SvcGet => Some 82 | SvcInfReq => Some 83
             | SvcSetGet => Some 94 | SvcInfC => None end.
(* what a service does to the properties it names *)
Definition svc_writes (s : service) : bool :=
  match s with SvcSetI | SvcSetC | SvcSetGet => true | _ => false end.
Definition svc_reads (s : service) : bool :=
  match s with SvcGet | SvcSetGet => true | _ => false end.
Definition svc_notifies (s : service) : bool :=
  match s with SvcInfReq | SvcInfC => true | _ => false end.
