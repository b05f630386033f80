(* The memory behind messages, properties and datagram packets: src/uecho/message.c, property.c,
   message_search.c, net/datagram_packet.c, the string objects of util/strings.c and uecho_strloc of
   util/strings_function.c, with explicit pointers.  M_Message.v and M_Property.v model the same functions on
   values; here every block that malloc gave and free takes back is visible.

   A pointer is a number, 0 is NULL.  A block is allocated, or it is absent: it was never allocated or has been
   freed.  [room k] tells whether the k-th request for memory is granted.  realloc always moves the block.  A
   struct is filled in when it is allocated, with the values its constructor stores before anything reads it.
   Reading a block as something it is not is undefined (UB_read).

   The functions here are for objects in no node: parentNode is NULL and nothing is announced (M_NodeMem.v has the
   announcements).  Not modelled: the type field of a property, which nothing here reads. *)
From Coq Require Import ZArith List Bool.
From Verif Require Import CSem M_Const M_Misc M_String M_Property M_Message.
Import ListNotations.
Open Scope Z_scope.

(* _property.h:34-46 uEchoProperty *)
Record cprop : Type := mkCprop {
  q_prev : Z; q_next : Z; q_name : Z; q_code : Z; q_attr : Z; q_data : Z; q_size : Z; q_parent : Z
}.
(* _object.h:32-56 uEchoObject; j_node is parentNode *)
Record cobj : Type := mkCobj {
  j_prev : Z; j_next : Z; j_name : Z; j_grp : Z; j_cls : Z; j_ins : Z; j_props : Z;
  j_annon : Z; j_anno : Z; j_setn : Z; j_set : Z; j_getn : Z; j_get : Z; j_listener : bool; j_mgr : Z; j_node : Z
}.
(* frame/property.h:26-32 uEchoObjectPropertyObserver; a handler is a number, None is NULL *)
Record cobs : Type := mkCobs { w_prev : Z; w_next : Z; w_esv : Z; w_code : Z; w_handler : option nat }.
(* _message.h:41-60 uEchoMessage *)
Record cmsg : Type := mkCmsg {
  g_ehd1 : Z; g_ehd2 : Z; g_tid : Z * Z; g_seoj : list Z; g_deoj : list Z; g_esv : Z;
  g_opc : Z; g_opcset : Z; g_opcget : Z; g_ep : Z; g_epset : Z; g_epget : Z;
  g_bytes : Z; g_from : Z; g_to : Z
}.
(* strings.h:83-88 uEchoString *)
Record cstring : Type := mkCstring { t_value : Z; t_mem : Z; t_size : Z }.
(* socket.h:71-80 uEchoDatagramPacket *)
Record cpkt : Type := mkCpkt { k_data : Z; k_len : Z; k_local : Z; k_lport : Z; k_remote : Z; k_rport : Z }.

Inductive blk : Type :=
| BBytes (l : list (option Z))    (* bytes or characters; None is not written yet *)
| BPtrs (l : list (option Z))     (* an array of pointers *)
| BProp (p : cprop)
| BMsg (m : cmsg)
| BStr (s : cstring)
| BPkt (k : cpkt)
| BHead (prev next : Z)           (* the header of a list *)
| BObj (o : cobj)
| BObs (w : cobs)
| BMgr (observers : Z)            (* frame/property.h:34-36 uEchoObjectPropertyObserverManager *)
| BElem (prev next code : Z) (strs : list Z)   (* another element of a list: a number and pointers to string objects *)
| BRec (ptrs : list Z).           (* another struct of pointers *)

Record heap : Type := mkHeap { h_next : Z; h_mem : Z -> option blk }.
Definition empty_heap : heap := mkHeap 1 (fun _ => None).
Definition hupd (h : heap) (a : Z) (b : option blk) : heap :=
  mkHeap (h_next h) (fun x => if x =? a then b else h_mem h x).

(* computations on the heap *)
Definition mm (A : Type) : Type := heap -> res (A * heap).
Definition ret {A : Type} (a : A) : mm A := fun h => Ok (a, h).
Definition wrong {A : Type} (u : ub) : mm A := fun _ => Undef u.
Definition lift {A : Type} (x : res A) : mm A := fun h => match x with Ok a => Ok (a, h) | Undef u => Undef u end.
Definition mbind {A B : Type} (x : mm A) (f : A -> mm B) : mm B :=
  fun h => match x h with Ok (a, h') => f a h' | Undef u => Undef u end.
Notation "'let!' x := e 'in' f" := (mbind e (fun x => f)) (at level 200, x pattern, e at level 100, f at level 200, right associativity).

(* ---- malloc, free and access through pointers ---- *)

Definition load (a : Z) : mm blk :=
  fun h => if a =? 0 then Undef UB_null else match h_mem h a with Some b => Ok (b, h) | None => Undef UB_free end.
Definition store (a : Z) (b : blk) : mm unit :=
  fun h => if a =? 0 then Undef UB_null
           else match h_mem h a with Some _ => Ok (tt, hupd h a (Some b)) | None => Undef UB_free end.
(* free(NULL) does nothing *)
Definition mfree (a : Z) : mm unit :=
  fun h => if a =? 0 then Ok (tt, h)
           else match h_mem h a with Some _ => Ok (tt, hupd h a None) | None => Undef UB_free end.

Definition load_bytes (a : Z) : mm (list (option Z)) :=
  let! b := load a in match b with BBytes l => ret l | _ => wrong UB_read end.
Definition load_ptrs (a : Z) : mm (list (option Z)) :=
  let! b := load a in match b with BPtrs l => ret l | _ => wrong UB_read end.
Definition load_prop (a : Z) : mm cprop :=
  let! b := load a in match b with BProp p => ret p | _ => wrong UB_read end.
Definition load_msg (a : Z) : mm cmsg :=
  let! b := load a in match b with BMsg m => ret m | _ => wrong UB_read end.
Definition load_str (a : Z) : mm cstring :=
  let! b := load a in match b with BStr s => ret s | _ => wrong UB_read end.
Definition load_pkt (a : Z) : mm cpkt :=
  let! b := load a in match b with BPkt k => ret k | _ => wrong UB_read end.
Definition load_obj (a : Z) : mm cobj :=
  let! b := load a in match b with BObj o => ret o | _ => wrong UB_read end.

(* the members every element of a list starts with: headFlag, prev, next *)
Definition links (b : blk) : option (bool * Z * Z) :=
  match b with
  | BHead p n => Some (true, p, n)
  | BProp q => Some (false, q_prev q, q_next q)
  | BObj o => Some (false, j_prev o, j_next o)
  | BObs w => Some (false, w_prev w, w_next w)
  | BElem p n _ _ => Some (false, p, n)
  | _ => None
  end.
Definition set_links (p n : Z) (b : blk) : blk :=
  match b with
  | BHead _ _ => BHead p n
  | BProp q => BProp (mkCprop p n (q_name q) (q_code q) (q_attr q) (q_data q) (q_size q) (q_parent q))
  | BObj o => BObj (mkCobj p n (j_name o) (j_grp o) (j_cls o) (j_ins o) (j_props o) (j_annon o) (j_anno o) (j_setn o) (j_set o)
                           (j_getn o) (j_get o) (j_listener o) (j_mgr o) (j_node o))
  | BObs w => BObs (mkCobs p n (w_esv w) (w_code w) (w_handler w))
  | BElem _ _ c l => BElem p n c l
  | _ => b
  end.
Definition load_links (a : Z) : mm (bool * Z * Z) :=
  let! b := load a in match links b with Some l => ret l | None => wrong UB_read end.
(* a->next = v, a->prev = v *)
Definition set_next (a v : Z) : mm unit :=
  let! b := load a in match links b with Some (_, p, _) => store a (set_links p v b) | None => wrong UB_read end.
Definition set_prev (a v : Z) : mm unit :=
  let! b := load a in match links b with Some (_, _, n) => store a (set_links v n b) | None => wrong UB_read end.

(* a[i] = c *)
Definition poke (a i c : Z) : mm unit :=
  let! l := load_bytes a in let! l' := lift (wr l i (Some c)) in store a (BBytes l').
(* memcpy(a + i, src + j, n), between different blocks *)
Definition copy_bytes (a i src j n : Z) : mm unit :=
  if n =? 0 then ret tt
  else
    let! s := load_bytes src in let! c := lift (rd_range s j n) in
    let! l := load_bytes a in let! l' := lift (wr_range l i c) in store a (BBytes l').
(* p[i] for an array of pointers *)
Definition ptr_at (a i : Z) : mm Z :=
  let! l := load_ptrs a in
  let! o := lift (rd l i) in match o with Some p => ret p | None => wrong UB_uninit end.
(* a[i] for bytes that are used *)
Definition peek (a i : Z) : mm Z :=
  let! l := load_bytes a in
  let! o := lift (rd l i) in match o with Some c => ret c | None => wrong UB_uninit end.
(* the text a char* points to *)
Definition text_at (a : Z) : mm (list Z) := let! l := load_bytes a in lift (cells_text l).

Section Room.
Variable room : Z -> bool.

(* malloc: the address, or NULL *)
Definition malloc (b : Z -> blk) : mm Z :=
  fun h => let a := h_next h in
           if room a then Ok (a, mkHeap (a + 1) (fun x => if x =? a then Some (b a) else h_mem h x))
           else Ok (0, mkHeap (a + 1) (h_mem h)).
(* realloc of an array of pointers to n elements, 0 < n; if there is no memory the old block stays *)
Definition realloc_ptrs (a n : Z) : mm Z :=
  if a =? 0 then malloc (fun _ => BPtrs (repeat None (Z.to_nat n)))
  else
    let! l := load_ptrs a in
    let! a' := malloc (fun _ => BPtrs (firstn (Z.to_nat n) l ++ repeat None (Z.to_nat n - length l))) in
    if a' =? 0 then ret 0 else let! _ := mfree a in ret a'.

(* ---- string objects ---- *)

(* strings.c:23-36 uecho_string_new *)
Definition uecho_string_new : mm Z := malloc (fun _ => BStr (mkCstring 0 0 0)).

(* strings.c:54-64 uecho_string_clear *)
Definition uecho_string_clear (str : Z) : mm unit :=
  if str =? 0 then ret tt
  else
    let! s := load_str str in
    if t_value s =? 0 then ret tt
    else let! _ := mfree (t_value s) in store str (BStr (mkCstring 0 0 0)).

(* strings.c:42-48 uecho_string_delete *)
Definition uecho_string_delete (str : Z) : mm unit :=
  if str =? 0 then ret tt else let! _ := uecho_string_clear str in mfree str.

(* strings.c:104-122 uecho_string_setnvalue *)
Definition uecho_string_setnvalue (str value n : Z) : mm unit :=
  if str =? 0 then ret tt
  else
    let! _ := uecho_string_clear str in
    if value =? 0 then ret tt
    else
      let! v := malloc (fun _ => BBytes (fresh_buf (sz (n + 1)))) in
      let! _ := store str (BStr (mkCstring v (sz (n + 1)) n)) in
      if v =? 0 then ret tt
      else let! _ := copy_bytes v 0 value 0 n in poke v n 0.

(* strings.c:70-76 uecho_string_setvalue *)
Definition uecho_string_setvalue (str value : Z) : mm unit :=
  if str =? 0 then ret tt
  else if value =? 0 then ret tt
  else let! t := text_at value in uecho_string_setnvalue str value (len t).

(* strings.c:142-145 uecho_string_getvalue *)
Definition uecho_string_getvalue (str : Z) : mm Z :=
  if str =? 0 then ret 0 else let! s := load_str str in ret (t_value s).

(* strings_function.c:24-41 uecho_strdup *)
Definition uecho_strdup (str : Z) : mm Z :=
  if str =? 0 then ret 0
  else
    let! t := text_at str in
    let! a := malloc (fun _ => BBytes (fresh_buf (len t + 1))) in
    if a =? 0 then ret 0 else let! _ := store a (BBytes (map Some (t ++ [0]))) in ret a.

(* strings_function.c:47-63 uecho_strloc; [buf] is *buf before, the result is *buf after *)
Definition uecho_strloc (str buf : Z) : mm Z :=
  if str =? 0 then ret buf
  else let! _ := (if buf =? 0 then ret tt else mfree buf) in uecho_strdup str.

(* ---- properties ---- *)

(* property.c:368-381 uecho_property_cleardata *)
Definition uecho_property_cleardata (p : Z) : mm bool :=
  if p =? 0 then ret false
  else
    let! q := load_prop p in
    let! _ := store p (BProp (mkCprop (q_prev q) (q_next q) (q_name q) (q_code q) (q_attr q) (q_data q) 0 (q_parent q))) in
    if q_data q =? 0 then ret true
    else
      let! _ := mfree (q_data q) in
      let! _ := store p (BProp (mkCprop (q_prev q) (q_next q) (q_name q) (q_code q) (q_attr q) 0 0 (q_parent q))) in
      ret true.

(* list.c:126-139 uecho_list_remove *)
Definition uecho_list_remove (a : Z) : mm unit :=
  if a =? 0 then ret tt
  else
    let! l := load_links a in
    let '(_, p, n) := l in
    if (p =? 0) || (n =? 0) then ret tt
    else
      let! _ := set_next p n in
      let! l := load_links a in
      let '(_, p, n) := l in
      let! _ := set_prev n p in
      let! _ := set_next a a in
      set_prev a a.
(* property.c:396-399 uecho_property_remove *)
Definition uecho_property_remove (p : Z) : mm unit := uecho_list_remove p.

(* property.c:55-70 uecho_property_delete *)
Definition uecho_property_delete (p : Z) : mm bool :=
  if p =? 0 then ret false
  else
    let! q := load_prop p in
    let! _ := (if q_name q =? 0 then ret tt else uecho_string_delete (q_name q)) in
    let! _ := uecho_property_cleardata p in
    let! _ := uecho_property_remove p in
    let! _ := mfree p in
    ret true.

(* property.c:23-49 uecho_property_new *)
Definition uecho_property_new : mm Z :=
  let! p := malloc (fun a => BProp (mkCprop a a 0 0 AttrReadWrite 0 0 0)) in
  if p =? 0 then ret 0
  else
    let! s := uecho_string_new in
    let! q := load_prop p in
    let! _ := store p (BProp (mkCprop (q_prev q) (q_next q) s (q_code q) (q_attr q) (q_data q) (q_size q) (q_parent q))) in
    if s =? 0 then let! _ := uecho_property_delete p in ret 0 else ret p.

(* property.c:427-432 uecho_property_setcode; property.c:471-476 uecho_property_setattribute *)
Definition uecho_property_setcode (p c : Z) : mm unit :=
  if p =? 0 then ret tt
  else
    let! q := load_prop p in
    store p (BProp (mkCprop (q_prev q) (q_next q) (q_name q) c (q_attr q) (q_data q) (q_size q) (q_parent q))).
Definition uecho_property_setattribute (p at_ : Z) : mm unit :=
  if p =? 0 then ret tt
  else
    let! q := load_prop p in
    store p (BProp (mkCprop (q_prev q) (q_next q) (q_name q) (q_code q) at_ (q_data q) (q_size q) (q_parent q))).

(* property.c:102-119 uecho_property_setcount *)
Definition uecho_property_setcount (p n : Z) : mm bool :=
  let! _ := uecho_property_cleardata p in
  if p =? 0 then ret false
  else if n =? 0 then ret true
  else
    let! d := malloc (fun _ => BBytes (map Some (repeat 0 (Z.to_nat n)))) in
    let! q := load_prop p in
    let! _ := store p (BProp (mkCprop (q_prev q) (q_next q) (q_name q) (q_code q) (q_attr q) d (q_size q) (q_parent q))) in
    if d =? 0 then ret false
    else
      let! _ := store p (BProp (mkCprop (q_prev q) (q_next q) (q_name q) (q_code q) (q_attr q) d n (q_parent q))) in
      ret true.

(* property.c:694-711 uecho_property_announce for an object that is in no node: obj->parentNode is read and is NULL *)
Definition uecho_property_announce (p : Z) : mm bool :=
  if p =? 0 then ret false
  else
    let! q := load_prop p in
    if q_parent q =? 0 then ret false else let! _ := load_obj (q_parent q) in ret false.

(* property.c:149-169 uecho_property_setdata(prop, data + off, n) *)
Definition uecho_property_setdata (p data off n : Z) : mm bool :=
  if p =? 0 then ret false
  else
    let! ok := uecho_property_setcount p n in
    if negb ok then ret false
    else if n =? 0 then ret true
    else
      let! q := load_prop p in
      let! _ := copy_bytes (q_data q) 0 data off n in
      let! q := load_prop p in
      let! _ := (if has_bits (q_attr q) (Z.lor AttrAnno AttrAnnoRequired) then uecho_property_announce p else ret false) in
      ret true.

(* property.c:405-410 uecho_property_setname, property.c:416-421 uecho_property_getname *)
Definition uecho_property_setname (p name : Z) : mm unit :=
  if p =? 0 then ret tt else let! q := load_prop p in uecho_string_setvalue (q_name q) name.
Definition uecho_property_getname (p : Z) : mm Z :=
  if p =? 0 then ret 0 else let! q := load_prop p in uecho_string_getvalue (q_name q).

(* property.c:623-641 uecho_property_copy *)
Definition uecho_property_copy (src : Z) : mm Z :=
  if src =? 0 then ret 0
  else
    let! p := uecho_property_new in
    if p =? 0 then ret 0
    else
      let! q := load_prop src in
      let! _ := uecho_property_setcode p (q_code q) in
      let! n := uecho_property_getname src in
      let! _ := uecho_property_setname p n in
      let! _ := uecho_property_setattribute p (q_attr q) in
      let! _ := uecho_property_setdata p (q_data q) 0 (q_size q) in
      ret p.

(* ---- messages ---- *)

(* one of the three arrays of a message: &msg->opc and &msg->ep, &msg->opcSet and &msg->epSet, ... *)
Inductive part : Type := PPlain | PSet | PGet.
Definition g_count (w : part) (g : cmsg) : Z := match w with PPlain => g_opc g | PSet => g_opcset g | PGet => g_opcget g end.
Definition g_array (w : part) (g : cmsg) : Z := match w with PPlain => g_ep g | PSet => g_epset g | PGet => g_epget g end.
Definition with_part (w : part) (opc ep : Z) (g : cmsg) : cmsg :=
  match w with
  | PPlain => mkCmsg (g_ehd1 g) (g_ehd2 g) (g_tid g) (g_seoj g) (g_deoj g) (g_esv g) opc (g_opcset g) (g_opcget g)
                     ep (g_epset g) (g_epget g) (g_bytes g) (g_from g) (g_to g)
  | PSet => mkCmsg (g_ehd1 g) (g_ehd2 g) (g_tid g) (g_seoj g) (g_deoj g) (g_esv g) (g_opc g) opc (g_opcget g)
                     (g_ep g) ep (g_epget g) (g_bytes g) (g_from g) (g_to g)
  | PGet => mkCmsg (g_ehd1 g) (g_ehd2 g) (g_tid g) (g_seoj g) (g_deoj g) (g_esv g) (g_opc g) (g_opcset g) opc
                     (g_ep g) (g_epset g) ep (g_bytes g) (g_from g) (g_to g)
  end.
Definition with_bytes (a : Z) (g : cmsg) : cmsg :=
  mkCmsg (g_ehd1 g) (g_ehd2 g) (g_tid g) (g_seoj g) (g_deoj g) (g_esv g) (g_opc g) (g_opcset g) (g_opcget g)
         (g_ep g) (g_epset g) (g_epget g) a (g_from g) (g_to g).
Definition with_addrs (from to : Z) (g : cmsg) : cmsg :=
  mkCmsg (g_ehd1 g) (g_ehd2 g) (g_tid g) (g_seoj g) (g_deoj g) (g_esv g) (g_opc g) (g_opcset g) (g_opcget g)
         (g_ep g) (g_epset g) (g_epget g) (g_bytes g) from to.
(* the bytes of the header *)
Definition with_head (e1 e2 : Z) (tid : Z * Z) (seoj deoj : list Z) (esv : Z) (g : cmsg) : cmsg :=
  mkCmsg e1 e2 tid seoj deoj esv (g_opc g) (g_opcset g) (g_opcget g)
         (g_ep g) (g_epset g) (g_epget g) (g_bytes g) (g_from g) (g_to g).

(* message.c:23-53 uecho_message_new *)
Definition uecho_message_new : mm Z :=
  malloc (fun _ => BMsg (mkCmsg uEchoEhd1 uEchoEhd2 (0, 0) [0; 0; 0] [0; 0; 0] 0 0 0 0 0 0 0 0 0 0)).

(* message.c:75-91 uecho_properties_clear: the loop; [k] turns from index n *)
Fixpoint properties_clear_loop (ep : Z) (n : Z) (k : nat) : mm unit :=
  match k with
  | O => ret tt
  | S k' =>
      let! p := ptr_at ep n in
      let! _ := uecho_property_delete p in
      let! l := load_ptrs ep in
      let! l' := lift (wr l n (Some 0)) in
      let! _ := store ep (BPtrs l') in
      properties_clear_loop ep (n + 1) k'
  end.
Definition uecho_properties_clear (w : part) (msg : Z) : mm unit :=
  let! g := load_msg msg in
  let! _ := properties_clear_loop (g_array w g) 0 (Z.to_nat (g_count w g)) in
  let! _ := (if g_array w g =? 0 then ret tt else mfree (g_array w g)) in
  let! g := load_msg msg in
  store msg (BMsg (with_part w 0 0 g)).

(* message.c:93-101 uecho_message_clearproperties *)
Definition uecho_message_clearproperties (msg : Z) : mm bool :=
  if msg =? 0 then ret false
  else
    let! _ := uecho_properties_clear PPlain msg in
    let! _ := uecho_properties_clear PSet msg in
    let! _ := uecho_properties_clear PGet msg in
    ret true.

(* message.c:107-131 uecho_message_clear *)
Definition uecho_message_clear (msg : Z) : mm bool :=
  if msg =? 0 then ret false
  else
    let! g := load_msg msg in
    let! _ := (if g_bytes g =? 0 then ret tt
               else let! _ := mfree (g_bytes g) in store msg (BMsg (with_bytes 0 g))) in
    let! g := load_msg msg in
    let! _ := (if g_from g =? 0 then ret tt
               else let! _ := mfree (g_from g) in store msg (BMsg (with_addrs 0 (g_to g) g))) in
    let! g := load_msg msg in
    let! _ := (if g_to g =? 0 then ret tt
               else let! _ := mfree (g_to g) in store msg (BMsg (with_addrs (g_from g) 0 g))) in
    uecho_message_clearproperties msg.

(* message.c:59-69 uecho_message_delete *)
Definition uecho_message_delete (msg : Z) : mm bool :=
  if msg =? 0 then ret false
  else let! _ := uecho_message_clear msg in let! _ := mfree msg in ret true.

(* message.c:137-149 uecho_message_settid, message.c:165-168 uecho_message_setsourceobjectcode, message.c:192-195
   uecho_message_setdestinationobjectcode, message.c:320-328 uecho_message_setesv: they store bytes of the header;
   the bytes are those of M_Message.v *)
Definition uecho_message_settid (le : bool) (msg val : Z) : mm bool :=
  if msg =? 0 then ret false
  else
    let! g := load_msg msg in
    let t := m_tid (M_Message.uecho_message_settid le val M_Message.uecho_message_new) in
    let! _ := store msg (BMsg (with_head (g_ehd1 g) (g_ehd2 g) t (g_seoj g) (g_deoj g) (g_esv g) g)) in ret true.
Definition uecho_message_setsourceobjectcode (msg code : Z) : mm unit :=
  let! g := load_msg msg in
  let! e := lift (uecho_integer2byte code uEchoEOJSize) in
  store msg (BMsg (with_head (g_ehd1 g) (g_ehd2 g) (g_tid g) e (g_deoj g) (g_esv g) g)).
Definition uecho_message_setdestinationobjectcode (msg code : Z) : mm unit :=
  let! g := load_msg msg in
  let! e := lift (uecho_integer2byte code uEchoEOJSize) in
  store msg (BMsg (with_head (g_ehd1 g) (g_ehd2 g) (g_tid g) (g_seoj g) e (g_esv g) g)).
Definition uecho_message_setesv (msg val : Z) : mm bool :=
  if msg =? 0 then ret false
  else
    let! g := load_msg msg in
    let! _ := store msg (BMsg (with_head (g_ehd1 g) (g_ehd2 g) (g_tid g) (g_seoj g) (g_deoj g) val g)) in ret true.

(* message.c:436-439 uecho_message_setsourceaddress, message.c:463-466 uecho_message_setdestinationaddress.
   uecho_strloc sets *buf to NULL before it copies the text. *)
Definition uecho_message_setsourceaddress (msg addr : Z) : mm unit :=
  let! g := load_msg msg in
  let! a := uecho_strloc addr (g_from g) in store msg (BMsg (with_addrs a (g_to g) g)).
Definition uecho_message_setdestinationaddress (msg addr : Z) : mm unit :=
  let! g := load_msg msg in
  let! a := uecho_strloc addr (g_to g) in store msg (BMsg (with_addrs (g_from g) a g)).

(* message.c:219-230 uecho_message_setopcep: the loop *)
Fixpoint setopcep_loop (ep n : Z) (k : nat) : mm unit :=
  match k with
  | O => ret tt
  | S k' =>
      let! p := uecho_property_new in
      let! l := load_ptrs ep in
      let! l' := lift (wr l n (Some p)) in
      let! _ := store ep (BPtrs l') in
      setopcep_loop ep (n + 1) k'
  end.
(* message.c:232-237 uecho_message_setopc, 239-244 setopcset, 246-251 setopcget *)
Definition uecho_message_setopc (w : part) (msg count : Z) : mm bool :=
  if msg =? 0 then ret false
  else
    let! g := load_msg msg in
    let! _ := store msg (BMsg (with_part w count (g_array w g) g)) in
    if count <=? 0 then ret true
    else
      let! ep := malloc (fun _ => BPtrs (repeat None (Z.to_nat count))) in
      let! _ := store msg (BMsg (with_part w count ep g)) in
      let! _ := setopcep_loop ep 0 (Z.to_nat count) in
      ret true.

(* message.c:589-595 uecho_property_add and message.c:597-616 uecho_message_addproperty, addpropertyset,
   addpropertyget; with the count gone round to 0 the store is before the array *)
Definition uecho_message_addproperty (w : part) (msg prop : Z) : mm bool :=
  if (msg =? 0) || (prop =? 0) then ret false
  else
    let! g := load_msg msg in
    let opc := to_byte (g_count w g + 1) in
    if opc =? 0 then wrong UB_write
    else
      let! ep := realloc_ptrs (g_array w g) opc in
      let! _ := store msg (BMsg (with_part w opc ep g)) in
      let! l := load_ptrs ep in
      let! l' := lift (wr l (opc - 1) (Some prop)) in
      let! _ := store ep (BPtrs l') in
      ret true.

(* message.c:622-627 uecho_property_get and message.c:629-648 uecho_message_getproperty, getpropertyset,
   getpropertyget *)
Definition uecho_message_getproperty (w : part) (msg n : Z) : mm Z :=
  if msg =? 0 then ret 0
  else
    let! g := load_msg msg in
    if g_array w g =? 0 then ret 0
    else
      let! p := ptr_at (g_array w g) 0 in
      if p =? 0 then ret 0
      else if sz (g_count w g - 1) <? n then ret 0 else ptr_at (g_array w g) n.

(* message.c:654-666 uecho_property_getbycode *)
Fixpoint getbycode_loop (ep code n : Z) (k : nat) : mm Z :=
  match k with
  | O => ret 0
  | S k' =>
      let! p := ptr_at ep n in
      if p =? 0 then getbycode_loop ep code (n + 1) k'
      else let! q := load_prop p in
           if q_code q =? code then ret p else getbycode_loop ep code (n + 1) k'
  end.
(* message.c:668-673 uecho_message_getpropertybycode, 675-680 getpropertysetbycode, 682-687 getpropertygetbycode *)
Definition uecho_message_getpropertybycode (w : part) (msg code : Z) : mm Z :=
  if msg =? 0 then ret 0
  else let! g := load_msg msg in getbycode_loop (g_array w g) code 0 (Z.to_nat (g_count w g)).

(* message.c:693-708 uecho_property_set and message.c:710-729 uecho_message_setproperty, setpropertyset,
   setpropertyget; the data are at data + off *)
Definition uecho_message_setproperty (w : part) (msg code data off n : Z) : mm bool :=
  if msg =? 0 then ret false
  else
    let! p := uecho_message_getpropertybycode w msg code in
    if negb (p =? 0) then uecho_property_setdata p data off n
    else
      let! p := uecho_property_new in
      if p =? 0 then ret false
      else
        let! _ := uecho_property_setcode p code in
        let! ok := uecho_message_addproperty w msg p in
        if negb ok then let! _ := uecho_property_delete p in ret false
        else uecho_property_setdata p data off n.

(* message.c:735-769 uecho_message_property_parse: the loop; success and the offset *)
Fixpoint property_parse_loop (ep n : Z) (k : nat) (data dataLen off : Z) : mm (bool * Z) :=
  match k with
  | O => ret (true, off)
  | S k' =>
      let! p := ptr_at ep n in
      if p =? 0 then ret (false, off)
      else if sz (dataLen - 1) <? off then ret (false, off)
      else
        let! c := peek data off in
        let off1 := sz (off + 1) in
        let! _ := uecho_property_setcode p c in
        if sz (dataLen - 1) <? off1 then ret (false, off1)
        else
          let! count := peek data off1 in
          let off2 := sz (off1 + 1) in
          if sz (dataLen - 1) <? sz (off2 + count - 1) then ret (false, off2)
          else
            let! ok := uecho_property_setdata p data off2 count in
            if negb ok then ret (false, off2)
            else property_parse_loop ep (n + 1) k' data dataLen (sz (off2 + count))
  end.
Definition uecho_message_property_parse (w : part) (msg data dataLen off : Z) : mm (bool * Z) :=
  let! g := load_msg msg in
  property_parse_loop (g_array w g) 0 (Z.to_nat (g_count w g)) data dataLen off.

(* message.c:771-780 uecho_message_isreadwritemessage *)
Definition is_readwrite (g : cmsg) : bool :=
  (g_esv g =? ESV_SetGet) || (g_esv g =? ESV_SetGet_Res) || (g_esv g =? ESV_SetGet_SNA).

(* message.c:782-847 uecho_message_parse *)
Definition uecho_message_parse (msg data dataLen : Z) : mm bool :=
  if msg =? 0 then ret false
  else
    let! ok := uecho_message_clear msg in
    if negb ok then ret false
    else if dataLen <? uEchoMessageMinLen then ret false
    else
      let! d0 := peek data 0 in
      if negb (d0 =? uEchoEhd1) then ret false
      else
        let! d1 := peek data 1 in
        if negb (d1 =? uEchoEhd2) then ret false
        else
          let! d2 := peek data 2 in let! d3 := peek data 3 in
          let! d4 := peek data 4 in let! d5 := peek data 5 in let! d6 := peek data 6 in
          let! d7 := peek data 7 in let! d8 := peek data 8 in let! d9 := peek data 9 in
          let! d10 := peek data 10 in
          let! g := load_msg msg in
          let g := with_head (g_ehd1 g) (g_ehd2 g) (d2, d3) [d4; d5; d6] [d7; d8; d9] d10 g in
          let! _ := store msg (BMsg g) in
          let! d11 := peek data 11 in
          if is_readwrite g then
            let! _ := uecho_message_setopc PSet msg d11 in
            let! x := uecho_message_property_parse PSet msg data dataLen 12 in
            if negb (fst x) then ret false
            else if sz (dataLen - 1) <? snd x then ret false
            else
              let! c := peek data (snd x) in
              let! _ := uecho_message_setopc PGet msg c in
              let! y := uecho_message_property_parse PGet msg data dataLen (sz (snd x + 1)) in
              ret (fst y)
          else
            let! _ := uecho_message_setopc PPlain msg d11 in
            let! x := uecho_message_property_parse PPlain msg data dataLen 12 in
            ret (fst x).

(* message.c:871-886 uecho_message_opcsize *)
Fixpoint opcsize_loop (ep n : Z) (k : nat) (acc : Z) : mm Z :=
  match k with
  | O => ret acc
  | S k' =>
      let! p := ptr_at ep n in
      if p =? 0 then opcsize_loop ep (n + 1) k' acc
      else let! q := load_prop p in opcsize_loop ep (n + 1) k' (sz (sz (acc + 2) + q_size q))
  end.
Definition uecho_message_opcsize (w : part) (g : cmsg) : mm Z :=
  opcsize_loop (g_array w g) 0 (Z.to_nat (g_count w g)) 0.
(* message.c:888-907 uecho_message_size *)
Definition uecho_message_size (msg : Z) : mm Z :=
  if msg =? 0 then ret 0
  else
    let! g := load_msg msg in
    if is_readwrite g then
      let! a := uecho_message_opcsize PSet g in
      let! b := uecho_message_opcsize PGet g in
      ret (sz (sz (sz (uEchoMessageMinLen + a) + 1) + b))
    else let! a := uecho_message_opcsize PPlain g in ret (sz (uEchoMessageMinLen + a)).

(* message.c:913-930 uecho_message_setopcbytes: the loop; [b] is msg->bytes *)
Fixpoint setopcbytes_loop (b ep n : Z) (k : nat) (off : Z) : mm Z :=
  match k with
  | O => ret off
  | S k' =>
      let! p := ptr_at ep n in
      if p =? 0 then ret off
      else
        let! q := load_prop p in
        let! _ := poke b off (q_code q) in
        let off := sz (off + 1) in
        let! _ := poke b off (to_byte (q_size q)) in
        let off := sz (off + 1) in
        if q_size q <=? 0 then setopcbytes_loop b ep (n + 1) k' off
        else
          let! _ := copy_bytes b off (q_data q) 0 (q_size q) in
          setopcbytes_loop b ep (n + 1) k' (sz (off + q_size q))
  end.
Definition uecho_message_setopcbytes (w : part) (msg off : Z) : mm Z :=
  let! g := load_msg msg in
  setopcbytes_loop (g_bytes g) (g_array w g) 0 (Z.to_nat (g_count w g)) off.

(* a sequence of stores b[i] = ..., b[i+1] = ... *)
Fixpoint pokes (b i : Z) (l : list Z) : mm unit :=
  match l with
  | [] => ret tt
  | c :: r => let! _ := poke b i c in pokes b (i + 1) r
  end.

(* message.c:932-969 uecho_message_getbytes *)
Definition uecho_message_getbytes (msg : Z) : mm Z :=
  let! g := load_msg msg in
  let! _ := (if g_bytes g =? 0 then ret tt else mfree (g_bytes g)) in
  let! size := uecho_message_size msg in
  let! b := malloc (fun _ => BBytes (fresh_buf size)) in
  let! _ := store msg (BMsg (with_bytes b g)) in
  let! s0 := lift (rd (g_seoj g) 0) in let! s1 := lift (rd (g_seoj g) 1) in let! s2 := lift (rd (g_seoj g) 2) in
  let! t0 := lift (rd (g_deoj g) 0) in let! t1 := lift (rd (g_deoj g) 1) in let! t2 := lift (rd (g_deoj g) 2) in
  let! _ := pokes b 0 [g_ehd1 g; g_ehd2 g; fst (g_tid g); snd (g_tid g); s0; s1; s2; t0; t1; t2; g_esv g] in
  let! _ := (if is_readwrite g then
               let! _ := poke b 11 (g_opcset g) in
               let! off := uecho_message_setopcbytes PSet msg 12 in
               let! _ := poke b off (g_opcget g) in
               uecho_message_setopcbytes PGet msg (sz (off + 1))
             else
               let! _ := poke b 11 (g_opc g) in
               uecho_message_setopcbytes PPlain msg 12) in
  ret b.

(* message.c:975-1006 uecho_message_set: the loop *)
Fixpoint copy_loop (msg src n : Z) (k : nat) : mm unit :=
  match k with
  | O => ret tt
  | S k' =>
      let! p := uecho_message_getproperty PPlain src n in
      if p =? 0 then copy_loop msg src (n + 1) k'
      else
        let! c := uecho_property_copy p in
        let! _ := uecho_message_addproperty PPlain msg c in
        copy_loop msg src (n + 1) k'
  end.
(* message.c:975-1006 uecho_message_set; msg and srcMsg may be the same.  The object codes go through int: they
   come back as they were (C08), which M_Message.uecho_message_set shows. *)
Definition uecho_message_set (le : bool) (msg src : Z) : mm bool :=
  if (msg =? 0) || (src =? 0) then ret false
  else
    let! _ := uecho_message_clear msg in
    let! s := load_msg src in
    let! g := load_msg msg in
    let! sc := lift (uecho_byte2integer (g_seoj s)) in
    let! se := lift (uecho_integer2byte sc uEchoEOJSize) in
    let! dc := lift (uecho_byte2integer (g_deoj s)) in
    let! de := lift (uecho_integer2byte dc uEchoEOJSize) in
    let src_m := with_tid (g_tid s) M_Message.uecho_message_new in
    let t := m_tid (M_Message.uecho_message_settid le (M_Message.uecho_message_gettid le src_m) M_Message.uecho_message_new) in
    let! _ := store msg (BMsg (with_head (g_ehd1 s) (g_ehd2 s) t se de (g_esv s) g)) in
    let! s := load_msg src in
    let! _ := uecho_message_setsourceaddress msg (g_from s) in
    let! s := load_msg src in
    let! _ := uecho_message_setdestinationaddress msg (g_to s) in
    let! s := load_msg src in
    let! _ := copy_loop msg src 0 (Z.to_nat (g_opc s)) in
    ret true.

(* message.c:1012-1023 uecho_message_copy *)
Definition uecho_message_copy (le : bool) (src : Z) : mm Z :=
  let! m := uecho_message_new in
  if m =? 0 then ret 0 else let! _ := uecho_message_set le m src in ret m.

(* message.c:1029-1042 uecho_message_equals *)
Definition uecho_message_equals (m1 m2 : Z) : mm bool :=
  let! s1 := uecho_message_size m1 in
  let! s2 := uecho_message_size m2 in
  if negb (s1 =? s2) then ret false
  else
    let! b1 := uecho_message_getbytes m1 in
    let! b2 := uecho_message_getbytes m2 in
    let! c1 := load_bytes b1 in
    let! c2 := load_bytes b2 in
    let! l1 := lift (rd_range c1 0 s1) in
    let! l2 := lift (rd_range c2 0 s1) in
    let! i1 := lift (init_bytes l1) in
    let! i2 := lift (init_bytes l2) in
    ret (bytes_eqb i1 i2).

(* message_search.c:18-39 uecho_message_search_new *)
Definition uecho_message_search_new : mm Z :=
  let! m := uecho_message_new in
  if m =? 0 then ret 0
  else
    let! _ := uecho_message_setesv m ESV_Get in
    let! _ := uecho_message_setsourceobjectcode m uEchoNodeProfileObject in
    let! _ := uecho_message_setdestinationobjectcode m uEchoNodeProfileObject in
    let! p := uecho_property_new in
    let! _ := uecho_property_setcode p EPC_InstanceListS in
    let! _ := uecho_property_setdata p 0 0 0 in
    let! _ := uecho_message_addproperty PPlain m p in
    ret m.

(* ---- datagram packets ---- *)

(* datagram_packet.c:17-36 uecho_socket_datagram_packet_new *)
Definition uecho_socket_datagram_packet_new : mm Z :=
  let! k := malloc (fun _ => BPkt (mkCpkt 0 0 0 0 0 0)) in
  if k =? 0 then ret 0
  else
    let! l := uecho_string_new in
    let! r := uecho_string_new in
    let! _ := store k (BPkt (mkCpkt 0 0 l 0 r 0)) in
    ret k.

(* datagram_packet.c:83-95 uecho_socket_datagram_packet_clear *)
Definition uecho_socket_datagram_packet_clear (k : Z) : mm bool :=
  if k =? 0 then ret false
  else
    let! c := load_pkt k in
    let! _ := (if k_data c =? 0 then ret tt else mfree (k_data c)) in
    let! _ := store k (BPkt (mkCpkt 0 0 (k_local c) (k_lport c) (k_remote c) (k_rport c))) in
    ret true.

(* datagram_packet.c:42-53 uecho_socket_datagram_packet_delete *)
Definition uecho_socket_datagram_packet_delete (k : Z) : mm unit :=
  if k =? 0 then ret tt
  else
    let! _ := uecho_socket_datagram_packet_clear k in
    let! c := load_pkt k in
    let! _ := uecho_string_delete (k_local c) in
    let! _ := uecho_string_delete (k_remote c) in
    mfree k.

(* datagram_packet.c:59-77 uecho_socket_datagram_packet_setdata *)
Definition uecho_socket_datagram_packet_setdata (k data n : Z) : mm bool :=
  if k =? 0 then ret false
  else
    let! _ := uecho_socket_datagram_packet_clear k in
    if (data =? 0) || (n <=? 0) then ret true
    else
      let! c := load_pkt k in
      let! d := malloc (fun _ => BBytes (fresh_buf n)) in
      let! _ := store k (BPkt (mkCpkt d 0 (k_local c) (k_lport c) (k_remote c) (k_rport c))) in
      if d =? 0 then ret false
      else
        let! _ := copy_bytes d 0 data 0 n in
        let! _ := store k (BPkt (mkCpkt d n (k_local c) (k_lport c) (k_remote c) (k_rport c))) in
        ret true.

(* socket.h:157-164 the addresses and ports of a packet *)
Definition set_ports (k lport rport : Z) : mm unit :=
  let! c := load_pkt k in store k (BPkt (mkCpkt (k_data c) (k_len c) (k_local c) lport (k_remote c) rport)).
Definition pkt_setlocaladdress (k addr : Z) : mm unit :=
  let! c := load_pkt k in uecho_string_setvalue (k_local c) addr.
Definition pkt_setremoteaddress (k addr : Z) : mm unit :=
  let! c := load_pkt k in uecho_string_setvalue (k_remote c) addr.
Definition pkt_getlocaladdress (k : Z) : mm Z := let! c := load_pkt k in uecho_string_getvalue (k_local c).
Definition pkt_getremoteaddress (k : Z) : mm Z := let! c := load_pkt k in uecho_string_getvalue (k_remote c).

(* datagram_packet.c:101-113 uecho_socket_datagram_packet_copy *)
Definition uecho_socket_datagram_packet_copy (dst src : Z) : mm bool :=
  if (dst =? 0) || (src =? 0) then ret false
  else
    let! s := load_pkt src in
    let! _ := uecho_socket_datagram_packet_setdata dst (k_data s) (k_len s) in
    let! a := pkt_getlocaladdress src in
    let! _ := pkt_setlocaladdress dst a in
    let! s := load_pkt src in let! d := load_pkt dst in
    let! _ := set_ports dst (k_lport s) (k_rport d) in
    let! a := pkt_getremoteaddress src in
    let! _ := pkt_setremoteaddress dst a in
    let! s := load_pkt src in let! d := load_pkt dst in
    let! _ := set_ports dst (k_lport d) (k_rport s) in
    ret true.

(* message.c:853-865 uecho_message_parsepacket *)
Definition uecho_message_parsepacket (msg k : Z) : mm bool :=
  if (msg =? 0) || (k =? 0) then ret false
  else
    let! c := load_pkt k in
    let! ok := uecho_message_parse msg (k_data c) (k_len c) in
    if negb ok then ret false
    else
      let! a := pkt_getlocaladdress k in
      let! _ := uecho_message_setsourceaddress msg a in
      let! a := pkt_getremoteaddress k in
      let! _ := uecho_message_setsourceaddress msg a in
      ret true.

End Room.
