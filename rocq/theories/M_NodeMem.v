(* The memory behind a node: node.c, node_listener.c and the parts of property.c and object_list.c that reach the node of an
   object, with explicit pointers on the heap of M_Mem.v.  M_Node.v and M_NodeListener.v model the same functions on values.

   A node (_node.h) is a block with its links, lastTid and the pointers mutex, classes, objects, server, address, msgListener (any
   number but 0 for a listener) and controller.  The server is reduced to the frames handed to it and to the result of each
   hand-over ([net]), as in M_Node.v; a server that is NULL refuses.  Request handlers are the decision [dec] of M_NodeListener.v.
   A function that may hand frames to the server returns them in order. *)
From Coq Require Import String Ascii ZArith List Bool.
From Verif Require Import CSem M_Const M_Misc M_String M_Property M_Message M_PropertyList M_Object M_Node M_NodeListener M_Mem M_MemUse
  M_ObjMem M_Life.
Import ListNotations.
Open Scope Z_scope.

(* the pointers of a node *)
Definition node_mutex (l : list Z) : Z := nth 0 l 0.
Definition node_classes (l : list Z) : Z := nth 1 l 0.
Definition node_objects (l : list Z) : Z := nth 2 l 0.
Definition node_server (l : list Z) : Z := nth 3 l 0.
Definition node_address (l : list Z) : Z := nth 4 l 0.
Definition node_msglistener (l : list Z) : Z := nth 5 l 0.

(* the characters of a C string *)
Definition text_string (l : list Z) : string := string_of_list_ascii (map (fun c => ascii_of_N (Z.to_N c)) l).

Section NodeMem.
Variable room : Z -> bool.
Variable le : bool.
Variable net : post -> bool.
Variable dec : list (hcall * bool) -> hcall -> bool.

(* ---- lookups ---- *)

(* object.c:221-234 uecho_object_getcode; the number is that of M_Object.v *)
Definition code_of (c : cobj) : Z :=
  M_Object.uecho_object_getcode (o_with_code (j_grp c) (j_cls c) (j_ins c) M_Object.uecho_object_new).
Definition uecho_object_getcode (obj : Z) : mm Z :=
  if obj =? 0 then ret 0 else let! c := load_obj obj in ret (code_of c).
(* object.c:128-134 uecho_object_getparentnode *)
Definition uecho_object_getparentnode (obj : Z) : mm Z :=
  if obj =? 0 then ret 0 else let! c := load_obj obj in ret (j_node c).
(* object_list.c:48-62 uecho_objectlist_getbycode *)
Definition uecho_objectlist_getbycode (objs code : Z) : mm Z :=
  if objs =? 0 then ret 0
  else find_in objs (fun a => let! c := uecho_object_getcode a in ret (c =? code)).
(* node.c:271-274 uecho_node_getobjectbycode *)
Definition uecho_node_getobjectbycode (nd code : Z) : mm Z :=
  let! e := load_elem nd in uecho_objectlist_getbycode (node_objects (snd e)) code.
(* property.c:90-96 uecho_property_getparentobject *)
Definition uecho_property_getparentobject (p : Z) : mm Z :=
  if p =? 0 then ret 0 else let! q := load_prop p in ret (q_parent q).
(* property.c:671-688 uecho_property_getnode *)
Definition uecho_property_getnode (p : Z) : mm Z :=
  if p =? 0 then ret 0
  else
    let! o := uecho_property_getparentobject p in
    if o =? 0 then ret 0 else uecho_object_getparentnode o.

(* ---- sending ---- *)

(* node.c:417-423 uecho_node_setlasttid *)
Definition uecho_node_setlasttid (nd t : Z) : mm unit := set_code nd t.
(* node.c:441-453 uecho_node_getnexttid *)
Definition uecho_node_getnexttid (nd : Z) : mm Z :=
  if nd =? 0 then ret 0
  else
    let! e := load_elem nd in
    let! _ := set_code nd (if uEchoTidMax <=? fst e then 1 else fst e + 1) in
    let! e := load_elem nd in
    ret (fst e).

(* [n] bytes at [b], all of them written *)
Definition read_bytes (b n : Z) : mm (list Z) :=
  let! l := load_bytes b in let! c := lift (rd_range l 0 n) in lift (init_bytes c).
(* node.c:459-464 uecho_node_announcemessagebytes *)
Definition uecho_node_announcemessagebytes (nd b n : Z) : mm (bool * list post) :=
  if (nd =? 0) || (b =? 0) || (n <=? 0) then ret (false, [])
  else
    let! e := load_elem nd in
    if node_server (snd e) =? 0 then ret (false, [])
    else let! d := read_bytes b n in ret (net (PAnnounce d), [PAnnounce d]).
(* node.c:470-475 uecho_node_sendmessagebytes *)
Definition uecho_node_sendmessagebytes (nd addr b n : Z) : mm (bool * list post) :=
  if (nd =? 0) || (addr =? 0) || (b =? 0) || (n <=? 0) then ret (false, [])
  else
    let! e := load_elem nd in
    if node_server (snd e) =? 0 then ret (false, [])
    else
      let! t := text_at addr in
      let! d := read_bytes b n in
      ret (net (PSend (text_string t) d), [PSend (text_string t) d]).

(* node.c:481-496 uecho_node_announcemessage *)
Definition uecho_node_announcemessage (nd msg : Z) : mm (bool * list post) :=
  if (nd =? 0) || (msg =? 0) then ret (false, [])
  else
    let! t := uecho_node_getnexttid nd in
    let! _ := uecho_message_settid le msg t in
    let! o := uecho_node_getobjectbycode nd uEchoNodeProfileObject in
    if o =? 0 then ret (false, [])
    else
      let! c := uecho_object_getcode o in
      let! _ := uecho_message_setsourceobjectcode msg c in
      let! b := uecho_message_getbytes room msg in
      let! n := uecho_message_size msg in
      uecho_node_announcemessagebytes nd b n.

(* node.c:523-545 uecho_node_announceproperty *)
Definition uecho_node_announceproperty (nd obj p : Z) : mm (bool * list post) :=
  if (nd =? 0) || (obj =? 0) || (p =? 0) then ret (false, [])
  else
    let! msg := uecho_message_new room in
    if msg =? 0 then ret (false, [])
    else
      let! _ := uecho_message_setesv msg ESV_INF in
      let! c := uecho_object_getcode obj in
      let! _ := uecho_message_setsourceobjectcode msg c in
      let! _ := uecho_message_setdestinationobjectcode msg uEchoNodeProfileObject in
      let! q := uecho_property_copy room p in
      let! _ := uecho_message_addproperty room PPlain msg q in
      let! r := uecho_node_announcemessage nd msg in
      let! _ := uecho_message_delete msg in
      ret r.

(* property.c:694-711 uecho_property_announce *)
Definition uecho_property_announce (p : Z) : mm (bool * list post) :=
  if p =? 0 then ret (false, [])
  else
    let! nd := uecho_property_getnode p in
    if nd =? 0 then ret (false, [])
    else
      let! o := uecho_property_getparentobject p in
      if o =? 0 then ret (false, []) else uecho_node_announceproperty nd o p.

(* property.c:149-169 uecho_property_setdata(prop, data, n) *)
Definition uecho_property_setdata (p data n : Z) : mm (bool * list post) :=
  if p =? 0 then ret (false, [])
  else
    let! ok := uecho_property_setcount room p n in
    if negb ok then ret (false, [])
    else if n =? 0 then ret (true, [])
    else
      let! q := load_prop p in
      let! _ := copy_bytes (q_data q) 0 data 0 n in
      let! q := load_prop p in
      let! r := (if has_bits (q_attr q) (Z.lor AttrAnno AttrAnnoRequired) then uecho_property_announce p else ret (false, [])) in
      ret (true, snd r).

(* ---- requests ---- *)

(* the call of a request handler: what it can see of its arguments *)
Definition handler_call (h : nat) (obj objProp esv msgProp : Z) : mm hcall :=
  let! c := uecho_object_getcode obj in
  let! x := read_property objProp in
  let! q := load_prop objProp in
  let! y := read_property msgProp in
  let '(pc, pa, pd) := x in
  ret (mkCall h c (mkProp pc pa pd (negb (q_parent q =? 0))) esv (snd y)).

(* node_listener.c:35-51 uecho_object_notifyrequestproperty, with frame/object_property_observer_manager.c:70-73
   uecho_object_property_observer_manager_getobservers *)
Fixpoint notify_loop (n : nat) (a obj objProp esv msgProp : Z) (acc : bool) (calls : list (hcall * bool))
  : mm (bool * list (hcall * bool)) :=
  if a =? 0 then ret (acc, calls)
  else
    match n with
    | O => wrong UB_loop
    | S k =>
        let! w := load_obs a in
        let! q := load_prop msgProp in
        if negb (esv =? w_esv w) || negb (q_code q =? w_code w) then
          let! b := uecho_list_next a in notify_loop k b obj objProp esv msgProp acc calls
        else
          match w_handler w with
          | None => wrong UB_null
          | Some h =>
              let! c := handler_call h obj objProp esv msgProp in
              let! b := uecho_list_next a in
              notify_loop k b obj objProp esv msgProp (acc && dec calls c) (calls ++ [(c, dec calls c)])
          end
    end.
Definition uecho_object_notifyrequestproperty (obj objProp esv msgProp : Z) (calls : list (hcall * bool))
  : mm (bool * list (hcall * bool)) :=
  if (obj =? 0) || (msgProp =? 0) then ret (false, calls)
  else
    let! c := load_obj obj in
    let! l := load_mgr (j_mgr c) in
    walk (fun n => let! a := uecho_list_next l in notify_loop n a obj objProp esv msgProp true calls).

(* property.c:460-465 uecho_property_getdatasize, property.c:449-454 uecho_property_getdata: one property gets the data of another *)
Definition take_data (dst src : Z) : mm (list post) :=
  let! q := load_prop src in
  let! r := uecho_property_setdata dst (q_data q) (q_size q) in
  ret (snd r).

(* what a request has led to so far: accepted properties, calls of handlers, frames *)
Definition progress : Type := (Z * list (hcall * bool) * list post)%type.

(* node_listener.c:59-115 uecho_node_handlerequestmessage, one turn of the loop; [w] tells which of the functions
   uecho_message_addproperty, uecho_message_addpropertyset and uecho_message_addpropertyget is passed *)
Definition handle_one (w : part) (dest esv msgProp resMsg : Z) (s : progress) : mm progress :=
  let '(cnt, calls, posts) := s in
  if msgProp =? 0 then ret s
  else
    let! m := load_prop msgProp in
    let! resProp := uecho_property_new room in
    if resProp =? 0 then ret s
    else
      let! _ := uecho_property_setcode resProp (q_code m) in
      let! destProp := uecho_object_getproperty dest (q_code m) in
      let! s' :=
        (if destProp =? 0 then
           let! a := (if esv =? ESV_SetC then take_data resProp msgProp else ret []) in ret (cnt, calls, posts ++ a)
         else
           let! r := uecho_object_notifyrequestproperty dest destProp esv msgProp calls in
           if fst r then
             let! a := (if (esv =? ESV_SetI) || (esv =? ESV_SetC) then take_data destProp msgProp else ret []) in
             let! b := (if (esv =? ESV_Get) || (esv =? ESV_INF_REQ) || (esv =? ESV_INFC) then take_data resProp destProp
                        else ret []) in
             ret (cnt + 1, snd r, posts ++ a ++ b)
           else
             let! a := (if esv =? ESV_SetC then take_data resProp msgProp else ret []) in ret (cnt, snd r, posts ++ a)) in
      let! _ := uecho_message_addproperty room w resMsg resProp in
      ret s'.
Fixpoint handle_loop (w : part) (dest esv ep n : Z) (k : nat) (resMsg : Z) (s : progress) : mm progress :=
  match k with
  | O => ret s
  | S k' =>
      let! p := ptr_at ep n in
      let! s' := handle_one w dest esv p resMsg s in
      handle_loop w dest esv ep (n + 1) k' resMsg s'
  end.
(* the function is declared bool, so the count becomes 0 or 1; it is added to the caller's total *)
Definition uecho_node_handlerequestmessage (w : part) (dest esv : Z) (g : cmsg) (resMsg : Z) (s : progress) : mm progress :=
  let '(cnt, calls, posts) := s in
  let! s' := handle_loop w dest esv (g_array w g) 0 (Z.to_nat (g_count w g)) resMsg (0, calls, posts) in
  let '(cnt', calls', posts') := s' in
  ret (cnt + (if cnt' =? 0 then 0 else 1), calls', posts').

(* what one message has led to *)
Definition outcome : Type := (list post * list (hcall * bool) * list told)%type.

(* node_listener.c:117-241 uecho_node_servermessagelistener *)
Definition uecho_node_servermessagelistener (nd req : Z) : mm outcome :=
  if (nd =? 0) || (req =? 0) then ret ([], [], [])
  else
    let! e := load_elem nd in
    let told0 := if node_msglistener (snd e) =? 0 then [] else [ToldNode] in
    let! g := load_msg req in
    let! dcode := lift (uecho_byte2integer (g_deoj g)) in
    let! dest := uecho_node_getobjectbycode nd dcode in
    if dest =? 0 then ret ([], [], told0)
    else
      let! c := load_obj dest in
      let told1 := told0 ++ (if j_listener c then [ToldObject (code_of c)] else []) in
      if negb (uecho_esv_isrequest (g_esv g)) then ret ([], [], told1)
      else
        let! res := uecho_message_new room in
        if res =? 0 then ret ([], [], told1)
        else
          let! _ := uecho_message_settid le res (M_Message.uecho_message_gettid le (with_tid (g_tid g) M_Message.uecho_message_new)) in
          let! _ := uecho_message_setsourceobjectcode res dcode in
          let! scode := lift (uecho_byte2integer (g_seoj g)) in
          let! _ := uecho_message_setdestinationobjectcode res scode in
          let! s :=
            (if is_readwrite g then
               let! s1 := uecho_node_handlerequestmessage PSet dest ESV_SetC g res (0, [], []) in
               uecho_node_handlerequestmessage PGet dest ESV_Get g res s1
             else uecho_node_handlerequestmessage PPlain dest (g_esv g) g res (0, [], [])) in
          let '(cnt, calls, posts) := s in
          let! parent := uecho_object_getparentnode dest in
          let! r :=
            match answer_esv (g_esv g) (cnt =? g_opc g + g_opcset g + g_opcget g) with
            | Some esv =>
                if parent =? 0 then ret (false, [])
                else
                  let! _ := uecho_message_setesv res esv in
                  let! b := uecho_message_getbytes room res in
                  let! n := uecho_message_size res in
                  let! h := load_msg res in
                  if g_esv h =? ESV_INF then uecho_node_announcemessagebytes parent b n
                  else
                    let! g := load_msg req in
                    uecho_node_sendmessagebytes parent (g_from g) b n
            | None => ret (false, [])
            end in
          let! _ := uecho_message_delete res in
          ret (posts ++ snd r, calls, told1).
End NodeMem.
