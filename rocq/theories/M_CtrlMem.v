(* The life of a controller in memory: controller.c, controller_listener.c and node_list.c with explicit pointers, from
   uecho_controller_new to uecho_controller_delete, on the heap of M_Mem.v.  M_Controller.v models the same functions on values.

   A controller (_controller.h) is a block with the option and the pointers mutex, cond, node, nodes, msgListener and nodeListener
   (any number but 0 for a listener), postReqMsg and postResMsg; userData and postResWaitClockTime are left out.  Its nodes are
   those of M_NodeLife.v: the servers have no sockets and threads, the frames handed to the server of the local node are returned
   in order, those handed to the servers of the other nodes, which are never started, are dropped ([snet] gives the results).
   A node listener is shown the address of the node. *)
From Coq Require Import String ZArith List Bool.
From Verif Require Import CSem M_Const M_Misc M_String M_Property M_Message M_PropertyList M_Object Spec_Object M_Node M_NodeListener M_Controller
  M_Mem M_MemUse M_ObjMem M_ObjUse M_Life M_NodeMem M_NodeLife.
Import ListNotations.
Open Scope Z_scope.

(* the pointers of a controller *)
Definition ctrl_mutex (l : list Z) : Z := nth 0 l 0.
Definition ctrl_cond (l : list Z) : Z := nth 1 l 0.
Definition ctrl_node (l : list Z) : Z := nth 2 l 0.
Definition ctrl_nodes (l : list Z) : Z := nth 3 l 0.
Definition ctrl_msglistener (l : list Z) : Z := nth 4 l 0.
Definition ctrl_nodelistener (l : list Z) : Z := nth 5 l 0.
Definition ctrl_req (l : list Z) : Z := nth 6 l 0.
Definition ctrl_res (l : list Z) : Z := nth 7 l 0.
(* the pointer k of a block becomes v *)
Fixpoint put_ptr (k : nat) (v : Z) (l : list Z) : list Z :=
  match l, k with
  | [], _ => []
  | _ :: r, O => v :: r
  | x :: r, S k' => x :: put_ptr k' v r
  end.
Definition set_ptr (a : Z) (k : nat) (v : Z) : mm unit :=
  let! x := load a in
  match x with BElem p n c l => store a (BElem p n c (put_ptr k v l)) | _ => wrong UB_read end.

(* message.c:155-159 uecho_message_gettid *)
Definition tid_of (le : bool) (g : cmsg) : Z := M_Message.uecho_message_gettid le (with_tid (g_tid g) M_Message.uecho_message_new).

Section CtrlMem.
Variable room : Z -> bool.
Variable le : bool.
Variable net snet : post -> bool.
Variable dec : list (hcall * bool) -> hcall -> bool.
Variable db : Z.

(* ---- property maps of an object that is in a node ---- *)

Section Junk.
Variable junk : nat -> Z.

(* property_list.c:112-127 uecho_propertylist_set *)
Definition uecho_propertylist_set (props code attr data n : Z) : mm (bool * list post) :=
  if props =? 0 then ret (false, [])
  else
    let! p := M_ObjMem.uecho_propertylist_getbycode room props code in
    if p =? 0 then ret (false, [])
    else
      let! r := M_NodeMem.uecho_property_setdata room le snet p data n in
      let! _ := M_Mem.uecho_property_setattribute p attr in
      ret (true, snd r).

(* object.c:360-394 uecho_object_setpropertymap *)
Definition uecho_object_setpropertymap (obj mapCode codes n : Z) : mm (bool * list post) :=
  if obj =? 0 then ret (false, [])
  else
    let! buf := malloc (fun _ => true) (fun _ => BBytes (fresh_buf MapFormat2Size)) in
    let! _ := poke buf 0 (to_byte n) in
    let! r := (if n <=? MapFormat1MaxSize then
                 let! _ := copy_bytes buf 1 codes 0 n in
                 let! o := load_obj obj in
                 uecho_propertylist_set (j_props o) mapCode AttrRead buf (n + 1)
               else
                 let! l := load_bytes buf in
                 let! l' := lift (wr_range l 1 (repeat (Some 0) (Z.to_nat MapFormat2MapSize))) in
                 let! _ := store buf (BBytes l') in
                 let! _ := format2_loop buf codes 0 (Z.to_nat n) in
                 let! o := load_obj obj in
                 M_NodeLife.uecho_propertylist_setdata room le snet (j_props o) mapCode buf MapFormat2Size) in
    let! _ := mfree buf in
    ret (true, snd r).

(* std/object_super_class.c:41-88 uecho_object_updatepropertymaps *)
Definition uecho_object_updatepropertymaps (obj : Z) : mm (bool * list post) :=
  if obj =? 0 then ret (false, [])
  else
    let! _ := uecho_object_clearpropertymapcaches obj in
    let! p := uecho_object_getproperties obj in
    let! _ := walk (fun n => cache_loop room junk obj n p) in
    let! o := load_obj obj in
    let! r1 := uecho_object_setpropertymap obj EPC_GetMap (j_get o) (j_getn o) in
    let! o := load_obj obj in
    let! r2 := uecho_object_setpropertymap obj EPC_SetMap (j_set o) (j_setn o) in
    let! o := load_obj obj in
    let! r3 := uecho_object_setpropertymap obj EPC_AnnoMap (j_anno o) (j_annon o) in
    ret (true, snd r1 ++ snd r2 ++ snd r3).

(* object.c:415-433 uecho_object_setproperty *)
Definition uecho_object_setproperty (obj code attr : Z) : mm (bool * list post) :=
  if obj =? 0 then ret (false, [])
  else
    let! o := load_obj obj in
    let! r := uecho_propertylist_set (j_props o) code attr 0 0 in
    if negb (fst r) then ret (false, snd r)
    else
      let! p := M_ObjMem.uecho_object_getproperty obj code in
      if p =? 0 then ret (false, snd r)
      else
        let! ok := uecho_property_setparentobject p obj in
        if negb ok then ret (false, snd r)
        else let! s := uecho_object_updatepropertymaps obj in ret (fst s, snd r ++ snd s).
End Junk.

(* ---- the list of nodes ---- *)

(* node_list.c:18-29 uecho_nodelist_new *)
Definition uecho_nodelist_new : mm Z := list_new room.
(* _node.h:99 uecho_nodelist_clear *)
Definition node_destructor (nd : Z) : mm unit := let! _ := uecho_node_delete nd in ret tt.
Definition uecho_nodelist_clear (l : Z) : mm bool := uecho_list_clear l node_destructor.
(* node_list.c:35-43 uecho_nodelist_delete *)
Definition uecho_nodelist_delete (l : Z) : mm unit :=
  if l =? 0 then ret tt else let! _ := uecho_nodelist_clear l in mfree l.

(* node.c:162-167 uecho_node_getaddress *)
Definition uecho_node_getaddress (nd : Z) : mm Z :=
  if nd =? 0 then ret 0 else let! e := load_elem nd in uecho_string_getvalue (node_address (snd e)).
(* util/strings_function.c:141-147 uecho_streq *)
Definition uecho_streq (a b : Z) : mm bool :=
  if (a =? 0) || (b =? 0) then ret false
  else let! x := text_at a in let! y := text_at b in ret (bytes_eqb x y).
(* node.c:173-187 uecho_node_isaddress, for a node whose server is not started *)
Definition uecho_node_isaddress (nd addr : Z) : mm bool :=
  if nd =? 0 then ret false
  else
    let! e := load_elem nd in
    if node_address (snd e) =? 0 then ret false
    else let! v := uecho_string_getvalue (node_address (snd e)) in uecho_streq v addr.
(* controller.c:588-594 uecho_node_setcontroller *)
Definition uecho_node_setcontroller (nd ctrl : Z) : mm unit := if nd =? 0 then ret tt else set_ptr nd 6 ctrl.
(* controller.c:599-605 uecho_node_getcontroller *)
Definition uecho_node_getcontroller (nd : Z) : mm Z := if nd =? 0 then ret 0 else let! e := load_elem nd in ret (nth 6 (snd e) 0).

(* controller.c:182-188 uecho_controller_addnode *)
Definition uecho_controller_addnode (ctrl nd : Z) : mm bool :=
  let! e := load_elem ctrl in
  let! ok := uecho_list_add (ctrl_nodes (snd e)) nd in
  if negb ok then ret false else let! _ := uecho_node_setcontroller nd ctrl in ret true.
(* controller.c:194-197 uecho_controller_getnodecount, with util/list.c:47-61 uecho_list_size *)
Fixpoint size_loop (n : nat) (a : Z) (s : Z) : mm Z :=
  if a =? 0 then ret s
  else
    match n with
    | O => wrong UB_loop
    | S k => let! a' := uecho_list_next a in size_loop k a' (s + 1)
    end.
Definition uecho_controller_getnodecount (ctrl : Z) : mm Z :=
  let! e := load_elem ctrl in
  let! a := uecho_list_next (ctrl_nodes (snd e)) in
  walk (fun n => size_loop n a 0).
(* controller.c:212-225 uecho_controller_getnodebyaddress *)
Definition uecho_controller_getnodebyaddress (ctrl addr : Z) : mm Z :=
  if ctrl =? 0 then ret 0
  else let! e := load_elem ctrl in find_in (ctrl_nodes (snd e)) (fun nd => uecho_node_isaddress nd addr).

(* controller.c:231-246 uecho_controller_getobjectbycode *)
Fixpoint object_loop (n : nat) (nd code : Z) : mm Z :=
  if nd =? 0 then ret 0
  else
    match n with
    | O => wrong UB_loop
    | S k =>
        let! o := M_NodeMem.uecho_node_getobjectbycode nd code in
        if o =? 0 then let! nd' := uecho_list_next nd in object_loop k nd' code else ret o
    end.
Definition uecho_controller_getobjectbycode (ctrl code : Z) : mm Z :=
  if ctrl =? 0 then ret 0
  else
    let! e := load_elem ctrl in
    let! nd := uecho_list_next (ctrl_nodes (snd e)) in
    walk (fun n => object_loop n nd code).

(* ---- new and delete ---- *)

(* controller.c:20-47 uecho_controller_new; [wild] is what the block holds as postReqMsg, which is not set *)
Definition uecho_controller_new (wild : Z) (fr : fresh) : mm (Z * list post) :=
  let! ctrl := malloc room (fun _ => BElem 0 0 0 []) in
  if ctrl =? 0 then ret (0, [])
  else
    let! m := box_new room in
    let! c := box_new room in
    let! x := M_NodeLife.uecho_node_new room (fr_junk fr) le net db (fr_tid fr) (fr_man fr) (fr_uniq fr) in
    let! l := uecho_nodelist_new in
    let! s := (if fst x =? 0 then ret 0 else let! e := load_elem (fst x) in ret (node_server (snd e))) in
    let! _ := uecho_server_addobserver room s ctrl in
    let! _ := store ctrl (BElem 0 0 0 [m; c; fst x; l; 0; 0; wild; 0]) in
    ret (ctrl, snd x).
(* controller.c:53-68 uecho_controller_delete; stopping a server without sockets and threads changes nothing *)
Definition uecho_controller_delete (ctrl : Z) : mm bool :=
  if ctrl =? 0 then ret false
  else
    let! e := load_elem ctrl in
    let! _ := box_delete (ctrl_mutex (snd e)) in
    let! _ := box_delete (ctrl_cond (snd e)) in
    let! _ := uecho_node_delete (ctrl_node (snd e)) in
    let! _ := uecho_nodelist_delete (ctrl_nodes (snd e)) in
    let! _ := mfree ctrl in
    ret true.
(* controller.c:122-133 uecho_controller_start; [up] is the result of uecho_server_start *)
Definition uecho_controller_start (ctrl : Z) (up : bool) : mm (bool * list post) :=
  if ctrl =? 0 then ret (false, [])
  else
    let! e := load_elem ctrl in
    let! ok := uecho_nodelist_clear (ctrl_nodes (snd e)) in
    let! e := load_elem ctrl in
    let! r := M_NodeLife.uecho_node_announce room le net (ctrl_node (snd e)) in
    ret (ok && (up && fst r), snd r).

(* ---- options and listeners ---- *)

(* controller.c:74-80 uecho_controller_setmessagelistener *)
Definition uecho_controller_setmessagelistener (ctrl : Z) (b : bool) : mm unit :=
  if ctrl =? 0 then ret tt else set_ptr ctrl 4 (if b then 1 else 0).
(* controller.c:86-92 uecho_controller_setnodelistener *)
Definition uecho_controller_setnodelistener (ctrl : Z) (b : bool) : mm unit :=
  if ctrl =? 0 then ret tt else set_ptr ctrl 5 (if b then 1 else 0).
(* controller.c:271-278 uecho_controller_enableoption *)
Definition uecho_controller_enableoption (ctrl param : Z) : mm bool :=
  if ctrl =? 0 then ret false
  else let! e := load_elem ctrl in let! _ := set_code ctrl (Z.lor (fst e) param) in ret true.
(* controller.c:284-291 uecho_controller_disableoption *)
Definition uecho_controller_disableoption (ctrl param : Z) : mm bool :=
  if ctrl =? 0 then ret false
  else let! e := load_elem ctrl in let! _ := set_code ctrl (Z.lxor (fst e) param) in ret true.
(* controller.c:297-303 uecho_controller_isoptionenabled *)
Definition uecho_controller_isoptionenabled (ctrl param : Z) : mm bool :=
  if ctrl =? 0 then ret false else let! e := load_elem ctrl in ret (negb (Z.land (fst e) param =? 0)).

(* ---- sending ---- *)

(* node.c:502-517 uecho_node_sendmessage *)
Definition uecho_node_sendmessage (nd dst msg : Z) : mm (bool * list post) :=
  if (nd =? 0) || (dst =? 0) || (msg =? 0) then ret (false, [])
  else
    let! t := M_NodeMem.uecho_node_getnexttid nd in
    let! _ := M_Mem.uecho_message_settid le msg t in
    let! o := M_NodeMem.uecho_node_getobjectbycode nd uEchoNodeProfileObject in
    if o =? 0 then ret (false, [])
    else
      let! c := M_NodeMem.uecho_object_getcode o in
      let! _ := M_Mem.uecho_message_setsourceobjectcode msg c in
      let! a := uecho_node_getaddress dst in
      let! b := M_Mem.uecho_message_getbytes room msg in
      let! n := M_Mem.uecho_message_size msg in
      M_NodeMem.uecho_node_sendmessagebytes net nd a b n.
(* controller.c:340-345 uecho_controller_announcemessage *)
Definition uecho_controller_announcemessage (ctrl msg : Z) : mm (bool * list post) :=
  if (ctrl =? 0) || (msg =? 0) then ret (false, [])
  else let! e := load_elem ctrl in M_NodeMem.uecho_node_announcemessage room le net (ctrl_node (snd e)) msg.
(* controller.c:351-356 uecho_controller_sendmessage *)
Definition uecho_controller_sendmessage (ctrl nd msg : Z) : mm (bool * list post) :=
  if (ctrl =? 0) || (nd =? 0) || (msg =? 0) then ret (false, [])
  else
    let! e := load_elem ctrl in
    if ctrl_node (snd e) =? 0 then ret (false, []) else uecho_node_sendmessage (ctrl_node (snd e)) nd msg.
(* object.c:740-759 uecho_object_sendmessage *)
Definition uecho_object_sendmessage (obj msg : Z) : mm (bool * list post) :=
  if (obj =? 0) || (msg =? 0) then ret (false, [])
  else
    let! nd := M_NodeMem.uecho_object_getparentnode obj in
    if nd =? 0 then ret (false, [])
    else
      let! ctrl := uecho_node_getcontroller nd in
      if ctrl =? 0 then ret (false, [])
      else
        let! c := M_NodeMem.uecho_object_getcode obj in
        let! _ := M_Mem.uecho_message_setdestinationobjectcode msg c in
        uecho_controller_sendmessage ctrl nd msg.
(* controller.c:525-539 uecho_controller_searchwithesv *)
Definition uecho_controller_searchwithesv (ctrl esv : Z) : mm (bool * list post) :=
  let! msg := M_Mem.uecho_message_search_new room in
  if msg =? 0 then ret (false, [])
  else
    let! _ := M_Mem.uecho_message_setesv msg esv in
    let! r := uecho_controller_announcemessage ctrl msg in
    let! _ := M_Mem.uecho_message_delete msg in
    ret r.
(* controller.c:554-573 uecho_controller_searchobjectwithesv; objCode is a byte *)
Definition uecho_controller_searchobjectwithesv (ctrl objCode esv : Z) : mm (bool * list post) :=
  if ctrl =? 0 then ret (false, [])
  else
    let! msg := M_Mem.uecho_message_search_new room in
    if msg =? 0 then ret (false, [])
    else
      let! _ := M_Mem.uecho_message_setesv msg esv in
      let! _ := M_Mem.uecho_message_setdestinationobjectcode msg (to_byte objCode) in
      let! r := uecho_controller_announcemessage ctrl msg in
      let! _ := M_Mem.uecho_message_delete msg in
      ret r.

(* controller.c:482-519 uecho_controller_postmessage up to the wait, with 362-365 uecho_controller_setpostrequestmessage and 389-392
   uecho_controller_setpostresponsemessage *)
Definition postmessage_begin (ctrl nd req rsp : Z) : mm (bool * list post) :=
  if ctrl =? 0 then ret (false, [])
  else
    let! _ := set_ptr ctrl 6 req in
    let! _ := set_ptr ctrl 7 rsp in
    uecho_controller_sendmessage ctrl nd req.
(* and from the end of the wait, for a request that was sent *)
Definition postmessage_end (ctrl : Z) : mm unit :=
  let! _ := set_ptr ctrl 6 0 in set_ptr ctrl 7 0.

(* ---- messages ---- *)

(* message.c:418-430 uecho_message_isresponsemessage *)
Definition uecho_message_isresponsemessage (msg res : Z) : mm bool :=
  if (msg =? 0) || (res =? 0) then ret false
  else
    let! g := load_msg msg in
    let! h := load_msg res in
    if negb (tid_of le g =? tid_of le h) then ret false
    else ret (negb (g_esv g =? g_esv h)).
(* message_search.c:66-83 uecho_message_issearchresponse *)
Definition uecho_message_issearchresponse (msg : Z) : mm bool :=
  let! g := load_msg msg in
  if negb ((g_esv g =? ESV_Get_Res) || (g_esv g =? ESV_INF) || (g_esv g =? ESV_INFC_Res)) then ret false
  else if negb (g_opc g =? 1) then ret false
  else
    let! p := M_Mem.uecho_message_getproperty PPlain msg 0 in
    let! c := (if p =? 0 then ret 0 else let! q := load_prop p in ret (q_code q)) in
    ret (c =? EPC_InstanceListS).

(* ---- the posted request ---- *)

(* controller_listener.c:149-156 uecho_controller_handlepostresponse, with controller.c:416-425
   uecho_controller_ispostresponsemessage: whether the condition variable was signalled *)
Definition uecho_controller_handlepostresponse (ctrl msg : Z) : mm bool :=
  let! e := load_elem ctrl in
  let! b := (if ctrl_req (snd e) =? 0 then ret false else uecho_message_isresponsemessage (ctrl_req (snd e)) msg) in
  if negb b then ret false
  else
    let! e := load_elem ctrl in
    let! _ := M_Mem.uecho_message_set room le (ctrl_res (snd e)) msg in
    ret true.

(* ---- search responses ---- *)

(* the address of a node as its listener sees it *)
Definition shown (nd : Z) (s : status) : mm ctold :=
  let! a := uecho_node_getaddress nd in
  let! t := read_text a in
  ret (ToldStatus (option_map text_string t) s).

(* controller_listener.c:57-66, the loop over the instance list; the data are those of the property [p] *)
Fixpoint search_loop (fuel : nat) (fr : fresh) (nd data size idx : Z) (j : nat) (updated : bool) : mm bool :=
  if idx + 2 <? size then
    match fuel with
    | O => wrong UB_overflow
    | S fuel' =>
        let! l := load_bytes data in
        let! c := lift (rd_range l idx 3) in
        let! bs := lift (init_bytes c) in
        let! code := lift (uecho_byte2integer bs) in
        let! o := M_NodeMem.uecho_node_getobjectbycode nd code in
        if negb (o =? 0) then search_loop fuel' fr nd data size (idx + 3) (S j) updated
        else
          let! _ := M_NodeLife.uecho_node_setobject room (fr_more fr j) le snet db nd code in
          search_loop fuel' fr nd data size (idx + 3) (S j) true
    end
  else ret updated.
(* controller_listener.c:20-81 uecho_controller_handlesearchmessage *)
Definition uecho_controller_handlesearchmessage (fr : fresh) (ctrl msg : Z) : mm (list ctold) :=
  let! p := M_Mem.uecho_message_getpropertybycode PPlain msg EPC_InstanceListS in
  if p =? 0 then ret []
  else
    let! q := load_prop p in
    if q_size q <? 1 then ret []
    else
      let! g := load_msg msg in
      if g_from g =? 0 then ret []
      else
        let! nd := uecho_controller_getnodebyaddress ctrl (g_from g) in
        let! x := (if nd =? 0 then
                     let! r := M_NodeLife.uecho_node_new room (fr_junk fr) le snet db (fr_tid fr) (fr_man fr) (fr_uniq fr) in
                     if fst r =? 0 then ret (0, true)
                     else
                       let! g := load_msg msg in
                       let! _ := M_NodeLife.uecho_node_setaddress room (fst r) (g_from g) in
                       let! _ := uecho_controller_addnode ctrl (fst r) in
                       ret (fst r, true)
                   else ret (nd, false)) in
        let '(nd, added) := x in
        if nd =? 0 then ret []
        else
          let! q := load_prop p in
          let! updated := search_loop (Z.to_nat (q_size q)) fr nd (q_data q) (q_size q) 1 0 false in
          let! e := load_elem ctrl in
          if ctrl_nodelistener (snd e) =? 0 then ret []
          else if added then let! s := shown nd StAdded in ret [s]
          else if updated then let! s := shown nd StUpdated in ret [s]
          else ret [].

(* ---- responses and notifications ---- *)

(* property.c:717-726 uecho_property_isdataequal; comparing 0 bytes reads nothing *)
Definition uecho_property_isdataequal (p data n : Z) : mm bool :=
  if p =? 0 then ret false
  else
    let! q := load_prop p in
    if negb (q_size q =? n) then ret false
    else if n =? 0 then ret true
    else
      let! x := read_bytes (q_data q) n in
      let! y := read_bytes data n in
      ret (bytes_eqb x y).

(* controller_listener.c:87-123 uecho_controller_updateopcpropertydata *)
Definition update_one (fr : fresh) (j : nat) (obj msgProp : Z) (updated : bool) : mm bool :=
  if msgProp =? 0 then ret updated
  else
    let! m := load_prop msgProp in
    let! old := M_ObjMem.uecho_object_getproperty obj (q_code m) in
    let! _ := (if old =? 0 then uecho_object_setproperty (fr_more fr j) obj (q_code m) AttrNone else ret (false, [])) in
    let! op := M_ObjMem.uecho_object_getproperty obj (q_code m) in
    if op =? 0 then ret updated
    else
      let! m := load_prop msgProp in
      let! same := uecho_property_isdataequal op (q_data m) (q_size m) in
      if same then ret updated
      else
        let! _ := M_NodeMem.uecho_property_setdata room le snet op (q_data m) (q_size m) in
        ret true.
Fixpoint update_loop (fr : fresh) (j : nat) (obj ep n : Z) (k : nat) (updated : bool) : mm bool :=
  match k with
  | O => ret updated
  | S k' =>
      let! p := ptr_at ep n in
      let! u := update_one fr j obj p updated in
      update_loop fr (S j) obj ep (n + 1) k' u
  end.
(* controller_listener.c:125-143 uecho_controller_updatenodebyresponsemessage *)
Definition uecho_controller_updatenodebyresponsemessage (fr : fresh) (nd msg : Z) : mm bool :=
  let! g := load_msg msg in
  let! sc := lift (uecho_byte2integer (g_seoj g)) in
  let! obj := M_NodeMem.uecho_node_getobjectbycode nd sc in
  if obj =? 0 then ret false
  else
    let w := if is_readwrite g then PGet else PPlain in
    update_loop fr 0 obj (g_array w g) 0 (Z.to_nat (g_count w g)) false.

(* controller_listener.c:162-184 uecho_controller_handlenodemessage *)
Definition tell (b : bool) (nd : Z) (s : status) : mm (list ctold) := if b then let! x := shown nd s in ret [x] else ret [].
Definition uecho_controller_handlenodemessage (fr : fresh) (ctrl nd msg : Z) : mm (list ctold) :=
  let! g := load_msg msg in
  let esv := g_esv g in
  let! updated := (if uecho_esv_isnotification esv || uecho_esv_isreadresponse esv || uecho_esv_isnotifyresponse esv
                   then uecho_controller_updatenodebyresponsemessage fr nd msg else ret false) in
  let! e := load_elem ctrl in
  if ctrl_nodelistener (snd e) =? 0 then ret []
  else
    let! a := tell (uecho_esv_isnotification esv) nd StAnnounced in
    let! b := tell (uecho_esv_isresponse esv) nd StResponded in
    let! c := tell updated nd StUpdated in
    ret (a ++ b ++ c).

(* controller_listener.c:190-216 uecho_controller_servermessagelistener: the calls of listeners and whether a waiting
   uecho_controller_postmessage was signalled *)
Definition uecho_controller_servermessagelistener (fr : fresh) (ctrl msg : Z) : mm (list ctold * bool) :=
  if (ctrl =? 0) || (msg =? 0) then ret ([], false)
  else
    let! e := load_elem ctrl in
    let told0 := if ctrl_msglistener (snd e) =? 0 then [] else [ToldMsg] in
    let! sg := (if (ctrl_req (snd e) =? 0) || (ctrl_res (snd e) =? 0) then ret false
                else uecho_controller_handlepostresponse ctrl msg) in
    let! s := uecho_message_issearchresponse msg in
    if s then let! t := uecho_controller_handlesearchmessage fr ctrl msg in ret (told0 ++ t, sg)
    else
      let! g := load_msg msg in
      let! dc := lift (uecho_byte2integer (g_deoj g)) in
      let! e := load_elem ctrl in
      let! o := M_NodeMem.uecho_node_getobjectbycode (ctrl_node (snd e)) dc in
      if o =? 0 then ret (told0, sg)
      else
        let! g := load_msg msg in
        let! nd := uecho_controller_getnodebyaddress ctrl (g_from g) in
        if nd =? 0 then ret (told0, sg)
        else let! t := uecho_controller_handlenodemessage fr ctrl nd msg in ret (told0 ++ t, sg).

(* one turn of udp_server.c:139-184 uecho_udp_server_action; the observers of the server are the local node (node.c:38) and the
   controller (controller.c:37), in this order *)
Definition creceive (fr : fresh) (ctrl : Z) (d : list Z) (from : string) (local : option string) : mm (M_NodeMem.outcome * (list ctold * bool)) :=
  let! k := uecho_socket_datagram_packet_new room in
  if k =? 0 then ret ([], [], [], ([], false))
  else
    let! _ := recv_data room k d from local in
    let! m := M_Mem.uecho_message_new room in
    if m =? 0 then ret ([], [], [], ([], false))
    else
      let! ok := M_Mem.uecho_message_parsepacket room m k in
      let! r := (if ok then
                   let! e := load_elem ctrl in
                   let! x := M_NodeMem.uecho_node_servermessagelistener room le net dec (ctrl_node (snd e)) m in
                   let! y := uecho_controller_servermessagelistener fr ctrl m in
                   ret (x, y)
                 else ret ([], [], [], ([], false))) in
      let! _ := uecho_socket_datagram_packet_delete k in
      let! _ := M_Mem.uecho_message_delete m in
      ret r.
End CtrlMem.
