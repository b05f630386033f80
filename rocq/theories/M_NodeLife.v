(* The life of a node in memory: node.c, class_list.c and std/node_profile_class.c with explicit pointers, from uecho_node_new to
   uecho_node_delete, on the heap of M_Mem.v.  M_Node.v models the same functions on values.

   The node is the block of M_NodeMem.v, its classes are elements of M_Life.v, its server is the one of M_Life.v: it has no sockets
   and threads here, the frames handed to it are returned in order.  A class holds the number given to uecho_class_setcode, of which
   the functions see two bytes.  [db] is the list of objects of the standard database. *)
From Coq Require Import String ZArith List Bool.
From Verif Require Import CSem M_Const M_Misc M_String M_Property M_Message M_PropertyList M_Object Spec_Object M_Node M_NodeListener M_Mem M_MemUse
  M_ObjMem M_ObjUse M_Life M_NodeMem.
Import ListNotations.
Open Scope Z_scope.

Section NodeLife.
Variable room : Z -> bool.
Variable junk : nat -> Z.
Variable le : bool.
Variable net : post -> bool.
Variable dec : list (hcall * bool) -> hcall -> bool.

(* ---- stores into an object that may be in a node ---- *)

(* property.c:214-233 uecho_property_setintegerdata *)
Definition uecho_property_setintegerdata (p v : Z) (size : nat) : mm (bool * list post) :=
  if p =? 0 then ret (false, [])
  else
    let! b := malloc room (fun _ => BBytes (fresh_buf (Z.of_nat size))) in
    if b =? 0 then ret (true, [])
    else
      let! bs := lift (uecho_integer2byte v size) in
      let! _ := store b (BBytes (map Some bs)) in
      let! r := M_NodeMem.uecho_property_setdata room le net p b (Z.of_nat size) in
      let! _ := mfree b in
      ret r.

(* property_list.c:133-147 uecho_propertylist_setdata *)
Definition uecho_propertylist_setdata (props code data n : Z) : mm (bool * list post) :=
  if props =? 0 then ret (false, [])
  else
    let! p := M_ObjMem.uecho_propertylist_getbycode room props code in
    if p =? 0 then ret (false, [])
    else let! r := M_NodeMem.uecho_property_setdata room le net p data n in ret (true, snd r).

(* property_list.c:153-165 uecho_propertylist_setintegerdata *)
Definition uecho_propertylist_setintegerdata (props code v : Z) (size : nat) : mm (bool * list post) :=
  if props =? 0 then ret (false, [])
  else
    let! p := M_ObjMem.uecho_propertylist_getbycode room props code in
    if p =? 0 then ret (false, []) else uecho_property_setintegerdata p v size.

(* object.c:439-445 uecho_object_setpropertydata *)
Definition uecho_object_setpropertydata (obj code data n : Z) : mm (bool * list post) :=
  if obj =? 0 then ret (false, [])
  else let! o := load_obj obj in uecho_propertylist_setdata (j_props o) code data n.
(* object.c:451-457 uecho_object_setpropertyintegerdata *)
Definition uecho_object_setpropertyintegerdata (obj code v : Z) (size : nat) : mm (bool * list post) :=
  if obj =? 0 then ret (false, [])
  else let! o := load_obj obj in uecho_propertylist_setintegerdata (j_props o) code v size.

(* object.c:114-122 uecho_object_setparentnode *)
Definition uecho_object_setparentnode (obj nd : Z) : mm bool :=
  if obj =? 0 then ret false else let! c := load_obj obj in let! _ := store obj (BObj (mkCobj (j_prev c) (j_next c) (j_name c) (j_grp c) (j_cls c) (j_ins c) (j_props c) (j_annon c) (j_anno c) (j_setn c) (j_set c) (j_getn c) (j_get c)
       (j_listener c) (j_mgr c) nd)) in ret true.

(* ---- classes ---- *)

(* class.c:65-72 uecho_class_setcode, class.c:119-125 uecho_class_getclassgroupcode, class.c:143-149 uecho_class_getclasscode: the
   two bytes of the class *)
Definition class_at (a : Z) : mm eclass := let! e := load_elem a in ret (M_Node.uecho_class_setcode (fst e)).
(* class.c:78-89 uecho_class_getcode *)
Definition uecho_class_getcode (a : Z) : mm Z :=
  if a =? 0 then ret 0 else let! c := class_at a in ret (M_Node.uecho_class_getcode c).
(* class_list.c:48-61 uecho_classlist_getbycode *)
Definition uecho_classlist_getbycode (l code : Z) : mm Z :=
  if l =? 0 then ret 0 else find_in l (fun a => let! c := uecho_class_getcode a in ret (c =? code)).
(* class_list.c:67-86 uecho_classlist_set *)
Definition uecho_classlist_set (l code : Z) : mm bool :=
  if l =? 0 then ret false
  else
    let! a := uecho_classlist_getbycode l code in
    if negb (a =? 0) then ret true
    else
      let! a := uecho_class_new room in
      if a =? 0 then ret false
      else
        let! _ := set_code a code in
        let! _ := uecho_list_add l a in
        ret true.

(* ---- the node profile ---- *)

(* std/node_profile_class.c:145-148 uecho_nodeprofile_setclasscount *)
Definition uecho_nodeprofile_setclasscount (obj count : Z) : mm (bool * list post) :=
  uecho_object_setpropertyintegerdata obj EPC_ClassCount count 2.
(* std/node_profile_class.c:154-157 uecho_nodeprofile_setinstancecount *)
Definition uecho_nodeprofile_setinstancecount (obj count : Z) : mm (bool * list post) :=
  uecho_object_setpropertyintegerdata obj EPC_InstanceCount count 3.
(* std/node_profile_class.c:163-170 uecho_nodeprofile_setclasslist *)
Definition uecho_nodeprofile_setclasslist (obj cnt b : Z) : mm (bool * list post) :=
  let n := if InstanceListMax <? cnt then InstanceListMax else cnt in
  let! _ := poke b 0 (to_byte n) in
  uecho_object_setpropertydata obj EPC_ClassListS b (n * 2 + 1).
(* std/node_profile_class.c:176-190 uecho_nodeprofile_setinstancelist *)
Definition uecho_nodeprofile_setinstancelist (obj cnt b : Z) : mm (bool * list post) :=
  let n := if InstanceListMax <? cnt then InstanceListMax else cnt in
  let! _ := poke b 0 (to_byte n) in
  let! r1 := uecho_object_setpropertydata obj EPC_InstanceListS b (n * 3 + 1) in
  let! r2 := uecho_object_setpropertydata obj EPC_InstanceListNotification b (n * 3 + 1) in
  ret (fst r1 && fst r2, snd r1 ++ snd r2).

(* the loops of std/node_profile_class.c:265-332 uecho_nodeprofile_updateinstanceproperties: the block of the list, the number of
   elements seen and the number of entries in the block *)
Fixpoint poke_all (b i : Z) (l : list Z) : mm unit :=
  match l with
  | [] => ret tt
  | x :: r => let! _ := poke b i x in poke_all b (i + 1) r
  end.
Definition add_entry (b cnt : Z) (e : list Z) : mm Z :=
  let! b := realloc_bytes room junk b (len e * (cnt + 1) + 1) in
  let! _ := poke_all b (len e * cnt + 1) e in
  ret b.
Definition entries : Type := (Z * Z * Z)%type.
Fixpoint class_loop (n : nat) (a : Z) (s : entries) : mm entries :=
  if a =? 0 then ret s
  else
    match n with
    | O => wrong UB_loop
    | S k =>
        let '(b, total, cnt) := s in
        let! c := class_at a in
        let! s' := (if uecho_class_isprofile c then ret (b, total + 1, cnt)
                    else let! b' := add_entry b cnt [fst c; snd c] in ret (b', total + 1, cnt + 1)) in
        let! a' := uecho_list_next a in
        class_loop k a' s'
    end.
Fixpoint instance_loop (n : nat) (a : Z) (s : entries) : mm entries :=
  if a =? 0 then ret s
  else
    match n with
    | O => wrong UB_loop
    | S k =>
        let '(b, total, cnt) := s in
        let! c := load_obj a in
        let! s' := (if uecho_isprofileclassgroupcode (j_grp c) then ret s
                    else let! b' := add_entry b cnt [j_grp c; j_cls c; j_ins c] in ret (b', total + 1, cnt + 1)) in
        let! a' := uecho_list_next a in
        instance_loop k a' s'
    end.
(* std/node_profile_class.c:265-332 uecho_nodeprofile_updateinstanceproperties; node.c:223-229 uecho_node_getclasses and
   node.c:262-265 uecho_node_getobjects give the first elements *)
Definition uecho_nodeprofile_updateinstanceproperties (obj : Z) : mm (bool * list post) :=
  if obj =? 0 then ret (false, [])
  else
    let! nd := uecho_object_getparentnode obj in
    if nd =? 0 then ret (false, [])
    else
      let! b := realloc_bytes room junk 0 1 in
      let! e := load_elem nd in
      let! a := uecho_list_next (node_classes (snd e)) in
      let! s := walk (fun n => class_loop n a (b, 0, 0)) in
      let '(b, total, cnt) := s in
      let! r1 := uecho_nodeprofile_setclasscount obj total in
      let! r2 := uecho_nodeprofile_setclasslist obj cnt b in
      let! _ := mfree b in
      let! b := realloc_bytes room junk 0 1 in
      let! e := load_elem nd in
      let! a := uecho_list_next (node_objects (snd e)) in
      let! s := walk (fun n => instance_loop n a (b, 0, 0)) in
      let '(b, total, cnt) := s in
      let! r3 := uecho_nodeprofile_setinstancecount obj total in
      let! r4 := uecho_nodeprofile_setinstancelist obj cnt b in
      let! _ := mfree b in
      ret (true, snd r1 ++ snd r2 ++ snd r3 ++ snd r4).

(* ---- objects of a node ---- *)

(* node.c:298-310 uecho_node_updatenodeprofileclass *)
Definition uecho_node_updatenodeprofileclass (nd : Z) : mm (bool * list post) :=
  if nd =? 0 then ret (false, [])
  else
    let! obj := M_NodeMem.uecho_node_getobjectbycode nd uEchoNodeProfileObject in
    if obj =? 0 then ret (false, []) else uecho_nodeprofile_updateinstanceproperties obj.

(* node.c:340-364 uecho_node_addobject *)
Definition uecho_node_addobject (nd obj : Z) : mm (bool * list post) :=
  if (nd =? 0) || (obj =? 0) then ret (false, [])
  else
    let! code := M_NodeMem.uecho_object_getcode obj in
    let! old := M_NodeMem.uecho_node_getobjectbycode nd code in
    if negb (old =? 0) then ret (false, [])
    else
      let! e := load_elem nd in
      let! ok := uecho_list_add (node_objects (snd e)) obj in
      if negb ok then ret (false, [])
      else
        let! _ := uecho_object_setparentnode obj nd in
        let! e := load_elem nd in
        let! _ := uecho_classlist_set (node_classes (snd e)) (uecho_objectcode2classcode code) in
        uecho_node_updatenodeprofileclass nd.

Variable db : Z.

(* node.c:316-334 uecho_node_setobject *)
Definition uecho_node_setobject (nd code : Z) : mm (bool * list post) :=
  if nd =? 0 then ret (false, [])
  else
    let! e := load_elem nd in
    let! old := M_NodeMem.uecho_objectlist_getbycode (node_objects (snd e)) code in
    if negb (old =? 0) then ret (true, [])
    else
      let! obj := M_ObjMem.uecho_object_new room in
      if obj =? 0 then ret (false, [])
      else
        let! _ := M_ObjMem.uecho_object_setcode room junk db obj code in
        uecho_node_addobject nd obj.

(* std/node_profile_class.c:76-82 uecho_nodeprofile_setoperatingstatus, std/node_profile_class.c:88-98 uecho_nodeprofile_setversion,
   std/node_profile_class.c:104-118 uecho_nodeprofile_setid with std/node_profile_class.c:124-139 uecho_nodeprofile_setdefaultid:
   the bytes are on the stack; [man] and [uniq] are those of rand().  The object is in no node yet: nothing is announced. *)
Definition set_bytes (obj code : Z) (d : list Z) : mm bool :=
  given d (fun p => M_ObjMem.uecho_object_setpropertydata room obj code p (len d)).
Definition uecho_nodeprofile_setid (obj : Z) (man uniq : list Z) : mm bool :=
  let! m := lift (rd_range man 0 3) in
  let! u := lift (rd_range uniq 0 13) in
  set_bytes obj EPC_Id (254 :: m ++ u).
(* std/node_profile_class.c:43-70 uecho_nodeprofile_addmandatoryproperties *)
Definition uecho_nodeprofile_addmandatoryproperties (obj : Z) (man uniq : list Z) : mm bool :=
  if obj =? 0 then ret false
  else
    let! sup := M_ObjMem.uecho_objectlist_getbygroupclasscode db 14 240 in
    if sup =? 0 then ret false
    else
      let! ok := M_ObjMem.uecho_object_addmissingobjectproperties room obj sup in
      if negb ok then ret false
      else
        let! _ := set_bytes obj EPC_OperatingStatus [48] in
        let! _ := set_bytes obj EPC_Version [1; 13; 0; 16] in
        let! _ := uecho_nodeprofile_setid obj man uniq in
        ret true.
(* std/node_profile_class.c:25-37 uecho_nodeprofile_new, with std/profile.c:17-29 uecho_profile_new, which adds nothing *)
Definition uecho_nodeprofile_new (man uniq : list Z) : mm Z :=
  let! obj := M_ObjMem.uecho_object_new room in
  if obj =? 0 then ret 0
  else
    let! _ := M_ObjMem.uecho_object_setcode room junk db obj uEchoNodeProfileObject in
    let! _ := uecho_nodeprofile_addmandatoryproperties obj man uniq in
    ret obj.

(* ---- nodes ---- *)

(* node.c:115-121 uecho_node_setmessagelistener; a listener is any pointer but NULL *)
Definition uecho_node_setmessagelistener (nd : Z) (b : bool) : mm unit :=
  if nd =? 0 then ret tt
  else
    let! x := load nd in
    match x with
    | BElem p n t [m; c; o; s; a; _; k] => store nd (BElem p n t [m; c; o; s; a; if b then 1 else 0; k])
    | _ => wrong UB_read
    end.
(* node.c:151-156 uecho_node_setaddress *)
Definition uecho_node_setaddress (nd value : Z) : mm unit :=
  if nd =? 0 then ret tt else let! e := load_elem nd in uecho_string_setvalue room (node_address (snd e)) value.
(* node.c:78-87 uecho_node_clear *)
Definition uecho_node_clear (nd : Z) : mm bool :=
  if nd =? 0 then ret false
  else
    let! e := load_elem nd in
    let! _ := uecho_list_clear (node_classes (snd e)) (delete_of KClass) in
    let! e := load_elem nd in
    let! _ := uecho_list_clear (node_objects (snd e)) object_destructor in
    ret true.
(* node.c:20-50 uecho_node_new; [tid0] is what the new block holds as lastTid, which the first announcements use *)
Definition uecho_node_new (tid0 : Z) (man uniq : list Z) : mm (Z * list post) :=
  let! nd := malloc room (fun a => BElem a a tid0 []) in
  if nd =? 0 then ret (0, [])
  else
    let! m := box_new room in
    let! c := list_new room in
    let! o := uecho_objectlist_new room in
    let! s := uecho_server_new room in
    let! _ := uecho_server_addobserver room s nd in
    let! a := uecho_string_new room in
    let! _ := store nd (BElem nd nd tid0 [m; c; o; s; a; 0; 0]) in
    let! obj := uecho_nodeprofile_new man uniq in
    let! r := uecho_node_addobject nd obj in
    let! _ := M_NodeMem.uecho_node_setlasttid nd 0 in
    ret (nd, snd r).
(* node.c:56-72 uecho_node_delete *)
Definition uecho_node_delete (nd : Z) : mm bool :=
  if nd =? 0 then ret false
  else
    let! _ := uecho_list_remove nd in
    let! e := load_elem nd in
    let! _ := box_delete (node_mutex (snd e)) in
    let! _ := list_delete KClass (node_classes (snd e)) in
    let! _ := uecho_objectlist_delete (node_objects (snd e)) in
    let! _ := uecho_server_delete (node_server (snd e)) in
    let! _ := uecho_string_delete (node_address (snd e)) in
    let! _ := mfree nd in
    ret true.
(* node.c:551-565 uecho_node_announce *)
Definition uecho_node_announce (nd : Z) : mm (bool * list post) :=
  let! obj := M_NodeMem.uecho_node_getobjectbycode nd uEchoNodeProfileObject in
  if obj =? 0 then ret (false, [])
  else
    let! p := M_ObjMem.uecho_object_getproperty obj EPC_InstanceListNotification in
    if p =? 0 then ret (false, []) else M_NodeMem.uecho_node_announceproperty room le net nd obj p.

(* ---- a datagram ---- *)

(* one turn of udp_server.c:139-184 uecho_udp_server_action, with the node as only observer of the server *)
Definition receive (nd : Z) (d : list Z) (from : string) (local : option string) : mm M_NodeMem.outcome :=
  let! k := uecho_socket_datagram_packet_new room in
  if k =? 0 then ret ([], [], [])
  else
    let! _ := recv_data room k d from local in
    let! m := M_Mem.uecho_message_new room in
    if m =? 0 then ret ([], [], [])
    else
      let! ok := M_Mem.uecho_message_parsepacket room m k in
      let! r := (if ok then M_NodeMem.uecho_node_servermessagelistener room le net dec nd m else ret ([], [], [])) in
      let! _ := uecho_socket_datagram_packet_delete k in
      let! _ := M_Mem.uecho_message_delete m in
      ret r.

(* ---- programs ---- *)

Inductive nop : Type :=
| NOwn (u : uop)                                       (* a call on an object of the caller (M_ObjUse.v) *)
| NNew (tid0 : Z) (man uniq : list Z)                  (* uecho_node_new; the node gets the next number *)
| NDelete (k : nat)                                    (* uecho_node_delete *)
| NClear (k : nat)                                     (* uecho_node_clear *)
| NAdd (k i : nat)                                     (* uecho_node_addobject with the object i of the caller *)
| NSet (k : nat) (code : Z)                            (* uecho_node_setobject *)
| NListen (k : nat) (b : bool)                         (* uecho_node_setmessagelistener *)
| NAddress (k : nat) (a : string)                      (* uecho_node_setaddress *)
| NAnnounce (k : nat)                                  (* uecho_node_announce *)
| NReceive (k : nat) (d : list Z) (from : string) (local : option string)
(* the calls below are made on the result of uecho_node_getobjectbycode(node, code) *)
| NRead (k : nat) (code : Z)                           (* the getters *)
| NData (k : nat) (code c : Z) (d : list Z)            (* uecho_object_setpropertydata *)
| NInt (k : nat) (code c v : Z) (size : nat)           (* uecho_object_setpropertyintegerdata *)
| NAttr (k : nat) (code c a : Z)                       (* uecho_object_setpropertyattribute *)
| NHandler (k : nat) (code esv c : Z) (h : option nat) (* uecho_object_setpropertyrequesthandler *)
| NWatch (k : nat) (code : Z) (b : bool).              (* uecho_object_setmessagelistener *)

Inductive nobs : Type :=
| VOwn (v : uobs)
| VDone
| VCall (ok : bool) (posts : list post)
| VReact (r : M_NodeMem.outcome)
| VObject (s : option oseen).

Definition nstep (op : nop) (ps ns : list Z) : mm (nobs * list Z * list Z) :=
  match op with
  | NOwn u => let! r := ustep room junk db u ps in ret (VOwn (fst r), snd r, ns)
  | NNew t man uniq => let! r := uecho_node_new t man uniq in ret (VCall true (snd r), ps, ns ++ [fst r])
  | NDelete k => let! nd := M_MemUse.handle ns k in let! r := uecho_node_delete nd in ret (VCall r [], ps, ns)
  | NClear k => let! nd := M_MemUse.handle ns k in let! r := uecho_node_clear nd in ret (VCall r [], ps, ns)
  | NAdd k i =>
      let! nd := M_MemUse.handle ns k in let! a := M_MemUse.handle ps i in
      let! r := uecho_node_addobject nd a in ret (VCall (fst r) (snd r), ps, ns)
  | NSet k code => let! nd := M_MemUse.handle ns k in let! r := uecho_node_setobject nd code in ret (VCall (fst r) (snd r), ps, ns)
  | NListen k b => let! nd := M_MemUse.handle ns k in let! _ := uecho_node_setmessagelistener nd b in ret (VDone, ps, ns)
  | NAddress k a => let! nd := M_MemUse.handle ns k in let! _ := given_text (Some a) (uecho_node_setaddress nd) in ret (VDone, ps, ns)
  | NAnnounce k => let! nd := M_MemUse.handle ns k in let! r := uecho_node_announce nd in ret (VCall (fst r) (snd r), ps, ns)
  | NReceive k d from local => let! nd := M_MemUse.handle ns k in let! r := receive nd d from local in ret (VReact r, ps, ns)
  | NRead k code =>
      let! nd := M_MemUse.handle ns k in
      let! o := M_NodeMem.uecho_node_getobjectbycode nd code in
      if o =? 0 then ret (VObject None, ps, ns) else let! s := read_object o in ret (VObject (Some s), ps, ns)
  | NData k code c d =>
      let! nd := M_MemUse.handle ns k in
      let! o := M_NodeMem.uecho_node_getobjectbycode nd code in
      let! r := given d (fun p => uecho_object_setpropertydata o c p (len d)) in ret (VCall (fst r) (snd r), ps, ns)
  | NInt k code c v size =>
      let! nd := M_MemUse.handle ns k in
      let! o := M_NodeMem.uecho_node_getobjectbycode nd code in
      let! r := uecho_object_setpropertyintegerdata o c v size in ret (VCall (fst r) (snd r), ps, ns)
  | NAttr k code c a =>
      let! nd := M_MemUse.handle ns k in
      let! o := M_NodeMem.uecho_node_getobjectbycode nd code in
      let! r := M_ObjMem.uecho_object_setpropertyattribute room o c a in ret (VCall r [], ps, ns)
  | NHandler k code esv c h =>
      let! nd := M_MemUse.handle ns k in
      let! o := M_NodeMem.uecho_node_getobjectbycode nd code in
      let! r := M_ObjMem.uecho_object_setpropertyrequesthandler room o esv c h in ret (VCall r [], ps, ns)
  | NWatch k code b =>
      let! nd := M_MemUse.handle ns k in
      let! o := M_NodeMem.uecho_node_getobjectbycode nd code in
      let! _ := M_ObjMem.uecho_object_setmessagelistener o b in ret (VDone, ps, ns)
  end.
Fixpoint nrun (ops : list nop) (ps ns : list Z) : mm (list nobs * list Z * list Z) :=
  match ops with
  | [] => ret ([], ps, ns)
  | op :: r =>
      let! x := nstep op ps ns in
      let '(v, ps', ns') := x in
      let! y := nrun r ps' ns' in
      let '(vs, ps2, ns2) := y in
      ret (v :: vs, ps2, ns2)
  end.
End NodeLife.

(* std/database.c:17-35 uecho_database_new and std/database.c:41-57 uecho_database_delete around a program, as in M_ObjUse.v *)
Definition nmain (room : Z -> bool) (junk : nat -> Z) (le : bool) (net : post -> bool) (dec : list (hcall * bool) -> hcall -> bool)
  (ops : list nop) : mm (list nobs) :=
  let! db := uecho_objectlist_new room in
  let! r := nrun room junk le net dec db ops [] [] in
  let! _ := uecho_objectlist_delete db in
  ret (fst (fst r)).
