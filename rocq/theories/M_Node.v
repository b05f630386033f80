(* Model of src/uecho/node.c, src/uecho/class.c, src/uecho/class_list.c,
   src/uecho/object_list.c (the parts a node uses) and src/uecho/std/node_profile_class.c.

   The server is reduced here to the frames a node hands to it ([post]) and to the result
   of each hand-over ([net]); M_Server.v models what the server does with them.
   Not modelled: allocation failure, NULL node arguments, deletion, the never locked
   node->mutex, the name fields.  Every object of a node has this node as parent, and
   belongs to no other node. *)
From Coq Require Import String ZArith List Bool.
From Verif Require Import CSem M_Const M_Misc M_Property M_Message M_PropertyList M_Object.
Import ListNotations.
Open Scope Z_scope.

(* a frame handed to uecho_server_postannounce or uecho_server_postresponse *)
Inductive post : Type :=
| PAnnounce (bytes : list Z)
| PSend (addr : string) (bytes : list Z).

(* _class.h: code[2] *)
Definition eclass : Type := (Z * Z)%type.

(* _node.h: lastTid, classes, objects, address, msgListener, option.  The address is a
   uecho_string whose value is NULL (None) until set. *)
Record node : Type := mkNode {
  n_tid : Z;
  n_classes : list eclass;
  n_objs : list obj;
  n_addr : option string;
  n_listener : bool
}.

Definition n_with_tid (t : Z) (n : node) : node :=
  mkNode t (n_classes n) (n_objs n) (n_addr n) (n_listener n).
Definition n_with_classes (l : list eclass) (n : node) : node :=
  mkNode (n_tid n) l (n_objs n) (n_addr n) (n_listener n).
Definition n_with_objs (l : list obj) (n : node) : node :=
  mkNode (n_tid n) (n_classes n) l (n_addr n) (n_listener n).

(* ---- classes ---- *)

(* class.c:65-72 uecho_class_setcode, class.c:19-34 uecho_class_new *)
Definition uecho_class_setcode (val : Z) : eclass :=
  (Z.shiftr (Z.land val 65280) 8, Z.land val 255).
(* class.c:78-89 uecho_class_getcode *)
Definition uecho_class_getcode (c : eclass) : Z :=
  Z.lor (Z.lor 0 (Z.land (Z.shiftl (fst c) 8) 65280)) (Z.land (snd c) 255).
(* class.c:167-173 uecho_class_isprofile *)
Definition uecho_class_isprofile (c : eclass) : bool := uecho_isprofileclassgroupcode (fst c).

(* class_list.c:48-61 uecho_classlist_getbycode *)
Fixpoint uecho_classlist_getbycode (l : list eclass) (code : Z) : option eclass :=
  match l with
  | [] => None
  | c :: r => if uecho_class_getcode c =? code then Some c else uecho_classlist_getbycode r code
  end.

(* class_list.c:67-86 uecho_classlist_set *)
Definition uecho_classlist_set (l : list eclass) (code : Z) : list eclass :=
  match uecho_classlist_getbycode l code with
  | Some _ => l
  | None => l ++ [uecho_class_setcode code]
  end.

(* ---- objects ---- *)

(* object_list.c:48-62 uecho_objectlist_getbycode: first match *)
Fixpoint uecho_objectlist_getbycode (l : list obj) (code : Z) : option obj :=
  match l with
  | [] => None
  | o :: r => if uecho_object_getcode o =? code then Some o else uecho_objectlist_getbycode r code
  end.

(* stores made through the pointer returned by uecho_objectlist_getbycode *)
Fixpoint put_obj (code : Z) (o' : obj) (l : list obj) : list obj :=
  match l with
  | [] => []
  | o :: r => if uecho_object_getcode o =? code then o' :: r else o :: put_obj code o' r
  end.

(* node.c:271-274 uecho_node_getobjectbycode *)
Definition uecho_node_getobjectbycode (n : node) (code : Z) : option obj :=
  uecho_objectlist_getbycode (n_objs n) code.

(* node.c:253-256 uecho_node_getclasscount, node.c:289-292 uecho_node_getobjectcount *)
Definition uecho_node_getclasscount (n : node) : Z := len (n_classes n).
Definition uecho_node_getobjectcount (n : node) : Z := len (n_objs n).

(* node.c:78-87 uecho_node_clear *)
Definition uecho_node_clear (n : node) : node := n_with_objs [] (n_with_classes [] n).

(* node.c:115-121 uecho_node_setmessagelistener *)
Definition uecho_node_setmessagelistener (b : bool) (n : node) : node :=
  mkNode (n_tid n) (n_classes n) (n_objs n) (n_addr n) b.
(* node.c:151-156 uecho_node_setaddress *)
Definition uecho_node_setaddress (a : option string) (n : node) : node :=
  mkNode (n_tid n) (n_classes n) (n_objs n) a (n_listener n).

(* ---- transaction numbers ---- *)

(* node.c:417-423 uecho_node_setlasttid *)
Definition uecho_node_setlasttid (t : Z) (n : node) : node := n_with_tid t n.

(* node.c:441-453 uecho_node_getnexttid *)
Definition uecho_node_getnexttid (n : node) : node * Z :=
  let t := if uEchoTidMax <=? n_tid n then 1 else n_tid n + 1 in
  (n_with_tid t n, t).

(* ---- node profile stores (std/node_profile_class.c) on an object ---- *)

(* std/node_profile_class.c:76-82 uecho_nodeprofile_setoperatingstatus *)
Definition uecho_nodeprofile_setoperatingstatus (o : obj) (b : bool) : obj * list prop :=
  uecho_object_setpropertydata o EPC_OperatingStatus [if b then 48 else 49].

(* std/node_profile_class.c:88-98 uecho_nodeprofile_setversion *)
Definition uecho_nodeprofile_setversion (o : obj) (major minor : Z) : obj * list prop :=
  uecho_object_setpropertydata o EPC_Version [to_byte major; to_byte minor; 0; 16].

(* std/node_profile_class.c:104-118 uecho_nodeprofile_setid; 3 + 13 bytes are read *)
Definition uecho_nodeprofile_setid (o : obj) (manCode uniqId : list Z) : res (obj * list prop) :=
  do m <- rd_range manCode 0 3 ;;
  do u <- rd_range uniqId 0 13 ;;
  Ok (uecho_object_setpropertydata o EPC_Id (254 :: m ++ u)).

(* std/node_profile_class.c:145-148 uecho_nodeprofile_setclasscount *)
Definition uecho_nodeprofile_setclasscount (o : obj) (count : Z) : res (obj * list prop) :=
  uecho_object_setpropertyintegerdata o EPC_ClassCount count 2.

(* std/node_profile_class.c:154-157 uecho_nodeprofile_setinstancecount *)
Definition uecho_nodeprofile_setinstancecount (o : obj) (count : Z) : res (obj * list prop) :=
  uecho_object_setpropertyintegerdata o EPC_InstanceCount count 3.

(* std/node_profile_class.c:163-170 uecho_nodeprofile_setclasslist; [bytes] is
   listBytes + 1, the entries after the count byte *)
Definition uecho_nodeprofile_setclasslist (o : obj) (cnt : Z) (bytes : list Z)
  : res (obj * list prop) :=
  let n := if InstanceListMax <? cnt then InstanceListMax else cnt in
  do d <- rd_range (to_byte n :: bytes) 0 (n * 2 + 1) ;;
  Ok (uecho_object_setpropertydata o EPC_ClassListS d).

(* std/node_profile_class.c:176-190 uecho_nodeprofile_setinstancelist *)
Definition uecho_nodeprofile_setinstancelist (o : obj) (cnt : Z) (bytes : list Z)
  : res (obj * list prop) :=
  let n := if InstanceListMax <? cnt then InstanceListMax else cnt in
  do d <- rd_range (to_byte n :: bytes) 0 (n * 3 + 1) ;;
  let '(o1, a1) := uecho_object_setpropertydata o EPC_InstanceListS d in
  let '(o2, a2) := uecho_object_setpropertydata o1 EPC_InstanceListNotification d in
  Ok (o2, a1 ++ a2).

(* std/node_profile_class.c:265-332 uecho_nodeprofile_updateinstanceproperties, for a
   profile object whose node has these classes and objects.  The counters are C ints;
   a node has fewer than 2^31 objects. *)
Definition uecho_nodeprofile_updateinstanceproperties
    (classes : list eclass) (objs : list obj) (o : obj) : res (obj * list prop) :=
  let cls := filter (fun c => negb (uecho_class_isprofile c)) classes in
  do r1 <- uecho_nodeprofile_setclasscount o (len classes) ;;
  let '(o1, a1) := r1 in
  do r2 <- uecho_nodeprofile_setclasslist o1 (len cls)
             (concat (map (fun c => [fst c; snd c]) cls)) ;;
  let '(o2, a2) := r2 in
  let ins := filter (fun x => negb (uecho_object_isprofile x)) objs in
  do r3 <- uecho_nodeprofile_setinstancecount o2 (len ins) ;;
  let '(o3, a3) := r3 in
  do r4 <- uecho_nodeprofile_setinstancelist o3 (len ins)
             (concat (map (fun x => [o_grp x; o_cls x; o_ins x]) ins)) ;;
  let '(o4, a4) := r4 in
  Ok (o4, a1 ++ a2 ++ a3 ++ a4).

(* std/node_profile_class.c:43-70 uecho_nodeprofile_addmandatoryproperties,
   std/node_profile_class.c:124-139 uecho_nodeprofile_setdefaultid: [man] and [uniq] are the
   random bytes.  The announcements of a free object go nowhere. *)
Definition uecho_nodeprofile_addmandatoryproperties (db : list obj) (man uniq : list Z) (o : obj)
  : res (obj * bool) :=
  match uecho_database_getobject db 14 240 with
  | None => Ok (o, false)
  | Some sup =>
      let o1 := uecho_object_addmissingobjectproperties o sup in
      let o2 := fst (uecho_nodeprofile_setoperatingstatus o1 true) in
      let o3 := fst (uecho_nodeprofile_setversion o2 1 13) in
      do r <- uecho_nodeprofile_setid o3 man uniq ;;
      Ok (fst r, true)
  end.

(* std/node_profile_class.c:25-37 uecho_nodeprofile_new; std/profile.c and
   std/profile_super_class.c add nothing to a new object *)
Definition uecho_nodeprofile_new (db : list obj) (junk : nat -> Z) (man uniq : list Z) : res obj :=
  do r <- uecho_object_setcode db junk uecho_object_new uEchoNodeProfileObject ;;
  do r' <- uecho_nodeprofile_addmandatoryproperties db man uniq (fst r) ;;
  Ok (fst r').

(* ---- sending ---- *)

Section Net.
Variable le : bool.            (* little-endian host *)
Variable net : post -> bool.   (* result of handing a frame to the server *)

(* node.c:459-464 uecho_node_announcemessagebytes *)
Definition uecho_node_announcemessagebytes (bytes : list Z) (msgLen : Z) : res (list post * bool) :=
  if msgLen <=? 0 then Ok ([], false)
  else do b <- rd_range bytes 0 msgLen ;; Ok ([PAnnounce b], net (PAnnounce b)).

(* node.c:470-475 uecho_node_sendmessagebytes *)
Definition uecho_node_sendmessagebytes (addr : option string) (bytes : list Z) (msgLen : Z)
  : res (list post * bool) :=
  match addr with
  | None => Ok ([], false)
  | Some a =>
      if msgLen <=? 0 then Ok ([], false)
      else do b <- rd_range bytes 0 msgLen ;; Ok ([PSend a b], net (PSend a b))
  end.

(* result of a sending call: node and message afterwards, frames handed over, return value *)
Record sent : Type := mkSent { s_node : node; s_msg : msg; s_posts : list post; s_ret : bool }.

(* node.c:481-496 uecho_node_announcemessage *)
Definition uecho_node_announcemessage (n : node) (m : msg) : res sent :=
  let '(n1, t) := uecho_node_getnexttid n in
  let m1 := uecho_message_settid le t m in
  match uecho_node_getobjectbycode n1 uEchoNodeProfileObject with
  | None => Ok (mkSent n1 m1 [] false)
  | Some p =>
      do m2 <- uecho_message_setsourceobjectcode (uecho_object_getcode p) m1 ;;
      do b <- uecho_message_getbytes m2 ;;
      do s <- uecho_message_size m2 ;;
      do r <- uecho_node_announcemessagebytes b s ;;
      Ok (mkSent n1 m2 (fst r) (snd r))
  end.

(* node.c:502-517 uecho_node_sendmessage; the destination node gives its address *)
Definition uecho_node_sendmessage (n : node) (dst : node) (m : msg) : res sent :=
  let '(n1, t) := uecho_node_getnexttid n in
  let m1 := uecho_message_settid le t m in
  match uecho_node_getobjectbycode n1 uEchoNodeProfileObject with
  | None => Ok (mkSent n1 m1 [] false)
  | Some p =>
      do m2 <- uecho_message_setsourceobjectcode (uecho_object_getcode p) m1 ;;
      do b <- uecho_message_getbytes m2 ;;
      do s <- uecho_message_size m2 ;;
      do r <- uecho_node_sendmessagebytes (n_addr dst) b s ;;
      Ok (mkSent n1 m2 (fst r) (snd r))
  end.

(* node.c:523-545 uecho_node_announceproperty; [code] is the code of the object *)
Definition uecho_node_announceproperty (n : node) (code : Z) (p : prop) : res sent :=
  let m0 := uecho_message_setesv ESV_INF uecho_message_new in
  do m1 <- uecho_message_setsourceobjectcode code m0 ;;
  do m2 <- uecho_message_setdestinationobjectcode uEchoNodeProfileObject m1 ;;
  do m3 <- uecho_message_addproperty (uecho_property_copy p) m2 ;;
  uecho_node_announcemessage n m3.

(* node.c:551-565 uecho_node_announce *)
Definition uecho_node_announce (n : node) : res (node * list post * bool) :=
  match uecho_node_getobjectbycode n uEchoNodeProfileObject with
  | None => Ok (n, [], false)
  | Some o =>
      match uecho_object_getproperty o EPC_InstanceListNotification with
      | None => Ok (n, [], false)
      | Some p =>
          do s <- uecho_node_announceproperty n (uecho_object_getcode o) p ;;
          Ok (s_node s, s_posts s, s_ret s)
      end
  end.

(* object.c:720-734 uecho_object_announcemessage, for an object of the node *)
Definition uecho_object_announcemessage (n : node) (o : obj) (m : msg) : res sent :=
  do m1 <- uecho_message_setsourceobjectcode (uecho_object_getcode o) m ;;
  uecho_node_announcemessage n m1.

(* property.c:694-711 uecho_property_announce for the announced property values of one
   operation on an object of the node, in order; results are ignored by the callers *)
Fixpoint node_emit (n : node) (code : Z) (anns : list prop) : res (node * list post) :=
  match anns with
  | [] => Ok (n, [])
  | p :: r =>
      do s <- uecho_node_announceproperty n code p ;;
      do t <- node_emit (s_node s) code r ;;
      Ok (fst t, s_posts s ++ snd t)
  end.

(* an operation [f] of object.c or std/ applied to the object of the node with code [code]
   (found by uecho_node_getobjectbycode); the announcements it triggers are sent by the
   node (property.c:694-711: none when the object has no parent node).  Nothing happens
   when the pointer is NULL. *)
Definition node_object_op (f : obj -> res (obj * list prop)) (n : node) (code : Z)
  : res (node * list post) :=
  match uecho_node_getobjectbycode n code with
  | None => Ok (n, [])
  | Some o =>
      do r <- f o ;;
      let '(o', anns) := r in
      node_emit (n_with_objs (put_obj code o' (n_objs n)) n) (uecho_object_getcode o')
                (if o_attached o' then anns else [])
  end.

(* node.c:298-310 uecho_node_updatenodeprofileclass *)
Definition uecho_node_updatenodeprofileclass (n : node) : res (node * list post * bool) :=
  match uecho_node_getobjectbycode n uEchoNodeProfileObject with
  | None => Ok (n, [], false)
  | Some _ =>
      do r <- node_object_op
                (uecho_nodeprofile_updateinstanceproperties (n_classes n) (n_objs n))
                n uEchoNodeProfileObject ;;
      Ok (fst r, snd r, true)
  end.

(* node.c:340-364 uecho_node_addobject; [o] is in no node *)
Definition uecho_node_addobject (n : node) (o : obj) : res (node * list post * bool) :=
  let code := uecho_object_getcode o in
  match uecho_node_getobjectbycode n code with
  | Some _ => Ok (n, [], false)
  | None =>
      let n1 := n_with_objs (n_objs n ++ [uecho_object_attach o]) n in
      let n2 := n_with_classes
                  (uecho_classlist_set (n_classes n1) (uecho_objectcode2classcode code)) n1 in
      uecho_node_updatenodeprofileclass n2
  end.

(* node.c:316-334 uecho_node_setobject; the argument is a C int *)
Definition uecho_node_setobject (db : list obj) (junk : nat -> Z) (n : node) (code : Z)
  : res (node * list post * bool) :=
  match uecho_node_getobjectbycode n code with
  | Some _ => Ok (n, [], true)
  | None =>
      do r <- uecho_object_setcode db junk uecho_object_new code ;;
      uecho_node_addobject n (fst r)
  end.

(* node.c:193-205 uecho_node_setmanufacturercode: every object in list order *)
Fixpoint setmanufacturer_all (n : node) (codes : list Z) (code : Z) : res (node * list post) :=
  match codes with
  | [] => Ok (n, [])
  | c :: r =>
      do x <- node_object_op (fun o => uecho_object_setmanufacturercode o code) n c ;;
      do y <- setmanufacturer_all (fst x) r code ;;
      Ok (fst y, snd x ++ snd y)
  end.
Definition uecho_node_setmanufacturercode (n : node) (code : Z) : res (node * list post) :=
  setmanufacturer_all n (map uecho_object_getcode (n_objs n)) code.

(* node.c:20-50 uecho_node_new.  The profile object is added before lastTid is
   initialised: [tid0] is the indeterminate value found in the allocated block. *)
Definition uecho_node_new (db : list obj) (tid0 : Z) (junk : nat -> Z) (man uniq : list Z)
  : res (node * list post) :=
  do o <- uecho_nodeprofile_new db junk man uniq ;;
  do r <- uecho_node_addobject (mkNode tid0 [] [] None false) o ;;
  let '(n, posts, _) := r in
  Ok (uecho_node_setlasttid 0 n, posts).

(* node.c:370-380 uecho_node_start; [up] is the result of uecho_server_start *)
Definition uecho_node_start (up : bool) (n : node) : res (node * list post * bool) :=
  do r <- uecho_node_announce n ;;
  let '(n', posts, b) := r in
  Ok (n', posts, up && b).

End Net.
