(* The life of small things in memory: classes, manufacturers, values of enumerations, network interfaces and threads that are not
   running, with their lists; the sets of message observers, the server and the database that own such lists.  The heap is that
   of M_Mem.v; [room] tells which requests for memory are granted.

   Each element of a list is a block with its links, one number (its code) and its string objects; the other members (the MAC
   address and index of an interface, the action of a thread) are left out: nothing here reads them. *)
From Coq Require Import ZArith List Bool.
From Verif Require Import CSem M_Const M_String M_Mem M_MemUse M_ObjMem.
Import ListNotations.
Open Scope Z_scope.

Definition load_elem (a : Z) : mm (Z * list Z) :=
  let! b := load a in match b with BElem _ _ c l => ret (c, l) | _ => wrong UB_read end.
Definition load_rec (a : Z) : mm (list Z) :=
  let! b := load a in match b with BRec l => ret l | _ => wrong UB_read end.

Section Room.
Variable room : Z -> bool.

(* ---- classes ---- *)

(* class.c:19-34 uecho_class_new; the two bytes of the code are one number *)
Definition uecho_class_new : mm Z := malloc room (fun a => BElem a a 0 []).
(* class.c:40-50 uecho_class_delete *)
Definition uecho_class_delete (cls : Z) : mm bool :=
  if cls =? 0 then ret false else let! _ := uecho_list_remove cls in let! _ := mfree cls in ret true.

(* ---- manufacturers ---- *)

(* manufacture.c:17-32 uecho_manufacture_new *)
Definition uecho_manufacture_new : mm Z :=
  let! a := malloc room (fun a => BElem a a 0 []) in
  if a =? 0 then ret 0
  else let! s := uecho_string_new room in let! _ := store a (BElem a a 0 [s]) in ret a.
(* manufacture.c:38-49 uecho_manufacture_delete *)
Definition uecho_manufacture_delete (man : Z) : mm bool :=
  if man =? 0 then ret false
  else
    let! _ := uecho_list_remove man in
    let! e := load_elem man in
    let! _ := uecho_string_delete (nth 0 (snd e) 0) in
    let! _ := mfree man in
    ret true.

(* ---- the values of enumerations ---- *)

(* property_enum.c:50-68 uecho_property_enum_delete *)
Definition uecho_property_enum_delete (v : Z) : mm bool :=
  if v =? 0 then ret false
  else
    let! e := load_elem v in
    let! _ := (if nth 0 (snd e) 0 =? 0 then ret tt else uecho_string_delete (nth 0 (snd e) 0)) in
    let! e := load_elem v in
    let! _ := (if nth 1 (snd e) 0 =? 0 then ret tt else uecho_string_delete (nth 1 (snd e) 0)) in
    let! _ := uecho_list_remove v in
    let! _ := mfree v in
    ret true.
(* property_enum.c:23-44 uecho_property_enum_new *)
Definition uecho_property_enum_new : mm Z :=
  let! a := malloc room (fun a => BElem a a 0 []) in
  if a =? 0 then ret 0
  else
    let! s := uecho_string_new room in
    let! t := uecho_string_new room in
    let! _ := store a (BElem a a 0 [s; t]) in
    if (s =? 0) || (t =? 0) then let! _ := uecho_property_enum_delete a in ret 0 else ret a.

(* ---- network interfaces ---- *)

(* net/interface.c:22-39 uecho_net_interface_new *)
Definition uecho_net_interface_new : mm Z :=
  let! a := malloc room (fun a => BElem a a 0 []) in
  if a =? 0 then ret 0
  else
    let! s := uecho_string_new room in
    let! t := uecho_string_new room in
    let! u := uecho_string_new room in
    let! _ := store a (BElem a a 0 [s; t; u]) in
    ret a.
(* net/interface.c:45-55 uecho_net_interface_delete *)
Definition uecho_net_interface_delete (i : Z) : mm unit :=
  if i =? 0 then ret tt
  else
    let! _ := uecho_list_remove i in
    let! e := load_elem i in
    let! _ := uecho_string_delete (nth 0 (snd e) 0) in
    let! e := load_elem i in
    let! _ := uecho_string_delete (nth 1 (snd e) 0) in
    let! e := load_elem i in
    let! _ := uecho_string_delete (nth 2 (snd e) 0) in
    mfree i.

(* ---- threads that are not running ---- *)

(* util/thread.c:64-80 uecho_thread_new *)
Definition uecho_thread_new : mm Z := malloc room (fun a => BElem a a 0 []).
(* util/thread.c:86-100 uecho_thread_delete, with runnableFlag false *)
Definition uecho_thread_delete (t : Z) : mm bool :=
  if t =? 0 then ret false else let! _ := uecho_list_remove t in let! _ := mfree t in ret true.

(* ---- members ---- *)

(* manufacture.c:97-102 uecho_manufacture_setname, property_enum.c:114-119 uecho_property_enum_setname,
   property_enum.c:136-141 uecho_property_enum_setdescription, net/interface.c:76-82 uecho_net_interface_setname,
   net/interface.c:100-106 uecho_net_interface_setaddress, net/interface.c:124-130 uecho_net_interface_setnetmask: the string
   number [j] of the element *)
Definition set_text (a : Z) (j : nat) (value : Z) : mm unit :=
  if a =? 0 then ret tt else let! e := load_elem a in uecho_string_setvalue room (nth j (snd e) 0) value.
(* manufacture.c:108-113 uecho_manufacture_getname, property_enum.c:125-130 uecho_property_enum_getname,
   property_enum.c:147-152 uecho_property_enum_getdescription, net/interface.c:88-94 uecho_net_interface_getname,
   net/interface.c:112-118 uecho_net_interface_getaddress, net/interface.c:136-142 uecho_net_interface_getnetmask *)
Definition get_text (a : Z) (j : nat) : mm Z :=
  if a =? 0 then ret 0 else let! e := load_elem a in uecho_string_getvalue (nth j (snd e) 0).
(* manufacture.c:64-69 uecho_manufacture_setcode, property_enum.c:92-97 uecho_property_enum_setcode *)
Definition set_code (a c : Z) : mm unit :=
  if a =? 0 then ret tt
  else
    let! b := load a in
    match b with BElem p n _ l => store a (BElem p n c l) | _ => wrong UB_read end.
(* manufacture.c:75-80 uecho_manufacture_getcode, property_enum.c:103-108 uecho_property_enum_getcode *)
Definition get_code (a : Z) : mm Z := if a =? 0 then ret 0 else let! e := load_elem a in ret (fst e).

(* ---- the five kinds and their lists ---- *)

Inductive kind : Type := KClass | KMan | KEnum | KIf | KThread.
Definition kind_eqb (a b : kind) : bool :=
  match a, b with KClass, KClass | KMan, KMan | KEnum, KEnum | KIf, KIf | KThread, KThread => true | _, _ => false end.
Definition strings_of (k : kind) : nat := match k with KMan => 1 | KEnum => 2 | KIf => 3 | _ => 0 end.
Definition has_code (k : kind) : bool := match k with KMan | KEnum => true | _ => false end.
Definition drop_bool (c : mm bool) : mm unit := let! _ := c in ret tt.
Definition new_of (k : kind) : mm Z :=
  match k with
  | KClass => uecho_class_new | KMan => uecho_manufacture_new | KEnum => uecho_property_enum_new
  | KIf => uecho_net_interface_new | KThread => uecho_thread_new
  end.
Definition delete_of (k : kind) (a : Z) : mm unit :=
  match k with
  | KClass => drop_bool (uecho_class_delete a) | KMan => drop_bool (uecho_manufacture_delete a)
  | KEnum => drop_bool (uecho_property_enum_delete a) | KIf => uecho_net_interface_delete a
  | KThread => drop_bool (uecho_thread_delete a)
  end.
(* class_list.c:17-28 uecho_classlist_new, manufacture_list.c:17-28 uecho_manufacturelist_new,
   property_enum_list.c:17-28 uecho_property_enumlist_new, net/interface_list.c:18-31 uecho_net_interfacelist_new,
   util/thread_list.c:17-32 uecho_threadlist_new *)
Definition list_new : mm Z := malloc room (fun a => BHead a a).
(* class_list.c:34-42 uecho_classlist_delete, manufacture_list.c:34-42 uecho_manufacturelist_delete,
   property_enum_list.c:34-42 uecho_property_enumlist_delete, util/thread_list.c:38-45 uecho_threadlist_delete;
   net/interface_list.c:37-41 uecho_net_interfacelist_delete has no test, but uecho_list_clear and free accept NULL *)
Definition list_delete (k : kind) (l : Z) : mm unit :=
  if l =? 0 then ret tt else let! _ := uecho_list_clear l (delete_of k) in mfree l.
(* property_enum_list.c:48-61 uecho_property_enumlist_findbycode, manufacture_list.c:48-61 uecho_manufacturelist_getbycode *)
Definition list_find (l c : Z) : mm Z :=
  if l =? 0 then ret 0 else find_in l (fun a => let! x := get_code a in ret (x =? c)).
(* property_enum_list.c:67-81 uecho_property_enumlist_add *)
Definition uecho_property_enumlist_add (l a : Z) : mm bool :=
  if (l =? 0) || (a =? 0) then ret false
  else
    let! c := get_code a in
    let! old := list_find l c in
    let! _ := (if old =? 0 then ret false
               else let! _ := uecho_list_remove old in uecho_property_enum_delete old) in
    uecho_list_add l a.
Definition list_add (k : kind) (l a : Z) : mm bool :=
  match k with KEnum => uecho_property_enumlist_add l a | _ => uecho_list_add l a end.

(* ---- programs ---- *)

Inductive lop : Type :=
| LNew (k : kind)                        (* a new element; it gets the next number *)
| LCode (i : nat) (c : Z)
| LText (i j : nat) (t : list Z)         (* string number j of element i *)
| LGet (i j : nat)
| LGetCode (i : nat)
| LDelete (i : nat)
| LList (k : kind)                       (* a new list; it gets the next number *)
| LAdd (l i : nat)                       (* element i into list l; it is deleted when it cannot be added *)
| LWalk (l : nat)                        (* the codes and strings of all elements *)
| LFind (l : nat) (c : Z) (j : nat)      (* string j of the first element with code c *)
| LDrop (l : nat)                        (* the list is deleted *)
| LCodeAt (l n : nat) (c : Z)            (* the same as above for the element number n of list l: NULL when there is none *)
| LTextAt (l n j : nat) (t : list Z)
| LDeleteAt (l n : nat).
Inductive lobs : Type :=
| VDone
| VText (o : option (list Z))
| VNum (c : Z)
| VAll (l : list (Z * list (option (list Z)))).

Fixpoint read_texts (a : Z) (j n : nat) : mm (list (option (list Z))) :=
  match n with
  | O => ret []
  | S n' =>
      let! p := get_text a j in
      let! t := read_text p in
      let! r := read_texts a (S j) n' in
      ret (t :: r)
  end.
Fixpoint read_all (k : kind) (n : nat) (a : Z) : mm (list (Z * list (option (list Z)))) :=
  if a =? 0 then ret []
  else
    match n with
    | O => wrong UB_loop
    | S m =>
        let! c := get_code a in
        let! ts := read_texts a 0 (strings_of k) in
        let! a' := uecho_list_next a in
        let! r := read_all k m a' in
        ret ((c, ts) :: r)
    end.

Fixpoint nth_next (n : nat) (a : Z) : mm Z :=
  if a =? 0 then ret 0
  else match n with O => ret a | S m => let! b := uecho_list_next a in nth_next m b end.
Definition elem_at (l : Z) (n : nat) : mm Z := let! a := uecho_list_next l in nth_next n a.

(* the pointers the program holds and what they point to: a kind, and whether it is a list *)
Definition handle : Type := (kind * Z)%type.
Definition ptr_of (ps : list handle) (i : nat) : handle := nth i ps (KClass, 0).
Definition lstep (op : lop) (ps : list handle) : mm (lobs * list handle) :=
  match op with
  | LNew k => let! a := new_of k in ret (VDone, ps ++ [(k, a)])
  | LCode i c => let! _ := set_code (snd (ptr_of ps i)) c in ret (VDone, ps)
  | LText i j t => let! _ := given (t ++ [0]) (set_text (snd (ptr_of ps i)) j) in ret (VDone, ps)
  | LGet i j => let! p := get_text (snd (ptr_of ps i)) j in let! o := read_text p in ret (VText o, ps)
  | LGetCode i => let! c := get_code (snd (ptr_of ps i)) in ret (VNum c, ps)
  | LDelete i => let! _ := delete_of (fst (ptr_of ps i)) (snd (ptr_of ps i)) in ret (VDone, ps)
  | LList k => let! a := list_new in ret (VDone, ps ++ [(k, a)])
  | LAdd l i =>
      let! ok := list_add (fst (ptr_of ps l)) (snd (ptr_of ps l)) (snd (ptr_of ps i)) in
      let! _ := (if ok : bool then ret tt else delete_of (fst (ptr_of ps i)) (snd (ptr_of ps i))) in
      ret (VDone, ps)
  | LWalk l =>
      let! a := uecho_list_next (snd (ptr_of ps l)) in
      let! r := walk (fun n => read_all (fst (ptr_of ps l)) n a) in
      ret (VAll r, ps)
  | LFind l c j =>
      let! a := list_find (snd (ptr_of ps l)) c in
      let! p := get_text a j in
      let! o := read_text p in
      ret (VText o, ps)
  | LDrop l => let! _ := list_delete (fst (ptr_of ps l)) (snd (ptr_of ps l)) in ret (VDone, ps)
  | LCodeAt l n c => let! a := elem_at (snd (ptr_of ps l)) n in let! _ := set_code a c in ret (VDone, ps)
  | LTextAt l n j t =>
      let! a := elem_at (snd (ptr_of ps l)) n in let! _ := given (t ++ [0]) (set_text a j) in ret (VDone, ps)
  | LDeleteAt l n =>
      let! a := elem_at (snd (ptr_of ps l)) n in let! _ := delete_of (fst (ptr_of ps l)) a in ret (VDone, ps)
  end.
Fixpoint lrun (ops : list lop) (ps : list handle) : mm (list lobs * list handle) :=
  match ops with
  | [] => ret ([], ps)
  | op :: r =>
      let! x := lstep op ps in
      let! y := lrun r (snd x) in
      ret (fst x :: fst y, snd y)
  end.

(* ---- single blocks ---- *)

(* util/mutex.c:19-35 uecho_mutex_new, util/cond.c:19-32 uecho_cond_new, net/socket_opt.c:18-31 uecho_socket_option_new *)
Definition box_new : mm Z := malloc room (fun _ => BRec []).
(* util/mutex.c:41-54 uecho_mutex_delete, util/cond.c:38-49 uecho_cond_delete; net/socket_opt.c:37-45 uecho_socket_option_delete
   returns true for NULL *)
Definition box_delete (a : Z) : mm unit := if a =? 0 then ret tt else mfree a.

(* ---- the database ---- *)

(* std/database.c:41-57 uecho_database_delete *)
Definition uecho_database_delete (d : Z) : mm bool :=
  if d =? 0 then ret false
  else
    let! r := load_rec d in
    let! _ := (if nth 0 r 0 =? 0 then ret tt else list_delete KMan (nth 0 r 0)) in
    let! _ := (if nth 1 r 0 =? 0 then ret tt else uecho_objectlist_delete (nth 1 r 0)) in
    let! _ := mfree d in
    ret true.
(* std/database.c:17-35 uecho_database_new *)
Definition uecho_database_new : mm Z :=
  let! d := malloc room (fun _ => BRec []) in
  if d =? 0 then ret 0
  else
    let! m := list_new in
    let! o := uecho_objectlist_new room in
    let! _ := store d (BRec [m; o]) in
    if (m =? 0) || (o =? 0) then let! _ := uecho_database_delete d in ret 0 else ret d.

(* ---- message observers ---- *)

(* frame/message_observer_manager.c:17-28 uecho_message_observer_manager_new, with frame/message_observer_list.c:17-28
   uecho_message_observerlist_new *)
Definition uecho_message_observer_manager_new : mm Z :=
  let! m := malloc room (fun _ => BRec []) in
  if m =? 0 then ret 0 else let! l := list_new in let! _ := store m (BRec [l]) in ret m.
(* frame/message_observer.c:38-43 uecho_message_observer_delete *)
Definition uecho_message_observer_delete (w : Z) : mm unit := let! _ := uecho_list_remove w in mfree w.
(* frame/message_observer_manager.c:34-39 uecho_message_observer_manager_delete, with frame/message_observer_list.c:34-39
   uecho_message_observerlist_delete *)
Definition uecho_message_observer_manager_delete (m : Z) : mm unit :=
  let! r := load_rec m in
  let! _ := uecho_list_clear (nth 0 r 0) uecho_message_observer_delete in
  let! _ := mfree (nth 0 r 0) in
  mfree m.
(* frame/message_observer_manager.c:45-57 uecho_message_observer_manager_addobserver, with frame/message_observer.c:17-32
   uecho_message_observer_new; the code of the element stands for the object and the handler *)
Definition uecho_message_observer_manager_addobserver (m handler : Z) : mm bool :=
  let! w := malloc room (fun a => BElem a a handler []) in
  if w =? 0 then ret false else let! r := load_rec m in uecho_list_add (nth 0 r 0) w.

(* ---- a server that is not started: its lists of unicast and multicast servers are empty ---- *)

(* frame/server.c:17-33 uecho_server_new, with frame/udp_server_list.c:18-29 uecho_udp_serverlist_new and
   frame/mcast_server_list.c:18-29 uecho_mcast_serverlist_new *)
Definition uecho_server_new : mm Z :=
  let! s := malloc room (fun _ => BRec []) in
  if s =? 0 then ret 0
  else
    let! u := list_new in
    let! c := list_new in
    let! m := uecho_message_observer_manager_new in
    let! _ := store s (BRec [u; c; m]) in
    ret s.
(* frame/udp_server_list.c:35-42 uecho_udp_serverlist_delete, frame/mcast_server_list.c:35-42 uecho_mcast_serverlist_delete, for
   lists without servers *)
Definition serverlist_delete (l : Z) : mm unit :=
  let! a := uecho_list_next l in
  if a =? 0 then let! _ := uecho_list_clear l (fun _ => wrong UB_read) in mfree l else wrong UB_read.
(* frame/server.c:39-51 uecho_server_delete *)
Definition uecho_server_delete (s : Z) : mm bool :=
  if s =? 0 then ret false
  else
    let! r := load_rec s in
    let! _ := serverlist_delete (nth 0 r 0) in
    let! _ := serverlist_delete (nth 1 r 0) in
    let! _ := uecho_message_observer_manager_delete (nth 2 r 0) in
    let! _ := mfree s in
    ret true.
(* frame/server.c:234-237 uecho_server_addobserver *)
Definition uecho_server_addobserver (s handler : Z) : mm bool :=
  let! r := load_rec s in uecho_message_observer_manager_addobserver (nth 2 r 0) handler.
End Room.
