(* Programs with a controller: calls on objects and nodes (M_NodeLife.v), on messages (M_MemUse.v) and on a controller, and the
   datagrams that arrive for it, in any order.  The functions called are those of M_CtrlMem.v.  uecho_controller_postmessage is
   two steps, before and after the wait: other steps come in between while its caller waits. *)
From Coq Require Import String ZArith List Bool.
From Verif Require Import CSem M_Const M_Misc M_String M_Property M_Message M_PropertyList M_Object Spec_Object M_Node M_NodeListener M_Controller
  M_Mem M_MemUse M_ObjMem M_ObjUse M_Life M_NodeMem M_NodeLife M_CtrlMem.
Import ListNotations.
Open Scope Z_scope.

Inductive kop : Type :=
| KNodes (op : nop)                                   (* a call on an object or a node of the caller *)
| KMsg (op : mop)                                     (* a call on a message of the caller *)
| KNew (wild : Z) (fr : fresh)                        (* uecho_controller_new *)
| KDelete                                             (* uecho_controller_delete *)
| KStart (up : bool)                                  (* uecho_controller_start *)
| KListen (b : bool)                                  (* uecho_controller_setmessagelistener *)
| KWatch (b : bool)                                   (* uecho_controller_setnodelistener *)
| KEnable (param : Z)                                 (* uecho_controller_enableoption *)
| KDisable (param : Z)                                (* uecho_controller_disableoption *)
| KEnabled (param : Z)                                (* uecho_controller_isoptionenabled *)
| KLocal (op : nop)                                   (* a call on the node uecho_controller_getlocalnode gives, as its node 0 *)
| KSearch (esv : Z)                                   (* uecho_controller_searchwithesv *)
| KSearchObject (code esv : Z)                        (* uecho_controller_searchobjectwithesv *)
| KAnnounce (i : nat)                                 (* uecho_controller_announcemessage of the message i of the caller *)
| KSend (a : string) (code : Z) (i : nat)             (* uecho_object_sendmessage to the object [code] of the node at [a] *)
| KPost (a : string) (i j : nat)                      (* uecho_controller_postmessage to the node at [a], up to the wait *)
| KWait                                               (* and from the end of the wait *)
| KReceive (fr : fresh) (d : list Z) (from : string) (local : option string)   (* a datagram arrives *)
| KCount                                              (* uecho_controller_getnodecount *)
| KRead (a : string) (code : Z)                       (* the getters of the object [code] of the node at [a] *)
| KFind (code : Z).                                   (* the getters of what uecho_controller_getobjectbycode gives *)

Inductive kobs : Type :=
| XNodes (v : nobs)
| XMsg (v : obs)
| XDone
| XBool (b : bool)
| XCount (n : Z)
| XCall (ok : bool) (posts : list post)
| XObject (s : option oseen)
| XReact (r : M_NodeMem.outcome) (told : list ctold) (signal : bool).

(* the pointers of the caller: objects, nodes, messages and the controller *)
Record hands : Type := mkHands { in_objs : list Z; in_nodes : list Z; in_msgs : list Z; in_ctrl : Z }.

Section Use.
Variable room : Z -> bool.
Variable junk : nat -> Z.
Variable le : bool.
Variable net snet : post -> bool.
Variable dec : list (hcall * bool) -> hcall -> bool.
Variable db : Z.

(* controller.c:212-225 uecho_controller_getnodebyaddress with an address of the caller *)
Definition node_at_address (ct : Z) (a : string) : mm Z := given_text (Some a) (uecho_controller_getnodebyaddress ct).
(* the caller makes no call on a node that is NULL: node.c:271-274 uecho_node_getobjectbycode does not test it *)
Definition object_at_address (ct : Z) (a : string) (code : Z) : mm Z :=
  let! nd := node_at_address ct a in
  if nd =? 0 then ret 0 else M_NodeMem.uecho_node_getobjectbycode nd code.

Definition kstep (op : kop) (x : hands) : mm (kobs * hands) :=
  let ct := in_ctrl x in
  match op with
  | KNodes o =>
      let! r := nstep room junk le net dec db o (in_objs x) (in_nodes x) in
      ret (XNodes (fst (fst r)), mkHands (snd (fst r)) (snd r) (in_msgs x) ct)
  | KMsg o =>
      let! r := hstep room le o (in_msgs x) in
      ret (XMsg (fst r), mkHands (in_objs x) (in_nodes x) (snd r) ct)
  | KNew wild fr =>
      let! r := uecho_controller_new room le net db wild fr in
      ret (XCall true (snd r), mkHands (in_objs x) (in_nodes x) (in_msgs x) (fst r))
  | KDelete => let! r := uecho_controller_delete ct in ret (XBool r, x)
  | KStart up => let! r := uecho_controller_start room le net ct up in ret (XCall (fst r) (snd r), x)
  | KListen b => let! _ := uecho_controller_setmessagelistener ct b in ret (XDone, x)
  | KWatch b => let! _ := uecho_controller_setnodelistener ct b in ret (XDone, x)
  | KEnable p => let! r := uecho_controller_enableoption ct p in ret (XBool r, x)
  | KDisable p => let! r := uecho_controller_disableoption ct p in ret (XBool r, x)
  | KEnabled p => let! r := uecho_controller_isoptionenabled ct p in ret (XBool r, x)
  | KLocal o =>
      let! e := load_elem ct in
      let! r := nstep room junk le net dec db o (in_objs x) [ctrl_node (snd e)] in
      ret (XNodes (fst (fst r)), mkHands (snd (fst r)) (in_nodes x) (in_msgs x) ct)
  | KSearch esv => let! r := uecho_controller_searchwithesv room le net ct esv in ret (XCall (fst r) (snd r), x)
  | KSearchObject code esv => let! r := uecho_controller_searchobjectwithesv room le net ct code esv in ret (XCall (fst r) (snd r), x)
  | KAnnounce i =>
      let! q := M_MemUse.handle (in_msgs x) i in
      let! r := uecho_controller_announcemessage room le net ct q in ret (XCall (fst r) (snd r), x)
  | KSend a code i =>
      let! q := M_MemUse.handle (in_msgs x) i in
      let! o := object_at_address ct a code in
      let! r := uecho_object_sendmessage room le net o q in ret (XCall (fst r) (snd r), x)
  | KPost a i j =>
      let! q := M_MemUse.handle (in_msgs x) i in
      let! p := M_MemUse.handle (in_msgs x) j in
      let! nd := node_at_address ct a in
      let! r := postmessage_begin room le net ct nd q p in ret (XCall (fst r) (snd r), x)
  | KWait => let! _ := postmessage_end ct in ret (XDone, x)
  | KReceive fr d from local =>
      let! r := creceive room le net snet dec db fr ct d from local in
      ret (XReact (fst r) (fst (snd r)) (snd (snd r)), x)
  | KCount => let! n := uecho_controller_getnodecount ct in ret (XCount n, x)
  | KRead a code =>
      let! o := object_at_address ct a code in
      if o =? 0 then ret (XObject None, x) else let! s := read_object o in ret (XObject (Some s), x)
  | KFind code =>
      let! o := uecho_controller_getobjectbycode ct code in
      if o =? 0 then ret (XObject None, x) else let! s := read_object o in ret (XObject (Some s), x)
  end.
Fixpoint krun (ops : list kop) (x : hands) : mm (list kobs * hands) :=
  match ops with
  | [] => ret ([], x)
  | op :: r => let! a := kstep op x in let! b := krun r (snd a) in ret (fst a :: fst b, snd b)
  end.
End Use.

(* a program that starts and ends with an empty database, as nmain (M_NodeLife.v) *)
Definition kmain (room : Z -> bool) (junk : nat -> Z) (le : bool) (net snet : post -> bool) (dec : list (hcall * bool) -> hcall -> bool) (ops : list kop) : mm (list kobs) :=
  let! db := uecho_objectlist_new room in
  let! r := krun room junk le net snet dec db ops (mkHands [] [] [] 0) in
  let! _ := uecho_objectlist_delete db in
  ret (fst r).
