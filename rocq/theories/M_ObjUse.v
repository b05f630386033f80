(* Programs that use objects through pointers: a caller that creates, fills, reads and deletes objects in any order, and
   gives objects to a database from which the standard properties of other objects are copied.  The functions called are
   those of M_ObjMem.v. *)
From Coq Require Import String ZArith List Bool.
From Verif Require Import CSem M_Const M_Misc M_Property M_PropertyList M_Object Spec_Object M_Mem M_MemUse M_ObjMem.
Import ListNotations.
Open Scope Z_scope.

(* ---- what the getters show ---- *)

Record oseen : Type := mkOseen {
  vo_code : Z * Z * Z;                      (* group, class and instance *)
  vo_props : list (Z * Z * list Z);         (* code, attribute and data of each property, in order *)
  vo_listener : bool                        (* has a message listener *)
}.

(* property.c:387-390 uecho_property_next along the properties of an object *)
Fixpoint read_list (n : nat) (p : Z) : mm (list (Z * Z * list Z)) :=
  if p =? 0 then ret []
  else
    match n with
    | O => wrong UB_loop
    | S k =>
        let! x := read_property p in
        let! p' := uecho_list_next p in
        let! r := read_list k p' in
        ret (x :: r)
    end.
(* object.c:263-269 uecho_object_getgroupcode, object.c:289-295 uecho_object_getclasscode, object.c:313-319
   uecho_object_getinstancecode, object.c:487-493 uecho_object_getproperties, object.c:639-645
   uecho_object_hasmessagelistener *)
Definition read_object (obj : Z) : mm oseen :=
  let! o := load_obj obj in
  let! p := uecho_object_getproperties obj in
  let! l := walk (fun n => read_list n p) in
  ret (mkOseen (j_grp o, j_cls o, j_ins o) l (j_listener o)).

(* ---- a caller ---- *)

Inductive uop : Type :=
| UNew                                             (* uecho_object_new *)
| UDelete (i : nat)                                (* uecho_object_delete *)
| UProps (i : nat) (op : oop)                      (* the property functions of Spec_Object.v *)
| UInt (i : nat) (c v : Z) (size : nat)            (* uecho_object_setpropertyintegerdata *)
| USize (i : nat) (c : Z)                          (* uecho_object_getpropertydatasize *)
| UCode (i : nat) (v : Z)                          (* uecho_object_setcode *)
| UGroup (i : nat) (v : Z)                         (* uecho_object_setgroupcode *)
| UClass (i : nat) (v : Z)                         (* uecho_object_setclasscode *)
| UInstance (i : nat) (v : Z)                      (* uecho_object_setinstancecode *)
| UListener (i : nat) (b : bool)                   (* uecho_object_setmessagelistener *)
| UHandler (i : nat) (esv c : Z) (h : option nat)  (* uecho_object_setpropertyrequesthandler *)
| UFind (i : nat) (esv c : Z)                      (* uecho_object_getpropertyrequestlistener *)
| URead (i : nat)                                  (* the getters *)
| UShare (i : nat).                                (* uecho_database_addobject *)

Inductive uobs : Type := VNone | VBool (b : bool) | VSize (n : Z) | VHandler (h : option nat) | VSeen (s : oseen).

Section Room.
Variable room : Z -> bool.
Variable junk : nat -> Z.
Variable db : Z.

(* the calls of Spec_Object.v; the data is a buffer of the caller *)
Definition hprops (a : Z) (op : oop) : mm uobs :=
  match op with
  | OSetProperty c at_ => let! r := M_ObjMem.uecho_object_setproperty room junk a c at_ in ret (VBool r)
  | OSetAttr c at_ => let! r := M_ObjMem.uecho_object_setpropertyattribute room a c at_ in ret (VBool r)
  | OSetData c d =>
      let! r := given d (fun p => M_ObjMem.uecho_object_setpropertydata room a c p (len d)) in ret (VBool r)
  | OSetByte c b => let! r := M_ObjMem.uecho_object_setpropertybytedata room a c b in ret (VBool r)
  | OAdd c at_ d =>
      let! q := M_Mem.uecho_property_new room in
      let! _ := M_Mem.uecho_property_setcode q c in
      let! _ := M_Mem.uecho_property_setattribute q at_ in
      let! _ := given d (fun p => M_Mem.uecho_property_setdata room q p 0 (len d)) in
      let! r := M_ObjMem.uecho_object_addproperty a q in ret (VBool r)
  | OPropData c d =>
      let! r := given d (fun p => let! q := M_ObjMem.uecho_object_getproperty a c in
                                  M_Mem.uecho_property_setdata room q p 0 (len d)) in ret (VBool r)
  | OPropAppend c d =>
      let! r := given d (fun p => let! q := M_ObjMem.uecho_object_getproperty a c in
                                  M_ObjMem.uecho_property_adddata room junk q p (len d)) in ret (VBool r)
  | OClear => let! _ := M_ObjMem.uecho_object_clearproperties a in ret VNone
  end.

Definition ustep (op : uop) (ps : list Z) : mm (uobs * list Z) :=
  match op with
  | UNew => let! a := M_ObjMem.uecho_object_new room in ret (VNone, ps ++ [a])
  | UDelete i => let! a := handle ps i in let! r := M_ObjMem.uecho_object_delete a in ret (VBool r, ps)
  | UProps i op => let! a := handle ps i in let! r := hprops a op in ret (r, ps)
  | UInt i c v size =>
      let! a := handle ps i in
      let! r := M_ObjMem.uecho_object_setpropertyintegerdata room a c v size in ret (VBool r, ps)
  | USize i c => let! a := handle ps i in let! n := M_ObjMem.uecho_object_getpropertydatasize room a c in ret (VSize n, ps)
  | UCode i v => let! a := handle ps i in let! _ := M_ObjMem.uecho_object_setcode room junk db a v in ret (VNone, ps)
  | UGroup i v => let! a := handle ps i in let! _ := M_ObjMem.uecho_object_setgroupcode room db a v in ret (VNone, ps)
  | UClass i v => let! a := handle ps i in let! _ := M_ObjMem.uecho_object_setclasscode room db a v in ret (VNone, ps)
  | UInstance i v => let! a := handle ps i in let! _ := M_ObjMem.uecho_object_setinstancecode a v in ret (VNone, ps)
  | UListener i b => let! a := handle ps i in let! _ := M_ObjMem.uecho_object_setmessagelistener a b in ret (VNone, ps)
  | UHandler i esv c h =>
      let! a := handle ps i in
      let! r := M_ObjMem.uecho_object_setpropertyrequesthandler room a esv c h in ret (VBool r, ps)
  | UFind i esv c =>
      let! a := handle ps i in
      let! h := M_ObjMem.uecho_object_getpropertyrequestlistener a esv c in ret (VHandler h, ps)
  | URead i => let! a := handle ps i in let! s := read_object a in ret (VSeen s, ps)
  | UShare i => let! a := handle ps i in let! r := uecho_list_add db a in ret (VBool r, ps)
  end.

Fixpoint urun (ops : list uop) (ps : list Z) : mm (list uobs * list Z) :=
  match ops with
  | [] => ret ([], ps)
  | op :: r => let! x := ustep op ps in let! y := urun r (snd x) in ret (fst x :: fst y, snd y)
  end.
End Room.

(* std/database.c:17-35 uecho_database_new and std/database.c:41-57 uecho_database_delete around a program; of the
   database only the list of objects is here (manufacturers are in M_Names.v) *)
Definition umain (room : Z -> bool) (junk : nat -> Z) (ops : list uop) : mm (list uobs) :=
  let! db := uecho_objectlist_new room in
  let! r := urun room junk db ops [] in
  let! _ := uecho_objectlist_delete db in
  ret (fst r).
