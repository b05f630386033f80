(* What a program that uses objects through pointers may do, and what it must see: objects as values, one per pointer, no
   memory.  The functions on values are those of M_Object.v. *)
From Coq Require Import String ZArith List Bool.
From Verif Require Import CSem M_Const M_Property M_PropertyList M_Object Spec_Object Run_Object Spec_Message M_Mem M_ObjUse.
Import ListNotations.
Open Scope Z_scope.

(* the caller's objects in order of creation (None: deleted, or given to the database), and the database *)
Record ostate : Type := mkOstate { s_objs : list (option obj); s_db : list obj }.
Definition nothing : ostate := mkOstate [] [].

Definition mine (st : ostate) (i : nat) : option obj := match nth_error (s_objs st) i with Some (Some o) => Some o | _ => None end.
Fixpoint place (i : nat) (x : option obj) (l : list (option obj)) : list (option obj) :=
  match l, i with
  | [], _ => []
  | _ :: r, O => x :: r
  | y :: r, S k => y :: place k x r
  end.
Definition becomes (st : ostate) (i : nat) (o : obj) : ostate := mkOstate (place i (Some o) (s_objs st)) (s_db st).

Definition look (o : obj) : oseen :=
  mkOseen (o_grp o, o_cls o, o_ins o) (map (fun p => (p_code p, p_attr p, p_data p)) (o_props o)) (o_listener o).

(* what a property function returns *)
Definition answer (o : obj) (op : oop) : uobs :=
  match op with
  | OPropData c _ | OPropAppend c _ => VBool (match uecho_object_getproperty o c with Some _ => true | None => false end)
  | OClear => VNone
  | _ => VBool true
  end.

(* one call on an object *)
Definition value_of (junk : nat -> Z) (db : list obj) (op : uop) (o : obj) : res (uobs * obj) :=
  match op with
  | UProps _ p => do r <- ostep junk o p ;; Ok (answer o p, fst r)
  | UInt _ c v size => do r <- uecho_object_setpropertyintegerdata o c v size ;; Ok (VBool true, fst r)
  | USize _ c => let r := uecho_object_getpropertydatasize o c in Ok (VSize (snd r), fst r)
  | UCode _ v => do r <- uecho_object_setcode db junk o v ;; Ok (VNone, fst r)
  | UGroup _ v => Ok (VNone, uecho_object_setgroupcode db o v)
  | UClass _ v => Ok (VNone, uecho_object_setclasscode db o v)
  | UInstance _ v => Ok (VNone, uecho_object_setinstancecode o v)
  | UListener _ b => Ok (VNone, uecho_object_setmessagelistener b o)
  | UHandler _ esv c h => Ok (VBool true, uecho_object_setpropertyrequesthandler o esv c h)
  | UFind _ esv c => Ok (VHandler (uecho_object_getpropertyrequestlistener o esv c), o)
  | URead _ => Ok (VSeen (look o), o)
  | UNew | UDelete _ | UShare _ => Ok (VNone, o)
  end.
Definition target (op : uop) : nat :=
  match op with
  | UNew => O
  | UDelete i | UProps i _ | UInt i _ _ _ | USize i _ | UCode i _ | UGroup i _ | UClass i _ | UInstance i _ | UListener i _
  | UHandler i _ _ _ | UFind i _ _ | URead i | UShare i => i
  end.

(* one call; None: the object is not the caller's, or the call is undefined on values *)
Definition vstep (junk : nat -> Z) (op : uop) (st : ostate) : option (uobs * ostate) :=
  match op with
  | UNew => Some (VNone, mkOstate (s_objs st ++ [Some uecho_object_new]) (s_db st))
  | _ =>
      match mine st (target op) with
      | None => None
      | Some o =>
          match op with
          | UDelete i => Some (VBool true, mkOstate (place i None (s_objs st)) (s_db st))
          | UShare i => Some (VBool true, mkOstate (place i None (s_objs st)) (s_db st ++ [o]))
          | _ =>
              match value_of junk (s_db st) op o with
              | Undef _ => None
              | Ok (v, o') => Some (v, becomes st (target op) o')
              end
          end
      end
  end.
Fixpoint vrun (junk : nat -> Z) (ops : list uop) (st : ostate) : option (list uobs * ostate) :=
  match ops with
  | [] => Some ([], st)
  | op :: r =>
      match vstep junk op st with
      | None => None
      | Some (v, st') => match vrun junk r st' with None => None | Some (vs, st2) => Some (v :: vs, st2) end
      end
  end.

(* ---- the rules of use ---- *)

(* property codes are 0x80..0xFF, data is bytes of memory, integers have one to four bytes *)
Definition args_ok (op : uop) : Prop :=
  match op with
  | UProps _ p =>
      (forall c, oop_code p = Some c -> 128 <= c <= 255)
      /\ match p with
         | OSetData _ d | OAdd _ _ d | OPropData _ d | OPropAppend _ d => buffer d
         | OSetByte _ b => is_byte b
         | _ => True
         end
  | UInt _ c v size => 128 <= c <= 255 /\ (size <= 4)%nat /\ - INT_MAX - 1 <= v <= INT_MAX
  | USize _ c => 128 <= c <= 255
  | UGroup _ v | UClass _ v | UInstance _ v => is_byte v
  | _ => True
  end.

Definition readable (p : prop) : Prop := Z.land (p_attr p) 17 <> 0.
(* the maps of readable properties built before have less than 2^63 entries together *)
Definition map_room (o : obj) : Prop := Z.of_nat (o_getsz o) < OBJ_MAX.

(* The object is the caller's.  After the first property map was made, each call that rebuilds the maps leaves a
   readable property.  Appended data fits the address space. *)
Definition rules (op : uop) (st : ostate) : Prop :=
  match op with
  | UNew => True
  | _ =>
      exists o, mine st (target op) = Some o
      /\ match op with
         | UProps _ (OSetProperty c a) =>
             map_room o
             /\ (o_getsz o = O \/ Z.land a 17 <> 0 \/ exists p, In p (o_props o) /\ p_code p <> c /\ readable p)
         | UProps _ (OPropAppend c d) =>
             forall p, uecho_object_getproperty o c = Some p -> len (p_data p) + len d <= OBJ_MAX
         | UCode _ v =>
             map_room o
             /\ (o_getsz o = O \/ exists p, In p (o_props (fst (uecho_object_addstandardproperties (s_db st)
                   (o_with_code (Z.shiftr (Z.land v 16711680) 16) (Z.shiftr (Z.land v 65280) 8) (Z.land v 255) o)))) /\ readable p)
         | _ => True
         end
  end.

Fixpoint legal (junk : nat -> Z) (ops : list uop) (st : ostate) : Prop :=
  match ops with
  | [] => True
  | op :: r => args_ok op /\ rules op st /\ forall v st', vstep junk op st = Some (v, st') -> legal junk r st'
  end.

(* every object was deleted, or given to the database, which deletes it *)
Definition all_gone (st : ostate) : Prop := Forall (fun x => x = None) (s_objs st).
