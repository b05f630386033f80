(* Histories of public calls on one object: each operation of Spec_Object.v is the model
   of the C function it names.  Every call comes with the unspecified memory contents it
   may meet. *)
From Coq Require Import ZArith List Bool.
From Verif Require Import CSem M_Property M_PropertyList M_Object Spec_Object.
Import ListNotations.
Open Scope Z_scope.

Definition ostep (junk : nat -> Z) (o : obj) (op : oop) : res (obj * list prop) :=
  match op with
  | OSetProperty c a => uecho_object_setproperty junk o c a
  | OSetAttr c a => Ok (uecho_object_setpropertyattribute o c a, [])
  | OSetData c d => Ok (uecho_object_setpropertydata o c d)
  | OSetByte c b => Ok (uecho_object_setpropertybytedata o c b)
  | OAdd c a d => Ok (uecho_object_addproperty o (mkProp c a d false), [])
  | OPropData c d => Ok (object_property_setdata o c d)
  | OPropAppend c d => Ok (object_property_adddata o c d)
  | OClear => Ok (uecho_object_clearproperties o, [])
  end.

Fixpoint orun (o : obj) (h : list (oop * (nat -> Z))) : res obj :=
  match h with
  | [] => Ok o
  | (op, junk) :: r => do x <- ostep junk o op ;; orun (fst x) r
  end.

(* what the getters show of a property *)
Definition view (o : obj) : pmap := fun c =>
  match uecho_object_getproperty o c with
  | Some p => Some (p_attr p, p_data p)
  | None => None
  end.

(* a history whose arguments have the C types and whose memory holds bytes *)
Definition hist_ok (h : list (oop * (nat -> Z))) : Prop :=
  Forall (fun x => oop_ok (fst x) /\ forall i, is_byte (snd x i)) h.

(* Objects a program can obtain through the public API with database [db]: created, then
   any calls with property codes 0x80..0xFF and C-typed arguments. *)
Inductive api_obj (db : list obj) : obj -> Prop :=
| ao_new : api_obj db uecho_object_new
| ao_step : forall o junk op o' ann, api_obj db o -> oop_ok op ->
    (forall c, oop_code op = Some c -> 128 <= c <= 255) -> (forall i, is_byte (junk i)) ->
    ostep junk o op = Ok (o', ann) -> api_obj db o'
| ao_setcode : forall o junk v o' ann, api_obj db o -> (forall i, is_byte (junk i)) ->
    uecho_object_setcode db junk o v = Ok (o', ann) -> api_obj db o'
| ao_setgroup : forall o v, api_obj db o -> is_byte v -> api_obj db (uecho_object_setgroupcode db o v)
| ao_setclass : forall o v, api_obj db o -> is_byte v -> api_obj db (uecho_object_setclasscode db o v)
| ao_setinstance : forall o v, api_obj db o -> is_byte v -> api_obj db (uecho_object_setinstancecode o v)
| ao_setint : forall o c v size o' ann, api_obj db o -> 128 <= c <= 255 ->
    uecho_object_setpropertyintegerdata o c v size = Ok (o', ann) -> api_obj db o'
| ao_getsize : forall o c, api_obj db o -> 128 <= c <= 255 ->
    api_obj db (fst (uecho_object_getpropertydatasize o c))
| ao_getdata : forall o c, api_obj db o -> 128 <= c <= 255 ->
    api_obj db (fst (uecho_object_getpropertydata o c))
| ao_getint : forall o c o' v, api_obj db o -> 128 <= c <= 255 ->
    uecho_object_getpropertyintegerdata o c = Ok (o', v) -> api_obj db o'
| ao_getbyte : forall o c o' v, api_obj db o -> 128 <= c <= 255 ->
    uecho_object_getpropertybytedata o c = Ok (o', v) -> api_obj db o'
| ao_attach : forall o, api_obj db o -> api_obj db (uecho_object_attach o)
| ao_listener : forall o b, api_obj db o -> api_obj db (uecho_object_setmessagelistener b o)
| ao_handler : forall o esv c h, api_obj db o ->
    api_obj db (uecho_object_setpropertyrequesthandler o esv c h).

(* a database whose properties have codes 0x80..0xFF and byte data *)
Definition db_ok (db : list obj) : Prop :=
  Forall (fun o => Forall (fun p => 128 <= p_code p <= 255 /\ bytes_ok (p_data p)) (o_props o)) db.
