(* Specification of an object's properties: a finite map from property code to attribute
   and data, and the effect of each public operation on it. *)
From Coq Require Import ZArith List Bool.
Import ListNotations.
Open Scope Z_scope.

(* attribute, data *)
Definition entry : Type := (Z * list Z)%type.
Definition pmap : Type := Z -> option entry.
Definition pm_empty : pmap := fun _ => None.
Definition pm_set (m : pmap) (c : Z) (e : entry) : pmap := fun x => if x =? c then Some e else m x.

(* read and write, uEchoPropertyAttrReadWrite *)
Definition rw : Z := 3.

(* Operations on the properties of one object.
   [OSetProperty c a]   uecho_object_setproperty: (re)defines c with attribute a, without data
   [OSetAttr c a]       uecho_object_setpropertyattribute
   [OSetData c d]       uecho_object_setpropertydata
   [OSetByte c b]       uecho_object_setpropertybytedata
   [OAdd c a d]         uecho_object_addproperty of a new property
   [OPropData c d]      uecho_property_setdata on the result of uecho_object_getproperty
   [OPropAppend c d]    uecho_property_adddata on the result of uecho_object_getproperty
   [OClear]             uecho_object_clearproperties *)
Inductive oop : Type :=
| OSetProperty (c a : Z)
| OSetAttr (c a : Z)
| OSetData (c : Z) (d : list Z)
| OSetByte (c b : Z)
| OAdd (c a : Z) (d : list Z)
| OPropData (c : Z) (d : list Z)
| OPropAppend (c : Z) (d : list Z)
| OClear.

Definition oop_code (op : oop) : option Z :=
  match op with
  | OSetProperty c _ | OSetAttr c _ | OSetData c _ | OSetByte c _ | OAdd c _ _
  | OPropData c _ | OPropAppend c _ => Some c
  | OClear => None
  end.

Definition byte_list (d : list Z) : Prop := Forall (fun b => 0 <= b < 256) d.
(* arguments of the C types: codes and data are bytes *)
Definition oop_ok (op : oop) : Prop :=
  (match oop_code op with Some c => 0 <= c < 256 | None => True end)
  /\ match op with
     | OSetData _ d | OAdd _ _ d | OPropData _ d | OPropAppend _ d => byte_list d
     | OSetByte _ b => 0 <= b < 256
     | _ => True
     end.

Definition attr_of (m : pmap) (c : Z) : Z := match m c with Some (a, _) => a | None => rw end.
Definition data_of (m : pmap) (c : Z) : list Z := match m c with Some (_, d) => d | None => [] end.

(* a data or attribute store on a missing code creates it, readable and writable *)
Definition pm_step (m : pmap) (op : oop) : pmap :=
  match op with
  | OSetProperty c a => pm_set m c (a, [])
  | OSetAttr c a => pm_set m c (a, data_of m c)
  | OSetData c d => pm_set m c (attr_of m c, d)
  | OSetByte c b => pm_set m c (attr_of m c, [b])
  | OAdd c a d => pm_set m c (a, d)
  | OPropData c d => match m c with Some (a, _) => pm_set m c (a, d) | None => m end
  | OPropAppend c d => match m c with Some (a, d0) => pm_set m c (a, d0 ++ d) | None => m end
  | OClear => pm_empty
  end.

Definition pm_run (m : pmap) (ops : list oop) : pmap := fold_left pm_step ops m.

(* the three property map codes, which uecho_object_setproperty rewrites *)
Definition map_epc (c : Z) : Prop := c = 157 \/ c = 158 \/ c = 159.
