(* What the names should be, read off the tables. *)
From Coq Require Import String ZArith List Bool.
From Verif Require Import StdNames_Data M_Names.
Import ListNotations.
Open Scope Z_scope.

(* the first entry of a table for a class *)
Definition entry (table : list (Z * Z * string * list (Z * string))) (grp cls : Z) : option (string * list (Z * string)) :=
  match List.find (fun r => (fst (fst (fst r)) =? grp) && (snd (fst (fst r)) =? cls)) table with
  | Some (_, _, name, ps) => Some (name, ps)
  | None => None
  end.
(* its name, and the name it lists last for a property *)
Definition class_name table grp cls : option string := option_map fst (entry table grp cls).
Definition last_name (ps : list (Z * string)) (epc : Z) : option string :=
  option_map snd (List.find (fun p => fst p =? epc) (rev ps)).
Definition class_property table grp cls epc : option string :=
  match entry table grp cls with Some (_, ps) => last_name ps epc | None => None end.
(* what an object of a class should call a property: as the super class, else as the class *)
Definition standard_name table grp cls epc : option string :=
  match class_property table 0 0 epc with Some n => Some n | None => class_property table grp cls epc end.

(* the group and class of an object code *)
Definition group_of (v : Z) : Z := (v / 65536) mod 256.
Definition class_of (v : Z) : Z := (v / 256) mod 256.

(* histories of an object *)
Inductive nop : Type :=
| NName (name : option string) | NCode (v : Z) | NGroup (v : Z) | NClass (v : Z)
| NSet (epc : Z) | NAdd (epc : Z) (name : option string) | NPropName (epc : Z) (name : option string).
Definition nstep (o : nobj) (op : nop) : nobj :=
  match op with
  | NName n => nobj_setname o n
  | NCode v => nobj_setcode nstd_db o v
  | NGroup v => nobj_setgroupcode nstd_db o v
  | NClass v => nobj_setclasscode nstd_db o v
  | NSet e => nobj_setproperty o e
  | NAdd e n => nobj_addproperty o e n
  | NPropName e n => nobj_setpropertyname o e n
  end.
Definition nrun (o : nobj) (ops : list nop) : nobj := fold_left nstep ops o.
(* an operation that gives a property its name *)
Definition names_property (epc : Z) (op : nop) : bool :=
  match op with NAdd e _ | NPropName e _ => e =? epc | _ => false end.
