(* Model of src/uecho/std/objects_mra.c (the standard object database) on the data of
   StdDB_Data.v, and of src/uecho/std/standard.c. *)
From Coq Require Import ZArith List Bool.
From Verif Require Import CSem M_Const M_Misc M_Property M_PropertyList M_Object StdDB_Data.
Import ListNotations.
Open Scope Z_scope.

(* std/objects_mra.c:29-53 uecho_standard_object_property_new: a rule string adds the
   required bit, the optional bit or nothing.  The tests repeat PROP_REQUIRED, so
   "required_c" and "required_o" add nothing. *)
Definition rule_bits (r : rule) (req opt : Z) : Z :=
  match r with Rq => req | Op => opt | Rc | Ro | Na => 0 end.
Definition uecho_standard_object_property_new (row : Z * rule * rule * rule) : prop :=
  let '(code, g, s, a) := row in
  uecho_property_setattribute
    (Z.lor (Z.lor (Z.lor AttrNone (rule_bits g AttrReadRequired AttrRead))
                  (rule_bits s AttrWriteRequired AttrWrite))
           (rule_bits a AttrAnnoRequired AttrAnno))
    (uecho_property_setcode code uecho_property_new).

(* std/objects_mra.c:19-27 uecho_standard_object_new *)
Definition uecho_standard_object_new (grp cls : Z) : obj :=
  o_with_code (to_byte grp) (to_byte cls) (o_ins uecho_object_new) uecho_object_new.

(* std/objects_mra.c:55-1269 uecho_database_addstandardobjects: one object *)
Definition std_object (row : Z * Z * list (Z * rule * rule * rule)) : obj :=
  let '(grp, cls, ps) := row in
  fold_left (fun o r => uecho_object_addproperty o (uecho_standard_object_property_new r))
            ps (uecho_standard_object_new grp cls).

(* std/standard.c:28-39 uecho_standard_getdatabase: the database, built on first use *)
Definition std_db : list obj := map std_object std_rows.
