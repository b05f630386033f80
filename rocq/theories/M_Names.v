(* Model of the names of objects and properties and of the manufacturers: object.c, property.c, manufacture.c,
   manufacture_list.c, std/database.c, std/manufacturers.c, property_enum.c and property_enum_list.c.  Only names and
   codes are kept here; the other fields are in M_Object and M_Property.  None is a name that is NULL. *)
From Coq Require Import String ZArith List Bool.
From Verif Require Import StdNames_Data.
Import ListNotations.
Open Scope Z_scope.

(* ---- lists of properties ---- *)
Definition nprop : Type := (Z * option string)%type.

(* property_list.c:48-61 uecho_propertylist_findbycode: the name of the first property with the code *)
Fixpoint nfind (l : list nprop) (code : Z) : option (option string) :=
  match l with [] => None | (c, n) :: r => if c =? code then Some n else nfind r code end.
(* property.c:396-399 uecho_property_remove of the property found *)
Fixpoint nremove (l : list nprop) (code : Z) : list nprop :=
  match l with [] => [] | (c, n) :: r => if c =? code then r else (c, n) :: nremove r code end.
(* property_list.c:92-106 uecho_propertylist_add *)
Definition nadd (l : list nprop) (p : nprop) : list nprop :=
  match nfind l (fst p) with Some _ => nremove l (fst p) ++ [p] | None => l ++ [p] end.
(* property_list.c:67-86 uecho_propertylist_getbycode: a property made here has no name *)
Definition ngetbycode (l : list nprop) (code : Z) : list nprop :=
  match nfind l code with Some _ => l | None => nadd l (code, None) end.
(* property.c:405-410 uecho_property_setname of the property found *)
Fixpoint nrename (l : list nprop) (code : Z) (name : option string) : list nprop :=
  match l with [] => [] | (c, n) :: r => if c =? code then (c, name) :: r else (c, n) :: nrename r code name end.

(* ---- objects ---- *)
Record nobj : Type := mkNObj { no_grp : Z; no_cls : Z; no_ins : Z; no_name : option string; no_props : list nprop }.
Definition no_with_props (l : list nprop) (o : nobj) : nobj := mkNObj (no_grp o) (no_cls o) (no_ins o) (no_name o) l.
Definition no_with_code (g c i : Z) (o : nobj) : nobj := mkNObj g c i (no_name o) (no_props o).

(* object.c:26-69 uecho_object_new *)
Definition nobj_new : nobj := mkNObj 0 0 0 None [].
(* object.c:140-146 uecho_object_setname *)
Definition nobj_setname (o : nobj) (name : option string) : nobj := mkNObj (no_grp o) (no_cls o) (no_ins o) name (no_props o).
(* object.c:152-158 uecho_object_getname *)
Definition nobj_getname (o : nobj) : option string := no_name o.
(* property.c:416-421 uecho_property_getname of the property with the given code *)
Definition nobj_propertyname (o : nobj) (code : Z) : option (option string) := nfind (no_props o) code.

(* object.c:765-782 uecho_object_addmissingobjectproperties *)
Fixpoint nmissing (l src : list nprop) : list nprop :=
  match src with
  | [] => l
  | p :: r => match nfind l (fst p) with Some _ => nmissing l r | None => nmissing (nadd l p) r end
  end.

(* std/objects_mra.c:19-27 uecho_standard_object_new, std/objects_mra.c:29-53 uecho_standard_object_property_new and the
   lines of std/objects_mra.c:55-1269 uecho_database_addstandardobjects for one object *)
Definition nstd_object (row : Z * Z * string * list (Z * string)) : nobj :=
  let '(g, c, name, ps) := row in mkNObj g c 0 (Some name) (fold_left (fun l p => nadd l (fst p, Some (snd p))) ps []).
Definition nstd_db : list nobj := map nstd_object std_names.
(* object_list.c:68-84 uecho_objectlist_getbygroupclasscode *)
Fixpoint ndb_getobject (db : list nobj) (grp cls : Z) : option nobj :=
  match db with [] => None | o :: r => if (no_grp o =? grp) && (no_cls o =? cls) then Some o else ndb_getobject r grp cls end.

(* object.c:164-186 uecho_object_addstandardpropertieswithcode *)
Definition nadd_with_code (db : list nobj) (o : nobj) (grp cls : Z) : nobj :=
  match ndb_getobject db grp cls with
  | None => o
  | Some s => no_with_props (nmissing (no_props o) (no_props s)) (nobj_setname o (nobj_getname s))
  end.
(* object.c:188-198 uecho_object_addstandardproperties *)
Definition nadd_standard (db : list nobj) (o : nobj) : nobj :=
  let o := nadd_with_code db o 0 0 in nadd_with_code db o (no_grp o) (no_cls o).
(* std/object_super_class.c:41-88 uecho_object_updatepropertymaps: the three maps are set, the get map first *)
Definition nupdate_maps (o : nobj) : nobj := no_with_props (ngetbycode (ngetbycode (ngetbycode (no_props o) 159) 158) 157) o.
(* object.c:204-215 uecho_object_setcode *)
Definition nobj_setcode (db : list nobj) (o : nobj) (val : Z) : nobj :=
  nupdate_maps (nadd_standard db (no_with_code (Z.shiftr (Z.land val 16711680) 16) (Z.shiftr (Z.land val 65280) 8) (Z.land val 255) o)).
(* object.c:249-257 uecho_object_setgroupcode *)
Definition nobj_setgroupcode (db : list nobj) (o : nobj) (v : Z) : nobj := nadd_standard db (no_with_code v (no_cls o) (no_ins o) o).
(* object.c:275-283 uecho_object_setclasscode *)
Definition nobj_setclasscode (db : list nobj) (o : nobj) (v : Z) : nobj := nadd_standard db (no_with_code (no_grp o) v (no_ins o) o).
(* object.c:415-433 uecho_object_setproperty *)
Definition nobj_setproperty (o : nobj) (code : Z) : nobj := nupdate_maps (no_with_props (ngetbycode (no_props o) code) o).
(* object.c:400-409 uecho_object_addproperty: a property with a name of the caller *)
Definition nobj_addproperty (o : nobj) (code : Z) (name : option string) : nobj := no_with_props (nadd (no_props o) (code, name)) o.
(* property.c:405-410 uecho_property_setname of a property of the object *)
Definition nobj_setpropertyname (o : nobj) (code : Z) (name : option string) : nobj := no_with_props (nrename (no_props o) code name) o.

(* ---- manufacturers ---- *)
(* std/manufacturers.c:15-21 uecho_database_addstandardmanufacture; manufacture.c:17-32 uecho_manufacture_new: code and
   name; std/database.c:63-68 uecho_database_addmanufacture: added at the end *)
Definition man_add (l : list (Z * string)) (code : Z) (name : string) : list (Z * string) := l ++ [(code, name)].
(* std/manufacturers.c:23-260 uecho_database_addstandardmanufactures *)
Definition man_standard : list (Z * string) := fold_left (fun l r => man_add l (fst r) (snd r)) man_rows [].
(* manufacture_list.c:48-61 uecho_manufacturelist_getbycode, std/database.c:85-90 uecho_database_getmanufacture *)
Fixpoint man_get (l : list (Z * string)) (code : Z) : option string :=
  match l with [] => None | (c, n) :: r => if c =? code then Some n else man_get r code end.

(* ---- enumerations of a property ---- *)
(* property_enum.c:23-44 uecho_property_enum_new: code, name, description *)
Definition enum : Type := (Z * option string * option string)%type.
Definition enum_code (e : enum) : Z := fst (fst e).
(* property_enum_list.c:48-61 uecho_property_enumlist_findbycode *)
Fixpoint uecho_property_enumlist_findbycode (l : list enum) (code : Z) : option enum :=
  match l with [] => None | e :: r => if enum_code e =? code then Some e else uecho_property_enumlist_findbycode r code end.
Fixpoint enum_remove (l : list enum) (code : Z) : list enum :=
  match l with [] => [] | e :: r => if enum_code e =? code then r else e :: enum_remove r code end.
(* property_enum_list.c:67-81 uecho_property_enumlist_add *)
Definition uecho_property_enumlist_add (l : list enum) (e : enum) : list enum :=
  match uecho_property_enumlist_findbycode l (enum_code e) with Some _ => enum_remove l (enum_code e) ++ [e] | None => l ++ [e] end.
