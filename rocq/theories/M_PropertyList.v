(* Model of src/uecho/property_list.c.

   A property list is a Coq list in list order (M_List.v models the pointer code).
   Functions that may announce also return the announced property values
   (see uecho_property_announce in M_Property.v).
   A function that calls uecho_propertylist_getbycode creates the property when it
   is missing. *)
From Coq Require Import ZArith List Bool.
From Verif Require Import CSem M_Const M_Misc M_Property.
Import ListNotations.
Open Scope Z_scope.

(* property_list.c:48-61 uecho_propertylist_findbycode: first match *)
Fixpoint uecho_propertylist_findbycode (l : list prop) (code : Z) : option prop :=
  match l with
  | [] => None
  | p :: r => if p_code p =? code then Some p else uecho_propertylist_findbycode r code
  end.

(* stores made through the pointer returned by findbycode *)
Fixpoint update_first (code : Z) (f : prop -> prop) (l : list prop) : list prop :=
  match l with
  | [] => []
  | p :: r => if p_code p =? code then f p :: r else p :: update_first code f r
  end.

(* uecho_property_remove + uecho_property_delete of the property found by findbycode *)
Fixpoint remove_first (code : Z) (l : list prop) : list prop :=
  match l with
  | [] => []
  | p :: r => if p_code p =? code then r else p :: remove_first code r
  end.

(* property_list.c:92-106 uecho_propertylist_add.  The property is not already in
   this or another list (adding a property twice would use it after free). *)
Definition uecho_propertylist_add (l : list prop) (p : prop) : list prop :=
  match uecho_propertylist_findbycode l (p_code p) with
  | Some _ => remove_first (p_code p) l ++ [p]
  | None => l ++ [p]
  end.

(* property_list.c:67-86 uecho_propertylist_getbycode: the list afterwards and
   the property returned *)
Definition uecho_propertylist_getbycode (l : list prop) (code : Z) : list prop * prop :=
  match uecho_propertylist_findbycode l code with
  | Some p => (l, p)
  | None =>
      let p := uecho_property_setcode code uecho_property_new in
      (uecho_propertylist_add l p, p)
  end.

(* property_list.c:112-127 uecho_propertylist_set: data first, then attribute *)
Definition uecho_propertylist_set (l : list prop) (code attr : Z) (data : list Z)
  : list prop * list prop :=
  let '(l1, p) := uecho_propertylist_getbycode l code in
  let '(p1, ann) := uecho_property_setdata data p in
  let p2 := uecho_property_setattribute attr p1 in
  (update_first code (fun _ => p2) l1, ann).

(* property_list.c:133-147 uecho_propertylist_setdata *)
Definition uecho_propertylist_setdata (l : list prop) (code : Z) (data : list Z)
  : list prop * list prop :=
  let '(l1, p) := uecho_propertylist_getbycode l code in
  let '(p1, ann) := uecho_property_setdata data p in
  (update_first code (fun _ => p1) l1, ann).

(* property_list.c:153-165 uecho_propertylist_setintegerdata *)
Definition uecho_propertylist_setintegerdata (l : list prop) (code v : Z) (size : nat)
  : res (list prop * list prop) :=
  let '(l1, p) := uecho_propertylist_getbycode l code in
  do r <- uecho_property_setintegerdata v size p ;;
  let '(p1, ann) := r in
  Ok (update_first code (fun _ => p1) l1, ann).

(* property_list.c:171-183 uecho_propertylist_setbytedata *)
Definition uecho_propertylist_setbytedata (l : list prop) (code b : Z)
  : list prop * list prop :=
  let '(l1, p) := uecho_propertylist_getbycode l code in
  let '(p1, ann) := uecho_property_setbytedata b p in
  (update_first code (fun _ => p1) l1, ann).

(* property_list.c:189-203 uecho_propertylist_setattribute *)
Definition uecho_propertylist_setattribute (l : list prop) (code attr : Z) : list prop :=
  let '(l1, p) := uecho_propertylist_getbycode l code in
  update_first code (fun _ => uecho_property_setattribute attr p) l1.

(* property_list.c:209-221 uecho_propertylist_getdatasize: the result type is byte *)
Definition uecho_propertylist_getdatasize (l : list prop) (code : Z) : list prop * Z :=
  let '(l1, p) := uecho_propertylist_getbycode l code in
  (l1, to_byte (uecho_property_getdatasize p)).

(* property_list.c:227-239 uecho_propertylist_getdata: the bytes pointed to *)
Definition uecho_propertylist_getdata (l : list prop) (code : Z) : list prop * list Z :=
  let '(l1, p) := uecho_propertylist_getbycode l code in
  (l1, p_data p).

(* property_list.c:245-257 uecho_propertylist_getintegerdata *)
Definition uecho_propertylist_getintegerdata (l : list prop) (code : Z)
  : res (list prop * Z) :=
  let '(l1, p) := uecho_propertylist_getbycode l code in
  do v <- uecho_property_getintegerdata p ;; Ok (l1, v).

(* property_list.c:263-275 uecho_propertylist_getbytedata *)
Definition uecho_propertylist_getbytedata (l : list prop) (code : Z)
  : res (list prop * option Z) :=
  let '(l1, p) := uecho_propertylist_getbycode l code in
  do v <- uecho_property_getbytedata p ;; Ok (l1, v).
