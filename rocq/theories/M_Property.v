(* Model of src/uecho/property.c.

   Not modelled: the name and type fields (no function below depends on them),
   allocation failure, the list links (M_List.v models the list code). *)
From Coq Require Import ZArith List Bool.
From Verif Require Import CSem M_Const M_Misc.
Import ListNotations.
Open Scope Z_scope.

(* src/uecho/_property.h: code, attr, data/data_size, parentObj.
   [p_data = []] is data == NULL, data_size == 0.
   [p_parent] says whether parentObj is non-NULL; a non-NULL parentObj is the
   object whose list holds the property (object.c:400-433 are the only setters). *)
Record prop : Type := mkProp {
  p_code : Z;
  p_attr : Z;
  p_data : list Z;
  p_parent : bool
}.

(* property.c:23-49 uecho_property_new *)
Definition uecho_property_new : prop := mkProp 0 AttrReadWrite [] false.

(* property.c:76-84 uecho_property_setparentobject *)
Definition uecho_property_setparentobject (b : bool) (p : prop) : prop :=
  mkProp (p_code p) (p_attr p) (p_data p) b.

(* property.c:427-432 uecho_property_setcode; the argument is a byte *)
Definition uecho_property_setcode (c : Z) (p : prop) : prop :=
  mkProp c (p_attr p) (p_data p) (p_parent p).

(* property.c:471-476 uecho_property_setattribute *)
Definition uecho_property_setattribute (a : Z) (p : prop) : prop :=
  mkProp (p_code p) a (p_data p) (p_parent p).

(* the store "prop->data = ..., prop->data_size = ..." *)
Definition put_data (d : list Z) (p : prop) : prop :=
  mkProp (p_code p) (p_attr p) d (p_parent p).

(* property.c:368-381 uecho_property_cleardata *)
Definition uecho_property_cleardata (p : prop) : prop := put_data [] p.

(* property.c:102-119 uecho_property_setcount: calloc'ed zero bytes *)
Definition uecho_property_setcount (n : nat) (p : prop) : prop :=
  put_data (repeat 0 n) (uecho_property_cleardata p).

(* property.c:460-465 uecho_property_getdatasize *)
Definition uecho_property_getdatasize (p : prop) : Z := len (p_data p).

(* property.c:493-595 attribute predicates *)
Definition has_bits (attr mask : Z) : bool := negb (Z.land attr mask =? 0).
(* property.c:493-498 *)
Definition uecho_property_isreadable (p : prop) : bool :=
  has_bits (p_attr p) (Z.lor AttrRead AttrReadRequired).
(* property.c:504-509 *)
Definition uecho_property_isreadrequired (p : prop) : bool :=
  has_bits (p_attr p) AttrReadRequired.
(* property.c:515-520 *)
Definition uecho_property_iswritable (p : prop) : bool :=
  has_bits (p_attr p) (Z.lor AttrWrite AttrWriteRequired).
(* property.c:526-531 *)
Definition uecho_property_iswriterequired (p : prop) : bool :=
  has_bits (p_attr p) AttrWriteRequired.
(* property.c:537-548 *)
Definition uecho_property_isreadonly (p : prop) : bool :=
  if negb (uecho_property_isreadable p) then false
  else if uecho_property_iswritable p then false else true.
(* property.c:554-565 *)
Definition uecho_property_iswriteonly (p : prop) : bool :=
  if negb (uecho_property_iswritable p) then false
  else if uecho_property_isreadable p then false else true.
(* property.c:571-580 *)
Definition uecho_property_isannounceable (p : prop) : bool :=
  has_bits (p_attr p) (Z.lor AttrAnno AttrAnnoRequired).
(* property.c:586-595 *)
Definition uecho_property_isannouncerequired (p : prop) : bool :=
  has_bits (p_attr p) AttrAnnoRequired.

(* property.c:694-711 uecho_property_announce, up to the point where the parent
   object and node are looked up.  The result lists the property values handed
   to uecho_node_announceproperty; the node lookup (obj->parentNode) and the
   announcement itself are in M_Node.v.  The return value of the announcement
   is ignored by both callers, so effects can be replayed after the fact. *)
Definition uecho_property_announce (p : prop) : list prop :=
  if p_parent p then [p] else [].

(* property.c:149-169 uecho_property_setdata: new property and announcements *)
Definition uecho_property_setdata (data : list Z) (p : prop) : prop * list prop :=
  let p1 := uecho_property_setcount (length data) p in
  if len data =? 0 then (p1, [])
  else
    let p2 := put_data data p1 in
    (p2, if uecho_property_isannounceable p2 then uecho_property_announce p2 else []).

(* property.c:125-143,175-199 uecho_property_addcount / uecho_property_adddata *)
Definition uecho_property_adddata (data : list Z) (p : prop) : prop * list prop :=
  if len data =? 0 then (p, [])
  else
    let p2 := put_data (p_data p ++ data) p in
    (p2, if uecho_property_isannounceable p2 then uecho_property_announce p2 else []).

(* property.c:205-208 uecho_property_addbytedata *)
Definition uecho_property_addbytedata (b : Z) (p : prop) : prop * list prop :=
  uecho_property_adddata [to_byte b] p.

(* property.c:214-233 uecho_property_setintegerdata.  malloc(0) is taken to
   return a non-NULL pointer (if it returned NULL the function would return
   true without clearing the data). *)
Definition uecho_property_setintegerdata (v : Z) (size : nat) (p : prop)
  : res (prop * list prop) :=
  do bs <- uecho_integer2byte v size ;;
  Ok (uecho_property_setdata bs p).

(* property.c:239-247 uecho_property_getintegerdata *)
Definition uecho_property_getintegerdata (p : prop) : res Z :=
  uecho_byte2integer (p_data p).

(* property.c:253-259 uecho_property_setbytedata *)
Definition uecho_property_setbytedata (b : Z) (p : prop) : prop * list prop :=
  uecho_property_setdata [to_byte b] p.

(* property.c:265-276 uecho_property_getbytedata; None = returns false *)
Definition uecho_property_getbytedata (p : prop) : res (option Z) :=
  if negb (uecho_property_getdatasize p =? 1) then Ok None
  else do b <- rd (p_data p) 0 ;; Ok (Some b).

(* property.c:282-299 uecho_property_getpropertymapcount *)
Definition uecho_property_getpropertymapcount (p : prop) : res (option Z) :=
  if (p_code p =? EPC_AnnoMap) || (p_code p =? EPC_SetMap) || (p_code p =? EPC_GetMap)
  then if uecho_property_getdatasize p <? 1 then Ok None
       else do b <- rd (p_data p) 0 ;; Ok (Some b)
  else Ok None.

(* property.c:305-313 uecho_propertymap_format2bittocode; the additions are
   done in int and stored into a byte *)
Definition uecho_propertymap_format2bittocode (row bit : Z) : Z :=
  to_byte (to_byte (16 * bit + uEchoPropertyCodeMin) + row).

(* property.c:333-335, the format 1 copy loop: propCodes[n] = data[n+1] *)
Fixpoint mapcodes_fmt1 (data : list Z) (n : Z) (cnt : nat) (buf : list (option Z))
  : res (list (option Z)) :=
  match cnt with
  | O => Ok buf
  | S cnt' =>
      do b <- rd data (n + 1) ;;
      do buf' <- wr buf n (Some b) ;;
      mapcodes_fmt1 data (n + 1) cnt' buf'
  end.

(* property.c:348-358, the bit loop over j of one map byte.
   Result: (keep going, index, buffer); keep going = false is "return false". *)
Fixpoint mapcodes_bits (byt row : Z) (j : Z) (cnt : nat) (size idx : Z)
    (buf : list (option Z)) : res (bool * Z * list (option Z)) :=
  match cnt with
  | O => Ok (true, idx, buf)
  | S cnt' =>
      let bit := Z.land (Z.shiftl 1 j) 15 in
      if Z.land byt bit =? 0 then mapcodes_bits byt row (j + 1) cnt' size idx buf
      else if size <=? idx then Ok (false, idx, buf)
      else
        do buf' <- wr buf idx (Some (uecho_propertymap_format2bittocode row j)) ;;
        mapcodes_bits byt row (j + 1) cnt' size (idx + 1) buf'
  end.

(* property.c:346-359, the row loop over i *)
Fixpoint mapcodes_rows (data : list Z) (i : Z) (cnt : nat) (size idx : Z)
    (buf : list (option Z)) : res (bool * list (option Z)) :=
  match cnt with
  | O => Ok (true, buf)
  | S cnt' =>
      do b <- rd data (i + 1) ;;
      do r <- mapcodes_bits b i 0 8 size idx buf ;;
      let '(go, idx', buf') := r in
      if go then mapcodes_rows data (i + 1) cnt' size idx' buf' else Ok (false, buf')
  end.

(* property.c:315-362 uecho_property_getpropertymapcodes(prop, propCodes, size);
   [buf] is the caller's array before the call *)
Definition uecho_property_getpropertymapcodes (p : prop) (buf : list (option Z)) (size : Z)
  : res (bool * list (option Z)) :=
  do c <- uecho_property_getpropertymapcount p ;;
  match c with
  | None => Ok (false, buf)
  | Some count =>
      if negb (count =? size) then Ok (false, buf)
      else if size <=? MapFormat1MaxSize then
        if uecho_property_getdatasize p <? count + 1 then Ok (false, buf)
        else do b <- mapcodes_fmt1 (p_data p) 0 (Z.to_nat count) buf ;; Ok (true, b)
      else if negb (uecho_property_getdatasize p =? MapFormat2Size) then Ok (false, buf)
      else mapcodes_rows (p_data p) 0 (Z.to_nat MapFormat2MapSize) size 0 buf
  end.

(* property.c:623-641 uecho_property_copy: the copy has no parent, so setting
   its data announces nothing *)
Definition uecho_property_copy (src : prop) : prop :=
  fst (uecho_property_setdata (p_data src)
        (uecho_property_setattribute (p_attr src)
          (uecho_property_setcode (p_code src) uecho_property_new))).

(* memcmp of two equally long buffers; on two NULL pointers with size 0 the C
   library call is formally undefined but always yields 0 in practice, and the
   model returns 0 *)
Fixpoint bytes_eqb (a b : list Z) : bool :=
  match a, b with
  | [], [] => true
  | x :: a', y :: b' => (x =? y) && bytes_eqb a' b'
  | _, _ => false
  end.

(* property.c:647-665 uecho_property_equals *)
Definition uecho_property_equals (p q : prop) : bool :=
  (p_code p =? p_code q) && (p_attr p =? p_attr q)
  && (uecho_property_getdatasize p =? uecho_property_getdatasize q)
  && bytes_eqb (p_data p) (p_data q).

(* property.c:717-726 uecho_property_isdataequal *)
Definition uecho_property_isdataequal (p : prop) (data : list Z) : bool :=
  if negb (uecho_property_getdatasize p =? len data) then false
  else bytes_eqb (p_data p) data.
