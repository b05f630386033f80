(* Model of src/uecho/object.c, src/uecho/std/object_super_class.c and
   src/uecho/frame/object_property_observer_manager.c.

   Not modelled: the object name, allocation failure, NULL object arguments (all
   functions return at once).  Deleting an object is not modelled. *)
From Coq Require Import ZArith List Bool.
From Verif Require Import CSem M_Const M_Misc M_Property M_PropertyList.
Import ListNotations.
Open Scope Z_scope.

(* frame/object_property_observer.h: esv, propCode, handler; a handler is named
   by a number, None is a NULL handler *)
Record observer : Type := mkObs {
  ob_esv : Z;
  ob_code : Z;
  ob_handler : option nat
}.

(* src/uecho/_object.h.
   code[3]; properties; getPropMapSize (the other two sizes and all three byte
   pointers are reset before every use, see clearpropertymapcaches); parentNode
   (NULL or the node that holds the object); allMsgListener; propListenerMgr. *)
Record obj : Type := mkObj {
  o_grp : Z;
  o_cls : Z;
  o_ins : Z;
  o_props : list prop;
  o_getsz : nat;
  o_attached : bool;
  o_listener : bool;
  o_obs : list observer
}.

Definition o_with_props (l : list prop) (o : obj) : obj :=
  mkObj (o_grp o) (o_cls o) (o_ins o) l (o_getsz o) (o_attached o) (o_listener o) (o_obs o).
Definition o_with_code (g c i : Z) (o : obj) : obj :=
  mkObj g c i (o_props o) (o_getsz o) (o_attached o) (o_listener o) (o_obs o).
Definition o_with_getsz (n : nat) (o : obj) : obj :=
  mkObj (o_grp o) (o_cls o) (o_ins o) (o_props o) n (o_attached o) (o_listener o) (o_obs o).
Definition o_with_obs (l : list observer) (o : obj) : obj :=
  mkObj (o_grp o) (o_cls o) (o_ins o) (o_props o) (o_getsz o) (o_attached o) (o_listener o) l.

(* object.c:26-69 uecho_object_new *)
Definition uecho_object_new : obj := mkObj 0 0 0 [] 0 false false [].

(* object.c uecho_object_setparentnode, non-NULL node *)
Definition uecho_object_attach (o : obj) : obj :=
  mkObj (o_grp o) (o_cls o) (o_ins o) (o_props o) (o_getsz o) true (o_listener o) (o_obs o).

(* object.c:615-621 uecho_object_setmessagelistener *)
Definition uecho_object_setmessagelistener (b : bool) (o : obj) : obj :=
  mkObj (o_grp o) (o_cls o) (o_ins o) (o_props o) (o_getsz o) (o_attached o) b (o_obs o).

(* object.c:221-234 uecho_object_getcode; all operands are below 2^24 *)
Definition uecho_object_getcode (o : obj) : Z :=
  Z.lor (Z.lor (Z.lor 0 (Z.land (Z.shiftl (o_grp o) 16) 16711680))
               (Z.land (Z.shiftl (o_cls o) 8) 65280))
        (Z.land (o_ins o) 255).

(* object.c:240-243 uecho_object_iscode *)
Definition uecho_object_iscode (o : obj) (code : Z) : bool := uecho_object_getcode o =? code.

(* object.c:325-331 uecho_object_isdevice *)
Definition uecho_object_isdevice (o : obj) : bool := uecho_isdeviceclassgroupcode (o_grp o).
(* object.c:337-343 uecho_object_isprofile *)
Definition uecho_object_isprofile (o : obj) : bool := uecho_isprofileclassgroupcode (o_grp o).

(* ---- properties ---- *)

(* object.c:487-493 uecho_object_getproperties *)
Definition uecho_object_getproperties (o : obj) : list prop := o_props o.

(* object.c:511-517 uecho_object_getproperty *)
Definition uecho_object_getproperty (o : obj) (code : Z) : option prop :=
  uecho_propertylist_findbycode (o_props o) code.

(* object.c:499-505 uecho_object_hasproperty *)
Definition uecho_object_hasproperty (o : obj) (code : Z) : bool :=
  match uecho_object_getproperty o code with Some _ => true | None => false end.

(* object.c:542-548 uecho_object_getpropertycount *)
Definition uecho_object_getpropertycount (o : obj) : Z := len (o_props o).

(* object.c:400-409 uecho_object_addproperty *)
Definition uecho_object_addproperty (o : obj) (p : prop) : obj :=
  o_with_props (uecho_propertylist_add (o_props o) (uecho_property_setparentobject true p)) o.

(* object.c:349-358 uecho_propertymap_codetoformat2 *)
Definition uecho_propertymap_codetoformat2 (code : Z) : option (Z * Z) :=
  if (code <? uEchoPropertyCodeMin) || (255 <? code) then None
  else Some (Z.land (code - uEchoPropertyCodeMin) 15 + 1,
             Z.land (Z.shiftr (Z.land (code - uEchoPropertyCodeMin) 240) 4) 15).

(* object.c:380-388, the format 2 loop; [data] is propMapData[17] *)
Fixpoint map_format2 (codes : list Z) (data : list Z) : res (list Z) :=
  match codes with
  | [] => Ok data
  | c :: r =>
      match uecho_propertymap_codetoformat2 c with
      | None => map_format2 r data
      | Some (row, bit) =>
          do b <- rd data row ;;
          do data' <- wr data row (to_byte (Z.lor b (Z.land (Z.shiftl 1 bit) 15))) ;;
          map_format2 r data'
      end
  end.

(* object.c:360-394 uecho_object_setpropertymap.
   [codes] is the array propCodes of propsCodeSize bytes; None is a NULL pointer with
   a nonzero size (memcpy from, or read through, NULL).  A NULL pointer with size 0 is
   [Some []]: memcpy of 0 bytes copies nothing. *)
Definition uecho_object_setpropertymap (o : obj) (mapCode : Z) (codes : option (list Z))
  : res (obj * list prop) :=
  match codes with
  | None => Undef UB_null
  | Some cs =>
      let d0 := to_byte (len cs) in
      if len cs <=? MapFormat1MaxSize then
        let '(l, ann) := uecho_propertylist_set (o_props o) mapCode AttrRead (d0 :: cs) in
        Ok (o_with_props l o, ann)
      else
        do data <- map_format2 cs (d0 :: repeat 0 (Z.to_nat MapFormat2MapSize)) ;;
        let '(l, ann) := uecho_propertylist_setdata (o_props o) mapCode data in
        Ok (o_with_props l o, ann)
  end.

(* std/object_super_class.c:94-116 uecho_object_clearpropertymapcaches: every byte
   pointer becomes NULL, annoPropMapSize and setPropMapSize become 0.  Line 115
   assigns the get pointer a second time instead of its size, so getPropMapSize keeps
   its value. *)
Definition uecho_object_clearpropertymapcaches (o : obj) : obj := o.

(* std/object_super_class.c:41-88 uecho_object_updatepropertymaps.
   [junk i] is the indeterminate content of byte i of the block realloc'ed for the get
   map: with a stale size k the first readable property is stored at index k and bytes
   0..k-1 are never written.  Without readable property the pointer stays NULL. *)
Definition get_cache (junk : nat -> Z) (k : nat) (l : list prop) : option (list Z) :=
  let cs := map p_code (filter uecho_property_isreadable l) in
  match cs with
  | [] => match k with O => Some [] | S _ => None end
  | _ => Some (map junk (seq 0 k) ++ cs)
  end.

Definition uecho_object_updatepropertymaps (junk : nat -> Z) (o0 : obj)
  : res (obj * list prop) :=
  let o := uecho_object_clearpropertymapcaches o0 in
  let l := o_props o in
  let rds := filter uecho_property_isreadable l in
  let get := get_cache junk (o_getsz o) l in
  let set := map p_code (filter uecho_property_iswritable l) in
  let anno := map p_code (filter uecho_property_isannounceable l) in
  let o1 := o_with_getsz (o_getsz o + length rds) o in
  do r1 <- uecho_object_setpropertymap o1 EPC_GetMap get ;;
  let '(o2, a1) := r1 in
  do r2 <- uecho_object_setpropertymap o2 EPC_SetMap (Some set) ;;
  let '(o3, a2) := r2 in
  do r3 <- uecho_object_setpropertymap o3 EPC_AnnoMap (Some anno) ;;
  let '(o4, a3) := r3 in
  Ok (o4, a1 ++ a2 ++ a3).

(* object.c:415-433 uecho_object_setproperty: an existing property loses its data
   (property_setdata(prop, NULL, 0)) *)
Definition uecho_object_setproperty (junk : nat -> Z) (o : obj) (code attr : Z)
  : res (obj * list prop) :=
  let '(l, ann) := uecho_propertylist_set (o_props o) code attr [] in
  let l' := update_first code (uecho_property_setparentobject true) l in
  do r <- uecho_object_updatepropertymaps junk (o_with_props l' o) ;;
  let '(o', ann') := r in
  Ok (o', ann ++ ann').

(* object.c:439-445 uecho_object_setpropertydata *)
Definition uecho_object_setpropertydata (o : obj) (code : Z) (data : list Z)
  : obj * list prop :=
  let '(l, ann) := uecho_propertylist_setdata (o_props o) code data in
  (o_with_props l o, ann).

(* object.c:451-457 uecho_object_setpropertyintegerdata *)
Definition uecho_object_setpropertyintegerdata (o : obj) (code v : Z) (size : nat)
  : res (obj * list prop) :=
  do r <- uecho_propertylist_setintegerdata (o_props o) code v size ;;
  let '(l, ann) := r in
  Ok (o_with_props l o, ann).

(* object.c:463-469 uecho_object_setpropertybytedata *)
Definition uecho_object_setpropertybytedata (o : obj) (code b : Z) : obj * list prop :=
  let '(l, ann) := uecho_propertylist_setbytedata (o_props o) code b in
  (o_with_props l o, ann).

(* object.c:475-481 uecho_object_setpropertyattribute *)
Definition uecho_object_setpropertyattribute (o : obj) (code attr : Z) : obj :=
  o_with_props (uecho_propertylist_setattribute (o_props o) code attr) o.

(* object.c:554-561 uecho_object_clearproperties *)
Definition uecho_object_clearproperties (o : obj) : obj :=
  uecho_object_clearpropertymapcaches (o_with_props [] o).

(* object.c:567-573 uecho_object_getpropertydatasize *)
Definition uecho_object_getpropertydatasize (o : obj) (code : Z) : obj * Z :=
  let '(l, v) := uecho_propertylist_getdatasize (o_props o) code in (o_with_props l o, v).
(* object.c:579-585 uecho_object_getpropertydata *)
Definition uecho_object_getpropertydata (o : obj) (code : Z) : obj * list Z :=
  let '(l, v) := uecho_propertylist_getdata (o_props o) code in (o_with_props l o, v).
(* object.c:591-597 uecho_object_getpropertyintegerdata *)
Definition uecho_object_getpropertyintegerdata (o : obj) (code : Z) : res (obj * Z) :=
  do r <- uecho_propertylist_getintegerdata (o_props o) code ;;
  let '(l, v) := r in Ok (o_with_props l o, v).
(* object.c:603-609 uecho_object_getpropertybytedata *)
Definition uecho_object_getpropertybytedata (o : obj) (code : Z) : res (obj * option Z) :=
  do r <- uecho_propertylist_getbytedata (o_props o) code ;;
  let '(l, v) := r in Ok (o_with_props l o, v).

(* uecho_property_setdata (property.c:149-169) called by the user on the pointer
   returned by uecho_object_getproperty; nothing happens on a NULL pointer *)
Definition object_property_setdata (o : obj) (code : Z) (data : list Z) : obj * list prop :=
  match uecho_object_getproperty o code with
  | None => (o, [])
  | Some p =>
      let '(p1, ann) := uecho_property_setdata data p in
      (o_with_props (update_first code (fun _ => p1) (o_props o)) o, ann)
  end.

(* uecho_property_adddata (property.c:175-199) in the same way *)
Definition object_property_adddata (o : obj) (code : Z) (data : list Z) : obj * list prop :=
  match uecho_object_getproperty o code with
  | None => (o, [])
  | Some p =>
      let '(p1, ann) := uecho_property_adddata data p in
      (o_with_props (update_first code (fun _ => p1) (o_props o)) o, ann)
  end.

(* ---- standard properties ---- *)

(* object.c:765-782 uecho_object_addmissingobjectproperties *)
Fixpoint addmissing (o : obj) (src : list prop) : obj :=
  match src with
  | [] => o
  | p :: r =>
      if uecho_object_hasproperty o (p_code p) then addmissing o r
      else addmissing (uecho_object_addproperty o (uecho_property_copy p)) r
  end.
Definition uecho_object_addmissingobjectproperties (o src : obj) : obj :=
  addmissing o (o_props src).

(* object_list.c:68-84 uecho_objectlist_getbygroupclasscode,
   std/database.c:96-101 uecho_database_getobject: first match *)
Fixpoint uecho_database_getobject (db : list obj) (grp cls : Z) : option obj :=
  match db with
  | [] => None
  | o :: r =>
      if (o_grp o =? grp) && (o_cls o =? cls) then Some o
      else uecho_database_getobject r grp cls
  end.

(* object.c:164-186 uecho_object_addstandardpropertieswithcode; the database is a
   parameter (StdDB.v) *)
Definition uecho_object_addstandardpropertieswithcode (db : list obj) (o : obj) (grp cls : Z)
  : obj * bool :=
  match uecho_database_getobject db grp cls with
  | None => (o, false)
  | Some src => (uecho_object_addmissingobjectproperties o src, true)
  end.

(* object.c:188-198 uecho_object_addstandardproperties *)
Definition uecho_object_addstandardproperties (db : list obj) (o : obj) : obj * bool :=
  let '(o1, b1) := uecho_object_addstandardpropertieswithcode db o 0 0 in
  let '(o2, b2) := uecho_object_addstandardpropertieswithcode db o1 (o_grp o1) (o_cls o1) in
  (o2, b1 && b2).

(* object.c:204-215 uecho_object_setcode *)
Definition uecho_object_setcode (db : list obj) (junk : nat -> Z) (o : obj) (val : Z)
  : res (obj * list prop) :=
  let o1 := o_with_code (Z.shiftr (Z.land val 16711680) 16)
                        (Z.shiftr (Z.land val 65280) 8)
                        (Z.land val 255) o in
  uecho_object_updatepropertymaps junk (fst (uecho_object_addstandardproperties db o1)).

(* object.c:249-257 uecho_object_setgroupcode; the argument is a byte *)
Definition uecho_object_setgroupcode (db : list obj) (o : obj) (v : Z) : obj :=
  fst (uecho_object_addstandardproperties db (o_with_code v (o_cls o) (o_ins o) o)).
(* object.c:275-283 uecho_object_setclasscode *)
Definition uecho_object_setclasscode (db : list obj) (o : obj) (v : Z) : obj :=
  fst (uecho_object_addstandardproperties db (o_with_code (o_grp o) v (o_ins o) o)).
(* object.c:301-307 uecho_object_setinstancecode *)
Definition uecho_object_setinstancecode (o : obj) (v : Z) : obj :=
  o_with_code (o_grp o) (o_cls o) v o.

(* std/object_super_class.c:20-23 uecho_object_setmanufacturercode *)
Definition uecho_object_setmanufacturercode (o : obj) (code : Z) : res (obj * list prop) :=
  uecho_object_setpropertyintegerdata o EPC_ManufacturerCode code 3.
(* std/object_super_class.c:29-35 uecho_object_getmanufacturercode; the getter only
   fails for a NULL object *)
Definition uecho_object_getmanufacturercode (o : obj) : res (obj * Z) :=
  uecho_object_getpropertyintegerdata o EPC_ManufacturerCode.

(* ---- request handlers ---- *)

(* frame/object_property_observer_manager.c:79-91 uecho_object_property_observer_manager_getobserver *)
Fixpoint obs_find (l : list observer) (esv code : Z) : option observer :=
  match l with
  | [] => None
  | b :: r => if (ob_esv b =? esv) && (ob_code b =? code) then Some b else obs_find r esv code
  end.

Fixpoint obs_remove (l : list observer) (esv code : Z) : list observer :=
  match l with
  | [] => []
  | b :: r => if (ob_esv b =? esv) && (ob_code b =? code) then r else b :: obs_remove r esv code
  end.

(* frame/object_property_observer_manager.c:45-64 uecho_object_property_observer_manager_setobserver:
   the first observer with that service and code is removed, the new one appended *)
Definition uecho_object_property_observer_manager_setobserver
    (l : list observer) (esv code : Z) (h : option nat) : list observer :=
  match obs_find l esv code with
  | Some _ => obs_remove l esv code ++ [mkObs esv code h]
  | None => l ++ [mkObs esv code h]
  end.

(* object.c:651-657 uecho_object_setpropertyrequesthandler *)
Definition uecho_object_setpropertyrequesthandler (o : obj) (esv code : Z) (h : option nat) : obj :=
  o_with_obs (uecho_object_property_observer_manager_setobserver (o_obs o) esv code h) o.

(* object.c:663-675 uecho_object_getpropertyrequestlistener *)
Definition uecho_object_getpropertyrequestlistener (o : obj) (esv code : Z) : option nat :=
  match obs_find (o_obs o) esv code with Some b => ob_handler b | None => None end.

(* object.c:690-699 uecho_object_setpropertywriterequesthandler *)
Definition uecho_object_setpropertywriterequesthandler (o : obj) (code : Z) (h : option nat) : obj :=
  uecho_object_setpropertyrequesthandler
    (uecho_object_setpropertyrequesthandler
      (uecho_object_setpropertyrequesthandler o ESV_SetI code h)
      ESV_SetC code h)
    ESV_SetGet code h.

(* object.c:705-714 uecho_object_setpropertyreadhandler *)
Definition uecho_object_setpropertyreadhandler (o : obj) (code : Z) (h : option nat) : obj :=
  uecho_object_setpropertyrequesthandler
    (uecho_object_setpropertyrequesthandler
      (uecho_object_setpropertyrequesthandler o ESV_Get code h)
      ESV_INF_REQ code h)
    ESV_SetGet code h.
