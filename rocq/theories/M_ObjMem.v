(* The memory behind objects: object.c, property_list.c, object_list.c, util/list.c, std/object_super_class.c,
   frame/object_property_observer.c, object_property_observer_list.c and object_property_observer_manager.c, with explicit
   pointers on the heap of M_Mem.v.  M_Object.v and M_PropertyList.v model the same functions on values.

   A list has fewer elements than blocks were ever allocated; a walk along more is endless (UB_loop).  [junk i] is the
   content of byte i of a block that realloc gave and nobody has written yet.  A struct on the stack is a block that is
   given back at the end of the call.  Objects are in no node here: parentNode is NULL (M_NodeMem.v has
   the objects of a node). *)
From Coq Require Import ZArith List Bool.
From Verif Require Import CSem M_Const M_Misc M_String M_Property M_PropertyList M_Object M_Mem M_MemUse.
Import ListNotations.
Open Scope Z_scope.

(* ---- lists ---- *)

(* a loop along a list *)
Definition walk {A : Type} (f : nat -> mm A) : mm A := fun h => f (Z.to_nat (h_next h)) h.

(* list.c:214-226 uecho_list_next *)
Definition uecho_list_next (a : Z) : mm Z :=
  if a =? 0 then ret 0
  else
    let! l := load_links a in
    let '(_, _, n) := l in
    if n =? 0 then ret 0
    else
      let! l2 := load_links n in
      let '(f, _, _) := l2 in
      if f : bool then ret 0 else ret n.

(* list.c:88-101 uecho_list_insert *)
Definition uecho_list_insert (prev a : Z) : mm bool :=
  if (prev =? 0) || (a =? 0) then ret false
  else
    let! _ := set_prev a prev in
    let! l := load_links prev in
    let! _ := set_next a (snd l) in
    let! l := load_links prev in
    let! _ := set_prev (snd l) a in
    let! _ := set_next prev a in
    ret true.

(* list.c:107-120 uecho_list_add *)
Definition uecho_list_add (head a : Z) : mm bool :=
  if (head =? 0) || (a =? 0) then ret false
  else
    let! l := load_links head in
    let '(_, p, _) := l in
    if p =? 0 then ret false
    else let! _ := uecho_list_insert p a in ret true.

(* list.c:232-253 uecho_list_clear; [del] is the destructor *)
Fixpoint clear_loop (del : Z -> mm unit) (n : nat) (a : Z) : mm unit :=
  if a =? 0 then ret tt
  else
    match n with
    | O => wrong UB_loop
    | S k =>
        let! next := uecho_list_next a in
        let! _ := uecho_list_remove a in
        let! _ := del a in
        clear_loop del k next
    end.
Definition uecho_list_clear (head : Z) (del : Z -> mm unit) : mm bool :=
  if head =? 0 then ret false
  else
    let! a := uecho_list_next head in
    let! _ := walk (fun n => clear_loop del n a) in
    ret true.

(* the loops of the functions that look for an element: [hit] tells whether it is the one *)
Fixpoint find_loop (hit : Z -> mm bool) (n : nat) (a : Z) : mm Z :=
  if a =? 0 then ret 0
  else
    match n with
    | O => wrong UB_loop
    | S k =>
        let! b := hit a in
        if b : bool then ret a else let! a' := uecho_list_next a in find_loop hit k a'
    end.
Definition find_in (head : Z) (hit : Z -> mm bool) : mm Z :=
  let! a := uecho_list_next head in walk (fun n => find_loop hit n a).

Section Room.
Variable room : Z -> bool.
Variable junk : nat -> Z.

(* realloc of bytes, 0 < n *)
Definition realloc_bytes (a n : Z) : mm Z :=
  if a =? 0 then malloc room (fun _ => BBytes (map (fun i => Some (junk i)) (seq 0 (Z.to_nat n))))
  else
    let! l := load_bytes a in
    let! a' := malloc room (fun _ => BBytes (firstn (Z.to_nat n) l
                 ++ map (fun i => Some (junk i)) (seq (length l) (Z.to_nat n - length l)))) in
    if a' =? 0 then ret 0 else let! _ := mfree a in ret a'.

(* ---- properties ---- *)

(* property.c:76-84 uecho_property_setparentobject *)
Definition uecho_property_setparentobject (p obj : Z) : mm bool :=
  if p =? 0 then ret false
  else
    let! q := load_prop p in
    let! _ := store p (BProp (mkCprop (q_prev q) (q_next q) (q_name q) (q_code q) (q_attr q) (q_data q) (q_size q) obj)) in
    ret true.

(* property.c:125-143 uecho_property_addcount; if realloc fails the old data are lost *)
Definition uecho_property_addcount (p n : Z) : mm bool :=
  if p =? 0 then ret false
  else if n =? 0 then ret true
  else
    let! q := load_prop p in
    let n' := sz (q_size q + n) in
    let! d := realloc_bytes (q_data q) n' in
    let! _ := store p (BProp (mkCprop (q_prev q) (q_next q) (q_name q) (q_code q) (q_attr q) d (q_size q) (q_parent q))) in
    if d =? 0 then ret false
    else
      let! _ := store p (BProp (mkCprop (q_prev q) (q_next q) (q_name q) (q_code q) (q_attr q) d n' (q_parent q))) in
      ret true.

(* property.c:175-199 uecho_property_adddata *)
Definition uecho_property_adddata (p data n : Z) : mm bool :=
  if p =? 0 then ret false
  else if n =? 0 then ret true
  else
    let! q := load_prop p in
    let curr := q_size q in
    let! ok := uecho_property_addcount p n in
    if negb ok then ret false
    else
      let! q := load_prop p in
      let! _ := copy_bytes (q_data q) curr data 0 n in
      let! q := load_prop p in
      let! _ := (if has_bits (q_attr q) (Z.lor AttrAnno AttrAnnoRequired) then uecho_property_announce p else ret false) in
      ret true.

(* property.c:253-259 uecho_property_setbytedata: the address of the argument is passed on *)
Definition uecho_property_setbytedata (p b : Z) : mm bool :=
  if p =? 0 then ret false
  else given [to_byte b] (fun d => M_Mem.uecho_property_setdata room p d 0 1).

(* property.c:214-233 uecho_property_setintegerdata; uecho_integer2byte fills the block (M_Misc.v) *)
Definition uecho_property_setintegerdata (p v : Z) (size : nat) : mm bool :=
  if p =? 0 then ret false
  else
    let! b := malloc room (fun _ => BBytes (fresh_buf (Z.of_nat size))) in
    if b =? 0 then ret true
    else
      let! bs := lift (uecho_integer2byte v size) in
      let! _ := store b (BBytes (map Some bs)) in
      let! ok := M_Mem.uecho_property_setdata room p b 0 (Z.of_nat size) in
      let! _ := mfree b in
      ret ok.

(* ---- property lists ---- *)

(* property_list.c:17-28 uecho_propertylist_new *)
Definition uecho_propertylist_new : mm Z := malloc room (fun a => BHead a a).

Definition property_destructor (p : Z) : mm unit := let! _ := M_Mem.uecho_property_delete p in ret tt.
(* property_list.c:34-42 uecho_propertylist_delete *)
Definition uecho_propertylist_delete (props : Z) : mm unit :=
  if props =? 0 then ret tt
  else let! _ := uecho_list_clear props property_destructor in mfree props.

(* property_list.c:48-61 uecho_propertylist_findbycode *)
Definition uecho_propertylist_findbycode (props code : Z) : mm Z :=
  if props =? 0 then ret 0
  else find_in props (fun p => let! q := load_prop p in ret (q_code q =? code)).

(* property_list.c:92-106 uecho_propertylist_add *)
Definition uecho_propertylist_add (props p : Z) : mm bool :=
  if (props =? 0) || (p =? 0) then ret false
  else
    let! q := load_prop p in
    let! old := uecho_propertylist_findbycode props (q_code q) in
    let! _ := (if old =? 0 then ret false
               else let! _ := M_Mem.uecho_property_remove old in M_Mem.uecho_property_delete old) in
    uecho_list_add props p.

(* property_list.c:67-86 uecho_propertylist_getbycode *)
Definition uecho_propertylist_getbycode (props code : Z) : mm Z :=
  if props =? 0 then ret 0
  else
    let! p := uecho_propertylist_findbycode props code in
    if negb (p =? 0) then ret p
    else
      let! p := M_Mem.uecho_property_new room in
      if p =? 0 then ret 0
      else
        let! _ := M_Mem.uecho_property_setcode p code in
        let! _ := uecho_propertylist_add props p in
        ret p.

(* property_list.c:112-127 uecho_propertylist_set *)
Definition uecho_propertylist_set (props code attr data n : Z) : mm bool :=
  if props =? 0 then ret false
  else
    let! p := uecho_propertylist_getbycode props code in
    if p =? 0 then ret false
    else
      let! _ := M_Mem.uecho_property_setdata room p data 0 n in
      let! _ := M_Mem.uecho_property_setattribute p attr in
      ret true.

(* property_list.c:133-147 uecho_propertylist_setdata *)
Definition uecho_propertylist_setdata (props code data n : Z) : mm bool :=
  if props =? 0 then ret false
  else
    let! p := uecho_propertylist_getbycode props code in
    if p =? 0 then ret false
    else let! _ := M_Mem.uecho_property_setdata room p data 0 n in ret true.

(* property_list.c:153-165 uecho_propertylist_setintegerdata *)
Definition uecho_propertylist_setintegerdata (props code v : Z) (size : nat) : mm bool :=
  if props =? 0 then ret false
  else
    let! p := uecho_propertylist_getbycode props code in
    if p =? 0 then ret false else uecho_property_setintegerdata p v size.

(* property_list.c:171-183 uecho_propertylist_setbytedata *)
Definition uecho_propertylist_setbytedata (props code b : Z) : mm bool :=
  if props =? 0 then ret false
  else
    let! p := uecho_propertylist_getbycode props code in
    if p =? 0 then ret false else uecho_property_setbytedata p b.

(* property_list.c:189-203 uecho_propertylist_setattribute *)
Definition uecho_propertylist_setattribute (props code attr : Z) : mm bool :=
  if props =? 0 then ret false
  else
    let! p := uecho_propertylist_getbycode props code in
    if p =? 0 then ret false
    else let! _ := M_Mem.uecho_property_setattribute p attr in ret true.

(* property_list.c:209-221 uecho_propertylist_getdatasize *)
Definition uecho_propertylist_getdatasize (props code : Z) : mm Z :=
  if props =? 0 then ret 0
  else
    let! p := uecho_propertylist_getbycode props code in
    if p =? 0 then ret 0 else let! q := load_prop p in ret (to_byte (q_size q)).

(* ---- observers of properties ---- *)

(* object_property_observer_manager.c:17-28 uecho_object_property_observer_manager_new, with
   object_property_observer_list.c:17-28 uecho_object_property_observerlist_new *)
Definition uecho_object_property_observer_manager_new : mm Z :=
  let! m := malloc room (fun _ => BMgr 0) in
  if m =? 0 then ret 0
  else
    let! l := malloc room (fun a => BHead a a) in
    let! _ := store m (BMgr l) in
    ret m.

Definition load_mgr (a : Z) : mm Z := let! b := load a in match b with BMgr l => ret l | _ => wrong UB_read end.
Definition load_obs (a : Z) : mm cobs := let! b := load a in match b with BObs w => ret w | _ => wrong UB_read end.

(* object_property_observer.c:38-43 uecho_object_property_observer_delete *)
Definition uecho_object_property_observer_delete (w : Z) : mm unit :=
  let! _ := uecho_list_remove w in mfree w.

(* object_property_observer_manager.c:34-39 uecho_object_property_observer_manager_delete, with
   object_property_observer_list.c:34-39 uecho_object_property_observerlist_delete *)
Definition uecho_object_property_observer_manager_delete (m : Z) : mm unit :=
  let! l := load_mgr m in
  let! _ := uecho_list_clear l uecho_object_property_observer_delete in
  let! _ := mfree l in
  mfree m.

(* object_property_observer_manager.c:79-91 uecho_object_property_observer_manager_getobserver *)
Definition uecho_object_property_observer_manager_getobserver (m esv code : Z) : mm Z :=
  let! l := load_mgr m in
  find_in l (fun w => let! c := load_obs w in ret ((w_esv c =? esv) && (w_code c =? code))).

(* object_property_observer_manager.c:45-64 uecho_object_property_observer_manager_setobserver, with
   object_property_observer.c:17-32 uecho_object_property_observer_new *)
Definition uecho_object_property_observer_manager_setobserver (m esv code : Z) (handler : option nat) : mm bool :=
  let! w := uecho_object_property_observer_manager_getobserver m esv code in
  let! _ := (if w =? 0 then ret tt
             else let! _ := uecho_list_remove w in uecho_object_property_observer_delete w) in
  let! w := malloc room (fun a => BObs (mkCobs a a esv code handler)) in
  if w =? 0 then ret false
  else let! l := load_mgr m in uecho_list_add l w.

(* ---- objects ---- *)

Definition j_with_code (g c i : Z) (o : cobj) : cobj :=
  mkCobj (j_prev o) (j_next o) (j_name o) g c i (j_props o) (j_annon o) (j_anno o) (j_setn o) (j_set o) (j_getn o) (j_get o)
         (j_listener o) (j_mgr o) (j_node o).
Definition j_with_anno (n b : Z) (o : cobj) : cobj :=
  mkCobj (j_prev o) (j_next o) (j_name o) (j_grp o) (j_cls o) (j_ins o) (j_props o) n b (j_setn o) (j_set o) (j_getn o) (j_get o)
         (j_listener o) (j_mgr o) (j_node o).
Definition j_with_set (n b : Z) (o : cobj) : cobj :=
  mkCobj (j_prev o) (j_next o) (j_name o) (j_grp o) (j_cls o) (j_ins o) (j_props o) (j_annon o) (j_anno o) n b (j_getn o) (j_get o)
         (j_listener o) (j_mgr o) (j_node o).
Definition j_with_get (n b : Z) (o : cobj) : cobj :=
  mkCobj (j_prev o) (j_next o) (j_name o) (j_grp o) (j_cls o) (j_ins o) (j_props o) (j_annon o) (j_anno o) (j_setn o) (j_set o) n b
         (j_listener o) (j_mgr o) (j_node o).
Definition j_with_listener (b : bool) (o : cobj) : cobj :=
  mkCobj (j_prev o) (j_next o) (j_name o) (j_grp o) (j_cls o) (j_ins o) (j_props o) (j_annon o) (j_anno o) (j_setn o) (j_set o)
         (j_getn o) (j_get o) b (j_mgr o) (j_node o).

(* std/object_super_class.c:94-116 uecho_object_clearpropertymapcaches; the size of the get map keeps its value *)
Definition uecho_object_clearpropertymapcaches (obj : Z) : mm unit :=
  if obj =? 0 then ret tt
  else
    let! o := load_obj obj in
    let! _ := (if j_anno o =? 0 then ret tt else mfree (j_anno o)) in
    let! _ := store obj (BObj (j_with_anno 0 0 o)) in
    let! o := load_obj obj in
    let! _ := (if j_set o =? 0 then ret tt else mfree (j_set o)) in
    let! _ := store obj (BObj (j_with_set 0 0 o)) in
    let! o := load_obj obj in
    let! _ := (if j_get o =? 0 then ret tt else mfree (j_get o)) in
    store obj (BObj (j_with_get (j_getn o) 0 o)).

(* object.c:75-99 uecho_object_delete *)
Definition uecho_object_delete (obj : Z) : mm bool :=
  if obj =? 0 then ret false
  else
    let! _ := uecho_list_remove obj in
    let! o := load_obj obj in
    let! _ := (if j_name o =? 0 then ret tt else uecho_string_delete (j_name o)) in
    let! _ := uecho_object_clearpropertymapcaches obj in
    let! o := load_obj obj in
    let! _ := (if j_props o =? 0 then ret tt else uecho_propertylist_delete (j_props o)) in
    let! _ := (if j_mgr o =? 0 then ret tt else uecho_object_property_observer_manager_delete (j_mgr o)) in
    let! _ := mfree obj in
    ret true.

(* object.c:26-69 uecho_object_new; the struct is filled in once its parts are allocated *)
Definition uecho_object_new : mm Z :=
  let! a := malloc room (fun a => BObj (mkCobj a a 0 0 0 0 0 0 0 0 0 0 0 false 0 0)) in
  if a =? 0 then ret 0
  else
    let! nm := uecho_string_new room in
    let! pl := uecho_propertylist_new in
    let! mg := uecho_object_property_observer_manager_new in
    let! _ := store a (BObj (mkCobj a a nm 0 0 0 pl 0 0 0 0 0 0 false mg 0)) in
    if (nm =? 0) || (pl =? 0) || (mg =? 0) then let! _ := uecho_object_delete a in ret 0
    else ret a.

(* object.c:140-146 uecho_object_setname, object.c:152-158 uecho_object_getname *)
Definition uecho_object_setname (obj name : Z) : mm unit :=
  if obj =? 0 then ret tt else let! o := load_obj obj in uecho_string_setvalue room (j_name o) name.
Definition uecho_object_getname (obj : Z) : mm Z :=
  if obj =? 0 then ret 0 else let! o := load_obj obj in uecho_string_getvalue (j_name o).

(* object.c:511-517 uecho_object_getproperty *)
Definition uecho_object_getproperty (obj code : Z) : mm Z :=
  if obj =? 0 then ret 0 else let! o := load_obj obj in uecho_propertylist_findbycode (j_props o) code.
(* object.c:487-493 uecho_object_getproperties *)
Definition uecho_object_getproperties (obj : Z) : mm Z :=
  if obj =? 0 then ret 0 else let! o := load_obj obj in uecho_list_next (j_props o).

(* object.c:400-409 uecho_object_addproperty *)
Definition uecho_object_addproperty (obj p : Z) : mm bool :=
  if (obj =? 0) || (p =? 0) then ret false
  else
    let! ok := uecho_property_setparentobject p obj in
    if negb ok then ret false
    else let! o := load_obj obj in uecho_propertylist_add (j_props o) p.

(* object.c:380-388, the format 2 loop of uecho_object_setpropertymap; [k] turns from index n *)
Fixpoint format2_loop (buf codes n : Z) (k : nat) : mm unit :=
  match k with
  | O => ret tt
  | S k' =>
      let! c := peek codes n in
      let! _ := (match uecho_propertymap_codetoformat2 c with
                 | None => ret tt
                 | Some (row, bit) =>
                     let! b := peek buf row in
                     poke buf row (to_byte (Z.lor b (Z.land (Z.shiftl 1 bit) 15)))
                 end) in
      format2_loop buf codes (n + 1) k'
  end.

(* object.c:360-394 uecho_object_setpropertymap *)
Definition uecho_object_setpropertymap (obj mapCode codes n : Z) : mm bool :=
  if obj =? 0 then ret false
  else
    let! buf := malloc (fun _ => true) (fun _ => BBytes (fresh_buf MapFormat2Size)) in
    let! _ := poke buf 0 (to_byte n) in
    let! _ := (if n <=? MapFormat1MaxSize then
                 let! _ := copy_bytes buf 1 codes 0 n in
                 let! o := load_obj obj in
                 uecho_propertylist_set (j_props o) mapCode AttrRead buf (n + 1)
               else
                 let! l := load_bytes buf in
                 let! l' := lift (wr_range l 1 (repeat (Some 0) (Z.to_nat MapFormat2MapSize))) in
                 let! _ := store buf (BBytes l') in
                 let! _ := format2_loop buf codes 0 (Z.to_nat n) in
                 let! o := load_obj obj in
                 uecho_propertylist_setdata (j_props o) mapCode buf MapFormat2Size) in
    let! _ := mfree buf in
    ret true.

(* std/object_super_class.c:53-80, the loop of uecho_object_updatepropertymaps *)
Definition cache_code (get : cobj -> Z * Z) (put : Z -> Z -> cobj -> cobj) (obj code : Z) : mm unit :=
  let! o := load_obj obj in
  let n := sz (fst (get o) + 1) in
  let! b := realloc_bytes (snd (get o)) n in
  let! _ := store obj (BObj (put n b o)) in
  if b =? 0 then ret tt else poke b (n - 1) code.
Fixpoint cache_loop (obj : Z) (n : nat) (p : Z) : mm unit :=
  if p =? 0 then ret tt
  else
    match n with
    | O => wrong UB_loop
    | S k =>
        let! q := load_prop p in
        let! _ := (if has_bits (q_attr q) (Z.lor AttrRead AttrReadRequired)
                   then cache_code (fun o => (j_getn o, j_get o)) j_with_get obj (q_code q) else ret tt) in
        let! _ := (if has_bits (q_attr q) (Z.lor AttrWrite AttrWriteRequired)
                   then cache_code (fun o => (j_setn o, j_set o)) j_with_set obj (q_code q) else ret tt) in
        let! _ := (if has_bits (q_attr q) (Z.lor AttrAnno AttrAnnoRequired)
                   then cache_code (fun o => (j_annon o, j_anno o)) j_with_anno obj (q_code q) else ret tt) in
        let! p' := uecho_list_next p in
        cache_loop obj k p'
    end.
(* std/object_super_class.c:41-88 uecho_object_updatepropertymaps *)
Definition uecho_object_updatepropertymaps (obj : Z) : mm bool :=
  if obj =? 0 then ret false
  else
    let! _ := uecho_object_clearpropertymapcaches obj in
    let! p := uecho_object_getproperties obj in
    let! _ := walk (fun n => cache_loop obj n p) in
    let! o := load_obj obj in
    let! _ := uecho_object_setpropertymap obj EPC_GetMap (j_get o) (j_getn o) in
    let! o := load_obj obj in
    let! _ := uecho_object_setpropertymap obj EPC_SetMap (j_set o) (j_setn o) in
    let! o := load_obj obj in
    let! _ := uecho_object_setpropertymap obj EPC_AnnoMap (j_anno o) (j_annon o) in
    ret true.

(* object.c:415-433 uecho_object_setproperty *)
Definition uecho_object_setproperty (obj code attr : Z) : mm bool :=
  if obj =? 0 then ret false
  else
    let! o := load_obj obj in
    let! ok := uecho_propertylist_set (j_props o) code attr 0 0 in
    if negb ok then ret false
    else
      let! p := uecho_object_getproperty obj code in
      if p =? 0 then ret false
      else
        let! ok := uecho_property_setparentobject p obj in
        if negb ok then ret false else uecho_object_updatepropertymaps obj.

(* object.c:439-445 uecho_object_setpropertydata *)
Definition uecho_object_setpropertydata (obj code data n : Z) : mm bool :=
  if obj =? 0 then ret false
  else let! o := load_obj obj in uecho_propertylist_setdata (j_props o) code data n.
(* object.c:451-457 uecho_object_setpropertyintegerdata *)
Definition uecho_object_setpropertyintegerdata (obj code v : Z) (size : nat) : mm bool :=
  if obj =? 0 then ret false
  else let! o := load_obj obj in uecho_propertylist_setintegerdata (j_props o) code v size.
(* object.c:463-469 uecho_object_setpropertybytedata *)
Definition uecho_object_setpropertybytedata (obj code b : Z) : mm bool :=
  if obj =? 0 then ret false
  else let! o := load_obj obj in uecho_propertylist_setbytedata (j_props o) code b.
(* object.c:475-481 uecho_object_setpropertyattribute *)
Definition uecho_object_setpropertyattribute (obj code attr : Z) : mm bool :=
  if obj =? 0 then ret false
  else let! o := load_obj obj in uecho_propertylist_setattribute (j_props o) code attr.
(* object.c:567-573 uecho_object_getpropertydatasize *)
Definition uecho_object_getpropertydatasize (obj code : Z) : mm Z :=
  if obj =? 0 then ret 0
  else let! o := load_obj obj in uecho_propertylist_getdatasize (j_props o) code.

(* object.c:554-561 uecho_object_clearproperties *)
Definition uecho_object_clearproperties (obj : Z) : mm unit :=
  if obj =? 0 then ret tt
  else
    let! o := load_obj obj in
    let! _ := uecho_list_clear (j_props o) property_destructor in
    uecho_object_clearpropertymapcaches obj.

(* object.c:615-621 uecho_object_setmessagelistener *)
Definition uecho_object_setmessagelistener (obj : Z) (b : bool) : mm unit :=
  if obj =? 0 then ret tt else let! o := load_obj obj in store obj (BObj (j_with_listener b o)).

(* object.c:651-657 uecho_object_setpropertyrequesthandler *)
Definition uecho_object_setpropertyrequesthandler (obj esv code : Z) (handler : option nat) : mm bool :=
  if obj =? 0 then ret false
  else let! o := load_obj obj in uecho_object_property_observer_manager_setobserver (j_mgr o) esv code handler.
(* object.c:663-675 uecho_object_getpropertyrequestlistener *)
Definition uecho_object_getpropertyrequestlistener (obj esv code : Z) : mm (option nat) :=
  if obj =? 0 then ret None
  else
    let! o := load_obj obj in
    let! w := uecho_object_property_observer_manager_getobserver (j_mgr o) esv code in
    if w =? 0 then ret None else let! c := load_obs w in ret (w_handler c).

(* object.c:765-782 uecho_object_addmissingobjectproperties *)
Fixpoint missing_loop (obj : Z) (n : nat) (src : Z) : mm bool :=
  if src =? 0 then ret true
  else
    match n with
    | O => wrong UB_loop
    | S k =>
        let! q := load_prop src in
        let! p := uecho_object_getproperty obj (q_code q) in
        let! ok := (if negb (p =? 0) then ret true
                    else
                      let! c := M_Mem.uecho_property_copy room src in
                      if c =? 0 then ret false else let! _ := uecho_object_addproperty obj c in ret true) in
        if negb ok then ret false
        else let! src' := uecho_list_next src in missing_loop obj k src'
    end.
Definition uecho_object_addmissingobjectproperties (obj src : Z) : mm bool :=
  if obj =? 0 then ret false
  else let! p := uecho_object_getproperties src in walk (fun n => missing_loop obj n p).

(* ---- lists of objects and the standard database ---- *)

(* object_list.c:17-28 uecho_objectlist_new *)
Definition uecho_objectlist_new : mm Z := malloc room (fun a => BHead a a).
Definition object_destructor (obj : Z) : mm unit := let! _ := uecho_object_delete obj in ret tt.
(* object_list.c:34-42 uecho_objectlist_delete *)
Definition uecho_objectlist_delete (objs : Z) : mm unit :=
  if objs =? 0 then ret tt
  else let! _ := uecho_list_clear objs object_destructor in mfree objs.

(* object_list.c:68-84 uecho_objectlist_getbygroupclasscode, std/database.c:96-101 uecho_database_getobject *)
Definition uecho_objectlist_getbygroupclasscode (objs grp cls : Z) : mm Z :=
  if objs =? 0 then ret 0
  else find_in objs (fun obj => let! o := load_obj obj in ret ((j_grp o =? grp) && (j_cls o =? cls))).

(* the list of the standard database *)
Variable db : Z.

(* object.c:164-186 uecho_object_addstandardpropertieswithcode *)
Definition uecho_object_addstandardpropertieswithcode (obj grp cls : Z) : mm bool :=
  if obj =? 0 then ret false
  else
    let! std := uecho_objectlist_getbygroupclasscode db grp cls in
    if std =? 0 then ret false
    else
      let! name := uecho_object_getname std in
      let! _ := uecho_object_setname obj name in
      uecho_object_addmissingobjectproperties obj std.
(* object.c:188-198 uecho_object_addstandardproperties *)
Definition uecho_object_addstandardproperties (obj : Z) : mm bool :=
  let! a := uecho_object_addstandardpropertieswithcode obj 0 0 in
  let! o := load_obj obj in
  let! b := uecho_object_addstandardpropertieswithcode obj (j_grp o) (j_cls o) in
  ret (a && b).

(* object.c:204-215 uecho_object_setcode *)
Definition uecho_object_setcode (obj v : Z) : mm unit :=
  if obj =? 0 then ret tt
  else
    let! o := load_obj obj in
    let! _ := store obj (BObj (j_with_code (Z.shiftr (Z.land v 16711680) 16) (Z.shiftr (Z.land v 65280) 8) (Z.land v 255) o)) in
    let! _ := uecho_object_addstandardproperties obj in
    let! _ := uecho_object_updatepropertymaps obj in
    ret tt.
(* object.c:249-257 uecho_object_setgroupcode *)
Definition uecho_object_setgroupcode (obj v : Z) : mm unit :=
  if obj =? 0 then ret tt
  else
    let! o := load_obj obj in
    let! _ := store obj (BObj (j_with_code v (j_cls o) (j_ins o) o)) in
    let! _ := uecho_object_addstandardproperties obj in
    ret tt.
(* object.c:275-283 uecho_object_setclasscode *)
Definition uecho_object_setclasscode (obj v : Z) : mm unit :=
  if obj =? 0 then ret tt
  else
    let! o := load_obj obj in
    let! _ := store obj (BObj (j_with_code (j_grp o) v (j_ins o) o)) in
    let! _ := uecho_object_addstandardproperties obj in
    ret tt.
(* object.c:301-307 uecho_object_setinstancecode *)
Definition uecho_object_setinstancecode (obj v : Z) : mm unit :=
  if obj =? 0 then ret tt
  else let! o := load_obj obj in store obj (BObj (j_with_code (j_grp o) (j_cls o) v o)).
End Room.
