(* Model of src/uecho/message.c and src/uecho/message_search.c.

   Not modelled: the cached serialisation msg->bytes (it is freed and rebuilt by
   every uecho_message_getbytes), allocation failure, NULL message arguments. *)
From Coq Require Import String ZArith List Bool.
From Verif Require Import CSem M_Const M_Misc M_Property.
Import ListNotations.
Open Scope Z_scope.

(* src/uecho/_message.h.  A property array is a pointer (None = NULL) to an
   array of non-NULL property pointers; the count is stored separately and need
   not agree with the length of the array. *)
Record pvec : Type := mkPvec {
  pv_opc : Z;
  pv_ep : option (list prop)
}.

Record msg : Type := mkMsg {
  m_ehd1 : Z;
  m_ehd2 : Z;
  m_tid : Z * Z;       (* tid[0], tid[1] *)
  m_seoj : list Z;     (* 3 bytes *)
  m_deoj : list Z;     (* 3 bytes *)
  m_esv : Z;
  m_p : pvec;          (* opc, ep *)
  m_pset : pvec;       (* opcSet, epSet *)
  m_pget : pvec;       (* opcGet, epGet *)
  m_from : option string;
  m_to : option string
}.

Definition with_tid (t : Z * Z) (m : msg) : msg :=
  mkMsg (m_ehd1 m) (m_ehd2 m) t (m_seoj m) (m_deoj m) (m_esv m) (m_p m) (m_pset m) (m_pget m) (m_from m) (m_to m).
Definition with_seoj (e : list Z) (m : msg) : msg :=
  mkMsg (m_ehd1 m) (m_ehd2 m) (m_tid m) e (m_deoj m) (m_esv m) (m_p m) (m_pset m) (m_pget m) (m_from m) (m_to m).
Definition with_deoj (e : list Z) (m : msg) : msg :=
  mkMsg (m_ehd1 m) (m_ehd2 m) (m_tid m) (m_seoj m) e (m_esv m) (m_p m) (m_pset m) (m_pget m) (m_from m) (m_to m).
Definition with_esv (e : Z) (m : msg) : msg :=
  mkMsg (m_ehd1 m) (m_ehd2 m) (m_tid m) (m_seoj m) (m_deoj m) e (m_p m) (m_pset m) (m_pget m) (m_from m) (m_to m).
Definition with_ehd (a b : Z) (m : msg) : msg :=
  mkMsg a b (m_tid m) (m_seoj m) (m_deoj m) (m_esv m) (m_p m) (m_pset m) (m_pget m) (m_from m) (m_to m).
Definition with_p (v : pvec) (m : msg) : msg :=
  mkMsg (m_ehd1 m) (m_ehd2 m) (m_tid m) (m_seoj m) (m_deoj m) (m_esv m) v (m_pset m) (m_pget m) (m_from m) (m_to m).
Definition with_pset (v : pvec) (m : msg) : msg :=
  mkMsg (m_ehd1 m) (m_ehd2 m) (m_tid m) (m_seoj m) (m_deoj m) (m_esv m) (m_p m) v (m_pget m) (m_from m) (m_to m).
Definition with_pget (v : pvec) (m : msg) : msg :=
  mkMsg (m_ehd1 m) (m_ehd2 m) (m_tid m) (m_seoj m) (m_deoj m) (m_esv m) (m_p m) (m_pset m) v (m_from m) (m_to m).
Definition with_from (a : option string) (m : msg) : msg :=
  mkMsg (m_ehd1 m) (m_ehd2 m) (m_tid m) (m_seoj m) (m_deoj m) (m_esv m) (m_p m) (m_pset m) (m_pget m) a (m_to m).
Definition with_to (a : option string) (m : msg) : msg :=
  mkMsg (m_ehd1 m) (m_ehd2 m) (m_tid m) (m_seoj m) (m_deoj m) (m_esv m) (m_p m) (m_pset m) (m_pget m) (m_from m) a.

(* htons / ntohs on a host of either byte order; [le] = little-endian host *)
Definition htons (le : bool) (v : Z) : Z :=
  if le then (v mod 256) * 256 + (v / 256) mod 256 else v mod 65536.

(* message.c:137-149 uecho_message_settid; val is unsigned int, the argument of
   htons is converted to uint16_t *)
Definition uecho_message_settid (le : bool) (val : Z) (m : msg) : msg :=
  let val := u32 val in
  let val := if uEchoTidMax <? val then val mod uEchoTidMax else val in
  let nval := htons le (u16 val) in
  with_tid (Z.shiftr (Z.land nval 65280) 8, Z.land nval 255) m.

(* message.c:155-159 uecho_message_gettid *)
Definition uecho_message_gettid (le : bool) (m : msg) : Z :=
  let nval := u16 (Z.shiftl (fst (m_tid m)) 8 + snd (m_tid m)) in
  htons le nval.

(* message.c:165-168, 192-195 uecho_message_set{source,destination}objectcode *)
Definition uecho_message_setsourceobjectcode (code : Z) (m : msg) : res msg :=
  do e <- uecho_integer2byte code uEchoEOJSize ;; Ok (with_seoj e m).
Definition uecho_message_setdestinationobjectcode (code : Z) (m : msg) : res msg :=
  do e <- uecho_integer2byte code uEchoEOJSize ;; Ok (with_deoj e m).

(* message.c:174-177, 201-204 uecho_message_get{source,destination}objectcode *)
Definition uecho_message_getsourceobjectcode (m : msg) : res Z :=
  uecho_byte2integer (m_seoj m).
Definition uecho_message_getdestinationobjectcode (m : msg) : res Z :=
  uecho_byte2integer (m_deoj m).

(* message.c:23-53 uecho_message_new; settid(0) and the unknown object code
   0x000000 store zero bytes *)
Definition uecho_message_new : msg :=
  mkMsg uEchoEhd1 uEchoEhd2 (0, 0) [0; 0; 0] [0; 0; 0] 0
        (mkPvec 0 None) (mkPvec 0 None) (mkPvec 0 None) None None.

(* The properties ep[0..opc-1].  Loops "for n < opc: ep[n]" run over these;
   a NULL array or an array shorter than opc is undefined behaviour as soon as
   opc > 0 (the model reports it before the first iteration). *)
Definition pv_items (v : pvec) : res (list prop) :=
  if pv_opc v <=? 0 then Ok []
  else match pv_ep v with
       | None => Undef UB_null
       | Some l => if len l <? pv_opc v then Undef UB_read
                   else Ok (firstn (Z.to_nat (pv_opc v)) l)
       end.

(* message.c:75-91 uecho_properties_clear *)
Definition uecho_properties_clear (v : pvec) : res pvec :=
  do _ <- pv_items v ;; Ok (mkPvec 0 None).

(* message.c:93-101 uecho_message_clearproperties *)
Definition uecho_message_clearproperties (m : msg) : res msg :=
  do a <- uecho_properties_clear (m_p m) ;;
  do b <- uecho_properties_clear (m_pset m) ;;
  do c <- uecho_properties_clear (m_pget m) ;;
  Ok (with_pget c (with_pset b (with_p a m))).

(* message.c:107-131 uecho_message_clear *)
Definition uecho_message_clear (m : msg) : res msg :=
  uecho_message_clearproperties (with_to None (with_from None m)).

(* message.c:219-230 uecho_message_setopcep; count is a byte *)
Definition uecho_message_setopcep (count : Z) (v : pvec) : pvec :=
  if count <=? 0 then mkPvec count (pv_ep v)
  else mkPvec count (Some (repeat uecho_property_new (Z.to_nat count))).

(* message.c:232-251 uecho_message_setopc, setopcset, setopcget *)
Definition uecho_message_setopc (count : Z) (m : msg) : msg :=
  with_p (uecho_message_setopcep count (m_p m)) m.
Definition uecho_message_setopcset (count : Z) (m : msg) : msg :=
  with_pset (uecho_message_setopcep count (m_pset m)) m.
Definition uecho_message_setopcget (count : Z) (m : msg) : msg :=
  with_pget (uecho_message_setopcep count (m_pget m)) m.

(* message.c:418-430 uecho_message_isresponsemessage *)
Definition uecho_message_isresponsemessage (le : bool) (m r : msg) : bool :=
  if negb (uecho_message_gettid le m =? uecho_message_gettid le r) then false
  else if m_esv m =? m_esv r then false else true.

(* message.c:436-441, 463-468 uecho_message_set{source,destination}address:
   uecho_strloc does nothing when the new address is NULL *)
Definition uecho_message_setsourceaddress (a : option string) (m : msg) : msg :=
  match a with None => m | Some _ => with_from a m end.
Definition uecho_message_setdestinationaddress (a : option string) (m : msg) : msg :=
  match a with None => m | Some _ => with_to a m end.

(* message.c:589-595 uecho_property_add: the count is a byte and wraps; the
   array is reallocated to the new count and its last slot written.  realloc
   with count 0 followed by ep[-1] = prop is undefined.  An array shorter than
   the old count would leave uninitialised slots; reported as undefined. *)
Definition uecho_property_add (v : pvec) (p : prop) : res pvec :=
  let opc := to_byte (pv_opc v + 1) in
  if opc =? 0 then Undef UB_write
  else
    let old := match pv_ep v with None => [] | Some l => l end in
    if len old <? opc - 1 then Undef UB_uninit
    else Ok (mkPvec opc (Some (firstn (Z.to_nat (opc - 1)) old ++ [p]))).

(* message.c:597-616 uecho_message_addproperty, addpropertyset, addpropertyget *)
Definition uecho_message_addproperty (p : prop) (m : msg) : res msg :=
  do v <- uecho_property_add (m_p m) p ;; Ok (with_p v m).
Definition uecho_message_addpropertyset (p : prop) (m : msg) : res msg :=
  do v <- uecho_property_add (m_pset m) p ;; Ok (with_pset v m).
Definition uecho_message_addpropertyget (p : prop) (m : msg) : res msg :=
  do v <- uecho_property_add (m_pget m) p ;; Ok (with_pget v m).

(* message.c:622-627 uecho_property_get: opc - 1 is an int converted to size_t
   for the comparison; None = NULL *)
Definition uecho_property_get (v : pvec) (n : Z) : res (option prop) :=
  match pv_ep v with
  | None => Ok None
  | Some l =>
      do _ <- rd l 0 ;;
      if sz (pv_opc v - 1) <? n then Ok None
      else do p <- rd l n ;; Ok (Some p)
  end.

(* message.c:629-634 uecho_message_getproperty *)
Definition uecho_message_getproperty (m : msg) (n : Z) : res (option prop) :=
  uecho_property_get (m_p m) n.

(* message.c:636-641 uecho_message_getpropertyset, getpropertyget *)
Definition uecho_message_getpropertyset (m : msg) (n : Z) : res (option prop) :=
  uecho_property_get (m_pset m) n.
Definition uecho_message_getpropertyget (m : msg) (n : Z) : res (option prop) :=
  uecho_property_get (m_pget m) n.

(* message.c:654-666 uecho_property_getbycode: first match *)
Definition uecho_property_getbycode (v : pvec) (code : Z) : res (option prop) :=
  do l <- pv_items v ;; Ok (find (fun p => p_code p =? code) l).

(* message.c:668-673 uecho_message_getpropertybycode *)
Definition uecho_message_getpropertybycode (m : msg) (code : Z) : res (option prop) :=
  uecho_property_getbycode (m_p m) code.

(* message.c:675-680 uecho_message_getpropertysetbycode, getpropertygetbycode *)
Definition uecho_message_getpropertysetbycode (m : msg) (code : Z) : res (option prop) :=
  uecho_property_getbycode (m_pset m) code.
Definition uecho_message_getpropertygetbycode (m : msg) (code : Z) : res (option prop) :=
  uecho_property_getbycode (m_pget m) code.

(* message.c:257-275 uecho_message_getopc, getopcset, getopcget *)
Definition uecho_message_getopc (m : msg) : Z := pv_opc (m_p m).
Definition uecho_message_getopcset (m : msg) : Z := pv_opc (m_pset m).
Definition uecho_message_getopcget (m : msg) : Z := pv_opc (m_pget m).

(* message.c:320-328 uecho_message_setesv; val is a byte *)
Definition uecho_message_setesv (val : Z) (m : msg) : msg := with_esv val m.
(* message.c:334-340 uecho_message_getesv *)
Definition uecho_message_getesv (m : msg) : Z := m_esv m.

(* replace the first property with the given code *)
Fixpoint upd_first (code : Z) (f : prop -> prop) (l : list prop) : list prop :=
  match l with
  | [] => []
  | p :: r => if p_code p =? code then f p :: r else p :: upd_first code f r
  end.

(* message.c:693-708 uecho_property_set: update the data of the first property
   with that code, else append a new one.  Message properties have no parent
   object, so setting their data announces nothing. *)
Definition uecho_property_set (v : pvec) (code : Z) (data : list Z) : res pvec :=
  do o <- uecho_property_getbycode v code ;;
  match o with
  | Some _ =>
      Ok (mkPvec (pv_opc v)
            (option_map (upd_first code (fun p => fst (uecho_property_setdata data p))) (pv_ep v)))
  | None =>
      uecho_property_add v
        (fst (uecho_property_setdata data (uecho_property_setcode code uecho_property_new)))
  end.

(* message.c:710-729 uecho_message_setproperty, setpropertyset, setpropertyget *)
Definition uecho_message_setproperty (code : Z) (data : list Z) (m : msg) : res msg :=
  do v <- uecho_property_set (m_p m) code data ;; Ok (with_p v m).
Definition uecho_message_setpropertyset (code : Z) (data : list Z) (m : msg) : res msg :=
  do v <- uecho_property_set (m_pset m) code data ;; Ok (with_pset v m).
Definition uecho_message_setpropertyget (code : Z) (data : list Z) (m : msg) : res msg :=
  do v <- uecho_property_set (m_pget m) code data ;; Ok (with_pget v m).

(* message.c:735-769 uecho_message_property_parse: [todo] are the properties
   ep[n..opc-1] still to be filled; result (success, filled array part, offset). *)
Fixpoint property_parse_loop (todo : list prop) (data : list Z) (off : Z)
  : res (bool * list prop * Z) :=
  match todo with
  | [] => Ok (true, [], off)
  | p :: r =>
      let dl := len data in
      if sz (dl - 1) <? off then Ok (false, p :: r, off)
      else
        do c <- rd data off ;;
        let off1 := sz (off + 1) in
        let p1 := uecho_property_setcode c p in
        if sz (dl - 1) <? off1 then Ok (false, p1 :: r, off1)
        else
          do count <- rd data off1 ;;
          let off2 := sz (off1 + 1) in
          if sz (dl - 1) <? sz (off2 + count - 1) then Ok (false, p1 :: r, off2)
          else
            do d <- rd_range data off2 count ;;
            let p2 := fst (uecho_property_setdata d p1) in
            do x <- property_parse_loop r data (sz (off2 + count)) ;;
            let '(ok, ps, off3) := x in
            Ok (ok, p2 :: ps, off3)
  end.

(* parse into a property array; a failed parse leaves the array partly filled *)
Definition uecho_message_property_parse (v : pvec) (data : list Z) (off : Z)
  : res (bool * pvec * Z) :=
  do todo <- pv_items v ;;
  do x <- property_parse_loop todo data off ;;
  let '(ok, ps, off') := x in
  Ok (ok, mkPvec (pv_opc v)
        (option_map (fun l => ps ++ skipn (List.length ps) l) (pv_ep v)), off').

(* message.c:771-780 uecho_message_isreadwritemessage *)
Definition uecho_message_isreadwritemessage (m : msg) : bool :=
  (m_esv m =? ESV_SetGet) || (m_esv m =? ESV_SetGet_Res) || (m_esv m =? ESV_SetGet_SNA).

(* message.c:782-847 uecho_message_parse; dataLen is the length of the buffer *)
Definition uecho_message_parse (m : msg) (data : list Z) : res (bool * msg) :=
  do m <- uecho_message_clear m ;;
  if len data <? uEchoMessageMinLen then Ok (false, m)
  else
    do d0 <- rd data 0 ;;
    if negb (d0 =? uEchoEhd1) then Ok (false, m)
    else
      do d1 <- rd data 1 ;;
      if negb (d1 =? uEchoEhd2) then Ok (false, m)
      else
        do d2 <- rd data 2 ;;
        do d3 <- rd data 3 ;;
        do d4 <- rd data 4 ;;
        do d5 <- rd data 5 ;;
        do d6 <- rd data 6 ;;
        do d7 <- rd data 7 ;;
        do d8 <- rd data 8 ;;
        do d9 <- rd data 9 ;;
        do d10 <- rd data 10 ;;
        do d11 <- rd data 11 ;;
        let m := with_esv d10 (with_deoj [d7; d8; d9] (with_seoj [d4; d5; d6] (with_tid (d2, d3) m))) in
        if uecho_message_isreadwritemessage m then
          let m := uecho_message_setopcset d11 m in
          do x <- uecho_message_property_parse (m_pset m) data 12 ;;
          let '(ok, v, off) := x in
          let m := with_pset v m in
          if negb ok then Ok (false, m)
          else if sz (len data - 1) <? off then Ok (false, m)
          else
            do g <- rd data off ;;
            let m := uecho_message_setopcget g m in
            do y <- uecho_message_property_parse (m_pget m) data (sz (off + 1)) ;;
            let '(ok2, v2, _) := y in
            Ok (ok2, with_pget v2 m)
        else
          let m := uecho_message_setopc d11 m in
          do x <- uecho_message_property_parse (m_p m) data 12 ;;
          let '(ok, v, _) := x in
          Ok (ok, with_p v m).

(* message.c:853-865 uecho_message_parsepacket *)
Definition uecho_message_parsepacket (m : msg) (data : list Z)
    (localaddr remoteaddr : option string) : res (bool * msg) :=
  do x <- uecho_message_parse m data ;;
  let '(ok, m) := x in
  if negb ok then Ok (false, m)
  else Ok (true, uecho_message_setsourceaddress remoteaddr
                   (uecho_message_setsourceaddress localaddr m)).

(* message.c:871-886 uecho_message_opcsize *)
Definition uecho_message_opcsize (v : pvec) : res Z :=
  do l <- pv_items v ;;
  Ok (fold_left (fun n p => sz (sz (n + 2) + uecho_property_getdatasize p)) l 0).

(* message.c:888-907 uecho_message_size *)
Definition uecho_message_size (m : msg) : res Z :=
  if uecho_message_isreadwritemessage m then
    do a <- uecho_message_opcsize (m_pset m) ;;
    do b <- uecho_message_opcsize (m_pget m) ;;
    Ok (sz (sz (sz (uEchoMessageMinLen + a) + 1) + b))
  else
    do a <- uecho_message_opcsize (m_p m) ;;
    Ok (sz (uEchoMessageMinLen + a)).

(* message.c:913-930 uecho_message_setopcbytes *)
Fixpoint setopcbytes_loop (l : list prop) (buf : list (option Z)) (off : Z)
  : res (list (option Z) * Z) :=
  match l with
  | [] => Ok (buf, off)
  | p :: r =>
      let count := uecho_property_getdatasize p in
      do buf <- wr buf off (Some (p_code p)) ;;
      let off := sz (off + 1) in
      do buf <- wr buf off (Some (to_byte count)) ;;
      let off := sz (off + 1) in
      if count <=? 0 then setopcbytes_loop r buf off
      else
        do buf <- wr_range buf off (map Some (p_data p)) ;;
        setopcbytes_loop r buf (sz (off + count))
  end.

Definition uecho_message_setopcbytes (v : pvec) (buf : list (option Z)) (off : Z)
  : res (list (option Z) * Z) :=
  do l <- pv_items v ;; setopcbytes_loop l buf off.

(* sequence of single byte stores at offset i, i+1, ... *)
Fixpoint wr_seq (buf : list (option Z)) (i : Z) (bs : list Z) : res (list (option Z)) :=
  match bs with
  | [] => Ok buf
  | b :: r => do buf <- wr buf i (Some b) ;; wr_seq buf (i + 1) r
  end.

(* message.c:932-969 uecho_message_getbytes: the malloc'ed buffer after all
   stores.  seoj/deoj are 3-byte arrays in C. *)
Definition getbytes_buf (m : msg) : res (list (option Z)) :=
  do size <- uecho_message_size m ;;
  let buf := fresh_buf size in
  do s0 <- rd (m_seoj m) 0 ;; do s1 <- rd (m_seoj m) 1 ;; do s2 <- rd (m_seoj m) 2 ;;
  do t0 <- rd (m_deoj m) 0 ;; do t1 <- rd (m_deoj m) 1 ;; do t2 <- rd (m_deoj m) 2 ;;
  do buf <- wr_seq buf 0 [m_ehd1 m; m_ehd2 m; fst (m_tid m); snd (m_tid m);
                          s0; s1; s2; t0; t1; t2; m_esv m] ;;
  if uecho_message_isreadwritemessage m then
    do buf <- wr buf 11 (Some (pv_opc (m_pset m))) ;;
    do x <- uecho_message_setopcbytes (m_pset m) buf 12 ;;
    let '(buf, off) := x in
    do buf <- wr buf off (Some (pv_opc (m_pget m))) ;;
    do y <- uecho_message_setopcbytes (m_pget m) buf (sz (off + 1)) ;;
    Ok (fst y)
  else
    do buf <- wr buf 11 (Some (pv_opc (m_p m))) ;;
    do x <- uecho_message_setopcbytes (m_p m) buf 12 ;;
    Ok (fst x).

(* the bytes handed to the network; an uninitialised byte is reported *)
Definition uecho_message_getbytes (m : msg) : res (list Z) :=
  do b <- getbytes_buf m ;; init_bytes b.

(* message.c:994-1003: copy the properties of [ep] one by one *)
Fixpoint copy_properties (l : list prop) (m : msg) : res msg :=
  match l with
  | [] => Ok m
  | p :: r =>
      do m <- uecho_message_addproperty (uecho_property_copy p) m ;;
      copy_properties r m
  end.

(* message.c:975-1006 uecho_message_set(msg, srcMsg), srcMsg distinct from msg.
   For n < opc uecho_message_getproperty(srcMsg, n) is ep[n]. *)
Definition uecho_message_set (le : bool) (m src : msg) : res msg :=
  do m <- uecho_message_clear m ;;
  let m := with_ehd (m_ehd1 src) (m_ehd2 src) m in
  let m := uecho_message_settid le (uecho_message_gettid le src) m in
  do sc <- uecho_message_getsourceobjectcode src ;;
  do m <- uecho_message_setsourceobjectcode sc m ;;
  do dc <- uecho_message_getdestinationobjectcode src ;;
  do m <- uecho_message_setdestinationobjectcode dc m ;;
  let m := with_esv (m_esv src) m in
  let m := uecho_message_setsourceaddress (m_from src) m in
  let m := uecho_message_setdestinationaddress (m_to src) m in
  do l <- pv_items (m_p src) ;;
  copy_properties l m.

(* message.c:1012-1023 uecho_message_copy *)
Definition uecho_message_copy (le : bool) (src : msg) : res msg :=
  uecho_message_set le uecho_message_new src.

(* message.c:1029-1042 uecho_message_equals *)
Definition uecho_message_equals (m1 m2 : msg) : res bool :=
  do s1 <- uecho_message_size m1 ;;
  do s2 <- uecho_message_size m2 ;;
  if negb (s1 =? s2) then Ok false
  else
    do b1 <- uecho_message_getbytes m1 ;;
    do b2 <- uecho_message_getbytes m2 ;;
    Ok (bytes_eqb b1 b2).

(* message_search.c:18-39 uecho_message_search_new *)
Definition uecho_message_search_new : res msg :=
  let m := with_esv ESV_Get uecho_message_new in
  do m <- uecho_message_setsourceobjectcode uEchoNodeProfileObject m ;;
  do m <- uecho_message_setdestinationobjectcode uEchoNodeProfileObject m ;;
  uecho_message_addproperty
    (fst (uecho_property_setdata [] (uecho_property_setcode EPC_InstanceListS uecho_property_new))) m.

(* message_search.c:45-60 uecho_message_issearchrequest; getcode(NULL) is 0 *)
Definition first_code_is (m : msg) (code : Z) : res bool :=
  do o <- uecho_message_getproperty m 0 ;;
  Ok (match o with Some p => p_code p =? code | None => 0 =? code end).

Definition uecho_message_issearchrequest (m : msg) : res bool :=
  if negb (m_esv m =? ESV_Get) then Ok false
  else if negb (pv_opc (m_p m) =? 1) then Ok false
  else first_code_is m EPC_InstanceListS.

(* message_search.c:66-83 uecho_message_issearchresponse *)
Definition uecho_message_issearchresponse (m : msg) : res bool :=
  if negb ((m_esv m =? ESV_Get_Res) || (m_esv m =? ESV_INF) || (m_esv m =? ESV_INFC_Res))
  then Ok false
  else if negb (pv_opc (m_p m) =? 1) then Ok false
  else first_code_is m EPC_InstanceListS.
