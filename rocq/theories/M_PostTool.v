(* Model of the example program uechopost, examples/controller/uechopost/uechopost.c: from
   the destination node found to the message sent, and the printing of the response.

   Simplifications: a text is the list of its characters (ASCII codes, no NUL); options, the
   search and the wait for the node are not modelled; malloc fails for sizes above
   PTRDIFF_MAX only.  The variables read by sscanf are not initialised; reading them is not
   undefined (their address is taken) but gives any value, [uninit] below. *)
From Coq Require Import String Ascii ZArith List Bool.
From Verif Require Import CSem M_Const M_Misc M_Property M_Message M_PropertyList M_Object M_Node M_NodeListener M_Controller M_Query.
Import ListNotations.
Open Scope Z_scope.

(* ---- sscanf, C11 7.21.6.2 ---- *)

(* isspace in the C locale *)
Definition is_space (c : Z) : bool := (c =? 32) || ((9 <=? c) && (c <=? 13)).
Fixpoint skip_space (s : list Z) : list Z :=
  match s with
  | c :: r => if is_space c then skip_space r else s
  | [] => []
  end.

(* the value of a hexadecimal digit *)
Definition hexval (c : Z) : option Z :=
  if (48 <=? c) && (c <=? 57) then Some (c - 48)
  else if (65 <=? c) && (c <=? 70) then Some (c - 55)
  else if (97 <=? c) && (c <=? 102) then Some (c - 87)
  else None.

(* at most [w] digits: how many, the value, what follows *)
Fixpoint take_hex (w : nat) (s : list Z) (k acc : Z) : Z * Z * list Z :=
  match w, s with
  | S w', c :: r =>
      match hexval c with
      | Some d => take_hex w' r (k + 1) (acc * 16 + d)
      | None => (k, acc, s)
      end
  | _, _ => (k, acc, s)
  end.

(* an unsigned int stored in an int object *)
Definition as_int (v : Z) : Z := if v <=? INT_MAX then v else v - 4294967296.

(* %x with maximum field width [w]: the value stored and the rest of the text, or None for a
   matching failure ("0x" with no digit after it is one).  A number that does not fit an
   unsigned int is undefined. *)
Definition scan_x (w : nat) (s : list Z) : res (option (Z * list Z)) :=
  let s1 := skip_space s in
  let '(neg, w1, s2) :=
    match s1 with
    | c :: r => if c =? 43 then (false, pred w, r) else if c =? 45 then (true, pred w, r) else (false, w, s1)
    | [] => (false, w, s1)
    end in
  let '(k, v, r) :=
    match w1, s2 with
    | S (S w2), z :: x :: r2 =>
        if (z =? 48) && ((x =? 120) || (x =? 88)) then take_hex w2 r2 0 0 else take_hex w1 s2 0 0
    | _, _ => take_hex w1 s2 0 0
    end in
  if k =? 0 then Ok None
  else if 4294967295 <? v then Undef UB_overflow
  else Ok (Some (as_int (u32 (if neg then - v else v)), r)).

(* without a width: the text is the limit *)
Definition scan_int (s : list Z) (old : Z) : res Z :=
  do x <- scan_x (length s) s ;;
  Ok (match x with Some (v, _) => v | None => old end).

(* sscanf(s, "%02x", &b) *)
Definition scan_one (s : list Z) (b : Z) : res Z :=
  do x <- scan_x 2 s ;;
  Ok (match x with Some (v, _) => v | None => b end).

(* sscanf(s, "%02x%02x", &epc, &pdc) *)
Definition scan_two (s : list Z) (epc pdc : Z) : res (Z * Z) :=
  do x <- scan_x 2 s ;;
  match x with
  | None => Ok (epc, pdc)
  | Some (v, r) => do y <- scan_one r pdc ;; Ok (v, y)
  end.

(* ---- the message ---- *)

(* what the uninitialised variables hold: dstObjCode, esv, epc, pdc, edtByte *)
Record uninit : Type := mkUninit { u_obj : Z; u_esv : Z; u_epc : Z; u_pdc : Z; u_byte : Z }.

(* uechopost.c:220-227: the data of a property; the last value of edtByte too *)
Fixpoint data_loop (n : nat) (edt : list Z) (b : Z) : res (list Z * Z) :=
  match n with
  | O => Ok ([], b)
  | S n' =>
      do b1 <- scan_one edt b ;;
      do r <- data_loop n' (skipn 2 edt) b1 ;;
      Ok (to_byte b1 :: fst r, snd r)
  end.

(* uechopost.c:203-230: [edt] starts at offset [pos] of the argument, which has [size]
   characters.  With a negative pdc the test of line 216 is made modulo 2^64, malloc fails,
   nothing is scanned and uecho_message_setproperty leaves a property without data. *)
Fixpoint prop_loop (fuel : nat) (size pos : Z) (edt : list Z) (epc pdc b : Z) (m : msg) : res msg :=
  match fuel with
  | O => Undef UB_loop
  | S f =>
      if pos + 4 <=? size then
        do x <- scan_two edt epc pdc ;;
        let '(epc1, pdc1) := x in
        let edt1 := skipn 4 edt in
        if pdc1 =? 0 then
          do m1 <- uecho_message_setproperty (to_byte epc1) [] m ;;
          prop_loop f size (pos + 4) edt1 epc1 pdc1 b m1
        else
          do twice <- int_chk (pdc1 * 2) ;;
          if size <? sz (pos + 4 + twice) then Ok m
          else
            do y <- data_loop (Z.to_nat pdc1) edt1 b ;;
            do m1 <- uecho_message_setproperty (to_byte epc1) (fst y) m ;;
            prop_loop f size (pos + 4 + Z.max 0 (pdc1 * 2)) (skipn (Z.to_nat (pdc1 * 2)) edt1) epc1 pdc1 (snd y) m1
      else Ok m
  end.

(* uechopost.c:180-230: the message for the arguments <obj> <esv> <property ...>.  The test
   of line 184 asks for the node again instead of the object, and uecho_object_getcode of no
   object is 0. *)
Definition post_message (u : uninit) (dst : node) (obj esv props : list Z) : res msg :=
  do code <- scan_int obj (u_obj u) ;;
  let dcode := match uecho_node_getobjectbycode dst code with Some o => uecho_object_getcode o | None => 0 end in
  do e <- scan_int esv (u_esv u) ;;
  do m <- uecho_message_setdestinationobjectcode dcode (uecho_message_setesv (to_byte e) uecho_message_new) ;;
  prop_loop (S (length props)) (len props) 0 props (u_epc u) (u_pdc u) (u_byte u) m.

Section Post.
Variable le : bool.
Variable net : post -> bool.

(* uechopost.c:180-246: the controller afterwards, the datagrams sent and whether a response
   is waited for *)
Definition uechopost (u : uninit) (c : ctrl) (dst : node) (obj esv props : list Z) : res (ctrl * list post * bool) :=
  do m <- post_message u dst obj esv props ;;
  if uecho_message_isresponserequired m then
    do x <- postmessage_begin le net c dst m uecho_message_new ;;
    let '(c1, ps, ok) := x in Ok (c1, ps, ok)
  else
    do s <- uecho_controller_sendmessage le net c dst m ;;
    Ok (c_with_node (s_node s) c, s_posts s, false).
End Post.

(* ---- printing ---- *)

Definition hexdig (d : Z) : Z := if d <? 10 then 48 + d else 55 + d.
Fixpoint to_hex (fuel : nat) (v : Z) : list Z :=
  match fuel with
  | O => []
  | S f => (if v <? 16 then [] else to_hex f (v / 16)) ++ [hexdig (v mod 16)]
  end.
(* printf("%0wX") of an unsigned int *)
Definition fmt_X (w : nat) (v : Z) : list Z :=
  let d := to_hex 8 v in repeat 48 (w - length d) ++ d.

Fixpoint chars (s : string) : list Z :=
  match s with EmptyString => [] | String c r => Z.of_N (N_of_ascii c) :: chars r end.

(* uechopost.c:62-75: the properties [n], [n + 1], ... of the loop *)
Fixpoint print_props (m : msg) (todo : nat) (n : Z) : res (list Z) :=
  match todo with
  | O => Ok []
  | S k =>
      do p <- uecho_message_getproperty m n ;;
      let '(code, data) := match p with Some q => (p_code q, p_data q) | None => (0, []) end in
      do r <- print_props m k (n + 1) ;;
      Ok (fmt_X 2 code ++ fmt_X 2 (len data) ++ concat (map (fmt_X 2) data) ++ [32] ++ r)
  end.

(* uechopost.c:50-78 uechopost_print_objectresponse; printing a NULL address is undefined *)
Definition uechopost_print_objectresponse (m : msg) : res (list Z) :=
  match m_from m with
  | None => Undef UB_null
  | Some a =>
      do code <- uecho_message_getsourceobjectcode m ;;
      do r <- print_props m (Z.to_nat (uecho_message_getopc m)) 0 ;;
      Ok (chars a ++ [32] ++ fmt_X 6 code ++ [32] ++ fmt_X 2 (uecho_message_getesv m) ++ [32] ++ r ++ [10])
  end.
