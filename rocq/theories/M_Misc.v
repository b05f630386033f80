(* Model of src/uecho/misc.c, src/uecho/util/bytes.c and src/uecho/esv.c. *)
From Coq Require Import ZArith List Bool.
From Verif Require Import CSem M_Const.
Import ListNotations.
Open Scope Z_scope.

(* misc.c:50-63 uecho_integer2byte (also util/bytes.c:37-50 uecho_bytes_fromint,
   same loop): bytes[size-1-n] = (val >> (n*8)) & 0xFF for n = 0..size-1.
   The result is the buffer contents; [n] of them are still to be written. *)
Fixpoint integer2byte_loop (val : Z) (n : nat) (size : nat) : res (list Z) :=
  (* writes bytes[size-1-n'] for n' = n..size-1; result is bytes[0..size-1-n] *)
  match size with
  | O => Ok []
  | S size' =>
      do sh <- int_shr val (Z.of_nat n * 8) ;;
      do rest <- integer2byte_loop val (S n) size' ;;
      Ok (rest ++ [Z.land sh 255])
  end.

Definition uecho_integer2byte (val : Z) (size : nat) : res (list Z) :=
  integer2byte_loop val 0 size.

(* misc.c:69-83 uecho_byte2integer (also util/bytes.c:19-31 uecho_bytes_toint):
   val += bytes[size-1-n] << (n*8).  The byte is promoted to int, so the shift
   is an int shift and the sum an int sum.  [rbytes] is the buffer reversed.
   A NULL buffer gives 0; in this library data is NULL only when its size is 0,
   where the loop also gives 0. *)
Fixpoint byte2integer_loop (rbytes : list Z) (n : nat) (val : Z) : res Z :=
  match rbytes with
  | [] => Ok val
  | b :: r =>
      do s <- int_shl b (Z.of_nat n * 8) ;;
      do v <- int_chk (val + s) ;;
      byte2integer_loop r (S n) v
  end.

Definition uecho_byte2integer (bytes : list Z) : res Z :=
  byte2integer_loop (rev bytes) 0 0.

(* misc.c:19-22 uecho_objectcode2classcode *)
Definition uecho_objectcode2classcode (objCode : Z) : Z :=
  Z.land (Z.shiftr objCode 8) 65535.

(* misc.c:28-33 uecho_isdeviceclassgroupcode *)
Definition uecho_isdeviceclassgroupcode (code : Z) : bool :=
  negb (ClassGroupDeviceMax <? code).

(* misc.c:39-44 uecho_isprofileclassgroupcode *)
Definition uecho_isprofileclassgroupcode (code : Z) : bool :=
  (ClassGroupProfile =? code).

(* esv.c:17-22 *)
Definition uecho_esv_isnotification (esv : Z) : bool := esv =? ESV_INF.

(* esv.c:28-33 *)
Definition uecho_esv_iswriterequest (esv : Z) : bool :=
  (esv =? ESV_SetI) || (esv =? ESV_SetC) || (esv =? ESV_SetGet).

(* esv.c:39-44 *)
Definition uecho_esv_isreadrequest (esv : Z) : bool :=
  (esv =? ESV_Get) || (esv =? ESV_SetGet).

(* esv.c:50-55 *)
Definition uecho_esv_isnotifyrequest (esv : Z) : bool :=
  (esv =? ESV_INF_REQ) || (esv =? ESV_INFC).

(* esv.c:61-68 *)
Definition uecho_esv_iswriteresponse (esv : Z) : bool :=
  ((esv =? ESV_Set_Res) || (esv =? ESV_SetGet_Res))
  || ((esv =? ESV_SetI_SNA) || (esv =? ESV_SetGet_SNA)).

(* esv.c:74-81 *)
Definition uecho_esv_isreadresponse (esv : Z) : bool :=
  ((esv =? ESV_Get_Res) || (esv =? ESV_SetGet_Res))
  || ((esv =? ESV_Get_SNA) || (esv =? ESV_SetGet_SNA)).

(* esv.c:87-94 *)
Definition uecho_esv_isnotifyresponse (esv : Z) : bool :=
  ((esv =? ESV_INF) || (esv =? ESV_INFC_Res)) || (esv =? ESV_INF_SNA).

(* esv.c:100-109 *)
Definition uecho_esv_isrequest (esv : Z) : bool :=
  uecho_esv_iswriterequest esv || uecho_esv_isreadrequest esv
  || uecho_esv_isnotifyrequest esv.

(* esv.c:115-124 *)
Definition uecho_esv_isresponse (esv : Z) : bool :=
  uecho_esv_iswriteresponse esv || uecho_esv_isreadresponse esv
  || uecho_esv_isnotifyresponse esv.

(* message.c:346-369 uecho_message_requestesv2responseesv; None = returns false *)
Definition uecho_message_requestesv2responseesv (esv : Z) : option Z :=
  if esv =? ESV_SetC then Some ESV_Set_Res
  else if esv =? ESV_Get then Some ESV_Get_Res
  else if esv =? ESV_INF_REQ then Some ESV_INF
  else if esv =? ESV_SetGet then Some ESV_SetGet_Res
  else if esv =? ESV_INFC then Some ESV_INFC_Res
  else None.

(* message.c:375-398 uecho_message_requestesv2errorresponseesv *)
Definition uecho_message_requestesv2errorresponseesv (esv : Z) : option Z :=
  if esv =? ESV_SetI then Some ESV_SetI_SNA
  else if esv =? ESV_SetC then Some ESV_SetC_SNA
  else if esv =? ESV_Get then Some ESV_Get_SNA
  else if esv =? ESV_INF_REQ then Some ESV_INF_SNA
  else if esv =? ESV_SetGet then Some ESV_SetGet_SNA
  else None.
