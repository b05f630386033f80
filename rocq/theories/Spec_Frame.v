(* The ECHONET Lite format 1 frame, written from the protocol description and
   independent of the model of the C code. *)
From Coq Require Import ZArith List Bool.
Import ListNotations.
Open Scope Z_scope.

(* one property on the wire: EPC and EDT *)
Definition epair : Type := (Z * list Z)%type.

Inductive body : Type :=
| Plain (ps : list epair)                (* OPC, properties *)
| SetGetBody (sets gets : list epair).   (* OPCSet, properties, OPCGet, properties *)

Record frame : Type := mkFrame {
  f_tid : Z * Z;            (* in wire order *)
  f_seoj : Z * Z * Z;       (* group, class, instance *)
  f_deoj : Z * Z * Z;
  f_esv : Z;
  f_body : body
}.

(* EPC, PDC, EDT *)
Definition enc_prop (e : epair) : list Z :=
  fst e :: Z.of_nat (length (snd e)) :: snd e.

(* count, then the properties *)
Definition enc_props (ps : list epair) : list Z :=
  Z.of_nat (length ps) :: concat (map enc_prop ps).

Definition enc_eoj (e : Z * Z * Z) : list Z :=
  let '(g, c, i) := e in [g; c; i].

Definition enc_body (b : body) : list Z :=
  match b with
  | Plain ps => enc_props ps
  | SetGetBody s g => enc_props s ++ enc_props g
  end.

(* EHD1 = 0x10, EHD2 = 0x81 *)
Definition enc_frame (f : frame) : list Z :=
  [16; 129] ++ [fst (f_tid f); snd (f_tid f)]
  ++ enc_eoj (f_seoj f) ++ enc_eoj (f_deoj f) ++ [f_esv f] ++ enc_body (f_body f).

Definition byte_val (b : Z) : Prop := 0 <= b <= 255.

Definition epair_ok (e : epair) : Prop :=
  byte_val (fst e) /\ Forall byte_val (snd e) /\ (length (snd e) <= 255)%nat.

Definition eprops_ok (ps : list epair) : Prop :=
  Forall epair_ok ps /\ (length ps <= 255)%nat.

(* services with two property lists: SetGet 0x6E, SetGet_Res 0x7E, SetGet_SNA 0x5E *)
Definition two_lists (esv : Z) : Prop := esv = 110 \/ esv = 126 \/ esv = 94.

Definition body_ok (esv : Z) (b : body) : Prop :=
  match b with
  | Plain ps => ~ two_lists esv /\ eprops_ok ps
  | SetGetBody s g => two_lists esv /\ eprops_ok s /\ eprops_ok g
  end.

Definition eoj_ok (e : Z * Z * Z) : Prop :=
  let '(g, c, i) := e in byte_val g /\ byte_val c /\ byte_val i.

Definition frame_ok (f : frame) : Prop :=
  byte_val (fst (f_tid f)) /\ byte_val (snd (f_tid f))
  /\ eoj_ok (f_seoj f) /\ eoj_ok (f_deoj f) /\ byte_val (f_esv f)
  /\ body_ok (f_esv f) (f_body f).

(* the object code of three EOJ bytes *)
Definition eoj_code (e : Z * Z * Z) : Z :=
  let '(g, c, i) := e in g * 65536 + c * 256 + i.
