(* What a node shows on the network and in its node profile, written from the ECHONET Lite
   description and the API documentation. *)
From Coq Require Import ZArith List Bool.
From Verif Require Import Spec_Frame.
Import ListNotations.
Open Scope Z_scope.

(* the TID after [t]: 1..65535, then 1 again *)
Definition next_tid (t : Z) : Z := if 65535 <=? t then 1 else t + 1.

(* the two TID bytes of a frame sent by a little-endian or big-endian host
   (see C06 for the byte order) *)
Definition tid_wire (le : bool) (t : Z) : Z * Z :=
  if le then (t mod 256, t / 256) else (t / 256, t mod 256).

(* node profile object 0x0EF001 *)
Definition node_profile_eoj : Z * Z * Z := (14, 240, 1).

(* property value notification, 0x73, with one property *)
Definition notification (le : bool) (tid : Z) (seoj : Z * Z * Z) (epc : Z) (edt : list Z) : frame :=
  mkFrame (tid_wire le tid) seoj node_profile_eoj 115 (Plain [(epc, edt)]).

(* elements in order of first occurrence *)
Fixpoint distinct {A : Type} (eq : A -> A -> bool) (l : list A) (seen : list A) : list A :=
  match l with
  | [] => seen
  | x :: r => distinct eq r (if existsb (eq x) seen then seen else seen ++ [x])
  end.

Definition class_eqb (a b : Z * Z) : bool := (fst a =? fst b) && (snd a =? snd b).

(* an object of the node: group, class, instance; group 0x0E holds the profiles *)
Definition eoj_class (e : Z * Z * Z) : Z * Z := fst e.
Definition is_profile_eoj (e : Z * Z * Z) : bool := fst (fst e) =? 14.
Definition is_profile_class (c : Z * Z) : bool := fst c =? 14.

Definition devices (es : list (Z * Z * Z)) : list (Z * Z * Z) :=
  filter (fun e => negb (is_profile_eoj e)) es.
Definition node_classes (es : list (Z * Z * Z)) : list (Z * Z) :=
  distinct class_eqb (map eoj_class es) [].

(* big-endian integers *)
Definition be2 (v : Z) : list Z := [(v / 256) mod 256; v mod 256].
Definition be3 (v : Z) : list Z := [(v / 65536) mod 256; (v / 256) mod 256; v mod 256].

(* node profile properties of a node with the objects [es], in the order they were added:
   0xD3 number of device objects; 0xD4 number of classes, the node profile's included;
   0xD5 and 0xD6 number and codes of the (first 255) device objects;
   0xD7 number and codes of the (first 255) device classes *)
Definition prof_D3 (es : list (Z * Z * Z)) : list Z := be3 (Z.of_nat (length (devices es))).
Definition prof_D4 (es : list (Z * Z * Z)) : list Z := be2 (Z.of_nat (length (node_classes es))).
Definition prof_D6 (es : list (Z * Z * Z)) : list Z :=
  let l := firstn 255 (devices es) in
  Z.of_nat (length l) :: concat (map enc_eoj l).
Definition prof_D7 (es : list (Z * Z * Z)) : list Z :=
  let l := firstn 255 (filter (fun c => negb (is_profile_class c)) (node_classes es)) in
  Z.of_nat (length l) :: concat (map (fun c => [fst c; snd c]) l).

(* the TID a host reads in bytes 2 and 3 of a frame *)
Definition tid_of (le : bool) (bytes : list Z) : option Z :=
  match bytes with
  | _ :: _ :: a :: b :: _ => Some (if le then a + 256 * b else 256 * a + b)
  | _ => None
  end.
