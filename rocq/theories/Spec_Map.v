(* ECHONET Lite property maps (specification appendix, "description format of
   property maps"), written without reference to the model. *)
From Coq Require Import ZArith List.
Import ListNotations.
Open Scope Z_scope.

(* A property code. *)
Definition epc (c : Z) : Prop := 128 <= c <= 255.

(* The codes listed by the map bytes [d].
   First byte: the number n of properties.
   n <= 15: the codes themselves follow.
   n >= 16: 16 bytes follow; bit b of byte r (r from 0) stands for code 0x80 + 0x10*b + r. *)
Definition map_lists (d : list Z) (c : Z) : Prop :=
  match d with
  | [] => False
  | n :: rest =>
      if n <=? 15 then In c (firstn (Z.to_nat n) rest)
      else exists r b byt, 0 <= r < 16 /\ 0 <= b < 8 /\ c = 128 + 16 * b + r
             /\ nth_error rest (Z.to_nat r) = Some byt /\ Z.testbit byt b = true
  end.

(* A complete map: as many bytes as the format prescribes. *)
Definition map_complete (d : list Z) : Prop :=
  match d with
  | [] => False
  | n :: rest =>
      if n <=? 15 then (Z.to_nat n <= length rest)%nat else length rest = 16%nat
  end.

(* [d] is a property map of exactly the codes [cs]. *)
Definition map_of (cs : list Z) (d : list Z) : Prop :=
  map_complete d /\ nth_error d 0 = Some (Z.of_nat (length cs))
  /\ forall c, map_lists d c <-> In c cs.
