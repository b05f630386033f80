(* What logging a packet should do: print one line with the packet in hexadecimal, if debug lines are wanted. *)
From Coq Require Import String ZArith List Bool.
From Verif Require Import CSem M_String Spec_String M_Server M_Log.
Import ListNotations.
Open Scope Z_scope.

Definition digits : list Z := cstr "0123456789ABCDEF".
Definition two_digits (b : Z) (t : list Z) : Prop :=
  exists h l, 0 <= h < 16 /\ 0 <= l < 16 /\ b = 16 * h + l
    /\ t = [nth (Z.to_nat h) digits 0; nth (Z.to_nat l) digits 0].
(* the hexadecimal text of some bytes *)
Inductive hex_of : list Z -> list Z -> Prop :=
| hex_nil : hex_of [] []
| hex_cons : forall b bs t ts, two_digits b t -> hex_of bs ts -> hex_of (b :: bs) (t ++ ts).

(* [t], filled up with blanks to a width of 15 *)
Definition column (t c : list Z) : Prop := exists n, c = t ++ repeat 32 n /\ len c = Z.max 15 (len t).

(* what stands before the bytes: a letter, the sender and the receiver *)
Definition heading (letter from to h : list Z) : Prop :=
  exists cf ct, column from cf /\ column to ct /\ h = letter ++ cstr " " ++ cf ++ cstr " -> " ++ ct ++ cstr " ".

(* the line printed for a packet *)
Definition line_of (now letter from to data line : list Z) : Prop :=
  exists h x, heading letter from to h /\ hex_of data x /\ line = now ++ cstr " : DEBUG " ++ h ++ x.

(* the time as text: not longer than a reasonable locale makes it *)
Definition time_ok (now : list Z) : Prop := text_ok now /\ len now <= 1000.

(* an address as text, of at most 15 characters, as those of IPv4 *)
Definition short (s : string) : Prop := text_ok (cstr s) /\ len (cstr s) <= 15.
(* a datagram that the log has room for: 109 bytes, of a sender with a name, and a known local address *)
Definition arrival_logs (a : arrival) : Prop :=
  match a with
  | AData b from local => from <> EmptyString /\ short from /\ len b <= 109 /\ exists l, local = Some l /\ short l
  | _ => True
  end.
