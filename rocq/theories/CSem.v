(* C semantics used by the model: undefined behaviour as an outcome, machine
   integers, bounded byte buffers.  Nothing here models a function of /repo. *)
From Coq Require Import ZArith List Bool.
Import ListNotations.
Open Scope Z_scope.

(* Kinds of undefined behaviour the model distinguishes. *)
Inductive ub : Set :=
| UB_read       (* read outside an object *)
| UB_write      (* write outside an object *)
| UB_null       (* null pointer dereference *)
| UB_uninit     (* use of an uninitialised value *)
| UB_shift      (* shift by a negative amount or by at least the width *)
| UB_overflow   (* signed integer overflow *)
| UB_free       (* use after free *)
| UB_loop.      (* a loop that never ends *)

Inductive res (A : Type) : Type :=
| Ok (a : A)
| Undef (u : ub).
Arguments Ok {A} a.
Arguments Undef {A} u.

Definition bind {A B : Type} (x : res A) (f : A -> res B) : res B :=
  match x with Ok a => f a | Undef u => Undef u end.

Definition rmap {A B : Type} (f : A -> B) (x : res A) : res B :=
  match x with Ok a => Ok (f a) | Undef u => Undef u end.

Notation "'do' x <- e ;; f" := (bind e (fun x => f))
  (at level 200, x pattern, e at level 100, f at level 200, right associativity).

(* ---- machine integers ---- *)

Definition is_byte (b : Z) : Prop := 0 <= b < 256.
Definition bytes_ok (l : list Z) : Prop := Forall is_byte l.

(* conversion to unsigned char *)
Definition to_byte (z : Z) : Z := z mod 256.

(* size_t, 64 bit *)
Definition SIZE_MOD : Z := 18446744073709551616.
Definition sz (z : Z) : Z := z mod SIZE_MOD.

(* uint16_t *)
Definition u16 (z : Z) : Z := z mod 65536.
(* unsigned int *)
Definition u32 (z : Z) : Z := z mod 4294967296.

(* int, 32 bit two's complement *)
Definition INT_MIN : Z := -2147483648.
Definition INT_MAX : Z := 2147483647.
Definition is_int (z : Z) : Prop := INT_MIN <= z <= INT_MAX.
Definition int_chk (z : Z) : res Z :=
  if (INT_MIN <=? z) && (z <=? INT_MAX) then Ok z else Undef UB_overflow.

(* [a << n] for int operands: undefined if n is not in 0..31 or if the
   mathematical result does not fit in int (C11 6.5.7p4, a >= 0). *)
Definition int_shl (a n : Z) : res Z :=
  if (n <? 0) || (32 <=? n) then Undef UB_shift
  else if INT_MAX <? a * 2 ^ n then Undef UB_overflow else Ok (a * 2 ^ n).

(* [a >> n] for int a: undefined if n is not in 0..31; arithmetic shift
   (implementation-defined for negative a, as gcc and clang define it). *)
Definition int_shr (a n : Z) : res Z :=
  if (n <? 0) || (32 <=? n) then Undef UB_shift else Ok (Z.shiftr a n).

(* ---- byte buffers ---- *)

Definition len {A : Type} (l : list A) : Z := Z.of_nat (length l).

(* a[i] *)
Definition rd {A : Type} (l : list A) (i : Z) : res A :=
  if i <? 0 then Undef UB_read
  else match nth_error l (Z.to_nat i) with
       | Some b => Ok b
       | None => Undef UB_read
       end.

(* memcpy from a+off, n bytes; n = 0 reads nothing *)
Definition rd_range {A : Type} (l : list A) (off n : Z) : res (list A) :=
  if n =? 0 then Ok []
  else if (0 <=? off) && (0 <? n) && (off + n <=? len l)
       then Ok (firstn (Z.to_nat n) (skipn (Z.to_nat off) l))
       else Undef UB_read.

(* a[i] = b *)
Definition wr {A : Type} (l : list A) (i : Z) (b : A) : res (list A) :=
  if (0 <=? i) && (i <? len l)
  then Ok (firstn (Z.to_nat i) l ++ b :: skipn (Z.to_nat (i + 1)) l)
  else Undef UB_write.

(* memcpy to a+off; an empty source writes nothing *)
Definition wr_range {A : Type} (l : list A) (off : Z) (src : list A) : res (list A) :=
  if len src =? 0 then Ok l
  else if (0 <=? off) && (off + len src <=? len l)
       then Ok (firstn (Z.to_nat off) l ++ src ++ skipn (Z.to_nat (off + len src)) l)
       else Undef UB_write.

(* malloc'ed, not yet written bytes *)
Definition fresh_buf (n : Z) : list (option Z) := repeat None (Z.to_nat n).

(* the contents of a buffer that must be fully initialised *)
Fixpoint init_bytes (l : list (option Z)) : res (list Z) :=
  match l with
  | [] => Ok []
  | None :: _ => Undef UB_uninit
  | Some b :: r => rmap (cons b) (init_bytes r)
  end.
