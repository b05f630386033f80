(* What the arguments and the output of uechopost mean. *)
From Coq Require Import ZArith List Bool.
From Verif Require Import CSem Spec_Frame Spec_Message.
Import ListNotations.
Open Scope Z_scope.

(* hexadecimal digits, in both cases *)
Definition digit_of (c d : Z) : Prop :=
  (48 <= c <= 57 /\ d = c - 48) \/ (65 <= c <= 70 /\ d = c - 65 + 10) \/ (97 <= c <= 102 /\ d = c - 97 + 10).

(* [t] is the number [v], most significant digit first *)
Inductive numeral : list Z -> Z -> Prop :=
| num_digit : forall c d, digit_of c d -> numeral [c] d
| num_more : forall t v c d, numeral t v -> digit_of c d -> numeral (t ++ [c]) (16 * v + d).

(* [t] is the bytes [bs], two digits each *)
Inductive spells : list Z -> list Z -> Prop :=
| sp_nil : spells [] []
| sp_byte : forall c1 c2 h l t bs, digit_of c1 h -> digit_of c2 l -> spells t bs ->
    spells (c1 :: c2 :: t) (16 * h + l :: bs).

(* the complete properties (code, length, data) at the start of the bytes *)
Inductive reads : list Z -> list epair -> Prop :=
| rd_end : forall bs, (length bs < 2)%nat -> reads bs []
| rd_cut : forall c n r, len r < n -> reads (c :: n :: r) []
| rd_prop : forall c d r ps, reads r ps -> reads (c :: len d :: d ++ r) ((c, d) :: ps).

(* a property named twice is sent once, where it was first, with the last data *)
Definition merged (ps : list epair) : list epair :=
  map (fun c => (c, match last_write ps c with Some d => d | None => [] end)) (first_writes ps).

(* no lower case digits *)
Definition capital (t : list Z) : Prop := Forall (fun c => c <= 70) t.

(* the line printed for a response *)
Definition response_line (addr : list Z) (eoj : Z * Z * Z) (esv : Z) (ps : list epair) (text : list Z) : Prop :=
  exists tc te ts, let '(a, b, c) := eoj in
  spells tc [a; b; c] /\ spells te [esv] /\ capital tc /\ capital te /\ Forall capital ts
  /\ Forall2 (fun t e => spells t (fst e :: len (snd e) :: snd e)) ts ps
  /\ text = addr ++ [32] ++ tc ++ [32] ++ te ++ [32] ++ concat (map (fun t => t ++ [32]) ts) ++ [10].
