(* What the string helpers should do, in terms of texts: lists of bytes without NUL. *)
From Coq Require Import ZArith List Bool.
From Verif Require Import CSem M_String.
Import ListNotations.
Open Scope Z_scope.

Definition char_ok (c : Z) : Prop := 0 < c < 256.
Definition text_ok (t : list Z) : Prop := Forall char_ok t.

(* a block that begins with the text [t] and its NUL *)
Definition block (t : list Z) (rest : list Z) : list Z := t ++ 0 :: rest.
Definition cells (t : list Z) (rest : list (option Z)) : list (option Z) := map Some t ++ Some 0 :: rest.

(* ---- the string object ---- *)

(* calls with arguments in memory of the caller; [rest] is what follows them there *)
Inductive top : Type :=
| TClear
| TSetNull | TSet (t : list Z) (rest : list (option Z))
| TSetNNull (n : Z) | TSetN (b : list Z) (rest : list (option Z))
| TAddNull | TAdd (t : list Z) (rest : list (option Z))
| TAddNNull (n : Z) | TAddN (b : list Z) (rest : list (option Z))
| TRep (t : list Z) (rest : list (option Z)) (cnt : Z)
| TRepN (b : list Z) (rest : list (option Z)) (cnt : Z).

Definition tstep (mem : Z -> bool) (s : ustr) (op : top) : res ustr :=
  match op with
  | TClear => Ok (uecho_string_clear s)
  | TSetNull => uecho_string_setvalue mem s PNull
  | TSet t r => uecho_string_setvalue mem s (PExt (cells t r))
  | TSetNNull n => uecho_string_setnvalue mem s PNull n
  | TSetN b r => uecho_string_setnvalue mem s (PExt (map Some b ++ r)) (len b)
  | TAddNull => rmap fst (uecho_string_addvalue mem s PNull)
  | TAdd t r => rmap fst (uecho_string_addvalue mem s (PExt (cells t r)))
  | TAddNNull n => rmap fst (uecho_string_naddvalue mem s PNull n)
  | TAddN b r => rmap fst (uecho_string_naddvalue mem s (PExt (map Some b ++ r)) (len b))
  | TRep t r k => uecho_string_addrepvalue mem s (PExt (cells t r)) k
  | TRepN b r k => uecho_string_naddrepvalue mem s (PExt (map Some b ++ r)) (len b) k
  end.
Fixpoint trun (mem : Z -> bool) (s : ustr) (ops : list top) : res ustr :=
  match ops with [] => Ok s | op :: r => do s' <- tstep mem s op ;; trun mem s' r end.

(* the value a string should have *)
Definition appended (v : option (list Z)) (t : list Z) : option (list Z) :=
  match t with [] => v | _ => Some (match v with None => [] | Some u => u end ++ t) end.
Definition vstep (v : option (list Z)) (op : top) : option (list Z) :=
  match op with
  | TClear => None
  | TSetNull => v
  | TSet t _ => Some t
  | TSetNNull _ => None
  | TSetN b _ => Some b
  | TAddNull => v
  | TAdd t _ => appended v t
  | TAddNNull _ => v
  | TAddN b _ => appended v b
  | TRep t _ k => appended v (concat (repeat t (Z.to_nat k)))
  | TRepN b _ k => appended v (concat (repeat b (Z.to_nat k)))
  end.
Definition vlen (v : option (list Z)) : Z := match v with None => 0 | Some t => len t end.

Definition OBJECT_MAX : Z := 9223372036854775807.
(* what the calls ask of their caller: texts have no NUL, repeat counts fit an int, and all fits in memory *)
Definition top_ok (v : option (list Z)) (op : top) : Prop :=
  match op with
  | TSet t _ | TAdd t _ => text_ok t
  | TRep t _ k => text_ok t /\ 0 <= k <= INT_MAX
  | TRepN _ _ k => 0 <= k <= INT_MAX
  | _ => True
  end /\ vlen (vstep v op) + 17 <= OBJECT_MAX.
Fixpoint tops_ok (v : option (list Z)) (ops : list top) : Prop :=
  match ops with [] => True | op :: r => top_ok v op /\ tops_ok (vstep v op) r end.
Definition plenty (mem : Z -> bool) : Prop := forall n, 0 <= n <= OBJECT_MAX -> mem n = true.

(* the string has the value [v], with a NUL after it, inside the memory it owns *)
Definition stands (s : ustr) (v : option (list Z)) : Prop :=
  match v with
  | None => s = mkStr None 0 0
  | Some t => exists slack, st_value s = Some (cells t slack) /\ st_size s = len t /\ st_mem s = len (cells t slack)
  end.

(* ---- replacing ---- *)

(* [t] with the patterns replaced, from left to right; where several match, the first of the list *)
Inductive replaced (ps : list (list Z * list Z)) : list Z -> list Z -> Prop :=
| r_end : replaced ps [] []
| r_hit : forall f u t r pre post, ps = pre ++ (f, u) :: post -> f <> [] ->
    (forall g w x, In (g, w) pre -> f ++ t <> g ++ x) ->
    replaced ps t r -> replaced ps (f ++ t) (u ++ r)
| r_skip : forall c t r, (forall g w x, In (g, w) ps -> c :: t <> g ++ x) ->
    replaced ps t r -> replaced ps (c :: t) (c :: r).
(* a pattern and its replacement as arguments; a NULL replacement counts as empty *)
Definition pat_arg (p : list Z * list Z) (a : list (option Z) * src) : Prop :=
  text_ok (fst p) /\ fst p <> [] /\ text_ok (snd p)
  /\ (exists rest, fst a = cells (fst p) rest)
  /\ ((exists rest, snd a = PExt (cells (snd p) rest)) \/ snd a = PNull /\ snd p = []).
(* no pattern begins with another one *)
Definition prefix_free (ps : list (list Z * list Z)) : Prop :=
  forall pre f u mid g w post, ps = pre ++ (f, u) :: mid ++ (g, w) :: post ->
    (forall x, f <> g ++ x) /\ (forall x, g <> f ++ x).

(* ---- trimming ---- *)

(* [r] is [t] without the leading and trailing characters that are in [d] *)
Definition trimmed (d : Z -> Prop) (t r : list Z) : Prop :=
  exists a b, t = a ++ r ++ b /\ Forall d a /\ Forall d b
    /\ (forall c x, r = c :: x -> ~ d c) /\ (forall c x, r = x ++ [c] -> ~ d c).
Definition blank (c : Z) : Prop := c = 32 \/ 9 <= c <= 13.

(* ---- tokens ---- *)

(* the non-empty fields of [t] between characters in [d], with their positions *)
Inductive fields (d : Z -> Prop) : Z -> list Z -> list (Z * list Z) -> Prop :=
| f_end : forall i, fields d i [] []
| f_delim : forall i c t fs, d c -> fields d (i + 1) t fs -> fields d i (c :: t) fs
| f_last : forall i w, w <> [] -> Forall (fun c => ~ d c) w -> fields d i w [(i, w)]
| f_field : forall i w c t fs, w <> [] -> Forall (fun c => ~ d c) w -> d c ->
    fields d (i + len w + 1) t fs -> fields d i (w ++ c :: t) ((i, w) :: fs).

(* the C string at an offset of the tokenizer's value *)
Definition text_at (t : tok) (o : Z) : res (list Z) := ctext (skipn (Z.to_nat o) (k_value t)).
(* asking for tokens: their offsets, and their texts when they are returned *)
Inductive asks : tok -> list (Z * list Z) -> tok -> Prop :=
| k_end : forall t, asks t [] t
| k_step : forall t t' o w l e, uecho_string_tokenizer_hasmoretoken t = true ->
    uecho_string_tokenizer_nexttoken t = Ok (t', Some o) -> text_at t' o = Ok w -> asks t' l e -> asks t ((o, w) :: l) e.

(* ---- order and search ---- *)

(* [a] comes before [b] in the dictionary *)
Definition before (a b : list Z) : Prop :=
  exists p, (exists y b', b = p ++ y :: b' /\ a = p) \/ (exists x y a' b', a = p ++ x :: a' /\ b = p ++ y :: b' /\ x < y).
(* [i] is where [b] first occurs in [a] *)
Definition first_at (a b : list Z) (i : Z) : Prop :=
  (exists p q, a = p ++ b ++ q /\ len p = i) /\ forall p q, a = p ++ b ++ q -> i <= len p.
(* the first and the last character of [t] that is in [d] *)
Definition first_in (d : Z -> Prop) (t : list Z) (i : Z) : Prop :=
  exists p c q, t = p ++ c :: q /\ len p = i /\ d c /\ Forall (fun x => ~ d x) p.
Definition last_in (d : Z -> Prop) (t : list Z) (i : Z) : Prop :=
  exists p c q, t = p ++ c :: q /\ len p = i /\ d c /\ Forall (fun x => ~ d x) q.
