(* Reading the standard object table, independently of how the library loads it. *)
From Coq Require Import ZArith List Bool.
From Verif Require Import StdDB_Data.
Import ListNotations.
Open Scope Z_scope.

(* the rows of class [cls] of group [grp]; (0, 0) is the super class *)
Definition class_rows (grp cls : Z) : list (Z * rule * rule * rule) :=
  match find (fun e => (fst (fst e) =? grp) && (snd (fst e) =? cls)) std_rows with
  | Some e => snd e
  | None => []
  end.

Definition row_code (r : Z * rule * rule * rule) : Z := fst (fst (fst r)).

(* the rules (get, set, announce) listed last for a code in a class *)
Definition listed (grp cls c : Z) : option (rule * rule * rule) :=
  match find (fun r => row_code r =? c) (rev (class_rows grp cls)) with
  | Some (_, g, s, a) => Some (g, s, a)
  | None => None
  end.

(* the access a rule gives in the library *)
Definition grants (r : rule) : bool := match r with Rq | Op => true | _ => false end.
(* the access a rule is meant to give: everything but "notApplicable" *)
Definition allows (r : rule) : bool := match r with Na => false | _ => true end.
Definition required (r : rule) : bool := match r with Rq => true | _ => false end.
