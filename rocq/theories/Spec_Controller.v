(* Specification of what a controller learns from received frames. *)
From Coq Require Import String ZArith List Bool.
From Verif Require Import Spec_Frame.
Import ListNotations.
Open Scope Z_scope.

(* an instance list (property 0xD6): a count byte, then three bytes per object *)
Fixpoint triples (l : list Z) : list (Z * Z * Z) :=
  match l with
  | a :: b :: c :: r => (a, b, c) :: triples r
  | _ => []
  end.
Definition listed (d : list Z) : list (Z * Z * Z) :=
  match d with [] => [] | _ :: r => triples r end.

(* frames that answer a search: a read response, notification or notification response
   whose only property is the instance list, with data *)
Definition search_esv (esv : Z) : Prop := esv = 114 \/ esv = 115 \/ esv = 122.
Definition is_search_response (f : frame) (d : list Z) : Prop :=
  search_esv (f_esv f) /\ f_body f = Plain [(214, d)].

Definition eoj_eqb (x y : Z * Z * Z) : bool := eoj_code x =? eoj_code y.
(* objects known after hearing of [l], in the order they became known *)
Definition add_eoj (known : list (Z * Z * Z)) (e : Z * Z * Z) : list (Z * Z * Z) :=
  if existsb (eoj_eqb e) known then known else known ++ [e].
Definition learn (known l : list (Z * Z * Z)) : list (Z * Z * Z) := fold_left add_eoj l known.

(* services that report property values of the sender: read responses, notifications *)
Definition report_esv (esv : Z) : Prop := esv = 114 \/ esv = 115 \/ esv = 126.
(* services whose frames the controller takes values from: those, and also the error
   answers 0x52, 0x53 and 0x5E and the notification response 0x7A *)
Definition update_esv (esv : Z) : Prop :=
  esv = 114 \/ esv = 126 \/ esv = 82 \/ esv = 94 \/ esv = 115 \/ esv = 122 \/ esv = 83.

(* the property values a frame reports: its properties; of a SetGet frame the read ones *)
Definition reported (f : frame) : list epair :=
  match f_body f with Plain ps => ps | SetGetBody _ g => g end.

(* whether storing the values one after the other changes anything; a property the copy
   does not have counts as empty *)
Fixpoint differs (m : Z -> option (list Z)) (ps : list epair) : bool :=
  match ps with
  | [] => false
  | e :: r =>
      (if list_eq_dec Z.eq_dec (match m (fst e) with Some d => d | None => [] end) (snd e) then false else true)
      || differs (fun x => if x =? fst e then Some (snd e) else m x) r
  end.

(* services the node listener is told about: 0x73 as announced, and as responded the answers
   to requests except 0x51 *)
Definition told_esv (esv : Z) : bool := existsb (Z.eqb esv) [113; 114; 115; 122; 126; 80; 82; 83; 94].
