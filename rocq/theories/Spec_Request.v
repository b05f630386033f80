(* What a device does with the properties of a request, given which of them it accepts.
   Written from the ECHONET Lite specification, part 2, 4.2. *)
From Coq Require Import ZArith List Bool.
From Verif Require Import Spec_Frame.
Import ListNotations.
Open Scope Z_scope.

(* data of the properties an object has *)
Definition dstate : Type := Z -> option (list Z).
Definition dset (m : dstate) (c : Z) (d : list Z) : dstate := fun x => if x =? c then Some d else m x.

(* requests: SetI 0x60, SetC 0x61, Get 0x62, INF_REQ 0x63, SetGet 0x6E, INFC 0x74 *)
Definition request_esv (esv : Z) : Prop := In esv [96; 97; 98; 99; 110; 116].
Definition write_esv (esv : Z) : bool := (esv =? 96) || (esv =? 97).
Definition read_esv (esv : Z) : bool := (esv =? 98) || (esv =? 99) || (esv =? 116).

(* the data stored by a write request: [vs] says which properties are accepted *)
Fixpoint write_all (m : dstate) (ps : list epair) (vs : list bool) : dstate :=
  match ps, vs with
  | e :: ps', v :: vs' => write_all (if v then dset m (fst e) (snd e) else m) ps' vs'
  | _, _ => m
  end.

(* the answer to one property: nothing for an accepted write, the value for an accepted
   read; a refused SetC gets its data back, any other refused property nothing *)
Definition answer_pair (esv : Z) (m : dstate) (e : epair) (v : bool) : epair :=
  (fst e,
   if v then (if read_esv esv then match m (fst e) with Some d => d | None => [] end else [])
   else if esv =? 97 then snd e else []).

Definition answer_all (esv : Z) (m : dstate) (ps : list epair) (vs : list bool) : list epair :=
  map (fun x => answer_pair esv m (fst x) (snd x)) (combine ps vs).

(* data last given for a code *)
Fixpoint last_data (ps : list epair) (c : Z) : option (list Z) :=
  match ps with
  | [] => None
  | e :: r =>
      match last_data r c with
      | Some d => Some d
      | None => if fst e =? c then Some (snd e) else None
      end
  end.

(* the properties a request writes *)
Definition written (f : frame) : list epair :=
  match f_body f with
  | Plain ps => if write_esv (f_esv f) then ps else []
  | SetGetBody s _ => if f_esv f =? 110 then s else []
  end.

(* property codes of a frame, list by list *)
Definition body_codes (b : body) : list Z * list Z :=
  match b with
  | Plain ps => (map fst ps, [])
  | SetGetBody s g => (map fst s, map fst g)
  end.

(* success and error ESV of each service; None: no answer *)
Definition success_esv (esv : Z) : option Z :=
  if esv =? 97 then Some 113 else if esv =? 98 then Some 114 else if esv =? 99 then Some 115
  else if esv =? 110 then Some 126 else if esv =? 116 then Some 122 else None.
Definition error_esv (esv : Z) : option Z :=
  if esv =? 96 then Some 80 else if esv =? 97 then Some 81 else if esv =? 98 then Some 82
  else if esv =? 99 then Some 83 else if esv =? 110 then Some 94 else None.
