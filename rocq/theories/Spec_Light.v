(* What the example lamp should do: its status is the last single byte written to property
   0x80 of object 0x029101, 0x30 before any was; each such write is reported on a line. *)
From Coq Require Import ZArith List Bool.
(* [dec_frame] (P_Message.v): the frame at the start of a datagram; dec_frame_iff there says
   that it is the frame whose encoding the datagram starts with *)
From Verif Require Import CSem M_Light Spec_Frame Spec_Request P_Message.
Import ListNotations.
Open Scope Z_scope.

(* the data a datagram writes to property 0x80 of the lamp, in order, with the service *)
Definition commands (data : list Z) : list (Z * list Z) :=
  match dec_frame data with
  | None => []
  | Some (f, _) =>
      if eoj_code (f_deoj f) =? 168193
      then map (fun e => (if f_esv f =? 110 then 97 else f_esv f, snd e)) (filter (fun e => fst e =? 128) (written f))
      else []
  end.
Definition commands_of (e : event) : list (Z * list Z) :=
  match e with Datagram data _ _ => commands data | Hangup _ => [] end.
Definition all_commands (es : list event) : list (Z * list Z) := concat (map commands_of es).

(* the status a command leads to *)
Definition switch (s : Z) (c : Z * list Z) : Z := match snd c with [x] => x | _ => s end.
Definition status_after (s : Z) (cs : list (Z * list Z)) : Z := fold_left switch cs s.

(* the line printed for a command *)
Definition reported (c : Z * list Z) : line :=
  mkLine (fst c) 128 (Z.of_nat (length (snd c)))
    (match snd c with
     | [x] => if x =? 48 then PowerOn else if x =? 49 then PowerOff else PowerIs x
     | _ => BadRequest
     end).
