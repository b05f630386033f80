(* What the example programs uechosearch and uechodump should show. *)
From Coq Require Import String Ascii ZArith List Bool.
From Verif Require Import Spec_Frame Spec_Message Spec_Controller Spec_Node M_Controller Run_Node Run_Controller M_PostTool M_ShowTool.
Import ListNotations.
Open Scope Z_scope.

(* [t] is the number [v] with the digits 0 to 9 and A to F, filled up with zeros to [w] digits and no further *)
Definition digit_value (c : Z) : Z := if c <=? 57 then c - 48 else c - 55.
Definition text_value (base : Z) (t : list Z) : Z := fold_left (fun x c => base * x + digit_value c) t 0.
Definition number (base : Z) (w : nat) (t : list Z) (v : Z) : Prop :=
  t <> [] /\ Forall (fun c => (48 <= c <= 57 \/ 65 <= c <= 70) /\ 0 <= digit_value c < base) t
  /\ text_value base t = v
  /\ (w <= length t)%nat /\ ((w < length t)%nat -> hd 0 t <> 48).

(* a datagram as the system delivers it; the identifiers for a copy made because of it are there *)
Definition arrival_ok (x : arrival) : Prop :=
  buffer (ar_data x) /\ fresh_ok (ar_fr x) /\ (3 <= length (fr_man (ar_fr x)))%nat /\ (13 <= length (fr_uniq (ar_fr x)))%nat.

(* ---- the list of devices ---- *)

(* what is known: the devices by address, with their objects, in the order they were heard of *)
Definition table : Type := list (string * list (Z * Z * Z)).
(* a device with a node profile and the objects [l] *)
Fixpoint note (a : string) (l : list (Z * Z * Z)) (tb : table) : table :=
  match tb with
  | [] => [(a, learn [node_profile_eoj] l)]
  | (b, es) :: r => if String.eqb b a then (b, learn es l) :: r else (b, es) :: note a l r
  end.
(* what is known after the datagrams [h], bytes with sender: only instance lists say something *)
Inductive known_after : table -> list (list Z * string) -> table -> Prop :=
| ka_nil : forall tb, known_after tb [] tb
| ka_list : forall tb f rest z l a h tb', frame_ok f -> is_search_response f (z :: l) ->
    known_after (note a (triples l) tb) h tb' -> known_after tb ((enc_frame f ++ rest, a) :: h) tb'
| ka_other : forall tb data a h tb',
    (forall f rest z l, frame_ok f -> data = enc_frame f ++ rest -> ~ is_search_response f (z :: l)) ->
    known_after tb h tb' -> known_after tb ((data, a) :: h) tb'.

(* one object with its number: [0] 0EF001 *)
Definition object_item (i : Z) (e : Z * Z * Z) (t : list Z) : Prop :=
  exists d h, number 10 1 d i /\ number 16 6 h (eoj_code e) /\ t = [91] ++ d ++ [93; 32] ++ h ++ [32].
Inductive object_items : Z -> list (Z * Z * Z) -> list Z -> Prop :=
| oi_nil : forall i, object_items i [] []
| oi_cons : forall i e es t u, object_item i e t -> object_items (i + 1) es u -> object_items i (e :: es) (t ++ u).
(* the line of a device: its address in at least fifteen columns, its objects *)
Definition device_line (x : string * list (Z * Z * Z)) (t : list Z) : Prop :=
  exists u, object_items 0 (snd x) u
  /\ t = chars (fst x) ++ repeat 32 (15 - length (chars (fst x))) ++ [32] ++ u ++ [10].
Inductive lines {A : Type} (line : A -> list Z -> Prop) : list A -> list Z -> Prop :=
| ls_nil : lines line [] []
| ls_cons : forall x l t u, line x t -> lines line l u -> lines line (x :: l) (t ++ u).
Definition listing : table -> list Z -> Prop := lines device_line.

(* an address as the system writes it: no blank, no control character *)
Definition plain (a : string) : Prop := Forall (fun c => 32 < c) (chars a).

(* ---- frames ---- *)

(* the two bytes of the transaction id read as a number of the host *)
Definition tid_number (le : bool) (t : Z * Z) : Z := if le then snd t * 256 + fst t else fst t * 256 + snd t.
(* the codes of the properties the program shows: those of a frame that is not SetGet *)
Definition shown_codes (f : frame) : list Z := match f_body f with Plain ps => map fst ps | SetGetBody _ _ => [] end.
(* address, the two header bytes 10 and 81, TID, source object, destination object, service, number of properties,
   their codes *)
Definition frame_line (le : bool) (a : string) (f : frame) (t : list Z) : Prop :=
  exists ti so de es n cs, number 16 2 ti (tid_number le (f_tid f))
  /\ number 16 3 so (eoj_code (f_seoj f)) /\ number 16 3 de (eoj_code (f_deoj f)) /\ number 16 2 es (f_esv f)
  /\ number 10 1 n (Z.of_nat (length (shown_codes f)))
  /\ Forall2 (fun c h => number 16 2 h c) (shown_codes f) cs
  /\ t = chars a ++ [32; 49; 48; 32; 56; 49; 32] ++ ti ++ [32] ++ so ++ [32] ++ de ++ [32] ++ es ++ [32] ++ n ++ [32] ++ concat cs ++ [10].

(* what uechodump shows for what it meets, and whether it has ended: a line for each frame, nothing for other datagrams,
   the list of keys for every key but s and S; it ends with q *)
Inductive dumped (le : bool) : list devent -> list shown -> bool -> Prop :=
| du_nil : dumped le [] [] false
| du_quit : forall r, dumped le (DKey 113 :: r) [ShKeys] true
| du_search : forall k r s q, k = 115 \/ k = 83 -> dumped le r s q -> dumped le (DKey k :: r) s q
| du_none : forall k r s q, k < 0 -> dumped le r s q -> dumped le (DKey k :: r) s q
| du_keys : forall k r s q, 0 <= k -> k <> 113 -> k <> 115 -> k <> 83 -> dumped le r s q -> dumped le (DKey k :: r) (ShKeys :: s) q
| du_frame : forall x f rest t r s q, frame_ok f -> ar_data x = enc_frame f ++ rest -> frame_line le (ar_from x) f t ->
    dumped le r s q -> dumped le (DGot x :: r) (ShLine t :: s) q
| du_garbage : forall x r s q, (forall f rest, frame_ok f -> ar_data x <> enc_frame f ++ rest) ->
    dumped le r s q -> dumped le (DGot x :: r) s q.
(* what it meets: datagrams as the system delivers them *)
Definition meets_ok (e : devent) : Prop := match e with DGot x => arrival_ok x | DKey _ => True end.
