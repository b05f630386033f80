(* What uechosearch -v asks and prints. *)
From Coq Require Import String ZArith List Bool.
From Verif Require Import CSem M_Const M_Property M_Message M_PropertyList M_Object M_Node M_NodeListener M_Controller M_ShowTool M_Verbose
  Spec_Frame Spec_Node Spec_Request Spec_Controller.
Import ListNotations.
Open Scope Z_scope.

(* a device a controller has heard of: its address, its objects by code, their properties by code and whether each must be
   readable *)
Definition device_seen : Type := option string * list (Z * list (Z * bool)).
Definition seen (c : ctrl) : list device_seen :=
  map (fun n => (n_addr n, map (fun o => (uecho_object_getcode o,
                                         map (fun p => (p_code p, uecho_property_isreadrequired p)) (o_props o))) (n_objs n)))
      (c_nodes c).

(* what is to be done for these devices, in order: ask a device for its manufacturer, print an object, ask for a property
   that must be readable; with the numbers of object and property *)
Inductive item : Type :=
| IDevice (a : option string)
| IObject (j : nat) (code : Z)
| IValue (a : option string) (j k : nat) (code epc : Z).
Fixpoint ask_props (a : option string) (j : nat) (code : Z) (k : nat) (ps : list (Z * bool)) : list item :=
  match ps with
  | [] => []
  | (epc, must) :: r => (if must then [IValue a j k code epc] else []) ++ ask_props a j code (S k) r
  end.
Fixpoint ask_objects (a : option string) (j : nat) (os : list (Z * list (Z * bool))) : list item :=
  match os with
  | [] => []
  | (code, ps) :: r => IObject j code :: ask_props a j code 0 ps ++ ask_objects a (S j) r
  end.
Definition agenda (sh : list device_seen) : list item := flat_map (fun d => IDevice (fst d) :: ask_objects (fst d) 0 (snd d)) sh.

(* the request for a property of an object *)
Definition get_frame (t : Z * Z) (e : Z * Z * Z) (epc : Z) : frame := mkFrame t node_profile_eoj e 98 (Plain [(epc, [])]).
(* among the datagrams [w] is the frame [f] with the transaction id [t], which is not a Get request itself *)
Definition answer (w : list arrival) (t : Z * Z) (f : frame) : Prop :=
  exists x rest, In x w /\ ar_data x = enc_frame f ++ rest /\ frame_ok f /\ f_tid f = t /\ f_esv f <> 98.
Definition values (f : frame) : list (list Z) := match f_body f with Plain ps => map snd ps | SetGetBody _ _ => [] end.
(* the values printed, none printed: those of such a frame, none such came *)
Definition printed (w : list arrival) (t : Z * Z) (ds : option (list (list Z))) : Prop :=
  match ds with Some vs => exists f, answer w t f /\ vs = values f | None => forall f, ~ answer w t f end.
(* the manufacturer code: the only value of such a frame as a number *)
Definition number_of (d : list Z) : Z := fold_left (fun v b => v * 256 + b) d 0.
Definition made_by (w : list arrival) (t : Z * Z) (man : option Z) : Prop :=
  match man with
  | Some v => exists f d, answer w t f /\ values f = [d] /\ v = number_of d
  | None => (forall f, ~ answer w t f) \/ exists f, answer w t f /\ length (values f) <> 1%nat
  end.

(* the items are done, with these requests, in this order, and these lines; [ws] are the datagrams that arrived, step by step *)
Inductive did : list (list arrival) -> list item -> list post -> list vline -> Prop :=
| did_nil : did [] [] [] []
| did_skip : forall w ws l s v, did ws l s v -> did (w :: ws) l s v
| did_object : forall w ws j code l s v, did ws l s v -> did (w :: ws) (IObject j code :: l) s (VObject j code :: v)
| did_device : forall w ws a t man l s v, frame_ok (get_frame t node_profile_eoj 138) -> made_by w t man -> did ws l s v ->
    did (w :: ws) (IDevice (Some a) :: l) (PSend a (enc_frame (get_frame t node_profile_eoj 138)) :: s) (VDevice (Some a) man :: v)
| did_value : forall w ws a j k e epc t ds l s v, frame_ok (get_frame t e epc) -> printed w t ds -> did ws l s v ->
    did (w :: ws) (IValue (Some a) j k (eoj_code e) epc :: l) (PSend a (enc_frame (get_frame t e epc)) :: s) (VValue j k epc ds :: v).

(* a datagram that tells of nothing unknown: an instance list is of a device heard of and lists objects heard of, reported
   properties are known *)
Definition quiet (sh : list device_seen) (x : arrival) : Prop :=
  forall f rest, frame_ok f -> ar_data x = enc_frame f ++ rest ->
  (forall z r, is_search_response f (z :: r) -> exists os, In (Some (ar_from x), os) sh /\ forall e, In e (listed (z :: r)) -> In (eoj_code e) (map fst os))
  /\ (update_esv (f_esv f) -> forall os ps e, In (Some (ar_from x), os) sh -> In (eoj_code (f_seoj f), ps) os -> In e (reported f) ->
        In (fst e) (map fst ps)).
(* a datagram that could be taken for a manufacturer code has a number that fits in an int *)
Definition fits_int (x : arrival) : Prop :=
  forall f rest d, frame_ok f -> ar_data x = enc_frame f ++ rest -> values f = [d] -> (length d <= 4)%nat /\ number_of d <= 2147483647.

(* the number of steps it takes, the last one included *)
Definition steps_of (sh : list device_seen) : nat :=
  fold_right (fun (d : device_seen) k => S (S (fold_right (fun (o : Z * list (Z * bool)) m => S (S (length (snd o)) + m)) k (snd d)))) 1%nat sh.

(* a datagram that asks nothing of the program itself *)
Definition asks_nothing (x : arrival) : Prop := forall f rest, frame_ok f -> ar_data x = enc_frame f ++ rest -> ~ request_esv (f_esv f).
(* the requests sent carry the transaction ids that follow [t], one after the other *)
Inductive numbered (le : bool) : Z -> list post -> Prop :=
| num_nil : forall t, numbered le t []
| num_next : forall t a e epc s, numbered le (next_tid t) s ->
    numbered le t (PSend a (enc_frame (get_frame (tid_wire le (next_tid t)) e epc)) :: s).
