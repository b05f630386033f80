(* What uechosearch -v and uechobench -v show when the devices they ask are devices of this library. *)
From Coq Require Import String ZArith List Bool.
From Verif Require Import CSem M_Const M_Property M_Message M_PropertyList M_Object M_Node M_NodeListener M_Controller M_ShowTool M_Verbose M_Bench
  StdDB_Data M_Std Spec_Frame Spec_Node Spec_Request Spec_Controller Spec_Verbose Spec_Bench Run_Node.
Import ListNotations.
Open Scope Z_scope.

(* what a device has for a property: nothing without the object, no data without the property *)
Definition holds (d : node) (code epc : Z) : option (list (list Z)) :=
  match uecho_node_getobjectbycode d code with
  | None => None
  | Some o => Some [match uecho_object_getproperty o epc with Some p => p_data p | None => [] end]
  end.
Definition maker (d : node) : option Z :=
  match holds d 978945 138 with Some [v] => Some (number_of v) | _ => None end.

(* the device [d] gets the request [bytes], its handlers agree, and what it answers is among the datagrams [w]; no other of
   them has the transaction id of the request, except for Get requests *)
Definition data_of (p : post) : list Z := match p with PAnnounce b => b | PSend _ b => b end.
Definition serves (d : node) (bytes : list Z) (w : list arrival) : Prop :=
  exists le net dec la from r, api_node le net std_db d
  /\ (forall code epc v, holds d code epc = Some [v] -> (length v <= 255)%nat)
  /\ node_receive le net dec d bytes la (Some from) = Ok r /\ Forall (fun x => snd x = true) (r_calls r)
  /\ (forall b, In b (map data_of (r_answer r)) -> exists x, In x w /\ ar_data x = b)
  /\ (forall q x f rest, bytes = enc_frame q -> In x w -> ar_data x = enc_frame f ++ rest -> frame_ok f -> f_tid f = f_tid q -> f_esv f <> 98 ->
        In (ar_data x) (map data_of (r_answer r))).

(* the devices by address *)
Definition devices_at : Type := string -> node.
(* at each step the request, if there is one, is served by the device with that address, as it is at that step *)
Fixpoint served {P : Type} (step : ctrl -> P -> list arrival -> res (ctrl * P * list post * list vline)) (c : ctrl) (p : P)
  (ds : list devices_at) (ws : list (list arrival)) : Prop :=
  match ws, ds with
  | [], [] => True
  | w :: ws', d :: ds' =>
      forall c1 p1 s t, step c p w = Ok (c1, p1, s, t) ->
      (forall a bytes, s = [PSend a bytes] -> serves (d a) bytes w) /\ served step c1 p1 ds' ws'
  | _, _ => False
  end.

(* these lines tell what the devices have, each as it is at the step; with the manufacturer or without *)
Inductive tells (m : bool) : list devices_at -> list item -> list vline -> Prop :=
| tells_nil : tells m [] [] []
| tells_skip : forall d ds l v, tells m ds l v -> tells m (d :: ds) l v
| tells_object : forall d ds j code l v, tells m ds l v -> tells m (d :: ds) (IObject j code :: l) (VObject j code :: v)
| tells_device : forall d ds a l v, tells m ds l v ->
    tells m (d :: ds) (IDevice a :: l) (VDevice a (if m then match a with Some a => maker (d a) | None => None end else None) :: v)
| tells_value : forall d ds a j k code epc l v, tells m ds l v ->
    tells m (d :: ds) (IValue (Some a) j k code epc :: l) (VValue j k epc (holds (d a) code epc) :: v).

(* the lines for devices that stay as they are *)
Definition truth (m : bool) (d : devices_at) (i : item) : vline :=
  match i with
  | IDevice a => VDevice a (if m then match a with Some a => maker (d a) | None => None end else None)
  | IObject j code => VObject j code
  | IValue a j k code epc => VValue j k epc (match a with Some a => holds (d a) code epc | None => None end)
  end.

(* ---- a network of just the program and devices of this library ---- *)
(* the datagrams that arrive are what the devices answer to the requests [s], from where they were asked *)
Definition only_answers (d : devices_at) (s : list post) (w : list arrival) : Prop :=
  match s with
  | [PSend a bytes] => exists le net dec la from r, api_node le net std_db (d a)
      /\ (forall code epc v, holds (d a) code epc = Some [v] -> (length v <= 255)%nat)
      /\ node_receive le net dec (d a) bytes la (Some from) = Ok r /\ Forall (fun x => snd x = true) (r_calls r)
      /\ map ar_data w = map data_of (r_answer r) /\ Forall (fun x => ar_from x = a) w
  | _ => w = []
  end.
(* at each step just these arrive; what is sent at a step is what is sent when nothing arrives *)
Fixpoint closed {P : Type} (step : ctrl -> P -> list arrival -> res (ctrl * P * list post * list vline)) (d : devices_at) (c : ctrl) (p : P)
  (ws : list (list arrival)) : Prop :=
  match ws with
  | [] => True
  | w :: ws' =>
      (forall c0 p0 s t, step c p [] = Ok (c0, p0, s, t) -> only_answers d s w)
      /\ forall c1 p1 s t, step c p w = Ok (c1, p1, s, t) -> closed step d c1 p1 ws'
  end.
(* the program has heard of the objects in the instance lists of these devices, and the code of the manufacturer fits in an
   int *)
Definition heard_of (sh : list device_seen) (d : devices_at) : Prop :=
  forall a os, In (Some a, os) sh ->
  (forall code z r e, holds (d a) code 214 = Some [z :: r] -> In e (listed (z :: r)) -> In (eoj_code e) (map fst os))
  /\ (forall v, holds (d a) 978945 138 = Some [v] -> (length v <= 4)%nat /\ number_of v <= 2147483647).
