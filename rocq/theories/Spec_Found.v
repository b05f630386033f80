(* What uechosearch finds when devices of this library answer. *)
From Coq Require Import String ZArith List Bool.
From Verif Require Import CSem M_Const M_Property M_Message M_PropertyList M_Object M_Node M_NodeListener M_Controller M_ShowTool
  StdDB_Data M_Std Spec_Frame Spec_Node Spec_Request Spec_Controller Spec_ShowTool Spec_Verbose Run_Node Spec_Told.
Import ListNotations.
Open Scope Z_scope.

(* the request of the program: a read of the instance list of the node profile *)
Definition who_is_there (tid : Z * Z) : frame := mkFrame tid node_profile_eoj node_profile_eoj 98 (Plain [(214, [])]).

(* the instance list of the device names its devices, and fits in a frame *)
Definition presents (n : node) : Prop :=
  holds n 978945 214 = Some [prof_D6 (eojs n)] /\ (length (devices (eojs n)) <= 84)%nat.

(* the datagram is what the device at the address of its sender answers to such a request; its handlers agree *)
Definition search_answer (d : devices_at) (x : arrival) : Prop :=
  exists le net dec la from tid r, api_node le net std_db (d (ar_from x)) /\ presents (d (ar_from x)) /\ frame_ok (who_is_there tid)
  /\ node_receive le net dec (d (ar_from x)) (enc_frame (who_is_there tid)) la (Some from) = Ok r /\ Forall (fun y => snd y = true) (r_calls r)
  /\ In (ar_data x) (map data_of (r_answer r)).
(* the datagram is no instance list *)
Definition something_else (x : arrival) : Prop :=
  forall f rest z l, frame_ok f -> ar_data x = enc_frame f ++ rest -> ~ is_search_response f (z :: l).

(* the addresses of the devices that have answered, in the order of their answers *)
Inductive answered (d : devices_at) : list arrival -> list string -> Prop :=
| an_nil : answered d [] []
| an_one : forall x h l, search_answer d x -> answered d h l -> answered d (x :: h) (ar_from x :: l)
| an_other : forall x h l, something_else x -> answered d h l -> answered d (x :: h) l.

(* these devices, each once, with the node profile and their devices *)
Definition found (d : devices_at) (l : list string) : table :=
  map (fun a => (a, node_profile_eoj :: devices (eojs (d a)))) (distinct String.eqb l []).

(* of the objects of the device just the node profile has data for the property 0xD6, and the code of the manufacturer fits in
   an int *)
Definition plain_device (n : node) : Prop :=
  (forall code v, holds n code 214 = Some [v] -> code <> 978945 -> v = [])
  /\ (forall v, holds n 978945 138 = Some [v] -> (length v <= 4)%nat /\ number_of v <= 2147483647).
