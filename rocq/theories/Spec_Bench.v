(* What uechobench -v asks and prints. *)
From Coq Require Import String ZArith List Bool.
From Verif Require Import CSem M_Const M_Property M_Message M_PropertyList M_Object M_Node M_NodeListener M_Controller M_ShowTool M_Verbose
  Spec_Frame Spec_Node Spec_Request Spec_Controller Spec_Verbose.
Import ListNotations.
Open Scope Z_scope.

(* the list, so many times over *)
Definition rounds (k : Z) (l : list item) : list item := concat (repeat l (Z.to_nat k)).

(* the items are done, with these requests and lines: devices and objects are only printed *)
Inductive bench_did : list (list arrival) -> list item -> list post -> list vline -> Prop :=
| bd_nil : bench_did [] [] [] []
| bd_skip : forall w ws l s v, bench_did ws l s v -> bench_did (w :: ws) l s v
| bd_device : forall w ws a l s v, bench_did ws l s v -> bench_did (w :: ws) (IDevice a :: l) s (VDevice a None :: v)
| bd_object : forall w ws j code l s v, bench_did ws l s v -> bench_did (w :: ws) (IObject j code :: l) s (VObject j code :: v)
| bd_value : forall w ws a j k e epc t ds l s v, frame_ok (get_frame t e epc) -> printed w t ds -> bench_did ws l s v ->
    bench_did (w :: ws) (IValue (Some a) j k (eoj_code e) epc :: l) (PSend a (enc_frame (get_frame t e epc)) :: s) (VValue j k epc ds :: v).
