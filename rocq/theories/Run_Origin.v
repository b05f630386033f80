(* What puts a value into a property of an object of a device. *)
From Coq Require Import String ZArith List Bool.
From Verif Require Import CSem M_Const M_Property M_Message M_PropertyList M_Object M_Node M_NodeListener
  Spec_Frame Spec_Message Spec_Object Spec_Node Spec_Request Run_Object Run_Node P_NodeProps P_RequestApi.
Import ListNotations.
Open Scope Z_scope.

(* [v] in [size] bytes, most significant first *)
Definition msb_bytes (v : Z) (size : nat) : list Z :=
  map (fun i => (v / 256 ^ (Z.of_nat size - 1 - Z.of_nat i)) mod 256) (seq 0 size).

(* [puts n oc epc x v]: call or datagram [x], met by node [n], can make [v] the data of property
   [epc] of the object with code [oc]; None: the property or the object is gone.
   The program stores through the object or through the property: *)
Inductive puts (n : node) (oc epc : Z) : nop -> option (list Z) -> Prop :=
| put_data : forall d junk, puts n oc epc (NObj oc (KStep (OSetData epc d) junk)) (Some d)
| put_byte : forall b junk, puts n oc epc (NObj oc (KStep (OSetByte epc b) junk)) (Some [b])
| put_int : forall v size, puts n oc epc (NObj oc (KSetInt epc v size)) (Some (msb_bytes v size))
| put_through : forall d junk, puts n oc epc (NObj oc (KStep (OPropData epc d) junk)) (Some d)
| put_append : forall d d0 junk, node_data n oc epc = Some d0 ->
    puts n oc epc (NObj oc (KStep (OPropAppend epc d) junk)) (Some (d0 ++ d))
(* it defines the property, or drops all of them *)
| put_add : forall a d junk, puts n oc epc (NObj oc (KStep (OAdd epc a d) junk)) (Some d)
| put_define : forall a junk, puts n oc epc (NObj oc (KStep (OSetProperty epc a) junk)) (Some [])
| put_clear : forall junk, puts n oc epc (NObj oc (KStep OClear junk)) None
(* it asks for a property that is not there, or sets its attribute *)
| put_attr : forall a junk, node_data n oc epc = None -> puts n oc epc (NObj oc (KStep (OSetAttr epc a) junk)) (Some [])
| put_get : node_data n oc epc = None -> puts n oc epc (NObj oc (KGet epc)) (Some [])
(* it sets the manufacturer code, 0x8A, of all objects *)
| put_manufacturer : forall code, epc = 138 -> puts n oc epc (NManufacturer code) (Some (be3 code))
(* it adds the object, or one without data *)
| put_object : forall o, uecho_object_getcode o = oc -> uecho_node_getobjectbycode n oc = None ->
    puts n oc epc (NAdd o) (option_map p_data (uecho_object_getproperty o epc))
| put_new : forall code junk, code mod 16777216 = oc -> uecho_node_getobjectbycode n oc = None ->
    puts n oc epc (NSet code junk) (Some [])
| put_empty : puts n oc epc NClear None
(* somebody sends a request that writes the property *)
| put_request : forall f rest la ra dec d, frame_ok f -> dest f = oc -> In (epc, d) (written f) ->
    node_data n oc epc <> None ->
    puts n oc epc (NReceive (enc_frame f ++ rest) la ra dec) (Some d).

(* the properties whose data the library computes: the property maps of all objects, and the
   lists of classes and objects in the node profile, 0xD3 to 0xD7 *)
Definition computed (oc epc : Z) : Prop := map_epc epc \/ (oc = 978945 /\ 211 <= epc <= 215).
