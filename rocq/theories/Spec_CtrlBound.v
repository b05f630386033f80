(* How much a controller holds. *)
From Coq Require Import String ZArith List Bool.
From Verif Require Import CSem M_Const M_Property M_PropertyList M_Object M_Node M_NodeListener M_Controller Spec_Message Spec_Object Run_Object Run_Node Run_Controller.
Import ListNotations.
Open Scope Z_scope.

(* no property, of its own node or of its copies of other nodes, has more than [K] bytes *)
Definition holds_at_most (K : Z) (c : ctrl) : Prop :=
  forall n o p, n = c_node c \/ In n (c_nodes c) -> In o (n_objs n) -> In p (o_props o) -> len (p_data p) <= K.

(* no call of the program makes a value of more than [K] bytes *)
Definition op_short (K : Z) (op : oop) (o : obj) : Prop :=
  match op with
  | OSetData _ d | OAdd _ _ d | OPropData _ d => len d <= K
  | OPropAppend code d => forall p, uecho_object_getproperty o code = Some p -> len (p_data p) + len d <= K
  | _ => True
  end.
Definition nop_short (K : Z) (x : nop) (n : node) : Prop :=
  match x with
  | NAdd o => forall p, In p (o_props o) -> len (p_data p) <= K
  | NObj code (KStep op _) => forall o, uecho_node_getobjectbycode n code = Some o -> op_short K op o
  | _ => True
  end.
Definition cop_short (K : Z) (x : cop) (c : ctrl) : Prop :=
  match x with
  | CLocal x => nop_short K x (c_node c)
  | CShadow a x => forall n, uecho_controller_getnodebyaddress c (Some a) = Some n -> nop_short K x n
  | _ => True
  end.

Section Does.
Variable le : bool.
Variable net snet : post -> bool.
Variable db : list obj.
(* the calls and datagrams [h] lead from [c] to [c']; nothing is said about memory *)
Inductive cdoes (K : Z) : ctrl -> list cop -> ctrl -> Prop :=
| cdoes_nil : forall c, cdoes K c [] c
| cdoes_cons : forall c x out h c', cop_ok le db x -> cop_short K x c -> cstep le net snet db c x = Ok out ->
    cdoes K (co_ctrl out) h c' -> cdoes K c (x :: h) c'.

(* what a program does that only watches a network: datagrams, searches, options, listeners, starting, requests whose
   messages stay alive; identifiers for the copies are there *)
Definition watching (x : cop) : Prop :=
  match x with
  | CReceive data _ _ _ fr => buffer data /\ fresh_ok fr /\ (3 <= length (fr_man fr))%nat /\ (13 <= length (fr_uniq fr))%nat
  | CSearch | CSearchObject _ | CEnable _ | CDisable _ | CMsgListener _ | CNodeListener _ | CStart _ | CPostEnd => True
  | CPost _ q r => api_msg le q /\ in_memory q /\ api_msg le r
  | CLocal _ | CShadow _ _ | CFree => False
  end.

(* ---- a device ---- *)
Definition node_at_most (K : Z) (n : node) : Prop := forall o p, In o (n_objs n) -> In p (o_props o) -> len (p_data p) <= K.
(* the calls and datagrams [h] lead from [n] to [n']; nothing is said about memory *)
Inductive ndoes (K : Z) : node -> list nop -> node -> list post -> list post -> Prop :=
| ndoes_nil : forall n, ndoes K n [] n [] []
| ndoes_cons : forall n x n1 p1 a1 h n' own ans, nop_ok le db x -> nop_short K x n -> nstep le net db n x = Ok (n1, p1, a1) ->
    ndoes K n1 h n' own ans -> ndoes K n (x :: h) n' (p1 ++ own) (a1 ++ ans).
(* a device that only answers and announces itself once it is set up *)
Definition serving (x : nop) : Prop :=
  match x with
  | NReceive data _ _ _ => buffer data
  | NAnnounce | NAddr _ => True
  | _ => False
  end.
End Does.
