(* What a program with nodes must take care of beyond the rules of Spec_NodeLife.v so that every call is defined on values. *)
From Coq Require Import String ZArith List Bool.
From Verif Require Import CSem M_Const M_Property M_PropertyList M_Object Spec_Object Run_Object Run_Node Spec_Message M_Node M_NodeListener M_Server
  M_NodeLife Spec_Mem M_ObjUse Spec_ObjMem Spec_NodeLife.
Import ListNotations.
Open Scope Z_scope.

(* a value of a property has at most 2^40 bytes *)
Definition modest_data (op : oop) (o : obj) : Prop :=
  match op with
  | OSetData _ d | OAdd _ _ d | OPropData _ d => len d <= 1099511627776
  | OPropAppend c d => forall p, uecho_object_getproperty o c = Some p -> len (p_data p) + len d <= 1099511627776
  | _ => True
  end.

(* the node called is alive; property codes are bytes; no NULL is registered as a handler; a new node gets its random bytes *)
Definition ncare (op : nop) (st : nstate) : Prop :=
  match op with
  | NOwn (UHandler _ _ _ h) => h <> None
  | NOwn (UProps i p) => forall o, mine (ns_own st) i = Some o -> modest_data p o
  | NOwn _ => True
  | NNew t man uniq => 0 <= t < 4294967296 /\ bytes_ok man /\ bytes_ok uniq /\ (3 <= length man)%nat /\ (13 <= length uniq)%nat
  | NAdd k i => node_at st k <> None /\ mine (ns_own st) i <> None
  | NData k _ c d => node_at st k <> None /\ epc_code c /\ len d <= 1099511627776
  | NInt k _ c _ _ | NAttr k _ c _ => node_at st k <> None /\ epc_code c
  | NHandler k _ _ _ h => node_at st k <> None /\ h <> None
  | NDelete k | NClear k | NSet k _ | NListen k _ | NAddress k _ | NAnnounce k | NReceive k _ _ _ | NRead k _ | NWatch k _ _ =>
      node_at st k <> None
  end.

Section Care.
Variable junk : nat -> Z.
Variable le : bool.
Variable net : post -> bool.
Variable dec : list (hcall * bool) -> hcall -> bool.
Fixpoint ncareful (ops : list nop) (st : nstate) : Prop :=
  match ops with
  | [] => True
  | op :: r => nargs_ok op /\ nrules op st /\ ncare op st
               /\ forall v st', nvalue junk le net dec op st = Some (v, st') -> ncareful r st'
  end.
End Care.
