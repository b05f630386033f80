(* What a program with a controller must take care of beyond the rules of Spec_CtrlLife.v so that every call is defined on values. *)
From Coq Require Import String ZArith List Bool.
From Verif Require Import CSem M_CtrlUse M_NodeLife Spec_Mem M_Const M_Property M_PropertyList M_Object Spec_Object Run_Object Run_Node Run_Controller Spec_Message M_Message M_Node
  M_NodeListener M_Server M_Controller M_MemUse M_ObjUse Spec_ObjMem Spec_NodeLife Spec_CtrlLife Spec_Careful.
Import M_NodeLife CSem M_Property M_Message M_PropertyList M_Object M_Node M_NodeListener Spec_NodeLife.
Import ListNotations.
Open Scope Z_scope.

(* random bytes for a node that is made, and contents of fresh memory *)
Definition fresh_enough (fr : fresh) : Prop := fresh_ok fr /\ (3 <= length (fr_man fr))%nat /\ (13 <= length (fr_uniq fr))%nat.
(* the database describes no Get property map that cannot be read *)
Definition maps_readable (db : list obj) : Prop := forall o p, In o db -> In p (o_props o) -> p_code p = 159 -> uecho_property_isreadable p = true.
(* calls on the local node that neither delete it nor make another one *)
Definition on_local (o : nop) : Prop := match o with NNew _ _ _ | NDelete _ => False | _ => True end.
(* a message that can be sent *)
Definition sendable (st : kstate) (i : nat) : Prop := exists m, alive (ks_msgs st) i = Some m /\ in_memory m.

Definition kcare (op : kop) (st : kstate) : Prop :=
  match op with
  | KNodes o => ncare o (ks_nodes st)
  | KMsg o => Spec_Mem.rules o (ks_msgs st)
  | KNew _ fr => ks_ctrl st = None /\ fresh_enough fr
  | KDelete => ks_ctrl st <> None /\ ks_lent st = None
  | KStart _ => ks_ctrl st <> None
  | KLocal o => exists c, ks_ctrl st = Some c /\ on_local o /\ ncare o (mkNstate (ns_own (ks_nodes st)) [Some (c_node c)])
  | KSearch esv | KSearchObject _ esv => ks_ctrl st <> None /\ is_byte esv
  | KAnnounce i | KSend _ _ i => ks_ctrl st <> None /\ sendable st i
  | KPost _ i j => ks_ctrl st <> None /\ ks_lent st = None /\ i <> j /\ sendable st i /\ exists p, alive (ks_msgs st) j = Some p
  | KWait => ks_ctrl st <> None /\ ks_lent st <> None
  | KReceive fr _ _ _ =>
      (* no request failed before *)
      exists c, ks_ctrl st = Some c /\ fresh_enough fr /\ maps_readable (s_db (ns_own (ks_nodes st)))
        /\ (ks_lent st <> None \/ c_res c = MNull)
  | KListen _ | KWatch _ | KEnable _ | KDisable _ | KEnabled _ | KCount | KRead _ _ | KFind _ => ks_ctrl st <> None
  end.

Section Care.
Variable junk : nat -> Z.
Variable le : bool.
Variable net snet : post -> bool.
Variable dec : list (hcall * bool) -> hcall -> bool.
Fixpoint kcareful (ops : list kop) (st : kstate) : Prop :=
  match ops with
  | [] => True
  | op :: r => kargs_ok op /\ krules op st /\ kcare op st /\ forall v st', kvalue junk le net snet dec op st = Some (v, st') -> kcareful r st'
  end.
End Care.
