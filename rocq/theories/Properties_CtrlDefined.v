(* C80: every call of a careful program with a controller is defined, on values and in memory. *)
From Coq Require Import String ZArith List Bool Lia Permutation.
From Verif Require Import CSem P_Base M_Const M_Misc M_Property M_PropertyList M_Object Spec_Object Run_Object Run_Node Run_Controller Spec_Message M_Node M_NodeListener M_Controller M_Server M_Mem M_MemUse Spec_Mem
  M_ObjMem M_ObjUse Spec_ObjMem P_ObjMem P_ObjRun P_ObjLegal M_NodeLife Spec_NodeLife M_CtrlUse Spec_CtrlLife Properties_Mem Properties_ObjMem Properties_NodeMem Properties_CtrlMem
  Spec_Careful P_NodeDefined Properties_NodeDefined Spec_CtrlCareful P_CtrlDefined.
Import ListNotations.
Open Scope Z_scope.

(* [kcareful]: every call keeps to the rules of Spec_CtrlLife.v and to those of Spec_CtrlCareful.v.  No call is assumed to be defined. *)
Theorem C80_careful_partial : forall room junk le net snet dec ops, (forall n, room n = true) -> (forall i, is_byte (junk i)) ->
  kcareful junk le net snet dec ops no_ctrl ->
  exists vs st, kvalues junk le net snet dec ops no_ctrl = Some (vs, st)
    /\ forall h, well h -> exists h', kmain room junk le net snet dec ops h = Ok (vs, h')
       /\ (forall a b, h_mem h a = Some b -> h_mem h' a = Some b)
       /\ (Spec_CtrlLife.all_deleted st -> forall a, h_mem h' a = h_mem h a).
Proof.
  intros room junk le net snet dec ops Hr Hj C.
  destruct (krun_total junk Hj le net snet dec ops no_ctrl (no_ctrl_fit le) no_ctrl_bound C) as (vs & st & E & _).
  exists vs, st. split; [exact E|]. exact (C80_histories_partial room junk le net snet dec ops Hr Hj (kcareful_legal junk le net snet dec ops no_ctrl C) vs st E).
Qed.
Print Assumptions C80_careful_partial.

(* the program of C80_example is careful *)
Lemma some_fresh_ok : fresh_enough some_fresh.
Proof.
  split; [|cbn; split; lia]. split; [cbn; lia|]. split; [intros i; unfold is_byte; cbn; lia|]. split; [cbn [fr_man some_fresh]; bytes_tac|].
  split; [cbn [fr_uniq some_fresh]; bytes_tac|]. intros k i. unfold is_byte. cbn. lia.
Qed.

Lemma maps_none : maps_readable [].
Proof. intros o p []. Qed.

Ltac msg_rule := cbn [Spec_Mem.rules]; first
  [ exact Logic.I
  | eexists; vm_compute; reflexivity
  | eexists; split; [vm_compute; reflexivity|right; vm_compute; reflexivity] ].
Ltac sent_tac := eexists; split; [vm_compute; reflexivity|unfold in_memory; vm_compute; discriminate].
Ltac in_ctrl_tac := eexists; split; [reflexivity|].
Ltac ctrl_care := lazymatch goal with
  | |- kcare (KMsg _) _ => cbn [kcare]; msg_rule
  | |- kcare (KNodes _) _ => cbn [kcare]; node_care
  | |- kcare (KNew _ _) _ => cbn [kcare]; split; [reflexivity|exact some_fresh_ok]
  | |- kcare (KLocal _) _ => cbn [kcare]; in_ctrl_tac; split; [exact Logic.I|node_care]
  | |- kcare (KReceive _ _ _ _) _ => cbn [kcare]; in_ctrl_tac; split; [exact some_fresh_ok|]; split; [exact maps_none|]; first [left; discriminate | right; reflexivity]
  | |- kcare (KPost _ _ _) _ => cbn [kcare]; split; [discriminate|]; split; [reflexivity|]; split; [discriminate|]; split; [sent_tac|eexists; vm_compute; reflexivity]
  | |- kcare (KSearch _) _ => cbn [kcare]; split; [discriminate|unfold is_byte; lia]
  | |- kcare (KSearchObject _ _) _ => cbn [kcare]; split; [discriminate|unfold is_byte; lia]
  | |- kcare (KAnnounce _) _ => cbn [kcare]; split; [discriminate|sent_tac]
  | |- kcare (KSend _ _ _) _ => cbn [kcare]; split; [discriminate|sent_tac]
  | |- kcare KDelete _ => cbn [kcare]; split; [discriminate|reflexivity]
  | |- kcare KWait _ => cbn [kcare]; split; discriminate
  | |- kcare _ _ => cbn [kcare]; discriminate
  end.

Example C80_careful_example : kcareful zero true good_net good_net allow a_ctrl_program no_ctrl.
Proof.
  unfold a_ctrl_program, found, answer. cbn [kcareful].
  repeat (split; [ctrl_arg|]; split; [ctrl_rule|]; split; [idtac; ctrl_care|];
    let v := fresh "v" in let st := fresh "st" in let E := fresh "E" in intros v st E; vm_compute in E; injection E as <- <-).
  exact Logic.I.
Qed.
