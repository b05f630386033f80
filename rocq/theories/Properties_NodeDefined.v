(* C79: every call of a careful program with nodes is defined, on values and in memory. *)
From Coq Require Import String ZArith List Bool Lia Permutation.
From Verif Require Import CSem P_Base M_Const M_Misc M_Property M_PropertyList M_Object Spec_Object Run_Object Run_Node Spec_Message M_Node M_NodeListener M_Server M_Mem M_MemUse Spec_Mem
  M_ObjMem M_ObjUse Spec_ObjMem P_ObjMem P_ObjRun P_ObjLegal M_NodeLife Spec_NodeLife P_NodeProg Properties_Mem Properties_ObjMem Properties_NodeMem Spec_Careful P_NodeDefined.
Import ListNotations.
Open Scope Z_scope.

(* [ncareful]: every call keeps to the rules of Spec_NodeLife.v and to those of Spec_Careful.v.  No call is assumed to be defined. *)
Theorem C79_careful_partial : forall room junk le net dec ops, (forall n, room n = true) -> (forall i, is_byte (junk i)) ->
  ncareful junk le net dec ops no_nodes ->
  exists vs st, nvalues junk le net dec ops no_nodes = Some (vs, st)
    /\ forall h, well h -> exists h', nmain room junk le net dec ops h = Ok (vs, h')
       /\ (forall a b, h_mem h a = Some b -> h_mem h' a = Some b)
       /\ (nothing_left st -> forall a, h_mem h' a = h_mem h a).
Proof.
  intros room junk le net dec ops Hr Hj C. destruct (run_total junk Hj le net dec ops no_nodes no_nodes_fit no_nodes_bound C) as (vs & st & E & _).
  exists vs, st. split; [exact E|]. exact (C79_histories_partial room junk le net dec ops Hr Hj (careful_legal junk le net dec ops no_nodes C) vs st E).
Qed.
Print Assumptions C79_careful_partial.

(* the program of C79_example is careful *)
Ltac node_care := cbn [ncare]; first
  [ exact Logic.I
  | discriminate
  | let o := fresh in intros o _; first [exact Logic.I|vm_compute; discriminate]
  | split; [lia|]; split; [bytes_tac|]; split; [bytes_tac|]; split; cbn [length]; lia
  | split; [vm_compute; discriminate|]; split; [unfold epc_code; lia|vm_compute; discriminate]
  | split; [vm_compute; discriminate|first [unfold epc_code; lia|vm_compute; discriminate]]
  | vm_compute; discriminate ].

Example C79_careful_example : ncareful zero true good_net allow a_node_program no_nodes.
Proof.
  unfold a_node_program. cbn [ncareful].
  repeat (split; [node_arg|]; split; [node_rule|]; split; [node_care|];
    let v := fresh "v" in let st := fresh "st" in let E := fresh "E" in intros v st E; vm_compute in E; injection E as <- <-).
  exact Logic.I.
Qed.

(* a node that was deleted is called again: on values the call has no meaning, in memory it reads what was released *)
Definition after_delete : list nop := fresh_node ++ [NDelete 0; NAnnounce 0].
Theorem C79_deleted_refuted : nvalues zero true good_net allow after_delete no_nodes = None /\ exists e, run_node plenty after_delete = Undef e.
Proof. vm_compute. split; [reflexivity|]. eexists. reflexivity. Qed.
Print Assumptions C79_deleted_refuted.
