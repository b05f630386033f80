(* C79: a node, its objects, its classes and its servers in memory, from uecho_node_new to uecho_node_delete. *)
From Coq Require Import String ZArith List Bool Lia Permutation.
From Verif Require Import CSem P_Base M_Const M_Misc M_Property M_PropertyList M_Object Spec_Object Run_Object Spec_Message M_Node M_NodeListener M_Server M_Mem M_MemUse Spec_Mem
  M_ObjMem M_ObjUse Spec_ObjMem P_Object P_Mem Properties_Mem Properties_ObjMem P_ObjMem P_ObjStd P_ObjRun P_ObjLegal P_Ring M_NodeLife Spec_NodeLife P_NodeWhole P_NodeProg.
Import ListNotations.
Open Scope Z_scope.

Lemma nvalue_ginv : forall junk le net dec op st v st', junk_ok junk -> ginv (ns_own st) -> nargs_ok op -> nrules op st -> nvalue junk le net dec op st = Some (v, st') ->
  ginv (ns_own st').
Proof.
  intros junk le net dec op st v st' Hj G AO RU E. destruct op; cbn [nvalue nargs_ok nrules node_of] in *;
    try (match type of E with match node_at ?s ?k with Some _ => _ | None => _ end = _ => destruct (node_at s k) as [n|]; [|discriminate] end);
    try (match type of E with context [node_call ?j ?a ?b ?c ?d ?e ?f] => destruct (node_call j a b c d e f) as [[? ?]|]; [|discriminate]; injection E as <- <-; exact G end).
  - destruct (legal_step junk u (ns_own st) Hj G AO RU) as (v1 & o1 & EV & G1). rewrite EV in E. injection E as <- <-. exact G1.
  - destruct (M_Node.uecho_node_new le net (s_db (ns_own st)) tid0 junk man uniq) as [[n posts]|]; [|discriminate]. injection E as <- <-. exact G.
  - injection E as <- <-. exact G.
  - destruct (mine (ns_own st) i) as [o|]; [|discriminate]. destruct (M_Node.uecho_node_addobject le net n o) as [[[n' posts] b]|]; [|discriminate]. injection E as <- <-.
    cbn [ns_own]. destruct (has_object n (M_Object.uecho_object_getcode o)); [exact G|]. apply ginv_place; [exact G|intros o0 X; discriminate|apply G].
Qed.

Lemma wp_nrun : forall room junk le net dec db ops, (forall n, room n = true) -> junk_ok junk -> forall ps ns st vs st' L W F, nlegal junk le net dec ops st -> ginv (ns_own st) ->
  nvalues junk le net dec ops st = Some (vs, st') -> nworld db ps ns st W -> Permutation L (W ++ F) ->
  wp (nrun room junk le net dec db ops ps ns) L (fun r L' => fst (fst r) = vs /\ exists W', Permutation L' (W' ++ F) /\ nworld db (snd (fst r)) (snd r) st' W').
Proof.
  intros room junk le net dec db ops Room Hj. induction ops as [|op ops IH]; intros ps ns st vs st' L W F LG G E WO P; cbn [nlegal nvalues nrun] in *.
  - injection E as <- <-. apply wp_ret. split; [reflexivity|]. exists W. auto.
  - destruct LG as (O & R & LG). destruct (nvalue junk le net dec op st) as [[v st1]|] eqn:EV; [|discriminate].
    destruct (nvalues junk le net dec ops st1) as [[vs2 st2]|] eqn:ES; [|discriminate]. injection E as <- <-.
    apply wp_bind. eapply wp_conseq; [eapply (wp_nstep room Room junk le net dec db op ps ns st v st1 L W F); eassumption|]. cbv beta.
    intros [[r ps'] ns'] L' (EO & W' & P' & WO'). cbn [fst snd] in *.
    apply wp_bind. eapply wp_conseq; [apply (IH ps' ns' st1 vs2 st2 L' W' F (LG _ _ eq_refl)); [eapply nvalue_ginv; eassumption|exact ES|exact WO'|exact P']|].
    cbv beta. intros [[r2 ps2] ns2] L2 (EO2 & W2 & P2 & R2). cbn [fst snd] in *. apply wp_ret. cbn [fst snd]. split; [congruence|]. exists W2. auto.
Qed.

(* ---------- C79: a program that keeps to the rules sees nodes as values and leaks nothing ---------- *)

Theorem C79_histories_partial : forall room junk le net dec ops, (forall n, room n = true) -> (forall i, is_byte (junk i)) ->
  nlegal junk le net dec ops no_nodes -> forall vs st, nvalues junk le net dec ops no_nodes = Some (vs, st) ->
  forall h, well h -> exists h', nmain room junk le net dec ops h = Ok (vs, h')
     /\ (forall a b, h_mem h a = Some b -> h_mem h' a = Some b)
     /\ (nothing_left st -> forall a, h_mem h' a = h_mem h a).
Proof.
  intros room junk le net dec ops Room Hj LG vs st E h W. destruct (well_is h W) as (F & J).
  assert (G0 : ginv nothing) by (split; [intros [|i] o X; discriminate|constructor]).
  assert (M : wp (nmain room junk le net dec ops) F (fun r L' => r = vs /\ exists ps ns Ls Ln, Permutation L' ((Ls ++ Ln) ++ F) /\ all_objs ps (s_objs (ns_own st)) Ls
     /\ all_nodes ns (ns_nodes st) Ln)).
  { unfold nmain. apply wp_bind. unfold uecho_objectlist_new. apply wp_malloc; [apply Room|]. intros db _ _.
    assert (W0 : nworld db [] [] no_nodes [(db, BHead db db)]).
    { exists [(db, BHead db db)], []. split; [apply Permutation_refl|]. split; [|reflexivity]. exists [], [(db, BHead db db)]. split; [apply Permutation_refl|].
      split; [reflexivity|]. apply rlist_new. }
    apply wp_bind. eapply wp_conseq; [apply (wp_nrun room junk le net dec db ops Room Hj [] [] no_nodes vs st _ _ F LG G0 E W0 (Permutation_refl _))|].
    cbv beta. intros [[r ps] ns] L (EO & W' & P & (Lw & Ln & PW & (Ls & Ld & PD & R & D) & AN)). cbn [fst snd] in *.
    apply wp_bind. eapply (wp_db_delete db (s_db (ns_own st)) Ld L ((Ls ++ Ln) ++ F)); [exact D| |].
    - eapply perm_trans; [exact P|]. eapply perm_trans; [apply Permutation_app_tail; exact PW|]. eapply perm_trans; [do 2 apply Permutation_app_tail; exact PD|]. perm.
    - apply wp_ret. split; [exact EO|]. exists ps, ns, Ls, Ln. split; [apply Permutation_refl|]. split; [exact R|exact AN]. }
  destruct (M h J) as (r & h' & L' & EX & J' & -> & ps & ns & Ls & Ln & P & R & AN).
  exists h'. split; [exact EX|]. apply (heap_perm _ _ _ J') in P. split.
  - intros a b X. apply P. apply in_or_app. right. apply J. exact X.
  - intros [D1 D2]. apply objs_gone in R; [|exact D1]. apply nodes_gone in AN; [|exact D2]. subst Ls Ln. exact (heap_same h h' F J P).
Qed.
Print Assumptions C79_histories_partial.

(* A node profile class is given to the database, a node is made, gets two objects, one of them from the caller, and is used in all ways. *)
Definition zero (n : nat) : Z := 0.
Definition good_net (p : post) : bool := true.
Definition allow (past : list (hcall * bool)) (c : hcall) : bool := true.
Definition a_node_program : list nop :=
  [NOwn UNew; NOwn (UGroup 0 14); NOwn (UClass 0 240); NOwn (UProps 0 (OSetProperty 213 5)); NOwn (UProps 0 (OAdd 214 1 [0])); NOwn (UShare 0);
   NNew 65535 [1; 2; 3] [1; 2; 3; 4; 5; 6; 7; 8; 9; 10; 11; 12; 13];
   NOwn UNew; NOwn (UCode 1 167937); NOwn (UProps 1 (OAdd 128 7 [48]));
   NAdd 0 1; NSet 0 77825; NSet 0 77825; NListen 0 true; NAddress 0 "192.168.0.3"%string;
   NHandler 0 167937 97 128 (Some 7%nat); NWatch 0 167937 true; NAttr 0 77825 129 3; NInt 0 77825 129 258 2;
   NData 0 167937 128 [49]; NData 0 5 128 [49]; NRead 0 77825; NRead 0 5;
   NReceive 0 [16; 129; 0; 9; 5; 255; 1; 2; 144; 1; 97; 1; 128; 1; 65] "10.0.0.2"%string None;
   NReceive 0 [16; 129; 0; 9; 5; 255; 1; 2; 144; 1; 98; 1; 128; 0] "10.0.0.2"%string (Some "10.0.0.3"%string);
   NReceive 0 [16; 129; 0] "10.0.0.2"%string None; NAnnounce 0;
   NOwn UNew; NOwn (UCode 2 77825); NAdd 0 2; NOwn (UDelete 2); NRead 0 978945; NClear 0; NAnnounce 0; NDelete 0].

Ltac node_arg := cbn [nargs_ok]; first
  [ exact Logic.I | lia | arg_tac
  | split; [split; [bytes_tac|unfold OBJ_MAX; vm_compute; discriminate]|split; cbn [c_text]; first [exact Logic.I | split; [vm_compute; repeat constructor; discriminate|unfold OBJ_MAX; vm_compute; reflexivity]]]
  | split; [bytes_tac|unfold OBJ_MAX; vm_compute; discriminate]
  | split; [vm_compute; repeat constructor; discriminate|unfold OBJ_MAX; vm_compute; reflexivity] ].
Ltac node_rule := cbn [nrules]; first [exact Logic.I | rule_tac].
Example C79_example : nlegal zero true good_net allow a_node_program no_nodes /\
  match nvalues zero true good_net allow a_node_program no_nodes with
  | Some (vs, st) => nothing_left st
     /\ nth_error vs 10 = Some (VCall true [PAnnounce [16; 129; 1; 0; 14; 240; 1; 14; 240; 1; 115; 1; 213; 4; 1; 2; 144; 1]])
     /\ nth_error vs 19 = Some (VCall true [PAnnounce [16; 129; 3; 0; 14; 240; 1; 14; 240; 1; 115; 1; 128; 1; 49]])
     /\ nth_error vs 20 = Some (VCall false [])
     /\ nth_error vs 23 = Some (VReact ([PAnnounce [16; 129; 4; 0; 14; 240; 1; 14; 240; 1; 115; 1; 128; 1; 65]; PSend "10.0.0.2" [16; 129; 0; 9; 2; 144; 1; 5; 255; 1; 113; 1; 128; 0]],
          [(mkCall 7 167937 (mkProp 128 7 [49] true) 97 [65], true)], [ToldNode; ToldObject 167937]))
     /\ nth_error vs 29 = Some (VCall false [])
  | None => False
  end.
Proof.
  split.
  - unfold a_node_program. cbn [nlegal].
    repeat (split; [node_arg|]; split; [node_rule|]; let v := fresh "v" in let st := fresh "st" in let E := fresh "E" in intros v st E;
      vm_compute in E; injection E as <- <-).
    exact Logic.I.
  - vm_compute. split; [split; repeat constructor|]. repeat split.
Qed.

(* ---------- what the rules and the memory are for ---------- *)

Definition fresh_node : list nop :=
  [NNew 0 [1; 2; 3] [1; 2; 3; 4; 5; 6; 7; 8; 9; 10; 11; 12; 13]].
Definition run_node (room : Z -> bool) (ops : list nop) : res (list nobs * heap) := nmain room zero true good_net allow ops empty_heap.

(* a code of more than three bytes: uecho_node_setobject makes an object with the last three, which the node has; it is refused and never released,
   though on values everything is deleted *)
Definition long_code : list nop := fresh_node ++ [NSet 0 (16777216 + 978945); NDelete 0].
Theorem C79_long_code_refuted :
  match nvalues zero true good_net allow long_code no_nodes, run_node plenty long_code with
  | Some (vs, st), Ok (vs', h) => nothing_left st /\ vs' = vs /\ exists a b, h_mem h a = Some b
  | _, _ => False
  end.
Proof. vm_compute. split; [split; repeat constructor|]. split; [reflexivity|]. exists 50. eexists. reflexivity. Qed.
Print Assumptions C79_long_code_refuted.

(* an allocation fails while a node is made *)
Theorem C79_no_memory_refuted : exists room, run_node room fresh_node = Undef UB_null.
Proof. exists (fun n => negb (n =? 6)). vm_compute. reflexivity. Qed.
Print Assumptions C79_no_memory_refuted.

(* uecho_node_addobject says false for an object that it took, when the node has no profile; the caller releases it after the node *)
Theorem C79_refused_but_taken_refuted :
  (exists h, run_node plenty (fresh_node ++ [NClear 0; NOwn UNew; NAdd 0 0]) = Ok ([VCall true []; VCall true []; VOwn VNone; VCall false []], h))
  /\ run_node plenty (fresh_node ++ [NClear 0; NOwn UNew; NAdd 0 0; NDelete 0; NOwn (UDelete 0)]) = Undef UB_free.
Proof. split; [eexists|]; vm_compute; reflexivity. Qed.
Print Assumptions C79_refused_but_taken_refuted.

(* an object in two nodes: it is linked into the second list while the first still points to it; both nodes delete it *)
Theorem C79_two_nodes_refuted : run_node plenty (fresh_node ++ fresh_node ++ [NOwn UNew; NAdd 0 0; NAdd 1 0; NDelete 0; NDelete 1]) = Undef UB_free.
Proof. vm_compute. reflexivity. Qed.
Print Assumptions C79_two_nodes_refuted.
