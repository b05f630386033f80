(* C80: a controller, its local node, the nodes it finds and the messages lent to it in memory, from uecho_controller_new to uecho_controller_delete. *)
From Coq Require Import String ZArith List Bool Lia Permutation.
From Verif Require Import CSem P_Base M_Const M_Misc M_Property M_PropertyList M_Object Spec_Object Run_Object Spec_Message M_Node M_NodeListener M_Controller M_Server M_Mem M_MemUse Spec_Mem
  M_ObjMem M_ObjUse Spec_ObjMem P_Object P_Mem Properties_Mem Properties_ObjMem P_MemRun P_ObjMem P_ObjStd P_ObjRun P_ObjLegal P_Ring M_NodeLife Spec_NodeLife P_NodeWhole P_NodeProg Properties_NodeMem
  M_CtrlUse Spec_CtrlLife P_CtrlRun P_CtrlProg.
Import ListNotations.
Open Scope Z_scope.

Lemma kvalue_ginv : forall junk le net snet dec op st v st', junk_ok junk -> ginv (ns_own (ks_nodes st)) -> kargs_ok op -> krules op st -> kvalue junk le net snet dec op st = Some (v, st') ->
  ginv (ns_own (ks_nodes st')).
Proof.
  intros junk le net snet dec op st v st' Hj G AO RU E.
  assert (CC : forall f, Spec_CtrlLife.given (ks_ctrl st) f = Some (v, st') -> exists c, f c = Some (v, st')) by (intros f EF; destruct (ks_ctrl st) as [c|]; [exists c; exact EF|discriminate]).
  destruct op; cbn [kvalue kargs_ok krules] in *; try (destruct (CC _ E) as (c & E'); clear E; rename E' into E; cbn [ctrl_call] in E);
    unfold try, Spec_CtrlLife.given, with_message, with_ctrl in E;
    repeat (match type of E with
            | match nvalue ?a ?b ?c ?d ?e ?f with _ => _ end = _ => let EV := fresh "EV" in destruct (nvalue a b c d e f) as [[? ?]|] eqn:EV; [|discriminate]
            | match (match ?z with _ => _ end) with _ => _ end = _ => destruct z; try discriminate
            | match ?z with _ => _ end = _ => destruct z; try discriminate
            end);
    try (injection E as <- <-; exact G).
  - injection E as <- <-. cbn [ks_nodes fst snd]. eapply nvalue_ginv; eassumption.
  - injection E as <- <-. cbn [ks_nodes ns_own fst snd]. eapply (nvalue_ginv junk le net dec op (mkNstate (ns_own (ks_nodes st)) _)); [exact Hj|exact G|exact AO|destruct op; exact RU|exact EV].
Qed.

Lemma wp_krun : forall room junk le net snet dec db ops, (forall n, room n = true) -> junk_ok junk -> forall x st vs st' L W F, klegal junk le net snet dec ops st -> ginv (ns_own (ks_nodes st)) ->
  kvalues junk le net snet dec ops st = Some (vs, st') -> kworld db x st W -> Permutation L (W ++ F) ->
  wp (krun room junk le net snet dec db ops x) L (fun r L' => fst r = vs /\ exists W', Permutation L' (W' ++ F) /\ kworld db (snd r) st' W').
Proof.
  intros room junk le net snet dec db ops Room Hj. induction ops as [|op ops IH]; intros x st vs st' L W F LG G E WO P; cbn [klegal kvalues krun] in *.
  - injection E as <- <-. apply wp_ret. split; [reflexivity|]. exists W. auto.
  - destruct LG as (O & R & LG). destruct (kvalue junk le net snet dec op st) as [[v st1]|] eqn:EV; [|discriminate]. cbn [Spec_CtrlLife.given snd] in E.
    destruct (kvalues junk le net snet dec ops st1) as [[vs2 st2]|] eqn:ES; [|discriminate]. injection E as <- <-.
    apply wp_bind. eapply wp_conseq; [eapply (wp_kstep room Room junk le net snet dec db op x st v st1 L W F); eassumption|]. cbv beta.
    intros [r x'] L' (EO & W' & P' & WO'). cbn [fst snd] in *.
    apply wp_bind. eapply wp_conseq; [apply (IH x' st1 vs2 st2 L' W' F (LG _ _ eq_refl)); [eapply kvalue_ginv; eassumption|exact ES|exact WO'|exact P']|].
    cbv beta. intros [r2 x2] L2 (EO2 & W2 & P2 & R2). cbn [fst snd] in *. apply wp_ret. cbn [fst snd]. split; [congruence|]. exists W2. auto.
Qed.

Lemma msgs_gone : forall ps st L, all_rep ps st L -> Forall (fun x => x = None) st -> L = [].
Proof.
  induction ps as [|a ps IH]; intros [|y st] L R A; cbn [all_rep] in R; try contradiction; [exact R|].
  inversion A as [|z l E B]; subst. exact (IH _ _ R B).
Qed.

(* ---------- C80: a program that keeps to the rules sees the controller as a value and leaks nothing ---------- *)

Theorem C80_histories_partial : forall room junk le net snet dec ops, (forall n, room n = true) -> (forall i, is_byte (junk i)) ->
  klegal junk le net snet dec ops no_ctrl -> forall vs st, kvalues junk le net snet dec ops no_ctrl = Some (vs, st) ->
  forall h, well h -> exists h', kmain room junk le net snet dec ops h = Ok (vs, h')
     /\ (forall a b, h_mem h a = Some b -> h_mem h' a = Some b)
     /\ (all_deleted st -> forall a, h_mem h' a = h_mem h a).
Proof.
  intros room junk le net snet dec ops Room Hj LG vs st E h W. destruct (well_is h W) as (F & J).
  assert (G0 : ginv nothing) by (split; [intros [|i] o X; discriminate|constructor]).
  assert (M : wp (kmain room junk le net snet dec ops) F (fun r L' => r = vs /\ exists x Ls Ln Lm Lc, Permutation L' ((Ls ++ Ln ++ Lm ++ Lc) ++ F)
     /\ all_objs (in_objs x) (s_objs (ns_own (ks_nodes st))) Ls /\ all_nodes (in_nodes x) (ns_nodes (ks_nodes st)) Ln /\ all_rep (in_msgs x) (ks_msgs st) Lm /\ ctrl_part x st Lc)).
  { unfold kmain. apply wp_bind. unfold uecho_objectlist_new. apply wp_malloc; [apply Room|]. intros db _ _.
    assert (W0 : kworld db (mkHands [] [] [] 0) no_ctrl [(db, BHead db db)]).
    { exists [(db, BHead db db)], [], []. split; [apply Permutation_refl|]. split; [|split; [reflexivity|split; reflexivity]].
      exists [(db, BHead db db)], []. split; [apply Permutation_refl|]. split; [|reflexivity]. exists [], [(db, BHead db db)]. split; [apply Permutation_refl|].
      split; [reflexivity|]. apply rlist_new. }
    apply wp_bind. eapply wp_conseq; [apply (wp_krun room junk le net snet dec db ops Room Hj (mkHands [] [] [] 0) no_ctrl vs st _ _ F LG G0 E W0 (Permutation_refl _))|].
    cbv beta. intros [r x] L (EO & W' & P & (L1 & Lm & Lc & P1 & (Lw & Ln & PW & (Ls & Ld & PD & R & D) & AN) & AM & CP)). cbn [fst snd] in *.
    apply wp_bind. eapply (wp_db_delete db (s_db (ns_own (ks_nodes st))) Ld L ((Ls ++ Ln ++ Lm ++ Lc) ++ F)); [exact D| |].
    - eapply perm_trans; [exact P|]. eapply perm_trans; [apply Permutation_app_tail; exact P1|]. eapply perm_trans; [do 2 apply Permutation_app_tail; exact PW|].
      eapply perm_trans; [do 3 apply Permutation_app_tail; exact PD|]. perm.
    - apply wp_ret. split; [exact EO|]. exists x, Ls, Ln, Lm, Lc. split; [apply Permutation_refl|]. split; [exact R|]. split; [exact AN|]. split; [exact AM|exact CP]. }
  destruct (M h J) as (r & h' & L' & EX & J' & -> & x & Ls & Ln & Lm & Lc & P & R & AN & AM & CP).
  exists h'. split; [exact EX|]. apply (heap_perm _ _ _ J') in P. split.
  - intros a b X. apply P. apply in_or_app. right. apply J. exact X.
  - intros ((D1 & D2) & D3 & D4). apply objs_gone in R; [|exact D1]. apply nodes_gone in AN; [|exact D2]. apply msgs_gone in AM; [|exact D3].
    unfold ctrl_part in CP. rewrite D4 in CP. destruct CP as [-> _]. subst Ls Ln Lm. exact (heap_same h h' F J P).
Qed.
Print Assumptions C80_histories_partial.

(* A controller is made and finds a node; messages are sent and announced; a request is posted, answered and waited for; a second one fails; the local node gets
   an object, and everything is deleted. *)
Definition some_fresh : fresh := mkFresh 0 (fun _ => 0) [1; 2; 3] [1; 2; 3; 4; 5; 6; 7; 8; 9; 10; 11; 12; 13] (fun _ _ => 0).
Definition found : kop := KReceive some_fresh [16; 129; 0; 1; 14; 240; 1; 14; 240; 1; 114; 1; 214; 4; 1; 2; 144; 1] "10.0.0.2"%string None.
Definition answer (tid v : Z) : kop := KReceive some_fresh [16; 129; tid; 0; 2; 144; 1; 14; 240; 1; 114; 1; 128; 1; v] "10.0.0.2"%string (Some "10.0.0.3"%string).
Definition a_ctrl_program : list kop :=
  [KNew 5 some_fresh; KStart true; KListen true; KWatch true; KSearch 98; KSearchObject 656 98; KCount; found; KCount;
   KReceive some_fresh [16; 129; 0; 2; 2; 144; 1; 14; 240; 1; 115; 1; 128; 1; 48] "10.0.0.2"%string None; KRead "10.0.0.2"%string 167937; KFind 167937; KRead "10.0.0.3"%string 5;
   KMsg MNew; KMsg (MEsv 0 98); KMsg (MSetProp PPlain 0 128 []); KSend "10.0.0.2"%string 167937 0; KMsg (MRead 0); KAnnounce 0;
   KMsg MNew; KMsg (MDst 0 167937); KPost "10.0.0.2"%string 0 1; answer 4 49; KMsg MNew; answer 6 50; KWait; KMsg (MRead 1); KRead "10.0.0.2"%string 167937;
   KLocal (NSet 0 165889); KEnable 1; KEnabled 1; KDisable 1; KEnabled 1; KReceive some_fresh [1; 2] "10.0.0.2"%string None;
   KNodes (NNew 65535 [1; 2; 3] [1; 2; 3; 4; 5; 6; 7; 8; 9; 10; 11; 12; 13]); KNodes (NDelete 0);
   KPost "10.0.0.9"%string 0 1; KMsg (MDelete 0); KMsg (MDelete 2); KMsg (MDelete 1); KDelete].

Ltac modest_tac := let c := fresh "c" in let n := fresh "n" in let o := fresh "o" in let X := fresh "X" in let Y := fresh "Y" in let I := fresh "I" in
  intros c n o X; injection X as <-; intros Y I; cbn [c_nodes In] in Y;
  repeat (destruct Y as [<-|Y]; [cbn [n_objs In] in I; repeat (destruct I as [<-|I]; [unfold modest; vm_compute; discriminate|]); destruct I|]); destruct Y.
Ltac text_tac := split; [vm_compute; repeat constructor; discriminate|unfold OBJ_MAX; vm_compute; reflexivity].
Ltac ctrl_arg := cbn [kargs_ok]; first
  [ exact Logic.I | node_arg
  | cbn [Spec_Mem.args_ok]; unfold is_byte; first [exact Logic.I | lia | split; [unfold is_byte; lia|split; [bytes_tac|unfold OBJ_MAX; vm_compute; discriminate]]]
  | split; [split; [bytes_tac|unfold OBJ_MAX; vm_compute; discriminate]|split; cbn [c_text]; first [exact Logic.I | text_tac]]
  | cbn [c_text]; text_tac ].
Ltac ctrl_rule := cbn [krules]; first [exact Logic.I | node_rule | modest_tac].
Example C80_example : klegal zero true good_net good_net allow a_ctrl_program no_ctrl /\
  match kvalues zero true good_net good_net allow a_ctrl_program no_ctrl with
  | Some (vs, st) => all_deleted st
     /\ nth_error vs 7 = Some (XReact ([], [], []) [ToldMsg; ToldStatus (Some "10.0.0.2"%string) StAdded] false)
     /\ nth_error vs 16 = Some (XCall true [PSend "10.0.0.2" [16; 129; 4; 0; 14; 240; 1; 2; 144; 1; 98; 1; 128; 0]])
     /\ nth_error vs 21 = Some (XCall true [PSend "10.0.0.2" [16; 129; 6; 0; 14; 240; 1; 2; 144; 1; 98; 1; 128; 0]])
     /\ nth_error vs 24 = Some (XReact ([], [], []) [ToldMsg; ToldStatus (Some "10.0.0.2"%string) StResponded; ToldStatus (Some "10.0.0.2"%string) StUpdated] true)
     /\ nth_error vs 36 = Some (XCall false [])
  | None => False
  end.
Proof.
  split.
  - unfold a_ctrl_program, answer, found. cbn [klegal].
    repeat (split; [ctrl_arg|]; split; [ctrl_rule|]; let v := fresh "v" in let st := fresh "st" in let E := fresh "E" in intros v st E;
      vm_compute in E; injection E as <- <-).
    exact Logic.I.
  - vm_compute. split; [split; [split; repeat constructor|split; [repeat constructor|reflexivity]]|]. repeat split.
Qed.

(* ---------- what the rules and the memory are for ---------- *)

Definition run_ctrl (room : Z -> bool) (ops : list kop) : res (list kobs * heap) := kmain room zero true good_net good_net allow ops empty_heap.

(* uecho_controller_postmessage returns false and leaves its two messages in the controller: they are deleted by the caller, and the next message
   from the network is compared with one that is gone *)
Definition failed_post : list kop := [KNew 0 some_fresh; KMsg MNew; KMsg MNew; KPost "10.0.0.9"%string 0 1].
Theorem C80_failed_post_refuted :
  (exists h, run_ctrl plenty (failed_post ++ [found]) = Ok ([XCall true []; XMsg ONone; XMsg ONone; XCall false []; XReact ([], [], []) [] false], h))
  /\ run_ctrl plenty (failed_post ++ [KMsg (MDelete 0); KMsg (MDelete 1); found]) = Undef UB_free.
Proof. split; [eexists|]; vm_compute; reflexivity. Qed.
Print Assumptions C80_failed_post_refuted.

(* The request could not be sent and the call returned false; later a datagram changes the response message, which is the caller's again. *)
Definition cannot_send (p : post) : bool := match p with PSend _ _ => false | _ => true end.
Definition late_answer : list kop :=
  [KNew 0 some_fresh; found; KMsg MNew; KMsg MNew; KMsg (MDst 0 167937); KMsg (MEsv 0 98); KPost "10.0.0.2"%string 0 1; KMsg (MRead 1); answer 1 50; KMsg (MRead 1)].
Theorem C80_late_answer_refuted :
  match kmain plenty zero true cannot_send good_net allow late_answer empty_heap with
  | Ok (vs, h) => nth_error vs 6 = Some (XCall false [PSend "10.0.0.2" [16; 129; 1; 0; 14; 240; 1; 2; 144; 1; 98; 0]])
      /\ exists s, nth_error vs 7 = Some (XMsg (OSeen s)) /\ v_plain s = [] /\ exists s', nth_error vs 9 = Some (XMsg (OSeen s')) /\ v_plain s' = [(128, 3, [50])]
  | Undef _ => False
  end.
Proof. vm_compute. split; [reflexivity|]. eexists. split; [reflexivity|]. split; [reflexivity|]. eexists. split; reflexivity. Qed.
Print Assumptions C80_late_answer_refuted.

(* a message is deleted while the request waits for the answer *)
Theorem C80_deleted_while_waiting_refuted :
  run_ctrl plenty [KNew 0 some_fresh; found; KMsg MNew; KMsg MNew; KMsg (MDst 0 167937); KMsg (MEsv 0 98); KPost "10.0.0.2"%string 0 1; KMsg (MDelete 1); answer 1 50] = Undef UB_free.
Proof. vm_compute. reflexivity. Qed.
Print Assumptions C80_deleted_while_waiting_refuted.

(* the local node is deleted by the caller, and again with the controller *)
Theorem C80_local_node_refuted : run_ctrl plenty [KNew 0 some_fresh; KLocal (NDelete 0); KDelete] = Undef UB_free.
Proof. vm_compute. reflexivity. Qed.
Print Assumptions C80_local_node_refuted.

(* an allocation fails: while the controller is made, and when a node is found *)
Theorem C80_no_memory_refuted : (exists room, run_ctrl room [KNew 0 some_fresh] = Undef UB_null) /\ exists room, run_ctrl room [KNew 0 some_fresh; found] = Undef UB_null
  /\ exists r, run_ctrl room [KNew 0 some_fresh] = Ok r.
Proof. split; [exists (fun n => negb (n =? 5)); vm_compute; reflexivity|]. exists (fun n => negb (n =? 99)). split; [vm_compute; reflexivity|]. eexists. vm_compute. reflexivity. Qed.
Print Assumptions C80_no_memory_refuted.
