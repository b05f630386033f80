(* Nodes in the heap: created, filled and deleted, they follow the nodes of M_Node.v. *)
From Coq Require Import String Ascii ZArith List Bool Lia Permutation.
From Verif Require Import CSem P_Base M_Const M_Misc M_String M_Property M_PropertyList P_PropertyList M_Log M_Message M_Object M_Node M_NodeListener
  M_Mem M_MemUse M_ObjMem M_Life M_NodeMem M_NodeLife P_Mem P_MemMsg P_MemParse P_MemProp P_MemBytes P_MemCopy P_MemPkt P_MemRun P_Ring P_ObjProp P_ObjCache P_ObjMem P_ObjUse P_ObjStd
  P_Object P_ObjectRun P_ObjectReach P_ObjRun P_Life P_LifeRun P_NodeMem P_NodeRecv P_NodeLife.
Import ListNotations.
Open Scope Z_scope.

(* ---- what sending leaves alone ---- *)

Definition keeps (n n' : node) : Prop := n_classes n' = n_classes n /\ n_addr n' = n_addr n /\ n_listener n' = n_listener n.
Lemma keeps_refl : forall n, keeps n n.
Proof. intro n. repeat split. Qed.
Lemma keeps_trans : forall a b c, keeps a b -> keeps b c -> keeps a c.
Proof. intros a b c (A & B & C) (D & E & F). repeat split; congruence. Qed.

Lemma annmsg_keeps : forall le net n m s, M_Node.uecho_node_announcemessage le net n m = Ok s -> keeps n (s_node s) /\ n_objs (s_node s) = n_objs n.
Proof.
  intros le net n m s E. unfold M_Node.uecho_node_announcemessage in E. unfold M_Node.uecho_node_getnexttid in E.
  match type of E with match ?x with Some _ => _ | None => _ end = _ => destruct x end.
  - do 4 (apply bind_ok in E; destruct E as (? & _ & E)). injection E as <-. split; [split; [reflexivity|split; reflexivity]|reflexivity].
  - injection E as <-. split; [split; [reflexivity|split; reflexivity]|reflexivity].
Qed.
Lemma annprop_keeps : forall le net n code p s, M_Node.uecho_node_announceproperty le net n code p = Ok s -> keeps n (s_node s) /\ n_objs (s_node s) = n_objs n.
Proof.
  intros le net n code p s E. unfold M_Node.uecho_node_announceproperty in E.
  do 3 (apply bind_ok in E; destruct E as (? & _ & E)). eapply annmsg_keeps; exact E.
Qed.
Lemma emit_keeps : forall le net anns n code n' posts, node_emit le net n code anns = Ok (n', posts) -> keeps n n'.
Proof.
  induction anns as [|p anns IH]; intros n code n' posts E; cbn [node_emit] in E.
  - injection E as <- _. apply keeps_refl.
  - apply bind_ok in E. destruct E as (s & E1 & E). apply bind_ok in E. destruct E as ([n2 p2] & E2 & E). injection E as <- _.
    eapply keeps_trans; [apply (annprop_keeps _ _ _ _ _ _ E1)|]. eapply IH; exact E2.
Qed.
Lemma op_keeps : forall le net f n code n' posts, node_object_op le net f n code = Ok (n', posts) -> keeps n n'.
Proof.
  intros le net f n code n' posts E. unfold node_object_op in E. destruct (M_Node.uecho_node_getobjectbycode n code).
  - apply bind_ok in E. destruct E as ([o' a] & _ & E). apply emit_keeps in E. exact E.
  - injection E as <- _. apply keeps_refl.
Qed.
Lemma listener_keeps : forall le net dec n m r, M_NodeListener.uecho_node_servermessagelistener le net dec n m = Ok r -> keeps n (r_node r).
Proof.
  intros le net dec n m r E. unfold M_NodeListener.uecho_node_servermessagelistener in E. apply bind_ok in E. destruct E as (dc & _ & E).
  destruct (M_Node.uecho_node_getobjectbycode n dc) as [dest|]; [|injection E as <-; apply keeps_refl].
  destruct (negb (uecho_esv_isrequest (M_Message.uecho_message_getesv m))); [injection E as <-; apply keeps_refl|].
  apply bind_ok in E. destruct E as (m1 & _ & E). apply bind_ok in E. destruct E as (sc & _ & E). apply bind_ok in E. destruct E as (m2 & _ & E).
  apply bind_ok in E. destruct E as (h & _ & E). apply bind_ok in E. destruct E as ([n1 anns] & EM & E). apply emit_keeps in EM.
  change (keeps n n1) in EM.
  destruct (answer_esv _ _); [destruct (o_attached (h_obj h))|].
  - apply bind_ok in E. destruct E as (b & _ & E). apply bind_ok in E. destruct E as (s & _ & E). apply bind_ok in E. destruct E as (p & _ & E).
    injection E as <-. exact EM.
  - injection E as <-. exact EM.
  - injection E as <-. exact EM.
Qed.

(* ---- the node ---- *)

(* the blocks of a node but its string of the address, its lock and its server *)
Definition held (nd pv nx : Z) (ps : list Z) (n : node) (Lr Lc : heaplet) : Prop :=
  (nd =? 0) = false /\ (node_server ps =? 0) = false /\ rlist (nbody nd) (node_objects ps) (n_objs n) Lr
  /\ exists cls, rlist (ebody KClass) (node_classes ps) cls Lc /\ map cls_of cls = n_classes n.

Section Room.
Variable room : Z -> bool.
Hypothesis Room : forall n, room n = true.
Variable junk : nat -> Z.
Variable le : bool.
Variable net : post -> bool.

Lemma wp_classlist_set : forall cl cls code Lc L F (Q : bool -> heaplet -> Prop), rlist (ebody KClass) cl cls Lc -> Permutation L (Lc ++ F) ->
  (forall cls' Lc', rlist (ebody KClass) cl cls' Lc' -> map cls_of cls' = M_Node.uecho_classlist_set (map cls_of cls) code -> Q true (Lc' ++ F)) ->
  wp (uecho_classlist_set room cl code) L Q.
Proof.
  intros cl cls code Lc L F Q R P H. unfold uecho_classlist_set.
  destruct (rlist_head _ _ _ _ _ R) as (u & v & IH).
  eapply (wp_pos _ _ _ _ cl); [eapply Permutation_in; [apply Permutation_sym; exact P|]; apply in_or_app; left; exact IH|intro PD].
  rewrite (pos_nz cl) by exact PD. apply wp_bind. unfold uecho_classlist_getbycode. rewrite (pos_nz cl) by exact PD.
  eapply (wp_find _ (ebody KClass) _ (fun v => M_Node.uecho_class_getcode (cls_of v) =? code) cl cls Lc L F); [exact R|exact P| | |].
  - intros a k w Lx p n R0 (p0 & n0 & ss & -> & _) _ _ IA _ HR. cbn [set_links] in IA. apply wp_bind. unfold uecho_class_getcode.
    eapply (wp_pos _ _ _ _ a); [exact IA|]. intro PA. rewrite (pos_nz a) by exact PA. apply wp_bind. eapply wp_class_at; [exact IA|]. apply wp_ret. apply wp_ret. exact HR.
  - intros NO. cbn [Z.eqb negb]. eapply wp_perm; [exact P|]. apply wp_bind. unfold uecho_class_new. apply wp_malloc; [exact Room|]. intros a PA _. rewrite (pos_nz a) by exact PA.
    apply wp_bind. eapply wp_set_code; [apply pf_here|].
    apply wp_bind. eapply (wp_plain_add KClass cl cls Lc a (code, []) [(a, BElem a a code [])] _ F); [exact R| |apply Permutation_refl|].
    + exists [], []. split; [reflexivity|]. split; [apply texts_nil|reflexivity].
    + intros Lc' R'. apply wp_ret. eapply H; [exact R'|]. unfold M_Node.uecho_classlist_set.
      assert (NF : M_Node.uecho_classlist_getbycode (map cls_of cls) code = None).
      { clear - NO. induction NO as [|x l X _ IH]; [reflexivity|]. cbn [map M_Node.uecho_classlist_getbycode]. rewrite X. exact IH. }
      rewrite NF, map_app. reflexivity.
  - intros v1 a w v2 EV NO HIT PA AT. rewrite (pos_nz a) by exact PA. cbn [negb]. eapply wp_perm; [exact P|]. apply wp_ret. eapply H; [exact R|].
    unfold M_Node.uecho_classlist_set.
    assert (NF : M_Node.uecho_classlist_getbycode (map cls_of cls) code = Some (cls_of w)).
    { rewrite EV, map_app. clear - NO HIT. induction NO as [|x l X _ IH]; cbn [map app M_Node.uecho_classlist_getbycode]; [rewrite HIT; reflexivity|]. rewrite X. exact IH. }
    rewrite NF. reflexivity.
Qed.

Lemma wp_nupdate : forall nd pv nx ps n Lr Lc n' posts ok L F (Q : _ -> heaplet -> Prop), held nd pv nx ps n Lr Lc ->
  Permutation L ((nd, nblk pv nx ps (n_tid n)) :: Lr ++ Lc ++ F) ->
  M_Node.uecho_node_updatenodeprofileclass le net n = Ok (n', posts, ok) ->
  (forall Lr', held nd pv nx ps n' Lr' Lc -> Q (ok, posts) ((nd, nblk pv nx ps (n_tid n')) :: Lr' ++ Lc ++ F)) ->
  wp (uecho_node_updatenodeprofileclass room junk le net nd) L Q.
Proof.
  intros nd pv nx ps n Lr Lc n' posts ok L F Q (ND & SV & RR & cls & RC & EC) P E H. eapply wp_perm; [exact P|]. clear L P.
  unfold uecho_node_updatenodeprofileclass. rewrite ND. apply wp_bind. unfold uecho_node_getobjectbycode. apply wp_bind.
  eapply (wp_load_elem nd pv nx (n_tid n) ps); [left; reflexivity|]. cbn [snd].
  eapply (wp_objs_find nd (node_objects ps) (n_objs n) _ Lr _ ((nd, nblk pv nx ps (n_tid n)) :: Lc ++ F)); [exact RR|perm| |].
  - intros DF. unfold M_Node.uecho_node_updatenodeprofileclass, M_Node.uecho_node_getobjectbycode in E. rewrite (value_none _ _ DF) in E. injection E as <- <- <-.
    cbn [Z.eqb]. apply wp_ret. apply H. split; [exact ND|]. split; [exact SV|]. split; [exact RR|]. exists cls. split; assumption.
  - intros v1 a o v2 EO DF HIT PA AT. rewrite (pos_nz a) by exact PA.
    unfold M_Node.uecho_node_updatenodeprofileclass, node_object_op, M_Node.uecho_node_getobjectbycode in E.
    rewrite EO in E. rewrite (value_find _ _ _ _ DF HIT) in E. rewrite <- EO, <- EC in E. apply bind_ok in E. destruct E as ([n1 q1] & E & X). cbn [fst snd] in X. injection X as <- <- <-.
    apply bind_ok in E. destruct E as ((o' & anns) & EU & E). rewrite EO in E, EU. rewrite (value_put _ _ _ _ _ DF HIT) in E.
    assert (S0 : same_obj o o').
    { clear - EU. unfold M_Node.uecho_nodeprofile_updateinstanceproperties in EU.
      apply bind_ok in EU. destruct EU as ((o1 & a1) & EV1 & EU). apply bind_ok in EU. destruct EU as ((o2 & a2) & EV2 & EU).
      apply bind_ok in EU. destruct EU as ((o3 & a3) & EV3 & EU). apply bind_ok in EU. destruct EU as ((o4 & a4) & EV4 & EU). injection EU as <- <-.
      eapply same_trans; [eapply setint_props; exact EV1|]. eapply (same_trans _ o2).
      { unfold M_Node.uecho_nodeprofile_setclasslist in EV2. apply bind_ok in EV2. destruct EV2 as (d & _ & X). injection X as X.
        destruct (setpd_props o1 EPC_ClassListS d) as [y Y]. rewrite X in Y. exists y. exact Y. }
      eapply same_trans; [eapply setint_props; exact EV3|].
      unfold M_Node.uecho_nodeprofile_setinstancelist in EV4. apply bind_ok in EV4. destruct EV4 as (d & _ & X).
      pose proof (setpd_props o3 EPC_InstanceListS d) as [y Y]. destruct (M_Object.uecho_object_setpropertydata o3 EPC_InstanceListS d) as [x1 b1].
      pose proof (setpd_props x1 EPC_InstanceListNotification d) as [z Zz]. destruct (M_Object.uecho_object_setpropertydata x1 EPC_InstanceListNotification d) as [x2 b2].
      injection X as <- _. cbn [fst] in Y, Zz. rewrite Zz, Y. exists z. reflexivity. }
    destruct (rl_in _ _ _ _ _ _ _ AT) as (c & _ & _ & _ & _ & ATT). rewrite ND in ATT. cbn [negb] in ATT.
    assert (ATT' : o_attached o' = true) by (destruct S0 as [z ->]; exact ATT). rewrite ATT', (same_code _ _ S0) in E.
    assert (PF : profiled (n_objs n) = profiled (n_objs (n_with_objs (v1 ++ o' :: v2) n))).
    { change (n_objs (n_with_objs (v1 ++ o' :: v2) n)) with (v1 ++ o' :: v2). rewrite EO. apply profiled_mid. symmetry. apply same_code. exact S0. }
    destruct (emit_same _ _ _ _ (n_objs n) _ _ _ E PF) as (n'' & E'' & T'').
    assert (K : n_with_objs (n_objs n) (n_with_objs (v1 ++ o' :: v2) n) = n) by (destruct n; reflexivity). rewrite K in E''.
    eapply (wp_nobj_update room Room junk le net nd pv nx ps n cls v1 a o v2 Lr Lc o' anns n'' q1 _ F);
      [exact ND|exact SV|exact AT|exact RC|perm|exact EU|rewrite EO; reflexivity|exact E''|].
    intros Lr' AT'. rewrite T''. apply H.
    pose proof (emit_keeps _ _ _ _ _ _ _ E) as (K1 & _). pose proof (emit_objs _ _ _ _ _ _ _ E) as K2. cbn [n_with_objs n_objs n_classes] in K1, K2.
    split; [exact ND|]. split; [exact SV|]. split; [rewrite K2; exact (rl_at_list _ _ _ _ _ _ _ _ AT')|]. exists cls. split; [exact RC|]. rewrite K1. exact EC.
Qed.

Lemma wp_getobj : forall nd pv nx ps n Lr code L F (Q : Z -> heaplet -> Prop), rlist (nbody nd) (node_objects ps) (n_objs n) Lr ->
  Permutation L ((nd, nblk pv nx ps (n_tid n)) :: Lr ++ F) ->
  (differ code (n_objs n) -> Q 0 L) ->
  (forall v1 a o v2, n_objs n = v1 ++ o :: v2 -> differ code v1 -> (M_Object.uecho_object_getcode o =? code) = true -> 0 < a ->
     rl_at (nbody nd) (node_objects ps) v1 a o v2 Lr -> Q a L) ->
  wp (uecho_node_getobjectbycode nd code) L Q.
Proof.
  intros nd pv nx ps n Lr code L F Q RR P H0 H1. unfold uecho_node_getobjectbycode. apply wp_bind.
  eapply (wp_load_elem nd pv nx (n_tid n) ps); [eapply Permutation_in; [apply Permutation_sym; exact P|]; left; reflexivity|]. cbn [snd].
  eapply (wp_objs_find nd (node_objects ps) (n_objs n) _ Lr _ ((nd, nblk pv nx ps (n_tid n)) :: F)); [exact RR|eapply perm_trans; [exact P|perm]|exact H0|exact H1].
Qed.

Definition j_with_node (nd : Z) (c : cobj) : cobj :=
  mkCobj (j_prev c) (j_next c) (j_name c) (j_grp c) (j_cls c) (j_ins c) (j_props c) (j_annon c) (j_anno c) (j_setn c) (j_set c) (j_getn c) (j_get c)
       (j_listener c) (j_mgr c) nd.
Lemma attach_body : forall nd a c o Lx, (nd =? 0) = false -> odesc a c o Lx -> odesc a (j_with_node nd c) (uecho_object_attach o) Lx.
Proof.
  intros nd a c o Lx ND (Lp & R & P & PL & (K & La & Ls & Lg & P2 & OK & C1 & C2 & C3 & GS)). exists Lp, R. split; [exact P|]. split; [exact PL|].
  exists K, La, Ls, Lg. split; [exact P2|]. split; [|split; [exact C1|split; [exact C2|split; [exact C3|exact GS]]]].
  destruct OK as (on & Lnm & ol & Lol & G1 & G2 & G3 & G4 & G5 & G6 & G7 & G8). exists on, Lnm, ol, Lol.
  repeat (split; [assumption|]). cbn [j_with_node j_node]. rewrite ND. reflexivity.
Qed.

Lemma wp_naddobject : forall nd pv nx ps n Lr Lc x o Lo n' posts ok L F (Q : _ -> heaplet -> Prop), held nd pv nx ps n Lr Lc -> obj_at (x, 0) x x o Lo ->
  Permutation L ((nd, nblk pv nx ps (n_tid n)) :: Lr ++ Lc ++ Lo ++ F) ->
  M_Node.uecho_node_addobject le net n o = Ok (n', posts, ok) ->
  (forall o0, M_Node.uecho_node_getobjectbycode n (M_Object.uecho_object_getcode o) = Some o0 -> n' = n -> posts = [] -> ok = false ->
     Q (false, []) ((nd, nblk pv nx ps (n_tid n)) :: Lr ++ Lc ++ Lo ++ F)) ->
  (forall Lr' Lc', M_Node.uecho_node_getobjectbycode n (M_Object.uecho_object_getcode o) = None -> held nd pv nx ps n' Lr' Lc' ->
     Q (ok, posts) ((nd, nblk pv nx ps (n_tid n')) :: Lr' ++ Lc' ++ F)) ->
  wp (uecho_node_addobject room junk le net nd x) L Q.
Proof.
  intros nd pv nx ps n Lr Lc x o Lo n' posts ok L F Q (ND & SV & RR & cls & RC & EC) OA P E HD HN. eapply wp_perm; [exact P|]. clear L P.
  destruct (obj_at_body _ _ _ _ _ _ OA) as (k & Lx & PL & BD). destruct (body_code _ _ _ _ _ BD) as (c & -> & NC & CC & _).
  cbn [set_links] in PL. match type of PL with Permutation _ ((_, BObj ?q) :: _) => set (c1 := q) in * end.
  assert (CC1 : M_NodeMem.code_of c1 = M_Object.uecho_object_getcode o) by (subst c1; exact CC).
  assert (IX : In (x, BObj c1) ((nd, nblk pv nx ps (n_tid n)) :: Lr ++ Lc ++ Lo ++ F)).
  { right. do 2 (apply in_or_app; right). apply in_or_app; left. eapply Permutation_in; [apply Permutation_sym; exact PL|left; reflexivity]. }
  unfold uecho_node_addobject. eapply (wp_pos _ _ _ _ x); [exact IX|]. intro PX. rewrite ND, (pos_nz x) by exact PX. cbn [orb].
  apply wp_bind. eapply wp_getcode; [exact IX|]. rewrite CC1. apply wp_bind.
  eapply (wp_getobj nd pv nx ps n Lr _ _ (Lc ++ Lo ++ F)); [exact RR|apply Permutation_refl| |].
  2:{ intros v1 a oo v2 EO DF HIT PA AT. rewrite (pos_nz a) by exact PA. cbn [negb].
      assert (EF : M_Node.uecho_node_getobjectbycode n (M_Object.uecho_object_getcode o) = Some oo).
      { unfold M_Node.uecho_node_getobjectbycode. rewrite EO. apply value_find; assumption. }
      unfold M_Node.uecho_node_addobject in E. rewrite EF in E. injection E as <- <- <-. apply wp_ret. eapply HD; [exact EF|reflexivity|reflexivity|reflexivity]. }
  intro DF. cbn [Z.eqb negb].
  assert (EF : M_Node.uecho_node_getobjectbycode n (M_Object.uecho_object_getcode o) = None) by (apply value_none; exact DF).
  unfold M_Node.uecho_node_addobject in E. rewrite EF in E.
  apply wp_bind. eapply (wp_load_elem nd pv nx (n_tid n) ps); [left; reflexivity|]. cbn [snd].
  destruct RR as (ns & Ln & IT & PR). pose proof (items_nodes _ _ _ _ _ IT) as NN.
  apply wp_bind.
  eapply (P_Ring.wp_list_add (node_objects ps) hblk true ns x (BObj c1) false _ (Ln ++ Lx ++ Lc ++ (nd, nblk pv nx ps (n_tid n)) :: F)); [reflexivity|reflexivity|apply nodes_flags; exact NN| |].
  { eapply perm_trans; [apply perm_skip; apply Permutation_app; [exact PR|apply Permutation_app_head, Permutation_app_tail; exact PL]|]. rperm. }
  cbn [negb]. apply wp_bind.
  pose proof (ring_at ((node_objects ps, hblk) :: ns) x (BObj c1) []) as RA. cbn [app] in RA.
  pose proof (ring_at ((node_objects ps, hblk) :: ns) x (BObj (j_with_node nd c1)) []) as RB. cbn [app] in RB.
  eapply wp_perm; [apply Permutation_app_tail; exact RA|]. cbn [set_links] in RA, RB |- *.
  unfold uecho_object_setparentnode. rewrite (pos_nz x) by exact PX. apply wp_bind. eapply wp_load_obj; [left; reflexivity|].
  apply wp_bind. eapply wp_store; [apply pf_here|]. apply wp_ret.
  cbn [j_prev j_next j_name j_grp j_cls j_ins j_props j_annon j_anno j_setn j_set j_getn j_get j_listener j_mgr j_node j_with_node] in RB |- *.
  set (c2 := j_with_node nd c1) in *.
  eapply (wp_perm _ _ _ _ _ (Permutation_app_tail (Ln ++ Lx ++ Lc ++ (nd, nblk pv nx ps (n_tid n)) :: F) (Permutation_sym RB))). clear RA RB.
  assert (RR' : rlist (nbody nd) (node_objects ps) (n_objs n ++ [uecho_object_attach o]) (ring ((node_objects ps, hblk) :: ns ++ [(x, BObj c2)]) ++ Ln ++ Lx)).
  { exists (ns ++ [(x, BObj c2)]), (Ln ++ Lx). split; [|apply Permutation_refl]. apply items_app; [exact IT|]. apply items_one; [reflexivity|].
    exists c2. split; [reflexivity|]. split; [reflexivity|]. destruct BD as (c' & EC' & _ & OD). injection EC' as <-.
    change c2 with (j_with_node nd c1). apply attach_body; [exact ND|]. subst c1. apply odesc_links. exact OD. }
  apply wp_bind. eapply (wp_load_elem nd pv nx (n_tid n) ps); [apply in_or_app; right; do 3 (apply in_or_app; right); left; reflexivity|]. cbn [snd].
  apply wp_bind. 
  eapply (wp_classlist_set (node_classes ps) cls _ Lc _ ((nd, nblk pv nx ps (n_tid n)) :: (ring ((node_objects ps, hblk) :: ns ++ [(x, BObj c2)]) ++ Ln ++ Lx) ++ F)); [exact RC|rperm|].
  intros cls' Lc' RC' EC'.
  match type of E with M_Node.uecho_node_updatenodeprofileclass _ _ ?m = _ => set (n2 := m) in * end.
  eapply (wp_nupdate nd pv nx ps n2 (ring ((node_objects ps, hblk) :: ns ++ [(x, BObj c2)]) ++ Ln ++ Lx) Lc' n' posts ok _ F); [| |exact E|].
  - split; [exact ND|]. split; [exact SV|]. split; [exact RR'|]. exists cls'. split; [exact RC'|]. rewrite EC', EC. reflexivity.
  - change (n_tid n2) with (n_tid n). rperm.
  - intros Lr2 HE. apply HN; [exact EF|exact HE].
Qed.
End Room.
