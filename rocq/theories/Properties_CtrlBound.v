(* C88: a controller holds little whatever arrives, and watching a network is always defined. *)
From Coq Require Import String ZArith List Bool Lia ZifyBool ZifyNat.
From Verif Require Import CSem M_Const M_Misc M_Property M_Message M_PropertyList M_Object M_Node M_NodeListener M_Controller
  StdDB_Data M_Std Spec_Frame Spec_Message Spec_Map Spec_Object Spec_Node Spec_Request Spec_Controller Run_Object Run_Node
  Run_Controller P_Base P_Misc P_Message P_Encode P_MsgApi P_PropertyList P_Object P_ObjectRun P_ObjectReach P_Std P_Node
  P_Request Properties_Object P_NodeReach P_NodeProfile P_NodeInv P_NodeRun P_NodeProps P_RequestProps P_RequestApi P_NodeSafe P_Bound
  P_Shadow P_Controller P_CtrlSafe P_ControllerProps Properties_Node Properties_Request Properties_Controller Properties_Safety Properties_CtrlSafety
  P_CtrlBound Spec_CtrlBound.
Import ListNotations.
Open Scope Z_scope.
Ltac Zify.zify_post_hook ::= Z.div_mod_to_equations.

Lemma holds_cbound : forall K c, cbound K c <-> holds_at_most K c.
Proof.
  intros K c. unfold cbound, nbound, obound, pbound, holds_at_most. split.
  - intros [A B] n o p [->|I] Io Ip; [rewrite Forall_forall in A; specialize (A o Io); rewrite Forall_forall in A; exact (A p Ip)|].
    rewrite Forall_forall in B. specialize (B n I). rewrite Forall_forall in B. specialize (B o Io). rewrite Forall_forall in B. exact (B p Ip).
  - intros H. split; [|apply Forall_forall; intros n I]; apply Forall_forall; intros o Io; apply Forall_forall; intros p Ip; (eapply H; [|exact Io|exact Ip]); auto.
Qed.

Lemma short_bound : forall K x c, cop_short K x c -> cop_bound K x c.
Proof.
  intros K x c H.
  assert (O : forall op o, op_short K op o -> op_bound K op o).
  { intros op o S. destruct op; cbn [op_short op_bound] in *; try exact S. match goal with |- match uecho_object_getproperty ?o ?c with _ => _ end => destruct (uecho_object_getproperty o c) as [p|] eqn:G; [apply S; reflexivity|exact I] end. }
  assert (N : forall y n, nop_short K y n -> nop_bound K y n).
  { intros y n S. destruct y; cbn [nop_short nop_bound] in *; try exact S.
    - apply Forall_forall. exact S.
    - intros o' G. destruct k; cbn [call_bound]; try exact I. apply O. apply S. exact G. }
  destruct x; cbn [cop_short cop_bound] in *; try exact H; [apply N; exact H|intros n G; apply N; apply H; exact G].
Qed.

Lemma std_bound_up : forall K, 766 <= K -> Forall (obound K) std_db.
Proof.
  intros K HK. eapply Forall_impl; [|exact std_bound]. intros o H. eapply Forall_impl; [|exact H]. intros p Hp. unfold pbound in *. lia.
Qed.

Lemma new_bound : forall K le net c, 766 <= K -> new_ctrl le net std_db c -> cbound K c.
Proof.
  intros K le net c HK H. pose proof (new_ctrl_ok _ _ _ std_db_ok _ H) as (_ & E & Hn).
  destruct Hn as (t & junk & man & uq & ps & _ & _ & _ & _ & Nn). split; [|rewrite E; constructor].
  eapply bound_node_new; [exact HK|exact (std_bound_up K HK)|exact Nn].
Qed.

Lemma does_bound : forall K le net snet c h c', 766 <= K -> K <= 1099511627776 -> cinv c -> cbound K c -> cdoes le net snet std_db K c h c' ->
  crun le net snet std_db c h c' /\ cbound K c' /\ cinv c'.
Proof.
  intros K le net snet c h c' HK HK' Hc B D. revert Hc B. induction D as [c|c x out h c' Hx Sx E D IH]; intros Hc B.
  - split; [constructor; eapply cbound_mem; [exact HK'|exact B]|]. split; assumption.
  - pose proof (cbound_mem _ _ HK' B) as M.
    pose proof (bound_cstep K HK le net snet std_db (std_bound_up K HK) c x out Hc M Hx (short_bound _ _ _ Sx) E B) as B'.
    pose proof (cbound_mem _ _ HK' B') as M'.
    destruct (IH (cstep_ok le net snet std_db std_db_ok c x out Hc M M' Hx E) B') as (R & B2 & C2).
    split; [econstructor; eassumption|]. split; assumption.
Qed.

(* Whatever arrives, and whatever the program does as long as it makes no value of more than K bytes itself, no value the
   controller holds has more than K bytes (766 at least).  So the condition that all values fit in memory, which the
   histories of Run_Controller.v have, is not an assumption: it holds. *)
Theorem C88_bounded : forall K le net snet c0 h c, 766 <= K <= 1099511627776 -> new_ctrl le net std_db c0 ->
  cdoes le net snet std_db K c0 h c -> holds_at_most K c /\ crun le net snet std_db c0 h c.
Proof.
  intros K le net snet c0 h c [HK HK'] H0 D. pose proof (new_ctrl_ok _ _ _ std_db_ok _ H0) as (Hc & _).
  destruct (does_bound K le net snet c0 h c HK HK' Hc (new_bound _ _ _ _ HK H0) D) as (R & B & _).
  split; [apply holds_cbound; exact B|exact R].
Qed.
Print Assumptions C88_bounded.

(* what holds at every moment of a program that watches *)
Definition winv (c : ctrl) : Prop := cinv c /\ cgood c /\ live c /\ cbound 766 c.
Lemma winv_new : forall le net c, new_ctrl le net std_db c -> winv c.
Proof.
  intros le net c H. destruct (new_ctrl_good le net std_db std_db_ok std_159 _ H) as (Hc & Hg & Hl).
  split; [exact Hc|]. split; [exact Hg|]. split; [exact Hl|]. exact (new_bound 766 _ _ _ (Z.le_refl _) H).
Qed.
Lemma winv_mem : forall c, winv c -> cmem_ok c.
Proof. intros c (_ & _ & _ & B). eapply cbound_mem; [|exact B]. discriminate. Qed.
Lemma watch_step : forall le net snet c x, winv c -> watching le x ->
  cop_ok le std_db x /\ exists out, cstep le net snet std_db c x = Ok out /\ winv (co_ctrl out).
Proof.
  intros le net snet c x W Wx. pose proof (winv_mem c W) as M. destruct W as (Hc & Hg & Hl & B).
  assert (Hx : cop_ok le std_db x /\ safe_cop x /\ croom c x /\ cop_bound 766 x c).
  { destruct x; cbn [watching] in Wx; try contradiction; cbn [cop_ok safe_cop croom cop_bound]; unfold enough; tauto. }
  destruct Hx as (X1 & X2 & X3 & X4). split; [exact X1|].
  destruct (cstep_total le net snet std_db c x std_db_ok std_159 Hc M Hg Hl X1 X2 X3) as (out & E).
  pose proof (bound_cstep 766 (Z.le_refl _) le net snet std_db std_bound c x out Hc M X1 X4 E B) as B'.
  pose proof (cbound_mem 766 _ ltac:(discriminate) B') as M'.
  destruct (cstep_good le net snet std_db std_db_ok std_159 c x out Hc M X1 X2 E Hg Hl) as [G' L'].
  exists out. split; [exact E|]. split; [exact (cstep_ok le net snet std_db std_db_ok c x out Hc M M' X1 E)|]. auto.
Qed.
Lemma watch_run : forall le net snet h c, winv c -> Forall (watching le) h -> exists c', crun le net snet std_db c h c' /\ winv c'.
Proof.
  intros le net snet h c W F. revert c W. induction F as [|x h Wx F IH]; intros c W.
  - exists c. split; [constructor; apply winv_mem; exact W|exact W].
  - destruct (watch_step le net snet c x W Wx) as (X & out & E & W'). destruct (IH _ W') as (c' & R & Q).
    exists c'. split; [econstructor; [exact X|apply winv_mem; exact W|exact E|exact R]|exact Q].
Qed.

(* A program that watches a network never meets undefined behaviour, for any datagrams: every call and every datagram has
   a result, and no value has more than 766 bytes, at any time. *)
Theorem C88_watching : forall le net snet c0 h, new_ctrl le net std_db c0 -> Forall (watching le) h ->
  exists c, crun le net snet std_db c0 h c /\ holds_at_most 766 c.
Proof.
  intros le net snet c0 h H0 W. destruct (watch_run le net snet h c0 (winv_new _ _ _ H0) W) as (c & R & (_ & _ & _ & B)).
  exists c. split; [exact R|apply holds_cbound; exact B].
Qed.
Print Assumptions C88_watching.

(* ---- a device ---- *)
Lemma nshort_bound : forall K y n, nop_short K y n -> nop_bound K y n.
Proof.
  intros K y n S. destruct y; cbn [nop_short nop_bound] in *; try exact S.
  - apply Forall_forall. exact S.
  - intros o' G. destruct k; cbn [call_bound]; try exact I. specialize (S o' G). destruct op; cbn [op_short op_bound] in *; try exact S.
    match goal with |- match uecho_object_getproperty ?o ?c with _ => _ end => destruct (uecho_object_getproperty o c) as [p|] eqn:Gp; [apply S; reflexivity|exact I] end.
Qed.
Lemma node_holds : forall K n, nbound K n <-> node_at_most K n.
Proof.
  intros K n. unfold nbound, obound, pbound, node_at_most. split.
  - intros H o p Io Ip. rewrite Forall_forall in H. specialize (H o Io). rewrite Forall_forall in H. exact (H p Ip).
  - intros H. apply Forall_forall. intros o Io. apply Forall_forall. intros p Ip. eapply H; eassumption.
Qed.
Lemma nbound_mem : forall K n, K <= 1099511627776 -> nbound K n -> mem_ok n.
Proof. intros K n HK H. eapply Forall_impl; [|exact H]. intros o Ho. eapply Forall_impl; [|exact Ho]. intros p Hp. unfold pbound in Hp. lia. Qed.

(* The same for a device: its values stay as short as those the program stores, 766 bytes at least. *)
Theorem C88_device : forall K le net n0 h n own ans, 766 <= K <= 1099511627776 -> new_node le net std_db n0 ->
  ndoes le net std_db K n0 h n own ans -> node_at_most K n /\ nrun le net std_db n0 h n own ans.
Proof.
  intros K le net n0 h n own ans [HK HK'] H0 D. destruct (new_good le net std_db std_db_ok std_159 n0 H0) as [N0 _].
  assert (B0 : nbound K n0).
  { destruct H0 as (t & junk & man & uq & ps & _ & _ & _ & _ & Nn). eapply bound_node_new; [exact HK|exact (std_bound_up K HK)|exact Nn]. }
  clear H0. rewrite <- node_holds. induction D as [n|n x n1 p1 a1 h n' own ans Hx Sx E D IH].
  - split; [exact B0|]. constructor. eapply nbound_mem; eassumption.
  - pose proof (nbound_mem _ _ HK' B0) as M.
    pose proof (bound_nstep K HK le net std_db n x n1 p1 a1 (std_bound_up K HK) N0 M Hx (nshort_bound _ _ _ Sx) E B0) as B1.
    destruct (nstep_ok le net std_db n x n1 p1 a1 std_db_ok N0 M (nbound_mem _ _ HK' B1) Hx E) as [N1 _].
    destruct (IH N1 B1) as [Q R]. split; [exact Q|]. econstructor; eassumption.
Qed.
Print Assumptions C88_device.

(* Once set up, by any calls of C47 and with values of at most K bytes, a device answers any datagrams for ever without
   undefined behaviour, and its values never get longer. *)
Theorem C88_serving : forall K le net n0 h0 n own0 ans0 h, 766 <= K <= 1099511627776 -> new_node le net std_db n0 ->
  ndoes le net std_db K n0 h0 n own0 ans0 -> Forall safe_nop h0 -> Forall serving h ->
  exists n' own ans, ndoes le net std_db K n h n' own ans /\ node_at_most K n'.
Proof.
  intros K le net n0 h0 n own0 ans0 h HK H0 D S W. destruct (C88_device K le net n0 h0 n own0 ans0 HK H0 D) as [B R].
  destruct (new_good le net std_db std_db_ok std_159 n0 H0) as [N0 G0].
  destruct (nrun_good le net std_db std_db_ok std_159 _ _ _ _ _ N0 G0 S R) as (N & M & G). clear H0 D R N0 G0 S M n0 h0 own0 ans0. destruct HK as [HK HK'].
  rewrite <- node_holds in B. revert n N G B. induction W as [|x h Wx W IH]; intros n N G B.
  - exists n, [], []. split; [constructor|apply node_holds; exact B].
  - pose proof (nbound_mem _ _ HK' B) as M.
    assert (Hx : nop_ok le std_db x /\ safe_nop x /\ P_NodeSafe.room n x /\ nop_short K x n).
    { destruct x; cbn [serving] in Wx; try contradiction; cbn [nop_ok safe_nop P_NodeSafe.room nop_short]; tauto. }
    destruct Hx as (X1 & X2 & X3 & X4).
    destruct (nstep_total le net std_db std_db_ok std_159 n x N M X1 X2 X3 G) as ([[n1 p1] a1] & E).
    pose proof (bound_nstep K HK le net std_db n x n1 p1 a1 (std_bound_up K HK) N M X1 (nshort_bound _ _ _ X4) E B) as B1.
    destruct (nstep_ok le net std_db n x n1 p1 a1 std_db_ok N M (nbound_mem _ _ HK' B1) X1 E) as [N1 _].
    pose proof (nstep_good le net std_db std_db_ok std_159 n x n1 p1 a1 N M X1 X2 E G) as G1.
    destruct (IH n1 N1 G1 B1) as (n' & own & ans & R & Q). exists n', (p1 ++ own), (a1 ++ ans). split; [econstructor; eassumption|exact Q].
Qed.
Print Assumptions C88_serving.

(* ---- examples ---- *)
(* listeners, a device heard, a value written to its copy, a request under way *)
Example C88_bounded_example : new_ctrl true net_up std_db ctrl0 /\ cdoes true net_up net_down std_db 766 ctrl0 busy (cafter busy)
  /\ uecho_controller_getnodecount (cafter busy) = 1.
Proof.
  split; [exact ctrl0_new|]. split; [|vm_compute; reflexivity].
  destruct C50_example as (_ & R & _).
  assert (S : Forall (fun x => forall c, cop_short 766 x c) busy).
  { unfold busy. repeat (constructor; [try (intros c; exact I)|]); [|constructor]. intros c n _ o _. cbn [op_short]. vm_compute. discriminate. }
  revert R S. generalize busy at 1 3 4. generalize (cafter busy) ctrl0. intros c' c h R. induction R; intros S; [constructor|].
  inversion S; subst. econstructor; eauto.
Qed.

Definition a_watch : list cop :=
  [CMsgListener true; CStart true; CSearch; from_dev two_listed; from_dev more_listed; from_dev (on_report 115 [48]);
   CReceive [16; 129; 0] here None yes fr0; CPost node0 a_search uecho_message_new; from_dev (on_report 115 [49]); CPostEnd].
Example C88_watching_example : new_ctrl true net_up std_db ctrl0 /\ Forall (watching true) a_watch
  /\ uecho_controller_getnodecount (cafter a_watch) = 1
  /\ exists n o p, In n (c_nodes (cafter a_watch)) /\ In o (n_objs n) /\ In p (o_props o) /\ len (p_data p) = 17.
Proof.
  split; [exact ctrl0_new|]. split.
  { assert (B : forall d, forallb (fun b => (0 <=? b) && (b <? 256)) d && (len d <=? 1000) = true -> buffer d).
    { intros d H. apply andb_prop in H. destruct H as [H L]. split.
      - apply Forall_forall. intros b Ib. rewrite forallb_forall in H. apply H in Ib. unfold is_byte. lia.
      - unfold OBJ_MAX, PTRDIFF_MAX in *. lia. }
    assert (E : enough fr0) by (split; vm_compute; repeat constructor).
    unfold a_watch. repeat (constructor; [first [exact I | exact (conj (proj1 a_search_api) (conj (proj2 a_search_api) (am_new true)))
      | (split; [apply B; vm_compute; reflexivity|split; [exact fr0_ok|exact E]])]|]). constructor. }
  split; [vm_compute; reflexivity|].
  assert (X : existsb (fun n => existsb (fun o => existsb (fun p => len (p_data p) =? 17) (o_props o)) (n_objs n)) (c_nodes (cafter a_watch)) = true) by (vm_compute; reflexivity).
  revert X. generalize (c_nodes (cafter a_watch)). intros l X. apply existsb_exists in X. destruct X as (n & In1 & X). apply existsb_exists in X. destruct X as (o & In2 & X).
  apply existsb_exists in X. destruct X as (p & In3 & X). exists n, o, p. split; [exact In1|]. split; [exact In2|]. split; [exact In3|]. lia.
Qed.

(* the device set up in Properties_Request.v, then a request, something that is no frame, an announcement *)
Definition a_service : list nop := [NReceive (enc_frame (Properties_Request.ask 98 (Plain [(128, [])]))) here (Some there) yes; NReceive [16] here None yes; NAnnounce].
Example C88_serving_example : new_node true net_up std_db node0 /\ (exists own ans, ndoes true net_up std_db 766 node0 set_up node3 own ans)
  /\ Forall safe_nop set_up /\ Forall serving a_service.
Proof.
  split; [exact node0_new|]. split.
  { destruct (nexec_hist set_up set_up_ok ltac:(vm_compute; reflexivity)) as (own & ans & R). exists own, ans.
    assert (S : Forall (fun x => forall n, nop_short 766 x n) set_up).
    { unfold set_up, two_devs. apply Forall_app. split; [apply Forall_forall; intros x J; apply in_map_iff in J; destruct J as (y & <- & _); intros n; exact I|].
      constructor; [intros n o _; cbn [op_short]; vm_compute; discriminate|]. constructor; [intros n o _; cbn [op_short]; vm_compute; discriminate|].
      repeat (constructor; [intros n; exact I|]). constructor. }
    change node3 with (after set_up). revert R S. generalize (after set_up) node0. generalize set_up. intros h n' n R.
    induction R; intros S; [constructor|]. inversion S; subst. econstructor; eauto. }
  split; [destruct C47_example as (_ & _ & _ & _ & S & _); exact S|].
  assert (B : forall d, forallb (fun b => (0 <=? b) && (b <? 256)) d && (len d <=? 1000) = true -> buffer d).
  { intros d H. apply andb_prop in H. destruct H as [H L]. split.
    - apply Forall_forall. intros b Ib. rewrite forallb_forall in H. apply H in Ib. unfold is_byte. lia.
    - unfold OBJ_MAX, PTRDIFF_MAX in *. lia. }
  unfold a_service. constructor; [apply B; vm_compute; reflexivity|]. constructor; [apply B; vm_compute; reflexivity|]. constructor; [exact I|constructor].
Qed.
