(* How long the data a controller holds get: the library stores at most 766 bytes of its own, the rest is the caller's. *)
From Coq Require Import String ZArith List Bool Lia ZifyBool ZifyNat.
From Verif Require Import CSem M_Const M_Misc M_Property M_Message M_PropertyList M_Object M_Node M_NodeListener M_Controller
  StdDB_Data M_Std Spec_Frame Spec_Message Spec_Map Spec_Object Spec_Node Spec_Request Spec_Controller Run_Object Run_Node Run_Controller
  P_Base P_Misc P_Message P_Encode P_MsgApi P_PropertyList P_Object P_ObjectRun P_ObjectReach P_Std P_Node P_Request
  P_NodeReach P_NodeProfile P_NodeInv P_NodeRun P_NodeProps P_RequestProps P_NodeSafe P_Bound P_Shadow P_Controller.
Import ListNotations.
Open Scope Z_scope.
Ltac Zify.zify_post_hook ::= Z.div_mod_to_equations.

Section B.
Variable K : Z.
Hypothesis HK : 766 <= K.
Variable le : bool.
Variable net snet : post -> bool.
Variable db : list obj.
Hypothesis Hdb : db_ok db.
Hypothesis DB : Forall (obound K) db.

Definition cbound (c : ctrl) : Prop := nbound K (c_node c) /\ Forall (nbound K) (c_nodes c).

Lemma bound_setobject : forall nt junk n code n' ps b, uecho_node_setobject le nt db junk n code = Ok (n', ps, b) -> nbound K n -> nbound K n'.
Proof.
  intros nt junk n code n' ps b E N. unfold uecho_node_setobject in E. destruct (uecho_node_getobjectbycode n code); [injection E as <- _ _; exact N|].
  apply bind_ok in E. destruct E as ([o a] & E1 & E). cbn [fst] in E. eapply bound_addobject; [exact HK|exact E| |exact N].
  eapply bound_setcode; [exact HK|exact DB|exact E1|apply bound_new].
Qed.

Lemma bound_search_loop : forall fr data fuel idx j n u n' u', search_loop le snet db fuel fr data idx j n u = Ok (n', u') -> nbound K n -> nbound K n'.
Proof.
  intros fr data. induction fuel as [|fuel IH]; intros idx j n u n' u' E N; cbn [search_loop] in E; destruct (idx + 2 <? len data); try discriminate;
    try (injection E as <- _; exact N).
  apply bind_ok in E. destruct E as (bs & _ & E). apply bind_ok in E. destruct E as (code & _ & E).
  destruct (uecho_node_getobjectbycode n code); [eapply IH; eassumption|].
  apply bind_ok in E. destruct E as ([[n1 ps] b] & E1 & E). eapply IH; [exact E|]. eapply bound_setobject; eassumption.
Qed.

Lemma bound_opsetdata : forall o c d o' a, object_property_setdata o c d = (o', a) -> len d <= K -> obound K o -> obound K o'.
Proof.
  intros o c d o' a E L O. unfold object_property_setdata in E. destruct (uecho_object_getproperty o c) as [p|]; [|injection E as <- _; exact O].
  destruct (uecho_property_setdata d p) as [p1 ann] eqn:S. injection E as <- _. unfold obound. cbn [o_with_props o_props].
  apply bound_upd; [|exact O]. intros _ _. eapply bound_store; eassumption.
Qed.

Lemma bound_update_loop : forall fr oc ps j n u n' u', Forall (fun p => len (p_data p) <= K) ps -> update_loop le snet fr j n oc ps u = Ok (n', u') -> nbound K n -> nbound K n'.
Proof.
  intros fr oc. induction ps as [|p ps IH]; intros j n u n' u' F E N; cbn [update_loop] in E; [injection E as <- _; exact N|].
  inversion F as [|? ? Fp F']; subst. destruct (uecho_node_getobjectbycode n oc) as [o|]; [|discriminate].
  apply bind_ok in E. destruct E as ([n1 q1] & E1 & E). cbn [fst] in E.
  assert (N1 : nbound K n1).
  { destruct (uecho_object_hasproperty o (p_code p)); [injection E1 as <- _; exact N|].
    eapply bound_op; [|exact E1|exact N]. intros o0 o' a _ X. eapply bound_setproperty; [exact HK|exact X]. }
  destruct (uecho_node_getobjectbycode n1 oc) as [o1|]; [|discriminate].
  destruct (uecho_object_getproperty o1 (p_code p)) as [q|]; [|eapply IH; eassumption].
  destruct (uecho_property_isdataequal q (p_data p)); [eapply IH; eassumption|].
  apply bind_ok in E. destruct E as ([n2 q2] & E2 & E). cbn [fst] in E. eapply IH; [exact F'|exact E|].
  eapply bound_op; [|exact E2|exact N1]. intros o0 o' a _ X. injection X as X. eapply bound_opsetdata; eassumption.
Qed.

Lemma put_node_bound : forall a n' l, Forall (nbound K) l -> nbound K n' -> Forall (nbound K) (put_node a n' l).
Proof.
  intros a n'. induction l as [|n l IH]; intros F N; cbn [put_node]; [exact F|]. inversion F; subst.
  destruct (uecho_node_isaddress n a); constructor; auto.
Qed.

Lemma bound_listener : forall fr c f la ra y, cinv c -> frame_ok f ->
  uecho_controller_servermessagelistener le snet db fr c (req_of f la ra) = Ok y -> cbound c -> cbound (cr_ctrl y).
Proof.
  intros fr c f la ra y (N & Sh & Nd & _ & Hr) Hf H [B1 B2].
  unfold uecho_controller_servermessagelistener in H. apply bind_ok in H. destruct H as ([c1 sg] & E & H).
  apply (post_phase le c f la ra c1 sg Hr Hf) in E. destruct E as [E _].
  assert (B : cbound c1) by (rewrite E; split; [exact B1|exact B2]). clear E.
  assert (Known : forall a n, uecho_controller_getnodebyaddress c1 a = Some n -> nbound K n).
  { intros [a|] n X; unfold uecho_controller_getnodebyaddress in X; [|rewrite byaddress_null in X; discriminate]. apply byaddress_some in X. destruct B as [_ B]. rewrite Forall_forall in B. apply B. apply X. }
  assert (Fin : forall l, Forall (nbound K) l -> cbound (c_with_nodes l c1)) by (intros l X; split; [apply B|exact X]).
  apply bind_ok in H. destruct H as (s & _ & H). destruct s.
  - apply bind_ok in H. destruct H as (z & Z0 & H). injection H as <-. cbn [cr_ctrl].
    unfold uecho_controller_handlesearchmessage in Z0. apply bind_ok in Z0. destruct Z0 as (o & _ & Z0). destruct o as [p|]; [|injection Z0 as <-; exact B].
    destruct (uecho_property_getdatasize p <? 1); [injection Z0 as <-; exact B|]. destruct (m_from (req_of f la ra)) as [a|]; [|injection Z0 as <-; exact B].
    destruct (uecho_controller_getnodebyaddress c1 (Some a)) as [n|] eqn:G.
    + apply bind_ok in Z0. destruct Z0 as ([n' u] & L & Z0). injection Z0 as <-. cbn [fst]. apply Fin. apply put_node_bound; [apply B|].
      eapply bound_search_loop; [exact L|]. eapply Known; exact G.
    + apply bind_ok in Z0. destruct Z0 as ([n0 ps] & Nn & Z0). apply bind_ok in Z0. destruct Z0 as ([n' u] & L & Z0). injection Z0 as <-. cbn [fst] in *.
      unfold uecho_controller_addnode. apply Fin. apply Forall_app. split; [apply B|]. constructor; [|constructor].
      eapply bound_search_loop; [exact L|]. eapply bound_node_new in Nn; [|exact HK|exact DB]. exact Nn.
  - apply bind_ok in H. destruct H as (dc & _ & H). destruct (uecho_node_getobjectbycode (c_node c1) dc); [|injection H as <-; exact B].
    destruct (uecho_controller_getnodebyaddress c1 (m_from (req_of f la ra))) as [n|] eqn:G; [|injection H as <-; exact B].
    apply bind_ok in H. destruct H as (z & Z0 & H). injection H as <-. cbn [cr_ctrl].
    unfold uecho_controller_handlenodemessage in Z0. apply bind_ok in Z0. destruct Z0 as ([n' u] & L & Z0). injection Z0 as <-. cbn [fst].
    apply Fin. apply put_node_bound; [apply B|]. pose proof (Known _ _ G) as Bn.
    destruct (_ || _); [|injection L as <- _; exact Bn].
    unfold uecho_controller_updatenodebyresponsemessage in L. apply bind_ok in L. destruct L as (sc & _ & L).
    destruct (uecho_node_getobjectbycode n sc); [|injection L as <- _; exact Bn].
    unfold uecho_controller_updateopcpropertydata in L. rewrite (reported_items f la ra Hf) in L. cbn [bind] in L.
    eapply bound_update_loop; [|exact L|exact Bn].
    apply Forall_forall. intros p I. apply in_map_iff in I. destruct I as (e & <- & I).
    destruct Hf as (_ & _ & _ & _ & _ & Hb). unfold reported in I.
    assert (G2 : forall ps, eprops_ok ps -> In e ps -> len (snd e) <= 255) by (intros ps [F _] J; rewrite Forall_forall in F; destruct (F e J) as (_ & _ & Q); unfold len; lia).
    change (p_data (msgprop e)) with (snd e). assert (len (snd e) <= 255); [|lia].
    destruct (f_body f) as [ps|ss gs]; [destruct Hb as [_ Hb]; exact (G2 _ Hb I)|]. destruct Hb as (_ & _ & Hb). exact (G2 _ Hb I).
Qed.

Lemma bound_ctrl_receive : forall dec fr c data la ra o y, cinv c -> mem_ok (c_node c) -> buffer data -> fresh_ok fr ->
  ctrl_receive le net snet db dec fr c data la ra = Ok (o, y) -> cbound c -> cbound (cr_ctrl y).
Proof.
  intros dec fr c data la ra o y Hc M Hb Hfr E [B1 B2].
  apply ctrl_receive_spec in E; [|assumption..]. destruct (dec_frame data) as [[f rest]|].
  - destruct E as (x & y' & E & Hf & _ & R & Rn & L). injection E as -> ->.
    apply receive_frame_ok in R; [|apply Hc|exact Hf]. destruct R as [[N1 _] _].
    eapply bound_listener; [exact (c_with_node_inv c (r_node x) Hc N1)|exact Hf|exact L|].
    split; [|exact B2]. change (nbound K (r_node x)). eapply bound_receive; [exact HK|apply Hc|exact M|exact Hb|exact Rn|exact B1].
  - injection E as _ ->. split; assumption.
Qed.

(* the data the caller gives *)
Definition cop_bound (x : cop) (c : ctrl) : Prop :=
  match x with
  | CLocal x => nop_bound K x (c_node c)
  | CShadow a x => forall n, uecho_controller_getnodebyaddress c (Some a) = Some n -> nop_bound K x n
  | _ => True
  end.

Lemma tid_same : forall t n, nbound K n -> nbound K (n_with_tid t n).
Proof. intros t n H. exact H. Qed.

Lemma bound_announcemsg : forall n m s, msg_ok m -> fits m -> uecho_node_announcemessage le net n m = Ok s -> nbound K n -> nbound K (s_node s).
Proof.
  intros n m s Hm Hf E N. rewrite announcemessage_spec in E; [|assumption..].
  apply (f_equal (fun x => match x with Ok y => s_node y | _ => n end)) in E. cbv iota in E. destruct (profile n); cbn [s_node] in E; rewrite <- E; exact N.
Qed.
Lemma bound_sendmsg : forall n d m s, msg_ok m -> fits m -> uecho_node_sendmessage le net n d m = Ok s -> nbound K n -> nbound K (s_node s).
Proof.
  intros n d m s Hm Hf E N. rewrite sendmessage_spec in E; [|assumption..].
  apply (f_equal (fun x => match x with Ok y => s_node y | _ => n end)) in E. cbv iota in E.
  destruct (profile n); [destruct (n_addr d)|]; cbn [s_node] in E; rewrite <- E; exact N.
Qed.

Lemma bound_cstep : forall c x out, cinv c -> cmem_ok c -> cop_ok le db x -> cop_bound x c -> cstep le net snet db c x = Ok out ->
  cbound c -> cbound (co_ctrl out).
Proof.
  intros c x out Hc [M Ms] Hx Bx H B. pose proof Hc as (N & Sh & Nd & Hq & Hr). pose proof B as [B1 B2].
  destruct x as [data la ra dec fr|x|a x| |code|p|p|b|b|up|d q r| |]; cbn [cstep cop_ok cop_bound] in *.
  - apply bind_ok in H. destruct H as ([o y] & E & H). injection H as <-. cbn [co_ctrl]. destruct Hx as [Hb Hfr]. eapply bound_ctrl_receive; eassumption.
  - apply bind_ok in H. destruct H as ([[n own] ans] & E & H). injection H as <-. cbn [co_ctrl]. split; [|exact B2].
    change (nbound K n). eapply bound_nstep; [exact HK|exact DB|exact N|exact M|exact (proj1 Hx)|exact Bx|exact E|exact B1].
  - destruct (uecho_controller_getnodebyaddress c (Some a)) as [n|] eqn:G; [|injection H as <-; exact B].
    apply bind_ok in H. destruct H as ([[n' own] ans] & E & H). injection H as <-. cbn [co_ctrl]. split; [exact B1|]. cbn [c_with_nodes c_nodes].
    unfold uecho_controller_getnodebyaddress in G. pose proof (byaddress_some _ _ _ G) as [I0 _].
    rewrite Forall_forall in Sh, Ms. apply put_node_bound; [exact B2|].
    eapply bound_nstep; [exact HK|exact DB|exact (proj1 (Sh n I0))|exact (Ms n I0)|exact (proj1 Hx)|exact (Bx n eq_refl)|exact E|].
    rewrite Forall_forall in B2. exact (B2 n I0).
  - apply bind_ok in H. destruct H as (s & E & H). injection H as <-. cbn [co_ctrl]. split; [|exact B2]. change (nbound K (s_node s)).
    unfold uecho_controller_search, uecho_controller_searchwithesv in E.
    destruct search_msg as (m & Em & Hm & S1 & S2 & S3 & S4 & S5 & S6 & S7). rewrite Em in E. cbn [bind] in E.
    eapply bound_announcemsg; [| |exact E|exact B1]; [apply (esv_ok m 98); [exact Hm|unfold is_byte; lia]|].
    apply search_fits; [reflexivity|apply (esv_ok m 98); [exact Hm|unfold is_byte; lia]|assumption..].
  - apply bind_ok in H. destruct H as (s & E & H). injection H as <-. cbn [co_ctrl]. split; [|exact B2]. change (nbound K (s_node s)).
    unfold uecho_controller_searchobject, uecho_controller_searchobjectwithesv in E.
    destruct search_msg as (m & Em & Hm & S1 & S2 & S3 & S4 & S5 & S6 & S7). rewrite Em in E. cbn [bind] in E.
    rewrite setdst_eq in E. cbn [bind] in E.
    eapply bound_announcemsg; [| |exact E|exact B1]; [apply deoj_ok; [apply (esv_ok m 98); [exact Hm|unfold is_byte; lia]|apply eoj3_of_code]|].
    apply search_fits; [reflexivity|apply deoj_ok; [apply (esv_ok m 98); [exact Hm|unfold is_byte; lia]|apply eoj3_of_code]|assumption..].
  - injection H as <-. exact B.
  - injection H as <-. exact B.
  - injection H as <-. exact B.
  - injection H as <-. exact B.
  - apply bind_ok in H. destruct H as ([[c' ps] b] & E & H). injection H as <-. cbn [co_ctrl] in *.
    unfold uecho_controller_start, uecho_node_start in E. apply bind_ok in E. destruct E as ([[n ps1] b1] & E & E1).
    apply bind_ok in E. destruct E as ([[n2 ps2] b2] & E & E2). injection E2 as <- <- <-. injection E1 as <- _ _.
    eapply bound_announce in E; [|exact B1]. split; [exact E|constructor].
  - apply bind_ok in H. destruct H as ([[c' ps] b] & E & H). injection H as <-. cbn [co_ctrl] in *. destruct Hx as (Aq & Iq & Ar).
    pose proof (api_inv_holds _ _ Aq) as [Hmq _].
    unfold postmessage_begin, uecho_controller_sendmessage in E. apply bind_ok in E. destruct E as (s & E & E1).
    cbn [c_with_post c_node] in E. eapply bound_sendmsg in E; [|exact Hmq|apply in_memory_fits; assumption|exact B1].
    apply (f_equal (fun x => match x with Ok y => fst (fst y) | _ => c end)) in E1. cbv iota in E1. cbn [fst] in E1. rewrite <- E1.
    split; [exact E|exact B2].
  - injection H as <-. exact B.
  - injection H as <-. exact B.
Qed.
End B.

Lemma cbound_mem : forall K c, K <= 1099511627776 -> cbound K c -> cmem_ok c.
Proof.
  intros K c HK [B1 B2].
  assert (G : forall n, nbound K n -> mem_ok n).
  { intros n H. eapply Forall_impl; [|exact H]. intros o Ho. eapply Forall_impl; [|exact Ho]. intros p Hp. unfold pbound in Hp. lia. }
  split; [exact (G _ B1)|]. eapply Forall_impl; [|exact B2]. exact G.
Qed.
