(* No undefined behaviour in a controller that receives a datagram. *)
From Coq Require Import String ZArith List Bool Lia ZifyBool ZifyNat.
From Verif Require Import CSem M_Const M_Misc M_Property M_Message M_PropertyList M_Object M_Std M_Node M_NodeListener
  M_Controller Spec_Frame Spec_Message Spec_Object Spec_Std Spec_Node Spec_Request Spec_Controller Spec_Map
  Run_Object Run_Node Run_Controller P_Base P_Misc P_Message P_Encode P_MsgApi P_Map P_PropertyList P_Object P_ObjectRun
  P_ObjectReach P_Std Properties_Object P_Node P_Request P_NodeReach P_NodeProfile P_NodeInv P_NodeRun P_NodeProps
  P_RequestProps P_NodeSafe P_Shadow P_Controller.
Import ListNotations.
Open Scope Z_scope.
Ltac Zify.zify_post_hook ::= Z.div_mod_to_equations.

Definition cgood (c : ctrl) : Prop := ngood (c_node c) /\ Forall ngood (c_nodes c).
(* while the two message pointers of a post are set, they point to live messages *)
Definition live (c : ctrl) : Prop :=
  uecho_controller_ispostresponsewaiting c = true -> (exists q, c_req c = MMsg q) /\ (exists r, c_res c = MMsg r).
(* the manufacturer and unique identifiers that node creation writes are complete *)
Definition enough (fr : fresh) : Prop := (3 <= length (fr_man fr))%nat /\ (13 <= length (fr_uniq fr))%nat.

Definition safe_cop (x : cop) : Prop :=
  match x with
  | CReceive _ _ _ _ fr => enough fr
  | CLocal x | CShadow _ x => safe_nop x
  | CFree => False
  | _ => True
  end.

Lemma put_nodes_good : forall a n' l, Forall ngood l -> ngood n' -> Forall ngood (put_node a n' l).
Proof. intros. apply put_node_Forall; assumption. Qed.

Section Safe.
Variable le : bool.
Variable net snet : post -> bool.
Variable db : list obj.
Hypothesis Hdb : db_ok db.
Hypothesis Hmaps : db_maps db.

Lemma post_total : forall c m, msg_ok m -> mptr_ok (c_res c) -> live c ->
  exists c1 sg, (if uecho_controller_ispostresponsewaiting c
                 then uecho_controller_handlepostresponse le c m else Ok (c, false)) = Ok (c1, sg)
  /\ c1 = c_with_post (c_req c) (c_res c1) c /\ mptr_ok (c_res c1) /\ live c1.
Proof.
  intros c m Hm Hr Hl.
  assert (Same : c = c_with_post (c_req c) (c_res c) c) by (destruct c; reflexivity).
  destruct (uecho_controller_ispostresponsewaiting c) eqn:W.
  2:{ exists c, false. split; [reflexivity|]. split; [exact Same|]. split; [exact Hr|exact Hl]. }
  destruct (Hl W) as [[q Eq] [r Er]].
  unfold uecho_controller_handlepostresponse, uecho_controller_ispostresponsemessage. rewrite Eq. cbn [bind].
  destruct (uecho_message_isresponsemessage le q m); cbn [negb].
  2:{ exists c, false. split; [reflexivity|]. rewrite <- Eq. split; [exact Same|]. split; [exact Hr|exact Hl]. }
  rewrite Er in Hr |- *. cbn [mptr_ok] in Hr.
  destruct (message_set_spec le r m Hr Hm) as (v & E & _ & Hv). rewrite E. cbn [bind].
  eexists _, _. split; [reflexivity|]. cbn [c_with_post c_res c_req]. split; [reflexivity|]. split.
  - cbn [mptr_ok]. destruct Hm as (H1 & H2 & H3 & H4 & H5 & H6 & H7 & _). pose proof pv_empty_ok as Hp.
    unfold msg_ok. cbn [m_ehd1 m_ehd2 m_tid m_seoj m_deoj m_esv m_p m_pset m_pget]. tauto.
  - intros _. cbn [c_with_post c_res c_req]. split; eexists; reflexivity.
Qed.

Lemma took_good : forall n n' oc o o' m, ngood n -> uecho_node_getobjectbycode n oc = Some o -> took n n' oc o o' m -> ngood n'.
Proof.
  intros n n' oc o o' m N G T. rewrite (tk_node _ _ _ _ _ _ T). unfold ngood. cbn [n_objs n_with_tid n_with_objs].
  apply put_obj_Forall; [exact N|]. apply (tk_good _ _ _ _ _ _ T). apply getbycode_in in G. unfold ngood in N.
  rewrite Forall_forall in N. apply N. apply G.
Qed.

(* [Pn]: anything about the local node, which the listener leaves alone *)
Definition ngoods (Pn : node -> Prop) (c : ctrl) : Prop := Pn (c_node c) /\ Forall ngood (c_nodes c).
Lemma listener_keeps : forall Pn fr c f la ra, cinv c -> frame_ok f -> fresh_ok fr -> enough fr -> ngoods Pn c -> live c ->
  exists y, uecho_controller_servermessagelistener le snet db fr c (req_of f la ra) = Ok y
  /\ ngoods Pn (cr_ctrl y) /\ live (cr_ctrl y).
Proof.
  intros Pn fr c f la ra (N & Sh & Nd & _ & Hr) Hf (F1 & F2 & F3 & F4 & F5) [L1 L2] [Gn Gs] Hl.
  unfold uecho_controller_servermessagelistener.
  destruct (post_total c (req_of f la ra) (req_ok f la ra Hf) Hr Hl) as (c1 & sg & E0 & E & Hr1 & Hl1).
  rewrite E0. cbn [bind]. clear E0.
  pose proof (issearch_spec f la ra Hf) as I. rewrite I. cbn [bind]. clear I.
  pose proof (req_parts f la ra) as P. cbv zeta in P. pose proof (reported_items f la ra Hf) as R.
  pose proof (reported_ok f Hf) as Ro. pose proof (req_ok f la ra Hf) as Hm.
  set (m := req_of f la ra) in *. clearbody m. destruct P as (Pd & Ps & Pe & _ & Pf & Pp).
  assert (K1 : c_node c1 = c_node c) by (rewrite E; reflexivity).
  assert (K2 : c_nodes c1 = c_nodes c) by (rewrite E; reflexivity).
  assert (G1 : ngoods Pn c1) by (unfold ngoods; rewrite K1, K2; split; assumption).
  assert (Fin : forall l, Forall ngood l -> ngoods Pn (c_with_nodes l c1) /\ live (c_with_nodes l c1)).
  { intros l Hgl. split; [split; [exact (proj1 G1)|exact Hgl]|exact Hl1]. }
  clear E.
  assert (Known : forall a n, node_byaddress (c_nodes c) (Some a) = Some n -> shadow n /\ ngood n).
  { intros a n B. apply byaddress_some in B. rewrite Forall_forall in Sh, Gs. split; [apply Sh|apply Gs]; apply B. }
  destruct (search_data f) as [d|] eqn:Sd.
  - unfold uecho_controller_handlesearchmessage, uecho_message_getpropertybycode, uecho_property_getbycode.
    pose proof (search_fields _ _ Sd) as Eb. rewrite Eb in Pp. injection Pp as P1 P2 P3.
    rewrite (pv_items_ok (m_p m)) by apply Hm. rewrite P1, pv_list_of. cbn [bind]. rewrite find_one.
    assert (Hd : bytes_ok d).
    { destruct Hf as (_ & _ & _ & _ & _ & Hb). rewrite Eb in Hb. destruct Hb as (_ & Hb & _).
      inversion Hb as [|? ? (_ & Hb1 & _) _]; subst. apply bytes_of_vals. exact Hb1. }
    change (uecho_property_getdatasize (msgprop (214, d))) with (len d).
    change (p_data (msgprop (214, d))) with d.
    destruct (len d <? 1) eqn:Ld; [cbn [bind]; eexists; split; [reflexivity|split; assumption]|].
    rewrite Pf. destruct (from_of la ra) as [a|]; [|cbn [bind]; eexists; split; [reflexivity|split; assumption]].
    unfold uecho_controller_getnodebyaddress. rewrite K2.
    destruct (node_byaddress (c_nodes c) (Some a)) as [n|] eqn:B.
    + destruct (Known _ _ B) as [(Sn & Sp & _) Sg].
      destruct (search_loop_total le snet db Hdb Hmaps fr d F5 Hd (length d) 1%nat 0%nat n false Sn Sp Sg) as (n' & u & L & Ng); [lia|].
      change (Z.of_nat 1) with 1 in L. rewrite L. cbn [bind]. eexists. split; [reflexivity|]. cbn [cr_ctrl fst].
      apply Fin. apply put_nodes_good; assumption.
    + destruct (new_total le snet db Hdb Hmaps (fr_tid fr) (fr_junk fr) (fr_man fr) (fr_uniq fr) (proj1 F1) F2 F3 F4 L1 L2) as (n0 & ps & Nn).
      rewrite Nn. cbn [bind fst].
      assert (Hn : new_node le snet db n0) by (exists (fr_tid fr), (fr_junk fr), (fr_man fr), (fr_uniq fr), ps; auto).
      destruct (new_node_ok _ _ _ _ Hdb Hn) as (A1 & A2 & A3). destruct (new_good le snet db Hdb Hmaps n0 Hn) as [_ A4].
      destruct (search_loop_total le snet db Hdb Hmaps fr d F5 Hd (length d) 1%nat 0%nat (uecho_node_setaddress (Some a) n0) false A1 A3 A4)
        as (n' & u & L & Ng); [lia|].
      change (Z.of_nat 1) with 1 in L. rewrite L. cbn [bind]. eexists. split; [reflexivity|]. cbn [cr_ctrl fst].
      unfold uecho_controller_addnode. rewrite K2. apply Fin. apply Forall_app. split; [exact Gs|]. constructor; [exact Ng|constructor].
  - unfold uecho_message_getdestinationobjectcode.
    rewrite Pd. rewrite code_of_e3l by apply Hf. cbn [bind]. rewrite K1.
    destruct (uecho_node_getobjectbycode (c_node c) (eoj_code (f_deoj f))) as [lo|] eqn:G;
      [|eexists; split; [reflexivity|split; assumption]].
    unfold uecho_controller_getnodebyaddress. rewrite K2, Pf.
    destruct (node_byaddress (c_nodes c) (from_of la ra)) as [n|] eqn:B; [|eexists; split; [reflexivity|split; assumption]].
    destruct (from_of la ra) as [a|]; [|rewrite byaddress_null in B; discriminate].
    destruct (Known _ _ B) as [(Sn & Sp & _) Sg].
    unfold uecho_controller_handlenodemessage, uecho_message_getesv. rewrite Pe, K2.
    assert (T : exists n' u, (if uecho_esv_isnotification (f_esv f) || uecho_esv_isreadresponse (f_esv f) || uecho_esv_isnotifyresponse (f_esv f)
           then uecho_controller_updatenodebyresponsemessage le snet fr n m else Ok (n, false)) = Ok (n', u) /\ ngood n').
    { destruct (_ || _); [|exists n, false; split; [reflexivity|exact Sg]].
      unfold uecho_controller_updatenodebyresponsemessage, uecho_message_getsourceobjectcode.
      rewrite Ps. rewrite code_of_e3l by apply Hf. cbn [bind].
      destruct (uecho_node_getobjectbycode n (eoj_code (f_seoj f))) as [o|] eqn:Go; [|exists n, false; split; [reflexivity|exact Sg]].
      unfold uecho_controller_updateopcpropertydata. rewrite R. cbn [bind].
      assert (Hg : good o) by (apply getbycode_in in Go; unfold ngood in Sg; rewrite Forall_forall in Sg; apply Sg; apply Go).
      destruct (update_loop_total le snet fr _ 0%nat n _ o false F5 Sn Go Ro Hg) as ([n' u] & L).
      exists n', u. split; [exact L|].
      destruct (update_loop_spec le snet fr _ _ _ _ _ _ _ _ F5 Sn Go Ro L) as (o' & T & _). eapply took_good; eauto. }
    destruct T as (n' & u & L & Ng). rewrite L. cbn [bind]. eexists. split; [reflexivity|]. cbn [cr_ctrl fst].
    apply Fin. apply put_nodes_good; assumption.
Qed.

Lemma listener_total : forall fr c f la ra, cinv c -> frame_ok f -> fresh_ok fr -> enough fr -> cgood c -> live c ->
  exists y, uecho_controller_servermessagelistener le snet db fr c (req_of f la ra) = Ok y
  /\ cgood (cr_ctrl y) /\ live (cr_ctrl y).
Proof. exact (listener_keeps ngood). Qed.

Lemma ctrl_receive_total : forall dec fr c data la ra, cinv c -> mem_ok (c_node c) -> buffer data -> fresh_ok fr -> enough fr ->
  cgood c -> live c ->
  exists o y, ctrl_receive le net snet db dec fr c data la ra = Ok (o, y) /\ cgood (cr_ctrl y) /\ live (cr_ctrl y).
Proof.
  intros dec fr c data la ra Hc M Hb Hfr He Hg Hl. pose proof Hc as (N & _).
  destruct (receive_total le net dec (c_node c) data la ra N M Hb (ngood_handlers _ (proj1 Hg))) as (r & NR).
  pose proof (node_receive_spec le net dec (c_node c) data la ra Hb (fine_objs _ N M)) as NS. rewrite NR in NS.
  unfold node_receive in NR. unfold ctrl_receive. pose proof Hb as [Hd Hlb].
  assert (Hn : msg_ok uecho_message_new) by (apply (api_inv_holds le); constructor).
  pose proof (parse_spec _ data Hn Hd Hlb) as P. unfold uecho_message_parsepacket in *.
  destruct (dec_frame data) as [[f rest]|] eqn:E.
  - rewrite P in NR |- *. cbn [bind negb] in NR |- *.
    change (uecho_message_setsourceaddress ra (uecho_message_setsourceaddress la (msg_of_frame uecho_message_new f))) with (req_of f la ra) in *.
    apply dec_frame_iff in E; [|exact Hd]. destruct E as [Hf _]. rewrite NR. cbn [bind].
    symmetry in NS. pose proof (receive_good le net dec (c_node c) f _ r N Hf NS (proj1 Hg)) as Gr.
    apply receive_frame_ok in NS; [|exact N|exact Hf]. destruct NS as [[N1 _] _].
    destruct (listener_total fr (c_with_node (r_node r) c) f la ra (c_with_node_inv c (r_node r) Hc N1) Hf Hfr He) as (y & L & G & V).
    { split; [exact Gr|apply Hg]. } { exact Hl. }
    rewrite L. cbn [bind]. exists (Some r), y. auto.
  - destruct P as (m' & P & _). rewrite P. cbn [bind negb]. exists None, (mkCr c [] false). auto.
Qed.

Lemma announce_good : forall n n' ps b nt, uecho_node_announce le nt n = Ok (n', ps, b) -> ngood n -> ngood n'.
Proof.
  intros n n' ps b nt E N. unfold uecho_node_announce in E.
  destruct (uecho_node_getobjectbycode n uEchoNodeProfileObject) as [o|]; [|injection E as <- _ _; exact N].
  destruct (uecho_object_getproperty o EPC_InstanceListNotification) as [q|]; [|injection E as <- _ _; exact N].
  apply bind_ok in E. destruct E as (s & E & E2).
  apply (f_equal (fun x => match x with Ok (a, _, _) => a | _ => n end)) in E2. cbv iota in E2. rewrite <- E2.
  rewrite (announceproperty_shape _ _ _ _ _ _ E). exact N.
Qed.

Lemma announcemsg_good : forall n m s, msg_ok m -> fits m -> uecho_node_announcemessage le net n m = Ok s -> ngood n -> ngood (s_node s).
Proof.
  intros n m s Hm Hf E N. rewrite announcemessage_spec in E; [|assumption..].
  apply (f_equal (fun x => match x with Ok y => s_node y | _ => n end)) in E. cbv iota in E. rewrite <- E.
  destruct (profile n); exact N.
Qed.

Lemma sendmsg_good : forall n d m s, msg_ok m -> fits m -> uecho_node_sendmessage le net n d m = Ok s -> ngood n -> ngood (s_node s).
Proof.
  intros n d m s Hm Hf E N. rewrite sendmessage_spec in E; [|assumption..].
  apply (f_equal (fun x => match x with Ok y => s_node y | _ => n end)) in E. cbv iota in E. rewrite <- E.
  destruct (profile n); [destruct (n_addr d)|]; exact N.
Qed.

Lemma cstep_good : forall c x out, cinv c -> cmem_ok c -> cop_ok le db x -> safe_cop x ->
  cstep le net snet db c x = Ok out -> cgood c -> live c -> cgood (co_ctrl out) /\ live (co_ctrl out).
Proof.
  intros c x out Hc [M Ms] Hx Sx H Hg Hl. pose proof Hc as (N & Sh & Nd & Hq & Hr). pose proof Hg as [Gn Gs].
  destruct x as [data la ra dec fr|x|a x| |code|p|p|b|b|up|d q r| |]; cbn [cstep cop_ok safe_cop] in *.
  - apply bind_ok in H. destruct H as ([o y] & E & H). injection H as <-. cbn [co_ctrl] in *. destruct Hx as [Hb Hfr].
    destruct (ctrl_receive_total dec fr c data la ra Hc M Hb Hfr Sx Hg Hl) as (o' & y' & E' & G & V).
    rewrite E in E'. injection E' as -> ->. auto.
  - apply bind_ok in H. destruct H as ([[n own] ans] & E & H). injection H as <-. cbn [co_ctrl].
    split; [split; [|exact Gs]|exact Hl]. exact (nstep_good le net db Hdb Hmaps (c_node c) x n own ans N M (proj1 Hx) Sx E Gn).
  - destruct (uecho_controller_getnodebyaddress c (Some a)) as [n|] eqn:B; [|injection H as <-; auto].
    apply bind_ok in H. destruct H as ([[n' own] ans] & E & H). injection H as <-. cbn [co_ctrl].
    unfold uecho_controller_getnodebyaddress in B. pose proof (byaddress_some _ _ _ B) as [I Ea].
    rewrite Forall_forall in Sh, Ms. destruct (Sh n I) as (Nn & _).
    assert (Gx : ngood n) by (rewrite Forall_forall in Gs; apply Gs; exact I).
    split; [split; [exact Gn|]|exact Hl]. apply put_nodes_good; [exact Gs|].
    exact (nstep_good le snet db Hdb Hmaps n x n' own ans Nn (Ms n I) (proj1 Hx) Sx E Gx).
  - apply bind_ok in H. destruct H as (s & E & H). injection H as <-. cbn [co_ctrl]. split; [split; [|exact Gs]|exact Hl].
    unfold uecho_controller_search, uecho_controller_searchwithesv in E.
    destruct search_msg as (m & Em & Hm & S1 & S2 & S3 & S4 & S5 & S6 & S7). rewrite Em in E. cbn [bind] in E.
    unfold uecho_controller_announcemessage in E.
    assert (Ho : msg_ok (with_esv 98 m)) by (apply (esv_ok m 98); [exact Hm|unfold is_byte; lia]).
    eapply announcemsg_good; [| |exact E|exact Gn]; [exact Ho|apply search_fits; assumption || reflexivity].
  - apply bind_ok in H. destruct H as (s & E & H). injection H as <-. cbn [co_ctrl]. split; [split; [|exact Gs]|exact Hl].
    unfold uecho_controller_searchobject, uecho_controller_searchobjectwithesv in E.
    destruct search_msg as (m & Em & Hm & S1 & S2 & S3 & S4 & S5 & S6 & S7). rewrite Em in E. cbn [bind] in E.
    rewrite setdst_eq in E. cbn [bind] in E. unfold uecho_controller_announcemessage in E.
    assert (Ho : forall e, eoj3 e -> msg_ok (with_deoj e (with_esv 98 m)))
      by (intros e He; apply deoj_ok; [apply (esv_ok m 98); [exact Hm|unfold is_byte; lia]|exact He]).
    eapply announcemsg_good; [| |exact E|exact Gn]; [apply Ho; apply eoj3_of_code|].
    apply search_fits; [reflexivity|apply Ho; apply eoj3_of_code|assumption..].
  - injection H as <-. auto.
  - injection H as <-. auto.
  - injection H as <-. auto.
  - injection H as <-. auto.
  - apply bind_ok in H. destruct H as ([[c' ps] b] & E & H). injection H as <-. cbn [co_ctrl] in *.
    unfold uecho_controller_start, uecho_node_start in E. apply bind_ok in E. destruct E as ([[n ps1] b1] & E & E1).
    apply bind_ok in E. destruct E as ([[n2 ps2] b2] & E & E2). injection E2 as <- <- <-. injection E1 as <- _ _.
    split; [|exact Hl]. split; [|constructor]. cbn [c_node c_with_node]. eapply announce_good; eauto.
  - apply bind_ok in H. destruct H as ([[c' ps] b] & E & H). injection H as <-. cbn [co_ctrl] in *. destruct Hx as (Aq & Iq & Ar).
    pose proof (api_inv_holds _ _ Aq) as [Hmq _]. pose proof (api_inv_holds _ _ Ar) as [Hmr _].
    unfold postmessage_begin, uecho_controller_sendmessage in E. apply bind_ok in E. destruct E as (s & E & E1).
    cbn [c_with_post c_node] in E. apply sendmsg_good in E; [|exact Hmq|apply in_memory_fits; assumption|exact Gn].
    apply (f_equal (fun x => match x with Ok y => fst (fst y) | _ => c end)) in E1. cbv iota in E1. cbn [fst] in E1. rewrite <- E1.
    split; [split; [exact E|exact Gs]|]. intros _. cbn [c_with_post c_req c_res]. split; eexists; reflexivity.
  - injection H as <-. split; [exact Hg|]. intros X. discriminate X.
  - contradiction.
Qed.

Lemma crun_good : forall c h c', cinv c -> crun le net snet db c h c' -> Forall safe_cop h -> cgood c -> live c ->
  cinv c' /\ cmem_ok c' /\ cgood c' /\ live c'.
Proof.
  intros c h c' Hc H. revert Hc. induction H as [c M|c x out h c' Hx M S R IH]; intros Hc Hs Hg Hl; [auto|].
  inversion Hs as [|? ? S1 S2]; subst. assert (M' : cmem_ok (co_ctrl out)) by (inversion R; assumption).
  destruct (cstep_good c x out Hc M Hx S1 S Hg Hl) as [G1 L1].
  apply IH; [exact (cstep_ok le net snet db Hdb c x out Hc M M' Hx S)|exact S2|exact G1|exact L1].
Qed.

Lemma new_ctrl_good : forall c, new_ctrl le net db c -> cinv c /\ cgood c /\ live c.
Proof.
  intros c H. destruct (new_ctrl_ok le net db Hdb c H) as (A & B & C). split; [exact A|]. split.
  - split; [apply (new_good le net db Hdb Hmaps _ C)|rewrite B; constructor].
  - destruct H as (fr & b & posts & _ & H). unfold uecho_controller_new in H. apply bind_ok in H. destruct H as ([n ps] & E & H).
    apply (f_equal (fun x => match x with Ok y => fst y | _ => c end)) in H. cbv iota in H. cbn [fst snd] in H. rewrite <- H.
    intros X. unfold uecho_controller_ispostresponsewaiting in X. cbn [c_res mptr_set] in X. rewrite andb_false_r in X. discriminate.
Qed.
End Safe.
