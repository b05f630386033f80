(* C50: no undefined behaviour in a controller.  An operation of the model that would read or
   write outside an object, overflow an int, follow a null or dangling pointer or use an
   uninitialised value has no [Ok] result. *)
From Coq Require Import String ZArith List Bool Lia ZifyBool ZifyNat.
From Verif Require Import CSem M_Const M_Misc M_Property M_Message M_PropertyList M_Object M_Node M_NodeListener M_Controller
  StdDB_Data M_Std Spec_Frame Spec_Message Spec_Map Spec_Object Spec_Node Spec_Request Spec_Controller Run_Object Run_Node
  Run_Controller P_Base P_Misc P_Message P_Encode P_MsgApi P_PropertyList P_Object P_ObjectRun P_ObjectReach P_Std P_Node
  P_Request Properties_Object P_NodeReach P_NodeProfile P_NodeInv P_NodeRun P_NodeProps P_RequestProps P_RequestApi P_NodeSafe
  P_Shadow P_Controller P_ControllerProps P_CtrlSafe Properties_Node Properties_Request Properties_Request2 Properties_Safety
  Properties_Controller.
Import ListNotations.
Open Scope Z_scope.
Ltac Zify.zify_post_hook ::= Z.div_mod_to_equations.

(* Any datagram, whatever its bytes and sender, after any history of safe calls and
   datagrams.  [safe_cop]: calls on nodes are the [safe_nop] ones of C47, and the messages
   given to uecho_controller_postmessage are not freed while the controller refers to them
   (it does so forever after a post that could not be sent: C50_failed_post_refuted).
   [enough]: the buffers a new node copies its identifiers from are complete.  Missing for
   the full statement: the calls left out. *)
Theorem C50_any_datagram_partial : forall le net snet c0 h c data la ra dec fr,
  new_ctrl le net std_db c0 -> crun le net snet std_db c0 h c -> Forall safe_cop h ->
  buffer data -> fresh_ok fr -> enough fr ->
  exists r, ctrl_receive le net snet std_db dec fr c data la ra = Ok r.
Proof.
  intros le net snet c0 h c data la ra dec fr H0 H Hs Hb Hfr He.
  destruct (new_ctrl_good le net std_db std_db_ok std_159 c0 H0) as (I0 & G0 & L0).
  destruct (crun_good le net snet std_db std_db_ok std_159 c0 h c I0 H Hs G0 L0) as (I1 & [M1 _] & G1 & L1).
  destruct (ctrl_receive_total le net snet std_db std_db_ok std_159 dec fr c data la ra I1 M1 Hb Hfr He G1 L1) as (o & y & E & _).
  eauto.
Qed.
Print Assumptions C50_any_datagram_partial.

(* The same for every state of every history, in terms of the state: the objects of the
   local node and of the copies have a readable Get property map and no NULL handler, and if
   a post is under way its messages are alive. *)
Theorem C50_any_state : forall le net snet c data la ra dec fr,
  api_ctrl le net snet std_db c -> buffer data -> fresh_ok fr -> enough fr ->
  (forall n o, n = c_node c \/ In n (c_nodes c) -> In o (n_objs n) -> map_readable o /\ no_null o) ->
  live c ->
  exists r, ctrl_receive le net snet std_db dec fr c data la ra = Ok r.
Proof.
  intros le net snet c data la ra dec fr (c0 & h & H0 & H) Hb Hfr He Hg Hl.
  destruct (new_ctrl_good le net std_db std_db_ok std_159 c0 H0) as (I0 & _).
  destruct (crun_ok le net snet std_db std_db_ok c0 h c I0 H) as (I1 & [M1 _]).
  assert (G : cgood c).
  { split; [apply Forall_forall; intros o I; apply (Hg (c_node c)); auto|].
    apply Forall_forall. intros n In'. apply Forall_forall. intros o I. apply (Hg n); auto. }
  destruct (ctrl_receive_total le net snet std_db std_db_ok std_159 dec fr c data la ra I1 M1 Hb Hfr He G Hl) as (o & y & E & _).
  eauto.
Qed.
Print Assumptions C50_any_state.

(* The calls of such a history go through as well.  [croom]: the data stored fit in memory. *)
Definition croom (c : ctrl) (x : cop) : Prop :=
  match x with
  | CLocal x => room (c_node c) x
  | CShadow a x => forall n, uecho_controller_getnodebyaddress c (Some a) = Some n -> room n x
  | _ => True
  end.

Lemma announce_total : forall le net n, ninv n -> mem_ok n -> exists r, uecho_node_announce le net n = Ok r.
Proof.
  intros le net n Hn Hm. unfold uecho_node_announce. destruct (uecho_node_getobjectbycode n uEchoNodeProfileObject) as [p|] eqn:Ep; [|eauto].
  destruct (uecho_object_getproperty p EPC_InstanceListNotification) as [q|] eqn:Eq; [|eauto].
  assert (A : ann_ok q).
  { unfold uecho_object_getproperty in Eq. pose proof (ninv_get _ _ _ Hn Ep) as [Ho _].
    apply (snap_ann_ok p); [apply Ho| |].
    - unfold mem_ok in Hm. rewrite Forall_forall in Hm. apply Hm. apply getbycode_in in Ep. tauto.
    - exists q. split; [|reflexivity]. pose proof (find_code _ _ _ Eq) as [-> _]. exact Eq. }
  destruct (announceproperty_spec le net n (uecho_object_getcode p) q A (proj1 Hn)) as (s & E & _). rewrite E. cbn [bind]. eauto.
Qed.

Lemma announcemsg_total : forall le net n m, msg_ok m -> fits m -> exists s, uecho_node_announcemessage le net n m = Ok s.
Proof. intros le net n m Hm Hf. rewrite announcemessage_spec by assumption. destruct (profile n); eauto. Qed.
Lemma sendmsg_total : forall le net n d m, msg_ok m -> fits m -> exists s, uecho_node_sendmessage le net n d m = Ok s.
Proof. intros le net n d m Hm Hf. rewrite sendmessage_spec by assumption. destruct (profile n); [destruct (n_addr d)|]; eauto. Qed.

Lemma cstep_total : forall le net snet db c x, db_ok db -> db_maps db -> cinv c -> cmem_ok c -> cgood c -> live c ->
  cop_ok le db x -> safe_cop x -> croom c x -> exists out, cstep le net snet db c x = Ok out.
Proof.
  intros le net snet db c x Hdb Hmaps Hc [M Ms] [Gn Gs] Hl Hx Sx Rx. pose proof Hc as (N & Sh & _).
  destruct x as [data la ra dec fr|x|a x| |code|p|p|b|b|up|d q r| |]; cbn [cstep cop_ok safe_cop croom] in *; try (eexists; reflexivity).
  - destruct Hx as [Hb Hfr].
    destruct (ctrl_receive_total le net snet db Hdb Hmaps dec fr c data la ra Hc M Hb Hfr Sx (conj Gn Gs) Hl) as (o & y & E & _).
    rewrite E. cbn [bind]. eauto.
  - destruct (nstep_total le net db Hdb Hmaps (c_node c) x N M (proj1 Hx) Sx Rx Gn) as ([[n own] ans] & E). rewrite E. cbn [bind]. eauto.
  - destruct (uecho_controller_getnodebyaddress c (Some a)) as [n|] eqn:B; [|eauto].
    pose proof B as B'. unfold uecho_controller_getnodebyaddress in B'. apply byaddress_some in B'. destruct B' as [I _].
    rewrite Forall_forall in Sh, Ms, Gs. destruct (Sh n I) as (Nn & _).
    destruct (nstep_total le snet db Hdb Hmaps n x Nn (Ms n I) (proj1 Hx) Sx (Rx n eq_refl) (Gs n I)) as ([[n' own] ans] & E).
    rewrite E. cbn [bind]. eauto.
  - unfold uecho_controller_search, uecho_controller_searchwithesv, uecho_controller_announcemessage.
    destruct search_msg as (m & Em & Hm & S1 & S2 & S3 & S4 & S5 & S6 & S7). rewrite Em. cbn [bind].
    assert (Ho : msg_ok (with_esv 98 m)) by (apply (esv_ok m 98); [exact Hm|unfold is_byte; lia]).
    destruct (announcemsg_total le net (c_node c) (with_esv 98 m) Ho) as (s & E); [apply search_fits; assumption || reflexivity|].
    change (uecho_message_setesv ESV_Get m) with (with_esv 98 m). rewrite E. cbn [bind]. eauto.
  - unfold uecho_controller_searchobject, uecho_controller_searchobjectwithesv, uecho_controller_announcemessage.
    destruct search_msg as (m & Em & Hm & S1 & S2 & S3 & S4 & S5 & S6 & S7). rewrite Em. cbn [bind].
    rewrite setdst_eq. cbn [bind]. change (uecho_message_setesv ESV_Get m) with (with_esv 98 m).
    assert (Ho : forall e, eoj3 e -> msg_ok (with_deoj e (with_esv 98 m)))
      by (intros e He; apply deoj_ok; [apply (esv_ok m 98); [exact Hm|unfold is_byte; lia]|exact He]).
    match goal with |- context [with_deoj ?e _] =>
      destruct (announcemsg_total le net (c_node c) (with_deoj e (with_esv 98 m)) (Ho e (eoj3_of_code _))) as (s & E) end.
    { apply search_fits; [reflexivity|apply Ho; apply eoj3_of_code|assumption..]. }
    rewrite E. cbn [bind]. eauto.
  - unfold uecho_controller_start, uecho_node_start.
    destruct (announce_total le net (c_node c) N M) as ([[n ps] b] & E). rewrite E. cbn [bind]. eauto.
  - destruct Hx as (Aq & Iq & Ar). pose proof (api_inv_holds _ _ Aq) as [Hmq _].
    unfold postmessage_begin, uecho_controller_sendmessage. cbn [c_with_post c_node].
    destruct (sendmsg_total le net (c_node c) d q Hmq) as (s & E); [apply in_memory_fits; assumption|]. rewrite E. cbn [bind]. eauto.
Qed.

Theorem C50_calls_partial : forall le net snet c0 h c x,
  new_ctrl le net std_db c0 -> crun le net snet std_db c0 h c -> Forall safe_cop h ->
  cop_ok le std_db x -> safe_cop x -> croom c x ->
  exists out, cstep le net snet std_db c x = Ok out.
Proof.
  intros le net snet c0 h c x H0 H Hs Hx Sx Rx.
  destruct (new_ctrl_good le net std_db std_db_ok std_159 c0 H0) as (I0 & G0 & L0).
  destruct (crun_good le net snet std_db std_db_ok std_159 c0 h c I0 H Hs G0 L0) as (I1 & M1 & G1 & L1).
  exact (cstep_total le net snet std_db c x std_db_ok std_159 I1 M1 G1 L1 Hx Sx Rx).
Qed.
Print Assumptions C50_calls_partial.

(* uecho_controller_new, whatever memory and random numbers it meets *)
Theorem C50_new : forall le net fr b, fresh_ok fr -> enough fr ->
  exists c posts, uecho_controller_new le net std_db fr b = Ok (c, posts).
Proof.
  intros le net fr b (F1 & F2 & F3 & F4 & F5) [L1 L2]. unfold uecho_controller_new.
  destruct (new_total le net std_db std_db_ok std_159 (fr_tid fr) (fr_junk fr) (fr_man fr) (fr_uniq fr) (proj1 F1) F2 F3 F4 L1 L2)
    as (n & ps & E).
  rewrite E. cbn [bind]. eauto.
Qed.
Print Assumptions C50_new.

(* listeners registered, a device heard, one of its objects written to through the copy, and
   a post under way *)
Definition a_search : msg := match uecho_message_search_new with Ok m => m | _ => uecho_message_new end.
Lemma a_search_api : api_msg true a_search /\ in_memory a_search.
Proof.
  split; [|vm_compute; discriminate]. unfold a_search.
  assert (E : exists m, uecho_message_search_new = Ok m) by (eexists; vm_compute; reflexivity).
  destruct E as [m E]. rewrite E. unfold uecho_message_search_new in E. apply bind_ok in E. destruct E as (m1 & E1 & E).
  apply bind_ok in E. destruct E as (m2 & E2 & E).
  eapply am_add; [| |exact E]; [|split; [|split; [|reflexivity]]].
  - eapply am_setdst; [|exact E2]. eapply am_setsrc; [|exact E1]. apply (am_setesv true uecho_message_new 98); [constructor|unfold is_byte; lia].
  - change (is_byte 214). unfold is_byte. lia.
  - constructor.
Qed.
Definition busy : list cop :=
  [CMsgListener true; CNodeListener true; from_dev two_listed;
   CShadow there (NObj 77825 (KStep (OSetData 128 [48]) zeros)); CPost node0 a_search uecho_message_new].
Lemma busy_ok : Forall (cop_ok true std_db) busy.
Proof.
  unfold busy. constructor; [exact I|]. constructor; [exact I|]. constructor; [apply from_dev_ok; vm_compute; reflexivity|].
  constructor.
  { split; [|exact I]. cbn [nop_ok ocall_ok oop_ok]. split; [split; [cbn; lia|apply is_byteb_val; reflexivity]|].
    split; [intros c' E; injection E as <-; unfold epc_code; lia|exact zeros_ok]. }
  constructor; [|constructor]. destruct a_search_api as [A B]. split; [exact A|]. split; [exact B|constructor].
Qed.
Example C50_example :
  new_ctrl true net_up std_db ctrl0 /\ crun true net_up net_down std_db ctrl0 busy (cafter busy) /\ Forall safe_cop busy
  /\ uecho_controller_ispostresponsewaiting (cafter busy) = true
  /\ buffer (enc_frame two_listed) /\ fresh_ok fr0 /\ enough fr0.
Proof.
  split; [exact ctrl0_new|]. split.
  - pose proof busy_ok as Hk. assert (Hm : cexec_mem ctrl0 busy = true) by (vm_compute; reflexivity).
    unfold cafter. revert Hm. generalize ctrl0. intros c0 Hm. destruct (cexec_trace busy c0 Hk Hm) as (c' & told & E & _ & R).
    rewrite E. exact R.
  - assert (He : enough fr0) by (split; cbn; lia). split.
    + unfold busy. constructor; [exact I|]. constructor; [exact I|]. constructor; [exact He|]. constructor.
      { split; [discriminate|]. intros c' E. injection E as <-. unfold map_epc. lia. }
      constructor; [exact I|constructor].
    + split; [vm_compute; reflexivity|]. split; [|split; [apply fr0_ok|exact He]].
      split; [apply is_byteb_val; vm_compute; reflexivity|vm_compute; discriminate].
Qed.

(* A post whose request cannot be sent (here: the destination has no address) returns false
   and leaves its two messages with the controller.  When their owner frees them, the next
   datagram of any kind makes the controller read a freed message. *)
Theorem C50_failed_post_refuted : exists c data,
  (exists h, crun true net_up net_down std_db ctrl0 (h ++ [CFree]) c /\ Forall safe_cop h)
  /\ (exists h c1 p, crun true net_up net_down std_db ctrl0 h c1
        /\ postmessage_begin true net_up c1 node0 a_search uecho_message_new = Ok (p, [], false))
  /\ buffer data /\ (forall dec fr la ra r, ctrl_receive true net_up net_down std_db dec fr c data la ra <> Ok r).
Proof.
  assert (Run : forall h, Forall (cop_ok true std_db) h -> cexec_mem ctrl0 h = true -> crun true net_up net_down std_db ctrl0 h (cafter h)).
  { intros h Hk. unfold cafter. generalize ctrl0. intros c0 Hm. destruct (cexec_trace h c0 Hk Hm) as (c' & told & E & _ & R).
    rewrite E. exact R. }
  set (post := [CPost node0 a_search uecho_message_new]).
  assert (Hp : Forall (cop_ok true std_db) post).
  { constructor; [|constructor]. destruct a_search_api as [A B]. split; [exact A|]. split; [exact B|constructor]. }
  exists (cafter (post ++ [CFree])), (enc_frame two_listed). split; [|split; [|split]].
  - exists post. split; [|constructor; [exact I|constructor]]. apply Run; [|vm_compute; reflexivity].
    apply Forall_app. split; [exact Hp|]. constructor; [exact I|constructor].
  - exists [], ctrl0. eexists. split; [constructor; apply cmem_okb_ok; vm_compute; reflexivity|]. vm_compute. reflexivity.
  - split; [apply is_byteb_val; vm_compute; reflexivity|vm_compute; discriminate].
  - intros dec fr la ra r. unfold ctrl_receive. intros H. apply bind_ok in H. destruct H as ([ok m] & E & H).
    assert (ok = true) as ->.
    { assert (X : match uecho_message_parsepacket uecho_message_new (enc_frame two_listed) None None with Ok (b, _) => b | _ => false end = true)
        by (vm_compute; reflexivity).
      revert X E. unfold uecho_message_parsepacket. generalize (uecho_message_parse uecho_message_new (enc_frame two_listed)).
      intros [[b m']|]; cbn [bind]; [|discriminate]. destruct b; cbn [negb]; [|discriminate].
      intros _ E. injection E as <- _. reflexivity. }
    apply bind_ok in H. destruct H as (x & _ & H). apply bind_ok in H. destruct H as (y & H & _).
    unfold uecho_controller_servermessagelistener in H.
    assert (W : c_req (cafter (post ++ [CFree])) = MWild true /\ c_res (cafter (post ++ [CFree])) = MWild true)
      by (split; vm_compute; reflexivity).
    revert W H. generalize (cafter (post ++ [CFree])). intros c [W1 W2] H.
    unfold uecho_controller_ispostresponsewaiting, uecho_controller_handlepostresponse, uecho_controller_ispostresponsemessage in H.
    cbn [c_with_node c_req c_res] in H. rewrite W1, W2 in H. discriminate H.
Qed.
Print Assumptions C50_failed_post_refuted.
