(* The properties a controller has to ask for know their object: of the copies of other nodes, every property with the
   read-required attribute has its parent. *)
From Coq Require Import String ZArith List Bool Lia ZifyBool ZifyNat.
From Verif Require Import CSem M_Const M_Misc M_Property M_Message M_PropertyList M_Object M_Node M_NodeListener M_Controller
  StdDB_Data M_Std Spec_Frame Spec_Message Spec_Map Spec_Object Spec_Node Spec_Request Spec_Controller Run_Object Run_Node Run_Controller
  P_Base P_Misc P_Message P_Encode P_MsgApi P_PropertyList P_Object P_ObjectRun P_ObjectReach P_Std P_Node P_Request
  P_NodeReach P_NodeProfile P_NodeInv P_NodeRun P_NodeProps P_RequestProps P_NodeSafe P_Shadow P_Controller.
Import ListNotations.
Open Scope Z_scope.
Ltac Zify.zify_post_hook ::= Z.div_mod_to_equations.

Definition powned (p : prop) : Prop := uecho_property_isreadrequired p = true -> p_parent p = true.
Definition oowned (o : obj) : Prop := Forall powned (o_props o).
Definition nowned (n : node) : Prop := Forall oowned (n_objs n).

Lemma owned_add : forall l p, Forall powned l -> powned p -> Forall powned (uecho_propertylist_add l p).
Proof.
  intros l p H Hp. unfold uecho_propertylist_add.
  assert (R : forall c l, Forall powned l -> Forall powned (remove_first c l)).
  { intros c. induction l0 as [|q r IH]; intros Q; cbn [remove_first]; [constructor|]. inversion Q; subst.
    destruct (p_code q =? c); [assumption|]. constructor; auto. }
  destruct (uecho_propertylist_findbycode l (p_code p)); apply Forall_app; split; auto.
Qed.

Lemma owned_upd : forall c f l, (forall p, powned p -> powned (f p)) -> Forall powned l -> Forall powned (update_first c f l).
Proof.
  intros c f l Hf. induction l as [|q r IH]; intros Q; cbn [update_first]; [constructor|]. inversion Q; subst.
  destruct (p_code q =? c); constructor; auto.
Qed.

Lemma owned_get : forall l c l1 p, uecho_propertylist_getbycode l c = (l1, p) -> Forall powned l -> Forall powned l1 /\ powned p.
Proof.
  intros l c l1 p E H. unfold uecho_propertylist_getbycode in E.
  destruct (uecho_propertylist_findbycode l c) as [q|] eqn:F.
  - injection E as <- <-. split; [exact H|]. rewrite Forall_forall in H. apply H.
    eapply P_PropertyList.find_code. exact F.
  - injection E as <- <-. assert (X : powned (uecho_property_setcode c uecho_property_new)) by (unfold powned; cbn; discriminate).
    split; [apply owned_add; assumption|exact X].
Qed.

Lemma owned_store : forall d p p1 ann, uecho_property_setdata d p = (p1, ann) -> p_attr p1 = p_attr p /\ p_parent p1 = p_parent p.
Proof.
  intros d p p1 ann E. unfold uecho_property_setdata in E. cbv zeta in E. destruct (len d =? 0); injection E as <- <-; split; reflexivity.
Qed.
Lemma owned_same : forall p p1, p_attr p1 = p_attr p -> p_parent p1 = p_parent p -> powned p -> powned p1.
Proof. intros p p1 A B H. unfold powned, uecho_property_isreadrequired in *. rewrite A, B. exact H. Qed.

Lemma owned_setdata : forall l c d l' ann, uecho_propertylist_setdata l c d = (l', ann) -> Forall powned l -> Forall powned l'.
Proof.
  intros l c d l' ann E H. unfold uecho_propertylist_setdata in E. destruct (uecho_propertylist_getbycode l c) as [l1 p] eqn:G.
  destruct (uecho_property_setdata d p) as [p1 a1] eqn:S1. injection E as <- <-. destruct (owned_get _ _ _ _ G H) as [H1 H2].
  apply owned_upd; [|exact H1]. intros _ _. destruct (owned_store _ _ _ _ S1) as [A B]. exact (owned_same _ _ A B H2).
Qed.

Lemma owned_set : forall l c a d l' ann, uecho_propertylist_set l c a d = (l', ann) -> has_bits a AttrReadRequired = false ->
  Forall powned l -> Forall powned l'.
Proof.
  intros l c a d l' ann E Ha H. unfold uecho_propertylist_set in E. destruct (uecho_propertylist_getbycode l c) as [l1 p] eqn:G.
  destruct (uecho_property_setdata d p) as [p1 a1] eqn:S1. injection E as <- <-. destruct (owned_get _ _ _ _ G H) as [H1 _].
  apply owned_upd; [|exact H1]. intros _ _. unfold powned, uecho_property_isreadrequired. cbn [uecho_property_setattribute p_attr]. rewrite Ha. discriminate.
Qed.

Lemma owned_osetdata : forall o c d o' ann, uecho_object_setpropertydata o c d = (o', ann) -> oowned o -> oowned o'.
Proof.
  intros o c d o' ann E H. unfold uecho_object_setpropertydata in E. destruct (uecho_propertylist_setdata (o_props o) c d) as [l a] eqn:S1.
  injection E as <- <-. unfold oowned. rewrite obj_props_with. eapply owned_setdata; eassumption.
Qed.

Lemma owned_osetint : forall o c v size o' ann, uecho_object_setpropertyintegerdata o c v size = Ok (o', ann) -> oowned o -> oowned o'.
Proof.
  intros o c v size o' ann E H. unfold uecho_object_setpropertyintegerdata, uecho_propertylist_setintegerdata in E.
  destruct (uecho_propertylist_getbycode (o_props o) c) as [l1 p] eqn:G. unfold uecho_property_setintegerdata in E.
  destruct (uecho_integer2byte v size) as [bs|] eqn:I; [|discriminate]. cbn [bind] in E.
  destruct (uecho_property_setdata bs p) as [p1 a1] eqn:S1. cbn [bind] in E. injection E as <- <-.
  unfold oowned. rewrite obj_props_with. destruct (owned_get _ _ _ _ G H) as [H1 H2].
  apply owned_upd; [|exact H1]. intros _ _. destruct (owned_store _ _ _ _ S1) as [A B]. exact (owned_same _ _ A B H2).
Qed.

Lemma owned_map : forall o m cs o' ann, uecho_object_setpropertymap o m cs = Ok (o', ann) -> oowned o -> oowned o'.
Proof.
  intros o m cs o' ann E H. unfold uecho_object_setpropertymap in E. destruct cs as [cs|]; [|discriminate]. cbv zeta in E.
  destruct (len cs <=? MapFormat1MaxSize) eqn:L.
  - destruct (uecho_propertylist_set (o_props o) m AttrRead (to_byte (len cs) :: cs)) as [l a] eqn:S1. injection E as <- <-.
    unfold oowned. rewrite obj_props_with. eapply owned_set; [exact S1|reflexivity|exact H].
  - destruct (map_format2 cs (to_byte (len cs) :: repeat 0 (Z.to_nat MapFormat2MapSize))) as [d|] eqn:M; [|discriminate]. cbn [bind] in E.
    destruct (uecho_propertylist_setdata (o_props o) m d) as [l a] eqn:S1. injection E as <- <-.
    unfold oowned. rewrite obj_props_with. eapply owned_setdata; [exact S1|exact H].
Qed.

Lemma owned_update : forall junk o o' ann, uecho_object_updatepropertymaps junk o = Ok (o', ann) -> oowned o -> oowned o'.
Proof.
  intros junk o o' ann E H. unfold uecho_object_updatepropertymaps, uecho_object_clearpropertymapcaches in E. cbv zeta in E.
  apply bind_ok in E. destruct E as ([o2 a1] & E1 & E). apply bind_ok in E. destruct E as ([o3 a2] & E2 & E).
  apply bind_ok in E. destruct E as ([o4 a3] & E3 & E). injection E as <- _.
  eapply owned_map; [exact E3|]. eapply owned_map; [exact E2|]. eapply owned_map; [exact E1|]. exact H.
Qed.

Lemma owned_setproperty : forall junk o c a o' ann, uecho_object_setproperty junk o c a = Ok (o', ann) -> has_bits a AttrReadRequired = false ->
  oowned o -> oowned o'.
Proof.
  intros junk o c a o' ann E Ha H. unfold uecho_object_setproperty in E.
  destruct (uecho_propertylist_set (o_props o) c a []) as [l a1] eqn:S1.
  apply bind_ok in E. destruct E as ([o2 a2] & E1 & E). injection E as <- _.
  eapply owned_update; [exact E1|]. unfold oowned. rewrite obj_props_with. apply owned_upd; [intros p Hp _; reflexivity|].
  eapply owned_set; [exact S1|exact Ha|exact H].
Qed.

Lemma owned_addproperty : forall o p, oowned o -> oowned (uecho_object_addproperty o p).
Proof. intros o p H. unfold uecho_object_addproperty, oowned. rewrite obj_props_with. apply owned_add; [exact H|]. intros _. reflexivity. Qed.

Lemma owned_addmissing : forall src o, oowned o -> oowned (addmissing o src).
Proof.
  induction src as [|p src IH]; intros o H; cbn [addmissing]; [exact H|].
  destruct (uecho_object_hasproperty o (p_code p)); [auto|]. apply IH. apply owned_addproperty. exact H.
Qed.

Lemma owned_std1 : forall db o g c, oowned o -> oowned (fst (uecho_object_addstandardpropertieswithcode db o g c)).
Proof.
  intros db o g c H. unfold uecho_object_addstandardpropertieswithcode. destruct (uecho_database_getobject db g c) as [s|]; [|exact H].
  cbn [fst]. apply owned_addmissing. exact H.
Qed.

Lemma owned_std : forall db o, oowned o -> oowned (fst (uecho_object_addstandardproperties db o)).
Proof.
  intros db o H. unfold uecho_object_addstandardproperties.
  pose proof (owned_std1 db o 0 0 H) as B. destruct (uecho_object_addstandardpropertieswithcode db o 0 0) as [o1 b1]. cbn [fst] in B.
  pose proof (owned_std1 db o1 (o_grp o1) (o_cls o1) B) as B2.
  destruct (uecho_object_addstandardpropertieswithcode db o1 (o_grp o1) (o_cls o1)) as [o2 b2]. exact B2.
Qed.

Lemma owned_setcode : forall db junk o v o' ann, uecho_object_setcode db junk o v = Ok (o', ann) -> oowned o -> oowned o'.
Proof.
  intros db junk o v o' ann E H. unfold uecho_object_setcode in E. cbv zeta in E. eapply owned_update; [exact E|].
  apply owned_std. exact H.
Qed.

Lemma owned_new : oowned uecho_object_new.
Proof. constructor. Qed.

Section N.
Variable le : bool.
Variable net : post -> bool.
Lemma owned_op : forall f n code n' ps, (forall o o' a, uecho_node_getobjectbycode n code = Some o -> f o = Ok (o', a) -> oowned o -> oowned o') ->
  node_object_op le net f n code = Ok (n', ps) -> nowned n -> nowned n'.
Proof.
  intros f n code n' ps Hf H N. unfold node_object_op in H. destruct (uecho_node_getobjectbycode n code) as [o|] eqn:G.
  - apply bind_ok in H. destruct H as ([o' a] & F & H). apply node_emit_shape in H. rewrite H.
    unfold nowned. cbn [n_objs n_with_tid n_with_objs]. apply put_obj_Forall; [exact N|]. eapply Hf; [reflexivity|exact F|].
    apply getbycode_in in G. unfold nowned in N. rewrite Forall_forall in N. apply N. apply G.
  - injection H as <- _. exact N.
Qed.

Lemma owned_instances : forall cs os o o' a, uecho_nodeprofile_updateinstanceproperties cs os o = Ok (o', a) -> oowned o -> oowned o'.
Proof.
  intros cs os o o' a E H. unfold uecho_nodeprofile_updateinstanceproperties in E. cbv zeta in E.
  apply bind_ok in E. destruct E as ([o1 a1] & E1 & E). apply bind_ok in E. destruct E as ([o2 a2] & E2 & E).
  apply bind_ok in E. destruct E as ([o3 a3] & E3 & E). apply bind_ok in E. destruct E as ([o4 a4] & E4 & E). injection E as <- _.
  apply owned_osetint in E1; [|exact H].
  unfold uecho_nodeprofile_setclasslist in E2. cbv zeta in E2. apply bind_ok in E2. destruct E2 as (d & R & E2). injection E2 as E2.
  apply owned_osetdata in E2; [|exact E1]. apply owned_osetint in E3; [|exact E2].
  unfold uecho_nodeprofile_setinstancelist in E4. cbv zeta in E4. apply bind_ok in E4. destruct E4 as (d4 & R4 & E4).
  destruct (uecho_object_setpropertydata o3 EPC_InstanceListS d4) as [o5 a5] eqn:S5.
  destruct (uecho_object_setpropertydata o5 EPC_InstanceListNotification d4) as [o6 a6] eqn:S6. injection E4 as <- _.
  eapply owned_osetdata; [exact S6|]. eapply owned_osetdata; [exact S5|exact E3].
Qed.

Lemma owned_addobject : forall n o n' ps b, uecho_node_addobject le net n o = Ok (n', ps, b) -> oowned o -> nowned n -> nowned n'.
Proof.
  intros n o n' ps b H Po N. unfold uecho_node_addobject in H.
  destruct (uecho_node_getobjectbycode n (uecho_object_getcode o)); [injection H as <- _ _; exact N|].
  set (n2 := n_with_classes _ _) in H. assert (N2 : nowned n2).
  { unfold n2, nowned. cbn [n_objs n_with_classes n_with_objs]. apply Forall_app. split; [exact N|]. constructor; [exact Po|constructor]. }
  clearbody n2. unfold uecho_node_updatenodeprofileclass in H.
  destruct (uecho_node_getobjectbycode n2 uEchoNodeProfileObject); [|injection H as <- _ _; exact N2].
  apply bind_ok in H. destruct H as ([n3 ps3] & E & H). cbn [fst snd] in H. injection H as <- _ _.
  eapply owned_op; [|exact E|exact N2]. intros o1 o2 a _ F. eapply owned_instances; exact F.
Qed.

Lemma owned_profile_new : forall db junk man uq o, uecho_nodeprofile_new db junk man uq = Ok o -> oowned o.
Proof.
  intros db junk man uq o H. unfold uecho_nodeprofile_new in H.
  apply bind_ok in H. destruct H as ([o1 a1] & E1 & H). apply bind_ok in H. destruct H as ([o2 b2] & E2 & H).
  cbn [fst] in *. injection H as <-. apply owned_setcode in E1; [|apply owned_new].
  unfold uecho_nodeprofile_addmandatoryproperties in E2.
  destruct (uecho_database_getobject db 14 240) as [sup|] eqn:Es; [|injection E2 as <- _; exact E1].
  apply bind_ok in E2. destruct E2 as ([o3 a3] & E3 & E2). cbn [fst] in E2. injection E2 as <- _.
  unfold uecho_nodeprofile_setid in E3. apply bind_ok in E3. destruct E3 as (m & Em & E3). apply bind_ok in E3. destruct E3 as (u & Eu & E3).
  assert (S0 : forall x c d, oowned x -> oowned (fst (uecho_object_setpropertydata x c d))).
  { intros x c d B. destruct (uecho_object_setpropertydata x c d) as [y a] eqn:E. eapply owned_osetdata; eassumption. }
  injection E3 as E3. apply (f_equal fst) in E3. cbn [fst] in E3. rewrite <- E3.
  apply S0. unfold uecho_nodeprofile_setversion, uecho_nodeprofile_setoperatingstatus. apply S0. apply S0. apply owned_addmissing. exact E1.
Qed.

Lemma owned_node_new : forall db t junk man uq n ps, uecho_node_new le net db t junk man uq = Ok (n, ps) -> nowned n.
Proof.
  intros db t junk man uq n ps H. unfold uecho_node_new in H. apply bind_ok in H. destruct H as (o & E1 & H).
  apply bind_ok in H. destruct H as ([[n1 p1] b1] & E2 & H). injection H as <- _. apply owned_profile_new in E1.
  assert (N : nowned n1) by (eapply owned_addobject; [exact E2|exact E1|constructor]). exact N.
Qed.

End N.

Section C.
Variable le : bool.
Variable net snet : post -> bool.
Variable db : list obj.
Hypothesis Hdb : db_ok db.
Definition cowned (c : ctrl) : Prop := Forall nowned (c_nodes c).

Lemma owned_setobject : forall nt junk n code n' ps b, uecho_node_setobject le nt db junk n code = Ok (n', ps, b) -> nowned n -> nowned n'.
Proof.
  intros nt junk n code n' ps b E N. unfold uecho_node_setobject in E. destruct (uecho_node_getobjectbycode n code); [injection E as <- _ _; exact N|].
  apply bind_ok in E. destruct E as ([o a] & E1 & E). cbn [fst] in E. eapply owned_addobject; [exact E| |exact N].
  eapply owned_setcode; [exact E1|apply owned_new].
Qed.

Lemma owned_search_loop : forall fr data fuel idx j n u n' u', search_loop le snet db fuel fr data idx j n u = Ok (n', u') -> nowned n -> nowned n'.
Proof.
  intros fr data. induction fuel as [|fuel IH]; intros idx j n u n' u' E N; cbn [search_loop] in E; destruct (idx + 2 <? len data); try discriminate;
    try (injection E as <- _; exact N).
  apply bind_ok in E. destruct E as (bs & _ & E). apply bind_ok in E. destruct E as (code & _ & E).
  destruct (uecho_node_getobjectbycode n code); [eapply IH; eassumption|].
  apply bind_ok in E. destruct E as ([[n1 ps] b] & E1 & E). eapply IH; [exact E|]. eapply owned_setobject; eassumption.
Qed.

Lemma owned_opsetdata : forall o c d o' a, object_property_setdata o c d = (o', a) -> oowned o -> oowned o'.
Proof.
  intros o c d o' a E O. unfold object_property_setdata in E. destruct (uecho_object_getproperty o c) as [p|] eqn:G; [|injection E as <- _; exact O].
  destruct (uecho_property_setdata d p) as [p1 ann] eqn:S. injection E as <- _. unfold oowned. cbn [o_with_props o_props].
  apply owned_upd; [|exact O]. intros _ _. destruct (owned_store _ _ _ _ S) as [A B]. apply (owned_same _ _ A B).
  apply P_PropertyList.find_code in G. unfold oowned in O. rewrite Forall_forall in O. apply O. apply G.
Qed.

Lemma owned_update_loop : forall fr oc ps j n u n' u', update_loop le snet fr j n oc ps u = Ok (n', u') -> nowned n -> nowned n'.
Proof.
  intros fr oc. induction ps as [|p ps IH]; intros j n u n' u' E N; cbn [update_loop] in E; [injection E as <- _; exact N|].
  destruct (uecho_node_getobjectbycode n oc) as [o|]; [|discriminate].
  apply bind_ok in E. destruct E as ([n1 q1] & E1 & E). cbn [fst] in E.
  assert (N1 : nowned n1).
  { destruct (uecho_object_hasproperty o (p_code p)); [injection E1 as <- _; exact N|].
    eapply owned_op; [|exact E1|exact N]. intros o0 o' a _ X. eapply owned_setproperty; [exact X|reflexivity]. }
  destruct (uecho_node_getobjectbycode n1 oc) as [o1|]; [|discriminate].
  destruct (uecho_object_getproperty o1 (p_code p)) as [q|]; [|eapply IH; eassumption].
  destruct (uecho_property_isdataequal q (p_data p)); [eapply IH; eassumption|].
  apply bind_ok in E. destruct E as ([n2 q2] & E2 & E). cbn [fst] in E. eapply IH; [exact E|].
  eapply owned_op; [|exact E2|exact N1]. intros o0 o' a _ X. injection X as X. eapply owned_opsetdata; eassumption.
Qed.

Lemma put_node_owned : forall a n' l, Forall (nowned) l -> nowned n' -> Forall (nowned) (put_node a n' l).
Proof.
  intros a n'. induction l as [|n l IH]; intros F N; cbn [put_node]; [exact F|]. inversion F; subst.
  destruct (uecho_node_isaddress n a); constructor; auto.
Qed.

Lemma owned_listener : forall fr c f la ra y, cinv c -> frame_ok f ->
  uecho_controller_servermessagelistener le snet db fr c (req_of f la ra) = Ok y -> cowned c -> cowned (cr_ctrl y).
Proof.
  intros fr c f la ra y (N & Sh & Nd & _ & Hr) Hf H B2.
  unfold uecho_controller_servermessagelistener in H. apply bind_ok in H. destruct H as ([c1 sg] & E & H).
  apply (post_phase le c f la ra c1 sg Hr Hf) in E. destruct E as [E _].
  assert (B : cowned c1) by (rewrite E; exact B2). clear E.
  assert (Known : forall a n, uecho_controller_getnodebyaddress c1 a = Some n -> nowned n).
  { intros [a|] n X; unfold uecho_controller_getnodebyaddress in X; [|rewrite byaddress_null in X; discriminate]. apply byaddress_some in X. unfold cowned in B. rewrite Forall_forall in B. apply B. apply X. }
  assert (Fin : forall l, Forall (nowned) l -> cowned (c_with_nodes l c1)) by (intros l X; exact X).
  apply bind_ok in H. destruct H as (s & _ & H). destruct s.
  - apply bind_ok in H. destruct H as (z & Z0 & H). injection H as <-. cbn [cr_ctrl].
    unfold uecho_controller_handlesearchmessage in Z0. apply bind_ok in Z0. destruct Z0 as (o & _ & Z0). destruct o as [p|]; [|injection Z0 as <-; exact B].
    destruct (uecho_property_getdatasize p <? 1); [injection Z0 as <-; exact B|]. destruct (m_from (req_of f la ra)) as [a|]; [|injection Z0 as <-; exact B].
    destruct (uecho_controller_getnodebyaddress c1 (Some a)) as [n|] eqn:G.
    + apply bind_ok in Z0. destruct Z0 as ([n' u] & L & Z0). injection Z0 as <-. cbn [fst]. apply Fin. apply put_node_owned; [apply B|].
      eapply owned_search_loop; [exact L|]. eapply Known; exact G.
    + apply bind_ok in Z0. destruct Z0 as ([n0 ps] & Nn & Z0). apply bind_ok in Z0. destruct Z0 as ([n' u] & L & Z0). injection Z0 as <-. cbn [fst] in *.
      unfold uecho_controller_addnode. apply Fin. apply Forall_app. split; [apply B|]. constructor; [|constructor].
      eapply owned_search_loop; [exact L|]. eapply owned_node_new in Nn. exact Nn.
  - apply bind_ok in H. destruct H as (dc & _ & H). destruct (uecho_node_getobjectbycode (c_node c1) dc); [|injection H as <-; exact B].
    destruct (uecho_controller_getnodebyaddress c1 (m_from (req_of f la ra))) as [n|] eqn:G; [|injection H as <-; exact B].
    apply bind_ok in H. destruct H as (z & Z0 & H). injection H as <-. cbn [cr_ctrl].
    unfold uecho_controller_handlenodemessage in Z0. apply bind_ok in Z0. destruct Z0 as ([n' u] & L & Z0). injection Z0 as <-. cbn [fst].
    apply Fin. apply put_node_owned; [apply B|]. pose proof (Known _ _ G) as Bn.
    destruct (_ || _); [|injection L as <- _; exact Bn].
    unfold uecho_controller_updatenodebyresponsemessage in L. apply bind_ok in L. destruct L as (sc & _ & L).
    destruct (uecho_node_getobjectbycode n sc); [|injection L as <- _; exact Bn].
    unfold uecho_controller_updateopcpropertydata in L. rewrite (reported_items f la ra Hf) in L. cbn [bind] in L.
    eapply owned_update_loop; [exact L|exact Bn].
Qed.

Lemma owned_ctrl_receive : forall dec fr c data la ra o y, cinv c -> mem_ok (c_node c) -> buffer data -> fresh_ok fr ->
  ctrl_receive le net snet db dec fr c data la ra = Ok (o, y) -> cowned c -> cowned (cr_ctrl y).
Proof.
  intros dec fr c data la ra o y Hc M Hb Hfr E B2.
  apply ctrl_receive_spec in E; [|assumption..]. destruct (dec_frame data) as [[f rest]|].
  - destruct E as (x & y' & E & Hf & _ & R & Rn & L). injection E as -> ->.
    apply receive_frame_ok in R; [|apply Hc|exact Hf]. destruct R as [[N1 _] _].
    eapply owned_listener; [exact (c_with_node_inv c (r_node x) Hc N1)|exact Hf|exact L|].
    exact B2.
  - injection E as _ ->. exact B2.
Qed.

End C.
