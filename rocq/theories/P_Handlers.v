(* Request handlers: what registration does, and that no object ever has two handlers for
   the same service and property. *)
From Coq Require Import String ZArith List Bool Lia ZifyBool ZifyNat.
From Verif Require Import CSem M_Const M_Misc M_Property M_Message M_PropertyList M_Object M_Std M_Node M_NodeListener
  Spec_Frame Spec_Map Spec_Object Spec_Message Spec_Node P_Base P_Misc P_Message P_Encode P_MsgApi P_PropertyList P_Map P_MapProps Run_Object P_Object P_ObjectRun
  P_ObjectReach P_Std P_Node Run_Node P_Request P_NodeReach P_NodeProfile P_NodeInv P_NodeRun.
Import ListNotations.
Open Scope Z_scope.
Ltac Zify.zify_post_hook ::= Z.div_mod_to_equations.

Definition okey (b : observer) : Z * Z := (ob_esv b, ob_code b).
Definition uniq (l : list observer) : Prop := NoDup (map okey l).

Lemma obs_remove_in : forall l e c b, In b (obs_remove l e c) -> In b l.
Proof.
  induction l as [|x l IH]; intros e c b H; [exact H|]. cbn [obs_remove] in H.
  destruct ((ob_esv x =? e) && (ob_code x =? c)); [right; exact H|]. destruct H as [->|H]; [left; reflexivity|right; eauto].
Qed.

Lemma obs_find_some : forall l e c b, obs_find l e c = Some b -> In b l /\ okey b = (e, c).
Proof.
  induction l as [|x l IH]; intros e c b H; [discriminate|]. cbn [obs_find] in H.
  destruct ((ob_esv x =? e) && (ob_code x =? c)) eqn:E.
  - injection H as <-. split; [left; reflexivity|]. unfold okey. f_equal; lia.
  - apply IH in H. destruct H. split; [right; assumption|assumption].
Qed.

Lemma obs_find_none : forall l e c, obs_find l e c = None -> ~ In (e, c) (map okey l).
Proof.
  induction l as [|x l IH]; intros e c H I; [exact I|]. cbn [obs_find] in H.
  destruct ((ob_esv x =? e) && (ob_code x =? c)) eqn:E; [discriminate|]. destruct I as [I|I]; [|eapply IH; eauto].
  injection I as I1 I2. lia.
Qed.

Lemma obs_remove_uniq : forall l e c, uniq l -> uniq (obs_remove l e c) /\ ~ In (e, c) (map okey (obs_remove l e c)).
Proof.
  induction l as [|x l IH]; intros e c H; [split; [exact H|auto]|]. cbn [obs_remove]. unfold uniq in H. cbn [map] in H.
  inversion H as [|? ? Hx Hl]; subst.
  destruct ((ob_esv x =? e) && (ob_code x =? c)) eqn:E.
  - split; [exact Hl|]. replace (e, c) with (okey x) by (unfold okey; f_equal; lia). exact Hx.
  - destruct (IH e c Hl) as [A B]. split.
    + unfold uniq. cbn [map]. constructor; [|exact A]. intros I. apply Hx. apply in_map_iff in I. destruct I as (y & Ey & I).
      apply obs_remove_in in I. rewrite <- Ey. apply in_map. exact I.
    + intros [I|I]; [|exact (B I)]. injection I as I1 I2. lia.
Qed.

Lemma NoDup_snoc : forall (A : Type) (l : list A) x, NoDup l -> ~ In x l -> NoDup (l ++ [x]).
Proof.
  intros A l x H N. induction H as [|y l Hy Hl IH]; cbn; [constructor; [auto|constructor]|].
  constructor; [|apply IH; intros I; apply N; right; exact I].
  intros I. apply in_app_or in I. destruct I as [I|[->|[]]]; [exact (Hy I)|apply N; left; reflexivity].
Qed.

Lemma setobserver_uniq : forall l e c h, uniq l -> uniq (uecho_object_property_observer_manager_setobserver l e c h).
Proof.
  intros l e c h H. unfold uecho_object_property_observer_manager_setobserver, uniq. destruct (obs_find l e c) as [b|] eqn:F.
  - destruct (obs_remove_uniq l e c H) as [A B]. rewrite map_app. apply NoDup_snoc; assumption.
  - rewrite map_app. apply NoDup_snoc; [exact H|]. apply obs_find_none. exact F.
Qed.

(* with unique keys the lookup is the only entry *)
Lemma uniq_find : forall l e c, uniq l ->
  filter (fun b => (ob_esv b =? e) && (ob_code b =? c)) l = match obs_find l e c with Some b => [b] | None => [] end.
Proof.
  induction l as [|x l IH]; intros e c H; [reflexivity|]. unfold uniq in H. cbn [map] in H. inversion H as [|? ? Hx Hl]; subst.
  cbn [filter obs_find]. destruct ((ob_esv x =? e) && (ob_code x =? c)) eqn:E; [|apply IH; exact Hl].
  rewrite IH by exact Hl. destruct (obs_find l e c) as [b|] eqn:F; [|reflexivity]. exfalso.
  apply obs_find_some in F. destruct F as [F1 F2]. apply Hx. replace (okey x) with (okey b); [apply in_map; exact F1|].
  rewrite F2. unfold okey. f_equal; lia.
Qed.

Lemma find_app : forall a b e c, obs_find (a ++ b) e c = match obs_find a e c with Some x => Some x | None => obs_find b e c end.
Proof. induction a as [|x a IH]; intros; cbn [app obs_find]; [reflexivity|]. rewrite IH. destruct (_ && _); reflexivity. Qed.

Lemma find_remove_other : forall l e c e' c', (e', c') <> (e, c) -> obs_find (obs_remove l e c) e' c' = obs_find l e' c'.
Proof.
  induction l as [|x l IH]; intros e c e' c' N; [reflexivity|]. cbn [obs_remove obs_find].
  destruct ((ob_esv x =? e) && (ob_code x =? c)) eqn:E.
  - destruct ((ob_esv x =? e') && (ob_code x =? c')) eqn:E'; [|reflexivity]. exfalso. apply N. f_equal; lia.
  - cbn [obs_find]. rewrite IH by exact N. reflexivity.
Qed.

Lemma setobserver_find : forall l e c h e' c', uniq l ->
  obs_find (uecho_object_property_observer_manager_setobserver l e c h) e' c'
  = if (e =? e') && (c =? c') then Some (mkObs e c h) else obs_find l e' c'.
Proof.
  intros l e c h e' c' H. unfold uecho_object_property_observer_manager_setobserver.
  destruct (obs_remove_uniq l e c H) as [_ B].
  destruct ((e =? e') && (c =? c')) eqn:E.
  - replace e' with e by lia. replace c' with c by lia.
    assert (L : forall l0, ~ In (e, c) (map okey l0) -> obs_find (l0 ++ [mkObs e c h]) e c = Some (mkObs e c h)).
    { intros l0 N. rewrite find_app. destruct (obs_find l0 e c) as [b|] eqn:F.
      - apply obs_find_some in F. destruct F as [F1 F2]. exfalso. apply N. rewrite <- F2. apply in_map. exact F1.
      - cbn [obs_find ob_esv ob_code]. rewrite !Z.eqb_refl. reflexivity. }
    destruct (obs_find l e c) as [b|] eqn:F; apply L; [exact B|]. apply obs_find_none. exact F.
  - assert (N : (e', c') <> (e, c)) by (intros X; injection X as -> ->; lia).
    destruct (obs_find l e c) as [b|] eqn:F; rewrite find_app; cbn [obs_find ob_esv ob_code]; rewrite E.
    + rewrite (find_remove_other _ _ _ _ _ N). destruct (obs_find l e' c'); reflexivity.
    + destruct (obs_find l e' c'); reflexivity.
Qed.

(* ---- every other call leaves the registrations alone ---- *)

Lemma addmissing_obs : forall src o, o_obs (addmissing o src) = o_obs o.
Proof.
  induction src as [|q src IH]; intros o; cbn [addmissing]; [reflexivity|].
  destruct (uecho_object_hasproperty o (p_code q)); rewrite IH; reflexivity.
Qed.

Lemma addstd_obs : forall db o, o_obs (fst (uecho_object_addstandardproperties db o)) = o_obs o.
Proof. intros. rewrite addstd_eq. rewrite !addmissing_obs. reflexivity. Qed.

Lemma setint_obs : forall o c v size o' ann, uecho_object_setpropertyintegerdata o c v size = Ok (o', ann) -> o_obs o' = o_obs o.
Proof.
  intros o c v size o' ann H. apply setint_eq in H. destruct H as (bs & _ & _ & E).
  unfold uecho_object_setpropertydata in E. rewrite pl_setdata_eq in E. injection E as -> _. reflexivity.
Qed.

Section Inv.
Variable P : list observer -> Prop.
Hypothesis Pnil : P [].
Hypothesis Pset : forall l e c h, P l -> P (uecho_object_property_observer_manager_setobserver l e c h).

Lemma odo_obs : forall k o o' a, odo k o = Ok (o', a) -> P (o_obs o) -> P (o_obs o').
Proof.
  intros k o o' a H Po. destruct k; cbn [odo] in H.
  - apply ostep_shape in H. destruct H as (l & n & ->). exact Po.
  - apply setint_obs in H. rewrite H. exact Po.
  - rewrite get_shape in H. injection H as <- _. exact Po.
  - injection H as <- _. apply Pset. exact Po.
  - injection H as <- _. exact Po.
Qed.

Lemma setcode_obs : forall db junk o v o' a, uecho_object_setcode db junk o v = Ok (o', a) -> o_obs o' = o_obs o.
Proof.
  intros db junk o v o' a H. unfold uecho_object_setcode in H. apply update_shape in H. destruct H as (l & ->).
  cbn [o_obs o_with_props o_with_getsz]. rewrite addstd_obs. reflexivity.
Qed.

Lemma api_obj_obs : forall db o, api_obj db o -> P (o_obs o).
Proof.
  intros db o H. induction H; cbn [o_obs uecho_object_attach uecho_object_setmessagelistener].
  - exact Pnil.
  - apply ostep_shape in H3. destruct H3 as (l & n & ->). exact IHapi_obj.
  - apply setcode_obs in H1. rewrite H1. exact IHapi_obj.
  - unfold uecho_object_setgroupcode. rewrite addstd_obs. exact IHapi_obj.
  - unfold uecho_object_setclasscode. rewrite addstd_obs. exact IHapi_obj.
  - exact IHapi_obj.
  - apply setint_obs in H1. rewrite H1. exact IHapi_obj.
  - unfold uecho_object_getpropertydatasize, uecho_propertylist_getdatasize. rewrite getbycode_eq. exact IHapi_obj.
  - rewrite get_shape. exact IHapi_obj.
  - unfold uecho_object_getpropertyintegerdata, uecho_propertylist_getintegerdata in H1.
    rewrite getbycode_eq in H1. destruct (uecho_property_getintegerdata _); [|discriminate]. cbn [bind] in H1.
    inversion H1. exact IHapi_obj.
  - unfold uecho_object_getpropertybytedata, uecho_propertylist_getbytedata in H1.
    rewrite getbycode_eq in H1. destruct (uecho_property_getbytedata _); [|discriminate]. cbn [bind] in H1.
    inversion H1. exact IHapi_obj.
  - exact IHapi_obj.
  - exact IHapi_obj.
  - apply Pset. exact IHapi_obj.
Qed.

Definition nobs (n : node) : Prop := Forall (fun o => P (o_obs o)) (n_objs n).

Variable le : bool.
Variable net : post -> bool.

Lemma op_obs : forall f n code n' ps, (forall o o' a, f o = Ok (o', a) -> P (o_obs o) -> P (o_obs o')) ->
  node_object_op le net f n code = Ok (n', ps) -> nobs n -> nobs n'.
Proof.
  intros f n code n' ps Hf H N. unfold node_object_op in H. destruct (uecho_node_getobjectbycode n code) as [o|] eqn:G.
  - apply bind_ok in H. destruct H as ([o' a] & F & H). apply node_emit_shape in H. rewrite H.
    unfold nobs. cbn [n_objs n_with_tid n_with_objs]. apply put_obj_Forall; [exact N|]. eapply Hf; [exact F|].
    apply getbycode_in in G. unfold nobs in N. rewrite Forall_forall in N. apply N. apply G.
  - injection H as <- _. exact N.
Qed.

Lemma addobject_obs : forall n o n' ps b, uecho_node_addobject le net n o = Ok (n', ps, b) -> P (o_obs o) -> nobs n -> nobs n'.
Proof.
  intros n o n' ps b H Po N. unfold uecho_node_addobject in H.
  destruct (uecho_node_getobjectbycode n (uecho_object_getcode o)); [injection H as <- _ _; exact N|].
  set (n2 := n_with_classes _ _) in H. assert (N2 : nobs n2).
  { unfold n2, nobs. cbn [n_objs n_with_classes n_with_objs]. apply Forall_app. split; [exact N|]. constructor; [exact Po|constructor]. }
  clearbody n2. unfold uecho_node_updatenodeprofileclass in H.
  destruct (uecho_node_getobjectbycode n2 uEchoNodeProfileObject); [|injection H as <- _ _; exact N2].
  apply bind_ok in H. destruct H as ([n3 ps3] & E & H). cbn [fst snd] in H. injection H as <- _ _.
  eapply op_obs; [|exact E|exact N2]. intros o1 o2 a F. rewrite updateinstance_eq in F. cbv zeta in F.
  injection F as <- _. auto.
Qed.

Lemma setman_obs : forall codes n code n' ps, setmanufacturer_all le net n codes code = Ok (n', ps) -> nobs n -> nobs n'.
Proof.
  induction codes as [|c codes IH]; intros n code n' ps H N; cbn [setmanufacturer_all] in H; [injection H as <- _; exact N|].
  apply bind_ok in H. destruct H as ([n1 p1] & E1 & H). apply bind_ok in H. destruct H as ([n2 p2] & E2 & H).
  cbn [fst snd] in *. injection H as <- _. eapply IH; [exact E2|]. eapply op_obs; [|exact E1|exact N].
  intros o o' a F Po. unfold uecho_object_setmanufacturercode in F. apply setint_obs in F. rewrite F. exact Po.
Qed.

Lemma receive_obs : forall dec n f from r, ninv n -> frame_ok f -> receive_frame le net dec n f from = Ok r -> nobs n -> nobs (r_node r).
Proof.
  intros dec n f from r Hn Hf H N. unfold receive_frame in H.
  destruct (uecho_node_getobjectbycode n (eoj_code (f_deoj f))) as [o|] eqn:G; [|injection H as <-; exact N].
  destruct (uecho_esv_isrequest (f_esv f)); cbn [negb] in H; [|injection H as <-; exact N].
  apply bind_ok in H. destruct H as ([[[[o1 anns] calls] b] all] & W & H).
  apply bind_ok in H. destruct H as ([n1 ps] & E & H). injection H as <-. cbn [r_node fst].
  destruct (ninv_get _ _ _ Hn G) as [Ho _].
  destruct (wbody_ok _ _ _ _ _ _ _ _ _ (proj1 Ho) (proj2 (proj2 (proj2 (proj2 (proj2 Hf))))) W) as (_ & _ & Sh).
  apply node_emit_shape in E. rewrite E. unfold nobs. cbn [n_objs n_with_tid n_with_objs]. apply put_obj_Forall; [exact N|].
  destruct Sh as (_ & _ & _ & _ & Ob & _). rewrite Ob. apply getbycode_in in G. unfold nobs in N. rewrite Forall_forall in N. apply N. apply G.
Qed.

Lemma nstep_obs : forall db n x n' own ans, ninv n -> mem_ok n -> nop_ok le db x ->
  nstep le net db n x = Ok (n', own, ans) -> nobs n -> nobs n'.
Proof.
  intros db n x n' own ans Hn Hm Hx H N. destruct x; cbn [nstep nop_ok] in *.
  - apply bind_ok in H. destruct H as ([[n1 ps] r] & E & H). injection H as <- _ _.
    eapply addobject_obs; [exact E|eapply api_obj_obs; exact Hx|exact N].
  - apply bind_ok in H. destruct H as ([[n1 ps] r] & E & H). injection H as <- _ _.
    unfold uecho_node_setobject in E. destruct (uecho_node_getobjectbycode n code); [injection E as <- _ _; exact N|].
    apply bind_ok in E. destruct E as ([o a] & E1 & E). cbn [fst] in E. eapply addobject_obs; [exact E| |exact N].
    apply setcode_obs in E1. rewrite E1. exact Pnil.
  - apply bind_ok in H. destruct H as ([n1 ps] & E & H). cbn [fst snd] in H. injection H as <- _ _.
    eapply op_obs; [|exact E|exact N]. intros o o' a F. eapply odo_obs; exact F.
  - apply bind_ok in H. destruct H as ([n1 ps] & E & H). cbn [fst snd] in H. injection H as <- _ _.
    eapply setman_obs; [exact E|exact N].
  - apply bind_ok in H. destruct H as ([[n1 ps] r] & E & H). injection H as <- _ _.
    unfold uecho_node_announce in E.
    destruct (uecho_node_getobjectbycode n uEchoNodeProfileObject) as [p|]; [|injection E as <- _ _; exact N].
    destruct (uecho_object_getproperty p EPC_InstanceListNotification) as [q|]; [|injection E as <- _ _; exact N].
    apply bind_ok in E. destruct E as (s & E & E2).
    apply (f_equal (fun x => match x with Ok (a, b, _) => a | _ => n end)) in E2. cbv iota in E2. rewrite <- E2.
    rewrite (announceproperty_shape _ _ _ _ _ _ E). exact N.
  - apply bind_ok in H. destruct H as (s & E & H). injection H as <- _ _. destruct Hx as [Ha Hi].
    pose proof (api_inv_holds _ _ Ha) as [Hok He].
    rewrite announcemessage_spec in E; [|assumption|apply (in_memory_fits m); assumption].
    apply (f_equal (fun x => match x with Ok y => s_node y | _ => n end)) in E. cbv iota in E.
    destruct (profile n); cbn [s_node] in E; rewrite <- E; exact N.
  - apply bind_ok in H. destruct H as (s & E & H). injection H as <- _ _. destruct Hx as [Ha Hi].
    pose proof (api_inv_holds _ _ Ha) as [Hok He].
    rewrite sendmessage_spec in E; [|assumption|apply (in_memory_fits m); assumption].
    apply (f_equal (fun x => match x with Ok y => s_node y | _ => n end)) in E. cbv iota in E.
    destruct (profile n); [destruct (n_addr d)|]; cbn [s_node] in E; rewrite <- E; exact N.
  - apply bind_ok in H. destruct H as (r & E & H). injection H as <- _ _.
    rewrite node_receive_spec in E; [|assumption|apply fine_objs; assumption].
    destruct (dec_frame data) as [[f rest]|] eqn:Ed.
    + apply dec_frame_iff in Ed; [|apply Hx]. destruct Ed as [Hf _]. eapply receive_obs; eauto.
    + injection E as <-. exact N.
  - injection H as <- _ _. exact N.
  - injection H as <- _ _. exact N.
  - injection H as <- _ _. constructor.
Qed.

Lemma profile_new_obs : forall db junk man uq o, uecho_nodeprofile_new db junk man uq = Ok o -> o_obs o = [].
Proof.
  intros db junk man uq o H. unfold uecho_nodeprofile_new in H.
  apply bind_ok in H. destruct H as ([o1 a1] & E1 & H). apply bind_ok in H. destruct H as ([o2 b2] & E2 & H).
  cbn [fst] in *. injection H as <-. apply setcode_obs in E1. change (o_obs uecho_object_new) with (@nil observer) in E1.
  rewrite <- E1. clear E1. unfold uecho_nodeprofile_addmandatoryproperties in E2.
  destruct (uecho_database_getobject db 14 240) as [sup|]; [|injection E2 as <- _; reflexivity].
  apply bind_ok in E2. destruct E2 as ([o3 a3] & E3 & E2). cbn [fst] in E2. injection E2 as <- _.
  unfold uecho_nodeprofile_setid in E3. apply bind_ok in E3. destruct E3 as (m & _ & E3). apply bind_ok in E3. destruct E3 as (u & _ & E3).
  assert (S : forall x c d, o_obs (fst (uecho_object_setpropertydata x c d)) = o_obs x).
  { intros. unfold uecho_object_setpropertydata. rewrite pl_setdata_eq. reflexivity. }
  injection E3 as E3. apply (f_equal fst) in E3. cbn [fst] in E3. rewrite <- E3.
  unfold uecho_nodeprofile_setversion, uecho_nodeprofile_setoperatingstatus. rewrite !S. apply addmissing_obs.
Qed.

Theorem api_node_obs : forall db n, db_ok db -> api_node le net db n -> nobs n.
Proof.
  intros db n Hdb (n0 & h & own & ans & H0 & H). destruct (new_node_ok _ _ _ _ Hdb H0) as (A & _).
  assert (N0 : nobs n0).
  { destruct H0 as (tid0 & junk & man & uq & posts & _ & _ & _ & _ & E). unfold uecho_node_new in E.
    apply bind_ok in E. destruct E as (o & E & E1). apply bind_ok in E1. destruct E1 as ([[n1 ps] r] & E1 & E2). injection E2 as <- _.
    change (nobs n1). eapply addobject_obs; [exact E1| |constructor]. rewrite (profile_new_obs _ _ _ _ _ E). exact Pnil. }
  revert A N0. clear H0. induction H as [n Hm|n x n1 p1 a1 h n' own ans Hx Hm Hs Hr IH]; intros A N0; [exact N0|].
  assert (Hm1 : mem_ok n1) by (inversion Hr; assumption).
  apply IH; [exact (proj1 (nstep_ok _ _ _ _ _ _ _ _ Hdb A Hm Hm1 Hx Hs))|].
  exact (nstep_obs _ _ _ _ _ _ A Hm Hx Hs N0).
Qed.
End Inv.
