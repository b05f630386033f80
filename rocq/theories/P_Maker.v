(* The copies a controller makes of devices have a property for the manufacturer. *)
From Coq Require Import String ZArith List Bool Lia ZifyBool ZifyNat.
From Verif Require Import CSem M_Const M_Misc M_Property M_Message M_PropertyList M_Object M_Node M_NodeListener M_Controller M_Query M_PostTool M_ShowTool M_Verbose
  StdDB_Data M_Std Spec_Frame Spec_Message Spec_Map Spec_Object Spec_Node Spec_Request Spec_Controller Spec_ShowTool Spec_Verbose Run_Object Run_Node
  Run_Controller P_Base P_Misc P_Message P_Encode P_MsgApi P_PropertyList P_Object P_ObjectRun P_ObjectReach P_Std P_Node
  P_Request Properties_Object P_NodeReach P_NodeProfile P_NodeInv P_NodeRun P_NodeProps P_RequestProps P_RequestApi P_NodeSafe
  P_Shadow P_Controller P_ControllerProps Properties_Message Properties_Node Properties_Request Properties_Controller P_EndToEnd
  Properties_EndToEnd Properties_System Properties_Query Spec_CtrlBound P_CtrlSafe P_CtrlBound Properties_CtrlBound P_Owned P_ShowTool Properties_ShowTool P_Verbose P_VerboseRun P_VerboseTid.
From Verif Require P_Lookup.
Import ListNotations.
Open Scope Z_scope.
Ltac Zify.zify_post_hook ::= Z.div_mod_to_equations.

Definition made (n : node) : Prop := node_data n 978945 138 <> None.

Lemma setdata_keeps : forall o c d x, uecho_object_getproperty o x <> None -> uecho_object_getproperty (fst (uecho_object_setpropertydata o c d)) x <> None.
Proof.
  intros o c d x H. unfold uecho_object_setpropertydata. rewrite pl_setdata_eq. cbn [fst]. unfold uecho_object_getproperty in *. cbn [o_props o_with_props].
  change (find (put (o_props o) c (put_data d)) x <> None). rewrite put_find by (intros p Hp; destruct p; exact Hp). destruct (x =? c); [discriminate|exact H].
Qed.
Lemma profile_made : forall db junk man uniq o,
  (forall o1 a1, uecho_object_setcode db junk uecho_object_new uEchoNodeProfileObject = Ok (o1, a1) -> uecho_object_getproperty o1 138 <> None) ->
  uecho_nodeprofile_new db junk man uniq = Ok o -> uecho_object_getproperty o 138 <> None.
Proof.
  intros db junk man uniq o Hs E. unfold uecho_nodeprofile_new in E. apply bind_ok in E. destruct E as ([o1 a1] & S1 & E). apply bind_ok in E. destruct E as ([o2 b2] & S2 & E).
  cbn [fst] in *. injection E as <-. pose proof (Hs _ _ S1) as H1.
  unfold uecho_nodeprofile_addmandatoryproperties in S2. destruct (uecho_database_getobject db 14 240) as [sup|]; [|injection S2 as <- <-; exact H1].
  apply bind_ok in S2. destruct S2 as ([o3 a3] & S3 & S2). cbn [fst] in S2. injection S2 as <- <-.
  unfold uecho_nodeprofile_setid in S3. apply bind_ok in S3. destruct S3 as (m & _ & S3). apply bind_ok in S3. destruct S3 as (u & _ & S3).
  injection S3 as S3. apply (f_equal fst) in S3. cbn [fst] in S3. rewrite <- S3. apply setdata_keeps. unfold uecho_nodeprofile_setversion. apply setdata_keeps.
  unfold uecho_nodeprofile_setoperatingstatus. apply setdata_keeps.
  destruct (addmissing_spec (o_props sup) o1) as (F & _). unfold uecho_object_getproperty, uecho_object_addmissingobjectproperties in *.
  change (find (o_props (addmissing o1 (o_props sup))) 138 <> None). rewrite F.
  change (find (o_props o1) 138 <> None) in H1. destruct (find (o_props o1) 138); [discriminate|destruct (H1 eq_refl)].
Qed.
Lemma new_made_in : forall le net db n, db_ok db ->
  (forall junk o1 a1, (forall i, is_byte (junk i)) -> uecho_object_setcode db junk uecho_object_new uEchoNodeProfileObject = Ok (o1, a1) -> uecho_object_getproperty o1 138 <> None) ->
  new_node le net db n -> made n.
Proof.
  intros le net db n Hdb Hs (tid0 & junk & man & uniq & posts & Ht & Hj & Hm & Hu & H).
  unfold uecho_node_new in H. apply bind_ok in H. destruct H as (o & E & H).
  destruct (profile_new_ok _ _ _ _ _ Hdb Hj Hm Hu E) as (He & Hb & Hc).
  apply bind_ok in H. destruct H as ([[n1 ps] r] & E1 & H). injection H as <- <-.
  assert (N0 : ninv (mkNode tid0 [] [] None false)).
  { split; [cbn; lia|]. split; [constructor|]. split; [constructor|reflexivity]. }
  assert (P : profile (appended o (mkNode tid0 [] [] None false)) = Some (uecho_object_attach o)).
  { unfold profile, uecho_node_getobjectbycode, appended. cbn [n_objs n_with_classes n_with_objs app uecho_objectlist_getbycode].
    change (uecho_object_getcode (uecho_object_attach o)) with (uecho_object_getcode o). rewrite Hc. reflexivity. }
  pose proof (profile_made db junk man uniq o (fun o1 a1 => Hs junk o1 a1 Hj) E) as Ho.
  destruct (addobject_effect le net _ o n1 ps r N0 He Hb eq_refl ltac:(rewrite P; discriminate) E1) as (_ & _ & _ & _ & D & _).
  specialize (D 138 ltac:(cbn; lia)). rewrite P in D. change (made n1). unfold made, node_data. unfold profile in D. change uEchoNodeProfileObject with 978945 in D.
  destruct (uecho_node_getobjectbycode n1 978945) as [p'|]; [|contradiction]. rewrite D.
  change (uecho_object_getproperty (uecho_object_attach o) 138) with (uecho_object_getproperty o 138). destruct (uecho_object_getproperty o 138); [discriminate|destruct (Ho eq_refl)].
Qed.
Lemma code_profile : uEchoNodeProfileObject = 14 * 65536 + 240 * 256 + 1.
Proof. reflexivity. Qed.
Lemma setcode_made : forall junk o1 a1, (forall i, is_byte (junk i)) -> uecho_object_setcode std_db junk uecho_object_new uEchoNodeProfileObject = Ok (o1, a1) ->
  uecho_object_getproperty o1 138 <> None.
Proof.
  intros junk o1 a1 Hj S1. rewrite code_profile in S1.
  pose proof (C45_node_profile_properties uecho_object_new junk 1 o1 a1 138 (ao_new std_db) Hj (conj (Zle_0_pos 1) eq_refl) S1 (or_intror (or_intror (or_intror (or_introl eq_refl))))) as X.
  unfold uecho_object_hasproperty in X. destruct (uecho_object_getproperty o1 138); [discriminate|discriminate X].
Qed.
Lemma new_made : forall le net n, new_node le net std_db n -> made n.
Proof. intros le net n. apply new_made_in; [exact std_db_ok|exact setcode_made]. Qed.

Lemma searched_made : forall n n' l, searched std_db n n' l -> made n -> made n'.
Proof. intros n n' l S M. unfold made. rewrite (sr_data _ _ _ _ S) by (cbn; lia). exact M. Qed.
Lemma took_made : forall n n' oc o o' m, uecho_node_getobjectbycode n oc = Some o -> took n n' oc o o' m -> made n -> made n'.
Proof.
  intros n n' oc o o' m G T M. assert (Co : uecho_object_getcode o = oc) by (apply P_Node.getbycode_in in G; apply G).
  unfold made, node_data in *. destruct (Z.eq_dec oc 978945) as [->|Ne].
  - rewrite (took_get _ _ _ _ _ _ G Co T). rewrite G in M. exact (tk_has _ _ _ _ _ _ T 138 M).
  - assert (E : uecho_node_getobjectbycode n' 978945 = uecho_node_getobjectbycode n 978945).
    { rewrite (tk_node _ _ _ _ _ _ T). unfold uecho_node_getobjectbycode. cbn [n_objs n_with_tid n_with_objs]. rewrite put_obj_get.
      - destruct (Z.eqb_spec 978945 oc); [congruence|reflexivity].
      - destruct (tk_keeps _ _ _ _ _ _ T) as (K1 & K2 & K3 & _). rewrite <- Co. unfold uecho_object_getcode. congruence. }
    rewrite E. exact M.
Qed.
Lemma put_made : forall l from n', Forall made l -> made n' -> Forall made (put_node from n' l).
Proof.
  intros l from n' F M. induction l as [|n l IH]; cbn [put_node]; [constructor|]. inversion F; subst.
  destruct (uecho_node_isaddress n from); constructor; auto.
Qed.
Lemma heard_made : forall le snet c f from l told, Forall made (c_nodes c) -> heard le snet std_db c f from l told -> Forall made l.
Proof.
  intros le snet c f from l told F Hh.
  assert (B : forall n, node_byaddress (c_nodes c) from = Some n -> forall a, from = Some a -> made n).
  { intros n Hn a ->. apply byaddress_some in Hn. rewrite Forall_forall in F. apply F, Hn. }
  destruct Hh; try exact F.
  - apply Forall_app. split; [exact F|]. constructor; [|constructor]. eapply searched_made; [eassumption|].
    change (made n0). eapply new_made. eassumption.
  - apply put_made; [exact F|]. eapply searched_made; [eassumption|]. eapply B; eassumption.
  - apply put_made; [exact F|]. eapply took_made; [eassumption|eassumption|]. eapply B; eassumption.
Qed.
Lemma run_made : forall le net snet arr c c', api_ctrl le net snet std_db c -> crun le net snet std_db c (map arrives arr) c' ->
  Forall made (c_nodes c) -> Forall made (c_nodes c').
Proof.
  intros le net snet. induction arr as [|x arr IH]; intros c c' A R M.
  - inversion R; subst. exact M.
  - cbn [map] in R. inversion R as [|? ? out ? ? Hx Hm E R']; subst.
    assert (Mo : cmem_ok (co_ctrl out)) by (inversion R'; assumption).
    pose proof (capi_step _ _ _ _ _ _ _ A Hm Mo Hx E) as A'.
    destruct (api_ctrl_ok _ _ _ _ std_db_ok _ A) as [Hc _].
    unfold arrives in E, Hx. cbn [cstep cop_ok] in E, Hx. destruct Hx as [Hb Hfr]. apply bind_ok in E. destruct E as ([o y] & E & E1). injection E1 as <-.
    cbn [co_ctrl] in *. pose proof E as E0. apply (ctrl_receive_spec le net snet std_db) in E0; [|exact Hc|apply Hm|exact Hb|exact Hfr].
    apply (IH _ _ A' R'). destruct (dec_frame (ar_data x)) as [[f rest]|] eqn:Ed.
    + destruct E0 as (x' & y' & Ey & Ff & Ef & _). injection Ey as -> ->.
      assert (Hh : hears le net snet std_db (ar_dec x) (ar_fr x) c f rest (ar_local x) (ar_from x) x' y').
      { split; [exact A|]. split; [exact Ff|]. rewrite <- Ef. split; [exact Hb|]. split; [exact Hfr|exact E]. }
      destruct (hears_spec le net snet std_db std_db_ok _ _ _ _ _ _ _ _ _ Hh) as (_ & _ & _ & _ & _ & _ & Hd & _).
      eapply heard_made; [|exact Hd]. exact M.
    + injection E0 as _ ->. exact M.
Qed.
Lemma search_made : forall le net snet c0 arr c, new_ctrl le net std_db c0 ->
  crun le net snet std_db c0 (uechosearch_calls arr) c -> Forall made (c_nodes c).
Proof.
  intros le net snet c0 arr c H0 R. unfold uechosearch_calls in R. pose proof (winv_new _ _ _ H0) as W0.
  assert (A0 : api_ctrl le net snet std_db c0) by (exists c0, []; split; [exact H0|constructor; exact (winv_mem _ W0)]).
  destruct (new_ctrl_ok le net std_db std_db_ok c0 H0) as (Hc0 & N0 & Nw).
  inversion R as [|? ? o1 ? ? X1 _ E1 R1]; subst. assert (M1 : cmem_ok (co_ctrl o1)) by (inversion R1; assumption).
  pose proof (capi_step _ _ _ _ _ _ _ A0 (winv_mem _ W0) M1 X1 E1) as A1.
  inversion R1 as [|? ? o2 ? ? X2 _ E2 R2]; subst. assert (M2 : cmem_ok (co_ctrl o2)) by (inversion R2; assumption).
  pose proof (capi_step _ _ _ _ _ _ _ A1 M1 M2 X2 E2) as A2.
  apply (run_made le net snet arr (co_ctrl o2) c A2 R2).
  cbn [cstep] in E1. apply bind_ok in E1. destruct E1 as ([[c1 ps] b] & E1 & Q). injection Q as <-. unfold uecho_controller_start in E1.
  apply bind_ok in E1. destruct E1 as ([[n ps1] b1] & E1 & Q). injection Q as <- _ _.
  cbn [cstep] in E2. apply bind_ok in E2. destruct E2 as (s & E2 & Q). injection Q as <-. constructor.
Qed.
