(* Every step of a node's history preserves the invariant and the frame numbering. *)
From Coq Require Import String ZArith List Bool Lia ZifyBool ZifyNat.
From Verif Require Import CSem M_Const M_Misc M_Property M_Message M_PropertyList M_Object M_Node M_NodeListener
  Spec_Frame Spec_Message Spec_Map Spec_Object Spec_Node Run_Object Run_Node P_Base P_Misc P_Message P_Encode P_MsgApi
  P_PropertyList P_Object P_ObjectRun P_ObjectReach P_Node P_Request Properties_Object P_NodeReach P_NodeProfile P_NodeInv.
Import ListNotations.
Open Scope Z_scope.
Ltac Zify.zify_post_hook ::= Z.div_mod_to_equations.

(* ---- requests ---- *)

Section R.
Variable dec : list (hcall * bool) -> hcall -> bool.

Lemma put_einv : forall o c d q, winv o -> find (o_props o) c = Some q -> bytes_ok d ->
  winv (o_with_props (put (o_props o) c (put_data d)) o).
Proof.
  intros o c d q He F Hd.
  assert (Hc : epc_code c).
  { apply find_code in F. destruct F as [<- Ip]. destruct He as [[_ He] _]. apply (plist_ok_in _ _ He) in Ip.
    destruct Ip as [Ip _]. unfold is_byte in Ip. unfold epc_code. lia. }
  apply (step_winv (fun _ => 0) o (OSetData c d) _ (announced (got (o_props o) c) d)); [intro; unfold is_byte; lia|assumption| | |].
  - unfold epc_code in Hc. split; [cbn; lia|exact Hd].
  - intros c0 E; injection E as <-; exact Hc.
  - cbn [ostep]. unfold uecho_object_setpropertydata. rewrite pl_setdata_eq. reflexivity.
Qed.

Lemma bytes_of_vals : forall l, Forall byte_val l -> bytes_ok l.
Proof. intros l H. eapply Forall_impl; [|exact H]. intros; apply is_byte_val; assumption. Qed.

Lemma work1_einv : forall esv e o calls o1 a1 c1 d ok, winv o -> epair_ok e ->
  work1 dec esv e o calls = Ok (o1, a1, c1, d, ok) -> winv o1 /\ Forall ann_ok a1.
Proof.
  intros esv e o calls o1 a1 c1 d ok He (Hc & Hd & Hl) H. unfold work1 in H.
  apply bytes_of_vals in Hd.
  destruct (find (o_props o) (fst e)) as [q|] eqn:E.
  - apply bind_ok in H. destruct H as ([ok' cs] & N & H). cbn [fst snd] in H. destruct ok'.
    + apply (f_equal (fun x => match x with Ok (a, b, _, _, _) => (a, b) | _ => (o, []) end)) in H. cbv iota in H.
      injection H as <- <-. destruct (is_write esv); [|auto]. split; [eapply put_einv; eauto|].
      rewrite <- (got_some _ _ _ E). apply Forall_forall. intros p Hp. apply announced_in in Hp. destruct Hp as [C D].
      assert (E1 : is_byte (p_code p)) by (rewrite C; apply is_byte_val; exact Hc).
      assert (E2 : bytes_ok (p_data p)) by (rewrite D; exact Hd).
      assert (E3 : len (p_data p) <= DATA_MAX) by (rewrite D; unfold DATA_MAX, len; lia).
      exact (conj E1 (conj E2 E3)).
    + injection H as <- <- <- <- <-. auto.
  - injection H as <- <- <- <- <-. auto.
Qed.

Lemma work_einv : forall esv ps o calls o1 a1 c1 rs, winv o -> Forall epair_ok ps ->
  work dec esv ps o calls = Ok (o1, a1, c1, rs) -> winv o1 /\ Forall ann_ok a1.
Proof.
  intros esv. induction ps as [|e ps IH]; intros o calls o1 a1 c1 rs Hi Hp H; cbn [work] in H.
  - injection H as <- <- <- <-. auto.
  - inversion Hp as [|? ? He Hr]; subst.
    apply bind_ok in H. destruct H as ([[[[o2 a2] c2] d] ok] & W & H).
    apply bind_ok in H. destruct H as ([[[o3 a3] c3] rs'] & W2 & H). injection H as <- <- <- <-.
    destruct (work1_einv _ _ _ _ _ _ _ _ _ Hi He W) as [Hi1 Ha].
    destruct (IH _ _ _ _ _ _ Hi1 Hr W2) as (A & B). split; [assumption|]. apply Forall_app. auto.
Qed.

Lemma same_keeps : forall o o', same_eoj o o' -> keeps o o'.
Proof. intros o o' (A & B & C & D & _). unfold keeps. auto. Qed.

Lemma wbody_ok : forall esv o b o1 anns calls b' all, winv o -> body_ok esv b ->
  wbody dec esv o b = Ok (o1, anns, calls, b', all) -> winv o1 /\ Forall ann_ok anns /\ same_eoj o o1.
Proof.
  intros esv o b o1 anns calls b' all He Hb H. destruct b as [ps|s g]; cbn [wbody body_ok] in *.
  - apply bind_ok in H. destruct H as ([[[o2 a2] c2] rs] & W & H).
    apply (f_equal (fun x => match x with Ok (a, b, _, _, _) => (a, b) | _ => (o, []) end)) in H. cbv iota in H.
    injection H as <- <-. destruct Hb as [_ [Hb _]].
    destruct (work_einv _ _ _ _ _ _ _ _ He Hb W). apply work_shape in W. tauto.
  - apply bind_ok in H. destruct H as ([[[o2 a2] c2] r1] & W & H).
    apply bind_ok in H. destruct H as ([[[o3 a3] c3] r2] & W2 & H).
    apply (f_equal (fun x => match x with Ok (a, b, _, _, _) => (a, b) | _ => (o, []) end)) in H. cbv iota in H.
    injection H as <- <-. destruct Hb as (_ & [Hb1 _] & [Hb2 _]).
    destruct (work_einv _ _ _ _ _ _ _ _ He Hb1 W) as [E1 A1]. destruct (work_einv _ _ _ _ _ _ _ _ E1 Hb2 W2) as [E2 A2].
    apply work_shape in W. apply work_shape in W2. split; [assumption|]. split; [apply Forall_app; auto|].
    eapply same_eoj_trans; [apply W|apply W2].
Qed.
End R.

Lemma fine_objs : forall n, ninv n -> mem_ok n -> Forall fine (n_objs n).
Proof.
  intros n (_ & H & _) M. apply Forall_forall. intros o I. unfold mem_ok in M. rewrite Forall_forall in H, M.
  split; [apply H; assumption|apply M; assumption].
Qed.

Section St.
Variable le : bool.
Variable net : post -> bool.

Lemma receive_frame_ok : forall dec n f from r, ninv n -> frame_ok f ->
  receive_frame le net dec n f from = Ok r ->
  step_ok le n (r_node r) (r_anns r) /\ (profile n <> None -> profile (r_node r) <> None).
Proof.
  intros dec n f from r Hn Hf H. unfold receive_frame in H.
  assert (Z0 : step_ok le n n [] /\ (profile n <> None -> profile n <> None)).
  { split; [|auto]. split; [assumption|]. exists 0%nat. split; [constructor|reflexivity]. }
  destruct (uecho_node_getobjectbycode n (eoj_code (f_deoj f))) as [o|] eqn:G.
  - destruct (uecho_esv_isrequest (f_esv f)); cbn [negb] in H; [|injection H as <-; exact Z0].
    apply bind_ok in H. destruct H as ([[[[o1 anns] calls] b] all] & W & H).
    apply bind_ok in H. destruct H as ([n1 ps] & E & H). injection H as <-. cbn [r_node r_anns fst snd].
    destruct (ninv_get _ _ _ Hn G) as [Ho Hc].
    destruct (wbody_ok _ _ _ _ _ _ _ _ _ (proj1 Ho) (proj2 (proj2 (proj2 (proj2 (proj2 Hf))))) W) as (He & Ha & Sh).
    apply same_keeps in Sh.
    assert (Ho1 : oinv o1) by (eapply keeps_oinv; eauto).
    assert (N1 : ninv (n_with_objs (put_obj (eoj_code (f_deoj f)) o1 (n_objs n)) n)) by (eapply ninv_put; eauto).
    apply emit_ok in E; [|assumption|destruct (o_attached o); [assumption|constructor]].
    destruct E as [S E].
    assert (P : profile n <> None -> profile (n_with_objs (put_obj (eoj_code (f_deoj f)) o1 (n_objs n)) n) <> None).
    { intros P Q. apply P. eapply profile_put; [exact G| |exact Q]. rewrite (keeps_code _ _ Sh). exact Hc. }
    split; [eapply step_ok_profile; [exact S|reflexivity|exact P]|].
    rewrite E. exact P.
  - injection H as <-. exact Z0.
Qed.

(* calls after which the numbering has no gap *)
Definition gapless (x : nop) : Prop :=
  match x with
  | NClear => False
  | NSend d _ => n_addr d <> None
  | _ => True
  end.

Lemma nstep_ok : forall db n x n' own ans, db_ok db -> ninv n -> mem_ok n -> mem_ok n' -> nop_ok le db x ->
  nstep le net db n x = Ok (n', own, ans) ->
  ninv n' /\ (exists k, stamped le (n_tid n) own k (n_tid n') /\ (profile n <> None -> gapless x -> k = 0%nat))
  /\ (profile n <> None -> gapless x -> profile n' <> None).
Proof.
  intros db n x n' own ans Hdb Hn Hm Hm' Hx H.
  assert (Lift : step_ok le n n' own -> (profile n <> None -> profile n' <> None) ->
     ninv n' /\ (exists k, stamped le (n_tid n) own k (n_tid n') /\ (profile n <> None -> gapless x -> k = 0%nat))
     /\ (profile n <> None -> gapless x -> profile n' <> None)).
  { intros (A & k & B & C) P. split; [assumption|]. split; [exists k; auto|auto]. }
  destruct x; cbn [nstep nop_ok] in *.
  - (* NAdd *)
    apply bind_ok in H. destruct H as ([[n1 ps] r] & E & H). injection H as <- <- <-.
    destruct (api_winv _ _ Hdb Hx) as [He Hb]. apply addobject_ok in E; [|assumption..]. destruct E as [S E].
    apply Lift; [assumption|]. intros P.
    destruct (uecho_node_getobjectbycode n (uecho_object_getcode o)); [destruct E as [-> _]; exact P|].
    assert (P1 : profile (appended o n) <> None).
    { unfold profile, uecho_node_getobjectbycode in *. cbn [appended n_objs n_with_classes n_with_objs]. rewrite oget_app.
      destruct (oget (n_objs n) uEchoNodeProfileObject); [discriminate|contradiction]. }
    destruct (profile (appended o n)) as [p|] eqn:Ep; [|congruence]. destruct E as (_ & E1 & E2).
    unfold profile, uecho_node_getobjectbycode in *. rewrite E1.
    pose proof (getbycode_in _ _ _ Ep) as [Ec _].
    rewrite put_obj_get.
    + change (uEchoNodeProfileObject =? 978945) with true. cbv iota. change 978945 with uEchoNodeProfileObject. rewrite Ep. discriminate.
    + exact Ec.
  - (* NSet *)
    apply bind_ok in H. destruct H as ([[n1 ps] r] & E & H). injection H as <- <- <-.
    pose proof (setobject_ok _ _ _ _ _ _ _ _ _ Hdb Hx Hn E) as S. apply Lift; [assumption|].
    unfold uecho_node_setobject in E. destruct (uecho_node_getobjectbycode n code); [injection E as <- <- <-; auto|].
    apply bind_ok in E. destruct E as ([o a] & E1 & E). cbn [fst] in E.
    assert (Ho : api_obj db o) by (eapply ao_setcode; [constructor|exact Hx|exact E1]).
    destruct (api_winv _ _ Hdb Ho) as [He Hb]. apply addobject_ok in E; [|assumption..]. destruct E as [_ E]. intros P.
    destruct (uecho_node_getobjectbycode n (uecho_object_getcode o)); [destruct E as [-> _]; exact P|].
    assert (P1 : profile (appended o n) <> None).
    { unfold profile, uecho_node_getobjectbycode in *. cbn [appended n_objs n_with_classes n_with_objs]. rewrite oget_app.
      destruct (oget (n_objs n) uEchoNodeProfileObject); [discriminate|contradiction]. }
    destruct (profile (appended o n)) as [p|] eqn:Ep; [|congruence]. destruct E as (_ & E3 & E2).
    unfold profile, uecho_node_getobjectbycode in *. rewrite E3.
    pose proof (getbycode_in _ _ _ Ep) as [Ec _].
    rewrite put_obj_get.
    + change (uEchoNodeProfileObject =? 978945) with true. cbv iota. change 978945 with uEchoNodeProfileObject. rewrite Ep. discriminate.
    + exact Ec.
  - (* NObj *)
    apply bind_ok in H. destruct H as ([n1 ps] & E & H). cbn [fst snd] in H. injection H as <- <- <-.
    assert (F : forall o o' a, uecho_node_getobjectbycode n code = Some o -> oinv o -> odo k o = Ok (o', a) ->
        oinv o' /\ keeps o o' /\ Forall ann_ok a).
    { intros o o' a G Ho D. destruct (odo_ok _ _ _ _ Ho Hx D) as (A & B & C). split; [assumption|]. split; [assumption|].
      unfold node_object_op in E. rewrite G, D in E. cbn [bind] in E.
      apply node_emit_shape in E. 
      assert (I : In o' (n_objs n1)) by (rewrite E; cbn [n_objs n_with_tid n_with_objs]; eapply put_obj_in; exact G).
      unfold mem_ok in Hm'. rewrite Forall_forall in Hm'. specialize (Hm' _ I).
      eapply Forall_impl; [|exact C]. intros p Sp. eapply snap_ann_ok; [apply A|exact Hm'|exact Sp]. }
    pose proof (op_profile _ _ _ _ _ _ _ Hn F E). apply object_op_ok in E; [|assumption|assumption]. destruct E. apply Lift; assumption.
  - (* NManufacturer *)
    apply bind_ok in H. destruct H as ([n1 ps] & E & H). cbn [fst snd] in H. injection H as <- <- <-.
    unfold uecho_node_setmanufacturercode in E. destruct (setman_all_ok le net _ n code n1 ps Hn E) as [S P]. exact (Lift S P).
  - (* NAnnounce *)
    apply bind_ok in H. destruct H as ([[n1 ps] r] & E & H). injection H as <- <- <-.
    unfold uecho_node_announce in E. fold (profile n) in E.
    destruct (profile n) as [p|] eqn:Ep.
    + destruct (uecho_object_getproperty p EPC_InstanceListNotification) as [q|] eqn:Eq.
      * apply bind_ok in E. destruct E as (s & E & E2).
        apply (f_equal (fun x => match x with Ok (a, b, _) => (a, b) | _ => (n, []) end)) in E2. cbv iota in E2. injection E2 as <- <-.
        assert (A : ann_ok q).
        { unfold uecho_object_getproperty in Eq. unfold profile in Ep. pose proof (ninv_get _ _ _ Hn Ep) as [Ho _].
          apply (snap_ann_ok p); [apply Ho| |].
          - unfold mem_ok in Hm. rewrite Forall_forall in Hm. apply Hm. apply getbycode_in in Ep. tauto.
          - exists q. split; [|reflexivity]. pose proof (find_code _ _ _ Eq) as [-> _]. exact Eq. }
        destruct (announceproperty_spec le net n (uecho_object_getcode p) q A (proj1 Hn)) as (s' & E' & N' & P').
        rewrite E' in E. injection E as <-. rewrite Ep in P'. destruct P' as [P' _]. rewrite N', P'.
        pose proof (next_tid_range (n_tid n) (proj1 Hn)).
        split; [apply ninv_tid; [assumption|lia]|]. split; [|intros _ _; change (profile n <> None); congruence].
        exists 0%nat. split; [|reflexivity]. constructor; [|constructor]. exists [16; 129]. eexists. split; reflexivity.
      * injection E as <- <- <-. split; [assumption|]. split; [|rewrite Ep; auto]. exists 0%nat. split; [constructor|reflexivity].
    + injection E as <- <- <-. split; [assumption|]. split; [|rewrite Ep; auto]. exists 0%nat. split; [constructor|reflexivity].
  - (* NAnnounceMsg *)
    apply bind_ok in H. destruct H as (s & E & H). injection H as <- <- <-. destruct Hx as [Ha Hi].
    pose proof (api_inv_holds _ _ Ha) as [Hok He].
    rewrite announcemessage_spec in E; [|assumption|apply (in_memory_fits m); assumption].
    pose proof (next_tid_range (n_tid n) (proj1 Hn)) as Ht.
    apply (f_equal (fun x => match x with Ok y => (s_node y, s_posts y) | _ => (n, []) end)) in E. cbv iota in E. injection E as E1 E2.
    destruct (profile n) eqn:Ep; cbn [s_node s_posts] in *; rewrite <- E1, <- E2; (split; [apply ninv_tid; [assumption|lia]|]).
    + split; [|intros _ _; change (profile n <> None); congruence]. exists 0%nat. split; [|reflexivity].
      constructor; [|constructor]. eapply carries_stamp; [lia|reflexivity].
    + split; [|congruence]. exists 1%nat. split; [|congruence]. constructor. constructor.
  - (* NSend *)
    apply bind_ok in H. destruct H as (s & E & H). injection H as <- <- <-. destruct Hx as [Ha Hi].
    pose proof (api_inv_holds _ _ Ha) as [Hok He].
    rewrite sendmessage_spec in E; [|assumption|apply (in_memory_fits m); assumption].
    pose proof (next_tid_range (n_tid n) (proj1 Hn)) as Ht.
    apply (f_equal (fun x => match x with Ok y => (s_node y, s_posts y) | _ => (n, []) end)) in E. cbv iota in E. injection E as E1 E2.
    cbn [gapless].
    destruct (profile n) eqn:Ep; [destruct (n_addr d) eqn:Ed|]; cbn [s_node s_posts] in *; rewrite <- E1, <- E2; (split; [apply ninv_tid; [assumption|lia]|]).
    + split; [|intros _ _; change (profile n <> None); congruence]. exists 0%nat. split; [|reflexivity].
      constructor; [|constructor]. eapply carries_stamp; [lia|reflexivity].
    + split; [|congruence]. exists 1%nat. split; [|congruence]. constructor. constructor.
    + split; [|congruence]. exists 1%nat. split; [|congruence]. constructor. constructor.
  - (* NReceive *)
    apply bind_ok in H. destruct H as (r & E & H). injection H as <- <- <-.
    rewrite node_receive_spec in E; [|assumption|apply fine_objs; assumption].
    destruct (dec_frame data) as [[f rest]|] eqn:Ed.
    + apply dec_frame_iff in Ed; [|apply Hx]. destruct Ed as [Hf _].
      apply receive_frame_ok in E; [|assumption|assumption]. destruct E. apply Lift; assumption.
    + injection E as <-. cbn [r_node r_anns]. split; [assumption|]. split; [|auto]. exists 0%nat. split; [constructor|reflexivity].
  - injection H as <- <- <-. split; [exact Hn|]. split; [|auto]. exists 0%nat. split; [constructor|reflexivity].
  - injection H as <- <- <-. split; [exact Hn|]. split; [|auto]. exists 0%nat. split; [constructor|reflexivity].
  - injection H as <- <- <-. split.
    + destruct Hn as (A & _). split; [exact A|]. split; [constructor|]. split; [constructor|reflexivity].
    + split; [|intros _ []]. exists 0%nat. split; [constructor|intros _ []].
Qed.

Lemma nrun_ok : forall db n h n' own ans, db_ok db -> ninv n -> nrun le net db n h n' own ans ->
  ninv n' /\ mem_ok n' /\ (exists k, stamped le (n_tid n) own k (n_tid n') /\ (profile n <> None -> Forall gapless h -> k = 0%nat)).
Proof.
  intros db n h n' own ans Hdb Hn H. revert Hn. induction H as [n Hm|n x n1 p1 a1 h n' own ans Hx Hm Hs Hr IH]; intros Hn.
  - split; [assumption|]. split; [assumption|]. exists 0%nat. split; [constructor|reflexivity].
  - assert (Hm1 : mem_ok n1) by (inversion Hr; assumption).
    destruct (nstep_ok _ _ _ _ _ _ Hdb Hn Hm Hm1 Hx Hs) as (Hn1 & (k & Sk & Gk) & Pk).
    destruct (IH Hn1) as (Hn' & Hm' & j & Sj & Gj). split; [assumption|]. split; [assumption|].
    exists (k + j)%nat. split; [eapply stamped_app; eauto|]. intros P Hg. inversion Hg; subst. rewrite Gk, Gj by auto. reflexivity.
Qed.

Lemma rd_range_bytes : forall l i k x, bytes_ok l -> rd_range l i k = Ok x -> bytes_ok x.
Proof.
  intros l i k x H E. unfold rd_range in E. destruct (k =? 0); [injection E as <-; constructor|].
  destruct (_ && _); [|discriminate]. injection E as <-. unfold bytes_ok in *. rewrite Forall_forall in *.
  intros y I. apply H. rewrite <- (firstn_skipn (Z.to_nat i) l). apply in_or_app. right.
  rewrite <- (firstn_skipn (Z.to_nat k)). apply in_or_app. left. exact I.
Qed.

Lemma profile_new_ok : forall db junk man uniq o, db_ok db -> (forall i, is_byte (junk i)) -> bytes_ok man -> bytes_ok uniq ->
  uecho_nodeprofile_new db junk man uniq = Ok o -> winv o /\ codes_byte o /\ uecho_object_getcode o = 978945.
Proof.
  intros db junk man uniq o Hdb Hj Hm Hu H. unfold uecho_nodeprofile_new in H.
  apply bind_ok in H. destruct H as ([o1 a1] & E1 & H). apply bind_ok in H. destruct H as ([o2 b2] & E2 & H).
  cbn [fst] in *. injection H as <-.
  assert (A1 : api_obj db o1) by (eapply ao_setcode; [constructor|exact Hj|exact E1]).
  destruct (api_winv _ _ Hdb A1) as [He Hb]. apply setcode_code in E1.
  assert (K : winv o2 /\ keeps o1 o2); [|destruct K as [K1 K2]; split; [exact K1|]].
  { unfold uecho_nodeprofile_addmandatoryproperties in E2.
    destruct (uecho_database_getobject db 14 240) as [sup|] eqn:Es; [|injection E2 as <- <-; split; [assumption|repeat split]].
    apply bind_ok in E2. destruct E2 as ([o3 a3] & E3 & E2). cbn [fst] in E2. injection E2 as <- <-.
    set (x1 := uecho_object_addmissingobjectproperties o1 sup) in *.
    assert (X1 : winv x1 /\ keeps o1 x1).
    { unfold x1, uecho_object_addmissingobjectproperties. split.
      - apply addmissing_winv; [|assumption]. intros p Ip. apply (db_props_ok db 14 240 p Hdb). unfold db_props. rewrite Es. exact Ip.
      - destruct (addmissing_spec (o_props sup) o1) as (_ & _ & _ & _ & C & D). injection C as C1 C2 C3. unfold keeps. auto. }
    clearbody x1.
    assert (ST : forall o c d, winv o -> epc c -> bytes_ok d -> winv (fst (uecho_object_setpropertydata o c d)) /\ keeps o (fst (uecho_object_setpropertydata o c d))).
    { intros o c d Ho Hc Hd. destruct (uecho_object_setpropertydata o c d) as [o' a] eqn:E. cbn [fst]. split.
      - apply (step_winv (fun _ => 0) o (OSetData c d) _ a); [intro; unfold is_byte; lia|assumption| | |].
        + unfold epc in Hc. split; [cbn; lia|exact Hd].
        + intros c0 E0; injection E0 as <-; unfold epc in Hc; unfold epc_code; lia.
        + cbn [ostep]. rewrite E. reflexivity.
      - unfold uecho_object_setpropertydata in E. rewrite pl_setdata_eq in E. injection E as <- <-. repeat split. }
    assert (KT : forall a b c, keeps a b -> keeps b c -> keeps a c).
    { intros a b c (? & ? & ? & ?) (? & ? & ? & ?). unfold keeps. repeat split; congruence. }
    set (x2 := fst (uecho_nodeprofile_setoperatingstatus x1 true)) in *.
    assert (X2 : winv x2 /\ keeps x1 x2).
    { apply ST; [apply X1|unfold epc, EPC_OperatingStatus; lia|]. apply bytes_ok_cons. split; [unfold is_byte; lia|constructor]. }
    set (x3 := fst (uecho_nodeprofile_setversion x2 1 13)) in *.
    assert (X3 : winv x3 /\ keeps x2 x3).
    { apply ST; [apply X2|unfold epc, EPC_Version; lia|]. repeat (apply bytes_ok_cons; split; [unfold is_byte, to_byte; lia|]). constructor. }
    clearbody x2 x3. unfold uecho_nodeprofile_setid in E3.
    apply bind_ok in E3. destruct E3 as (m & M1 & E3). apply bind_ok in E3. destruct E3 as (u & U1 & E3).
    injection E3 as E3.
    assert (X4 : winv o3 /\ keeps x3 o3).
    { replace o3 with (fst (uecho_object_setpropertydata x3 EPC_Id (254 :: m ++ u))) by (rewrite E3; reflexivity).
      apply ST; [apply X3|unfold epc, EPC_Id; lia|]. apply bytes_ok_cons. split; [unfold is_byte; lia|].
      apply bytes_ok_app. split; [exact (rd_range_bytes _ _ _ _ Hm M1)|exact (rd_range_bytes _ _ _ _ Hu U1)]. }
    split; [apply X4|]. eapply KT; [apply X1|]. eapply KT; [apply X2|]. eapply KT; [apply X3|apply X4]. }
  destruct K2 as (C1 & C2 & C3 & _). destruct E1 as (D1 & D2 & D3).
  assert (Cb : codes_byte o2) by (unfold codes_byte; rewrite C1, C2, C3; exact Hb). split; [exact Cb|].
  rewrite (getcode_eq _ Cb), C1, C2, C3, D1, D2, D3. reflexivity.
Qed.

Lemma new_node_ok : forall db n, db_ok db -> new_node le net db n ->
  ninv n /\ n_tid n = 0 /\ profile n <> None.
Proof.
  intros db n Hdb (tid0 & junk & man & uniq & posts & Ht & Hj & Hm & Hu & H).
  unfold uecho_node_new in H. apply bind_ok in H. destruct H as (o & E & H).
  destruct (profile_new_ok _ _ _ _ _ Hdb Hj Hm Hu E) as (He & Hb & Hc).
  apply bind_ok in H. destruct H as ([[n1 ps] r] & E1 & H). injection H as <- <-.
  assert (N0 : ninv (mkNode tid0 [] [] None false)).
  { split; [cbn; lia|]. split; [constructor|]. split; [constructor|reflexivity]. }
  apply addobject_ok in E1; [|assumption..]. destruct E1 as [S M]. cbn [uecho_node_getobjectbycode n_objs uecho_objectlist_getbycode] in M.
  split; [apply (ninv_tid n1 0); [apply S|lia]|]. split; [reflexivity|].
  change (profile n1 <> None).
  assert (P : profile (appended o (mkNode tid0 [] [] None false)) = Some (uecho_object_attach o)).
  { unfold profile, uecho_node_getobjectbycode, appended. cbn [n_objs n_with_classes n_with_objs app uecho_objectlist_getbycode].
    change (uecho_object_getcode (uecho_object_attach o)) with (uecho_object_getcode o). rewrite Hc. reflexivity. }
  rewrite P in M. destruct M as (_ & M1 & M2). unfold profile, uecho_node_getobjectbycode in *. rewrite M1.
  rewrite put_obj_get.
  - change (uEchoNodeProfileObject =? 978945) with true. cbv iota. change 978945 with uEchoNodeProfileObject. rewrite P. discriminate.
  - exact Hc.
Qed.

Theorem api_node_ok : forall db n, db_ok db -> api_node le net db n -> ninv n /\ mem_ok n.
Proof.
  intros db n Hdb (n0 & h & own & ans & H0 & H). destruct (new_node_ok _ _ Hdb H0) as (A & _).
  destruct (nrun_ok _ _ _ _ _ _ Hdb A H) as (B & C & _). auto.
Qed.
End St.
