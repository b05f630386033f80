(* Lemmas for Properties_Origin.v. *)
From Coq Require Import String ZArith List Bool Lia ZifyBool ZifyNat.
From Verif Require Import CSem M_Const M_Misc M_Property M_Message M_PropertyList M_Object M_Std M_Node M_NodeListener
  Spec_Frame Spec_Message Spec_Object Spec_Std Spec_Node Spec_Request Run_Object Run_Node P_Base P_Misc P_Message P_MsgApi
  P_PropertyList P_Object P_ObjectRun P_ObjectReach P_Std Properties_Object P_Node P_Request P_NodeReach P_NodeProfile P_NodeInv
  P_NodeRun P_NodeProps P_RequestProps P_RequestApi P_NodeSafe P_Shadow M_Controller Run_Controller Run_System P_System Run_Origin.
Import ListNotations.
Open Scope Z_scope.
Ltac Zify.zify_post_hook ::= Z.div_mod_to_equations.

Definition odat (o : obj) (c : Z) : option (list Z) := option_map p_data (uecho_object_getproperty o c).
Lemma odat_view : forall o c, odat o c = option_map snd (view o c).
Proof. intros o c. unfold odat, view. destruct (uecho_object_getproperty o c); reflexivity. Qed.

Lemma msb_rev : forall v size, (size <= 4)%nat -> rev (map (fun k => byte_of v (Z.of_nat k)) (seq 0 size)) = msb_bytes v size.
Proof. intros v size H. do 5 (destruct size as [|size]; [reflexivity|]). lia. Qed.

(* ---- one object ---- *)
(* [oputs m c k v]: on an object with data [m], call [k] makes [v] the data of [c] *)
Lemma odo_data : forall k o o' ann n oc c, oinv o -> ocall_ok k -> odo k o = Ok (o', ann) -> ~ map_epc c ->
  odat o c = node_data n oc c ->
  odat o' c = odat o c \/ puts n oc c (NObj oc k) (odat o' c).
Proof.
  intros k o o' ann n oc c Ho Hk H Hc En. destruct k as [op junk|c1 v size|c1|esv c1 h|b]; cbn [odo ocall_ok] in *.
  - destruct Hk as (K1 & K2 & K3). destruct Ho as (W & _). 
    destruct (step_spec junk o op o' ann K3 (proj1 W) K1 H) as [_ V]. specialize (V c (or_introl Hc)).
    rewrite !odat_view in *. rewrite V. clear V H.
    destruct op as [x a|x a|x d|x b|x a d|x d|x d|]; cbn [pm_step]; unfold pm_set, attr_of, data_of, pm_empty;
      try (destruct (Z.eqb_spec c x) as [<-|]; [|left; reflexivity]); cbn [option_map snd].
    + right. constructor.
    + destruct (view o c) as [[a0 d0]|]; cbn [option_map snd] in *; [left; reflexivity|right; constructor; symmetry; exact En].
    + right. constructor.
    + right. constructor.
    + right. constructor.
    + destruct (view o x) as [[a0 d0]|]; [|left; reflexivity]. destruct (Z.eqb_spec c x) as [<-|]; [|left; reflexivity].
      cbn [option_map snd]. right. constructor.
    + destruct (view o x) as [[a0 d0]|] eqn:E; [|left; reflexivity]. destruct (Z.eqb_spec c x) as [<-|]; [|left; reflexivity].
      rewrite E in *. cbn [option_map snd] in *. right. constructor. symmetry. exact En.
    + right. constructor.
  - apply setint_eq in H. destruct H as (bs & E1 & E2 & E3). destruct Ho as (W & _). unfold epc_code in Hk.
    assert (S : ostep (fun _ => 0) o (OSetData c1 bs) = Ok (o', ann)) by (cbn [ostep]; rewrite <- E3; reflexivity).
    assert (J : junk_ok (fun _ => 0)) by (intro; unfold is_byte; lia).
    assert (K : oop_ok (OSetData c1 bs)) by (split; [cbn; lia|exact E2]).
    destruct (step_spec _ o _ o' ann J (proj1 W) K S) as [_ V]. specialize (V c (or_introl Hc)).
    rewrite !odat_view, V. cbn [pm_step]. unfold pm_set. destruct (Z.eqb_spec c c1) as [<-|]; [|left; reflexivity].
    cbn [option_map snd]. right. apply integer2byte_iff in E1. destruct E1 as [L ->]. rewrite msb_rev by exact L. constructor.
  - injection H as <- <-. rewrite get_shape. destruct (find (o_props o) c1) as [p|] eqn:E.
    + left. unfold odat, uecho_object_getproperty. rewrite obj_props_with. reflexivity.
    + unfold odat, uecho_object_getproperty in *. rewrite obj_props_with, find_app. destruct (find (o_props o) c) as [q|] eqn:G; [left; reflexivity|].
      cbn [uecho_propertylist_findbycode]. destruct (Z.eqb_spec (p_code (dflt c1)) c) as [X|]; [|left; reflexivity].
      cbn in X. subst c1. right. cbn [option_map] in *. constructor. symmetry. exact En.
  - injection H as <- <-. left. reflexivity.
  - injection H as <- <-. left. reflexivity.
Qed.

(* ---- one object of a node ---- *)
Section N.
Variable le : bool.
Variable net : post -> bool.

Lemma data_tid : forall t n oc c, node_data (n_with_tid t n) oc c = node_data n oc c.
Proof. reflexivity. Qed.

Lemma op_data : forall f n code n' ps, ninv n ->
  (forall o o' a, uecho_node_getobjectbycode n code = Some o -> oinv o -> f o = Ok (o', a) -> uecho_object_getcode o' = uecho_object_getcode o) ->
  node_object_op le net f n code = Ok (n', ps) ->
  (forall oc c, node_data n' oc c = node_data n oc c)
  \/ exists o o' a, uecho_node_getobjectbycode n code = Some o /\ oinv o /\ f o = Ok (o', a)
     /\ (forall oc c, node_data n' oc c = if oc =? code then odat o' c else node_data n oc c).
Proof.
  intros f n code n' ps N Hf H. unfold node_object_op in H. destruct (uecho_node_getobjectbycode n code) as [o|] eqn:G.
  2: { injection H as <- _. left. reflexivity. }
  apply bind_ok in H. destruct H as ([o' a] & F & H). apply node_emit_shape in H. destruct (ninv_get _ _ _ N G) as [Ho Ec].
  right. exists o, o', a. split; [reflexivity|]. split; [exact Ho|]. split; [exact F|]. intros oc c. rewrite H, data_tid.
  unfold node_data, uecho_node_getobjectbycode. cbn [n_objs n_with_objs].
  rewrite put_obj_get by (rewrite (Hf o o' a eq_refl Ho F); exact Ec).
  unfold uecho_node_getobjectbycode in G. rewrite G. destruct (oc =? code); reflexivity.
Qed.

Lemma node_data_get : forall n oc o c, uecho_node_getobjectbycode n oc = Some o -> node_data n oc c = odat o c.
Proof. intros n oc o c G. unfold node_data. rewrite G. reflexivity. Qed.

Lemma setman_data : forall codes n code n' ps oc c, ninv n -> setmanufacturer_all le net n codes code = Ok (n', ps) -> ~ map_epc c ->
  node_data n' oc c = node_data n oc c \/ (c = 138 /\ node_data n' oc c = Some (be3 code)).
Proof.
  induction codes as [|x codes IH]; intros n code n' ps oc c N H Hc; cbn [setmanufacturer_all] in H; [injection H as <- _; left; reflexivity|].
  apply bind_ok in H. destruct H as ([n1 p1] & H1 & H). apply bind_ok in H. destruct H as ([n2 p2] & H2 & H).
  cbn [fst snd] in *. injection H as <- _.
  assert (F : forall o o' a, uecho_node_getobjectbycode n x = Some o -> oinv o ->
      uecho_object_setmanufacturercode o code = Ok (o', a) -> oinv o' /\ keeps o o' /\ Forall ann_ok a)
    by (intros; eapply setman_ann; eauto).
  assert (N1 : ninv n1).
  { apply (object_op_ok le net (fun o => uecho_object_setmanufacturercode o code)) in H1; [|assumption|assumption]. apply (proj1 H1). }
  assert (X : node_data n1 oc c = node_data n oc c \/ (c = 138 /\ node_data n1 oc c = Some (be3 code))).
  { destruct (op_data (fun o => uecho_object_setmanufacturercode o code) n x n1 p1 N) as [E|(o & o' & a & G & Ho & Fo & E)]; [|exact H1|left; apply E|].
    - intros o o' a G Ho Fo. destruct (F o o' a G Ho Fo) as (_ & K & _). apply keeps_eoj in K.
      unfold eoj_of in K. injection K as K1 K2 K3. unfold uecho_object_getcode. rewrite K1, K2, K3. reflexivity.
    - rewrite E. destruct (Z.eqb_spec oc x) as [->|]; [|left; reflexivity].
      destruct (odo_data (KSetInt 138 code 3) o o' a n x c Ho) as [D|D]; [cbn [ocall_ok]; unfold epc_code; lia|exact Fo|exact Hc|symmetry; apply node_data_get; exact G| |].
      + left. rewrite D. symmetry. apply node_data_get. exact G.
      + right. inversion D; subst. split; [reflexivity|]. cbn. unfold be3, msb_bytes. cbn. do 2 f_equal. rewrite Z.div_1_r. reflexivity. }
  destruct (IH n1 code n2 p2 oc c N1 H2 Hc) as [Y|Y]; [|right; exact Y]. rewrite Y. exact X.
Qed.

Lemma with_instances_odat : forall es o c, ~ (211 <= c <= 215) -> odat (with_instances es o) c = odat o c.
Proof.
  intros es o c Hc. unfold odat. rewrite with_instances_find.
  assert (E : List.find (fun kv => fst kv =? c) (prof_kvs (node_classes es) es) = None).
  { unfold prof_kvs. cbn [List.find fst]. repeat (match goal with |- context [?k =? c] => destruct (Z.eqb_spec k c); [lia|] end). reflexivity. }
  rewrite E. reflexivity.
Qed.

Lemma add_data : forall n o n' ps r oc c, ninv n -> winv o -> codes_byte o ->
  uecho_node_addobject le net n o = Ok (n', ps, r) -> ~ (oc = 978945 /\ 211 <= c <= 215) ->
  node_data n' oc c = node_data n oc c
  \/ (uecho_object_getcode o = oc /\ uecho_node_getobjectbycode n oc = None /\ node_data n' oc c = odat o c).
Proof.
  intros n o n' ps r oc c N W B H Hc. apply addobject_ok in H; [|assumption..]. destruct H as [_ H].
  destruct (uecho_node_getobjectbycode n (uecho_object_getcode o)) as [x|] eqn:G; [destruct H as (-> & _); left; reflexivity|].
  assert (A : node_data (appended o n) oc c = node_data n oc c
    \/ (uecho_object_getcode o = oc /\ uecho_node_getobjectbycode n oc = None /\ node_data (appended o n) oc c = odat o c)).
  { unfold node_data, uecho_node_getobjectbycode at 1 4. cbn [appended n_objs n_with_classes n_with_objs]. rewrite oget_app.
    fold (uecho_node_getobjectbycode n oc). destruct (uecho_node_getobjectbycode n oc) as [y|] eqn:G'; [left; reflexivity|].
    cbn [uecho_objectlist_getbycode]. change (uecho_object_getcode (uecho_object_attach o)) with (uecho_object_getcode o).
    destruct (Z.eqb_spec (uecho_object_getcode o) oc) as [E|]; [|left; reflexivity].
    right. split; [exact E|]. split; reflexivity. }
  destruct (profile (appended o n)) as [p|] eqn:Ep; [|destruct H as (-> & _); exact A].
  destruct H as (_ & E & _).
  assert (X : node_data n' oc c = node_data (appended o n) oc c).
  { pose proof (getbycode_in _ _ _ Ep) as [_ Ec]. unfold node_data at 1, uecho_node_getobjectbycode at 1.
    rewrite E, put_obj_get by exact Ec. unfold profile in Ep. change uEchoNodeProfileObject with 978945 in Ep.
    destruct (Z.eqb_spec oc 978945) as [->|]; [|reflexivity].
    rewrite (node_data_get _ _ _ c Ep). unfold uecho_node_getobjectbycode in Ep. rewrite Ep. apply with_instances_odat. lia. }
  rewrite X. exact A.
Qed.

Lemma write_in : forall o ps segs m c, write_all m ps (verdicts o ps segs) c = m c
  \/ exists d, In (c, d) ps /\ uecho_object_getproperty o c <> None /\ write_all m ps (verdicts o ps segs) c = Some d.
Proof.
  intros o. induction ps as [|[x d] ps IH]; intros [|g segs] m c; try (left; reflexivity).
  change (verdicts o ((x, d) :: ps) (g :: segs)) with (verdict o (x, d) g :: verdicts o ps segs). cbn [write_all fst snd].
  destruct (IH segs (if verdict o (x, d) g then dset m x d else m) c) as [E|(d' & I & P & E)];
    [|right; exists d'; split; [right; exact I|split; [exact P|exact E]]].
  rewrite E. destruct (verdict o (x, d) g) eqn:V; [|left; reflexivity]. unfold dset. destruct (Z.eqb_spec c x) as [->|]; [|left; reflexivity].
  right. exists d. split; [left; reflexivity|]. split; [|reflexivity]. unfold verdict in V. cbn [fst] in V. intros X. rewrite X in V. discriminate.
Qed.

Lemma receive_data : forall dec n data la ra r oc c, api_node le net std_db n -> buffer data ->
  node_receive le net dec n data la ra = Ok r ->
  node_data (r_node r) oc c = node_data n oc c \/ puts n oc c (NReceive data la ra dec) (node_data (r_node r) oc c).
Proof.
  intros dec n data la ra r oc c Hn Hb H. destruct (api_node_ok _ _ _ _ std_db_ok Hn) as [N M].
  destruct (dec_frame data) as [[f rest]|] eqn:E.
  2: { destruct (receive_ignored le net dec n data la ra N M Hb) as [t T]; [intros f rest X; congruence|].
       rewrite H in T. injection T as ->. left. reflexivity. }
  assert (E' : dec_frame data = Some (f, rest)) by exact E.
  apply dec_frame_iff in E'; [|apply Hb]. destruct E' as [Hf E'].
  destruct (uecho_node_getobjectbycode n (dest f)) as [o|] eqn:G.
  2: { destruct (receive_ignored le net dec n data la ra N M Hb) as [t T]; [intros g rest' X|].
       - rewrite E in X. injection X as <- <-. right. exact G.
       - rewrite H in T. injection T as ->. left. reflexivity. }
  destruct (uecho_esv_isrequest (f_esv f)) eqn:Q.
  2: { destruct (receive_ignored le net dec n data la ra N M Hb) as [t T]; [intros g rest' X|].
       - rewrite E in X. injection X as <- <-. left. rewrite <- request_isrequest. congruence.
       - rewrite H in T. injection T as ->. left. reflexivity. }
  pose proof Q as Qi. apply request_isrequest in Q.
  subst data. assert (R : receives le net dec n f rest la ra r) by (split; [exact Hn|split; [exact Hf|split; [exact Hb|exact H]]]).
  destruct (request_effects _ _ _ _ _ _ _ _ _ _ R G Q) as (_ & ns & b & all & EF & _ & X).
  destruct (Z.eq_dec oc (dest f)) as [->|Ho]; [|left; apply (ef_others _ _ _ _ _ _ _ _ _ _ EF); exact Ho].
  assert (K : forall ps segs, (forall x, In x ps -> In x (written f)) -> node_data (r_node r) (dest f) c = write_all (node_data n (dest f)) ps (verdicts o ps segs) c ->
     node_data (r_node r) (dest f) c = node_data n (dest f) c
     \/ puts n (dest f) c (NReceive (enc_frame f ++ rest) la ra dec) (node_data (r_node r) (dest f) c)).
  { intros ps segs W Ed. rewrite Ed. destruct (write_in o ps segs (node_data n (dest f)) c) as [D|(d & I & P & D)]; [left; exact D|].
    right. rewrite D. constructor; [exact Hf|reflexivity|apply W; exact I|]. rewrite (node_data_get _ _ _ c G). unfold odat.
    destruct (uecho_object_getproperty o c); [discriminate|contradiction]. }
  unfold written in K. destruct (f_body f) as [ps|s g] eqn:Eb.
  - destruct X as (segs & _ & _ & D & _). specialize (D c). destruct (write_esv (f_esv f)) eqn:We; [|left; exact D].
    apply (K ps segs); [auto|exact D].
  - assert (Es : f_esv f = 110).
    { apply isreq_two; [exact Qi|]. destruct Hf as (_ & _ & _ & _ & _ & Hbd). rewrite Eb in Hbd. apply (body_two _ _ Hbd). }
    rewrite Es in K. destruct X as (segs1 & segs2 & _ & _ & _ & D & _).
    apply (K s segs1); [auto|exact (D c)].
Qed.

Lemma step_puts : forall n x n' own ans oc c, api_node le net std_db n -> nop_ok le std_db x ->
  nstep le net std_db n x = Ok (n', own, ans) -> ~ computed oc c ->
  node_data n' oc c = node_data n oc c \/ puts n oc c x (node_data n' oc c).
Proof.
  intros n x n' own ans oc c Hn Hx H Hc. unfold computed in Hc. destruct (api_node_ok _ _ _ _ std_db_ok Hn) as [N M].
  assert (Hm : ~ map_epc c) by tauto. assert (Hp : ~ (oc = 978945 /\ 211 <= c <= 215)) by tauto. clear Hc.
  destruct x as [o|code junk|code k|code| |m|d m|data la ra dec|b|a|]; cbn [nstep nop_ok] in *.
  - apply bind_ok in H. destruct H as ([[n1 p1] r1] & E & H). injection H as <- _ _.
    destruct (api_winv _ _ std_db_ok Hx) as [W B].
    destruct (add_data _ _ _ _ _ oc c N W B E Hp) as [D|(D1 & D2 & D3)]; [left; exact D|].
    right. rewrite D3. constructor; assumption.
  - apply bind_ok in H. destruct H as ([[n1 p1] r1] & E & H). injection H as <- _ _. unfold uecho_node_setobject in E.
    destruct (uecho_node_getobjectbycode n code); [injection E as <- _ _; left; reflexivity|].
    apply bind_ok in E. destruct E as ([o a] & E0 & E). cbn [fst] in E.
    assert (Ao : api_obj std_db o) by (eapply ao_setcode; [constructor|exact Hx|exact E0]).
    destruct (api_winv _ _ std_db_ok Ao) as [W B].
    destruct (add_data _ _ _ _ _ oc c N W B E Hp) as [D|(D1 & D2 & D3)]; [left; exact D|].
    destruct (C08_object_setcode _ _ _ _ _ (ao_new std_db) Hx E0) as [Cd _].
    destruct (odat o c) as [d|] eqn:Ed.
    + right. rewrite D3. assert (d = []) as -> by (eapply setcode_empty; [exact Hx|exact E0|exact Hm|exact Ed]).
      constructor; [rewrite <- Cd; exact D1|exact D2].
    + left. rewrite D3. unfold node_data. rewrite D2. reflexivity.
  - apply bind_ok in H. destruct H as ([n1 p1] & E & H). cbn [fst snd] in H. injection H as <- _ _.
    destruct (op_data (odo k) n code n1 p1 N) as [D|(o & o' & a & G & Ho & F & D)]; [|exact E|left; apply D|].
    + intros o o' a G Ho F. destruct (odo_ok k o o' a Ho Hx F) as (_ & K & _). exact (keeps_code _ _ K).
    + rewrite D. destruct (Z.eqb_spec oc code) as [->|]; [|left; reflexivity].
      pose proof (node_data_get _ _ _ c G) as Eg. rewrite Eg.
      eapply odo_data; [exact Ho|exact Hx|exact F|exact Hm|symmetry; exact Eg].
  - apply bind_ok in H. destruct H as ([n1 p1] & E & H). cbn [fst snd] in H. injection H as <- _ _.
    destruct (setman_data _ _ _ _ _ oc c N E Hm) as [D|[D1 D2]]; [left; exact D|]. right. rewrite D2. constructor. exact D1.
  - apply bind_ok in H. destruct H as ([[n1 p1] r1] & E & H). injection H as <- _ _. left. unfold uecho_node_announce in E.
    destruct (uecho_node_getobjectbycode n uEchoNodeProfileObject) as [p|]; [|injection E as <- _ _; reflexivity].
    destruct (uecho_object_getproperty p EPC_InstanceListNotification) as [q|]; [|injection E as <- _ _; reflexivity].
    apply bind_ok in E. destruct E as (s & E & E2).
    apply (f_equal (fun x => match x with Ok (a, b, _) => a | _ => n end)) in E2. cbv iota in E2. rewrite <- E2.
    rewrite (announceproperty_shape _ _ _ _ _ _ E). apply data_tid.
  - apply bind_ok in H. destruct H as (s & E & H). injection H as <- _ _. left. rewrite (announcemessage_shape _ _ _ _ _ E). apply data_tid.
  - apply bind_ok in H. destruct H as (s & E & H). injection H as <- _ _. left. rewrite (sendmessage_shape _ _ _ _ _ _ E). apply data_tid.
  - apply bind_ok in H. destruct H as (r & E & H). injection H as <- _ _. eapply receive_data; eauto.
  - injection H as <- _ _. left. reflexivity.
  - injection H as <- _ _. left. reflexivity.
  - injection H as <- _ _. right. unfold node_data. cbn. constructor.
Qed.
End N.
