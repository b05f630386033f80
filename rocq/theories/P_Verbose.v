(* Lemmas about uechosearch -v. *)
From Coq Require Import String ZArith List Bool Lia ZifyBool ZifyNat.
From Verif Require Import CSem M_Const M_Misc M_Property M_Message M_PropertyList M_Object M_Node M_NodeListener M_Controller M_Query M_PostTool M_ShowTool M_Verbose
  StdDB_Data M_Std Spec_Frame Spec_Message Spec_Map Spec_Object Spec_Node Spec_Request Spec_Controller Spec_ShowTool Spec_Verbose Run_Object Run_Node
  Run_Controller P_Base P_Misc P_Message P_Encode P_MsgApi P_PropertyList P_Object P_ObjectRun P_ObjectReach P_Std P_Node
  P_Request Properties_Object P_NodeReach P_NodeProfile P_NodeInv P_NodeRun P_NodeProps P_RequestProps P_RequestApi P_NodeSafe
  P_Shadow P_Controller P_ControllerProps Properties_Message Properties_Node Properties_Request Properties_Controller P_EndToEnd
  Properties_EndToEnd Properties_System Properties_Query Spec_CtrlBound P_CtrlSafe P_CtrlBound Properties_CtrlBound P_Owned P_ShowTool.
From Verif Require P_Post Properties_PostTool Properties_ShowTool.
Import ListNotations.
Open Scope Z_scope.
Ltac Zify.zify_post_hook ::= Z.div_mod_to_equations.

(* ---- the response ---- *)
(* the message shows the values of the frame *)
Definition filled (m : msg) (f : frame) : Prop :=
  match f_body f with
  | Plain ps => uecho_message_getopc m = Z.of_nat (length ps) /\ shows_props (uecho_message_getproperty m) ps
  | SetGetBody _ _ => uecho_message_getopc m = 0
  end.

Lemma set_filled : forall le r f la ra, msg_ok r -> frame_ok f ->
  exists m', uecho_message_set le r (req_of f la ra) = Ok m' /\ filled m' f.
Proof.
  intros le r f la ra Hr Hf. pose proof (req_ok f la ra Hf) as Hm. pose proof (req_shows le f la ra Hf) as Sh. unfold filled.
  destruct (f_body f) as [ps|ss gs] eqn:Eb.
  - destruct (set_shows le r (req_of f la ra) f Hr Hm Sh Hf) as (m' & E & S & _).
    + apply req_short. exact Hf.
    + exists ps. exact Eb.
    + exists m'. split; [exact E|]. destruct S as (_ & _ & _ & _ & S). rewrite Eb in S. exact S.
  - destruct (message_set_spec le r (req_of f la ra) Hr Hm) as (v & E & Ev & Hv). eexists. split; [exact E|].
    unfold uecho_message_getopc. cbn [m_p].
    assert (P : m_p (req_of f la ra) = pv_empty).
    { rewrite req_fields. unfold msg_of_frame. rewrite Eb. reflexivity. }
    rewrite P in Ev. change (stored pv_empty) with (@nil prop) in Ev. cbn [map] in Ev. destruct Hv as [_ Hv]. unfold stored in Ev.
    destruct (pv_ep v) as [l|]; [|exact Hv]. destruct Hv as (_ & Hv & _). contradiction.
Qed.

Lemma listener_signal : forall le snet db fr c m y, uecho_controller_servermessagelistener le snet db fr c m = Ok y ->
  exists c1, (if uecho_controller_ispostresponsewaiting c then uecho_controller_handlepostresponse le c m else Ok (c, false)) = Ok (c1, cr_signal y)
  /\ c_res (cr_ctrl y) = c_res c1.
Proof.
  intros le snet db fr c m y H. unfold uecho_controller_servermessagelistener in H. apply bind_ok in H. destruct H as ([c1 sg] & E & H).
  exists c1. apply bind_ok in H. destruct H as (s & _ & H). destruct s.
  - apply bind_ok in H. destruct H as (z & Z0 & H). injection H as <-. cbn [cr_ctrl cr_signal]. split; [exact E|].
    unfold uecho_controller_handlesearchmessage in Z0. apply bind_ok in Z0. destruct Z0 as (o & _ & Z0). destruct o as [p|]; [|injection Z0 as <-; reflexivity].
    destruct (uecho_property_getdatasize p <? 1); [injection Z0 as <-; reflexivity|]. destruct (m_from m) as [a|]; [|injection Z0 as <-; reflexivity].
    destruct (uecho_controller_getnodebyaddress c1 (Some a)) as [n|].
    + apply bind_ok in Z0. destruct Z0 as ([n' u] & L & Z0). injection Z0 as <-. reflexivity.
    + apply bind_ok in Z0. destruct Z0 as ([n0 ps] & Nn & Z0). apply bind_ok in Z0. destruct Z0 as ([n' u] & L & Z0). injection Z0 as <-. reflexivity.
  - apply bind_ok in H. destruct H as (dc & _ & H). destruct (uecho_node_getobjectbycode (c_node c1) dc); [|injection H as <-; split; [exact E|reflexivity]].
    destruct (uecho_controller_getnodebyaddress c1 (m_from m)) as [n|]; [|injection H as <-; split; [exact E|reflexivity]].
    apply bind_ok in H. destruct H as (z & Z0 & H). injection H as <-. cbn [cr_ctrl cr_signal]. split; [exact E|].
    unfold uecho_controller_handlenodemessage in Z0. apply bind_ok in Z0. destruct Z0 as ([n' u] & L & Z0). injection Z0 as <-. reflexivity.
Qed.

(* ---- what stays ---- *)
Section V.
Variable le : bool.
Variable net snet : post -> bool.

Definition vinv (c : ctrl) : Prop :=
  api_ctrl le net snet std_db c /\ Properties_CtrlBound.winv c /\ has_object (c_node c) 978945 /\ cowned c.

Lemma same_seen : forall n n' oc o o' m, uecho_node_getobjectbycode n oc = Some o -> NoDup (map uecho_object_getcode (n_objs n)) ->
  took n n' oc o o' m -> same_shape o o' ->
  map (fun o => (uecho_object_getcode o, map (fun p => (p_code p, uecho_property_isreadrequired p)) (o_props o))) (n_objs n')
  = map (fun o => (uecho_object_getcode o, map (fun p => (p_code p, uecho_property_isreadrequired p)) (o_props o))) (n_objs n).
Proof.
  intros n n' oc o o' m G Nd T [[S1 [S2 [S3 _]]] S]. rewrite (tk_node _ _ _ _ _ _ T). cbn [n_objs n_with_tid n_with_objs].
  unfold uecho_node_getobjectbycode in G. revert G. generalize (n_objs n) as l. clear - S1 S2 S3 S.
  induction l as [|x l IH]; intros G; cbn [uecho_objectlist_getbycode put_obj] in *; [discriminate|].
  destruct (uecho_object_getcode x =? oc).
  - injection G as ->. cbn [map]. f_equal. f_equal; [unfold uecho_object_getcode; rewrite S1, S2, S3; reflexivity|].
    assert (X : forall l l', map shape l' = map shape l ->
       map (fun p => (p_code p, uecho_property_isreadrequired p)) l' = map (fun p => (p_code p, uecho_property_isreadrequired p)) l).
    { clear. induction l as [|p l IH]; intros [|q l'] E; cbn [map] in E; try discriminate; [reflexivity|].
      apply (f_equal (fun z => match z with a :: r => (a, r) | [] => ((0, 0, true), []) end)) in E. cbv iota in E. injection E as E1 E2 _ E3.
      cbn [map]. rewrite (IH _ E3). unfold uecho_property_isreadrequired. rewrite E1, E2. reflexivity. }
    apply X. exact S.
  - cbn [map]. f_equal. apply IH. exact G.
Qed.

Lemma learn_known : forall l k, (forall e, In e l -> existsb (eoj_eqb e) k = true) -> learn k l = k.
Proof.
  induction l as [|e l IH]; intros k H; [reflexivity|]. rewrite learn_cons. unfold add_eoj. rewrite (H e (or_introl eq_refl)).
  apply IH. intros e' I. apply H. right. exact I.
Qed.
Lemma no_object : forall n code, uecho_node_getobjectbycode n code = None -> forall o, In o (n_objs n) -> uecho_object_getcode o <> code.
Proof.
  intros n code. unfold uecho_node_getobjectbycode. induction (n_objs n) as [|x l IH]; intros E o I; [destruct I|]. cbn [uecho_objectlist_getbycode] in E.
  destruct (Z.eqb_spec (uecho_object_getcode x) code); [discriminate|]. destruct I as [<-|I]; [assumption|exact (IH E o I)].
Qed.

Lemma receive_quiet : forall c x, vinv c -> arrival_ok x -> quiet (seen c) x ->
  exists o y, ctrl_receive le net snet std_db (ar_dec x) (ar_fr x) c (ar_data x) (ar_local x) (Some (ar_from x)) = Ok (o, y)
  /\ vinv (cr_ctrl y) /\ seen (cr_ctrl y) = seen c /\ c_req (cr_ctrl y) = c_req c
  /\ forall q r, c_req c = MMsg q -> c_res c = MMsg r -> m_esv q = 98 -> msg_ok q ->
       (exists m f, cr_signal y = true /\ c_res (cr_ctrl y) = MMsg m /\ answer [x] (m_tid q) f /\ filled m f)
       \/ (cr_signal y = false /\ c_res (cr_ctrl y) = MMsg r /\ forall f, ~ answer [x] (m_tid q) f).
Proof.
  intros c x (A & W & P & O) Hx Q.
  destruct (watch_step le net snet c (arrives x) W ltac:(destruct Hx as (X1 & X2 & X3 & X4); cbn; auto)) as (Ok1 & out & E & W').
  cbn [arrives cstep] in E. apply bind_ok in E. destruct E as ([o y] & E & Eo). injection Eo as <-. cbn [co_ctrl] in W'.
  exists o, y. split; [exact E|].
  pose proof W as (Hc & _ & _ & _). pose proof (winv_mem _ W) as M. destruct Hx as (Hb & Hfr & _).
  assert (A' : api_ctrl le net snet std_db (cr_ctrl y)).
  { match goal with |- api_ctrl _ _ _ _ ?k =>
      change k with (co_ctrl (mkOut k (match o with Some r => r_anns r | None => [] end) (match o with Some r => r_answer r | None => [] end) (cr_told y))) end.
    eapply (capi_step le net snet std_db c (arrives x)); [exact A|exact M|exact (winv_mem _ W')|exact Ok1|].
    cbn [arrives cstep]. rewrite E. reflexivity. }
  assert (O' : cowned (cr_ctrl y)) by (eapply owned_ctrl_receive; [exact Hc|apply M|exact Hb|exact Hfr|exact E|exact O]).
  pose proof E as E0. apply ctrl_receive_spec in E; [|exact Hc|apply M|exact Hb|exact Hfr].
  destruct (dec_frame (ar_data x)) as [[f rest]|] eqn:D.
  - destruct E as (x1 & y' & E & Hf & Ed & R & _ & L). injection E as -> ->.
    assert (H : hears le net snet std_db (ar_dec x) (ar_fr x) c f rest (ar_local x) (ar_from x) x1 y').
    { split; [exact A|]. split; [exact Hf|]. rewrite <- Ed. split; [exact Hb|]. split; [exact Hfr|exact E0]. }
    destruct (hears_spec _ _ _ _ std_db_ok _ _ _ _ _ _ _ _ _ H) as (_ & _ & _ & N1 & Eo & Ec & Hh & Hc').
    destruct (Q f rest Hf Ed) as [Q1 Q2].
    split; [|split; [|split]].
    + split; [exact A'|]. split; [exact W'|]. split; [|exact O']. rewrite Ec. unfold has_object in *. intros X. apply P. apply Eo. exact X.
    + pose proof Hc as (_ & Sh & _).
      inversion Hh as [I1 I2 El Et|z' r' a' n0 n' Sd Ef B Nn S El Et|z' r' a' n n' Sd Ef B S El Et
                  |a' n Sd Ef G B U El Et|a' n n' o o' u Sd Ef G B U Go T Hk1 Hk Hu El Et]; cbn [c_with_node c_nodes] in *.
      * unfold seen. congruence.
      * apply search_data_iff in Sd. injection Ef as <-. destruct (Q1 _ _ Sd) as (os & Io & _). apply in_map_iff in Io. destruct Io as (n2 & E2 & I2).
        injection E2 as E2 _. rewrite (Properties_ShowTool.byaddress_in _ n2 _ (proj1 (proj2 (proj2 Hc))) I2 E2) in B. discriminate.
      * apply search_data_iff in Sd. injection Ef as <-. destruct (Q1 _ _ Sd) as (os & Io & Ks). apply in_map_iff in Io. destruct Io as (n2 & E2 & I2).
        injection E2 as E2 E3. rewrite (Properties_ShowTool.byaddress_in _ n2 _ (proj1 (proj2 (proj2 Hc))) I2 E2) in B. injection B as ->.
        assert (Sn : shadow n) by (rewrite Forall_forall in Sh; apply Sh; exact I2).
        assert (n' = n). { apply (sr_same _ _ _ _ S). rewrite (sr_eojs _ _ _ _ S). apply learn_known. intros e Ie. rewrite known_iff by apply Sn.
          specialize (Ks e Ie). rewrite <- E3, map_map in Ks. apply in_map_iff in Ks. destruct Ks as (o & Eo1 & Io). cbn [fst] in Eo1.
          destruct (uecho_node_getobjectbycode n (eoj_code e)) eqn:Go; [reflexivity|]. destruct (no_object _ _ Go o Io Eo1). }
        subst n'. unfold seen. symmetry. rewrite <- El. symmetry. eapply put_node_map; [|reflexivity].
        exact (Properties_ShowTool.byaddress_in _ n _ (proj1 (proj2 (proj2 Hc))) I2 E2).
      * unfold seen. congruence.
      * injection Ef as <-. pose proof (byaddress_some _ _ _ B) as [In1 Ea].
        assert (Sn : shadow n) by (rewrite Forall_forall in Sh; apply Sh; exact In1).
        destruct (took_shadow _ _ _ _ _ _ Sn Go T) as (_ & K2 & _).
        destruct Hk as [_ Hk].
        { intros e Ie Hn. pose proof (ninv_get _ _ _ (proj1 Sn) Go) as [_ Hco].
          assert (J : In (fst e) (map fst (map (fun p => (p_code p, uecho_property_isreadrequired p)) (o_props o)))).
          { eapply (Q2 U); [apply in_map_iff; exists n; split; [rewrite Ea; reflexivity|exact In1]| |exact Ie].
            apply in_map_iff. exists o. split; [rewrite Hco; reflexivity|]. apply P_Node.getbycode_in in Go. apply Go. }
          rewrite map_map in J. unfold odata, uecho_object_getproperty in Hn.
          destruct (uecho_propertylist_findbycode (o_props o) (fst e)) eqn:Fn; [discriminate|]. apply P_PropertyList.find_none in Fn. exact (Fn J). }
        unfold seen. symmetry. rewrite <- El. symmetry. eapply put_node_map; [exact B|].
        rewrite K2. f_equal. eapply same_seen; [exact Go|apply (proj1 Sn)|exact T|exact Hk].
    + rewrite Ec. reflexivity.
    + intros q r Eq Er Ev Hq. destruct (listener_signal _ _ _ _ _ _ _ L) as (c1 & E1 & E2).
      cbn [c_with_node c_req c_res] in E1. unfold uecho_controller_ispostresponsewaiting, uecho_controller_handlepostresponse, uecho_controller_ispostresponsemessage in E1.
      cbn [c_with_node c_req c_res] in E1. rewrite Eq, Er in E1. cbn [mptr_set andb bind] in E1.
      pose proof (req_parts f (ar_local x) (Some (ar_from x))) as Rp. cbv zeta in Rp.
      pose proof (req_ok f (ar_local x) (Some (ar_from x)) Hf) as Hm.
      assert (Tm : m_tid (req_of f (ar_local x) (Some (ar_from x))) = f_tid f) by (apply (req_shows le f (ar_local x) (Some (ar_from x)) Hf)).
      assert (Em : m_esv (req_of f (ar_local x) (Some (ar_from x))) = f_esv f) by (apply (req_shows le f (ar_local x) (Some (ar_from x)) Hf)).
      destruct (uecho_message_isresponsemessage le q (req_of f (ar_local x) (Some (ar_from x)))) eqn:Is; cbn [negb] in E1.
      * apply P_Post.isresponse_answers in Is; [|exact Hq|exact Hm]. destruct Is as [T1 T2].
        assert (Hr : msg_ok r) by (destruct Hc as (_ & _ & _ & _ & Hr); rewrite Er in Hr; exact Hr).
        destruct (set_filled le r f (ar_local x) (Some (ar_from x)) Hr Hf) as (m & Es & Fl). rewrite Es in E1. cbn [bind] in E1. injection E1 as <- E1.
        left. exists m, f. split; [symmetry; exact E1|]. split; [exact E2|]. split; [|exact Fl].
        exists x, rest. split; [left; reflexivity|]. split; [exact Ed|]. split; [exact Hf|]. split; congruence.
      * injection E1 as <- E1. right. split; [symmetry; exact E1|]. split; [cbn [c_with_node c_res] in E2; congruence|].
        intros g (x2 & rest2 & [<-|[]] & Ed2 & Hg & T1 & T2).
        assert (g = f). { rewrite Ed2 in D, Hb. rewrite dec_enc in D by assumption. congruence. } subst g.
        assert (X : uecho_message_isresponsemessage le q (req_of f (ar_local x) (Some (ar_from x))) = true) by (apply P_Post.answers_isresponse; [exact Hq|exact Hm|split; congruence]).
        congruence.
  - injection E as -> ->. cbn [cr_ctrl cr_signal]. split; [split; [exact A|]; split; [exact W|]; split; [exact P|exact O]|].
    split; [reflexivity|]. split; [reflexivity|]. intros q r Eq Er _ _. right. split; [reflexivity|]. split; [exact Er|].
    intros f (x1 & rest & [<-|[]] & Ed & Hf & _). rewrite Ed in D, Hb. rewrite dec_enc in D by assumption. discriminate.
Qed.

(* ---- the request ---- *)
Lemma read_message : forall e epc, eoj_ok e -> is_byte epc ->
  exists q, create_readpropertymessagebycode (eoj_code e) epc = Ok q
  /\ prepared le q (mkFrame (0, 0) (0, 0, 0) e 98 (Plain [(epc, [])])) /\ m_esv q = 98.
Proof.
  intros [[a b] c] epc Ho Bp. unfold create_readpropertymessagebycode.
  destruct (uecho_message_setdestinationobjectcode (eoj_code (a, b, c)) (uecho_message_setesv ESV_Get uecho_message_new)) as [m0|] eqn:E0; [|rewrite setdst_eq in E0; discriminate].
  assert (A0 : api_msg le m0) by (apply (am_setdst le (uecho_message_setesv ESV_Get uecho_message_new) (eoj_code (a, b, c))); [apply am_setesv; [apply am_new|split; vm_compute; congruence]|exact E0]).
  rewrite setdst_eq in E0. pose proof (Properties_PostTool.eoj_bytes a b c Ho) as Eb. cbv zeta in Eb. rewrite Eb in E0. clear Eb. injection E0 as <-.
  cbn [bind].
  set (m0 := with_deoj [a; b; c] (uecho_message_setesv ESV_Get uecho_message_new)) in *.
  assert (E : uecho_message_setproperty epc [] m0 = Ok (with_p (pv_of [(epc, [])]) m0)) by reflexivity.
  assert (A : api_msg le (with_p (pv_of [(epc, [])]) m0)) by (eapply am_setprop; [exact A0|exact Bp|constructor|exact E]).
  rewrite E. eexists. split; [reflexivity|]. split; [|reflexivity].
  destruct (api_inv_holds _ _ A) as [Mm _].
  assert (Fm : frame_of (with_p (pv_of [(epc, [])]) m0) = mkFrame (0, 0) (0, 0, 0) (a, b, c) 98 (Plain [(epc, [])])) by reflexivity.
  split; [exact A|]. split; [unfold in_memory; cbn; lia|]. split; [unfold pdc_fits; cbn; constructor; [cbn; lia|constructor]|].
  rewrite <- Fm. split; [apply shows_frame_of; exact Mm|]. apply frame_of_ok; [exact Mm|]. unfold short_msg. cbn. constructor; [cbn; lia|constructor].
Qed.

Lemma answer_cons : forall x w t f, answer (x :: w) t f <-> answer [x] t f \/ answer w t f.
Proof.
  intros x w t f. unfold answer. split.
  - intros (y & rest & [<-|I] & R); [left; exists x, rest; split; [left; reflexivity|exact R]|right; exists y, rest; auto].
  - intros [(y & rest & [<-|[]] & R)|(y & rest & I & R)]; [exists x, rest; split; [left; reflexivity|exact R]|exists y, rest; split; [right; exact I|exact R]].
Qed.
Lemma answer_nil : forall t f, ~ answer [] t f.
Proof. intros t f (x & r & [] & _). Qed.

Lemma wait_quiet : forall w c, vinv c -> Forall arrival_ok w -> Forall (quiet (seen c)) w ->
  exists c' sg, vwait le net snet std_db c w = Ok (c', sg) /\ vinv c' /\ seen c' = seen c /\ c_req c' = c_req c
  /\ forall q r, c_req c = MMsg q -> c_res c = MMsg r -> m_esv q = 98 -> msg_ok q ->
       exists m, c_res c' = MMsg m
       /\ ((sg = true /\ exists f, answer w (m_tid q) f /\ filled m f) \/ (sg = false /\ m = r /\ forall f, ~ answer w (m_tid q) f)).
Proof.
  induction w as [|x w IH]; intros c V A Q.
  - exists c, false. split; [reflexivity|]. split; [exact V|]. split; [reflexivity|]. split; [reflexivity|].
    intros q r _ Er _ _. exists r. split; [exact Er|]. right. split; [reflexivity|]. split; [reflexivity|]. intros f. apply answer_nil.
  - inversion A as [|? ? Ax A']; subst. inversion Q as [|? ? Qx Q']; subst.
    destruct (receive_quiet c x V Ax Qx) as (o & y & E & V1 & S1 & R1 & K1).
    destruct (IH (cr_ctrl y) V1 A') as (c' & sg & E2 & V2 & S2 & R2 & K2); [rewrite S1; exact Q'|].
    exists c', (cr_signal y || sg). split; [cbn [vwait]; rewrite E; cbn [bind snd]; rewrite E2; reflexivity|].
    split; [exact V2|]. split; [congruence|]. split; [congruence|].
    intros q r Eq Er Ev Hq. destruct (K1 q r Eq Er Ev Hq) as [(m1 & f1 & Sg & Er1 & An & Fl)|(Sg & Er1 & No)].
    + destruct (K2 q m1) as (m & Em & [(Sg2 & f & Af & Ff)|(Sg2 & -> & No)]); [congruence|exact Er1|exact Ev|exact Hq| |].
      * exists m. split; [exact Em|]. left. split; [rewrite Sg2; apply orb_true_r|]. exists f. split; [apply answer_cons; right; exact Af|exact Ff].
      * exists m1. split; [exact Em|]. left. split; [rewrite Sg; reflexivity|]. exists f1. split; [apply answer_cons; left; exact An|exact Fl].
    + destruct (K2 q r) as (m & Em & [(Sg2 & f & Af & Ff)|(Sg2 & -> & No2)]); [congruence|exact Er1|exact Ev|exact Hq| |].
      * exists m. split; [exact Em|]. left. split; [rewrite Sg2; apply orb_true_r|]. exists f. split; [apply answer_cons; right; exact Af|exact Ff].
      * exists r. split; [exact Em|]. right. split; [rewrite Sg, Sg2; reflexivity|]. split; [reflexivity|].
        intros f X. apply answer_cons in X. destruct X as [X|X]; [exact (No f X)|exact (No2 f X)].
Qed.

Lemma vinv_post : forall c d q r c' ps b, vinv c -> api_msg le q -> in_memory q -> api_msg le r ->
  postmessage_begin le net c d q r = Ok (c', ps, b) -> has_object (c_node c') 978945 -> c_nodes c' = c_nodes c -> vinv c'.
Proof.
  intros c d q r c' ps b (A & W & P & O) Hq Mq Hr E P' N.
  destruct (watch_step le net snet c (CPost d q r) W ltac:(cbn; auto)) as (Ok1 & out & Es & W').
  pose proof Es as Es0. cbn [cstep] in Es. rewrite E in Es. cbn [bind] in Es. injection Es as <-. cbn [co_ctrl] in W'.
  split; [|split; [exact W'|split; [exact P'|unfold cowned; rewrite N; exact O]]].
  exact (capi_step le net snet std_db c _ (mkOut c' ps [] []) A (winv_mem _ W) (winv_mem _ W') Ok1 Es0).
Qed.
Lemma vinv_end : forall c, vinv c -> vinv (postmessage_end c).
Proof.
  intros c (A & W & P & O). destruct (watch_step le net snet c CPostEnd W I) as (Ok1 & out & Es & W').
  pose proof Es as Es0. cbn [cstep] in Es. injection Es as <-. cbn [co_ctrl] in W'.
  split; [|split; [exact W'|split; [exact P|exact O]]].
  exact (capi_step le net snet std_db c _ (mkOut (postmessage_end c) [] [] []) A (winv_mem _ W) (winv_mem _ W') Ok1 Es0).
Qed.

Hypothesis up : forall a b, net (PSend a b) = true.

Lemma post_quiet : forall c n a e epc w, vinv c -> n_addr n = Some a -> eoj_ok e -> is_byte epc -> Forall arrival_ok w -> Forall (quiet (seen c)) w ->
  exists c' t r, vpost le net snet std_db c n (eoj_code e) epc w = Ok (c', [PSend a (enc_frame (get_frame t e epc))], r)
  /\ vinv c' /\ seen c' = seen c /\ frame_ok (get_frame t e epc)
  /\ match r with Some m => exists f, answer w t f /\ filled m f | None => forall f, ~ answer w t f end.
Proof.
  intros c n a e epc w V Ha He Bp A Q. destruct (read_message e epc He Bp) as (q & Eq & P & Ev). unfold vpost. rewrite Eq. cbn [bind].
  pose proof V as (Ac & _ & Pr & _).
  destruct (C43_request le net snet c q _ n a Ac Pr P Ha) as (s & Es & Ps & Rs & Ns & Sh & Fs). cbv zeta in *.
  destruct (postmessage_begin le net c n q uecho_message_new) as [[[c1 ps] b]|] eqn:Eb.
  2: { unfold postmessage_begin in Eb. change (uecho_controller_sendmessage le net (c_with_post (MMsg q) (MMsg uecho_message_new) c) n q)
      with (uecho_controller_sendmessage le net c n q) in Eb. rewrite Es in Eb. discriminate. }
  pose proof Eb as Eb0.
  unfold postmessage_begin in Eb. change (uecho_controller_sendmessage le net (c_with_post (MMsg q) (MMsg uecho_message_new) c) n q)
      with (uecho_controller_sendmessage le net c n q) in Eb. rewrite Es in Eb. cbn [bind] in Eb. rewrite Ps, Rs, up in Eb. injection Eb as <- <- <-.
  assert (V1 : vinv (c_with_post (MMsg (s_msg s)) (MMsg uecho_message_new) (c_with_node (s_node s) c))).
  { eapply vinv_post; [exact V|apply P|apply P|apply am_new|exact Eb0| |reflexivity]. cbn [c_with_post c_with_node c_node]. rewrite Ns. exact Pr. }
  cbn [bind].
  destruct (wait_quiet w _ V1 A Q) as (c' & sg & Ew & V2 & S2 & _ & K). rewrite Ew. cbn [bind fst snd].
  destruct (K (s_msg s) uecho_message_new eq_refl eq_refl) as (m & Em & K2).
  { destruct Sh as (_ & _ & _ & Sh & _). exact Sh. }
  { pose proof V1 as (_ & ((_ & _ & _ & Hq & _) & _) & _). exact Hq. }
  rewrite Em. exists (postmessage_end c'), (tid_next le c), (if sg then Some m else None). split; [reflexivity|].
  split; [apply vinv_end; exact V2|]. split; [exact S2|]. split; [exact Fs|].
  assert (T : m_tid (s_msg s) = tid_next le c) by (destruct Sh as (Sh & _); exact Sh). rewrite T in K2.
  destruct K2 as [(-> & K2)|(-> & _ & K2)]; exact K2.
Qed.
End V.
