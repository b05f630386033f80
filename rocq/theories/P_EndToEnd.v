(* Lemmas about frames that travel between a controller and a node. *)
From Coq Require Import String ZArith List Bool Lia ZifyBool ZifyNat.
From Verif Require Import CSem M_Const M_Misc M_Property M_Message M_PropertyList M_Object M_Node M_NodeListener M_Controller
  StdDB_Data M_Std Spec_Frame Spec_Message Spec_Map Spec_Object Spec_Node Spec_Request Spec_Controller Run_Object Run_Node
  Run_Controller P_Base P_Misc P_Message P_Encode P_MsgApi P_PropertyList P_Object P_ObjectRun P_ObjectReach P_Std P_Node
  P_Request Properties_Object P_NodeReach P_NodeProfile P_NodeInv P_NodeRun P_NodeProps P_RequestProps P_RequestApi P_NodeSafe
  P_Shadow P_Controller P_ControllerProps Properties_Message.
Import ListNotations.
Open Scope Z_scope.
Ltac Zify.zify_post_hook ::= Z.div_mod_to_equations.

Lemma nth_error_same : forall A (l l' : list A), (forall i, nth_error l i = nth_error l' i) -> l = l'.
Proof.
  induction l as [|a l IH]; intros [|b l'] H.
  - reflexivity.
  - specialize (H 0%nat). discriminate.
  - specialize (H 0%nat). discriminate.
  - pose proof (H 0%nat) as H0. cbn in H0. injection H0 as ->. f_equal. apply IH. intros i. exact (H (S i)).
Qed.

(* the getters determine the frame *)
Lemma shows_props_inj : forall get l l', (length l <= 1000)%nat -> (length l' <= 1000)%nat ->
  shows_props get l -> shows_props get l' -> l = l'.
Proof.
  intros get l l' L L' H H'. apply nth_error_same. intros i.
  destruct (Nat.lt_ge_cases i 2000) as [Hi|Hi].
  - assert (B : 0 <= Z.of_nat i < SIZE_MOD) by (unfold SIZE_MOD; lia). specialize (H _ B). specialize (H' _ B). rewrite Nat2Z.id in *.
    destruct (nth_error l i) as [[e d]|], (nth_error l' i) as [[e' d']|].
    + destruct H as (p & E & <- & <-). destruct H' as (p' & E' & <- & <-). congruence.
    + destruct H as (p & E & _). congruence.
    + destruct H' as (p' & E' & _). congruence.
    + reflexivity.
  - rewrite (proj2 (nth_error_None l i)) by lia. rewrite (proj2 (nth_error_None l' i)) by lia. reflexivity.
Qed.

Lemma shows_inj : forall le m f g, frame_ok f -> frame_ok g -> shows le m f -> shows le m g -> f = g.
Proof.
  intros le m [t s d e b] [t' s' d' e' b'] Hf Hg (A1 & A2 & A3 & A4 & A5) (B1 & B2 & B3 & B4 & B5).
  destruct Hf as (_ & _ & F1 & F2 & _ & F3). destruct Hg as (_ & _ & G1 & G2 & _ & G3).
  cbn [f_tid f_seoj f_deoj f_esv f_body] in *.
  assert (s = s') by (apply eoj_code_inj; congruence). assert (d = d') by (apply eoj_code_inj; congruence).
  assert (e = e') by congruence. assert (t = t') by congruence. subst. f_equal.
  destruct b as [ps|ss gs], b' as [ps'|ss' gs']; cbn [body_ok] in *.
  - destruct F3 as (_ & _ & L). destruct G3 as (_ & _ & L'). f_equal. eapply shows_props_inj; [| |apply A5|apply B5]; lia.
  - tauto.
  - tauto.
  - destruct F3 as (_ & [_ L1] & [_ L2]). destruct G3 as (_ & [_ L1'] & [_ L2']). destruct A5 as (_ & A5 & _ & A6). destruct B5 as (_ & B5 & _ & B6).
    f_equal; eapply shows_props_inj; eauto; lia.
Qed.


(* ---- what a sender puts on the wire ---- *)

Definition as_sent (le : bool) (t : Z) (f : frame) : frame :=
  mkFrame (tid_wire le t) node_profile_eoj (f_deoj f) (f_esv f) (f_body f).

Lemma tid_wire_bytes : forall le t, 0 <= t <= 65535 -> byte_val (fst (tid_wire le t)) /\ byte_val (snd (tid_wire le t)).
Proof. intros [] t H; unfold tid_wire, byte_val; cbn [fst snd]; lia. Qed.

Lemma as_sent_ok : forall le t f, 0 <= t <= 65535 -> frame_ok f -> frame_ok (as_sent le t f).
Proof.
  intros le t f Ht (_ & _ & _ & F2 & F3 & F4). destruct (tid_wire_bytes le t Ht) as [A B].
  split; [exact A|]. split; [exact B|]. split; [cbn; unfold byte_val; lia|]. auto.
Qed.

Lemma frame_of_stamp : forall le t m, 0 <= t <= 65535 ->
  frame_of (stamp le t m) = as_sent le t (frame_of m).
Proof.
  intros le t m Ht. unfold stamp. pose proof (settid_wire le t m Ht) as W.
  pose proof (settid_fields le t m) as F. rewrite W in F. rewrite F. destruct m. reflexivity.
Qed.

Lemma stamp_wire : forall le t m f, 0 <= t <= 65535 -> msg_ok m -> std_ehd m -> short_msg m -> frame_ok f -> shows le m f ->
  wire_msg (stamp le t m) = enc_frame (as_sent le t f) /\ shows le (stamp le t m) (as_sent le t f).
Proof.
  intros le t m f Ht Hm He Hs Hf Sh.
  assert (E : frame_of m = f) by (eapply shows_inj; [apply frame_of_ok; assumption|exact Hf|apply shows_frame_of; exact Hm|exact Sh]).
  pose proof (stamp_ok le t m Hm) as K. rewrite <- E, <- frame_of_stamp by exact Ht. split; [|apply shows_frame_of; exact K].
  pose proof (settid_fields le t m) as F.
  apply wire_msg_enc; [exact K| |]; unfold stamp; rewrite F; destruct m; assumption.
Qed.

Lemma sends : forall le net n d m f, ninv n -> profile n <> None -> api_msg le m -> in_memory m -> pdc_fits m ->
  shows le m f -> frame_ok f -> forall a, n_addr d = Some a ->
  let t := next_tid (n_tid n) in let g := as_sent le t f in
  exists m', uecho_node_sendmessage le net n d m
    = Ok (mkSent (n_with_tid t n) m' [PSend a (enc_frame g)] (net (PSend a (enc_frame g))))
  /\ shows le m' g /\ msg_ok m' /\ frame_ok g.
Proof.
  intros le net n d m f (Ht & _) Hp Hm Hi Hs Sh Hf a Ha t g. apply api_inv_holds in Hm. destruct Hm as [Hm He].
  pose proof (next_tid_range _ Ht) as R. fold t in R.
  destruct (stamp_wire le t m f ltac:(lia) Hm He (pdc_short _ Hs) Hf Sh) as [W S].
  exists (stamp le t m). rewrite sendmessage_spec by (exact Hm || (apply in_memory_fits; assumption)). fold t. rewrite Ha, W.
  destruct (profile n); [|tauto]. split; [reflexivity|]. split; [exact S|]. split; [apply stamp_ok; exact Hm|].
  apply as_sent_ok; [lia|exact Hf].
Qed.

Lemma announces : forall le net n m f, ninv n -> profile n <> None -> msg_ok m -> std_ehd m -> fits m -> short_msg m ->
  shows le m f -> frame_ok f ->
  let t := next_tid (n_tid n) in let g := as_sent le t f in
  exists m', uecho_node_announcemessage le net n m
    = Ok (mkSent (n_with_tid t n) m' [PAnnounce (enc_frame g)] (net (PAnnounce (enc_frame g))))
  /\ shows le m' g /\ frame_ok g.
Proof.
  intros le net n m f (Ht & _) Hp Hm He Hi Hs Sh Hf t g.
  pose proof (next_tid_range _ Ht) as R. fold t in R.
  destruct (stamp_wire le t m f ltac:(lia) Hm He Hs Hf Sh) as [W S].
  exists (stamp le t m). rewrite announcemessage_spec by assumption. fold t. rewrite W.
  destruct (profile n); [|tauto]. split; [reflexivity|]. split; [exact S|]. apply as_sent_ok; [lia|exact Hf].
Qed.

Lemma enc_props_len : forall ps, eprops_ok ps -> len (enc_props ps) <= 1 + 257 * 255.
Proof.
  intros ps [Hp Hl]. unfold enc_props. unfold len. cbn [length].
  assert (K : Z.of_nat (length (concat (map enc_prop ps))) <= 257 * Z.of_nat (length ps)).
  { clear Hl. induction Hp as [|e ps (_ & _ & He) _ IH]; [cbn; lia|]. cbn [map concat]. rewrite app_length.
    assert (E : length (enc_prop e) = S (S (length (snd e)))) by reflexivity. rewrite E. cbn [length]. lia. }
  lia.
Qed.

(* a frame is a datagram a host can receive *)
Lemma frame_buffer : forall f, frame_ok f -> buffer (enc_frame f).
Proof.
  intros f Hf. split; [apply enc_frame_bytes; exact Hf|].
  destruct Hf as (_ & _ & _ & _ & _ & Hb).
  destruct f as [[t0 t1] [[s0 s1] s2] [[d0 d1] d2] esv b]. cbn [f_body f_esv] in *.
  assert (K : len (enc_body b) <= 2 + 514 * 255).
  { destruct b as [ps|s g]; cbn [body_ok enc_body] in *.
    - destruct Hb as [_ Hb]. apply enc_props_len in Hb. lia.
    - destruct Hb as (_ & H1 & H2). apply enc_props_len in H1. apply enc_props_len in H2. rewrite len_app. lia. }
  unfold enc_frame. cbn [f_tid f_seoj f_deoj f_esv f_body fst snd enc_eoj]. rewrite !len_app. 
  change (len [16; 129]) with 2. change (len [t0; t1]) with 2. change (len [s0; s1; s2]) with 3.
  change (len [d0; d1; d2]) with 3. change (len [esv]) with 1. unfold OBJ_MAX, PTRDIFF_MAX. lia.
Qed.

(* ---- the instance list ---- *)

Lemma triples_enc : forall l, triples (concat (map enc_eoj l)) = l.
Proof. induction l as [|[[a b] c] l IH]; [reflexivity|]. cbn [map concat enc_eoj app triples]. rewrite IH. reflexivity. Qed.

Lemma listed_D6 : forall es, (length (devices es) <= 255)%nat -> listed (prof_D6 es) = devices es.
Proof.
  intros es H. unfold prof_D6. cbv zeta. rewrite firstn_all2 by exact H. cbn [listed]. apply triples_enc.
Qed.

Lemma len_D6 : forall es, (length (devices es) <= 84)%nat -> len (prof_D6 es) <= 253.
Proof.
  intros es H. unfold prof_D6. cbv zeta. rewrite firstn_all2 by lia. unfold len. cbn [length].
  assert (K : forall l, length (concat (map enc_eoj l)) = (3 * length l)%nat)
    by (induction l as [|[[a b] c] l IH]; [reflexivity|]; cbn [map concat]; rewrite app_length, IH; cbn [enc_eoj length]; lia).
  rewrite K. lia.
Qed.

Lemma node_data_bytes : forall le net n code c d, api_node le net std_db n -> node_data n code c = Some d -> Forall byte_val d.
Proof.
  intros le net n code c d Hn Hd. destruct (api_node_ok _ _ _ _ std_db_ok Hn) as [N M].
  unfold node_data in Hd. destruct (uecho_node_getobjectbycode n code) as [o|] eqn:G; [|discriminate].
  destruct (uecho_object_getproperty o c) as [q|] eqn:Q; [|discriminate]. injection Hd as <-.
  pose proof (ninv_get _ _ _ N G) as [(He & _) _]. apply find_code in Q. destruct Q as [_ Q].
  destruct He as [[_ Hp] _]. pose proof (plist_ok_in _ _ Hp Q) as K.
  assert (B : bytes_ok (p_data q)) by apply K. eapply Forall_impl; [|exact B]. intros b. apply is_byte_val.
Qed.

(* ---- parsing an answer ---- *)

Lemma shows_from : forall le m f a, shows le m f -> shows le (with_from a m) f.
Proof. intros le [e1 e2 t so de es pp ps pg fr to0] f a H. exact H. Qed.

Lemma parsed : forall le m0 f la a, api_msg le m0 -> frame_ok f ->
  exists m, uecho_message_parsepacket m0 (enc_frame f) la (Some a) = Ok (true, m)
  /\ shows le m f /\ m_from m = Some a /\ api_msg le m.
Proof.
  intros le m0 f la a Hm Hf. pose proof (frame_buffer f Hf) as Hb.
  assert (P : exists m', uecho_message_parse m0 (enc_frame f) = Ok (true, m') /\ shows le m' f).
  { apply (proj2 (C02_parse_iff_frame le m0 _ Hm Hb)) with (rest := []); [exact Hf|]. rewrite app_nil_r. reflexivity. }
  destruct P as (m' & E & S).
  assert (E2 : uecho_message_parsepacket m0 (enc_frame f) la (Some a)
    = Ok (true, with_from (Some a) (uecho_message_setsourceaddress la m'))).
  { unfold uecho_message_parsepacket. rewrite E. reflexivity. }
  eexists. split; [exact E2|]. split; [|split; [reflexivity|]].
  - apply shows_from. destruct la; [apply shows_from|]; exact S.
  - eapply am_packet; [exact Hm|exact Hb|exact E2].
Qed.

Lemma shows_gettid : forall le m f, frame_ok f -> shows le m f ->
  uecho_message_gettid le m = if le then snd (f_tid f) * 256 + fst (f_tid f) else fst (f_tid f) * 256 + snd (f_tid f).
Proof.
  intros le m f (A & B & _) (E & _). rewrite <- E in *. apply gettid_bytes; apply is_byte_val; assumption.
Qed.

Lemma isresponse_shown : forall le q f m g, frame_ok f -> frame_ok g -> shows le q f -> shows le m g ->
  f_tid f = f_tid g -> f_esv f <> f_esv g -> uecho_message_isresponsemessage le q m = true.
Proof.
  intros le q f m g Hf Hg Sf Sg Et En. unfold uecho_message_isresponsemessage.
  rewrite (shows_gettid _ _ _ Hf Sf), (shows_gettid _ _ _ Hg Sg), Et, Z.eqb_refl. cbn [negb].
  destruct Sf as (_ & _ & _ & E1 & _). destruct Sg as (_ & _ & _ & E2 & _). unfold uecho_message_getesv in *.
  rewrite E1, E2. destruct (Z.eqb_spec (f_esv f) (f_esv g)); [contradiction|reflexivity].
Qed.

(* ---- a response that arrives while a post is waiting ---- *)

Section Post.
Variable le : bool.
Variable net snet : post -> bool.
Variable db : list obj.
Hypothesis Hdb : db_ok db.

Lemma listener_keeps_post : forall fr c m y c1 sg,
  (if uecho_controller_ispostresponsewaiting c then uecho_controller_handlepostresponse le c m else Ok (c, false)) = Ok (c1, sg) ->
  uecho_controller_servermessagelistener le snet db fr c m = Ok y ->
  c_req (cr_ctrl y) = c_req c1 /\ c_res (cr_ctrl y) = c_res c1 /\ cr_signal y = sg.
Proof.
  intros fr c m y c1 sg E H. unfold uecho_controller_servermessagelistener in H. rewrite E in H. cbn [bind] in H.
  apply bind_ok in H. destruct H as (s & _ & H). destruct s.
  - apply bind_ok in H. destruct H as (z & Z1 & H). injection H as <-. cbn [cr_ctrl cr_signal].
    unfold uecho_controller_handlesearchmessage in Z1. apply bind_ok in Z1. destruct Z1 as (o & _ & Z1).
    destruct o as [p|]; [|injection Z1 as <-; auto].
    destruct (uecho_property_getdatasize p <? 1); [injection Z1 as <-; auto|].
    destruct (m_from m) as [a|]; [|injection Z1 as <-; auto].
    destruct (uecho_controller_getnodebyaddress c1 (Some a)).
    + apply bind_ok in Z1. destruct Z1 as ([n' u] & _ & Z1). injection Z1 as <-. auto.
    + apply bind_ok in Z1. destruct Z1 as (x & _ & Z1). apply bind_ok in Z1. destruct Z1 as ([n' u] & _ & Z1). injection Z1 as <-. auto.
  - apply bind_ok in H. destruct H as (dc & _ & H).
    destruct (uecho_node_getobjectbycode (c_node c1) dc); [|injection H as <-; auto].
    destruct (uecho_controller_getnodebyaddress c1 (m_from m)); [|injection H as <-; auto].
    apply bind_ok in H. destruct H as (z & Z1 & H). injection H as <-. cbn [cr_ctrl cr_signal].
    unfold uecho_controller_handlenodemessage in Z1. apply bind_ok in Z1. destruct Z1 as ([n' u] & _ & Z1). injection Z1 as <-. auto.
Qed.

Lemma req_shows : forall f la ra, frame_ok f -> shows le (req_of f la ra) f.
Proof.
  intros f la ra Hf. rewrite (req_fields f la ra). apply shows_from.
  rewrite <- (frame_of_msg_of_frame uecho_message_new f Hf) at 2. apply shows_frame_of. apply msg_of_frame_ok; [|exact Hf].
  apply (api_inv_holds le). constructor.
Qed.

(* uecho_message_set keeps what the getters show, of messages with one property list *)
Lemma set_shows : forall r m f, msg_ok r -> msg_ok m -> shows le m f -> frame_ok f -> short_msg m -> (exists ps, f_body f = Plain ps) ->
  exists m', uecho_message_set le r m = Ok m' /\ shows le m' f /\ m_from m' = m_from m /\ msg_ok m'.
Proof.
  intros r m f Hr Hm Sm Hf Hs [ps Eb]. destruct (message_set_spec le r m Hr Hm) as (v & E2 & Ev & Hv).
  assert (E : frame_of m = f) by (eapply shows_inj; [apply frame_of_ok; assumption|exact Hf|apply shows_frame_of; exact Hm|exact Sm]).
  assert (K : msg_ok (mkMsg (m_ehd1 m) (m_ehd2 m) (m_tid m) (m_seoj m) (m_deoj m) (m_esv m) v pv_empty pv_empty (m_from m) (m_to m))).
  { destruct Hm as (M1 & M2 & M3 & M4 & M5 & M6 & M7 & _). unfold msg_ok. cbn [m_ehd1 m_ehd2 m_tid m_seoj m_deoj m_esv m_p m_pset m_pget].
    pose proof pv_empty_ok. auto 12. }
  eexists. split; [exact E2|]. split; [|split; [reflexivity|exact K]].
  rewrite <- E at 1.
  replace (frame_of m) with (frame_of (mkMsg (m_ehd1 m) (m_ehd2 m) (m_tid m) (m_seoj m) (m_deoj m) (m_esv m) v pv_empty pv_empty (m_from m) (m_to m))).
  { apply shows_frame_of. exact K. }
  unfold frame_of. cbn [m_ehd1 m_ehd2 m_tid m_seoj m_deoj m_esv m_p m_pset m_pget].
  rewrite <- E in Eb. unfold frame_of in Eb. cbn [f_body] in Eb. destruct (two_listsb (m_esv m)); [discriminate|].
  do 2 f_equal. unfold pv_list. rewrite Ev, map_map. apply map_ext. intros p. rewrite copy_eq. reflexivity.
Qed.

Lemma req_short : forall f la ra, frame_ok f -> short_msg (req_of f la ra).
Proof.
  intros f la ra Hf. pose proof (req_parts f la ra) as P. cbv zeta in P. set (m := req_of f la ra) in *. clearbody m.
  destruct P as (_ & _ & Pe & _ & _ & Pp). destruct Hf as (_ & _ & _ & _ & _ & Hb). unfold short_msg. rewrite Pe.
  assert (K : forall ps, eprops_ok ps -> short_props (pv_list (pv_of ps))).
  { intros ps [Hp _]. rewrite pv_list_of. unfold short_props. apply Forall_map. eapply Forall_impl; [|exact Hp].
    intros e (_ & _ & H). exact H. }
  pose proof (body_two _ _ Hb) as B. destruct (f_body f) as [ps|s g]; cbn [body_ok] in Hb; rewrite B; injection Pp as P1 P2 P3.
  - rewrite P1. apply K. apply Hb.
  - rewrite P2, P3. split; apply K; apply Hb.
Qed.

Lemma hears_post : forall dec fr c f rest la a x y q r g, hears le net snet db dec fr c f rest la a x y ->
  c_req c = MMsg q -> c_res c = MMsg r -> frame_ok g -> shows le q g -> (exists ps, f_body f = Plain ps) ->
  f_tid g = f_tid f -> f_esv g <> f_esv f ->
  cr_signal y = true /\ c_req (cr_ctrl y) = MMsg q
  /\ exists m, c_res (cr_ctrl y) = MMsg m /\ shows le m f /\ m_from m = Some a.
Proof.
  intros dec fr c f rest la a x y q r g H Eq Er Hg Sq Eb Et En.
  pose proof (hears_spec le net snet db Hdb _ _ _ _ _ _ _ _ _ H) as (Hc & M & _ & _ & _ & Ec & _ & _).
  pose proof H as (Ha & Hf & Hb & Hfr & R).
  apply ctrl_receive_spec in R; [|exact Hc|apply M|exact Hb|exact Hfr].
  rewrite dec_enc in R by (exact Hf || exact Hb). destruct R as (x' & y' & E & _ & _ & _ & _ & L).
  apply (f_equal (fun z => match z with (Some u, v) => (u, v) | (None, v) => (x, v) end)) in E. cbv iota in E. injection E as <- <-.
  pose proof (req_shows f la (Some a) Hf) as Sm. pose proof (req_short f la (Some a) Hf) as Sh.
  pose proof (req_parts f la (Some a)) as P. cbv zeta in P. pose proof (req_ok f la (Some a) Hf) as Hm.
  set (m := req_of f la (Some a)) in *. clearbody m. destruct P as (_ & _ & _ & _ & Pf & _).
  destruct Hc as (_ & _ & _ & _ & Hr). rewrite Er in Hr. cbn [mptr_ok] in Hr.
  destruct (set_shows r m f Hr Hm Sm Hf Sh Eb) as (m' & E2 & S2 & F2 & _).
  eapply listener_keeps_post in L.
  2:{ unfold uecho_controller_ispostresponsewaiting.
      change (c_req (c_with_node (r_node x) c)) with (c_req c). change (c_res (c_with_node (r_node x) c)) with (c_res c).
      unfold uecho_controller_handlepostresponse, uecho_controller_ispostresponsemessage.
      change (c_req (c_with_node (r_node x) c)) with (c_req c). change (c_res (c_with_node (r_node x) c)) with (c_res c).
      rewrite Eq, Er. cbn [mptr_set andb bind]. rewrite (isresponse_shown le q g m f Hg Hf Sq Sm Et En). cbn [negb].
      rewrite E2. cbn [bind]. reflexivity. }
  destruct L as (L1 & L2 & L3). split; [exact L3|]. split; [rewrite L1; reflexivity|].
  exists m'. split; [rewrite L2; reflexivity|]. split; [exact S2|]. rewrite F2, Pf. destruct la; reflexivity.
Qed.
End Post.
