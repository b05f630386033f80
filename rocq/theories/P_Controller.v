(* What a received frame does to a controller, and the invariant of every history. *)
From Coq Require Import String ZArith List Bool Lia ZifyBool ZifyNat.
From Verif Require Import CSem M_Const M_Misc M_Property M_Message M_PropertyList M_Object M_Std M_Node M_NodeListener
  M_Controller Spec_Frame Spec_Message Spec_Object Spec_Std Spec_Node Spec_Request Spec_Controller Spec_Map
  Run_Object Run_Node Run_Controller P_Base P_Misc P_Message P_Encode P_MsgApi P_Map P_PropertyList P_Object P_ObjectRun
  P_ObjectReach P_Std Properties_Object P_Node P_Request P_NodeReach P_NodeProfile P_NodeInv P_NodeRun P_NodeProps
  P_RequestProps P_NodeSafe P_Shadow.
Import ListNotations.
Open Scope Z_scope.
Ltac Zify.zify_post_hook ::= Z.div_mod_to_equations.

(* ---- the list of shadow nodes ---- *)
Definition shadow (n : node) : Prop := ninv n /\ profile n <> None /\ n_addr n <> None.

Lemma isaddress_iff : forall n a, uecho_node_isaddress n (Some a) = true <-> n_addr n = Some a.
Proof.
  intros n a. unfold uecho_node_isaddress. destruct (n_addr n) as [x|]; [|split; discriminate].
  rewrite String.eqb_eq. split; congruence.
Qed.

Lemma byaddress_some : forall l a n, node_byaddress l (Some a) = Some n -> In n l /\ n_addr n = Some a.
Proof.
  induction l as [|x l IH]; intros a n H; cbn [node_byaddress] in H; [discriminate|].
  destruct (uecho_node_isaddress x (Some a)) eqn:E.
  - injection H as <-. apply isaddress_iff in E. cbn; auto.
  - apply IH in H. cbn; tauto.
Qed.

Lemma byaddress_none : forall l a, node_byaddress l (Some a) = None <-> ~ In (Some a) (map n_addr l).
Proof.
  induction l as [|x l IH]; intros a; cbn [node_byaddress map]; [cbn; tauto|].
  destruct (uecho_node_isaddress x (Some a)) eqn:E.
  - apply isaddress_iff in E. split; [discriminate|]. intros H. exfalso. apply H. left. exact E.
  - rewrite IH. assert (n_addr x <> Some a) by (intros X; apply isaddress_iff in X; congruence). cbn. tauto.
Qed.

Lemma byaddress_null : forall l, node_byaddress l None = None.
Proof.
  induction l as [|x l IH]; [reflexivity|]. cbn [node_byaddress]. unfold uecho_node_isaddress. destruct (n_addr x); exact IH.
Qed.

Lemma put_node_addr : forall l a n', n_addr n' = Some a -> map n_addr (put_node (Some a) n' l) = map n_addr l.
Proof.
  induction l as [|x l IH]; intros a n' H; cbn [put_node map]; [reflexivity|].
  destruct (uecho_node_isaddress x (Some a)) eqn:E; cbn [map].
  - apply isaddress_iff in E. congruence.
  - rewrite IH by exact H. reflexivity.
Qed.

Lemma put_node_get : forall l a n' b, n_addr n' = Some a ->
  node_byaddress (put_node (Some a) n' l) (Some b)
  = if String.eqb b a then match node_byaddress l (Some a) with Some _ => Some n' | None => None end
    else node_byaddress l (Some b).
Proof.
  intros l a n' b H. destruct (String.eqb_spec b a) as [->|Ne].
  - induction l as [|x l IH]; cbn [put_node node_byaddress]; [reflexivity|].
    destruct (uecho_node_isaddress x (Some a)) eqn:E; cbn [node_byaddress].
    + apply isaddress_iff in H. rewrite H. reflexivity.
    + rewrite E. exact IH.
  - induction l as [|x l IH]; cbn [put_node node_byaddress]; [reflexivity|].
    destruct (uecho_node_isaddress x (Some a)) eqn:E; cbn [node_byaddress].
    + apply isaddress_iff in E.
      assert (A : uecho_node_isaddress x (Some b) = false) by (apply not_true_iff_false; rewrite isaddress_iff; congruence).
      assert (B : uecho_node_isaddress n' (Some b) = false) by (apply not_true_iff_false; rewrite isaddress_iff; congruence).
      rewrite A, B. reflexivity.
    + rewrite IH. reflexivity.
Qed.

Lemma put_node_Forall : forall (P : node -> Prop) l a n', Forall P l -> P n' -> Forall P (put_node a n' l).
Proof.
  induction l as [|x l IH]; intros a n' H Hn; cbn [put_node]; [constructor|].
  inversion H as [|? ? H1 H2]; subst. destruct (uecho_node_isaddress x a); constructor; auto.
Qed.

Lemma put_node_map : forall (A : Type) (g : node -> A) l a n n', node_byaddress l a = Some n -> g n' = g n ->
  map g (put_node a n' l) = map g l.
Proof.
  induction l as [|x l IH]; intros a n n' H E; cbn [put_node map node_byaddress] in *; [reflexivity|].
  destruct (uecho_node_isaddress x a); cbn [map].
  - injection H as <-. rewrite E. reflexivity.
  - erewrite IH by eassumption. reflexivity.
Qed.

Lemma put_node_same : forall l a n, node_byaddress l a = Some n -> put_node a n l = l.
Proof.
  induction l as [|x l IH]; intros a n H; cbn [put_node node_byaddress] in *; [reflexivity|].
  destruct (uecho_node_isaddress x a); [injection H as <-; reflexivity|]. rewrite IH by exact H. reflexivity.
Qed.

(* with distinct addresses there is exactly one node with the address *)
Lemma byaddress_unique : forall l a n, NoDup (map n_addr l) -> node_byaddress l (Some a) = Some n ->
  filter (fun x => uecho_node_isaddress x (Some a)) l = [n].
Proof.
  induction l as [|x l IH]; intros a n N H; cbn [node_byaddress filter map] in *; [discriminate|].
  inversion N as [|? ? N1 N2]; subst. destruct (uecho_node_isaddress x (Some a)) eqn:E.
  - injection H as <-. f_equal. apply isaddress_iff in E.
    assert (F : Forall (fun y => uecho_node_isaddress y (Some a) = false) l).
    { apply Forall_forall. intros y I. apply not_true_iff_false. rewrite isaddress_iff. intros X. apply N1. rewrite E, <- X. apply in_map. exact I. }
    clear -F. induction l as [|y l IH]; [reflexivity|]. inversion F as [|? ? F1 F2]; subst. cbn [filter]. rewrite F1. auto.
  - apply IH; assumption.
Qed.

(* ---- the message of a frame ---- *)
Lemma req_parts : forall f la ra, let m := req_of f la ra in
  m_deoj m = e3l (f_deoj f) /\ m_seoj m = e3l (f_seoj f) /\ m_esv m = f_esv f /\ m_tid m = f_tid f
  /\ m_from m = from_of la ra
  /\ (m_p m, m_pset m, m_pget m) = match f_body f with
            | Plain ps => (pv_of ps, pv_empty, pv_empty) | SetGetBody s g => (pv_empty, pv_of s, pv_of g) end.
Proof.
  intros f la ra m. pose proof (req_fields f la ra) as Er. cbv zeta in Er. fold m in Er. rewrite Er. unfold msg_of_frame.
  repeat split; destruct (f_body f); reflexivity.
Qed.

Lemma req_ok : forall f la ra, frame_ok f -> msg_ok (req_of f la ra).
Proof.
  intros f la ra Hf. assert (Hq : msg_ok (msg_of_frame uecho_message_new f)).
  { apply msg_of_frame_ok; [|assumption]. apply (api_inv_holds true). constructor. }
  rewrite req_fields. exact Hq.
Qed.

Lemma code_of_e3l : forall e, eoj_ok e -> uecho_byte2integer (e3l e) = Ok (eoj_code e).
Proof.
  intros e He. destruct (getobj_eoj (e3l e) (e3l_eoj3 _ He)) as (a & b & c & E1 & E2). rewrite E2.
  destruct e as [[x y] z]. cbn [e3l] in E1. injection E1 as -> -> ->. reflexivity.
Qed.

(* the instance list of a search response *)
Definition search_data (f : frame) : option (list Z) :=
  match f_body f with
  | Plain [(c, d)] => if ((f_esv f =? 114) || (f_esv f =? 115) || (f_esv f =? 122)) && (c =? 214) then Some d else None
  | _ => None
  end.

Lemma search_data_iff : forall f d, search_data f = Some d <-> is_search_response f d.
Proof.
  intros f d. unfold search_data, is_search_response, search_esv. split.
  - destruct (f_body f) as [[|[c x] [|? ?]]|]; try discriminate.
    destruct (((f_esv f =? 114) || (f_esv f =? 115) || (f_esv f =? 122)) && (c =? 214)) eqn:E; [|discriminate].
    intros H. injection H as <-. assert (c = 214) as -> by lia. split; [lia|reflexivity].
  - intros [H ->]. replace (((f_esv f =? 114) || (f_esv f =? 115) || (f_esv f =? 122)) && (214 =? 214)) with true by lia. reflexivity.
Qed.

Lemma issearch_spec : forall f la ra, frame_ok f ->
  uecho_message_issearchresponse (req_of f la ra) = Ok (match search_data f with Some _ => true | None => false end).
Proof.
  intros f la ra Hf. pose proof (req_parts f la ra) as P. cbv zeta in P. pose proof (req_ok f la ra Hf) as Hm.
  set (m := req_of f la ra) in *. clearbody m. destruct P as (_ & _ & Pe & _ & _ & Pp).
  destruct Hf as (_ & _ & _ & _ & _ & Hb). unfold search_data.
  unfold uecho_message_issearchresponse, ESV_Get_Res, ESV_INF, ESV_INFC_Res, first_code_is, uecho_message_getproperty, EPC_InstanceListS.
  rewrite Pe. destruct (f_body f) as [ps|s g].
  - injection Pp as P1 P2 P3. rewrite P1.
    destruct ((f_esv f =? 114) || (f_esv f =? 115) || (f_esv f =? 122)) eqn:E; cbn [negb andb].
    2:{ destruct ps as [|[c d] [|? ?]]; reflexivity. }
    destruct ps as [|[c d] [|e r]].
    + reflexivity.
    + cbn [pv_of pv_opc]. change (len [(c, d)]) with 1. cbn [Z.eqb Pos.eqb negb].
      rewrite property_get_spec; [|rewrite <- P1; apply Hm|unfold SIZE_MOD; lia]. cbn [bind].
      change (Z.to_nat 0) with 0%nat. cbn [pv_of stored pv_ep map msgprop nth_error p_code fst]. destruct (c =? 214); reflexivity.
    + cbn [pv_of pv_opc]. rewrite !len_cons. pose proof (len_nonneg _ r). replace (1 + (1 + len r) =? 1) with false by lia. reflexivity.
  - destruct Hb as ([Hb|[Hb|Hb]] & _); rewrite Hb; reflexivity.
Qed.

Lemma reported_items : forall f la ra, frame_ok f ->
  pv_items (if uecho_message_isreadwritemessage (req_of f la ra) then m_pget (req_of f la ra) else m_p (req_of f la ra))
  = Ok (map msgprop (reported f)).
Proof.
  intros f la ra Hf. pose proof (req_parts f la ra) as P. cbv zeta in P. pose proof (req_ok f la ra Hf) as Hm.
  set (m := req_of f la ra) in *. clearbody m. destruct P as (_ & _ & Pe & _ & _ & Pp).
  destruct Hf as (_ & _ & _ & _ & _ & Hb). rewrite isreadwrite_two, Pe. unfold reported. destruct (f_body f) as [ps|s g].
  - destruct Hb as [Hb _]. rewrite <- two_listsb_iff in Hb. apply not_true_iff_false in Hb. rewrite Hb.
    rewrite pv_items_ok by apply Hm. injection Pp as P1 P2 P3. rewrite P1, pv_list_of. reflexivity.
  - destruct Hb as [Hb _]. rewrite <- two_listsb_iff in Hb. rewrite Hb.
    rewrite pv_items_ok by apply Hm. injection Pp as P1 P2 P3. rewrite P3, pv_list_of. reflexivity.
Qed.

Lemma reported_ok : forall f, frame_ok f -> Forall ann_ok (map msgprop (reported f)).
Proof.
  intros f Hf. destruct Hf as (_ & _ & _ & _ & _ & Hb). unfold reported.
  assert (G : forall ps, eprops_ok ps -> Forall ann_ok (map msgprop ps)).
  { intros ps [H _]. apply Forall_forall. intros p I. apply in_map_iff in I. destruct I as (e & <- & I).
    rewrite Forall_forall in H. destruct (H e I) as (H1 & H2 & H3). split; [apply is_byte_val; exact H1|].
    split; [apply bytes_of_vals; exact H2|]. cbn [msgprop p_data]. unfold len, DATA_MAX. lia. }
  destruct (f_body f); destruct Hb as (_ & Hb); [|destruct Hb as (_ & Hb)]; apply G; exact Hb.
Qed.

Lemma map_ep_msgprop : forall l, map ep_of (map msgprop l) = l.
Proof. intros l. rewrite map_map. rewrite <- (map_id l) at 2. apply map_ext. intros e. apply ep_of_msgprop. Qed.

(* ---- what a controller can be ---- *)
Definition mptr_ok (p : mptr) : Prop := match p with MMsg m => msg_ok m | _ => True end.
Definition cinv (c : ctrl) : Prop :=
  ninv (c_node c) /\ Forall shadow (c_nodes c) /\ NoDup (addresses c) /\ mptr_ok (c_req c) /\ mptr_ok (c_res c).

Section Listener.
Variable le : bool.
Variable net snet : post -> bool.
Variable db : list obj.
Hypothesis Hdb : db_ok db.

Lemma new_eojs : forall n, new_node le snet db n -> eojs n = [node_profile_eoj] /\ describes n /\ n_addr n = None /\ n_listener n = false.
Proof.
  intros n (tid0 & junk & man & uniq & posts & Ht & Hj & Hm & Hu & H).
  unfold uecho_node_new in H. apply bind_ok in H. destruct H as (o & E & H).
  destruct (profile_new_ok _ _ _ _ _ Hdb Hj Hm Hu E) as (He & Hb & Hc).
  apply bind_ok in H. destruct H as ([[n1 ps] r] & E1 & H). injection H as <- <-.
  assert (N0 : ninv (mkNode tid0 [] [] None false)).
  { split; [cbn; lia|]. split; [constructor|]. split; [constructor|reflexivity]. }
  assert (P : profile (appended o (mkNode tid0 [] [] None false)) <> None).
  { unfold profile, uecho_node_getobjectbycode, appended. cbn [n_objs n_with_classes n_with_objs app uecho_objectlist_getbycode].
    change (uecho_object_getcode (uecho_object_attach o)) with (uecho_object_getcode o). rewrite Hc. discriminate. }
  destruct (addobject_effect le snet _ o n1 ps r N0 He Hb eq_refl P E1) as (_ & A & B & _ & _ & C & D).
  change (eojs n1 = [node_profile_eoj] /\ describes n1 /\ n_addr n1 = None /\ n_listener n1 = false).
  split; [|split; [exact B|split; [exact C|exact D]]].
  rewrite A. change (eojs (mkNode tid0 [] [] None false)) with (@nil (Z*Z*Z)). cbn [app]. f_equal. unfold eoj_of, node_profile_eoj.
  rewrite (getcode_eq _ Hb) in Hc. destruct Hb as (B1 & B2 & B3). unfold is_byte in *. f_equal; [f_equal|]; lia.
Qed.

(* the effect of the posted-request phase: at most the response message is filled *)
Lemma post_phase : forall c f la ra c1 sg, mptr_ok (c_res c) -> frame_ok f ->
  (if uecho_controller_ispostresponsewaiting c
   then uecho_controller_handlepostresponse le c (req_of f la ra) else Ok (c, false)) = Ok (c1, sg) ->
  c1 = c_with_post (c_req c) (c_res c1) c /\ mptr_ok (c_res c1).
Proof.
  intros c f la ra c1 sg Hr Hf H. pose proof (req_ok f la ra Hf) as Hm. set (m := req_of f la ra) in *. clearbody m.
  assert (Z0 : forall x b, Ok (c, b) = Ok (x, sg) -> x = c_with_post (c_req c) (c_res x) c /\ mptr_ok (c_res x)).
  { intros x b X. injection X as <- _. split; [destruct c; reflexivity|exact Hr]. }
  destruct (uecho_controller_ispostresponsewaiting c); [|eapply Z0; exact H].
  unfold uecho_controller_handlepostresponse in H. apply bind_ok in H. destruct H as (b & _ & H).
  destruct (negb b); [eapply Z0; exact H|]. destruct (c_res c) as [|b'|r] eqn:E.
  - eapply Z0; exact H.
  - destruct b'; [discriminate|eapply Z0; exact H].
  - apply bind_ok in H. destruct H as (r' & E1 & H). injection H as <- _. split; [reflexivity|]. cbn [c_res c_with_post mptr_ok].
    destruct (message_set_spec le r m Hr Hm) as (v & E2 & _ & Hv). rewrite E1 in E2. injection E2 as ->.
    destruct Hm as (H1 & H2 & H3 & H4 & H5 & H6 & H7 & _). pose proof pv_empty_ok as Hp.
    unfold msg_ok. cbn [m_ehd1 m_ehd2 m_tid m_seoj m_deoj m_esv m_p m_pset m_pget]. tauto.
Qed.

Definition told0 (c : ctrl) : list ctold := if c_msglistener c then [ToldMsg] else [].

(* the nodes [l'] and listener calls [told] that frame [f] from [from] leads to *)
Inductive heard (c : ctrl) (f : frame) (from : option string) : list node -> list ctold -> Prop :=
| h_ignored : (forall d x r a, search_data f = Some d -> d = x :: r -> from <> Some a) ->
    (search_data f = None -> uecho_node_getobjectbycode (c_node c) (eoj_code (f_deoj f)) = None
                             \/ node_byaddress (c_nodes c) from = None) ->
    heard c f from (c_nodes c) (told0 c)
| h_new : forall x r a n0 n', search_data f = Some (x :: r) -> from = Some a ->
    node_byaddress (c_nodes c) from = None ->
    new_node le snet db n0 -> searched db (uecho_node_setaddress (Some a) n0) n' (triples r) ->
    heard c f from (c_nodes c ++ [n']) (told0 c ++ if c_nodelistener c then [ToldStatus (Some a) StAdded] else [])
| h_known : forall x r a n n', search_data f = Some (x :: r) -> from = Some a ->
    node_byaddress (c_nodes c) from = Some n -> searched db n n' (triples r) ->
    heard c f from (put_node from n' (c_nodes c))
      (told0 c ++ if c_nodelistener c && negb (length (eojs n') =? length (eojs n))%nat
                  then [ToldStatus (Some a) StUpdated] else [])
| h_node : forall a n, search_data f = None -> from = Some a ->
    uecho_node_getobjectbycode (c_node c) (eoj_code (f_deoj f)) <> None ->
    node_byaddress (c_nodes c) from = Some n ->
    ~ update_esv (f_esv f) \/ uecho_node_getobjectbycode n (eoj_code (f_seoj f)) = None ->
    heard c f from (c_nodes c)
      (told0 c ++ if c_nodelistener c then
         (if f_esv f =? 115 then [ToldStatus (Some a) StAnnounced] else [])
         ++ (if uecho_esv_isresponse (f_esv f) then [ToldStatus (Some a) StResponded] else []) else [])
| h_update : forall a n n' o o' u, search_data f = None -> from = Some a ->
    uecho_node_getobjectbycode (c_node c) (eoj_code (f_deoj f)) <> None ->
    node_byaddress (c_nodes c) from = Some n -> update_esv (f_esv f) ->
    uecho_node_getobjectbycode n (eoj_code (f_seoj f)) = Some o ->
    took n n' (eoj_code (f_seoj f)) o o' (overwrite (odata o) (reported f)) ->
    (forall e, In e (reported f) -> odata o' (fst e) <> None) ->
    ((forall e, In e (reported f) -> odata o (fst e) <> None) ->
       (forall x, odata o' x = overwrite (odata o) (reported f) x) /\ same_shape o o') ->
    ((forall e, In e (reported f) -> ~ map_epc (fst e)) \/ (forall e, In e (reported f) -> odata o (fst e) <> None) ->
       u = differs (odata o) (reported f)) ->
    heard c f from (put_node from n' (c_nodes c))
      (told0 c ++ if c_nodelistener c then
         (if f_esv f =? 115 then [ToldStatus (Some a) StAnnounced] else [])
         ++ (if uecho_esv_isresponse (f_esv f) then [ToldStatus (Some a) StResponded] else [])
         ++ (if u then [ToldStatus (Some a) StUpdated] else []) else []).

Lemma find_one : forall d, List.find (fun p => p_code p =? EPC_InstanceListS) (map msgprop [(214, d)]) = Some (msgprop (214, d)).
Proof. reflexivity. Qed.

Lemma search_fields : forall f d, search_data f = Some d -> f_body f = Plain [(214, d)].
Proof. intros f d H. apply search_data_iff in H. apply H. Qed.

Lemma update_esv_iff : forall esv,
  uecho_esv_isnotification esv || uecho_esv_isreadresponse esv || uecho_esv_isnotifyresponse esv = true <-> update_esv esv.
Proof.
  intros esv. unfold uecho_esv_isnotification, uecho_esv_isreadresponse, uecho_esv_isnotifyresponse, update_esv,
    ESV_INF, ESV_Get_Res, ESV_SetGet_Res, ESV_Get_SNA, ESV_SetGet_SNA, ESV_INFC_Res, ESV_INF_SNA. lia.
Qed.

Lemma listener_spec : forall fr c f la ra y, cinv c -> frame_ok f -> fresh_ok fr ->
  uecho_controller_servermessagelistener le snet db fr c (req_of f la ra) = Ok y ->
  cr_ctrl y = c_with_nodes (c_nodes (cr_ctrl y)) (c_with_post (c_req c) (c_res (cr_ctrl y)) c)
  /\ mptr_ok (c_res (cr_ctrl y))
  /\ heard c f (from_of la ra) (c_nodes (cr_ctrl y)) (cr_told y).
Proof.
  intros fr c f la ra y (N & Sh & Nd & _ & Hr) Hf (F1 & F2 & F3 & F4 & F5) H.
  unfold uecho_controller_servermessagelistener in H. fold (told0 c) in H.
  apply bind_ok in H. destruct H as ([c1 sg] & E & H).
  apply (post_phase c f la ra c1 sg Hr Hf) in E. destruct E as [E Hr1].
  pose proof (issearch_spec f la ra Hf) as I. rewrite I in H. cbn [bind] in H. clear I.
  pose proof (req_parts f la ra) as P. cbv zeta in P. pose proof (reported_items f la ra Hf) as R.
  pose proof (reported_ok f Hf) as Ro. pose proof (req_ok f la ra Hf) as Hm.
  set (m := req_of f la ra) in *. clearbody m. destruct P as (Pd & Ps & Pe & _ & Pf & Pp).
  assert (K1 : c_node c1 = c_node c) by (rewrite E; reflexivity).
  assert (K2 : c_nodes c1 = c_nodes c) by (rewrite E; reflexivity).
  assert (K3 : c_nodelistener c1 = c_nodelistener c) by (rewrite E; reflexivity).
  assert (Fin : forall l, c_with_nodes l c1 = c_with_nodes (c_nodes (c_with_nodes l c1))
       (c_with_post (c_req c) (c_res (c_with_nodes l c1)) c)) by (intros l; rewrite E; reflexivity).
  assert (Fin0 : c1 = c_with_nodes (c_nodes c1) (c_with_post (c_req c) (c_res c1) c)) by (rewrite E; reflexivity).
  destruct (search_data f) as [d|] eqn:Sd.
  - apply bind_ok in H. destruct H as (z & H & Y). injection Y as <-. cbn [cr_ctrl cr_told].
    unfold uecho_controller_handlesearchmessage, uecho_message_getpropertybycode, uecho_property_getbycode in H.
    pose proof (search_fields _ _ Sd) as Eb. rewrite Eb in Pp. injection Pp as P1 P2 P3.
    rewrite (pv_items_ok (m_p m)) in H by apply Hm. rewrite P1, pv_list_of in H. cbn [bind] in H. rewrite find_one in H.
    assert (Hd : bytes_ok d).
    { destruct Hf as (_ & _ & _ & _ & _ & Hb). rewrite Eb in Hb. destruct Hb as (_ & Hb & _).
      inversion Hb as [|? ? (_ & Hb1 & _) _]; subst. apply bytes_of_vals. exact Hb1. }
    change (uecho_property_getdatasize (msgprop (214, d))) with (len d) in H.
    change (p_data (msgprop (214, d))) with d in H.
    destruct d as [|x r].
    { cbn [len length Z.of_nat Z.ltb Z.compare] in H. injection H as <-. cbn [fst snd]. split; [exact Fin0|]. split; [exact Hr1|].
      rewrite K2, app_nil_r. apply h_ignored; [congruence|congruence]. }
    replace (len (x :: r) <? 1) with false in H by (rewrite len_cons; pose proof (len_nonneg _ r); lia). rewrite Pf in H.
    destruct (from_of la ra) as [a|] eqn:Fa.
    2:{ injection H as <-. cbn [fst snd]. split; [exact Fin0|]. split; [exact Hr1|].
        rewrite K2, app_nil_r. apply h_ignored; congruence. }
    unfold uecho_controller_getnodebyaddress in H. rewrite K2, K3 in H.
    destruct (node_byaddress (c_nodes c) (Some a)) as [n|] eqn:B.
    + apply bind_ok in H. destruct H as ([n' u] & L & H). injection H as <-. cbn [fst snd].
      split; [apply Fin|]. split; [exact Hr1|]. cbn [c_with_nodes c_nodes].
      assert (Sn : shadow n) by (rewrite Forall_forall in Sh; apply Sh; apply byaddress_some in B; apply B).
      destruct Sn as (Sn & Sp & _).
      change 1 with (Z.of_nat 1) in L. apply (search_loop_spec le snet db Hdb fr (x :: r) F5 Hd) in L; [|exact Sn|exact Sp].
      destruct L as [L ->]. rewrite orb_false_l. eapply h_known; eauto.
    + apply bind_ok in H. destruct H as (x0 & Nn & H). apply bind_ok in H. destruct H as ([n' u] & L & H). injection H as <-. cbn [fst snd].
      split; [unfold uecho_controller_addnode; apply Fin|]. split; [exact Hr1|]. cbn [uecho_controller_addnode c_with_nodes c_nodes].
      assert (Hn : new_node le snet db (fst x0)).
      { exists (fr_tid fr), (fr_junk fr), (fr_man fr), (fr_uniq fr), (snd x0). destruct x0. cbn [fst snd]. auto. }
      destruct (new_node_ok _ _ _ _ Hdb Hn) as (A1 & A2 & A3).
      change 1 with (Z.of_nat 1) in L. apply (search_loop_spec le snet db Hdb fr (x :: r) F5 Hd) in L; [|exact A1|exact A3].
      destruct L as [L _]. rewrite K2. eapply h_new; eauto.
  - unfold uecho_message_getdestinationobjectcode in H.
    rewrite Pd in H. rewrite code_of_e3l in H by apply Hf. cbn [bind] in H. rewrite K1 in H.
    destruct (uecho_node_getobjectbycode (c_node c) (eoj_code (f_deoj f))) as [lo|] eqn:G.
    2:{ injection H as <-. cbn [cr_ctrl cr_told]. split; [exact Fin0|]. split; [exact Hr1|]. rewrite K2. apply h_ignored; [congruence|auto]. }
    unfold uecho_controller_getnodebyaddress in H. rewrite K2, Pf in H.
    destruct (node_byaddress (c_nodes c) (from_of la ra)) as [n|] eqn:B.
    2:{ injection H as <-. cbn [cr_ctrl cr_told]. split; [exact Fin0|]. split; [exact Hr1|]. rewrite K2. apply h_ignored; [congruence|auto]. }
    apply bind_ok in H. destruct H as (z & H & Y). injection Y as <-. cbn [cr_ctrl cr_told].
    unfold uecho_controller_handlenodemessage, uecho_message_getesv in H. rewrite Pe, K2, K3 in H.
    destruct (from_of la ra) as [a|] eqn:Fa; [|rewrite byaddress_null in B; discriminate].
    assert (Sn : shadow n) by (rewrite Forall_forall in Sh; apply Sh; apply byaddress_some in B; apply B).
    apply bind_ok in H. destruct H as ([n' u] & L & H). injection H as <-. cbn [fst snd].
    split; [apply Fin|]. split; [exact Hr1|]. cbn [c_with_nodes c_nodes].
    change (uecho_esv_isnotification (f_esv f)) with (f_esv f =? 115).
    assert (Same : n' = n -> u = false ->
       ~ update_esv (f_esv f) \/ uecho_node_getobjectbycode n (eoj_code (f_seoj f)) = None ->
       heard c f (Some a) (put_node (Some a) n' (c_nodes c))
      (told0 c ++ if c_nodelistener c then
         (if f_esv f =? 115 then [ToldStatus (Some a) StAnnounced] else [])
         ++ (if uecho_esv_isresponse (f_esv f) then [ToldStatus (Some a) StResponded] else [])
         ++ (if u then [ToldStatus (Some a) StUpdated] else []) else [])).
    { intros -> -> U. rewrite put_node_same by exact B. rewrite app_nil_r. eapply h_node; eauto. congruence. }
    pose proof (update_esv_iff (f_esv f)) as U.
    destruct (uecho_esv_isnotification (f_esv f) || uecho_esv_isreadresponse (f_esv f) || uecho_esv_isnotifyresponse (f_esv f)).
    2:{ injection L as <- <-. apply Same; [reflexivity|reflexivity|]. left. intros X. apply U in X. discriminate. }
    assert (Uy : update_esv (f_esv f)) by (apply U; reflexivity). clear U.
    unfold uecho_controller_updatenodebyresponsemessage, uecho_message_getsourceobjectcode in L.
    rewrite Ps in L. rewrite code_of_e3l in L by apply Hf. cbn [bind] in L.
    destruct (uecho_node_getobjectbycode n (eoj_code (f_seoj f))) as [o|] eqn:Go.
    2:{ injection L as <- <-. apply Same; auto. }
    unfold uecho_controller_updateopcpropertydata in L. rewrite R in L. cbn [bind] in L.
    destruct (update_loop_spec le snet fr _ _ _ _ _ _ _ _ F5 (proj1 Sn) Go Ro L) as (o' & T & A & K & D).
    rewrite map_ep_msgprop in *. eapply h_update with (n := n) (n' := n') (o := o) (o' := o') (u := u); eauto. congruence.
Qed.

(* ---- the invariant over histories ---- *)
Lemma learn_nodup_len : forall n n' l, searched db n n' l -> (length (eojs n) <= length (eojs n'))%nat.
Proof. intros n n' l S. rewrite (sr_eojs _ _ _ _ S). apply learn_len. Qed.

Lemma took_shadow : forall n n' oc o o' m, shadow n -> uecho_node_getobjectbycode n oc = Some o -> took n n' oc o o' m ->
  shadow n' /\ n_addr n' = n_addr n /\ eojs n' = eojs n.
Proof.
  intros n n' oc o o' m (N & P & A) G T. destruct (ninv_get _ _ _ N G) as [Ho Hc].
  pose proof (tk_node _ _ _ _ _ _ T) as E.
  assert (Ec : uecho_object_getcode o' = oc) by (rewrite (keeps_code _ _ (tk_keeps _ _ _ _ _ _ T)); exact Hc).
  assert (Ea : n_addr n' = n_addr n) by (rewrite E; reflexivity).
  split; [|split; [exact Ea|]].
  - split; [apply T|]. split; [|rewrite Ea; exact A]. rewrite E.
    change (profile (n_with_objs (put_obj oc o' (n_objs n)) n) <> None). intros X. apply P. revert X. eapply profile_put; eauto.
  - rewrite E. rewrite !eojs_eq. cbn [n_with_tid n_objs n_with_objs]. eapply eojs_put; [exact G|].
    destruct (tk_keeps _ _ _ _ _ _ T) as (K1 & K2 & K3 & _). unfold eoj_of. congruence.
Qed.

Lemma heard_ok : forall c f from l told, cinv c -> heard c f from l told ->
  Forall shadow l /\ NoDup (map n_addr l).
Proof.
  intros c f from l told (N & Sh & Nd & _ & _) H. unfold addresses in Nd.
  assert (Known : forall n, node_byaddress (c_nodes c) from = Some n -> shadow n).
  { intros n B. rewrite Forall_forall in Sh. apply Sh. destruct from as [a|]; [apply byaddress_some in B; apply B|].
    rewrite byaddress_null in B. discriminate. }
  inversion H as [|x r a n0 n' Sd Ef B Nn S|x r a n n' Sd Ef B S|a n Sd Ef G B U|a n n' o o' u Sd Ef G B U Go T Hh Hk Hu]; subst.
  - auto.
  - destruct (new_node_ok _ _ _ _ Hdb Nn) as (A1 & A2 & A3). destruct S as [S1 S2 S3 S4 S5 S6 S7 S8 S9].
    cbn [uecho_node_setaddress n_addr] in S4. split.
    + apply Forall_app. split; [exact Sh|]. constructor; [|constructor]. split; [exact S1|]. split; [exact S2|]. rewrite S4. discriminate.
    + rewrite map_app. cbn [map]. rewrite S4. apply byaddress_none in B. apply nodup_snoc; assumption.
  - destruct (Known _ B) as (K1 & K2 & K3). apply byaddress_some in B. destruct B as [_ B].
    destruct S as [S1 S2 S3 S4 S5 S6 S7 S8 S9]. split.
    + apply put_node_Forall; [exact Sh|]. split; [exact S1|]. split; [exact S2|]. congruence.
    + rewrite put_node_addr by congruence. exact Nd.
  - auto.
  - destruct (took_shadow _ _ _ _ _ _ (Known _ B) Go T) as (K1 & K2 & _). apply byaddress_some in B. destruct B as [_ B]. split.
    + apply put_node_Forall; assumption.
    + rewrite put_node_addr by congruence. exact Nd.
Qed.

(* a datagram *)
Lemma ctrl_receive_spec : forall dec fr c data la ra r, cinv c -> mem_ok (c_node c) -> buffer data -> fresh_ok fr ->
  ctrl_receive le net snet db dec fr c data la ra = Ok r ->
  match dec_frame data with
  | None => r = (None, mkCr c [] false)
  | Some (f, rest) => exists x y, r = (Some x, y)
      /\ frame_ok f /\ data = enc_frame f ++ rest
      /\ receive_frame le net dec (c_node c) f (from_of la ra) = Ok x
      /\ node_receive le net dec (c_node c) data la ra = Ok x
      /\ uecho_controller_servermessagelistener le snet db fr (c_with_node (r_node x) c) (req_of f la ra) = Ok y
  end.
Proof.
  intros dec fr c data la ra r (N & _) M Hb Hfr H. pose proof (fine_objs _ N M) as Fo.
  pose proof (node_receive_spec le net dec (c_node c) data la ra Hb Fo) as NR.
  unfold node_receive in NR. unfold ctrl_receive in H. pose proof Hb as [Hd Hl].
  assert (Hn : msg_ok uecho_message_new) by (apply (api_inv_holds le); constructor).
  pose proof (parse_spec _ data Hn Hd Hl) as P. unfold uecho_message_parsepacket in *.
  destruct (dec_frame data) as [[f rest]|] eqn:E.
  - rewrite P in H. rewrite P in NR. cbn [bind negb] in H, NR.
    change (uecho_message_setsourceaddress ra (uecho_message_setsourceaddress la (msg_of_frame uecho_message_new f))) with (req_of f la ra) in *.
    apply dec_frame_iff in E; [|exact Hd]. destruct E as [Hf E].
    apply bind_ok in H. destruct H as (x & E1 & H). apply bind_ok in H. destruct H as (y & E2 & H). injection H as <-.
    exists x, y. split; [reflexivity|]. split; [exact Hf|]. split; [exact E|]. rewrite <- NR. split; [exact E1|]. split; [|exact E2].
    unfold node_receive, uecho_message_parsepacket. rewrite P. cbn [bind negb]. exact E1.
  - destruct P as (m' & P & _). rewrite P in H. cbn [bind negb] in H. injection H as <-. reflexivity.
Qed.

Lemma c_with_node_inv : forall c n, cinv c -> ninv n -> cinv (c_with_node n c).
Proof. intros c n (_ & H) N. split; [exact N|exact H]. Qed.

Lemma op_addr : forall nt f n code n' ps, node_object_op le nt f n code = Ok (n', ps) -> n_addr n' = n_addr n.
Proof.
  intros nt f n code n' ps H. unfold node_object_op in H. destruct (uecho_node_getobjectbycode n code).
  - apply bind_ok in H. destruct H as ([o' a] & _ & H). apply node_emit_shape in H. rewrite H. reflexivity.
  - injection H as <- _. reflexivity.
Qed.

Lemma addobject_addr : forall nt n o n' ps r, ninv n -> winv o -> codes_byte o ->
  uecho_node_addobject le nt n o = Ok (n', ps, r) -> n_addr n' = n_addr n.
Proof.
  intros nt n o n' ps r N Hw Hb E. apply addobject_ok in E; [|assumption..]. destruct E as [_ E].
  destruct (uecho_node_getobjectbycode n (uecho_object_getcode o)); [destruct E as [-> _]; reflexivity|].
  destruct (profile (appended o n)); [destruct E as (_ & _ & E); rewrite E; reflexivity|destruct E as [-> _]; reflexivity].
Qed.

Lemma setman_addr : forall nt cs n code n' ps, setmanufacturer_all le nt n cs code = Ok (n', ps) -> n_addr n' = n_addr n.
Proof.
  intros nt cs. induction cs as [|c r IH]; intros n code n' ps H; cbn [setmanufacturer_all] in H; [injection H as <- _; reflexivity|].
  apply bind_ok in H. destruct H as ([n1 p1] & E1 & H). apply bind_ok in H. destruct H as ([n2 p2] & E2 & H).
  cbn [fst snd] in *. injection H as <- _. apply IH in E2. apply op_addr in E1. congruence.
Qed.

Lemma shadow_step : forall n x n' own ans, shadow n -> mem_ok n -> mem_ok n' -> nop_ok le db x -> shadow_nop x ->
  nstep le snet db n x = Ok (n', own, ans) -> shadow n' /\ n_addr n' = n_addr n.
Proof.
  intros n x n' own ans (N & P & A) M M' Hx Sx H.
  assert (Gx : gapless x) by (destruct x; exact Sx || exact I).
  destruct (nstep_ok le snet db n x n' own ans Hdb N M M' Hx H) as (N' & _ & P').
  assert (Ea : n_addr n' = n_addr n).
  { destruct x; cbn [nstep nop_ok shadow_nop] in *; try contradiction.
    - apply bind_ok in H. destruct H as ([[n1 p1] r] & E & H). injection H as <- _ _.
      destruct (api_winv _ _ Hdb Hx) as [Hw Hb]. eapply addobject_addr; eauto.
    - apply bind_ok in H. destruct H as ([[n1 p1] r] & E & H). injection H as <- _ _. unfold uecho_node_setobject in E.
      destruct (uecho_node_getobjectbycode n code); [injection E as <- _ _; reflexivity|].
      apply bind_ok in E. destruct E as ([o a] & E1 & E). cbn [fst] in E.
      assert (Ho : api_obj db o) by (eapply ao_setcode; [constructor|exact Hx|exact E1]).
      destruct (api_winv _ _ Hdb Ho) as [Hw Hb]. eapply addobject_addr; eauto.
    - apply bind_ok in H. destruct H as ([n1 p1] & E & H). cbn [fst snd] in H. injection H as <- _ _. eapply op_addr; exact E.
    - apply bind_ok in H. destruct H as ([n1 p1] & E & H). cbn [fst snd] in H. injection H as <- _ _. eapply setman_addr; exact E.
    - apply bind_ok in H. destruct H as ([[n1 p1] r] & E & H). injection H as <- _ _. unfold uecho_node_announce in E.
      destruct (uecho_node_getobjectbycode n uEchoNodeProfileObject) as [o|]; [|injection E as <- _ _; reflexivity].
      destruct (uecho_object_getproperty o EPC_InstanceListNotification) as [q|]; [|injection E as <- _ _; reflexivity].
      apply bind_ok in E. destruct E as (s & E & E2).
      apply (f_equal (fun x => match x with Ok (a, _, _) => n_addr a | _ => None end)) in E2. cbv iota in E2. rewrite <- E2.
      rewrite (announceproperty_shape _ _ _ _ _ _ E). reflexivity.
    - apply bind_ok in H. destruct H as (s & E & H). injection H as <- _ _. destruct Hx as [Ha Hi].
      pose proof (api_inv_holds _ _ Ha) as [Hok He].
      rewrite announcemessage_spec in E; [|assumption|apply (in_memory_fits m); assumption].
      apply (f_equal (fun x => match x with Ok y => n_addr (s_node y) | _ => None end)) in E. cbv iota in E. rewrite <- E.
      destruct (profile n); reflexivity.
    - apply bind_ok in H. destruct H as (s & E & H). injection H as <- _ _. destruct Hx as [Ha Hi].
      pose proof (api_inv_holds _ _ Ha) as [Hok He].
      rewrite sendmessage_spec in E; [|assumption|apply (in_memory_fits m); assumption].
      apply (f_equal (fun x => match x with Ok y => n_addr (s_node y) | _ => None end)) in E. cbv iota in E. rewrite <- E.
      destruct (profile n); [destruct (n_addr d)|]; reflexivity.
    - injection H as <- _ _. reflexivity. }
  split; [|exact Ea]. split; [exact N'|]. split; [apply P'; assumption|]. congruence.
Qed.

(* the search message *)
Lemma search_msg : exists m, uecho_message_search_new = Ok m /\ msg_ok m /\ m_esv m = 98 /\ m_deoj m = [14; 240; 1]
  /\ m_ehd1 m = 16 /\ m_ehd2 m = 129
  /\ m_p m = pv_of [(214, [])] /\ m_pset m = pv_empty /\ m_pget m = pv_empty.
Proof.
  assert (E : exists m, uecho_message_search_new = Ok m) by (eexists; vm_compute; reflexivity).
  destruct E as [m E]. exists m. split; [exact E|].
  assert (A : api_msg true m).
  { unfold uecho_message_search_new in E. apply bind_ok in E. destruct E as (m1 & E1 & E). apply bind_ok in E. destruct E as (m2 & E2 & E).
    eapply am_add; [| |exact E]; [|split; [|split; [|reflexivity]]].
    - eapply am_setdst; [|exact E2]. eapply am_setsrc; [|exact E1]. apply (am_setesv true uecho_message_new 98); [constructor|unfold is_byte; lia].
    - change (is_byte 214). unfold is_byte. lia.
    - constructor. }
  split; [apply (api_inv_holds true); exact A|]. clear A. vm_compute in E. injection E as <-. repeat split; reflexivity.
Qed.

Lemma search_fits : forall m, m_seoj m = m_seoj m -> msg_ok m -> m_p m = pv_of [(214, [])] -> m_pset m = pv_empty -> m_pget m = pv_empty -> fits m.
Proof.
  intros m _ Hm E1 E2 E3. apply in_memory_fits; [exact Hm|]. unfold in_memory. rewrite E1, E2, E3. vm_compute. discriminate.
Qed.

Lemma announce_ninv : forall c m, cinv c -> msg_ok m -> m_p m = pv_of [(214, [])] -> m_pset m = pv_empty -> m_pget m = pv_empty ->
  forall s, uecho_controller_announcemessage le net c m = Ok s -> ninv (s_node s).
Proof.
  intros c m (N & _) Hm E1 E2 E3 s H. unfold uecho_controller_announcemessage in H.
  rewrite announcemessage_spec in H; [|exact Hm|apply search_fits; auto].
  pose proof (next_tid_range (n_tid (c_node c)) (proj1 N)) as Ht.
  apply (f_equal (fun x => match x with Ok y => s_node y | _ => c_node c end)) in H. cbv iota in H. rewrite <- H.
  destruct (profile (c_node c)); apply ninv_tid; assumption || lia.
Qed.

Lemma setdst_eq : forall c m, uecho_message_setdestinationobjectcode c m = Ok (with_deoj [byte_of c 2; byte_of c 1; byte_of c 0] m).
Proof. intros c m. unfold uecho_message_setdestinationobjectcode, uEchoEOJSize. rewrite integer2byte_3. reflexivity. Qed.

Lemma deoj_ok : forall m e, msg_ok m -> eoj3 e -> msg_ok (with_deoj e m).
Proof. intros m e (A1 & A2 & A3 & A4 & A5 & A6 & A7) He. unfold msg_ok. msimp. tauto. Qed.

Lemma esv_ok : forall m e, msg_ok m -> is_byte e -> msg_ok (with_esv e m).
Proof. intros m e (A1 & A2 & A3 & A4 & A5 & A6 & A7) He. unfold msg_ok. msimp. tauto. Qed.

Lemma node_announce_ninv : forall nt n n' ps b, ninv n -> mem_ok n -> uecho_node_announce le nt n = Ok (n', ps, b) -> ninv n' /\ n_objs n' = n_objs n.
Proof.
  intros nt n n' ps b N M H.
  assert (S : nstep le nt db n NAnnounce = Ok (n', ps, [])) by (cbn [nstep]; rewrite H; reflexivity).
  assert (O : n_objs n' = n_objs n).
  { unfold uecho_node_announce in H.
    destruct (uecho_node_getobjectbycode n uEchoNodeProfileObject) as [o|]; [|injection H as <- _ _; reflexivity].
    destruct (uecho_object_getproperty o EPC_InstanceListNotification) as [q|]; [|injection H as <- _ _; reflexivity].
    apply bind_ok in H. destruct H as (s & E & H).
    apply (f_equal (fun x => match x with Ok (a, _, _) => n_objs a | _ => [] end)) in H. cbv iota in H. rewrite <- H.
    rewrite (announceproperty_shape _ _ _ _ _ _ E). reflexivity. }
  assert (M' : mem_ok n') by (unfold mem_ok; rewrite O; exact M).
  split; [|exact O]. apply (nstep_ok le nt db n NAnnounce n' ps [] Hdb N M M' I S).
Qed.

Lemma cstep_ok : forall c x out, cinv c -> cmem_ok c -> cmem_ok (co_ctrl out) -> cop_ok le db x ->
  cstep le net snet db c x = Ok out -> cinv (co_ctrl out).
Proof.
  intros c x out Hc [M Ms] [M' Ms'] Hx H. pose proof Hc as (N & Sh & Nd & Hq & Hr).
  destruct x as [data la ra dec fr|x|a x| |code|p|p|b|b|up|d q r| |]; cbn [cstep cop_ok] in *.
  - apply bind_ok in H. destruct H as ([o y] & E & H). injection H as <-. cbn [co_ctrl] in *. destruct Hx as [Hb Hfr].
    apply ctrl_receive_spec in E; [|assumption..]. destruct (dec_frame data) as [[f rest]|].
    + destruct E as (r & y' & E & Hf & _ & R & _ & L). injection E as -> ->.
      apply receive_frame_ok in R; [|exact N|exact Hf]. destruct R as [[N1 _] _].
      pose proof (c_with_node_inv c (r_node r) Hc N1) as Hc1.
      destruct (listener_spec _ _ _ _ _ _ Hc1 Hf Hfr L) as (E & Hr' & Hh).
      destruct (heard_ok _ _ _ _ _ Hc1 Hh) as [A B]. unfold cinv, addresses.
      split; [rewrite E; exact N1|]. split; [exact A|]. split; [exact B|]. split; [rewrite E; exact Hq|exact Hr'].
    + injection E as -> ->. exact Hc.
  - apply bind_ok in H. destruct H as ([[n own] ans] & E & H). injection H as <-. cbn [co_ctrl] in *.
    apply c_with_node_inv; [exact Hc|]. apply (nstep_ok le net db (c_node c) x n own ans Hdb N M M' (proj1 Hx) E).
  - destruct (uecho_controller_getnodebyaddress c (Some a)) as [n|] eqn:B; [|injection H as <-; exact Hc].
    apply bind_ok in H. destruct H as ([[n' own] ans] & E & H). injection H as <-. cbn [co_ctrl] in *.
    unfold uecho_controller_getnodebyaddress in B. pose proof (byaddress_some _ _ _ B) as [I Ea].
    assert (Sn : shadow n) by (rewrite Forall_forall in Sh; apply Sh; exact I).
    assert (Mn : mem_ok n) by (rewrite Forall_forall in Ms; apply Ms; exact I).
    assert (Mn' : mem_ok n').
    { cbn [c_nodes c_with_nodes] in Ms'. rewrite Forall_forall in Ms'. apply Ms'. clear -B. revert B.
      generalize (c_nodes c). induction l as [|y l IH]; cbn [node_byaddress put_node]; [discriminate|].
      destruct (uecho_node_isaddress y (Some a)); [left; reflexivity|]. intros B. right. apply IH. exact B. }
    destruct (shadow_step _ _ _ _ _ Sn Mn Mn' (proj1 Hx) (proj2 Hx) E) as [S1 S2].
    unfold cinv, addresses. cbn [c_with_nodes c_node c_nodes c_req c_res]. split; [exact N|].
    split; [apply put_node_Forall; assumption|]. split; [rewrite put_node_addr by congruence; exact Nd|]. split; assumption.
  - apply bind_ok in H. destruct H as (s & E & H). injection H as <-. cbn [co_ctrl] in *. apply c_with_node_inv; [exact Hc|].
    unfold uecho_controller_search, uecho_controller_searchwithesv in E.
    destruct search_msg as (m & Em & Hm & S1 & S2 & S3 & S4 & S5 & S6 & S7). rewrite Em in E. cbn [bind] in E.
    eapply announce_ninv; [exact Hc| | | | |exact E]; [apply (esv_ok m 98); [exact Hm|unfold is_byte; lia]|assumption..].
  - apply bind_ok in H. destruct H as (s & E & H). injection H as <-. cbn [co_ctrl] in *. apply c_with_node_inv; [exact Hc|].
    unfold uecho_controller_searchobject, uecho_controller_searchobjectwithesv in E.
    destruct search_msg as (m & Em & Hm & S1 & S2 & S3 & S4 & S5 & S6 & S7). rewrite Em in E. cbn [bind] in E.
    rewrite setdst_eq in E. cbn [bind] in E.
    eapply announce_ninv; [exact Hc| | | | |exact E];
      [apply deoj_ok; [apply (esv_ok m 98); [exact Hm|unfold is_byte; lia]|apply eoj3_of_code]|assumption..].
  - injection H as <-. exact Hc.
  - injection H as <-. exact Hc.
  - injection H as <-. exact Hc.
  - injection H as <-. exact Hc.
  - apply bind_ok in H. destruct H as ([[c' ps] b] & E & H). injection H as <-. cbn [co_ctrl] in *.
    unfold uecho_controller_start, uecho_node_start in E. apply bind_ok in E. destruct E as ([[n ps1] b1] & E & E1).
    apply bind_ok in E. destruct E as ([[n2 ps2] b2] & E & E2). injection E2 as <- <- <-. injection E1 as <- _ _.
    destruct (node_announce_ninv _ _ _ _ _ N M E) as [N1 _].
    unfold cinv, addresses. cbn. split; [exact N1|]. split; [constructor|]. split; [constructor|]. split; assumption.
  - apply bind_ok in H. destruct H as ([[c' ps] b] & E & H). injection H as <-. cbn [co_ctrl] in *. destruct Hx as (Aq & Iq & Ar).
    pose proof (api_inv_holds _ _ Aq) as [Hmq _]. pose proof (api_inv_holds _ _ Ar) as [Hmr _].
    unfold postmessage_begin, uecho_controller_sendmessage in E. apply bind_ok in E. destruct E as (s & E & E1).
    cbn [c_with_post c_node] in E. rewrite sendmessage_spec in E; [|exact Hmq|apply in_memory_fits; assumption].
    pose proof (next_tid_range (n_tid (c_node c)) (proj1 N)) as Ht.
    assert (K : ninv (s_node s) /\ msg_ok (s_msg s)).
    { apply (f_equal (fun x => match x with Ok y => (s_node y, s_msg y) | _ => (c_node c, q) end)) in E. cbv iota in E.
      destruct (profile (c_node c)); [destruct (n_addr d)|]; cbn [s_node s_msg] in E; injection E as Ea Eb; rewrite <- Ea, <- Eb;
        (split; [apply ninv_tid; [exact N|lia]|apply stamp_ok || apply settid_ok; exact Hmq]). }
    destruct K as [K1 K2].
    apply (f_equal (fun x => match x with Ok y => fst (fst y) | _ => c end)) in E1. cbv iota in E1. cbn [fst] in E1. rewrite <- E1.
    unfold cinv, addresses. cbn [c_with_post c_with_node c_node c_nodes c_req c_res mptr_ok].
    split; [exact K1|]. split; [exact Sh|]. split; [exact Nd|]. split; assumption.
  - injection H as <-. exact (conj N (conj Sh (conj Nd (conj I I)))).
  - injection H as <-. unfold cinv, addresses. cbn [co_ctrl c_with_post c_node c_nodes c_req c_res].
    split; [exact N|]. split; [exact Sh|]. split; [exact Nd|]. split; [destruct (c_req c); exact I|destruct (c_res c); exact I].
Qed.

Lemma crun_ok : forall c h c', cinv c -> crun le net snet db c h c' -> cinv c' /\ cmem_ok c'.
Proof.
  intros c h c' Hc H. revert Hc. induction H as [c M|c x out h c' Hx M S R IH]; intros Hc; [auto|].
  apply IH. assert (M' : cmem_ok (co_ctrl out)) by (inversion R; assumption). exact (cstep_ok c x out Hc M M' Hx S).
Qed.

Lemma new_ctrl_ok : forall c, new_ctrl le net db c -> cinv c /\ c_nodes c = [] /\ new_node le net db (c_node c).
Proof.
  intros c (fr & b & posts & (F1 & F2 & F3 & F4 & F5) & H). unfold uecho_controller_new in H. apply bind_ok in H. destruct H as ([n ps] & E & H).
  apply (f_equal (fun x => match x with Ok y => fst y | _ => c end)) in H. cbv iota in H. cbn [fst snd] in H. rewrite <- H. clear H.
  assert (Hn : new_node le net db n) by (exists (fr_tid fr), (fr_junk fr), (fr_man fr), (fr_uniq fr), ps; auto).
  destruct (new_node_ok _ _ _ _ Hdb Hn) as (A & _).
  split; [|split; [reflexivity|exact Hn]]. unfold cinv, addresses. cbn. split; [exact A|]. split; [constructor|]. split; [constructor|]. auto.
Qed.

Lemma api_ctrl_ok : forall c, api_ctrl le net snet db c -> cinv c /\ cmem_ok c.
Proof.
  intros c (c0 & h & H0 & H). apply new_ctrl_ok in H0. destruct H0 as [H0 _]. exact (crun_ok _ _ _ H0 H).
Qed.
End Listener.
