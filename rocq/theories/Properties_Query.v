(* C84: what a message says about itself, whether it tells that an answer will come, and
   what a list of objects holds. *)
From Coq Require Import String ZArith List Bool Lia ZifyBool ZifyNat.
From Verif Require P_NodeAlive.
From Verif Require Import CSem M_Const M_Misc M_Property M_Message M_PropertyList M_Object M_Node M_NodeListener M_Controller M_Query
  StdDB_Data M_Std Spec_Frame Spec_Message Spec_Map Spec_Object Spec_Node Spec_Request Run_Object Run_Node P_Base P_Misc
  P_Message P_Encode P_MsgApi P_PropertyList P_Object P_ObjectRun P_ObjectReach P_Std P_Node P_Request Properties_Object
  P_NodeReach P_NodeProfile P_NodeInv P_NodeRun P_NodeProps P_RequestProps P_RequestApi P_NodeSafe Properties_Node Properties_Message
  Properties_Request.
Import ListNotations.
Open Scope Z_scope.
Ltac Zify.zify_post_hook ::= Z.div_mod_to_equations.

(* ---- the questions a message answers ---- *)

(* [m] came out of a datagram that holds the frame [f], sent from [ra] to [la] *)
Definition came (le : bool) (m : msg) (f : frame) (rest : list Z) (la ra : option string) : Prop :=
  frame_ok f /\ buffer (enc_frame f ++ rest)
  /\ exists m0, api_msg le m0 /\ uecho_message_parsepacket m0 (enc_frame f ++ rest) la ra = Ok (true, m).

Lemma came_shows : forall le m f rest la ra, came le m f rest la ra -> shows le m f.
Proof.
  intros le m f rest la ra (F & B & m0 & A & E).
  destruct (C02_parse_iff_frame le m0 _ A B) as [_ P]. destruct (P f rest F eq_refl) as (m' & P1 & P2).
  unfold uecho_message_parsepacket in E. rewrite P1 in E. cbn [bind negb] in E. injection E as <-.
  revert P2. clear. unfold shows. destruct la, ra; cbn [uecho_message_setsourceaddress]; destruct m'; exact (fun x => x).
Qed.

Lemma came_from : forall le m f rest la ra, came le m f rest la ra ->
  m_ehd1 m = 16 /\ m_ehd2 m = 129 /\ m_from m = from_of la ra /\ m_to m = None.
Proof.
  intros le m f rest la ra (F & B & m0 & A & E). pose proof (api_inv_holds _ _ A) as [I [H1 H2]].
  pose proof (parse_spec m0 _ I (proj1 B) (proj2 B)) as P.
  rewrite dec_enc in P by assumption.
  unfold uecho_message_parsepacket in E. rewrite P in E. cbn [bind negb] in E. injection E as <-.
  revert H1 H2. clear. unfold msg_of_frame. destruct (f_body f), la, ra; cbn; auto.
Qed.

(* the services, by number *)
Definition write_requests : list Z := [96; 97; 110].
Definition read_requests : list Z := [98; 110].
Definition notify_requests : list Z := [99; 116].
Definition write_answers : list Z := [113; 126; 80; 94].
Definition read_answers : list Z := [114; 126; 82; 94].
Definition notify_answers : list Z := [115; 122; 83].

(* Whatever datagram a message was made from, in whatever message it was stored: the
   message says the sender, the objects, the header and the kind of service the datagram
   has.  0x51 counts as no answer (C10), and no message knows where it was sent to. *)
Theorem C84_says_partial : forall le m f rest la ra, came le m f rest la ra ->
  (forall c, uecho_message_issourceobjectcode m c = Ok (c =? eoj_code (f_seoj f)))
  /\ (forall c, uecho_message_isdestinationobjectcode m c = Ok (c =? eoj_code (f_deoj f)))
  /\ uecho_message_getehd1 m = 16 /\ uecho_message_getehd2 m = 129
  /\ (forall a, uecho_message_issourceaddress m (Some a) = true <-> from_of la ra = Some a)
  /\ (uecho_message_iswriterequest m = true <-> In (f_esv f) write_requests)
  /\ (uecho_message_isreadrequest m = true <-> In (f_esv f) read_requests)
  /\ (uecho_message_isnotifyrequest m = true <-> In (f_esv f) notify_requests)
  /\ (uecho_message_iswriteresponse m = true <-> In (f_esv f) write_answers)
  /\ (uecho_message_isreadresponse m = true <-> In (f_esv f) read_answers)
  /\ (uecho_message_isnotifyresponse m = true <-> In (f_esv f) notify_answers)
  /\ (uecho_message_isnotification m = true <-> f_esv f = 115)
  /\ (uecho_message_isrequest m = true <-> In (f_esv f) (write_requests ++ read_requests ++ notify_requests))
  /\ (uecho_message_isresponse m = true <-> In (f_esv f) (write_answers ++ read_answers ++ notify_answers))
  /\ (uecho_message_isresponserequired m = true <-> In (f_esv f) [97; 98; 99; 110; 116]).
Proof.
  intros le m f rest la ra C. destruct (came_shows _ _ _ _ _ _ C) as (_ & S1 & S2 & S3 & _).
  destruct (came_from _ _ _ _ _ _ C) as (H1 & H2 & Hf & _). unfold uecho_message_getesv in S3.
  unfold uecho_message_issourceobjectcode, uecho_message_isdestinationobjectcode. rewrite S1, S2. cbn [bind].
  split; [intros c; rewrite Z.eqb_sym; reflexivity|]. split; [intros c; rewrite Z.eqb_sym; reflexivity|].
  split; [exact H1|]. split; [exact H2|]. split.
  { intros a. unfold uecho_message_issourceaddress, text_eq. rewrite Hf. destruct (from_of la ra) as [x|].
    - rewrite String.eqb_eq. split; [intros ->; reflexivity|intros E; injection E; auto].
    - split; discriminate. }
  unfold uecho_message_iswriterequest, uecho_message_isreadrequest, uecho_message_isnotifyrequest, uecho_message_iswriteresponse,
    uecho_message_isreadresponse, uecho_message_isnotifyresponse, uecho_message_isnotification, uecho_message_isrequest,
    uecho_message_isresponse, uecho_message_isresponserequired.
  rewrite S3. clear. generalize (f_esv f). intros e.
  unfold uecho_esv_isnotification, uecho_esv_isrequest, uecho_esv_isresponse, uecho_esv_iswriterequest, uecho_esv_isreadrequest,
    uecho_esv_isnotifyrequest, uecho_esv_iswriteresponse, uecho_esv_isreadresponse, uecho_esv_isnotifyresponse,
    uecho_message_requestesv2responseesv, write_requests, read_requests, notify_requests, write_answers, read_answers, notify_answers,
    ESV_SetI, ESV_SetC, ESV_Get, ESV_INF_REQ, ESV_SetGet, ESV_Set_Res, ESV_Get_Res,
    ESV_INF, ESV_INFC, ESV_INFC_Res, ESV_SetGet_Res, ESV_SetI_SNA, ESV_Get_SNA, ESV_INF_SNA, ESV_SetGet_SNA.
  cbn [In app]. do 9 (split; [split; intros; lia|]).
  destruct (Z.eqb_spec e 97), (Z.eqb_spec e 98), (Z.eqb_spec e 99), (Z.eqb_spec e 110), (Z.eqb_spec e 116);
    split; intros; try reflexivity; try discriminate; lia.
Qed.
Print Assumptions C84_says_partial.

(* not so for the address a datagram was sent to *)
Theorem C84_destination_refuted : exists m f, came true m f [] here (Some there)
  /\ uecho_message_isdestinationaddress m here = false /\ uecho_message_issourceaddress m (Some there) = true.
Proof.
  exists (req_of (ask 98 (Plain [(128, [])])) here (Some there)), (ask 98 (Plain [(128, [])])).
  assert (F : frame_ok (ask 98 (Plain [(128, [])])) /\ bytes_ok (enc_frame (ask 98 (Plain [(128, [])]))))
    by (apply frame_checks; vm_compute; reflexivity).
  split; [|split; vm_compute; reflexivity]. split; [apply F|]. split.
  - rewrite app_nil_r. split; [apply F|]. unfold OBJ_MAX. cbn. lia.
  - exists uecho_message_new. split; [constructor|vm_compute; reflexivity].
Qed.
Print Assumptions C84_destination_refuted.

(* ---- is there going to be an answer? ---- *)

Lemma not_asked : forall le net dec n f rest la ra r, receives le net dec n f rest la ra r -> ~ request_esv (f_esv f) -> r_answer r = [].
Proof.
  intros le net dec n f rest la ra r (Hn & Hf & Hb & H) Q. destruct (C25_ignored le net dec n _ la ra Hn Hb) as (r' & E & _ & _ & A & _).
  - intros f' rest' D. rewrite dec_enc in D by assumption. injection D as <- <-. left. exact Q.
  - rewrite H in E. injection E as ->. exact A.
Qed.

Lemma answer_cases : forall le net dec n f rest la ra r p,
  receives le net dec n f rest la ra r -> In p (r_answer r) ->
  request_esv (f_esv f) /\ exists e b all, post_bytes p = wire_msg (rmsg (reply f e b))
  /\ answer_esv (f_esv f) all = Some e.
Proof.
  intros le net dec n f rest la ra r p R I.
  assert (Q : request_esv (f_esv f)).
  { unfold request_esv. destruct (in_dec Z.eq_dec (f_esv f) [96; 97; 98; 99; 110; 116]) as [X|X]; [exact X|].
    exfalso. rewrite (not_asked _ _ _ _ _ _ _ _ _ R X) in I. destruct I. }
  split; [exact Q|]. pose proof R as (Hn & Hf & Hb & H).
  destruct (uecho_node_getobjectbycode n (dest f)) as [o|] eqn:G.
  - destruct (request_effects _ _ _ _ _ _ _ _ _ _ R G Q) as (_ & ns & b & all & EF & _).
    rewrite (ef_answer _ _ _ _ _ _ _ _ _ _ EF) in I. destruct (answer_esv (f_esv f) all) as [e|] eqn:A; [|destruct I].
    exists e, b, all. split; [|exact A]. unfold reply_posts in I.
    destruct (e =? 115); [destruct I as [<-|[]]; reflexivity|]. destruct (from_of la ra) as [x|]; [destruct I as [<-|[]]; reflexivity|destruct I].
  - exfalso. destruct (C25_ignored le net dec n _ la ra Hn Hb) as (r' & E & _ & _ & A & _).
    + intros f' rest' D. rewrite dec_enc in D by assumption. injection D as <- <-. right. unfold has_object. rewrite G. tauto.
    + rewrite H in E. injection E as ->. rewrite A in I. destruct I.
Qed.

Lemma wire_esv : forall f e b e' b', frame_ok f -> wire_msg (rmsg (reply f e b)) = enc_frame (mkFrame (f_tid f) (f_deoj f) (f_seoj f) e' b') -> e = e'.
Proof.
  intros [[t0 t1] [[s0 s1] s2] [[d0 d1] d2] e0 b0] e b e' b' _ E.
  unfold enc_frame, enc_eoj in E. cbn [f_tid f_seoj f_deoj f_esv f_body fst snd app] in E.
  unfold wire_msg in E. destruct b; cbn in E; injection E; auto.
Qed.

(* [m] is the request as the device's program sees it; [a] is where it came from.  The
   full claim is that a message requires a response exactly when the device it is for
   answers it; proved: a request that requires one is answered exactly once, except the
   notification request 0x74; one that does not is answered only by the refusal 0x50 of a
   write; what is no request is not answered. *)
Theorem C84_answer_partial : forall le net dec n f rest la a r m,
  receives le net dec n f rest la (Some a) r -> came le m f rest la (Some a) -> has_object n (dest f) ->
  (uecho_message_isresponserequired m = true -> f_esv f <> 116 -> exists p, r_answer r = [p])
  /\ (uecho_message_isresponserequired m = false -> short_data n (dest f) ->
        forall p, In p (r_answer r) ->
        f_esv f = 96 /\ exists b, p = PSend a (enc_frame (mkFrame (f_tid f) (f_deoj f) (f_seoj f) 80 b)))
  /\ (uecho_message_isrequest m = false -> r_answer r = []).
Proof.
  intros le net dec n f rest la a r m R C O.
  destruct (C84_says_partial _ _ _ _ _ _ C) as (_ & _ & _ & _ & _ & _ & _ & _ & _ & _ & _ & _ & Q & _ & Rq).
  split; [|split].
  - intros H N. apply Rq in H. assert (L : length (r_answer r) = 1%nat).
    { eapply C24_answered; [exact R|exact O|]. cbn [In] in *. lia. }
    destruct (r_answer r) as [|p [|? ?]]; [discriminate|eauto|discriminate].
  - intros H Sh p I. destruct (C24_answer_partial _ _ _ _ _ _ _ _ _ _ R Sh I) as (esv & b & E & _ & _ & V & W).
    destruct (C24_at_most_one _ _ _ _ _ _ _ _ _ R) as (_ & A1 & A2).
    assert (N : ~ In (f_esv f) [97; 98; 99; 110; 116]) by (intros X; apply Rq in X; congruence).
    assert (E96 : f_esv f = 96).
    { destruct (Z.eq_dec (f_esv f) 96) as [X|X]; [exact X|]. exfalso.
      assert (Z0 : ~ request_esv (f_esv f)) by (unfold request_esv; cbn [In] in *; lia).
      rewrite (not_asked _ _ _ _ _ _ _ _ _ R Z0) in I. destruct I. }
    split; [exact E96|]. rewrite E96 in V. cbn in V.
    assert (esv = 80) by (destruct V as [V|[V|V]]; [discriminate|injection V; auto|lia]). subst esv. cbv zeta in E.
    destruct p as [b'|a' b']; cbn [post_bytes] in E.
    + apply A1 in I. lia.
    + apply A2 in I. injection I as <-. exists b. rewrite E. reflexivity.
  - intros H. eapply not_asked; [exact R|]. intros X.
    assert (uecho_message_isrequest m = true); [|congruence]. apply Q. unfold request_esv in X. cbn [In app write_requests read_requests notify_requests] in *. lia.
Qed.
Print Assumptions C84_answer_partial.

(* an INFC for two properties the device has: an answer is required and none comes *)
Definition infc2 : frame := ask 116 (Plain [(128, []); (129, [])]).
Theorem C84_infc_refuted : exists n f r m,
  receives true net_up yes n f [] here (Some there) r /\ came true m f [] here (Some there) /\ has_object n (dest f)
  /\ uecho_message_isresponserequired m = true /\ uecho_message_isrequest m = true /\ r_answer r = [].
Proof.
  exists node3, infc2, (react yes node3 infc2), (req_of infc2 here (Some there)).
  split; [apply react_receives; [exact node3_api|vm_compute; reflexivity..]|].
  assert (F : frame_ok infc2 /\ bytes_ok (enc_frame infc2)) by (apply frame_checks; vm_compute; reflexivity).
  split.
  { split; [apply F|]. split.
    - rewrite app_nil_r. split; [apply F|]. unfold OBJ_MAX. cbn. lia.
    - exists uecho_message_new. split; [constructor|vm_compute; reflexivity]. }
  split; [vm_compute; discriminate|]. split; [vm_compute; reflexivity|]. split; [vm_compute; reflexivity|]. vm_compute; reflexivity.
Qed.
Print Assumptions C84_infc_refuted.

(* The answer is recognised: whoever receives the answer [p] to the request [m] gets a
   message [g] that is a response, is the response to [m], and names the objects the other
   way round. *)
Theorem C84_recognised_partial : forall le net dec n f rest la a r m p m0 la' ra',
  receives le net dec n f rest la (Some a) r -> came le m f rest la (Some a) -> short_data n (dest f) -> In p (r_answer r) ->
  len (post_bytes p) <= OBJ_MAX -> api_msg le m0 ->
  exists g, uecho_message_parsepacket m0 (post_bytes p) la' ra' = Ok (true, g)
  /\ uecho_message_isresponse g = true /\ uecho_message_isrequest g = false
  /\ uecho_message_isresponsemessage le m g = true
  /\ uecho_message_issourceobjectcode g (eoj_code (f_deoj f)) = Ok true
  /\ uecho_message_isdestinationobjectcode g (eoj_code (f_seoj f)) = Ok true.
Proof.
  intros le net dec n f rest la a r m p m0 la' ra' R C Sh I Lp A.
  destruct (C24_answer_partial _ _ _ _ _ _ _ _ _ _ R Sh I) as (esv & b & E & F & _ & V & _). cbv zeta in E, F.
  set (f' := mkFrame (f_tid f) (f_deoj f) (f_seoj f) esv b) in *.
  assert (B : buffer (enc_frame f' ++ [])).
  { rewrite app_nil_r. split; [|rewrite <- E; exact Lp]. apply enc_frame_bytes. exact F. }
  destruct (C02_parse_iff_frame le m0 _ A B) as [_ P]. destruct (P f' [] F eq_refl) as (g0 & P1 & P2).
  assert (Pk : exists g, uecho_message_parsepacket m0 (enc_frame f' ++ []) la' ra' = Ok (true, g)).
  { unfold uecho_message_parsepacket. rewrite P1. cbn [bind negb]. eauto. }
  destruct Pk as (g & Pk). assert (Cg : came le g f' [] la' ra') by (split; [exact F|split; [exact B|eauto]]).
  exists g. rewrite app_nil_r in Pk. rewrite E. split; [exact Pk|].
  destruct (C84_says_partial _ _ _ _ _ _ Cg) as (O1 & O2 & _ & _ & _ & _ & _ & _ & _ & _ & _ & _ & Q & Rs & _).
  assert (Esv : request_esv (f_esv f) /\ In esv [113; 114; 115; 126; 122; 80; 82; 83; 94] ).
  { destruct (answer_cases _ _ _ _ _ _ _ _ _ _ R I) as (Q0 & e & b' & all & Ee & Ec).
    split; [exact Q0|]. assert (X : e = esv) by (pose proof R as (_ & Hf & _); eapply (wire_esv f); [exact Hf|rewrite <- Ee; exact E]). subst e.
    unfold request_esv in Q0. cbn [In] in Q0. clear - Q0 Ec. revert Ec. generalize dependent (f_esv f). intros e Q0.
    destruct Q0 as [<-|[<-|[<-|[<-|[<-|[<-|[]]]]]]], all; cbn; intros Ec; try discriminate Ec; injection Ec as <-; tauto. }
  destruct Esv as [Q0 Es]. cbn [f_esv] in *.
  split; [apply Rs; cbn [f_esv f']; cbn [In app write_answers read_answers notify_answers] in *; tauto|].
  split.
  { destruct (uecho_message_isrequest g) eqn:X; [|reflexivity]. exfalso. pose proof (proj1 Q eq_refl) as Y. cbn [f_esv f' In app write_requests read_requests notify_requests] in *. lia. }
  split.
  { destruct (came_shows _ _ _ _ _ _ C) as (T1 & _ & _ & T2 & _). destruct (came_shows _ _ _ _ _ _ Cg) as (T3 & _ & _ & T4 & _).
    unfold uecho_message_getesv in *. unfold uecho_message_isresponsemessage, uecho_message_gettid. rewrite T1, T3, T2, T4. cbn [f_tid f_esv f'].
    rewrite Z.eqb_refl. cbn [negb]. unfold request_esv in Q0. cbn [In] in *. destruct (Z.eqb_spec (f_esv f) esv); [lia|reflexivity]. }
  rewrite O1, O2. cbn [f_seoj f_deoj f']. rewrite !Z.eqb_refl. split; reflexivity.
Qed.
Print Assumptions C84_recognised_partial.

(* a write to the air conditioner, accepted and refused *)
Example C84_example :
  let f := ask 97 (Plain [(128, [49])]) in
  let m := req_of f here (Some there) in
  came true m f [] here (Some there) /\ uecho_message_isresponserequired m = true
  /\ (exists r p, receives true net_up yes node3 f [] here (Some there) r /\ has_object node3 (dest f) /\ short_data node3 (dest f)
        /\ r_answer r = [p] /\ len (post_bytes p) = 14)
  /\ (let g := ask 96 (Plain [(240, [49])]) in
      came true (req_of g here (Some there)) g [] here (Some there)
      /\ uecho_message_isresponserequired (req_of g here (Some there)) = false
      /\ exists r p, receives true net_up yes node3 g [] here (Some there) r /\ r_answer r = [p]).
Proof.
  cbv zeta.
  assert (X : forall g, dec_frame (enc_frame g) = Some (g, []) -> forallb (fun b => (0 <=? b) && (b <? 256)) (enc_frame g) = true ->
     (len (enc_frame g) <=? 1000) = true -> uecho_message_parsepacket uecho_message_new (enc_frame g) here (Some there) = Ok (true, req_of g here (Some there)) ->
     came true (req_of g here (Some there)) g [] here (Some there)).
  { intros g D B L P. destruct (frame_checks _ B D) as [F B']. split; [exact F|]. rewrite app_nil_r. split.
    - split; [exact B'|unfold OBJ_MAX; lia].
    - exists uecho_message_new. split; [constructor|exact P]. }
  split; [apply X; vm_compute; reflexivity|]. split; [vm_compute; reflexivity|]. split.
  - eexists (react yes node3 (ask 97 (Plain [(128, [49])]))), _.
    split; [apply react_receives; [exact node3_api|vm_compute; reflexivity..]|].
    split; [vm_compute; discriminate|]. split; [apply short_check; vm_compute; reflexivity|].
    split; [vm_compute; reflexivity|reflexivity].
  - split; [apply X; vm_compute; reflexivity|]. split; [vm_compute; reflexivity|].
    eexists (react yes node3 (ask 96 (Plain [(240, [49])]))), _.
    split; [apply react_receives; [exact node3_api|vm_compute; reflexivity..]|]. vm_compute; reflexivity.
Qed.

(* ---- lists of objects ---- *)

Fixpoint set_all (db : list obj) (junk : nat -> Z) (l : list obj) (codes : list Z) : res (list obj) :=
  match codes with
  | [] => Ok l
  | c :: r => do l' <- uecho_objectlist_set db junk l c ;; set_all db junk l' r
  end.

(* the codes in the order they came first *)
Fixpoint firsts (seen codes : list Z) : list Z :=
  match codes with
  | [] => []
  | c :: r => if existsb (Z.eqb c) seen then firsts seen r else c :: firsts (seen ++ [c]) r
  end.

Lemma getbycode_none : forall l c, uecho_objectlist_getbycode l c = None <-> existsb (Z.eqb c) (map uecho_object_getcode l) = false.
Proof.
  induction l as [|o l IH]; intros c; [split; reflexivity|]. cbn [uecho_objectlist_getbycode map existsb].
  rewrite (Z.eqb_sym c). destruct (uecho_object_getcode o =? c); [split; discriminate|]. exact (IH c).
Qed.

Lemma getbycode_app : forall l x c, uecho_objectlist_getbycode l c <> None -> uecho_objectlist_getbycode (l ++ x) c = uecho_objectlist_getbycode l c.
Proof.
  induction l as [|o l IH]; intros x c H; [destruct H; reflexivity|]. cbn [app uecho_objectlist_getbycode] in *.
  destruct (uecho_object_getcode o =? c); [reflexivity|apply IH; exact H].
Qed.

(* Setting codes of three bytes in a list, in any order and any number of times: every
   object that was there stays what it was, and the list then has one more object for every
   code it did not have, in the order asked for. *)
Theorem C84_objects_set_partial : forall junk l codes,
  (forall i, is_byte (junk i)) -> Forall (fun c => 0 <= c <= 16777215) codes ->
  exists l', set_all std_db junk l codes = Ok (l ++ l')
  /\ map uecho_object_getcode l' = firsts (map uecho_object_getcode l) codes
  /\ (forall c, uecho_objectlist_getbycode l c <> None -> uecho_objectlist_getbycode (l ++ l') c = uecho_objectlist_getbycode l c)
  /\ (forall c, In c codes -> exists o, uecho_objectlist_getbycode (l ++ l') c = Some o /\ uecho_object_getcode o = c).
Proof.
  intros junk l codes Hj. revert l. induction codes as [|c r IH]; intros l F.
  - exists []. rewrite app_nil_r. split; [reflexivity|]. split; [reflexivity|]. split; [auto|intros c []].
  - inversion F as [|? ? Hc Fr]; subst. cbn [set_all firsts]. unfold uecho_objectlist_set.
    destruct (uecho_objectlist_getbycode l c) as [o|] eqn:G.
    + cbn [bind]. destruct (IH l Fr) as (l' & E & M & K & I). exists l'. split; [exact E|].
      assert (X : existsb (Z.eqb c) (map uecho_object_getcode l) = true).
      { destruct (existsb (Z.eqb c) (map uecho_object_getcode l)) eqn:X; [reflexivity|]. apply getbycode_none in X. congruence. }
      rewrite X. split; [exact M|]. split; [exact K|]. intros c' [<-|H]; [|apply I; exact H].
      exists o. split; [rewrite K by congruence; exact G|]. apply (getbycode_in _ _ _ G).
    + destruct (setcode_good std_db junk c std_db_ok std_159 Hj) as (o & ann & E & _). rewrite E. cbn [bind fst].
      pose proof (P_NodeAlive.setcode_code _ _ _ _ _ _ Hc E) as Ec.
      destruct (IH (l ++ [o]) Fr) as (l' & E' & M & K & I). exists (o :: l'). rewrite <- app_assoc in *. cbn [app] in *.
      rewrite (proj1 (getbycode_none _ _) G).
      split; [exact E'|]. rewrite map_app in M. cbn [map] in *. rewrite Ec in M. split; [f_equal; assumption|].
      split.
      * intros c' H. rewrite K; [apply getbycode_app; exact H|]. rewrite getbycode_app by exact H. exact H.
      * intros c' [<-|H]; [|apply I; exact H].
        assert (Y : uecho_objectlist_getbycode (l ++ [o]) c = Some o).
        { clear - G Ec. induction l as [|x l IHl]; cbn [app uecho_objectlist_getbycode] in *.
          - rewrite Ec, Z.eqb_refl. reflexivity.
          - destruct (uecho_object_getcode x =? c); [discriminate|auto]. }
        exists o. split; [|exact Ec]. rewrite K; [exact Y|]. rewrite Y. discriminate.
Qed.
Print Assumptions C84_objects_set_partial.

(* a code of four bytes is not found afterwards, and setting it again adds another object *)
Theorem C84_objects_set_refuted : exists l,
  set_all std_db zeros [] [16777217; 16777217] = Ok l
  /\ uecho_objectlist_getbycode l 16777217 = None /\ map uecho_object_getcode l = [1; 1].
Proof.
  eexists (match set_all std_db zeros [] [16777217; 16777217] with Ok l => l | _ => [] end).
  split; [vm_compute; reflexivity|]. split; vm_compute; reflexivity.
Qed.
Print Assumptions C84_objects_set_refuted.

(* an air conditioner, a lamp and the air conditioner again *)
Example C84_objects_example : exists l,
  Forall (fun c => 0 <= c <= 16777215) [77825; 168193; 77825]
  /\ set_all std_db zeros [] [77825; 168193; 77825] = Ok l /\ map uecho_object_getcode l = [77825; 168193].
Proof.
  eexists (match set_all std_db zeros [] [77825; 168193; 77825] with Ok l => l | _ => [] end).
  split; [repeat constructor; lia|]. split; vm_compute; reflexivity.
Qed.

(* ---- addresses, the header, and messages from oneself ---- *)

(* An address compares equal to the one that was set last and to no other; no address (NULL)
   is the address of any message.  Setting one end leaves the other. *)
Theorem C84_address : forall m a b,
  (uecho_message_issourceaddress (uecho_message_setsourceaddress (Some a) m) b = true <-> b = Some a)
  /\ (uecho_message_isdestinationaddress (uecho_message_setdestinationaddress (Some a) m) b = true <-> b = Some a)
  /\ uecho_message_issourceaddress (uecho_message_setdestinationaddress (Some a) m) b = uecho_message_issourceaddress m b
  /\ uecho_message_isdestinationaddress (uecho_message_setsourceaddress (Some a) m) b = uecho_message_isdestinationaddress m b
  /\ uecho_message_issourceaddress m None = false /\ uecho_message_isdestinationaddress m None = false
  /\ uecho_message_issourceaddress uecho_message_new b = false /\ uecho_message_isdestinationaddress uecho_message_new b = false.
Proof.
  assert (T : forall a b, text_eq (Some a) b = true <-> b = Some a).
  { intros a [b|]; cbn [text_eq]; [rewrite String.eqb_eq; split; [intros ->; reflexivity|intros E; injection E; auto]|split; discriminate]. }
  intros m a b. split; [apply T|]. split; [apply T|]. split; [destruct m; reflexivity|]. split; [destruct m; reflexivity|].
  unfold uecho_message_issourceaddress, uecho_message_isdestinationaddress.
  split; [destruct (m_from m); reflexivity|]. split; [destruct (m_to m); reflexivity|]. split; reflexivity.
Qed.
Print Assumptions C84_address.

(* Setting the header changes the first two bytes of the datagram and nothing else; with any
   header but 0x10 0x81 no receiver takes it for a message, whatever it received before. *)
Theorem C84_header : forall le m a b, api_msg le m -> in_memory m -> is_byte a -> is_byte b ->
  let m' := uecho_message_setehd1 a (uecho_message_setehd2 b m) in
  uecho_message_getehd1 m' = a /\ uecho_message_getehd2 m' = b
  /\ uecho_message_setehd2 b (uecho_message_setehd1 a m) = m'
  /\ exists t, uecho_message_getbytes m = Ok (16 :: 129 :: t) /\ uecho_message_getbytes m' = Ok (a :: b :: t)
  /\ ((a, b) <> (16, 129) -> forall le' m0, api_msg le' m0 -> buffer (a :: b :: t) ->
        exists m1, uecho_message_parse m0 (a :: b :: t) = Ok (false, m1)).
Proof.
  intros le m a b A M Ha Hb m'. pose proof (api_inv_holds _ _ A) as [I [H1 H2]].
  split; [destruct m; reflexivity|]. split; [destruct m; reflexivity|]. split; [destruct m; reflexivity|].
  pose proof (in_memory_fits m I M) as F.
  assert (I' : msg_ok m').
  { destruct I as (_ & _ & I). split; [destruct m; exact Ha|]. split; [destruct m; exact Hb|]. destruct m; exact I. }
  assert (W : exists t, wire_msg m = 16 :: 129 :: t /\ wire_msg m' = a :: b :: t).
  { exists (skipn 2 (wire_msg m)). split; [unfold wire_msg; rewrite H1, H2; reflexivity|]. destruct m; reflexivity. }
  destruct W as (t & W1 & W2). exists t.
  assert (F' : fits m') by (unfold fits, len in *; rewrite W2; rewrite W1 in F; exact F).
  split; [rewrite <- W1; apply getbytes_spec; assumption|]. split; [rewrite <- W2; apply getbytes_spec; assumption|].
  intros Ne le' m0 A0 B0. destruct (C01_parse_safe le' m0 _ A0 B0) as ([] & m1 & E); [|eauto].
  exfalso. destruct (C02_parse_iff_frame le' m0 _ A0 B0) as [P _]. destruct (proj1 P (ex_intro _ _ E)) as (f & rest & _ & X).
  apply Ne. unfold enc_frame in X. injection X as -> -> _. reflexivity.
Qed.
Print Assumptions C84_header.
Example C84_header_example : api_msg true uecho_message_new /\ in_memory uecho_message_new
  /\ uecho_message_getbytes (uecho_message_setehd2 130 uecho_message_new) = Ok [16; 130; 0; 0; 0; 0; 0; 0; 0; 0; 0; 0].
Proof. split; [constructor|]. split; [vm_compute; discriminate|]. vm_compute. reflexivity. Qed.

(* A message is from a node to the very same object exactly when it came from the node's
   address and names one object twice. *)
Theorem C84_self : forall le n m f rest la ra a, came le m f rest la ra -> n_addr n = Some a ->
  exists b, uecho_node_isselfobjectmessage n m = Ok b
  /\ (b = true <-> from_of la ra = Some a /\ f_seoj f = f_deoj f).
Proof.
  intros le n m f rest la ra a C Ha. destruct (came_shows _ _ _ _ _ _ C) as (_ & S1 & S2 & _).
  destruct (came_from _ _ _ _ _ _ C) as (_ & _ & Hf & _). destruct C as ((_ & _ & Es & Ed & _) & _).
  unfold uecho_node_isselfobjectmessage, uecho_node_isaddress. rewrite Hf, Ha, S1, S2.
  assert (Q : eoj_code (f_seoj f) = eoj_code (f_deoj f) <-> f_seoj f = f_deoj f).
  { split; [|intros ->; reflexivity]. destruct (f_seoj f) as [[x y] z], (f_deoj f) as [[x' y'] z']. destruct Es as (? & ? & ?), Ed as (? & ? & ?).
    unfold byte_val, eoj_code in *. intros E. f_equal; [f_equal|]; lia. }
  destruct (from_of la ra) as [s|]; cbn [negb].
  - destruct (String.eqb_spec a s) as [->|Ne]; cbn [negb bind].
    + eexists. split; [reflexivity|]. rewrite Z.eqb_eq, Q. tauto.
    + eexists. split; [reflexivity|]. split; [discriminate|]. intros [E _]. injection E as ->. contradiction.
  - eexists. split; [reflexivity|]. split; [discriminate|]. intros [E _]. discriminate.
Qed.
Print Assumptions C84_self.

(* The two bytes of a class code are set one by one. *)
Definition all_bytes : list Z := map Z.of_nat (seq 0 256).
Lemma all_bytes_in : forall b, is_byte b -> In b all_bytes.
Proof. intros b B. unfold is_byte in B. unfold all_bytes. apply in_map_iff. exists (Z.to_nat b). split; [lia|]. apply in_seq. lia. Qed.
Lemma class_bytes : forall g k, is_byte g -> is_byte k -> uecho_class_getcode (g, k) = g * 256 + k /\ uecho_class_setcode (g * 256 + k) = (g, k).
Proof.
  assert (C : forallb (fun g => forallb (fun k => (uecho_class_getcode (g, k) =? g * 256 + k)
    && (fst (uecho_class_setcode (g * 256 + k)) =? g) && (snd (uecho_class_setcode (g * 256 + k)) =? k)) all_bytes) all_bytes = true) by (vm_compute; reflexivity).
  intros g k G K. rewrite forallb_forall in C. specialize (C g (all_bytes_in g G)). cbv beta in C. rewrite forallb_forall in C. specialize (C k (all_bytes_in k K)).
  cbv beta in C. destruct (uecho_class_setcode (g * 256 + k)) as [x y]. cbn [fst snd] in C. split; [lia|]. f_equal; lia.
Qed.
Theorem C84_class : forall g k c, is_byte g -> is_byte k ->
  uecho_class_getcode (uecho_class_setclasscode k (uecho_class_setclassgroupcode g c)) = g * 256 + k
  /\ uecho_class_setclassgroupcode g (uecho_class_setclasscode k c) = uecho_class_setcode (g * 256 + k)
  /\ (uecho_class_isdevice (uecho_class_setcode (g * 256 + k)) = true <-> g <= 6).
Proof.
  intros g k c G K. destruct (class_bytes g k G K) as [E1 E2].
  split; [exact E1|]. rewrite E2. split; [reflexivity|]. unfold uecho_class_isdevice, uecho_isdeviceclassgroupcode, ClassGroupDeviceMax. cbn [fst]. lia.
Qed.
Print Assumptions C84_class.

(* the air conditioner of a node writes to itself *)
Example C84_self_example :
  let f := mkFrame (9, 8) (1, 48, 1) (1, 48, 1) 97 (Plain [(128, [49])]) in
  let n := uecho_node_setaddress (Some there) node3 in
  came true (req_of f here (Some there)) f [] here (Some there) /\ n_addr n = Some there
  /\ uecho_node_isselfobjectmessage n (req_of f here (Some there)) = Ok true
  /\ uecho_node_isselfobjectmessage n (req_of (ask 97 (f_body f)) here (Some there)) = Ok false
  /\ uecho_node_isselfobjectmessage (uecho_node_setaddress here node3) (req_of f here (Some there)) = Ok false.
Proof.
  cbv zeta. split.
  { split.
    - assert (D : dec_frame (enc_frame (mkFrame (9, 8) (1, 48, 1) (1, 48, 1) 97 (Plain [(128, [49])])))
        = Some (mkFrame (9, 8) (1, 48, 1) (1, 48, 1) 97 (Plain [(128, [49])]), [])) by (vm_compute; reflexivity).
      apply dec_frame_iff in D; [apply D|]. vm_compute. repeat (apply Forall_cons; [split; [discriminate|reflexivity]|]). apply Forall_nil.
    - split.
      + split; [vm_compute; repeat (apply Forall_cons; [split; [discriminate|reflexivity]|]); apply Forall_nil|vm_compute; discriminate].
      + exists uecho_message_new. split; [constructor|vm_compute; reflexivity]. }
  split; [reflexivity|]. split; [vm_compute; reflexivity|]. split; vm_compute; reflexivity.
Qed.
