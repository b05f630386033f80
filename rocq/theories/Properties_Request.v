(* C24-C32, C33 (requests), C44: what a node does with a received request.
   [le] is the byte order of the host, [net] says which hand-overs to the server succeed,
   [dec] is the behaviour of the registered handlers; all three are arbitrary. *)
From Coq Require Import String ZArith List Bool Lia ZifyBool ZifyNat.
From Verif Require Import CSem M_Const M_Misc M_Property M_Message M_PropertyList M_Object M_Node M_NodeListener
  StdDB_Data M_Std Spec_Frame Spec_Message Spec_Map Spec_Object Spec_Node Spec_Request Run_Object Run_Node P_Base P_Misc
  P_Message P_Encode P_MsgApi P_PropertyList P_Object P_ObjectRun P_ObjectReach P_Std P_Node P_Request Properties_Object
  P_NodeReach P_NodeProfile P_NodeInv P_NodeRun P_NodeProps P_RequestProps P_RequestApi Properties_Node.
Import ListNotations.
Open Scope Z_scope.
Ltac Zify.zify_post_hook ::= Z.div_mod_to_equations.

(* ---- requests for the examples ---- *)

Definition yes : list (hcall * bool) -> hcall -> bool := fun _ _ => true.
Definition no : list (hcall * bool) -> hcall -> bool := fun _ _ => false.
Definition here : option string := Some "10.0.0.1"%string.
Definition there : string := "10.0.0.2"%string.

(* to the air conditioner 0x013001, from the controller 0x05FF01, TID bytes 9 8 *)
Definition ask (esv : Z) (b : body) : frame := mkFrame (9, 8) (5, 255, 1) (1, 48, 1) esv b.

Lemma is_byteb_val : forall l, forallb (fun b => (0 <=? b) && (b <? 256)) l = true -> bytes_ok l.
Proof. intros l H. rewrite forallb_forall in H. apply Forall_forall. intros x I. apply H in I. unfold is_byte. lia. Qed.

Lemma frame_checks : forall f, forallb (fun b => (0 <=? b) && (b <? 256)) (enc_frame f) = true ->
  dec_frame (enc_frame f) = Some (f, []) -> frame_ok f /\ bytes_ok (enc_frame f).
Proof.
  intros f H D. apply is_byteb_val in H. apply dec_frame_iff in D; [|exact H]. tauto.
Qed.

Definition is_ok {A} (x : res A) : bool := match x with Ok _ => true | _ => false end.

(* the reaction of [n] to [f] *)
Definition react (dec : list (hcall * bool) -> hcall -> bool) (n : node) (f : frame) : reaction :=
  match node_receive true net_up dec n (enc_frame f) here (Some there) with
  | Ok r => r
  | _ => mkReaction n [] [] [] []
  end.

Lemma react_receives : forall dec n f,
  api_node true net_up std_db n -> forallb (fun b => (0 <=? b) && (b <? 256)) (enc_frame f) = true ->
  dec_frame (enc_frame f) = Some (f, []) -> (len (enc_frame f) <=? 1000) = true ->
  is_ok (node_receive true net_up dec n (enc_frame f) here (Some there)) = true ->
  receives true net_up dec n f [] here (Some there) (react dec n f).
Proof.
  intros dec n f Hn Hb Hd Hl Hr. destruct (frame_checks _ Hb Hd) as [F B]. split; [exact Hn|]. split; [exact F|].
  rewrite app_nil_r. split.
  - split; [exact B|]. unfold OBJ_MAX, PTRDIFF_MAX. lia.
  - unfold react. revert Hr. clear. generalize (node_receive true net_up dec n (enc_frame f) here (Some there)).
    intros [r|] H; [reflexivity|discriminate].
Qed.

Lemma agreed_check : forall r, forallb snd (r_calls r) = true -> agreed r.
Proof. intros r H. unfold agreed. apply Forall_forall. rewrite forallb_forall in H. exact H. Qed.

Lemma short_check : forall n code,
  match uecho_node_getobjectbycode n code with Some o => forallb (fun p => len (p_data p) <=? 255) (o_props o) | None => true end = true ->
  short_data n code.
Proof.
  intros n code X c d H. unfold node_data in H. destruct (uecho_node_getobjectbycode n code) as [o|]; [|discriminate].
  destruct (uecho_object_getproperty o c) as [p|] eqn:F; [|discriminate]. injection H as <-.
  apply find_code in F. destruct F as [_ I]. rewrite forallb_forall in X. apply X in I. lia.
Qed.

(* the air conditioner is on (0x30), installation location 0x08; handlers 5 and 6 are
   registered for SetC and Get of 0x80, handler 7 for SetGet of 0x81 *)
Definition set_up : list nop :=
  two_devs ++ [NObj 77825 (KStep (OSetData 128 [48]) zeros); NObj 77825 (KStep (OSetData 129 [8]) zeros);
               NObj 77825 (KHandler 97 128 (Some 5%nat)); NObj 77825 (KHandler 98 128 (Some 6%nat));
               NObj 77825 (KHandler 110 129 (Some 7%nat))].
Definition node3 : node := after set_up.
Lemma node3_api : api_node true net_up std_db node3.
Proof.
  apply after_api; [|vm_compute; reflexivity]. unfold set_up. apply Forall_app. split; [apply devs_ok|].
  assert (X : forall c d, 128 <= c <= 255 -> forallb (fun b => (0 <=? b) && (b <? 256)) d = true ->
     nop_ok true std_db (NObj 77825 (KStep (OSetData c d) zeros))).
  { intros c d Hc Hd. apply is_byteb_val in Hd. cbn [nop_ok ocall_ok oop_ok].
    split; [split; [cbn; lia|exact Hd]|]. split; [intros c' E; injection E as <-; unfold epc_code; lia|exact zeros_ok]. }
  constructor; [apply X; [lia|reflexivity]|]. constructor; [apply X; [lia|reflexivity]|].
  repeat (constructor; [exact I|]). constructor.
Qed.

(* ---------- C25: what is not a request for an object of the node changes nothing ---------- *)

(* A datagram that is not a frame, a frame for an object the node does not have, and a
   frame whose ESV is not one of 60 61 62 63 6E 74 (hexadecimal): the node is unchanged,
   nothing is sent and no request handler is called. *)
Theorem C25_ignored : forall le net dec n data la ra,
  api_node le net std_db n -> buffer data ->
  (forall f rest, dec_frame data = Some (f, rest) -> ~ request_esv (f_esv f) \/ ~ has_object n (dest f)) ->
  exists r, node_receive le net dec n data la ra = Ok r
  /\ r_node r = n /\ r_anns r = [] /\ r_answer r = [] /\ r_calls r = [].
Proof.
  intros le net dec n data la ra Hn Hb H. destruct (api_node_ok _ _ _ _ std_db_ok Hn) as [N M].
  destruct (receive_ignored le net dec n data la ra N M Hb) as (told & E).
  - intros f rest E. apply H in E. destruct E as [E|E]; [left; exact E|right]. unfold has_object, dest in E.
    destruct (uecho_node_getobjectbycode n (eoj_code (f_deoj f))); [exfalso; apply E; discriminate|reflexivity].
  - rewrite E. eexists. split; [reflexivity|]. auto.
Qed.
Print Assumptions C25_ignored.

(* a read response, and a request for an object that is not there *)
Example C25_example :
  let f := ask 114 (Plain [(128, [48])]) in
  let g := mkFrame (9, 8) (5, 255, 1) (1, 49, 1) 97 (Plain [(128, [49])]) in
  buffer (enc_frame f) /\ dec_frame (enc_frame f) = Some (f, []) /\ ~ request_esv (f_esv f)
  /\ has_object node2 (dest f)
  /\ buffer (enc_frame g) /\ dec_frame (enc_frame g) = Some (g, []) /\ request_esv (f_esv g) /\ ~ has_object node2 (dest g).
Proof.
  cbv zeta.
  assert (B : forall f, forallb (fun b => (0 <=? b) && (b <? 256)) (enc_frame f) = true -> (len (enc_frame f) <=? 1000) = true -> buffer (enc_frame f)).
  { intros f H L. split; [apply is_byteb_val; exact H|unfold OBJ_MAX, PTRDIFF_MAX; lia]. }
  split; [apply B; vm_compute; reflexivity|]. split; [vm_compute; reflexivity|].
  split; [cbn; unfold not; lia|]. split; [vm_compute; discriminate|].
  split; [apply B; vm_compute; reflexivity|]. split; [vm_compute; reflexivity|]. split; [cbn; tauto|].
  unfold has_object. intros H. apply H. vm_compute. reflexivity.
Qed.

(* ---------- C24: at most one answer, to the right place ---------- *)

Theorem C24_at_most_one : forall le net dec n f rest la ra r,
  receives le net dec n f rest la ra r ->
  (length (r_answer r) <= 1)%nat
  /\ (forall b, In (PAnnounce b) (r_answer r) -> f_esv f = 99)
  /\ (forall a b, In (PSend a b) (r_answer r) -> from_of la ra = Some a).
Proof.
  intros le net dec n f rest la ra r R.
  assert (D : (request_esv (f_esv f) /\ has_object n (dest f)) \/ r_answer r = []).
  { pose proof R as (Hn & Hf & Hb & H).
    destruct (uecho_node_getobjectbycode n (dest f)) eqn:G.
    - destruct (uecho_esv_isrequest (f_esv f)) eqn:Q.
      + left. split; [apply request_isrequest; exact Q|unfold has_object; rewrite G; discriminate].
      + right. destruct (C25_ignored le net dec n _ la ra Hn Hb) as (r' & E & _ & _ & A & _).
        * intros f' rest' E. rewrite dec_enc in E by assumption. injection E as <- <-. left. rewrite <- request_isrequest, Q. discriminate.
        * rewrite H in E. injection E as ->. exact A.
    - right. destruct (C25_ignored le net dec n _ la ra Hn Hb) as (r' & E & _ & _ & A & _).
      + intros f' rest' E. rewrite dec_enc in E by assumption. injection E as <- <-. right. unfold has_object. rewrite G. tauto.
      + rewrite H in E. injection E as ->. exact A. }
  destruct D as [[Q O]|E]; [|rewrite E; cbn; repeat split; intros; contradiction || lia].
  destruct (has_object_some _ _ O) as [o G].
  destruct (request_effects _ _ _ _ _ _ _ _ _ _ R G Q) as (_ & ns & b & all & EF & _).
  rewrite (ef_answer _ _ _ _ _ _ _ _ _ _ EF).
  destruct (answer_esv (f_esv f) all) as [e|] eqn:Ea; [|cbn; repeat split; intros; contradiction || lia].
  unfold reply_posts. destruct (Z.eqb_spec e 115) as [->|Ne].
  - split; [cbn; lia|]. split; [|intros a x [I|[]]; discriminate].
    intros x _. revert Ea. unfold answer_esv, ESV_SetI, ESV_SetC, ESV_SetGet, ESV_Get, ESV_INF_REQ, ESV_INFC,
      ESV_SetI_SNA, ESV_Set_Res, ESV_Get_Res, ESV_Get_SNA, ESV_SetGet_Res, ESV_SetGet_SNA, ESV_INF, ESV_INF_SNA, ESV_INFC_Res.
    destruct all; repeat (match goal with |- context [if ?b then _ else _] => destruct b eqn:? end); intros E; try discriminate; lia.
  - destruct (from_of la ra) as [a|]; [|cbn; repeat split; intros; contradiction || lia].
    split; [cbn; lia|]. split; [intros x [I|[]]; discriminate|]. intros a' x [I|[]]. injection I as <- _. reflexivity.
Qed.
Print Assumptions C24_at_most_one.

(* The answer carries the request's TID, the object codes swapped, the same property codes
   in the same order, and the ESV of the service; it is multicast exactly when its ESV is
   0x73.  The values of the object must fit a frame (see C32). *)
Theorem C24_answer_partial : forall le net dec n f rest la ra r p,
  receives le net dec n f rest la ra r -> short_data n (dest f) -> In p (r_answer r) ->
  exists esv b, let f' := mkFrame (f_tid f) (f_deoj f) (f_seoj f) esv b in
  post_bytes p = enc_frame f' /\ frame_ok f'
  /\ body_codes b = body_codes (f_body f)
  /\ (Some esv = success_esv (f_esv f) \/ Some esv = error_esv (f_esv f) \/ f_esv f = 97 /\ esv = 80)
  /\ (match p with PAnnounce _ => True | PSend _ _ => False end <-> esv = 115).
Proof.
  intros le net dec n f rest la ra r p R Sh I.
  assert (Q : request_esv (f_esv f) /\ has_object n (dest f)).
  { pose proof R as (Hn & Hf & Hb & H).
    destruct (uecho_node_getobjectbycode n (dest f)) eqn:G; [destruct (uecho_esv_isrequest (f_esv f)) eqn:Q|].
    - split; [apply request_isrequest; exact Q|unfold has_object; rewrite G; discriminate].
    - exfalso. destruct (C25_ignored le net dec n _ la ra Hn Hb) as (r' & E & _ & _ & A & _).
      + intros f' rest' E. rewrite dec_enc in E by assumption. injection E as <- <-. left. rewrite <- request_isrequest, Q. discriminate.
      + rewrite H in E. injection E as ->. rewrite A in I. exact I.
    - exfalso. destruct (C25_ignored le net dec n _ la ra Hn Hb) as (r' & E & _ & _ & A & _).
      + intros f' rest' E. rewrite dec_enc in E by assumption. injection E as <- <-. right. unfold has_object. rewrite G. tauto.
      + rewrite H in E. injection E as ->. rewrite A in I. exact I. }
  destruct Q as [Q O]. destruct (has_object_some _ _ O) as [o G].
  assert (Sent : forall e x, In p (reply_posts e (from_of la ra) x) ->
     post_bytes p = x /\ (match p with PAnnounce _ => True | PSend _ _ => False end <-> e = 115)).
  { intros e x. unfold reply_posts. destruct (Z.eqb_spec e 115) as [->|Ne].
    - intros [<-|[]]. cbn. tauto.
    - destruct (from_of la ra); [|intros []]. intros [<-|[]]. cbn. split; [reflexivity|split; [tauto|lia]]. }
  pose proof R as (_ & Hf & _).
  destruct (f_body f) as [ps|s g] eqn:Eb.
  - destruct (plain_answer _ _ _ _ _ _ _ _ _ ps _ R G Q Eb) as (segs & _ & F2 & _ & Hq & A); [intros _ e d _ E; eapply Sh; exact E|].
    rewrite A in I. destruct (answer_esv (f_esv f) _) as [e|] eqn:Ea; [|contradiction].
    destruct (Sent _ _ I) as [S1 S2]. exists e, (Plain (answer_all (f_esv f) (node_data n (dest f)) ps (verdicts o ps segs))).
    cbv zeta. split; [exact S1|]. split.
    { eapply (answer_frame_ok f); [exact Hf|exact Ea|]. rewrite Eb. split; [exact Hq|]. apply answer_all_len. eapply verdicts_len; eauto. }
    split; [cbn [body_codes]; rewrite answer_all_codes by (eapply verdicts_len; eauto); reflexivity|].
    split; [|exact S2]. unfold request_esv in Q. cbn [In] in Q. clear - Q Ea.
    destruct (one (verdicts o ps segs) =? len ps); repeat (destruct Q as [Q|Q]; [rewrite <- Q in *; cbv in Ea; try discriminate; injection Ea as <-; cbv; tauto|]); contradiction.
  - assert (E110 : f_esv f = 110).
    { apply isreq_two; [apply request_isrequest; exact Q|]. pose proof Hf as (_ & _ & _ & _ & _ & Hb). pose proof (body_two _ _ Hb) as B.
      rewrite Eb in B. exact B. }
    destruct (setget_answer _ _ _ _ _ _ _ _ _ s g _ R G E110 Eb) as (s1 & s2 & _ & F1 & F2 & _ & Hq & A); [intros e d _ E; eapply Sh; exact E|].
    cbv zeta in *. rewrite A in I. destruct (Sent _ _ I) as [S1 S2]. eexists _, _. split; [exact S1|]. split; [exact Hq|].
    split; [cbn [body_codes]; rewrite !answer_all_codes by (eapply verdicts_len; eauto); reflexivity|].
    split; [|exact S2]. rewrite E110. destruct (_ =? _); cbv; tauto.
Qed.
Print Assumptions C24_answer_partial.

(* Services that want an answer get one. *)
Theorem C24_answered : forall le net dec n f rest la a r,
  receives le net dec n f rest la (Some a) r -> has_object n (dest f) -> In (f_esv f) [97; 98; 99; 110] ->
  length (r_answer r) = 1%nat.
Proof.
  intros le net dec n f rest la a r R O Q. destruct (has_object_some _ _ O) as [o G].
  assert (Q' : request_esv (f_esv f)) by (unfold request_esv; cbn [In] in *; tauto).
  destruct (request_effects _ _ _ _ _ _ _ _ _ _ R G Q') as (_ & ns & b & all & EF & _).
  rewrite (ef_answer _ _ _ _ _ _ _ _ _ _ EF).
  assert (X : exists e, answer_esv (f_esv f) all = Some e).
  { cbn [In] in Q. repeat (destruct Q as [Q|Q]; [rewrite <- Q; destruct all; eexists; reflexivity|]). contradiction. }
  destruct X as [e ->]. unfold reply_posts, from_of. destruct (e =? 115); reflexivity.
Qed.
Print Assumptions C24_answered.

(* a read of the operating status of the air conditioner *)
Definition get80 : frame := ask 98 (Plain [(128, [])]).
Example C24_example :
  receives true net_up yes node3 get80 [] here (Some there) (react yes node3 get80)
  /\ short_data node3 (dest get80)
  /\ r_answer (react yes node3 get80) = [PSend there (enc_frame (mkFrame (9, 8) (1, 48, 1) (5, 255, 1) 114 (Plain [(128, [48])])))].
Proof.
  split; [apply react_receives; [exact node3_api|vm_compute; reflexivity..]|]. split.
  - apply short_check. vm_compute. reflexivity.
  - vm_compute. reflexivity.
Qed.

(* ---------- C26: accepted writes ---------- *)

(* Every property exists and every handler agrees: each property holds the (last) data
   written to it, every other property of the node keeps its data. *)
Theorem C26_stored : forall le net dec n f rest la ra r ps,
  receives le net dec n f rest la ra r -> write_esv (f_esv f) = true -> f_body f = Plain ps ->
  has_object n (dest f) -> Forall (fun e => node_data n (dest f) (fst e) <> None) ps -> agreed r ->
  (forall c, node_data (r_node r) (dest f) c
             = match last_data ps c with Some d => Some d | None => node_data n (dest f) c end)
  /\ (forall code c, code <> dest f -> node_data (r_node r) code c = node_data n code c).
Proof.
  intros le net dec n f rest la ra r ps R W Eb O Ex Ag. destruct (has_object_some _ _ O) as [o G].
  assert (Q : request_esv (f_esv f)) by (unfold write_esv in W; unfold request_esv; cbn [In]; lia).
  destruct (request_effects _ _ _ _ _ _ _ _ _ _ R G Q) as (_ & ns & b & all & EF & _ & X). rewrite Eb in X.
  destruct X as (segs & E1 & E2 & E3 & _). rewrite W in E3.
  split; [|apply (ef_others _ _ _ _ _ _ _ _ _ _ EF)].
  assert (V : verdicts o ps segs = map (fun _ => true) ps).
  { apply (verdicts_all _ _ _ _ E2). rewrite <- E1. split; [|exact Ag]. eapply Forall_impl; [|exact Ex].
    cbv beta. intros e. rewrite (odata_node _ _ _ G). tauto. }
  intros c. rewrite E3, V. apply write_all_true.
Qed.
Print Assumptions C26_stored.

(* A write of one property (or none) that is accepted: SetC is answered with 0x71 and the
   property code without data, SetI with nothing.  Missing for the full statement: more
   than one property, see C26_many_refuted. *)
Theorem C26_answer_partial : forall le net dec n f rest la a r ps,
  receives le net dec n f rest la (Some a) r -> write_esv (f_esv f) = true -> f_body f = Plain ps ->
  has_object n (dest f) -> Forall (fun e => node_data n (dest f) (fst e) <> None) ps -> agreed r ->
  (length ps <= 1)%nat ->
  r_answer r = if f_esv f =? 96 then []
    else [PSend a (enc_frame (mkFrame (f_tid f) (f_deoj f) (f_seoj f) 113 (Plain (map (fun e => (fst e, [])) ps))))].
Proof.
  intros le net dec n f rest la a r ps R W Eb O Ex Ag L. destruct (has_object_some _ _ O) as [o G].
  assert (Q : request_esv (f_esv f)) by (unfold write_esv in W; unfold request_esv; cbn [In]; lia).
  assert (Nr : read_esv (f_esv f) = false) by (unfold write_esv, read_esv in *; lia).
  destruct (plain_answer _ _ _ _ _ _ _ _ _ ps _ R G Q Eb) as (segs & E1 & F2 & _ & _ & A); [congruence|].
  assert (V : verdicts o ps segs = map (fun _ => true) ps).
  { apply (verdicts_all _ _ _ _ F2). rewrite <- E1. split; [|exact Ag]. eapply Forall_impl; [|exact Ex].
    cbv beta. intros e. rewrite (odata_node _ _ _ G). tauto. }
  cbv zeta in A. rewrite V in A. rewrite one_all in A.
  assert (E : (match ps with [] => 0 | _ => 1 end =? len ps) = true).
  { destruct ps as [|e [|e' ps]]; [reflexivity|reflexivity|cbn [length] in L; lia]. }
  rewrite E in A. rewrite A. clear A E.
  assert (M : answer_all (f_esv f) (node_data n (dest f)) ps (map (fun _ => true) ps) = map (fun e => (fst e, [])) ps).
  { unfold answer_all, answer_pair. rewrite Nr. clear. induction ps as [|e ps IH]; [reflexivity|]. cbn [map combine fst snd]. rewrite IH. reflexivity. }
  rewrite M. unfold write_esv in W. destruct (Z.eqb_spec (f_esv f) 96) as [E|E].
  - rewrite E. reflexivity.
  - replace (f_esv f) with 97 by lia. reflexivity.
Qed.
Print Assumptions C26_answer_partial.

(* Writes of two or more properties are always answered with the error 0x50, even when
   everything was accepted and stored, and even for SetI. *)
Theorem C26_many_error : forall le net dec n f rest la a r ps,
  receives le net dec n f rest la (Some a) r -> write_esv (f_esv f) = true -> f_body f = Plain ps ->
  has_object n (dest f) -> (2 <= length ps)%nat ->
  exists qs, r_answer r = [PSend a (enc_frame (mkFrame (f_tid f) (f_deoj f) (f_seoj f) 80 (Plain qs)))].
Proof.
  intros le net dec n f rest la a r ps R W Eb O L. destruct (has_object_some _ _ O) as [o G].
  assert (Q : request_esv (f_esv f)) by (unfold write_esv in W; unfold request_esv; cbn [In]; lia).
  assert (Nr : read_esv (f_esv f) = false) by (unfold write_esv, read_esv in *; lia).
  destruct (plain_answer _ _ _ _ _ _ _ _ _ ps _ R G Q Eb) as (segs & E1 & F2 & _ & _ & A); [congruence|].
  cbv zeta in A. pose proof (one_range (verdicts o ps segs)) as Hr.
  assert (E : (one (verdicts o ps segs) =? len ps) = false) by (unfold len; lia).
  rewrite E in A. exists (answer_all (f_esv f) (node_data n (dest f)) ps (verdicts o ps segs)). rewrite A. unfold write_esv in W.
  destruct (Z.eqb_spec (f_esv f) 96) as [E'|E'].
  - rewrite E'. reflexivity.
  - replace (f_esv f) with 97 by lia. reflexivity.
Qed.
Print Assumptions C26_many_error.

Definition set80 : frame := ask 97 (Plain [(128, [49])]).
Definition set2 : frame := ask 97 (Plain [(128, [49]); (129, [16])]).

Theorem C26_many_refuted : exists dec n f r,
  receives true net_up dec n f [] here (Some there) r /\ f_esv f = 97
  /\ f_body f = Plain [(128, [49]); (129, [16])]
  /\ agreed r /\ node_data (r_node r) (dest f) 128 = Some [49] /\ node_data (r_node r) (dest f) 129 = Some [16]
  /\ r_answer r = [PSend there (enc_frame (mkFrame (f_tid f) (f_deoj f) (f_seoj f) 80 (Plain [(128, []); (129, [])])))].
Proof.
  exists yes, node3, set2, (react yes node3 set2).
  split; [apply react_receives; [exact node3_api|vm_compute; reflexivity..]|].
  split; [reflexivity|]. split; [reflexivity|].
  split; [apply agreed_check; vm_compute; reflexivity|].
  split; [vm_compute; reflexivity|]. split; [vm_compute; reflexivity|]. vm_compute; reflexivity.
Qed.
Print Assumptions C26_many_refuted.

(* switching the air conditioner off; its handler is asked and agrees *)
Example C26_example :
  let r := react yes node3 set80 in
  receives true net_up yes node3 set80 [] here (Some there) r
  /\ node_data node3 (dest set80) 128 = Some [48] /\ agreed r /\ length (r_calls r) = 1%nat
  /\ node_data (r_node r) (dest set80) 128 = Some [49]
  /\ r_answer r = [PSend there [16; 129; 9; 8; 1; 48; 1; 5; 255; 1; 113; 1; 128; 0]].
Proof.
  cbv zeta. split; [apply react_receives; [exact node3_api|vm_compute; reflexivity..]|].
  split; [vm_compute; reflexivity|]. split; [apply agreed_check; vm_compute; reflexivity|].
  split; [vm_compute; reflexivity|]. split; vm_compute; reflexivity.
Qed.

(* ---------- C27: reads ---------- *)

(* Get, INF_REQ and INFC change nothing in the node, whatever the outcome. *)
Theorem C27_no_change : forall le net dec n f rest la ra r,
  receives le net dec n f rest la ra r -> read_esv (f_esv f) = true -> r_node r = n /\ r_anns r = [].
Proof.
  intros le net dec n f rest la ra r R E.
  assert (Q : request_esv (f_esv f)) by (unfold read_esv in E; unfold request_esv; cbn [In]; lia).
  destruct (uecho_node_getobjectbycode n (dest f)) as [o|] eqn:G.
  - destruct (request_effects _ _ _ _ _ _ _ _ _ _ R G Q) as (_ & ns & b & all & EF & _).
    apply (ef_read _ _ _ _ _ _ _ _ _ _ EF). unfold read_only. pose proof R as (_ & (_ & _ & _ & _ & _ & Hb) & _).
    destruct (f_body f); cbn [body_ok] in Hb; [unfold write_esv, read_esv in *; lia|].
    destruct Hb as [Hb _]. unfold two_lists, read_esv in *. lia.
  - pose proof R as (Hn & Hf & Hb & H). destruct (C25_ignored le net dec n _ la ra Hn Hb) as (r' & E' & A & B & _).
    + intros f' rest' D. rewrite dec_enc in D by assumption. injection D as <- <-. right. unfold has_object. rewrite G. tauto.
    + rewrite H in E'. injection E' as ->. auto.
Qed.
Print Assumptions C27_no_change.

(* the data the node has for the properties of a request *)
Definition current (n : node) (code : Z) (ps : list epair) : list epair :=
  map (fun e => (fst e, match node_data n code (fst e) with Some d => d | None => [] end)) ps.

(* what an accepted read contains, and with which ESV *)
Lemma read_answer : forall le net dec n f rest la a r ps,
  receives le net dec n f rest la (Some a) r -> read_esv (f_esv f) = true -> f_body f = Plain ps ->
  has_object n (dest f) -> Forall (fun e => node_data n (dest f) (fst e) <> None) ps -> agreed r ->
  (forall e d, In e ps -> node_data n (dest f) (fst e) = Some d -> len d <= 255) ->
  r_answer r = match answer_esv (f_esv f) (match ps with [] => true | [_] => true | _ => false end) with
    | Some e => reply_posts e (Some a) (enc_frame (mkFrame (f_tid f) (f_deoj f) (f_seoj f) e (Plain (current n (dest f) ps))))
    | None => []
    end.
Proof.
  intros le net dec n f rest la a r ps R W Eb O Ex Ag Sh. destruct (has_object_some _ _ O) as [o G].
  assert (Q : request_esv (f_esv f)) by (unfold read_esv in W; unfold request_esv; cbn [In]; lia).
  destruct (plain_answer _ _ _ _ _ _ _ _ _ ps _ R G Q Eb (fun _ => Sh)) as (segs & E1 & F2 & _ & _ & A).
  assert (V : verdicts o ps segs = map (fun _ => true) ps).
  { apply (verdicts_all _ _ _ _ F2). rewrite <- E1. split; [|exact Ag]. eapply Forall_impl; [|exact Ex].
    cbv beta. intros e. rewrite (odata_node _ _ _ G). tauto. }
  cbv zeta in A. rewrite V in A. rewrite one_all in A.
  assert (E : (match ps with [] => 0 | _ => 1 end =? len ps) = match ps with [] => true | [_] => true | _ => false end).
  { destruct ps as [|e [|e' ps]]; [reflexivity|reflexivity|]. unfold len. cbn [length]. lia. }
  rewrite E in A. rewrite A.
  assert (M : answer_all (f_esv f) (node_data n (dest f)) ps (map (fun _ => true) ps) = current n (dest f) ps).
  { unfold answer_all, answer_pair, current. rewrite W. clear. induction ps as [|e ps IH]; [reflexivity|]. cbn [map combine fst snd]. rewrite IH. reflexivity. }
  rewrite M. reflexivity.
Qed.

(* A read of one property (or none) that is accepted is answered with its current data: Get
   with 0x72 and INFC with 0x7A to the sender, INF_REQ with 0x73 to everybody.  Missing for
   the full statement: more than one property, see C27_many_refuted, and values of more
   than 255 bytes, see C32_refuted. *)
Theorem C27_value_partial : forall le net dec n f rest la a r ps,
  receives le net dec n f rest la (Some a) r -> read_esv (f_esv f) = true -> f_body f = Plain ps ->
  has_object n (dest f) -> Forall (fun e => node_data n (dest f) (fst e) <> None) ps -> agreed r ->
  (forall e d, In e ps -> node_data n (dest f) (fst e) = Some d -> len d <= 255) ->
  (length ps <= 1)%nat ->
  let answer esv := enc_frame (mkFrame (f_tid f) (f_deoj f) (f_seoj f) esv (Plain (current n (dest f) ps))) in
  r_answer r = if f_esv f =? 98 then [PSend a (answer 114)]
               else if f_esv f =? 99 then [PAnnounce (answer 115)]
               else [PSend a (answer 122)].
Proof.
  intros le net dec n f rest la a r ps R W Eb O Ex Ag Sh L answer.
  rewrite (read_answer _ _ _ _ _ _ _ _ _ _ R W Eb O Ex Ag Sh).
  assert (E : match ps with [] => true | [_] => true | _ => false end = true).
  { destruct ps as [|e [|e' ps]]; [reflexivity|reflexivity|cbn [length] in L; lia]. }
  rewrite E. clear E. unfold read_esv in W. destruct (Z.eqb_spec (f_esv f) 98) as [E|E]; [rewrite E; reflexivity|].
  destruct (Z.eqb_spec (f_esv f) 99) as [E'|E']; [rewrite E'; reflexivity|].
  replace (f_esv f) with 116 by lia. reflexivity.
Qed.
Print Assumptions C27_value_partial.

(* A read of two or more properties is answered with the error ESV (0x52, 0x53), INFC not
   at all; the current values are in the error answer. *)
Theorem C27_many_error : forall le net dec n f rest la a r ps,
  receives le net dec n f rest la (Some a) r -> read_esv (f_esv f) = true -> f_body f = Plain ps ->
  has_object n (dest f) -> Forall (fun e => node_data n (dest f) (fst e) <> None) ps -> agreed r ->
  (forall e d, In e ps -> node_data n (dest f) (fst e) = Some d -> len d <= 255) ->
  (2 <= length ps)%nat ->
  let answer esv := enc_frame (mkFrame (f_tid f) (f_deoj f) (f_seoj f) esv (Plain (current n (dest f) ps))) in
  r_answer r = if f_esv f =? 98 then [PSend a (answer 82)]
               else if f_esv f =? 99 then [PSend a (answer 83)]
               else [].
Proof.
  intros le net dec n f rest la a r ps R W Eb O Ex Ag Sh L answer.
  rewrite (read_answer _ _ _ _ _ _ _ _ _ _ R W Eb O Ex Ag Sh).
  assert (E : match ps with [] => true | [_] => true | _ => false end = false).
  { destruct ps as [|e [|e' ps]]; [cbn [length] in L; lia..|reflexivity]. }
  rewrite E. clear E. unfold read_esv in W. destruct (Z.eqb_spec (f_esv f) 98) as [E|E]; [rewrite E; reflexivity|].
  destruct (Z.eqb_spec (f_esv f) 99) as [E'|E']; [rewrite E'; reflexivity|].
  replace (f_esv f) with 116 by lia. reflexivity.
Qed.
Print Assumptions C27_many_error.

Definition get2 : frame := ask 98 (Plain [(128, []); (129, [])]).
Theorem C27_many_refuted : exists dec n f r,
  receives true net_up dec n f [] here (Some there) r /\ f_esv f = 98
  /\ f_body f = Plain [(128, []); (129, [])]
  /\ node_data n (dest f) 128 = Some [48] /\ node_data n (dest f) 129 = Some [8] /\ agreed r
  /\ r_answer r = [PSend there (enc_frame (mkFrame (f_tid f) (f_deoj f) (f_seoj f) 82 (Plain [(128, [48]); (129, [8])])))].
Proof.
  exists yes, node3, get2, (react yes node3 get2).
  split; [apply react_receives; [exact node3_api|vm_compute; reflexivity..]|].
  split; [reflexivity|]. split; [reflexivity|]. split; [vm_compute; reflexivity|]. split; [vm_compute; reflexivity|].
  split; [apply agreed_check; vm_compute; reflexivity|]. vm_compute; reflexivity.
Qed.
Print Assumptions C27_many_refuted.

Example C27_example :
  let r := react yes node3 get80 in
  receives true net_up yes node3 get80 [] here (Some there) r
  /\ node_data node3 (dest get80) 128 = Some [48] /\ agreed r /\ length (r_calls r) = 1%nat
  /\ r_answer r = [PSend there [16; 129; 9; 8; 1; 48; 1; 5; 255; 1; 114; 1; 128; 1; 48]].
Proof.
  cbv zeta. split; [apply react_receives; [exact node3_api|vm_compute; reflexivity..]|].
  split; [vm_compute; reflexivity|]. split; [apply agreed_check; vm_compute; reflexivity|].
  split; vm_compute; reflexivity.
Qed.

(* ---------- C28: refused requests ---------- *)

(* A property whose handler refuses the write keeps its data (the request does not mention
   the property twice). *)
Theorem C28_unmodified : forall le net dec n f rest la ra r x,
  receives le net dec n f rest la ra r -> NoDup (map fst (written f)) ->
  In x (r_calls r) -> snd x = false -> write_esv (hc_esv (fst x)) = true ->
  let c := p_code (hc_prop (fst x)) in
  In c (map fst (written f)) /\ node_data (r_node r) (dest f) c = node_data n (dest f) c.
Proof.
  intros le net dec n f rest la ra r x R ND I Ex W c.
  assert (Q : request_esv (f_esv f) /\ has_object n (dest f)).
  { pose proof R as (Hn & Hf & Hb & H).
    destruct (uecho_node_getobjectbycode n (dest f)) eqn:G; [destruct (uecho_esv_isrequest (f_esv f)) eqn:Q|].
    - split; [apply request_isrequest; exact Q|unfold has_object; rewrite G; discriminate].
    - exfalso. destruct (C25_ignored le net dec n _ la ra Hn Hb) as (r' & E & _ & _ & _ & A).
      + intros f' rest' E. rewrite dec_enc in E by assumption. injection E as <- <-. left. rewrite <- request_isrequest, Q. discriminate.
      + rewrite H in E. injection E as ->. rewrite A in I. exact I.
    - exfalso. destruct (C25_ignored le net dec n _ la ra Hn Hb) as (r' & E & _ & _ & _ & A).
      + intros f' rest' E. rewrite dec_enc in E by assumption. injection E as <- <-. right. unfold has_object. rewrite G. tauto.
      + rewrite H in E. injection E as ->. rewrite A in I. exact I. }
  destruct Q as [Q O]. destruct (has_object_some _ _ O) as [o G].
  destruct (request_effects _ _ _ _ _ _ _ _ _ _ R G Q) as (_ & ns & b & all & EF & _ & X).
  unfold written in *. destruct (f_body f) as [ps|s g] eqn:Eb.
  - destruct X as (segs & E1 & E2 & E3 & _). rewrite E1 in I. destruct (consulted_call _ _ _ _ _ E2 I) as (A & B & _).
    rewrite A in W. rewrite W in *. split; [exact B|]. rewrite E3. apply write_all_rejected. eapply rejected_seg; eauto.
  - destruct X as (s1 & s2 & E1 & E2 & E3 & E4 & _). 
    assert (E110 : f_esv f = 110).
    { apply isreq_two; [apply request_isrequest; exact Q|]. pose proof R as (_ & (_ & _ & _ & _ & _ & Hb) & _). pose proof (body_two _ _ Hb) as B.
      rewrite Eb in B. exact B. }
    rewrite E110 in *. change (110 =? 110) with true in *. cbv iota in *.
    rewrite E1 in I. apply in_app_or in I. destruct I as [I|I].
    + destruct (consulted_call _ _ _ _ _ E2 I) as (A & B & _). split; [exact B|]. rewrite E4. apply write_all_rejected. eapply rejected_seg; eauto.
    + destruct (consulted_call _ _ _ _ _ E3 I) as (A & B & _). rewrite A in W. discriminate.
Qed.
Print Assumptions C28_unmodified.

(* A request does not create properties. *)
Theorem C28_missing : forall le net dec n f rest la ra r code c,
  receives le net dec n f rest la ra r -> node_data n code c = None -> node_data (r_node r) code c = None.
Proof.
  intros le net dec n f rest la ra r code c R N. pose proof R as (Hn & Hf & Hb & H).
  destruct (uecho_node_getobjectbycode n (dest f)) as [o|] eqn:G; [destruct (uecho_esv_isrequest (f_esv f)) eqn:Q|].
  - apply request_isrequest in Q.
    destruct (request_effects _ _ _ _ _ _ _ _ _ _ R G Q) as (_ & ns & b & all & EF & _ & X).
    destruct (Z.eq_dec code (dest f)) as [->|Nc]; [|rewrite (ef_others _ _ _ _ _ _ _ _ _ _ EF) by exact Nc; exact N].
    assert (No : odata o c = None) by (rewrite <- (odata_node _ _ _ G); exact N).
    destruct (f_body f) as [ps|s g].
    + destruct X as (segs & E1 & E2 & E3 & _). rewrite E3. destruct (write_esv (f_esv f)); [|exact N].
      rewrite write_all_rejected; [exact N|apply missing_rejected; exact No].
    + destruct X as (s1 & s2 & E1 & E2 & E3 & E4 & _). rewrite E4.
      rewrite write_all_rejected; [exact N|apply missing_rejected; exact No].
  - destruct (C25_ignored le net dec n _ la ra Hn Hb) as (r' & E & A & _).
    + intros f' rest' E. rewrite dec_enc in E by assumption. injection E as <- <-. left. rewrite <- request_isrequest, Q. discriminate.
    + rewrite H in E. injection E as ->. rewrite A. exact N.
  - destruct (C25_ignored le net dec n _ la ra Hn Hb) as (r' & E & A & _).
    + intros f' rest' E. rewrite dec_enc in E by assumption. injection E as <- <-. right. unfold has_object. rewrite G. tauto.
    + rewrite H in E. injection E as ->. rewrite A. exact N.
Qed.
Print Assumptions C28_missing.

(* When something is refused the answer is the error of the service: 0x50 for SetI, 0x52,
   0x53, 0x5E; INFC is not answered.  SetC is answered with 0x50 instead of 0x51, see
   C28_setc_refuted. *)
Theorem C28_error_partial : forall le net dec n f rest la a r,
  receives le net dec n f rest la (Some a) r -> request_esv (f_esv f) -> has_object n (dest f) ->
  short_data n (dest f) -> refused n f r ->
  match (if f_esv f =? 97 then Some 80 else error_esv (f_esv f)) with
  | Some e => exists b, r_answer r = [PSend a (enc_frame (mkFrame (f_tid f) (f_deoj f) (f_seoj f) e b))]
                        /\ body_codes b = body_codes (f_body f)
  | None => r_answer r = []
  end.
Proof.
  intros le net dec n f rest la a r R Q O Sh Rf. destruct (has_object_some _ _ O) as [o G].
  destruct (request_effects _ _ _ _ _ _ _ _ _ _ R G Q) as (_ & ns & b & all & EF & _ & X).
  assert (E : all = false) by (eapply refused_all; eauto). subst all.
  assert (Ee : answer_esv (f_esv f) false = if f_esv f =? 97 then Some 80 else error_esv (f_esv f)).
  { unfold request_esv in Q. cbn [In] in Q. repeat (destruct Q as [Q|Q]; [rewrite <- Q; reflexivity|]). contradiction. }
  rewrite <- Ee. destruct (answer_esv (f_esv f) false) as [e|] eqn:Ea.
  - pose proof (ef_answer _ _ _ _ _ _ _ _ _ _ EF) as A. rewrite Ea in A.
    assert (N115 : e =? 115 = false).
    { unfold request_esv in Q. cbn [In] in Q. clear - Q Ea.
      repeat (destruct Q as [Q|Q]; [rewrite <- Q in Ea; cbv in Ea; try discriminate; injection Ea as <-; reflexivity|]). contradiction. }
    assert (I : exists p, r_answer r = [p] /\ exists x, p = PSend a x).
    { rewrite A. unfold reply_posts, from_of. rewrite N115. eexists. split; [reflexivity|]. eexists. reflexivity. }
    destruct I as (p & I1 & x & I2).
    destruct (C24_answer_partial _ _ _ _ _ _ _ _ _ p R Sh) as (e' & b' & P1 & P2 & P3 & _); [rewrite I1; left; reflexivity|].
    exists b'. split; [|exact P3]. rewrite I2 in I1, P1. rewrite I1 in *. cbn [post_bytes] in P1. subst x.
    assert (X5 : e' = e).
    { assert (Y : wire_msg (rmsg (reply f e b)) = enc_frame (mkFrame (f_tid f) (f_deoj f) (f_seoj f) e' b')).
      { unfold reply_posts, from_of in A. rewrite N115 in A.
        apply (f_equal (fun l => match l with [PSend _ x] => x | _ => [] end)) in A. cbv beta iota in A. symmetry. exact A. }
      assert (Z1 : nth_error (wire_msg (rmsg (reply f e b))) 10 = Some e).
      { unfold wire_msg, rmsg, reply. destruct b; cbn [f_body m_ehd1 m_ehd2 m_tid m_seoj m_deoj m_esv f_tid f_seoj f_deoj f_esv];
          destruct (f_deoj f) as [[? ?] ?]; destruct (f_seoj f) as [[? ?] ?]; reflexivity. }
      rewrite Y in Z1. unfold enc_frame in Z1. cbn [f_tid f_seoj f_deoj f_esv] in Z1.
      destruct (f_deoj f) as [[? ?] ?]; destruct (f_seoj f) as [[? ?] ?]. cbn in Z1. injection Z1 as <-. reflexivity. }
    rewrite X5. reflexivity.
  - rewrite (ef_answer _ _ _ _ _ _ _ _ _ _ EF), Ea. reflexivity.
Qed.
Print Assumptions C28_error_partial.

(* SetC of a property with a refusing handler: 0x50 *)
Theorem C28_setc_refuted : exists dec n f r,
  receives true net_up dec n f [] here (Some there) r /\ f_esv f = 97 /\ refused n f r
  /\ r_answer r = [PSend there (enc_frame (mkFrame (f_tid f) (f_deoj f) (f_seoj f) 80 (f_body f)))]
  /\ error_esv 97 = Some 81.
Proof.
  exists no, node3, set80, (react no node3 set80).
  split; [apply react_receives; [exact node3_api|vm_compute; reflexivity..]|]. split; [reflexivity|].
  split; [right; eexists; split; [vm_compute; left; reflexivity|reflexivity]|]. split; vm_compute; reflexivity.
Qed.
Print Assumptions C28_setc_refuted.

(* reading a property that does not exist, and one whose handler refuses *)
Definition get_missing : frame := ask 98 (Plain [(240, [])]).
Example C28_example :
  let r := react yes node3 get_missing in let r' := react no node3 get80 in
  receives true net_up yes node3 get_missing [] here (Some there) r /\ refused node3 get_missing r
  /\ r_answer r = [PSend there (enc_frame (mkFrame (9, 8) (1, 48, 1) (5, 255, 1) 82 (Plain [(240, [])])))]
  /\ receives true net_up no node3 get80 [] here (Some there) r' /\ refused node3 get80 r'
  /\ r_answer r' = [PSend there (enc_frame (mkFrame (9, 8) (1, 48, 1) (5, 255, 1) 82 (Plain [(128, [])])))].
Proof.
  cbv zeta. split; [apply react_receives; [exact node3_api|vm_compute; reflexivity..]|].
  split; [left; eexists; split; [left; reflexivity|vm_compute; reflexivity]|]. split; [vm_compute; reflexivity|].
  split; [apply react_receives; [exact node3_api|vm_compute; reflexivity..]|].
  split; [right; eexists; split; [vm_compute; left; reflexivity|reflexivity]|]. vm_compute; reflexivity.
Qed.

(* ---------- C29: access rules ---------- *)

(* A property that is not writable is written, and a property that is not readable is
   read: the access rules of the property are not looked at. *)
Definition set82 : frame := ask 97 (Plain [(130, [9; 9; 9; 9])]).
Theorem C29_write_refuted : exists dec n f r o p,
  receives true net_up dec n f [] here (Some there) r /\ f_body f = Plain [(130, [9; 9; 9; 9])]
  /\ uecho_node_getobjectbycode n (dest f) = Some o /\ uecho_object_getproperty o 130 = Some p
  /\ uecho_property_iswritable p = false
  /\ node_data (r_node r) (dest f) 130 = Some [9; 9; 9; 9]
  /\ r_answer r = [PSend there (enc_frame (mkFrame (f_tid f) (f_deoj f) (f_seoj f) 113 (Plain [(130, [])])))].
Proof.
  exists yes, node3, set82, (react yes node3 set82). eexists. eexists.
  split; [apply react_receives; [exact node3_api|vm_compute; reflexivity..]|]. split; [reflexivity|].
  split; [vm_compute; reflexivity|]. split; [vm_compute; reflexivity|]. split; [vm_compute; reflexivity|].
  split; vm_compute; reflexivity.
Qed.
Print Assumptions C29_write_refuted.

(* 0xF0 is added as a write-only property holding 7 *)
Definition node4 : node :=
  after (two_devs ++ [NObj 77825 (KStep (OAdd 240 2 [7]) zeros)]).
Lemma node4_api : api_node true net_up std_db node4.
Proof.
  apply after_api; [|vm_compute; reflexivity]. apply Forall_app. split; [apply devs_ok|]. constructor; [|constructor].
  cbn [nop_ok ocall_ok oop_ok]. split; [split; [cbn; lia|apply is_byteb_val; reflexivity]|].
  split; [intros c' E; injection E as <-; unfold epc_code; lia|exact zeros_ok].
Qed.
Definition getF0 : frame := ask 98 (Plain [(240, [])]).
Theorem C29_read_refuted : exists dec n f r o p,
  receives true net_up dec n f [] here (Some there) r /\ f_body f = Plain [(240, [])]
  /\ uecho_node_getobjectbycode n (dest f) = Some o /\ uecho_object_getproperty o 240 = Some p
  /\ uecho_property_isreadable p = false
  /\ r_answer r = [PSend there (enc_frame (mkFrame (f_tid f) (f_deoj f) (f_seoj f) 114 (Plain [(240, [7])])))].
Proof.
  exists yes, node4, getF0, (react yes node4 getF0). eexists. eexists.
  split; [apply react_receives; [exact node4_api|vm_compute; reflexivity..]|]. split; [reflexivity|].
  split; [vm_compute; reflexivity|]. split; [vm_compute; reflexivity|]. split; vm_compute; reflexivity.
Qed.
Print Assumptions C29_read_refuted.
