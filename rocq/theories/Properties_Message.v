(* C01-C06, C08-C14: messages, frames, TIDs, codes, integers, ESVs. *)
From Coq Require Import String ZArith List Bool Lia ZifyBool ZifyNat.
From Verif Require Import CSem M_Const M_Misc M_Property M_Message Spec_Frame Spec_Message
  P_Base P_Misc P_Message P_Encode P_MsgApi.
Import ListNotations.
Open Scope Z_scope.
Ltac Zify.zify_post_hook ::= Z.div_mod_to_equations.

(* ---------- C01: parsing is memory-safe ---------- *)

Theorem C01_parse_safe : forall le m data, api_msg le m -> buffer data ->
  exists r m', uecho_message_parse m data = Ok (r, m').
Proof.
  intros le m data Hm [Hd Hl]. apply api_inv_holds in Hm. destruct Hm as [Hm _].
  pose proof (parse_spec m data Hm Hd Hl) as P. destruct (dec_frame data) as [[f rest]|].
  - eauto.
  - destruct P as (m' & P & _). eauto.
Qed.
Print Assumptions C01_parse_safe.

Theorem C01_parsepacket_safe : forall le m data local remote, api_msg le m -> buffer data ->
  exists r m', uecho_message_parsepacket m data local remote = Ok (r, m').
Proof.
  intros le m data la ra Hm Hd. destruct (C01_parse_safe le m data Hm Hd) as ([] & m' & E);
    unfold uecho_message_parsepacket; rewrite E; cbn [bind negb]; eauto.
Qed.
Print Assumptions C01_parsepacket_safe.

(* a message that was parsed, failed half way and is reused: hypotheses hold *)
Example C01_example : forall m r, uecho_message_parse uecho_message_new
    [16; 129; 0; 1; 5; 255; 1; 14; 240; 1; 98; 3; 128; 2; 7; 8; 129; 200; 1] = Ok (r, m) ->
  api_msg true m /\ r = false
  /\ exists r' m', uecho_message_parse m [16; 129; 0; 1; 5; 255; 1; 14; 240; 1; 110; 1; 128; 2; 7] = Ok (r', m').
Proof.
  intros m r E.
  assert (Hb : buffer [16; 129; 0; 1; 5; 255; 1; 14; 240; 1; 98; 3; 128; 2; 7; 8; 129; 200; 1]).
  { split; [repeat constructor; lia|]. unfold OBJ_MAX. cbn. lia. }
  pose proof (am_parse true _ _ _ _ (am_new true) Hb E) as Hm. split; [exact Hm|]. split.
  - vm_compute in E. injection E as <- _. reflexivity.
  - apply (C01_parse_safe true); [exact Hm|]. split; [repeat constructor; lia|]. unfold OBJ_MAX. cbn. lia.
Qed.

(* ---------- C02: the parser accepts exactly the frames ---------- *)

Theorem C02_parse_iff_frame : forall le m data, api_msg le m -> buffer data ->
  ((exists m', uecho_message_parse m data = Ok (true, m'))
   <-> exists f rest, frame_ok f /\ data = enc_frame f ++ rest)
  /\ forall f rest, frame_ok f -> data = enc_frame f ++ rest ->
       exists m', uecho_message_parse m data = Ok (true, m') /\ shows le m' f.
Proof.
  intros le m data Hm [Hd Hl]. apply api_inv_holds in Hm. destruct Hm as [Hm _].
  pose proof (parse_spec m data Hm Hd Hl) as P.
  assert (G : forall f rest, frame_ok f -> data = enc_frame f ++ rest ->
       exists m', uecho_message_parse m data = Ok (true, m') /\ shows le m' f).
  { intros f rest Hf E.
    assert (D : dec_frame data = Some (f, rest)) by (apply dec_frame_iff; auto).
    rewrite D in P. exists (msg_of_frame m f). split; [exact P|].
    rewrite <- (frame_of_msg_of_frame m f Hf) at 2. apply shows_frame_of. apply msg_of_frame_ok; assumption. }
  split; [|exact G]. split.
  - intros (m' & E). destruct (dec_frame data) as [[f rest]|] eqn:D.
    + apply dec_frame_iff in D; [|exact Hd]. eauto.
    + destruct P as (m2 & P & _). rewrite P in E. discriminate.
  - intros (f & rest & Hf & E). destruct (G f rest Hf E) as (m' & A & _). eauto.
Qed.
Print Assumptions C02_parse_iff_frame.

(* a frame is determined by the bytes *)
Theorem C02_frame_unique : forall f f' rest rest', frame_ok f -> frame_ok f' ->
  bytes_ok (enc_frame f ++ rest) -> enc_frame f ++ rest = enc_frame f' ++ rest' -> f = f' /\ rest = rest'.
Proof.
  intros f f' rest rest' H H' Hb E.
  assert (A : dec_frame (enc_frame f ++ rest) = Some (f, rest)) by (apply dec_frame_iff; auto).
  assert (B : dec_frame (enc_frame f ++ rest) = Some (f', rest')) by (apply dec_frame_iff; auto).
  rewrite A in B. injection B. auto.
Qed.
Print Assumptions C02_frame_unique.

Example C02_example :
  let f := mkFrame (0, 1) (5, 255, 1) (14, 240, 1) 110 (SetGetBody [(128, [48]); (176, [])] [(177, [1; 2])]) in
  frame_ok f /\ enc_frame f
  = [16; 129; 0; 1; 5; 255; 1; 14; 240; 1; 110; 2; 128; 1; 48; 176; 0; 1; 177; 2; 1; 2].
Proof.
  cbv zeta. split; [|reflexivity].
  unfold frame_ok, byte_val. cbn. unfold byte_val, two_lists, eprops_ok. cbn. repeat split; try lia;
  repeat constructor; cbn; lia.
Qed.

(* ---------- C03: encode, then parse ---------- *)

Theorem C03_encode_parse_partial : forall le m, api_msg le m -> in_memory m -> pdc_fits m ->
  exists f, shows le m f /\ frame_ok f /\ uecho_message_getbytes m = Ok (enc_frame f)
  /\ forall m0, api_msg le m0 -> exists m', uecho_message_parse m0 (enc_frame f) = Ok (true, m') /\ shows le m' f.
Proof.
  intros le m Hm Hi Hp. apply api_inv_holds in Hm. destruct Hm as [Hm He].
  apply in_memory_fits in Hi; [|exact Hm]. apply pdc_short in Hp.
  exists (frame_of m). split; [apply shows_frame_of; exact Hm|]. split; [apply frame_of_ok; assumption|].
  rewrite <- (wire_msg_enc m Hm He Hp). split; [apply getbytes_spec; assumption|].
  intros m0 Hm0. apply api_inv_holds in Hm0. destruct Hm0 as [Hm0 _].
  destruct (encode_parse m m0 Hm Hm0 He Hp Hi) as (bs & E1 & E2).
  rewrite getbytes_spec in E1 by assumption. injection E1 as <-.
  exists (msg_of_frame m0 (frame_of m)). split; [exact E2|].
  rewrite <- (frame_of_msg_of_frame m0 (frame_of m)) at 2 by (apply frame_of_ok; assumption).
  apply shows_frame_of. apply msg_of_frame_ok; [assumption|apply frame_of_ok; assumption].
Qed.
Print Assumptions C03_encode_parse_partial.

(* Full statement of C03 has no [pdc_fits]: it is false.  A message with one
   property of 256 data bytes is accepted by the API and encoded with a length
   byte 0; parsing it back yields a property without data. *)
Theorem C03_encode_parse_refuted : exists m bs m' p p',
  api_msg true m /\ in_memory m
  /\ uecho_message_getbytes m = Ok bs /\ uecho_message_parse uecho_message_new bs = Ok (true, m')
  /\ uecho_message_getproperty m 0 = Ok (Some p) /\ uecho_message_getproperty m' 0 = Ok (Some p')
  /\ len (p_data p) = 256 /\ p_data p' = [].
Proof.
  destruct (uecho_message_setproperty 176 (repeat 7 256) uecho_message_new) as [m|] eqn:E; [|vm_compute in E; discriminate].
  assert (Hm : api_msg true m).
  { eapply am_setprop; [apply am_new| | |exact E]; [unfold is_byte; lia|].
    apply Forall_forall. intros x Hx. apply repeat_spec in Hx. subst. unfold is_byte. lia. }
  vm_compute in E. injection E as <-.
  do 5 eexists. split; [exact Hm|]. split; [unfold in_memory; vm_compute; discriminate|].
  repeat (split; [vm_compute; reflexivity|]). vm_compute; reflexivity.
Qed.
Print Assumptions C03_encode_parse_refuted.

Example C03_example : exists m, api_msg true m /\ in_memory m /\ pdc_fits m
  /\ uecho_message_getopcset m = 1 /\ uecho_message_getopcget m = 2.
Proof.
  destruct (do m <- uecho_message_setpropertyset 128 [48] (uecho_message_setesv 110 uecho_message_new) ;;
            do m <- uecho_message_setpropertyget 176 [] m ;; uecho_message_setpropertyget 177 [] m) as [m|] eqn:E;
    [|vm_compute in E; discriminate].
  exists m. split.
  - apply bind_ok in E. destruct E as (m1 & E1 & E). apply bind_ok in E. destruct E as (m2 & E2 & E3).
    assert (is_byte 128 /\ is_byte 48 /\ is_byte 176 /\ is_byte 177 /\ is_byte 110) by (unfold is_byte; lia).
    eapply am_setpropget; [| | |exact E3]; [|tauto|constructor].
    eapply am_setpropget; [| | |exact E2]; [|tauto|constructor].
    eapply am_setpropset; [| | |exact E1]; [|tauto|repeat constructor; lia].
    apply am_setesv; [apply am_new|tauto].
  - vm_compute in E. injection E as <-. split; [unfold in_memory; vm_compute; discriminate|].
    split; [unfold pdc_fits; vm_compute; repeat constructor; discriminate|]. split; reflexivity.
Qed.

(* ---------- C04: parse, then encode ---------- *)

Theorem C04_parse_encode : forall le m data m', api_msg le m -> buffer data ->
  uecho_message_parse m data = Ok (true, m') ->
  exists bs rest, uecho_message_getbytes m' = Ok bs /\ data = bs ++ rest
  /\ exists f, frame_ok f /\ bs = enc_frame f.
Proof.
  intros le m data m' Hm [Hd Hl] E. apply api_inv_holds in Hm. destruct Hm as [Hm He].
  destruct (parse_encode m data m' Hm He Hd Hl E) as (rest & A & B).
  exists (enc_frame (frame_of m')), rest. split; [exact A|]. split; [exact B|].
  pose proof (parse_spec m data Hm Hd Hl) as P. destruct (dec_frame data) as [[f r]|] eqn:D.
  - rewrite P in E. injection E as <-. apply dec_frame_iff in D; [|exact Hd]. destruct D as [Hf _].
    exists f. rewrite frame_of_msg_of_frame by exact Hf. auto.
  - destruct P as (m2 & P & _). rewrite P in E. discriminate.
Qed.
Print Assumptions C04_parse_encode.

Example C04_example : exists m', uecho_message_parse uecho_message_new
    [16; 129; 0; 1; 5; 255; 1; 14; 240; 1; 98; 2; 128; 2; 7; 8; 129; 0; 99; 98] = Ok (true, m')
  /\ uecho_message_getbytes m' = Ok [16; 129; 0; 1; 5; 255; 1; 14; 240; 1; 98; 2; 128; 2; 7; 8; 129; 0].
Proof. eexists. split; [vm_compute; reflexivity|]. vm_compute. reflexivity. Qed.

(* ---------- C05: serialised size is exact ---------- *)

Theorem C05_size_exact : forall le m, api_msg le m -> in_memory m ->
  exists bs, uecho_message_size m = Ok (len bs) /\ uecho_message_getbytes m = Ok bs /\ bytes_ok bs.
Proof.
  intros le m Hm Hi. apply api_inv_holds in Hm. destruct Hm as [Hm _].
  apply in_memory_fits in Hi; [|exact Hm].
  exists (wire_msg m). split; [apply size_ok; assumption|]. split; [apply getbytes_spec; assumption|].
  apply wire_msg_bytes. exact Hm.
Qed.
Print Assumptions C05_size_exact.

(* the hypotheses of C05 also hold for data longer than 255 bytes *)
Example C05_example : exists m, api_msg false m /\ in_memory m /\ uecho_message_size m = Ok 314.
Proof.
  destruct (uecho_message_setproperty 176 (repeat 7 300) uecho_message_new) as [m|] eqn:E; [|vm_compute in E; discriminate].
  exists m. split.
  - eapply am_setprop; [apply am_new| | |exact E]; [unfold is_byte; lia|].
    apply Forall_forall. intros x Hx. apply repeat_spec in Hx. subst. unfold is_byte. lia.
  - vm_compute in E. injection E as <-. split; [unfold in_memory; vm_compute; discriminate|]. vm_compute. reflexivity.
Qed.

(* ---------- C06: TID ---------- *)

Theorem C06_tid_roundtrip : forall le v m, 0 <= v <= 65535 ->
  uecho_message_gettid le (uecho_message_settid le v m) = v.
Proof. intros. rewrite gettid_settid. apply tid_reduce_id. assumption. Qed.
Print Assumptions C06_tid_roundtrip.

Theorem C06_tid_reduced : forall le v m, 0 <= v < 2 ^ 32 ->
  let t := uecho_message_gettid le (uecho_message_settid le v m) in
  0 <= t <= 65535 /\ t mod 65535 = v mod 65535.
Proof.
  intros le v m Hv. cbv zeta. rewrite gettid_settid. split; [apply tid_reduce_range|].
  unfold tid_reduce, u32, uEchoTidMax. change (2 ^ 32) with 4294967296 in Hv. rewrite (Z.mod_small v 4294967296) by lia.
  destruct (65535 <? v); [apply Z.mod_mod; lia|reflexivity].
Qed.
Print Assumptions C06_tid_reduced.

(* network byte order holds on big-endian hosts ... *)
Theorem C06_wire_order_partial : forall v m, 0 <= v <= 65535 ->
  m_tid (uecho_message_settid false v m) = (v / 256, v mod 256).
Proof. intros. rewrite settid_bytes, tid_reduce_id by assumption. reflexivity. Qed.
Print Assumptions C06_wire_order_partial.

(* ... and is false on little-endian ones: TID 1 is sent as 01 00 *)
Theorem C06_wire_order_refuted : exists v m, 0 <= v <= 65535
  /\ m_tid (uecho_message_settid true v m) <> (v / 256, v mod 256).
Proof. exists 1, uecho_message_new. split; [lia|]. vm_compute. discriminate. Qed.
Print Assumptions C06_wire_order_refuted.

(* on every little-endian host the order is exactly reversed *)
Theorem C06_wire_order_little : forall v m, 0 <= v <= 65535 ->
  m_tid (uecho_message_settid true v m) = (v mod 256, v / 256).
Proof. intros. rewrite settid_bytes, tid_reduce_id by assumption. reflexivity. Qed.
Print Assumptions C06_wire_order_little.

(* setting the TID changes nothing else *)
Theorem C06_only_tid : forall le v m, uecho_message_settid le v m = with_tid (m_tid (uecho_message_settid le v m)) m.
Proof. reflexivity. Qed.
Print Assumptions C06_only_tid.

(* ---------- C08: object codes in messages ---------- *)

Theorem C08_message_objectcode : forall c m, 0 <= c <= 16777215 ->
  (exists m', uecho_message_setsourceobjectcode c m = Ok m'
     /\ uecho_message_getsourceobjectcode m' = Ok c
     /\ m_seoj m' = [c / 65536; c / 256 mod 256; c mod 256]
     /\ m' = with_seoj (m_seoj m') m)
  /\ (exists m', uecho_message_setdestinationobjectcode c m = Ok m'
     /\ uecho_message_getdestinationobjectcode m' = Ok c
     /\ m_deoj m' = [c / 65536; c / 256 mod 256; c mod 256]
     /\ m' = with_deoj (m_deoj m') m).
Proof.
  intros c m Hc.
  assert (E : [byte_of c 2; byte_of c 1; byte_of c 0] = [c / 65536; c / 256 mod 256; c mod 256]).
  { unfold byte_of. change (256 ^ 2) with 65536. change (256 ^ 1) with 256. change (256 ^ 0) with 1. f_equal; [lia|]. f_equal. f_equal. lia. }
  assert (G : uecho_byte2integer [byte_of c 2; byte_of c 1; byte_of c 0] = Ok c).
  { rewrite byte2integer_3 by apply byte_of_range. f_equal. unfold byte_of.
    change (256 ^ 2) with 65536. change (256 ^ 1) with 256. change (256 ^ 0) with 1. lia. }
  split; eexists; (split; [unfold uecho_message_setsourceobjectcode, uecho_message_setdestinationobjectcode, uEchoEOJSize;
    rewrite integer2byte_3; cbn [bind]; reflexivity|]);
  (split; [exact G|split; [exact E|reflexivity]]).
Qed.
Print Assumptions C08_message_objectcode.

(* ---------- C09: integer data ---------- *)

Theorem C09_integer_roundtrip_partial : forall v size p, (1 <= size <= 4)%nat ->
  0 <= v < 256 ^ Z.of_nat size -> v <= INT_MAX ->
  exists p' anno, uecho_property_setintegerdata v size p = Ok (p', anno)
  /\ uecho_property_getintegerdata p' = Ok v /\ len (p_data p') = Z.of_nat size.
Proof.
  intros v size p Hs Hv Hi.
  destruct (uecho_integer2byte v size) as [bs|u] eqn:E.
  2:{ assert (K : uecho_integer2byte v size = Ok (rev (map (fun k => byte_of v (Z.of_nat k)) (seq 0 size))))
        by (apply integer2byte_iff; split; [lia|reflexivity]). congruence. }
  unfold uecho_property_setintegerdata. rewrite E. cbn [bind].
  destruct (uecho_property_setdata bs p) as [p' anno] eqn:Ep.
  exists p', anno. split; [reflexivity|].
  assert (Ed : p_data p' = bs) by (pose proof (setdata_fst bs p) as K; rewrite Ep in K; cbn [fst] in K; rewrite K; reflexivity).
  unfold uecho_property_getintegerdata. rewrite Ed. split.
  - rewrite (int_roundtrip v size bs E); rewrite Z.mod_small by lia; [reflexivity|lia].
  - apply integer2byte_iff in E. destruct E as [_ ->]. unfold len. rewrite rev_length, map_length, seq_length. reflexivity.
Qed.
Print Assumptions C09_integer_roundtrip_partial.

(* exactly when reading an integer is defined, and what it returns *)
Theorem C09_getinteger_defined_iff : forall p v, bytes_ok (p_data p) ->
  uecho_property_getintegerdata p = Ok v <->
  (length (p_data p) <= 4)%nat /\ be_val (p_data p) <= INT_MAX /\ v = be_val (p_data p).
Proof. intros p v H. apply byte2integer_iff. exact H. Qed.
Print Assumptions C09_getinteger_defined_iff.

(* missing from the partial theorem: four-byte data with the top bit set and
   longer data, both of which a peer can send, are undefined *)
Theorem C09_getinteger_refuted : exists p q,
  bytes_ok (p_data p) /\ uecho_property_getintegerdata p = Undef UB_overflow
  /\ bytes_ok (p_data q) /\ uecho_property_getintegerdata q = Undef UB_shift.
Proof.
  exists (mkProp 128 3 [128; 0; 0; 0] false), (mkProp 128 3 [0; 0; 0; 0; 1] false).
  repeat split; try (repeat constructor; lia).
Qed.
Print Assumptions C09_getinteger_refuted.

(* negative ints do not survive even when the size is the size of int *)
Theorem C09_negative_refuted : exists v p p' anno, is_int v
  /\ uecho_property_setintegerdata v 4 p = Ok (p', anno)
  /\ uecho_property_getintegerdata p' = Undef UB_overflow.
Proof.
  exists (-1), uecho_property_new. do 2 eexists. split; [unfold is_int, INT_MIN, INT_MAX; lia|].
  split; [vm_compute; reflexivity|]. vm_compute. reflexivity.
Qed.
Print Assumptions C09_negative_refuted.

Example C09_example : exists p' anno, uecho_property_setintegerdata 16777215 3 uecho_property_new = Ok (p', anno)
  /\ uecho_property_getintegerdata p' = Ok 16777215.
Proof. do 2 eexists. split; [vm_compute; reflexivity|]. vm_compute. reflexivity. Qed.

(* ---------- C10: ESV classification ---------- *)

Theorem C10_never_both : forall e,
  ~ (uecho_esv_isrequest e = true /\ uecho_esv_isresponse e = true).
Proof.
  intros e. unfold uecho_esv_isrequest, uecho_esv_isresponse, uecho_esv_iswriterequest,
    uecho_esv_isreadrequest, uecho_esv_isnotifyrequest, uecho_esv_iswriteresponse, uecho_esv_isreadresponse,
    uecho_esv_isnotifyresponse, ESV_SetI, ESV_SetC, ESV_Get, ESV_INF_REQ, ESV_SetGet, ESV_Set_Res, ESV_Get_Res,
    ESV_INF, ESV_INFC, ESV_INFC_Res, ESV_SetGet_Res, ESV_SetI_SNA, ESV_Get_SNA, ESV_INF_SNA, ESV_SetGet_SNA. lia.
Qed.
Print Assumptions C10_never_both.

Theorem C10_requests : forall e, uecho_esv_isrequest e = true <-> exists s, e = svc_request s.
Proof.
  intros e. split.
  - intros H. unfold uecho_esv_isrequest, uecho_esv_iswriterequest,
      uecho_esv_isreadrequest, uecho_esv_isnotifyrequest, ESV_SetI, ESV_SetC, ESV_Get, ESV_INF_REQ, ESV_SetGet, ESV_INFC in H.
    assert (K : e = 96 \/ e = 97 \/ e = 98 \/ e = 99 \/ e = 110 \/ e = 116) by lia.
    destruct K as [->|[->|[->|[->|[->| ->]]]]];
      [exists SvcSetI|exists SvcSetC|exists SvcGet|exists SvcInfReq|exists SvcSetGet|exists SvcInfC]; reflexivity.
  - intros ([] & ->); reflexivity.
Qed.
Print Assumptions C10_requests.

Theorem C10_tables : forall s,
  uecho_message_requestesv2responseesv (svc_request s) = svc_response s
  /\ uecho_message_requestesv2errorresponseesv (svc_request s) = svc_error s.
Proof. intros []; split; reflexivity. Qed.
Print Assumptions C10_tables.

Theorem C10_tables_domain : forall e, (forall s, e <> svc_request s) ->
  uecho_message_requestesv2responseesv e = None /\ uecho_message_requestesv2errorresponseesv e = None.
Proof.
  intros e H.
  pose proof (H SvcSetI). pose proof (H SvcSetC). pose proof (H SvcGet).
  pose proof (H SvcInfReq). pose proof (H SvcSetGet). pose proof (H SvcInfC).
  cbn [svc_request] in *.
  unfold uecho_message_requestesv2responseesv, uecho_message_requestesv2errorresponseesv,
    ESV_SetI, ESV_SetC, ESV_Get, ESV_INF_REQ, ESV_SetGet, ESV_INFC.
  repeat match goal with |- context [e =? ?k] => destruct (Z.eqb_spec e k); [congruence|] end.
  split; reflexivity.
Qed.
Print Assumptions C10_tables_domain.

(* full claim: every response and error code is classified as a response;
   proved for all codes except 0x51 (SetC_SNA) *)
Theorem C10_responses_partial : forall e,
  uecho_esv_isresponse e = true <->
  (exists s, svc_response s = Some e \/ svc_error s = Some e) /\ e <> 81.
Proof.
  intros e. split.
  - intros H. unfold uecho_esv_isresponse, uecho_esv_iswriteresponse, uecho_esv_isreadresponse,
      uecho_esv_isnotifyresponse, ESV_Set_Res, ESV_Get_Res,
      ESV_INF, ESV_INFC_Res, ESV_SetGet_Res, ESV_SetI_SNA, ESV_Get_SNA, ESV_INF_SNA, ESV_SetGet_SNA in H.
    assert (K : e = 113 \/ e = 126 \/ e = 80 \/ e = 94 \/ e = 114 \/ e = 82 \/ e = 115 \/ e = 122 \/ e = 83) by lia.
    split; [|lia].
    destruct K as [->|[->|[->|[->|[->|[->|[->|[->| ->]]]]]]]];
      [exists SvcSetC|exists SvcSetGet|exists SvcSetI|exists SvcSetGet|exists SvcGet|exists SvcGet|exists SvcInfReq|exists SvcInfC|exists SvcInfReq];
      cbn; auto.
  - intros ((s & H) & Hn). destruct s; cbn [svc_response svc_error] in H;
      destruct H as [H|H]; try discriminate; injection H as <-; try reflexivity; congruence.
Qed.
Print Assumptions C10_responses_partial.

Theorem C10_responses_refuted : svc_error SvcSetC = Some 81 /\ uecho_esv_isresponse 81 = false
  /\ uecho_esv_iswriteresponse 81 = false.
Proof. repeat split. Qed.
Print Assumptions C10_responses_refuted.

(* the kinds: a request is a write, read or notification request exactly when its service
   writes, reads or notifies *)
Theorem C10_request_kinds : forall e,
  (uecho_esv_iswriterequest e = true <-> exists s, e = svc_request s /\ svc_writes s = true)
  /\ (uecho_esv_isreadrequest e = true <-> exists s, e = svc_request s /\ svc_reads s = true)
  /\ (uecho_esv_isnotifyrequest e = true <-> exists s, e = svc_request s /\ svc_notifies s = true)
  /\ (uecho_esv_isnotification e = true <-> svc_response SvcInfReq = Some e).
Proof.
  intros e.
  unfold uecho_esv_iswriterequest, uecho_esv_isreadrequest, uecho_esv_isnotifyrequest, uecho_esv_isnotification,
    ESV_SetI, ESV_SetC, ESV_Get, ESV_INF_REQ, ESV_SetGet, ESV_INFC, ESV_INF.
  split; [|split; [|split]]; split; intros H.
  - assert (K : e = 96 \/ e = 97 \/ e = 110) by lia.
    destruct K as [->|[->| ->]]; [exists SvcSetI|exists SvcSetC|exists SvcSetGet]; split; reflexivity.
  - destruct H as ([] & -> & H); try discriminate H; reflexivity.
  - assert (K : e = 98 \/ e = 110) by lia.
    destruct K as [->| ->]; [exists SvcGet|exists SvcSetGet]; split; reflexivity.
  - destruct H as ([] & -> & H); try discriminate H; reflexivity.
  - assert (K : e = 99 \/ e = 116) by lia.
    destruct K as [->| ->]; [exists SvcInfReq|exists SvcInfC]; split; reflexivity.
  - destruct H as ([] & -> & H); try discriminate H; reflexivity.
  - assert (e = 115) as -> by lia. reflexivity.
  - cbn [svc_response] in H. injection H as <-. reflexivity.
Qed.
Print Assumptions C10_request_kinds.

(* the same for answers, except 0x51 (SetC_SNA), which is of no kind *)
Theorem C10_response_kinds_partial : forall e,
  let answers f := exists s, (svc_response s = Some e \/ svc_error s = Some e) /\ f s = true /\ e <> 81 in
  (uecho_esv_iswriteresponse e = true <-> answers svc_writes)
  /\ (uecho_esv_isreadresponse e = true <-> answers svc_reads)
  /\ (uecho_esv_isnotifyresponse e = true <-> answers svc_notifies).
Proof.
  intros e answers. unfold answers. clear answers.
  unfold uecho_esv_iswriteresponse, uecho_esv_isreadresponse, uecho_esv_isnotifyresponse,
    ESV_Set_Res, ESV_Get_Res, ESV_INF, ESV_INFC_Res, ESV_SetGet_Res, ESV_SetI_SNA, ESV_Get_SNA, ESV_INF_SNA,
    ESV_SetGet_SNA.
  split; [|split]; split; intros H.
  - assert (K : e = 113 \/ e = 126 \/ e = 80 \/ e = 94) by lia.
    destruct K as [->|[->|[->| ->]]]; [exists SvcSetC|exists SvcSetGet|exists SvcSetI|exists SvcSetGet];
      cbn; (split; [auto|split; [reflexivity|lia]]).
  - destruct H as ([] & [H|H] & F & N); try discriminate F; cbn in H; try discriminate H; injection H as <-;
      try reflexivity; congruence.
  - assert (K : e = 114 \/ e = 126 \/ e = 82 \/ e = 94) by lia.
    destruct K as [->|[->|[->| ->]]]; [exists SvcGet|exists SvcSetGet|exists SvcGet|exists SvcSetGet];
      cbn; (split; [auto|split; [reflexivity|lia]]).
  - destruct H as ([] & [H|H] & F & N); try discriminate F; cbn in H; try discriminate H; injection H as <-;
      try reflexivity; congruence.
  - assert (K : e = 115 \/ e = 122 \/ e = 83) by lia.
    destruct K as [->|[->| ->]]; [exists SvcInfReq|exists SvcInfC|exists SvcInfReq];
      cbn; (split; [auto|split; [reflexivity|lia]]).
  - destruct H as ([] & [H|H] & F & N); try discriminate F; cbn in H; try discriminate H; injection H as <-;
      try reflexivity; congruence.
Qed.
Print Assumptions C10_response_kinds_partial.

(* ---------- C11: copies ---------- *)

Lemma same_props_copy : forall l, Forall2 same_prop l (map uecho_property_copy l).
Proof.
  induction l as [|p l IH]; constructor; [|exact IH].
  unfold uecho_property_copy. rewrite setdata_fst. repeat split.
Qed.

(* full claim: for every message; proved for messages without Set/Get lists *)
Theorem C11_copy_partial : forall le m dst, api_msg le m -> api_msg le dst ->
  stored (m_pset m) = [] -> stored (m_pget m) = [] ->
  (exists m', uecho_message_copy le m = Ok m' /\ same_msg m m')
  /\ (exists m', uecho_message_set le dst m = Ok m' /\ same_msg m m').
Proof.
  intros le m dst Hm Hd Es Eg. pose proof (api_inv_holds _ _ Hm) as [Im _]. pose proof (api_inv_holds _ _ Hd) as [Id _].
  pose proof (api_inv_holds le _ (am_new le)) as [In _].
  assert (G : forall d, msg_ok d -> exists m', uecho_message_set le d m = Ok m' /\ same_msg m m').
  { intros d Hd'. destruct (message_set_spec le d m Hd' Im) as (v & A & B & _). eexists. split; [exact A|].
    unfold same_msg. cbn [m_ehd1 m_ehd2 m_tid m_seoj m_deoj m_esv m_p m_pset m_pget m_from m_to].
    rewrite B, Es, Eg. repeat split; try constructor. apply same_props_copy. }
  split; [apply (G _ In)|apply (G _ Id)].
Qed.
Print Assumptions C11_copy_partial.

(* and the copy has the same bytes, whatever lists the message holds, as long
   as its service is not one of 6E, 7E, 5E *)
Theorem C11_copy_bytes_partial : forall le m, api_msg le m -> in_memory m -> ~ two_lists (m_esv m) ->
  exists m', uecho_message_copy le m = Ok m' /\ uecho_message_getbytes m' = uecho_message_getbytes m
  /\ uecho_message_equals m m' = Ok true.
Proof.
  intros le m Hm Hi Ht. pose proof (api_inv_holds _ _ Hm) as [Im He].
  pose proof (api_inv_holds le _ (am_new le)) as [In _].
  destruct (message_set_spec le _ m In Im) as (v & A & B & C). eexists. split; [exact A|].
  set (m' := mkMsg _ _ _ _ _ _ v _ _ _ _) in *.
  assert (Hm' : api_msg le m') by (eapply am_set; [apply am_new|exact Hm|exact A]).
  destruct (api_inv_holds _ _ Hm') as [Im' _].
  assert (E2 : two_listsb (m_esv m) = false) by (apply not_true_iff_false; rewrite two_listsb_iff; exact Ht).
  assert (W : wire_msg m' = wire_msg m).
  { unfold wire_msg, m'. cbn [m_ehd1 m_ehd2 m_tid m_seoj m_deoj m_esv m_p]. rewrite E2.
    replace (pv_opc v) with (pv_opc (m_p m)).
    - unfold pv_list. rewrite B. do 5 f_equal. unfold wire_props. rewrite map_map. f_equal. apply map_ext. intros p. unfold wire_prop, uecho_property_copy. rewrite setdata_fst. reflexivity.
    - pose proof Im as (_ & _ & _ & _ & _ & _ & _ & K & _).
      rewrite <- (pv_list_len v C), <- (pv_list_len _ K). unfold pv_list. rewrite B, len_map. reflexivity. }
  pose proof (in_memory_fits m Im Hi) as F.
  assert (F' : fits m') by (unfold fits; rewrite W; exact F).
  split; [rewrite !getbytes_spec by assumption; congruence|].
  destruct (equals_spec m m' Im Im' F F') as (b & E & Hb). rewrite E. f_equal. apply Hb. symmetry. exact W.
Qed.
Print Assumptions C11_copy_bytes_partial.

Theorem C11_copy_refuted : exists m m', api_msg true m
  /\ uecho_message_copy true m = Ok m'
  /\ uecho_message_getopcset m = 1 /\ uecho_message_getopcset m' = 0
  /\ uecho_message_equals m m' = Ok false.
Proof.
  destruct (uecho_message_setpropertyset 128 [48] (uecho_message_setesv 110 uecho_message_new)) as [m|] eqn:E;
    [|vm_compute in E; discriminate].
  assert (Hm : api_msg true m).
  { eapply am_setpropset; [| | |exact E]; [|unfold is_byte; lia|repeat constructor; lia].
    apply am_setesv; [apply am_new|unfold is_byte; lia]. }
  vm_compute in E. injection E as <-. do 2 eexists. split; [exact Hm|].
  repeat (split; [vm_compute; reflexivity|]). vm_compute; reflexivity.
Qed.
Print Assumptions C11_copy_refuted.

Example C11_example : exists m, api_msg true m /\ stored (m_pset m) = [] /\ stored (m_pget m) = []
  /\ uecho_message_getopc m = 2 /\ m_from m = Some "10.0.0.1"%string.
Proof.
  destruct (do m <- uecho_message_setproperty 128 [48] (uecho_message_setesv 97 uecho_message_new) ;;
            uecho_message_setproperty 176 [1; 2] (uecho_message_setsourceaddress (Some "10.0.0.1"%string) m)) as [m|] eqn:E;
    [|vm_compute in E; discriminate].
  exists m. split.
  - apply bind_ok in E. destruct E as (m1 & E1 & E2).
    eapply am_setprop; [| | |exact E2]; [|unfold is_byte; lia|repeat constructor; lia].
    apply am_setfrom. eapply am_setprop; [| | |exact E1]; [|unfold is_byte; lia|repeat constructor; lia].
    apply am_setesv; [apply am_new|unfold is_byte; lia].
  - vm_compute in E. injection E as <-. repeat split.
Qed.

(* ---------- C12: equality ---------- *)

Theorem C12_equals_iff_bytes : forall le m1 m2, api_msg le m1 -> api_msg le m2 -> in_memory m1 -> in_memory m2 ->
  exists b bs1 bs2, uecho_message_equals m1 m2 = Ok b
  /\ uecho_message_getbytes m1 = Ok bs1 /\ uecho_message_getbytes m2 = Ok bs2 /\ (b = true <-> bs1 = bs2).
Proof.
  intros le m1 m2 H1 H2 I1 I2. apply api_inv_holds in H1. apply api_inv_holds in H2. destruct H1 as [H1 _], H2 as [H2 _].
  apply in_memory_fits in I1; [|exact H1]. apply in_memory_fits in I2; [|exact H2].
  destruct (equals_spec m1 m2 H1 H2 I1 I2) as (b & E & Hb).
  exists b, (wire_msg m1), (wire_msg m2). rewrite !getbytes_spec by assumption. auto.
Qed.
Print Assumptions C12_equals_iff_bytes.

Theorem C12_equivalence : forall le m1 m2 m3,
  api_msg le m1 -> api_msg le m2 -> api_msg le m3 -> in_memory m1 -> in_memory m2 -> in_memory m3 ->
  uecho_message_equals m1 m1 = Ok true
  /\ (uecho_message_equals m1 m2 = Ok true -> uecho_message_equals m2 m1 = Ok true)
  /\ (uecho_message_equals m1 m2 = Ok true -> uecho_message_equals m2 m3 = Ok true -> uecho_message_equals m1 m3 = Ok true).
Proof.
  intros le m1 m2 m3 H1 H2 H3 I1 I2 I3.
  assert (G : forall a b, api_msg le a -> api_msg le b -> in_memory a -> in_memory b ->
     (uecho_message_equals a b = Ok true <-> uecho_message_getbytes a = uecho_message_getbytes b)).
  { intros a b Ha Hb Ia Ib. destruct (C12_equals_iff_bytes le a b Ha Hb Ia Ib) as (r & x & y & E & Ex & Ey & Hr).
    rewrite E, Ex, Ey. split.
    - intros K. injection K as ->. f_equal. apply Hr. reflexivity.
    - intros K. f_equal. apply Hr. congruence. }
  rewrite !G by assumption. repeat split; congruence.
Qed.
Print Assumptions C12_equivalence.

(* ---------- C13: adding properties ---------- *)

(* full claim has no bound on the number of additions *)
Theorem C13_add_partial : forall le m ps, api_msg le m -> Forall free_prop ps ->
  uecho_message_getopc m + len ps <= 255 ->
  exists m', add_all ps m = Ok m'
  /\ uecho_message_getopc m' = uecho_message_getopc m + len ps
  /\ (forall i, 0 <= i < SIZE_MOD -> uecho_message_getproperty m' i = Ok (nth_error (stored (m_p m) ++ ps) (Z.to_nat i)))
  /\ m' = with_p (m_p m') m.
Proof.
  intros le m ps Hm Hp Hn. apply api_inv_holds in Hm. destruct Hm as [Hm _].
  destruct (add_all_spec ps m Hm Hp Hn) as (m' & A & B & C & D). exists m'. split; [exact A|].
  pose proof Hm as (_ & _ & _ & _ & _ & _ & _ & K & _). pose proof B as (_ & _ & _ & _ & _ & _ & _ & K' & _).
  split; [|split; [|exact C]].
  - unfold uecho_message_getopc. rewrite <- (pv_list_len _ K), <- (pv_list_len _ K'). unfold pv_list. rewrite D. apply len_app.
  - intros i Hi. unfold uecho_message_getproperty. rewrite property_get_spec by assumption. rewrite D. reflexivity.
Qed.
Print Assumptions C13_add_partial.

(* on a new message: the count and every index, present or not *)
Theorem C13_add_new : forall ps, Forall free_prop ps -> len ps <= 255 ->
  exists m, add_all ps uecho_message_new = Ok m /\ uecho_message_getopc m = len ps
  /\ (forall i p, nth_error ps i = Some p -> uecho_message_getproperty m (Z.of_nat i) = Ok (Some p))
  /\ (forall i, len ps <= i < SIZE_MOD -> uecho_message_getproperty m i = Ok None).
Proof.
  intros ps Hp Hn. destruct (C13_add_partial true _ ps (am_new true) Hp Hn) as (m & A & B & C & _).
  exists m. split; [exact A|]. split; [exact B|]. cbn [uecho_message_new m_p stored pv_ep app] in C. split.
  - intros i p E. rewrite C.
    + rewrite Nat2Z.id, E. reflexivity.
    + assert (i < length ps)%nat by (apply nth_error_Some; congruence). unfold len, SIZE_MOD in *. lia.
  - intros i Hi. rewrite C by (pose proof (len_nonneg _ ps); lia). f_equal. apply nth_error_None. unfold len in Hi. lia.
Qed.
Print Assumptions C13_add_new.

(* every longer sequence of additions writes outside the array *)
Theorem C13_add_refuted : forall le m ps, api_msg le m -> Forall free_prop ps ->
  uecho_message_getopc m + len ps > 255 -> add_all ps m = Undef UB_write.
Proof. intros le m ps Hm Hp Hn. apply api_inv_holds in Hm. destruct Hm as [Hm _]. apply add_all_overflow; assumption. Qed.
Print Assumptions C13_add_refuted.

Example C13_example : exists ps, Forall free_prop ps /\ len ps = 256.
Proof.
  exists (repeat (mkProp 128 3 [1; 2] false) 256). split; [|vm_compute; reflexivity].
  apply Forall_forall. intros x Hx. apply repeat_spec in Hx. subst. split; [cbn; unfold is_byte; lia|].
  split; [repeat constructor; lia|reflexivity].
Qed.

(* ---------- C14: setting properties by code ---------- *)

Theorem C14_setproperty : forall kvs,
  Forall (fun kv => is_byte (fst kv) /\ bytes_ok (snd kv)) kvs -> (length (first_writes kvs) <= 255)%nat ->
  exists m, set_all kvs uecho_message_new = Ok m
  /\ map p_code (stored (m_p m)) = first_writes kvs /\ NoDup (first_writes kvs)
  /\ (forall c, exists o, uecho_message_getpropertybycode m c = Ok o /\ option_map p_data o = last_write kvs c).
Proof.
  intros kvs Hk Hn. pose proof (api_inv_holds true _ (am_new true)) as [Hm _].
  destruct (set_all_spec kvs uecho_message_new Hm Hk Hn) as (m & A & B & _ & D & E).
  exists m. split; [exact A|]. split; [exact D|]. split; [apply fold_add_code_nodup; constructor|].
  intros c. destruct B as (_ & _ & _ & _ & _ & _ & _ & K & _).
  unfold uecho_message_getpropertybycode, uecho_property_getbycode. rewrite pv_items_ok by exact K. cbn [bind].
  eexists. split; [reflexivity|]. unfold lookup in E. unfold pv_list. rewrite E. cbn. destruct (last_write kvs c); reflexivity.
Qed.
Print Assumptions C14_setproperty.

(* one call on any message: frame condition *)
Theorem C14_setproperty_step : forall le m c d, api_msg le m -> is_byte c -> bytes_ok d ->
  (In c (map p_code (stored (m_p m))) \/ uecho_message_getopc m < 255) ->
  exists m', uecho_message_setproperty c d m = Ok m' /\ m' = with_p (m_p m') m
  /\ map p_code (stored (m_p m')) = add_code (map p_code (stored (m_p m))) c
  /\ (exists p, uecho_message_getpropertybycode m' c = Ok (Some p) /\ p_data p = d)
  /\ (forall c', c' <> c -> exists o o', uecho_message_getpropertybycode m c' = Ok o
        /\ uecho_message_getpropertybycode m' c' = Ok o' /\ option_map p_data o' = option_map p_data o).
Proof.
  intros le m c d Hm Hc Hd Hn. apply api_inv_holds in Hm. destruct Hm as [Hm _].
  pose proof Hm as (_ & _ & _ & _ & _ & _ & _ & K & _).
  destruct (property_set_spec (m_p m) c d K Hc Hd) as (v & A & B & C).
  { destruct Hn as [Hn|Hn]; [left|right; exact Hn]. intros X. apply find_none_codes in X. contradiction. }
  exists (with_p v m). unfold uecho_message_setproperty. rewrite A. split; [reflexivity|]. split; [reflexivity|].
  cbn [with_p m_p]. split; [rewrite C; apply (codes_set_list (stored (m_p m)) c d)|].
  unfold uecho_message_getpropertybycode, uecho_property_getbycode. cbn [with_p m_p].
  rewrite !pv_items_ok by assumption. cbn [bind]. unfold pv_list. split.
  - pose proof (lookup_set_list (stored (m_p m)) c d c) as L. rewrite Z.eqb_refl in L. rewrite C. unfold lookup in L.
    destruct (find (fun p => p_code p =? c) (set_list c d (stored (m_p m)))) as [p|]; [|discriminate].
    exists p. cbn in L. injection L as L. auto.
  - intros c' Hc'. do 2 eexists. split; [reflexivity|]. split; [reflexivity|].
    pose proof (lookup_set_list (stored (m_p m)) c d c') as L. destruct (Z.eqb_spec c c'); [congruence|].
    rewrite C. exact L.
Qed.
Print Assumptions C14_setproperty_step.

Example C14_example : exists m, set_all [(128, [1]); (176, [2; 3]); (128, [4])] uecho_message_new = Ok m
  /\ map (fun p => (p_code p, p_data p)) (stored (m_p m)) = [(128, [4]); (176, [2; 3])]
  /\ first_writes [(128, [1]); (176, [2; 3]); (128, [4])] = [128; 176].
Proof. eexists. split; [vm_compute; reflexivity|]. split; vm_compute; reflexivity. Qed.
