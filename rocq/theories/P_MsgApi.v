(* Lemmas behind the message properties: API invariant, getters, copy, equals. *)
From Coq Require Import String ZArith List Bool Lia ZifyBool ZifyNat.
From Verif Require Import CSem M_Const M_Misc M_Property M_Message Spec_Frame Spec_Message
  P_Base P_Misc P_Message P_Encode.
Import ListNotations.
Open Scope Z_scope.
Ltac Zify.zify_post_hook ::= Z.div_mod_to_equations.

(* ---- TID ---- *)

Lemma land_ones_8 : forall z, Z.land z 255 = z mod 256.
Proof. intros. change 255 with (Z.ones 8). rewrite Z.land_ones by lia. reflexivity. Qed.

Lemma land_hi_8 : forall z, 0 <= z < 65536 -> Z.shiftr (Z.land z 65280) 8 = z / 256.
Proof.
  intros z H. rewrite Z.shiftr_land. change (Z.shiftr 65280 8) with (Z.ones 8).
  rewrite Z.land_ones by lia. rewrite Z.shiftr_div_pow2 by lia.
  change (2 ^ 8) with 256. apply Z.mod_small. lia.
Qed.

Definition tid_reduce (v : Z) : Z :=
  let v := u32 v in if uEchoTidMax <? v then v mod uEchoTidMax else v.

Lemma tid_reduce_range : forall v, 0 <= tid_reduce v <= 65535.
Proof.
  intros v. unfold tid_reduce, u32, uEchoTidMax.
  assert (0 <= v mod 4294967296) by (apply Z.mod_pos_bound; lia).
  destruct (Z.ltb_spec 65535 (v mod 4294967296)); [|lia].
  pose proof (Z.mod_pos_bound (v mod 4294967296) 65535). lia.
Qed.

Lemma htons_range : forall le v, 0 <= htons le v < 65536.
Proof.
  intros le v. unfold htons. destruct le; lia.
Qed.

Lemma settid_bytes : forall le v m,
  m_tid (uecho_message_settid le v m)
  = if le then (tid_reduce v mod 256, tid_reduce v / 256) else (tid_reduce v / 256, tid_reduce v mod 256).
Proof.
  intros le v m. unfold uecho_message_settid. fold (tid_reduce v).
  pose proof (tid_reduce_range v) as R. msimp.
  replace (let v0 := u32 v in if uEchoTidMax <? v0 then v0 mod uEchoTidMax else v0) with (tid_reduce v) by reflexivity.
  rewrite land_ones_8, land_hi_8 by apply htons_range.
  unfold htons, u16. rewrite !(Z.mod_small (tid_reduce v) 65536) by lia.
  destruct le; f_equal; lia.
Qed.

Lemma gettid_bytes : forall le m, is_byte (fst (m_tid m)) -> is_byte (snd (m_tid m)) ->
  uecho_message_gettid le m
  = if le then snd (m_tid m) * 256 + fst (m_tid m) else fst (m_tid m) * 256 + snd (m_tid m).
Proof.
  intros le m H1 H2. unfold uecho_message_gettid, is_byte in *.
  rewrite Z.shiftl_mul_pow2 by lia. change (2 ^ 8) with 256.
  unfold u16, htons. destruct le; lia.
Qed.

Lemma settid_is_byte : forall le v m,
  is_byte (fst (m_tid (uecho_message_settid le v m))) /\ is_byte (snd (m_tid (uecho_message_settid le v m))).
Proof.
  intros. rewrite settid_bytes. pose proof (tid_reduce_range v). unfold is_byte. destruct le; cbn [fst snd]; lia.
Qed.

Lemma gettid_settid : forall le v m, uecho_message_gettid le (uecho_message_settid le v m) = tid_reduce v.
Proof.
  intros. destruct (settid_is_byte le v m). rewrite gettid_bytes by assumption. rewrite settid_bytes.
  pose proof (tid_reduce_range v). destruct le; cbn [fst snd]; lia.
Qed.

Lemma tid_reduce_id : forall v, 0 <= v <= 65535 -> tid_reduce v = v.
Proof.
  intros v H. unfold tid_reduce, u32, uEchoTidMax. rewrite Z.mod_small by lia.
  destruct (Z.ltb_spec 65535 v); lia.
Qed.

(* copying the TID of one message to another keeps the two bytes *)
Lemma settid_gettid : forall le m m', is_byte (fst (m_tid m)) -> is_byte (snd (m_tid m)) ->
  m_tid (uecho_message_settid le (uecho_message_gettid le m) m') = m_tid m.
Proof.
  intros le m m' H1 H2. rewrite settid_bytes, gettid_bytes by assumption.
  unfold is_byte in *. destruct (m_tid m) as [a b]. cbn [fst snd] in *.
  destruct le; rewrite tid_reduce_id by lia; f_equal; lia.
Qed.

(* ---- object codes ---- *)

Lemma getobj_eoj : forall l, eoj3 l ->
  exists a b c, l = [a; b; c] /\ uecho_byte2integer l = Ok (eoj_code (a, b, c)).
Proof.
  intros l (a & b & c & -> & Ha & Hb & Hc). exists a, b, c. split; [reflexivity|].
  rewrite byte2integer_3 by assumption. cbn [eoj_code]. f_equal.
Qed.

Lemma eoj_setget : forall l, eoj3 l -> exists code,
  uecho_byte2integer l = Ok code /\ uecho_integer2byte code 3 = Ok l.
Proof.
  intros l (a & b & c & -> & Ha & Hb & Hc). exists (a * 65536 + b * 256 + c).
  split; [apply byte2integer_3; assumption|apply bytes_of_be3; assumption].
Qed.

Lemma eoj3_of_code : forall c, eoj3 [byte_of c 2; byte_of c 1; byte_of c 0].
Proof. intros c. exists (byte_of c 2), (byte_of c 1), (byte_of c 0). repeat split; apply byte_of_range. Qed.

(* ---- property arrays ---- *)

Lemma property_add_ok : forall v p, pv_ok v -> prop_ok p -> pv_opc v < 255 ->
  uecho_property_add v p = Ok (mkPvec (pv_opc v + 1) (Some (stored v ++ [p])))
  /\ pv_ok (mkPvec (pv_opc v + 1) (Some (stored v ++ [p]))).
Proof.
  intros v p Hv Hp Hn. pose proof (pv_list_len v Hv) as Hl. pose proof (pv_list_ok v Hv) as Hf.
  unfold pv_list in *. destruct Hv as (H1 & H2).
  unfold uecho_property_add. unfold to_byte. rewrite Z.mod_small by lia.
  destruct (Z.eqb_spec (pv_opc v + 1) 0); [lia|].
  replace (match pv_ep v with Some l => l | None => [] end) with (stored v) by reflexivity.
  replace (pv_opc v + 1 - 1) with (pv_opc v) by lia.
  destruct (Z.ltb_spec (len (stored v)) (pv_opc v)); [lia|].
  rewrite <- Hl, to_nat_len, firstn_all. split; [reflexivity|].
  split; cbn [pv_opc pv_ep]; [lia|]. split; [rewrite len_app, len_cons, len_nil; lia|].
  split; [destruct (stored v); discriminate|]. apply Forall_app. auto.
Qed.

Lemma property_add_full : forall v p, pv_opc v = 255 -> uecho_property_add v p = Undef UB_write.
Proof. intros v p H. unfold uecho_property_add. rewrite H. reflexivity. Qed.

Lemma property_add_inv : forall v p v', pv_ok v -> prop_ok p -> uecho_property_add v p = Ok v' ->
  pv_opc v < 255 /\ v' = mkPvec (pv_opc v + 1) (Some (stored v ++ [p])) /\ pv_ok v'.
Proof.
  intros v p v' Hv Hp H. destruct (Z.eq_dec (pv_opc v) 255) as [E|E].
  - rewrite property_add_full in H by exact E. discriminate.
  - assert (pv_opc v < 255) by (destruct Hv; lia).
    destruct (property_add_ok v p Hv Hp) as [A B]; [assumption|]. rewrite A in H. injection H as <-. auto.
Qed.

Lemma upd_first_len : forall c f l, length (upd_first c f l) = length l.
Proof. induction l as [|p l IH]; cbn [upd_first]; [reflexivity|]. destruct (p_code p =? c); cbn [length]; lia. Qed.

Lemma upd_first_ok : forall c d l, bytes_ok d -> Forall prop_ok l ->
  Forall prop_ok (upd_first c (fun p => fst (uecho_property_setdata d p)) l).
Proof.
  induction l as [|p l IH]; intros Hd H; cbn [upd_first]; [constructor|].
  inversion H as [|x y (Hx1 & Hx2 & Hx3) Hy]; subst.
  destruct (p_code p =? c).
  - constructor; [|exact Hy]. rewrite setdata_fst. split; [exact Hx1|split; [exact Hd|exact Hx3]].
  - constructor; [split; [exact Hx1|split; [exact Hx2|exact Hx3]]|auto].
Qed.

Definition set_list (c : Z) (d : list Z) (l : list prop) : list prop :=
  match find (fun p => p_code p =? c) l with
  | Some _ => upd_first c (fun p => fst (uecho_property_setdata d p)) l
  | None => l ++ [mkProp c AttrReadWrite d false]
  end.

Lemma property_set_spec : forall v c d, pv_ok v -> is_byte c -> bytes_ok d ->
  (find (fun p => p_code p =? c) (stored v) <> None \/ pv_opc v < 255) ->
  exists v', uecho_property_set v c d = Ok v' /\ pv_ok v' /\ stored v' = set_list c d (stored v).
Proof.
  intros v c d Hv Hc Hd Hn. unfold uecho_property_set, uecho_property_getbycode, set_list.
  rewrite pv_items_ok by exact Hv. cbn [bind]. unfold pv_list.
  destruct (find (fun p => p_code p =? c) (stored v)) as [q|] eqn:E.
  - eexists. split; [reflexivity|].
    destruct Hv as (H1 & H2). unfold stored in *. destruct (pv_ep v) as [l|]; [|discriminate].
    destruct H2 as (H2 & H3 & H4). cbn [option_map pv_ep]. split; [|reflexivity].
    split; cbn [pv_opc pv_ep]; [lia|]. split; [unfold len in *; rewrite upd_first_len; exact H2|].
    split; [|apply upd_first_ok; assumption].
    intros K. apply (f_equal (@length prop)) in K. rewrite upd_first_len in K. destruct l; [congruence|discriminate].
  - assert (Hp : prop_ok (fst (uecho_property_setdata d (uecho_property_setcode c uecho_property_new)))).
    { rewrite setdata_fst. cbn. split; [assumption|split; [assumption|reflexivity]]. }
    destruct (property_add_ok v _ Hv Hp) as [A B]; [destruct Hn; [congruence|assumption]|].
    eexists. split; [exact A|]. split; [exact B|]. unfold stored at 1. cbn [pv_ep].
    rewrite setdata_fst. reflexivity.
Qed.

Lemma property_set_inv : forall v c d v', pv_ok v -> is_byte c -> bytes_ok d ->
  uecho_property_set v c d = Ok v' -> pv_ok v' /\ stored v' = set_list c d (stored v).
Proof.
  intros v c d v' Hv Hc Hd H.
  destruct (find (fun p => p_code p =? c) (stored v)) as [q|] eqn:E.
  - destruct (property_set_spec v c d Hv Hc Hd) as (v2 & A & B & C); [left; congruence|].
    rewrite A in H. injection H as <-. auto.
  - destruct (Z.eq_dec (pv_opc v) 255) as [E2|E2].
    + unfold uecho_property_set, uecho_property_getbycode in H.
      rewrite pv_items_ok in H by exact Hv. cbn [bind] in H. unfold pv_list in H. rewrite E in H.
      rewrite property_add_full in H by exact E2. discriminate.
    + destruct (property_set_spec v c d Hv Hc Hd) as (v2 & A & B & C); [right; destruct Hv; lia|].
      rewrite A in H. injection H as <-. auto.
Qed.

(* ---- invariant of API messages ---- *)

Definition api_inv (m : msg) : Prop := msg_ok m /\ std_ehd m.

Lemma msg_ok_upd : forall m tid s d e p ps pg f t, msg_ok m ->
  is_byte (fst tid) -> is_byte (snd tid) -> eoj3 s -> eoj3 d -> is_byte e -> pv_ok p -> pv_ok ps -> pv_ok pg ->
  msg_ok (mkMsg (m_ehd1 m) (m_ehd2 m) tid s d e p ps pg f t).
Proof. intros m tid s d e p ps pg f t (A & B & _) ? ? ? ? ? ? ? ?. unfold msg_ok. msimp. tauto. Qed.

Lemma copy_properties_spec : forall l m, msg_ok m -> Forall prop_ok l -> pv_opc (m_p m) + len l <= 255 ->
  exists m', copy_properties l m = Ok m' /\ msg_ok m'
  /\ m' = with_p (m_p m') m /\ stored (m_p m') = stored (m_p m) ++ map uecho_property_copy l
  /\ pv_opc (m_p m') = pv_opc (m_p m) + len l.
Proof.
  induction l as [|p l IH]; intros m Hm Hl Hn; cbn [copy_properties].
  - exists m. split; [reflexivity|]. split; [exact Hm|]. split; [destruct m; reflexivity|].
    cbn [map]. rewrite app_nil_r, len_nil. split; [reflexivity|lia].
  - inversion Hl as [|x y (Hx1 & Hx2 & Hx3) Hy]; subst. rewrite len_cons in Hn. pose proof (len_nonneg _ l).
    assert (Hc : prop_ok (uecho_property_copy p)).
    { unfold uecho_property_copy. rewrite setdata_fst. cbn. split; [assumption|split; [assumption|reflexivity]]. }
    pose proof Hm as (H1 & H2 & H3 & H4 & H5 & H6 & H7 & H8 & H9 & H10).
    unfold uecho_message_addproperty.
    destruct (property_add_ok (m_p m) (uecho_property_copy p) H8 Hc) as [A B]; [lia|].
    rewrite A. cbn [bind].
    assert (Hm2 : msg_ok (with_p (mkPvec (pv_opc (m_p m) + 1) (Some (stored (m_p m) ++ [uecho_property_copy p]))) m)).
    { unfold msg_ok. msimp. fold (fst (m_tid m)). fold (snd (m_tid m)). tauto. }
    destruct (IH _ Hm2 Hy) as (m' & E & Hok & Ew & Es & En).
    { cbn [with_p m_p pv_opc]. lia. }
    exists m'. split; [exact E|]. split; [exact Hok|]. split.
    + rewrite Ew at 1. destruct m; reflexivity.
    + rewrite Es, En. cbn [with_p m_p pv_opc]. unfold stored at 1. cbn [pv_ep map].
      rewrite <- app_assoc, len_cons. split; [reflexivity|lia].
Qed.

Lemma with_p_fields : forall v m, m_ehd1 (with_p v m) = m_ehd1 m /\ m_ehd2 (with_p v m) = m_ehd2 m.
Proof. intros; split; reflexivity. Qed.

Definition or_else (a b : option string) : option string := match a with Some _ => a | None => b end.

(* uecho_message_set copies header, TID, objects, service, addresses and the
   plain property list, and clears the other two lists *)
Lemma message_set_spec : forall le m src, msg_ok m -> msg_ok src ->
  exists v, uecho_message_set le m src
  = Ok (mkMsg (m_ehd1 src) (m_ehd2 src) (m_tid src) (m_seoj src) (m_deoj src) (m_esv src)
              v pv_empty pv_empty (m_from src) (m_to src))
  /\ stored v = map uecho_property_copy (stored (m_p src)) /\ pv_ok v.
Proof.
  intros le m src Hm Hs. unfold uecho_message_set. rewrite clear_ok by exact Hm. cbn [bind].
  pose proof Hs as (H1 & H2 & H3 & H4 & H5 & H6 & H7 & H8 & H9 & H10).
  destruct (eoj_setget _ H5) as (sc & A1 & A2). destruct (eoj_setget _ H6) as (dc & B1 & B2).
  unfold uecho_message_getsourceobjectcode, uecho_message_getdestinationobjectcode,
    uecho_message_setsourceobjectcode, uecho_message_setdestinationobjectcode, uEchoEOJSize.
  rewrite A1. cbn [bind]. rewrite A2. cbn [bind]. rewrite B1. cbn [bind]. rewrite B2. cbn [bind].
  rewrite (pv_items_ok _ H8). cbn [bind]. unfold pv_list.
  set (m2 := uecho_message_setdestinationaddress _ _).
  assert (E : m2 = mkMsg (m_ehd1 src) (m_ehd2 src) (m_tid src) (m_seoj src) (m_deoj src) (m_esv src)
              pv_empty pv_empty pv_empty (m_from src) (m_to src)).
  { pose proof (settid_gettid le src (with_ehd (m_ehd1 src) (m_ehd2 src)
      (mkMsg (m_ehd1 m) (m_ehd2 m) (m_tid m) (m_seoj m) (m_deoj m) (m_esv m) pv_empty pv_empty pv_empty None None)) H3 H4) as T.
    subst m2. unfold uecho_message_settid in *. 
    set (tt := (Z.shiftr _ _, Z.land _ 255)) in *.
    assert (E2 : tt = m_tid src) by exact T. rewrite E2.
    unfold uecho_message_setdestinationaddress, uecho_message_setsourceaddress.
    destruct (m_from src), (m_to src); reflexivity. }
  rewrite E.
  assert (Hm2 : msg_ok (mkMsg (m_ehd1 src) (m_ehd2 src) (m_tid src) (m_seoj src) (m_deoj src) (m_esv src)
              pv_empty pv_empty pv_empty (m_from src) (m_to src))).
  { pose proof pv_empty_ok. apply msg_ok_upd; assumption. }
  destruct (copy_properties_spec (stored (m_p src)) _ Hm2) as (m' & C1 & C2 & C3 & C4 & C5).
  - apply (pv_list_ok _ H8).
  - cbn [m_p pv_opc pv_empty]. pose proof (pv_list_len _ H8) as L. unfold pv_list in L. destruct H8. lia.
  - exists (m_p m'). rewrite C1. rewrite C3 at 1. split; [reflexivity|]. split; [exact C4|].
    destruct C2 as (_ & _ & _ & _ & _ & _ & _ & K & _). exact K.
Qed.

Lemma api_inv_holds : forall le m, api_msg le m -> api_inv m.
Proof.
  intros le m H. induction H as
    [ | m m' _ [IH IE] E | m data r m' _ [IH IE] [Hd Hl] E | m data la ra r m' _ [IH IE] [Hd Hl] E
    | m v _ [IH IE] | m c m' _ [IH IE] E | m c m' _ [IH IE] E | m e _ [IH IE] He
    | m p m' _ [IH IE] Hp E | m p m' _ [IH IE] Hp E | m p m' _ [IH IE] Hp E
    | m c d m' _ [IH IE] Hc Hd E | m c d m' _ [IH IE] Hc Hd E | m c d m' _ [IH IE] Hc Hd E
    | m a _ [IH IE] | m a _ [IH IE] | m src m' _ [IH IE] _ [IH2 IE2] E ].
  - split; [|split; reflexivity]. unfold msg_ok, uecho_message_new. msimp.
    assert (is_byte uEchoEhd1 /\ is_byte uEchoEhd2 /\ is_byte 0) by (unfold is_byte, uEchoEhd1, uEchoEhd2; lia).
    assert (eoj3 [0; 0; 0]) by (exists 0, 0, 0; repeat split; lia).
    pose proof pv_empty_ok as K. unfold pv_empty in K. tauto.
  - rewrite clear_ok in E by exact IH. injection E as <-.
    destruct IH as (A1 & A2 & A3 & A4 & A5 & A6 & A7 & _). destruct IE.
    pose proof pv_empty_ok. unfold api_inv, msg_ok, std_ehd. msimp. fold (fst (m_tid m)). fold (snd (m_tid m)). tauto.
  - pose proof (parse_spec m data IH Hd Hl) as P. destruct (dec_frame data) as [[f rest]|] eqn:Ed.
    + rewrite P in E. injection E as <- <-. apply dec_frame_iff in Ed; [|exact Hd]. destruct Ed as [Hf _].
      split; [apply msg_of_frame_ok; assumption|].
      destruct IE. unfold std_ehd, msg_of_frame. destruct (f_body f); msimp; auto.
    + destruct P as (m2 & P & K & K1 & K2). rewrite P in E. injection E as <- <-.
      split; [exact K|]. destruct IE. unfold std_ehd. rewrite K1, K2. auto.
  - pose proof (parse_spec m data IH Hd Hl) as P. unfold uecho_message_parsepacket in E.
    destruct (dec_frame data) as [[f rest]|] eqn:Ed.
    + rewrite P in E. cbn [bind negb] in E. injection E as <- <-.
      apply dec_frame_iff in Ed; [|exact Hd]. destruct Ed as [Hf _].
      assert (K : api_inv (msg_of_frame m f)).
      { split; [apply msg_of_frame_ok; assumption|].
        destruct IE. unfold std_ehd, msg_of_frame. destruct (f_body f); msimp; auto. }
      destruct K as [K1 K2]. unfold uecho_message_setsourceaddress.
      destruct la, ra; split; first [exact K1|exact K2].
    + destruct P as (m2 & P & K & K1 & K2). rewrite P in E. cbn [bind negb] in E. injection E as <- <-.
      split; [exact K|]. destruct IE. unfold std_ehd. rewrite K1, K2. auto.
  - destruct IH as (A1 & A2 & A3 & A4 & A5 & A6 & A7 & A8 & A9 & A10).
    pose proof (settid_is_byte le v m) as [T1 T2].
    split; [|exact IE]. unfold msg_ok. split; [exact A1|]. split; [exact A2|]. split; [exact T1|]. split; [exact T2|].
    unfold uecho_message_settid. msimp. tauto.
  - unfold uecho_message_setsourceobjectcode, uEchoEOJSize in E. rewrite integer2byte_3 in E. cbn [bind] in E. injection E as <-.
    split; [|exact IE]. destruct IH as (A1 & A2 & A3 & A4 & A5 & A6 & A7 & A8 & A9 & A10).
    pose proof (eoj3_of_code c). unfold msg_ok. msimp. fold (fst (m_tid m)). fold (snd (m_tid m)). tauto.
  - unfold uecho_message_setdestinationobjectcode, uEchoEOJSize in E. rewrite integer2byte_3 in E. cbn [bind] in E. injection E as <-.
    split; [|exact IE]. destruct IH as (A1 & A2 & A3 & A4 & A5 & A6 & A7 & A8 & A9 & A10).
    pose proof (eoj3_of_code c). unfold msg_ok. msimp. fold (fst (m_tid m)). fold (snd (m_tid m)). tauto.
  - split; [|exact IE]. destruct IH as (A1 & A2 & A3 & A4 & A5 & A6 & A7 & A8 & A9 & A10).
    unfold uecho_message_setesv, msg_ok. msimp. fold (fst (m_tid m)). fold (snd (m_tid m)). tauto.
  - unfold uecho_message_addproperty in E. apply bind_ok in E. destruct E as (v & E & E2). injection E2 as <-.
    destruct IH as (A1 & A2 & A3 & A4 & A5 & A6 & A7 & A8 & A9 & A10).
    apply property_add_inv in E; [|assumption..]. destruct E as (_ & _ & K).
    split; [|exact IE]. unfold msg_ok. msimp. fold (fst (m_tid m)). fold (snd (m_tid m)). tauto.
  - unfold uecho_message_addpropertyset in E. apply bind_ok in E. destruct E as (v & E & E2). injection E2 as <-.
    destruct IH as (A1 & A2 & A3 & A4 & A5 & A6 & A7 & A8 & A9 & A10).
    apply property_add_inv in E; [|assumption..]. destruct E as (_ & _ & K).
    split; [|exact IE]. unfold msg_ok. msimp. fold (fst (m_tid m)). fold (snd (m_tid m)). tauto.
  - unfold uecho_message_addpropertyget in E. apply bind_ok in E. destruct E as (v & E & E2). injection E2 as <-.
    destruct IH as (A1 & A2 & A3 & A4 & A5 & A6 & A7 & A8 & A9 & A10).
    apply property_add_inv in E; [|assumption..]. destruct E as (_ & _ & K).
    split; [|exact IE]. unfold msg_ok. msimp. fold (fst (m_tid m)). fold (snd (m_tid m)). tauto.
  - unfold uecho_message_setproperty in E. apply bind_ok in E. destruct E as (v & E & E2). injection E2 as <-.
    destruct IH as (A1 & A2 & A3 & A4 & A5 & A6 & A7 & A8 & A9 & A10).
    apply property_set_inv in E; [|assumption..]. destruct E as (K & _).
    split; [|exact IE]. unfold msg_ok. msimp. fold (fst (m_tid m)). fold (snd (m_tid m)). tauto.
  - unfold uecho_message_setpropertyset in E. apply bind_ok in E. destruct E as (v & E & E2). injection E2 as <-.
    destruct IH as (A1 & A2 & A3 & A4 & A5 & A6 & A7 & A8 & A9 & A10).
    apply property_set_inv in E; [|assumption..]. destruct E as (K & _).
    split; [|exact IE]. unfold msg_ok. msimp. fold (fst (m_tid m)). fold (snd (m_tid m)). tauto.
  - unfold uecho_message_setpropertyget in E. apply bind_ok in E. destruct E as (v & E & E2). injection E2 as <-.
    destruct IH as (A1 & A2 & A3 & A4 & A5 & A6 & A7 & A8 & A9 & A10).
    apply property_set_inv in E; [|assumption..]. destruct E as (K & _).
    split; [|exact IE]. unfold msg_ok. msimp. fold (fst (m_tid m)). fold (snd (m_tid m)). tauto.
  - unfold uecho_message_setsourceaddress. destruct a; split; first [exact IE|exact IH].
  - unfold uecho_message_setdestinationaddress. destruct a; split; first [exact IE|exact IH].
  - destruct (message_set_spec le m src IH IH2) as (v & A & B & C). rewrite A in E. injection E as <-.
    destruct IH2 as (A1 & A2 & A3 & A4 & A5 & A6 & A7 & A8 & A9 & A10). destruct IE2.
    pose proof pv_empty_ok. unfold api_inv, msg_ok, std_ehd. msimp. fold (fst (m_tid src)). fold (snd (m_tid src)). tauto.
Qed.

(* ---- sizes ---- *)

Lemma total_data_app : forall a b, total_data (a ++ b) = total_data a + total_data b.
Proof. induction a as [|p a IH]; intros b; cbn [app total_data fold_right]; [reflexivity|]. fold (total_data (a ++ b)). fold (total_data a). rewrite IH. lia. Qed.

Lemma total_data_nonneg : forall l, 0 <= total_data l.
Proof. induction l as [|p l IH]; cbn [total_data fold_right]; [lia|]. fold (total_data l). pose proof (len_nonneg _ (p_data p)). lia. Qed.

Lemma len_wire_props : forall l, len (wire_props l) = 2 * len l + total_data l.
Proof.
  induction l as [|p l IH]; [reflexivity|]. rewrite wire_props_cons, len_app, len_wire_prop, IH, len_cons.
  cbn [total_data fold_right]. fold (total_data l). lia.
Qed.

Lemma in_memory_fits : forall m, msg_ok m -> in_memory m -> fits m.
Proof.
  intros m Hm Hi. unfold fits, in_memory, wire_msg, PTRDIFF_MAX in *.
  destruct Hm as (_ & _ & _ & _ & Hs & Hd & _ & Hp & Hps & Hpg).
  apply eoj3_len in Hs. apply eoj3_len in Hd.
  pose proof (pv_list_len _ Hp). pose proof (pv_list_len _ Hps). pose proof (pv_list_len _ Hpg).
  pose proof (total_data_nonneg (stored (m_p m))). pose proof (total_data_nonneg (stored (m_pset m))).
  pose proof (total_data_nonneg (stored (m_pget m))).
  destruct Hp as [? _]. destruct Hps as [? _]. destruct Hpg as [? _].
  unfold pv_list in *.
  rewrite !len_app, Hs, Hd. rewrite !len_cons, len_nil.
  destruct (two_listsb (m_esv m)); rewrite ?len_cons, ?len_app, ?len_cons, !len_wire_props; lia.
Qed.

Lemma pdc_short : forall m, pdc_fits m -> short_msg m.
Proof.
  intros m H. unfold pdc_fits in H. apply Forall_app in H. destruct H as [H1 H]. apply Forall_app in H. destruct H as [H2 H3].
  assert (K : forall l, Forall (fun p => len (p_data p) <= 255) l -> short_props l).
  { intros l. apply Forall_impl. intros p Hp. unfold len in Hp. lia. }
  unfold short_msg, pv_list. destruct (two_listsb (m_esv m)); auto.
Qed.

(* ---- getters show the frame ---- *)

Lemma property_get_spec : forall v i, pv_ok v -> 0 <= i < SIZE_MOD ->
  uecho_property_get v i = Ok (nth_error (stored v) (Z.to_nat i)).
Proof.
  intros v i (H1 & H2) Hi. unfold uecho_property_get, stored. destruct (pv_ep v) as [l|].
  - destruct H2 as (H2 & H3 & _). destruct l as [|p l]; [congruence|].
    change (rd (p :: l) 0) with (@Ok prop p). cbn [bind].
    pose proof (len_nonneg _ l). rewrite len_cons in H2.
    rewrite sz_small by (unfold SIZE_MOD in *; lia).
    destruct (Z.ltb_spec (pv_opc v - 1) i).
    + assert (E : nth_error (p :: l) (Z.to_nat i) = None).
      { apply nth_error_None. unfold len in H2. cbn [length]. lia. }
      rewrite E. reflexivity.
    + destruct (rd_in _ (p :: l) i) as (q & A & B); [rewrite len_cons; lia|]. rewrite A, B. reflexivity.
  - destruct (Z.to_nat i); reflexivity.
Qed.

Lemma shows_props_spec : forall v, pv_ok v -> shows_props (uecho_property_get v) (map ep_of (stored v)).
Proof.
  intros v Hv i Hi. rewrite property_get_spec by assumption. rewrite nth_error_map.
  destruct (nth_error (stored v) (Z.to_nat i)) as [p|]; cbn [option_map ep_of]; eauto.
Qed.

Lemma shows_frame_of : forall le m, msg_ok m -> shows le m (frame_of m).
Proof.
  intros le m Hm. destruct Hm as (_ & _ & _ & _ & Hs & Hd & _ & Hp & Hps & Hpg).
  unfold shows, frame_of. cbn [f_tid f_seoj f_deoj f_esv f_body].
  destruct (getobj_eoj _ Hs) as (s0 & s1 & s2 & Es & Gs).
  destruct (getobj_eoj _ Hd) as (d0 & d1 & d2 & Ed & Gd).
  split; [reflexivity|]. split; [unfold uecho_message_getsourceobjectcode; rewrite Gs, Es; reflexivity|].
  split; [unfold uecho_message_getdestinationobjectcode; rewrite Gd, Ed; reflexivity|].
  split; [reflexivity|].
  pose proof (pv_list_len _ Hp) as L1. pose proof (pv_list_len _ Hps) as L2. pose proof (pv_list_len _ Hpg) as L3.
  unfold pv_list in *.
  destruct (two_listsb (m_esv m)).
  - rewrite !map_length. repeat split; try (apply shows_props_spec; assumption); symmetry; assumption.
  - rewrite !map_length. repeat split; try (apply shows_props_spec; assumption); symmetry; assumption.
Qed.

(* two frames shown by one message agree *)
Lemma bytes_eqb_iff : forall a b, bytes_eqb a b = true <-> a = b.
Proof.
  induction a as [|x a IH]; intros [|y b]; cbn [bytes_eqb]; try (split; congruence).
  rewrite andb_true_iff, Z.eqb_eq, IH. split; [intros [-> ->]; reflexivity|intros H; injection H; auto].
Qed.

Lemma equals_spec : forall m1 m2, msg_ok m1 -> msg_ok m2 -> fits m1 -> fits m2 ->
  exists b, uecho_message_equals m1 m2 = Ok b /\ (b = true <-> wire_msg m1 = wire_msg m2).
Proof.
  intros m1 m2 H1 H2 F1 F2. unfold uecho_message_equals.
  rewrite !size_ok by assumption. cbn [bind].
  destruct (Z.eqb_spec (len (wire_msg m1)) (len (wire_msg m2))) as [E|E]; cbn [negb].
  - rewrite !getbytes_spec by assumption. cbn [bind]. eexists. split; [reflexivity|]. apply bytes_eqb_iff.
  - exists false. split; [reflexivity|]. split; [discriminate|]. intros K. rewrite K in E. congruence.
Qed.

(* ---- adding and setting properties ---- *)

Lemma add_all_spec : forall ps m, msg_ok m -> Forall prop_ok ps -> pv_opc (m_p m) + len ps <= 255 ->
  exists m', add_all ps m = Ok m' /\ msg_ok m' /\ m' = with_p (m_p m') m
  /\ stored (m_p m') = stored (m_p m) ++ ps.
Proof.
  induction ps as [|p ps IH]; intros m Hm Hl Hn; cbn [add_all].
  - exists m. rewrite app_nil_r. repeat split; try assumption; try apply Hm. destruct m; reflexivity.
  - inversion Hl as [|x y Hx Hy]; subst. rewrite len_cons in Hn. pose proof (len_nonneg _ ps).
    pose proof Hm as (H1 & H2 & H3 & H4 & H5 & H6 & H7 & H8 & H9 & H10).
    unfold uecho_message_addproperty.
    destruct (property_add_ok (m_p m) p H8 Hx) as [A B]; [lia|]. rewrite A. cbn [bind].
    set (v := mkPvec (pv_opc (m_p m) + 1) (Some (stored (m_p m) ++ [p]))) in *.
    assert (Hm2 : msg_ok (with_p v m)).
    { unfold msg_ok. msimp. fold (fst (m_tid m)). fold (snd (m_tid m)). tauto. }
    destruct (IH _ Hm2 Hy) as (m' & E & Hok & Ew & Es).
    { cbn [with_p m_p pv_opc v]. lia. }
    exists m'. split; [exact E|]. split; [exact Hok|]. split.
    + rewrite Ew at 1. destruct m; reflexivity.
    + rewrite Es. cbn [with_p m_p]. unfold stored at 1, v. cbn [pv_ep]. rewrite <- app_assoc. reflexivity.
Qed.

Lemma add_all_overflow : forall ps m, msg_ok m -> Forall prop_ok ps -> pv_opc (m_p m) + len ps > 255 ->
  add_all ps m = Undef UB_write.
Proof.
  induction ps as [|p ps IH]; intros m Hm Hl Hn; cbn [add_all].
  - rewrite len_nil in Hn. destruct Hm as (_ & _ & _ & _ & _ & _ & _ & (H & _) & _). lia.
  - inversion Hl as [|x y Hx Hy]; subst. rewrite len_cons in Hn.
    pose proof Hm as (H1 & H2 & H3 & H4 & H5 & H6 & H7 & H8 & H9 & H10).
    unfold uecho_message_addproperty.
    destruct (Z.eq_dec (pv_opc (m_p m)) 255) as [E|E].
    + rewrite property_add_full by exact E. reflexivity.
    + destruct (property_add_ok (m_p m) p H8 Hx) as [A B]; [destruct H8; lia|]. rewrite A. cbn [bind].
      apply IH; [|exact Hy|cbn [with_p m_p pv_opc]; lia].
      unfold msg_ok. msimp. fold (fst (m_tid m)). fold (snd (m_tid m)). tauto.
Qed.

Definition codes_of (l : list prop) : list Z := map p_code l.
Definition lookup (l : list prop) (c : Z) : option (list Z) :=
  option_map p_data (find (fun p => p_code p =? c) l).

Lemma find_none_codes : forall l c, find (fun p => p_code p =? c) l = None <-> ~ In c (codes_of l).
Proof.
  induction l as [|p l IH]; intros c; cbn [find codes_of map In]; [split; auto|].
  destruct (Z.eqb_spec (p_code p) c); split; intros H.
  - discriminate.
  - exfalso. apply H. auto.
  - intros [K|K]; [congruence|]. apply IH in K; assumption.
  - apply IH. intros K. apply H. auto.
Qed.

Lemma lookup_upd : forall l c d c', In c (codes_of l) ->
  lookup (upd_first c (fun p => fst (uecho_property_setdata d p)) l) c' = if c =? c' then Some d else lookup l c'.
Proof.
  unfold lookup. induction l as [|p l IH]; intros c d c' H; [destruct H|]. cbn [codes_of map In] in H. cbn [find upd_first].
  destruct (Z.eqb_spec (p_code p) c) as [Ec|Ec].
  - rewrite setdata_fst. cbn [find p_code]. rewrite Ec. destruct (c =? c'); reflexivity.
  - destruct H as [H|H]; [congruence|]. cbn [find]. destruct (Z.eqb_spec (p_code p) c') as [Ec'|Ec'].
    + destruct (Z.eqb_spec c c'); [congruence|reflexivity].
    + apply IH. exact H.
Qed.

Lemma lookup_app_new : forall l q c', ~ In (p_code q) (codes_of l) ->
  lookup (l ++ [q]) c' = if p_code q =? c' then Some (p_data q) else lookup l c'.
Proof.
  unfold lookup. induction l as [|p l IH]; intros q c' H; cbn [app find].
  - destruct (p_code q =? c'); reflexivity.
  - cbn [codes_of map In] in H. destruct (Z.eqb_spec (p_code p) c').
    + destruct (Z.eqb_spec (p_code q) c'); [exfalso; apply H; left; congruence|reflexivity].
    + apply IH. tauto.
Qed.

Lemma lookup_set_list : forall l c d c',
  lookup (set_list c d l) c' = if c =? c' then Some d else lookup l c'.
Proof.
  intros l c d c'. unfold set_list. destruct (find (fun p => p_code p =? c) l) eqn:E.
  - apply lookup_upd. apply find_some in E. destruct E as [E1 E2].
    apply Z.eqb_eq in E2. subst c. apply in_map. exact E1.
  - apply (lookup_app_new l (mkProp c AttrReadWrite d false)). apply find_none_codes. exact E.
Qed.

Lemma codes_upd : forall c d l, codes_of (upd_first c (fun p => fst (uecho_property_setdata d p)) l) = codes_of l.
Proof.
  induction l as [|p l IH]; cbn [upd_first codes_of map]; [reflexivity|].
  destruct (p_code p =? c); cbn [map]; [rewrite setdata_fst; reflexivity|]. unfold codes_of in IH. rewrite IH. reflexivity.
Qed.

Lemma existsb_In : forall c l, existsb (Z.eqb c) l = true <-> In c l.
Proof.
  intros. rewrite existsb_exists. split.
  - intros (x & H & E). apply Z.eqb_eq in E. subst. exact H.
  - intros H. exists c. split; [exact H|apply Z.eqb_refl].
Qed.

Lemma codes_set_list : forall l c d, codes_of (set_list c d l) = add_code (codes_of l) c.
Proof.
  intros l c d. unfold set_list, add_code. destruct (find (fun p => p_code p =? c) l) eqn:E.
  - rewrite codes_upd. replace (existsb (Z.eqb c) (codes_of l)) with true; [reflexivity|].
    symmetry. apply existsb_In. destruct (in_dec Z.eq_dec c (codes_of l)) as [H|H]; [exact H|].
    apply find_none_codes in H. congruence.
  - apply find_none_codes in E. replace (existsb (Z.eqb c) (codes_of l)) with false.
    + unfold codes_of. rewrite map_app. reflexivity.
    + symmetry. apply not_true_iff_false. rewrite existsb_In. exact E.
Qed.

Lemma add_code_nodup : forall l c, NoDup l -> NoDup (add_code l c).
Proof.
  intros l c H. unfold add_code. destruct (existsb (Z.eqb c) l) eqn:E; [exact H|].
  apply not_true_iff_false in E. rewrite existsb_In in E.
  rewrite <- (rev_involutive (l ++ [c])). apply NoDup_rev. rewrite rev_app_distr. cbn [rev app].
  constructor; [rewrite <- in_rev; exact E|]. apply NoDup_rev. exact H.
Qed.

Lemma fold_add_code_nodup : forall cs l, NoDup l -> NoDup (fold_left add_code cs l).
Proof. induction cs as [|c cs IH]; intros l H; cbn [fold_left]; [exact H|]. apply IH. apply add_code_nodup. exact H. Qed.

Lemma add_code_len : forall l c, (length l <= length (add_code l c))%nat.
Proof. intros. unfold add_code. destruct (existsb (Z.eqb c) l); [lia|]. rewrite app_length. lia. Qed.

Lemma fold_add_code_len : forall cs l, (length l <= length (fold_left add_code cs l))%nat.
Proof. induction cs as [|c cs IH]; intros l; cbn [fold_left]; [lia|]. specialize (IH (add_code l c)). pose proof (add_code_len l c). lia. Qed.

Lemma set_all_spec : forall kvs m, msg_ok m ->
  Forall (fun kv => is_byte (fst kv) /\ bytes_ok (snd kv)) kvs ->
  (length (fold_left add_code (map fst kvs) (codes_of (stored (m_p m)))) <= 255)%nat ->
  exists m', set_all kvs m = Ok m' /\ msg_ok m' /\ m' = with_p (m_p m') m
  /\ codes_of (stored (m_p m')) = fold_left add_code (map fst kvs) (codes_of (stored (m_p m)))
  /\ forall c, lookup (stored (m_p m')) c
       = match last_write kvs c with Some d => Some d | None => lookup (stored (m_p m)) c end.
Proof.
  induction kvs as [|[c d] kvs IH]; intros m Hm Hk Hn; cbn [set_all].
  - exists m. cbn [map fold_left last_write]. repeat split; try apply Hm; try reflexivity. destruct m; reflexivity.
  - inversion Hk as [|x y [Hx1 Hx2] Hy]; subst. cbn [fst snd] in *.
    pose proof Hm as (H1 & H2 & H3 & H4 & H5 & H6 & H7 & H8 & H9 & H10).
    unfold uecho_message_setproperty. cbn [map fold_left fst] in Hn.
    destruct (property_set_spec (m_p m) c d H8 Hx1 Hx2) as (v & A & B & C).
    { destruct (find (fun p => p_code p =? c) (stored (m_p m))) eqn:E; [left; discriminate|right].
      pose proof (pv_list_len _ H8) as L. unfold pv_list in L.
      pose proof (fold_add_code_len (map fst kvs) (add_code (codes_of (stored (m_p m))) c)) as G.
      rewrite <- (codes_set_list _ c d) in G. unfold set_list in G. rewrite E in G.
      unfold codes_of in G at 1. rewrite map_length, app_length in G. cbn [length] in G.
      unfold set_list in *.
      assert (K : add_code (codes_of (stored (m_p m))) c = codes_of (stored (m_p m) ++ [mkProp c AttrReadWrite d false])).
      { rewrite <- (codes_set_list _ c d). unfold set_list. rewrite E. reflexivity. }
      rewrite K in Hn. unfold len in L. lia. }
    rewrite A. cbn [bind].
    assert (Hm2 : msg_ok (with_p v m)).
    { unfold msg_ok. msimp. fold (fst (m_tid m)). fold (snd (m_tid m)). tauto. }
    destruct (IH (with_p v m) Hm2 Hy) as (m' & E & Hok & Ew & Ec & Ed).
    { cbn [with_p m_p]. rewrite C, codes_set_list. exact Hn. }
    exists m'. split; [exact E|]. split; [exact Hok|]. split; [rewrite Ew at 1; destruct m; reflexivity|]. split.
    + rewrite Ec. cbn [with_p m_p map fold_left fst]. rewrite C, codes_set_list. reflexivity.
    + intros c'. rewrite Ed. cbn [last_write]. destruct (last_write kvs c') as [d'|]; [reflexivity|].
      cbn [with_p m_p]. rewrite C, lookup_set_list. destruct (c =? c'); reflexivity.
Qed.
