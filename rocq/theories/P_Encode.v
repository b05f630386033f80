(* Lemmas about the encoder of message.c and the round trips. *)
From Coq Require Import String ZArith List Bool Lia ZifyBool ZifyNat.
From Verif Require Import CSem M_Const M_Misc M_Property M_Message Spec_Frame P_Base P_Misc P_Message.
Import ListNotations.
Open Scope Z_scope.
Ltac Zify.zify_post_hook ::= Z.div_mod_to_equations.

(* what the encoder writes for one property: the length byte is truncated *)
Definition wire_prop (p : prop) : list Z :=
  p_code p :: to_byte (len (p_data p)) :: p_data p.

Definition wire_props (l : list prop) : list Z := concat (map wire_prop l).

Definition wire_msg (m : msg) : list Z :=
  [m_ehd1 m; m_ehd2 m; fst (m_tid m); snd (m_tid m)] ++ m_seoj m ++ m_deoj m ++ [m_esv m]
  ++ (if two_listsb (m_esv m)
      then pv_opc (m_pset m) :: wire_props (pv_list (m_pset m))
           ++ pv_opc (m_pget m) :: wire_props (pv_list (m_pget m))
      else pv_opc (m_p m) :: wire_props (pv_list (m_p m))).

(* the message fits in memory *)
Definition fits (m : msg) : Prop := len (wire_msg m) <= PTRDIFF_MAX.

Lemma len_wire_prop : forall p, len (wire_prop p) = 2 + len (p_data p).
Proof. intros. unfold wire_prop. rewrite !len_cons. lia. Qed.

Lemma wire_props_cons : forall p l, wire_props (p :: l) = wire_prop p ++ wire_props l.
Proof. reflexivity. Qed.

Lemma opcsize_fold : forall l n, 0 <= n -> n + len (wire_props l) < SIZE_MOD ->
  fold_left (fun n p => sz (sz (n + 2) + uecho_property_getdatasize p)) l n
  = n + len (wire_props l).
Proof.
  induction l as [|p l IH]; intros n Hn Hb; cbn [fold_left].
  - cbn. lia.
  - rewrite wire_props_cons, len_app, len_wire_prop in *.
    pose proof (len_nonneg _ (p_data p)). pose proof (len_nonneg _ (wire_props l)).
    unfold uecho_property_getdatasize.
    rewrite (sz_small (n + 2)) by lia. rewrite (sz_small (n + 2 + _)) by lia.
    rewrite IH by lia. lia.
Qed.

Lemma opcsize_ok : forall v, pv_ok v -> len (wire_props (pv_list v)) < SIZE_MOD ->
  uecho_message_opcsize v = Ok (len (wire_props (pv_list v))).
Proof.
  intros v H Hb. unfold uecho_message_opcsize. rewrite pv_items_ok by exact H. cbn [bind].
  rewrite opcsize_fold by lia. f_equal.
Qed.

Lemma eoj3_len : forall l, eoj3 l -> len l = 3.
Proof. intros l (a & b & c & -> & _). reflexivity. Qed.

Lemma size_ok : forall m, msg_ok m -> fits m ->
  uecho_message_size m = Ok (len (wire_msg m)).
Proof.
  intros m Hm Hf. unfold fits, wire_msg, PTRDIFF_MAX in *.
  destruct Hm as (_ & _ & _ & _ & Hs & Hd & _ & Hp & Hps & Hpg).
  apply eoj3_len in Hs. apply eoj3_len in Hd.
  unfold uecho_message_size. rewrite isreadwrite_two.
  rewrite !len_app, Hs, Hd in *. rewrite !len_cons, len_nil in *.
  destruct (two_listsb (m_esv m)); rewrite ?len_cons, ?len_app, ?len_cons in *;
    pose proof (len_nonneg _ (wire_props (pv_list (m_p m))));
    pose proof (len_nonneg _ (wire_props (pv_list (m_pset m))));
    pose proof (len_nonneg _ (wire_props (pv_list (m_pget m))));
    unfold SIZE_MOD, uEchoMessageMinLen.
  - rewrite !opcsize_ok by (auto; unfold SIZE_MOD; lia). cbn [bind]. f_equal.
    rewrite (sz_small (12 + _)) by (unfold SIZE_MOD; lia).
    rewrite (sz_small (12 + _ + 1)) by (unfold SIZE_MOD; lia).
    rewrite sz_small by (unfold SIZE_MOD; lia). lia.
  - rewrite !opcsize_ok by (auto; unfold SIZE_MOD; lia). cbn [bind]. f_equal.
    rewrite sz_small by (unfold SIZE_MOD; lia). lia.
Qed.

(* one property list written into the unwritten part of the buffer *)
Lemma setopcbytes_spec : forall l (pre : list (option Z)) k,
  len pre + len (wire_props l) + k <= PTRDIFF_MAX -> 0 <= k ->
  setopcbytes_loop l (pre ++ fresh_buf (len (wire_props l) + k)) (len pre)
  = Ok ((pre ++ map Some (wire_props l)) ++ fresh_buf k, len pre + len (wire_props l)).
Proof.
  unfold PTRDIFF_MAX. induction l as [|p l IH]; intros pre k Hb Hk; cbn [setopcbytes_loop].
  - cbn [wire_props map concat]. rewrite app_nil_r, len_nil. do 2 f_equal. lia.
  - rewrite wire_props_cons, len_app, len_wire_prop in *.
    pose proof (len_nonneg _ (p_data p)). pose proof (len_nonneg _ (wire_props l)).
    pose proof (len_nonneg _ pre).
    assert (Ef : fresh_buf (2 + len (p_data p) + len (wire_props l) + k)
                 = None :: None :: fresh_buf (len (p_data p)) ++ fresh_buf (len (wire_props l) + k)).
    { unfold fresh_buf. rewrite <- repeat_app.
      replace (Z.to_nat (2 + len (p_data p) + len (wire_props l) + k))
        with (S (S (Z.to_nat (len (p_data p)) + Z.to_nat (len (wire_props l) + k)))) by lia.
      reflexivity. }
    rewrite Ef. rewrite wr_app_cons by reflexivity. cbn [bind].
    rewrite (sz_small (len pre + 1)) by (unfold SIZE_MOD; lia).
    replace (pre ++ Some (p_code p) :: None :: fresh_buf (len (p_data p)) ++ fresh_buf (len (wire_props l) + k))
      with ((pre ++ [Some (p_code p)]) ++ None :: fresh_buf (len (p_data p)) ++ fresh_buf (len (wire_props l) + k))
      by (rewrite <- app_assoc; reflexivity).
    rewrite wr_app_cons by (rewrite len_app, len_cons, len_nil; lia). cbn [bind].
    replace (len pre + 1 + 1) with (len pre + 2) by lia.
    rewrite (sz_small (len pre + 2)) by (unfold SIZE_MOD; lia).
    unfold uecho_property_getdatasize.
    set (pre2 := pre ++ [Some (p_code p); Some (to_byte (len (p_data p)))]).
    replace ((pre ++ [Some (p_code p)]) ++ Some (to_byte (len (p_data p))) :: fresh_buf (len (p_data p)) ++ fresh_buf (len (wire_props l) + k))
      with (pre2 ++ fresh_buf (len (p_data p)) ++ fresh_buf (len (wire_props l) + k))
      by (subst pre2; rewrite <- !app_assoc; reflexivity).
    assert (Epre2 : len pre2 = len pre + 2) by (subst pre2; rewrite len_app, !len_cons, len_nil; lia).
    assert (Ewp : map Some (wire_prop p) = [Some (p_code p); Some (to_byte (len (p_data p)))] ++ map Some (p_data p))
      by reflexivity.
    destruct (Z.leb_spec (len (p_data p)) 0).
    + assert (Hd : p_data p = []) by (apply len_0_nil; lia).
      rewrite Hd in *. rewrite len_nil in *. cbn [fresh_buf Z.to_nat repeat app].
      rewrite <- Epre2. rewrite IH by lia.
      rewrite map_app, Ewp. cbn [map]. rewrite app_nil_r.
      rewrite (app_assoc pre). fold pre2.
      f_equal. f_equal; [|lia]. subst pre2. rewrite Hd. reflexivity.
    + rewrite wr_range_app; [| lia |].
      2:{ unfold fresh_buf. rewrite len_repeat, len_map. lia. }
      cbn [bind]. rewrite (sz_small (len pre + 2 + _)) by (unfold SIZE_MOD; lia).
      rewrite app_assoc.
      replace (len pre + 2 + len (p_data p)) with (len (pre2 ++ map Some (p_data p)))
        by (rewrite len_app, len_map; lia).
      rewrite IH; [| rewrite len_app, len_map; lia | lia].
      f_equal. f_equal.
      * rewrite map_app, Ewp. subst pre2. rewrite <- !app_assoc. reflexivity.
      * rewrite len_app, len_map. lia.
Qed.

Lemma wr_seq_spec : forall bs (pre : list (option Z)) post k,
  k = len pre ->
  wr_seq (pre ++ repeat None (length bs) ++ post) k bs = Ok (pre ++ map Some bs ++ post).
Proof.
  induction bs as [|b bs IH]; intros pre post k ->; cbn [wr_seq length repeat map app].
  - reflexivity.
  - rewrite wr_app_cons by reflexivity. cbn [bind].
    replace (pre ++ Some b :: repeat None (length bs) ++ post)
      with ((pre ++ [Some b]) ++ repeat None (length bs) ++ post) by (rewrite <- app_assoc; reflexivity).
    rewrite IH by (rewrite len_app, len_cons, len_nil; lia).
    rewrite <- app_assoc. reflexivity.
Qed.

Lemma getbytes_buf_spec : forall m, msg_ok m -> fits m ->
  getbytes_buf m = Ok (map Some (wire_msg m)).
Proof.
  intros m Hm Hf. unfold getbytes_buf. rewrite size_ok by assumption. cbn [bind].
  pose proof Hm as (_ & _ & _ & _ & Hs & Hd & _ & Hp & Hps & Hpg).
  destruct Hs as (s0 & s1 & s2 & Es & _). destruct Hd as (d0 & d1 & d2 & Ed & _).
  unfold fits in Hf. unfold wire_msg in *. rewrite Es, Ed in *.
  repeat (match goal with |- context [rd ?l ?i] =>
    let x := eval cbv [rd nth_error Z.to_nat Z.ltb Z.compare Pos.to_nat Pos.iter_op Nat.add] in (rd l i) in
    match x with Ok _ => change (rd l i) with x end end).
  cbn [bind]. rewrite isreadwrite_two.
  set (hd := [m_ehd1 m; m_ehd2 m; fst (m_tid m); snd (m_tid m); s0; s1; s2; d0; d1; d2; m_esv m]) in *.
  set (body := if two_listsb (m_esv m)
      then pv_opc (m_pset m) :: wire_props (pv_list (m_pset m))
           ++ pv_opc (m_pget m) :: wire_props (pv_list (m_pget m))
      else pv_opc (m_p m) :: wire_props (pv_list (m_p m))) in *.
  change ([m_ehd1 m; m_ehd2 m; fst (m_tid m); snd (m_tid m)] ++ [s0; s1; s2] ++ [d0; d1; d2] ++ [m_esv m] ++ body)
    with (hd ++ body) in *.
  assert (Ehd : len hd = 11) by reflexivity.
  pose proof (len_nonneg _ body).
  assert (Efb : fresh_buf (len (hd ++ body)) = [] ++ repeat None (length hd) ++ fresh_buf (len body)).
  { cbn [app]. unfold fresh_buf. rewrite <- repeat_app. f_equal. rewrite len_app, Ehd. unfold len. cbn [length hd]. lia. }
  rewrite Efb, wr_seq_spec by reflexivity. cbn [bind app].
  rewrite len_app, Ehd in Hf. unfold PTRDIFF_MAX in Hf.
  subst body. destruct (two_listsb (m_esv m)).
  - set (a := wire_props (pv_list (m_pset m))) in *. set (b := wire_props (pv_list (m_pget m))) in *.
    rewrite ?len_cons, ?len_app, ?len_cons in Hf.
    pose proof (len_nonneg _ a). pose proof (len_nonneg _ b).
    assert (E1 : fresh_buf (len (pv_opc (m_pset m) :: a ++ pv_opc (m_pget m) :: b))
                 = None :: fresh_buf (len a + (1 + len b))).
    { unfold fresh_buf. rewrite len_cons, len_app, len_cons.
      replace (Z.to_nat (1 + (len a + (1 + len b)))) with (S (Z.to_nat (len a + (1 + len b)))) by lia. reflexivity. }
    rewrite E1. rewrite wr_app_cons by (rewrite len_map, Ehd; reflexivity). cbn [bind].
    unfold uecho_message_setopcbytes. rewrite !pv_items_ok by assumption. cbn [bind].
    replace (map Some hd ++ Some (pv_opc (m_pset m)) :: fresh_buf (len a + (1 + len b)))
      with ((map Some hd ++ [Some (pv_opc (m_pset m))]) ++ fresh_buf (len a + (1 + len b)))
      by (rewrite <- app_assoc; reflexivity).
    replace 12 with (len (map Some hd ++ [Some (pv_opc (m_pset m))])) by reflexivity.
    subst a. rewrite setopcbytes_spec; [| rewrite len_app, len_map, Ehd, len_cons, len_nil; unfold PTRDIFF_MAX; lia | lia].
    set (a := wire_props (pv_list (m_pset m))) in *. cbn [bind].
    set (pre := (map Some hd ++ [Some (pv_opc (m_pset m))]) ++ map Some a).
    assert (Epre : len pre = 12 + len a) by (subst pre; rewrite !len_app, !len_map, Ehd, len_cons, len_nil; lia).
    replace (len (map Some hd ++ [Some (pv_opc (m_pset m))]) + len a) with (len pre)
      by (rewrite Epre; rewrite len_app, len_map, Ehd, len_cons, len_nil; lia).
    assert (E2 : fresh_buf (1 + len b) = None :: fresh_buf (len b + 0)).
    { unfold fresh_buf. replace (Z.to_nat (1 + len b)) with (S (Z.to_nat (len b + 0))) by lia. reflexivity. }
    rewrite E2. rewrite wr_app_cons by reflexivity. cbn [bind].
    rewrite sz_small by (unfold SIZE_MOD; lia).
    replace (pre ++ Some (pv_opc (m_pget m)) :: fresh_buf (len b + 0))
      with ((pre ++ [Some (pv_opc (m_pget m))]) ++ fresh_buf (len b + 0)) by (rewrite <- app_assoc; reflexivity).
    replace (len pre + 1) with (len (pre ++ [Some (pv_opc (m_pget m))])) by (rewrite len_app, len_cons, len_nil; lia).
    subst b. rewrite setopcbytes_spec;
      [| rewrite len_app, len_cons, len_nil; unfold PTRDIFF_MAX; lia | lia].
    cbn [bind fst]. f_equal. cbn [fresh_buf Z.to_nat repeat]. rewrite app_nil_r.
    subst pre. rewrite <- !app_assoc. rewrite !map_app. cbn [map app]. rewrite map_app. reflexivity.
  - set (a := wire_props (pv_list (m_p m))) in *.
    rewrite ?len_cons in Hf. pose proof (len_nonneg _ a).
    assert (E1 : fresh_buf (len (pv_opc (m_p m) :: a)) = None :: fresh_buf (len a + 0)).
    { unfold fresh_buf. rewrite len_cons.
      replace (Z.to_nat (1 + len a)) with (S (Z.to_nat (len a + 0))) by lia. reflexivity. }
    rewrite E1. rewrite wr_app_cons by (rewrite len_map, Ehd; reflexivity). cbn [bind].
    unfold uecho_message_setopcbytes. rewrite !pv_items_ok by assumption. cbn [bind].
    replace (map Some hd ++ Some (pv_opc (m_p m)) :: fresh_buf (len a + 0))
      with ((map Some hd ++ [Some (pv_opc (m_p m))]) ++ fresh_buf (len a + 0))
      by (rewrite <- app_assoc; reflexivity).
    replace 12 with (len (map Some hd ++ [Some (pv_opc (m_p m))])) by reflexivity.
    subst a. rewrite setopcbytes_spec; [| rewrite len_app, len_map, Ehd, len_cons, len_nil; unfold PTRDIFF_MAX; lia | lia].
    cbn [bind fst]. f_equal. cbn [fresh_buf Z.to_nat repeat]. rewrite app_nil_r.
    rewrite <- !app_assoc. rewrite !map_app. reflexivity.
Qed.

Lemma getbytes_spec : forall m, msg_ok m -> fits m ->
  uecho_message_getbytes m = Ok (wire_msg m).
Proof.
  intros. unfold uecho_message_getbytes. rewrite getbytes_buf_spec by assumption. cbn [bind].
  apply init_bytes_map_Some.
Qed.

(* ---- the frame a message stands for ---- *)

Definition triple (l : list Z) : Z * Z * Z :=
  match l with [a; b; c] => (a, b, c) | _ => (0, 0, 0) end.

Definition frame_of (m : msg) : frame :=
  mkFrame (m_tid m) (triple (m_seoj m)) (triple (m_deoj m)) (m_esv m)
    (if two_listsb (m_esv m)
     then SetGetBody (map ep_of (pv_list (m_pset m))) (map ep_of (pv_list (m_pget m)))
     else Plain (map ep_of (pv_list (m_p m)))).

(* all property data fit the one-byte length field *)
Definition short_props (l : list prop) : Prop := Forall (fun p => (length (p_data p) <= 255)%nat) l.
Definition short_msg (m : msg) : Prop :=
  if two_listsb (m_esv m)
  then short_props (pv_list (m_pset m)) /\ short_props (pv_list (m_pget m))
  else short_props (pv_list (m_p m)).
Definition std_ehd (m : msg) : Prop := m_ehd1 m = 16 /\ m_ehd2 m = 129.

Lemma wire_props_enc : forall l, short_props l -> wire_props l = concat (map enc_prop (map ep_of l)).
Proof.
  induction l as [|p l IH]; intros H; [reflexivity|].
  inversion H as [|x y Hx Hy]; subst. rewrite wire_props_cons. cbn [map concat].
  rewrite IH by exact Hy. f_equal. unfold wire_prop, enc_prop, ep_of. cbn [fst snd].
  unfold to_byte, len. rewrite Z.mod_small by lia. reflexivity.
Qed.

Lemma wire_msg_enc : forall m, msg_ok m -> std_ehd m -> short_msg m ->
  wire_msg m = enc_frame (frame_of m).
Proof.
  intros m Hm [E1 E2] Hs. destruct Hm as (_ & _ & _ & _ & (s0 & s1 & s2 & Es & _) & (d0 & d1 & d2 & Ed & _) & _ & Hp & Hps & Hpg).
  unfold wire_msg, enc_frame, frame_of, short_msg in *. rewrite E1, E2, Es, Ed.
  cbn [f_tid f_seoj f_deoj f_esv f_body triple enc_eoj app].
  assert (L : forall v, pv_ok v -> pv_opc v = Z.of_nat (length (map ep_of (pv_list v)))).
  { intros v Hv. rewrite map_length. symmetry. apply pv_list_len. exact Hv. }
  do 11 f_equal.
  destruct (two_listsb (m_esv m)); cbn [enc_body].
  - unfold enc_props. rewrite !wire_props_enc by tauto. rewrite <- !L by assumption. reflexivity.
  - unfold enc_props. rewrite !wire_props_enc by tauto. rewrite <- !L by assumption. reflexivity.
Qed.

Lemma eprops_of_pv : forall v, pv_ok v -> short_props (pv_list v) -> eprops_ok (map ep_of (pv_list v)).
Proof.
  intros v Hv Hs. split.
  - pose proof (pv_list_ok v Hv) as Hf. apply Forall_forall. intros e He.
    apply in_map_iff in He. destruct He as (p & <- & Hp).
    unfold short_props in Hs. rewrite Forall_forall in Hf, Hs. specialize (Hf p Hp). specialize (Hs p Hp).
    destruct Hf as (H1 & H2 & _). unfold ep_of, epair_ok. cbn [fst snd].
    split; [apply is_byte_val; exact H1|]. split; [|exact Hs].
    eapply Forall_impl; [|exact H2]. intros; apply is_byte_val; assumption.
  - rewrite map_length. pose proof (pv_list_len v Hv) as H. destruct Hv as (H1 & _). unfold len in H. lia.
Qed.

Lemma frame_of_ok : forall m, msg_ok m -> short_msg m -> frame_ok (frame_of m).
Proof.
  intros m Hm Hs.
  destruct Hm as (_ & _ & T0 & T1 & (s0 & s1 & s2 & Es & A0 & A1 & A2) & (d0 & d1 & d2 & Ed & B0 & B1 & B2) & He & Hp & Hps & Hpg).
  unfold frame_ok, frame_of, short_msg in *. rewrite Es, Ed. cbn [f_tid f_seoj f_deoj f_esv f_body triple eoj_ok].
  rewrite !is_byte_val in *.
  assert (body_ok (m_esv m) (if two_listsb (m_esv m)
     then SetGetBody (map ep_of (pv_list (m_pset m))) (map ep_of (pv_list (m_pget m)))
     else Plain (map ep_of (pv_list (m_p m))))).
  { destruct (two_listsb (m_esv m)) eqn:E; cbn [body_ok].
    - split; [apply two_listsb_iff; exact E|]. split; apply eprops_of_pv; tauto.
    - split; [rewrite <- two_listsb_iff; congruence|]. apply eprops_of_pv; tauto. }
  tauto.
Qed.

Lemma wire_msg_bytes : forall m, msg_ok m -> bytes_ok (wire_msg m).
Proof.
  intros m Hm. destruct Hm as (E1 & E2 & T0 & T1 & (s0 & s1 & s2 & Es & A0 & A1 & A2) & (d0 & d1 & d2 & Ed & B0 & B1 & B2) & He & Hp & Hps & Hpg).
  assert (W : forall v, pv_ok v -> bytes_ok (pv_opc v :: wire_props (pv_list v))).
  { intros v Hv. apply bytes_ok_cons. split; [destruct Hv as [H _]; unfold is_byte; lia|].
    pose proof (pv_list_ok v Hv) as Hf. induction (pv_list v) as [|p l IH]; [constructor|].
    inversion Hf as [|x y (Hx1 & Hx2 & _) Hy]; subst. rewrite wire_props_cons. apply bytes_ok_app.
    split; [|auto]. unfold wire_prop. apply bytes_ok_cons. split; [exact Hx1|].
    apply bytes_ok_cons. split; [apply to_byte_range|exact Hx2]. }
  unfold wire_msg. rewrite Es, Ed. cbn [app].
  repeat (apply bytes_ok_cons; split; [assumption|]).
  destruct (two_listsb (m_esv m)).
  - rewrite app_comm_cons. apply bytes_ok_app. split; apply W; assumption.
  - apply W; assumption.
Qed.

(* encode then parse *)
Lemma encode_parse : forall m m0, msg_ok m -> msg_ok m0 -> std_ehd m -> short_msg m -> fits m ->
  exists bs, uecho_message_getbytes m = Ok bs
  /\ uecho_message_parse m0 bs = Ok (true, msg_of_frame m0 (frame_of m)).
Proof.
  intros m m0 Hm Hm0 He Hs Hf. exists (wire_msg m). split; [apply getbytes_spec; assumption|].
  pose proof (parse_spec m0 (wire_msg m) Hm0 (wire_msg_bytes m Hm) Hf) as P.
  assert (E : dec_frame (wire_msg m) = Some (frame_of m, [])).
  { apply dec_frame_iff; [apply wire_msg_bytes; exact Hm|].
    split; [apply frame_of_ok; assumption|]. rewrite app_nil_r. apply wire_msg_enc; assumption. }
  rewrite E in P. exact P.
Qed.

Lemma map_ep_msgprop : forall ps, map ep_of (map msgprop ps) = ps.
Proof. induction ps as [|e ps IH]; cbn [map]; [reflexivity|]. rewrite IH, ep_of_msgprop. reflexivity. Qed.

Lemma frame_of_msg_of_frame : forall m0 f, frame_ok f -> frame_of (msg_of_frame m0 f) = f.
Proof.
  intros m0 [t [[s0 s1] s2] [[d0 d1] d2] esv b] (_ & _ & _ & _ & _ & Hb).
  cbn [f_esv f_body] in Hb. unfold msg_of_frame, frame_of.
  destruct b as [ps|ps gs]; cbn [f_body body_ok] in *; msimp; cbn [f_tid f_seoj f_deoj f_esv f_body triple].
  - destruct Hb as [H2 _]. destruct (two_listsb esv) eqn:E; [apply two_listsb_iff in E; contradiction|].
    rewrite pv_list_of, map_ep_msgprop. reflexivity.
  - destruct Hb as [H2 _]. apply two_listsb_iff in H2. rewrite H2.
    rewrite !pv_list_of, !map_ep_msgprop. reflexivity.
Qed.

Lemma short_of_frame : forall m0 f, frame_ok f -> short_msg (msg_of_frame m0 f).
Proof.
  intros m0 [t [[s0 s1] s2] [[d0 d1] d2] esv b] (_ & _ & _ & _ & _ & Hb).
  assert (K : forall ps, eprops_ok ps -> short_props (pv_list (pv_of ps))).
  { intros ps [Hf _]. rewrite pv_list_of. unfold short_props. apply Forall_forall. intros x Hx.
    apply in_map_iff in Hx. destruct Hx as (e & <- & He). rewrite Forall_forall in Hf.
    apply Hf in He. destruct He as (_ & _ & He). exact He. }
  cbn [f_esv f_body] in Hb. unfold msg_of_frame, short_msg.
  destruct b as [ps|ps gs]; cbn [f_body body_ok] in *; msimp; cbn [f_esv].
  - destruct Hb as [H2 H]. destruct (two_listsb esv) eqn:E; [apply two_listsb_iff in E; contradiction|]. auto.
  - destruct Hb as [H2 H]. apply two_listsb_iff in H2. rewrite H2. destruct H. auto.
Qed.

(* parse then encode *)
Lemma parse_encode : forall m0 data m, msg_ok m0 -> std_ehd m0 -> bytes_ok data -> len data <= PTRDIFF_MAX ->
  uecho_message_parse m0 data = Ok (true, m) ->
  exists rest, uecho_message_getbytes m = Ok (enc_frame (frame_of m)) /\ data = enc_frame (frame_of m) ++ rest.
Proof.
  intros m0 data m Hm0 He Hd Hl H. pose proof (parse_spec m0 data Hm0 Hd Hl) as P.
  destruct (dec_frame data) as [[f rest]|] eqn:E.
  2:{ destruct P as (m' & P & _). rewrite P in H. discriminate. }
  rewrite P in H. injection H as <-.
  apply dec_frame_iff in E; [|exact Hd]. destruct E as [Hf ->].
  exists rest. rewrite frame_of_msg_of_frame by exact Hf. split; [|reflexivity].
  pose proof (msg_of_frame_ok m0 f Hm0 Hf) as Hok.
  assert (Hw : wire_msg (msg_of_frame m0 f) = enc_frame f).
  { rewrite wire_msg_enc; [rewrite frame_of_msg_of_frame by exact Hf; reflexivity|exact Hok| |apply short_of_frame; exact Hf].
    destruct He. unfold std_ehd, msg_of_frame. destruct (f_body f); msimp; auto. }
  rewrite getbytes_spec; [rewrite Hw; reflexivity|exact Hok|].
  unfold fits. rewrite Hw. rewrite len_app in Hl. pose proof (len_nonneg _ rest). lia.
Qed.
