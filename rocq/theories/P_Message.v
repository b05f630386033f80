(* Lemmas about message.c: parser, encoder, round trips. *)
From Coq Require Import String ZArith List Bool Lia ZifyBool ZifyNat.
From Verif Require Import CSem M_Const M_Misc M_Property M_Message Spec_Frame Spec_Message P_Base P_Misc.
Import ListNotations.
Open Scope Z_scope.
Ltac Zify.zify_post_hook ::= Z.div_mod_to_equations.

(* ---- invariant of message objects ---- *)

Definition prop_ok (p : prop) : Prop := free_prop p.

(* the count fits a byte and is the length of the array; NULL iff empty *)
Definition pv_ok (v : pvec) : Prop :=
  0 <= pv_opc v <= 255
  /\ match pv_ep v with
     | None => pv_opc v = 0
     | Some l => len l = pv_opc v /\ l <> [] /\ Forall prop_ok l
     end.

Definition eoj3 (l : list Z) : Prop :=
  exists a b c, l = [a; b; c] /\ is_byte a /\ is_byte b /\ is_byte c.

Definition msg_ok (m : msg) : Prop :=
  is_byte (m_ehd1 m) /\ is_byte (m_ehd2 m)
  /\ is_byte (fst (m_tid m)) /\ is_byte (snd (m_tid m))
  /\ eoj3 (m_seoj m) /\ eoj3 (m_deoj m) /\ is_byte (m_esv m)
  /\ pv_ok (m_p m) /\ pv_ok (m_pset m) /\ pv_ok (m_pget m).

(* the properties a property array shows *)
Definition pv_list (v : pvec) : list prop := stored v.

Lemma pv_items_ok : forall v, pv_ok v -> pv_items v = Ok (pv_list v).
Proof.
  intros v (H1 & H2). unfold pv_items, pv_list, stored.
  destruct (pv_ep v) as [l|].
  - destruct H2 as (H2 & H3 & _). destruct (Z.leb_spec (pv_opc v) 0).
    + destruct l; [congruence|]. rewrite len_cons in H2. pose proof (len_nonneg _ l). lia.
    + destruct (Z.ltb_spec (len l) (pv_opc v)); [lia|]. rewrite <- H2, to_nat_len, firstn_all. reflexivity.
  - rewrite H2. reflexivity.
Qed.

Lemma pv_list_len : forall v, pv_ok v -> len (pv_list v) = pv_opc v.
Proof.
  intros v (H1 & H2). unfold pv_list, stored. destruct (pv_ep v); [tauto|]. rewrite H2. reflexivity.
Qed.

Lemma pv_list_ok : forall v, pv_ok v -> Forall prop_ok (pv_list v).
Proof.
  intros v (_ & H). unfold pv_list, stored. destruct (pv_ep v); [tauto|constructor].
Qed.

Definition pv_empty : pvec := mkPvec 0 None.

Lemma pv_empty_ok : pv_ok pv_empty.
Proof. split; cbn [pv_opc pv_ep pv_empty]; lia. Qed.

(* ---- parser ---- *)

Definition msgprop (e : epair) : prop := mkProp (fst e) AttrReadWrite (snd e) false.
Definition ep_of (p : prop) : epair := (p_code p, p_data p).

Lemma ep_of_msgprop : forall e, ep_of (msgprop e) = e.
Proof. intros [c d]. reflexivity. Qed.

Fixpoint dec_props (n : nat) (bs : list Z) : option (list epair * list Z) :=
  match n with
  | O => Some ([], bs)
  | S n' =>
      match bs with
      | c :: k :: r =>
          if k <=? len r
          then match dec_props n' (skipn (Z.to_nat k) r) with
               | Some (ps, rest) => Some ((c, firstn (Z.to_nat k) r) :: ps, rest)
               | None => None
               end
          else None
      | _ => None
      end
  end.

Lemma setdata_fst : forall d p,
  fst (uecho_property_setdata d p) = mkProp (p_code p) (p_attr p) d (p_parent p).
Proof.
  intros d p. unfold uecho_property_setdata.
  destruct (Z.eqb_spec (len d) 0) as [E|E]; cbn [fst].
  - apply len_0_nil in E. subst d. reflexivity.
  - reflexivity.
Qed.

Lemma property_parse_loop_spec : forall n pre bs,
  1 <= len pre -> bytes_ok bs -> len (pre ++ bs) <= PTRDIFF_MAX ->
  match dec_props n bs with
  | Some (ps, rest) =>
      property_parse_loop (repeat uecho_property_new n) (pre ++ bs) (len pre)
      = Ok (true, map msgprop ps, len (pre ++ bs) - len rest)
      /\ (exists pre', pre ++ bs = pre' ++ rest /\ 1 <= len pre')
      /\ length ps = n /\ bytes_ok rest
      /\ Forall epair_ok ps
  | None =>
      exists ps off, property_parse_loop (repeat uecho_property_new n) (pre ++ bs) (len pre)
                     = Ok (false, ps, off) /\ length ps = n /\ Forall prop_ok ps
  end.
Proof.
  assert (Hnew : prop_ok uecho_property_new).
  { split; [|split]; cbn; [unfold is_byte; lia | constructor | reflexivity]. }
  assert (Hrep : forall k, Forall prop_ok (repeat uecho_property_new k)).
  { intros k. apply Forall_forall. intros x Hx. apply repeat_spec in Hx. subst; exact Hnew. }
  unfold PTRDIFF_MAX. induction n as [|n IH]; intros pre bs Hpre Hbs Hlen.
  - cbn [dec_props repeat property_parse_loop map]. repeat split; auto.
    + do 2 f_equal. rewrite len_app. lia.
    + exists pre. auto.
  - pose proof (len_nonneg _ bs) as Hnn.
    cbn [repeat property_parse_loop].
    destruct bs as [|c bs].
    { cbn [dec_props]. rewrite app_nil_r. rewrite app_nil_r in Hlen.
      rewrite sz_small by (unfold SIZE_MOD; lia).
      destruct (Z.ltb_spec (len pre - 1) (len pre)); [|lia].
      exists (uecho_property_new :: repeat uecho_property_new n), (len pre).
      split; [reflexivity|]. split; [cbn [length]; rewrite repeat_length; reflexivity|].
      constructor; auto. }
    apply bytes_ok_cons in Hbs. destruct Hbs as [Hc Hbs].
    rewrite len_app, len_cons in Hlen.
    rewrite len_cons in Hnn. pose proof (len_nonneg _ bs) as Hnn2.
    assert (Edl : sz (len (pre ++ c :: bs) - 1) = len pre + len bs).
    { rewrite len_app, len_cons. rewrite sz_small by (unfold SIZE_MOD; lia). lia. }
    rewrite Edl.
    destruct (Z.ltb_spec (len pre + len bs) (len pre)); [lia|].
    rewrite rd_app_cons by reflexivity. cbn [bind].
    rewrite (sz_small (len pre + 1)) by (unfold SIZE_MOD; lia).
    destruct bs as [|k bs].
    { cbn [dec_props].
      rewrite len_nil. destruct (Z.ltb_spec (len pre + 0) (len pre + 1)); [|lia].
      eexists _, _. split; [reflexivity|].
      split; [cbn [length]; rewrite repeat_length; reflexivity|].
      constructor; auto. split; [exact Hc | split; [constructor|reflexivity]]. }
    cbn [dec_props].
    apply bytes_ok_cons in Hbs. destruct Hbs as [Hk Hbs].
    rewrite len_cons in *. pose proof (len_nonneg _ bs) as Hnn3.
    destruct (Z.ltb_spec (len pre + (1 + len bs)) (len pre + 1)); [lia|].
    replace (pre ++ c :: k :: bs) with ((pre ++ [c]) ++ k :: bs) by (rewrite <- app_assoc; reflexivity).
    rewrite rd_app_cons by (rewrite len_app, len_cons, len_nil; lia). cbn [bind].
    unfold is_byte in Hk.
    replace (len pre + 1 + 1) with (len pre + 2) by lia.
    rewrite (sz_small (len pre + 2)) by (unfold SIZE_MOD; lia).
    rewrite (sz_small (len pre + 2 + k - 1)) by (unfold SIZE_MOD; lia).
    destruct (Z.leb_spec k (len bs)) as [Hle|Hgt].
    2:{ destruct (Z.ltb_spec (len pre + (1 + len bs)) (len pre + 2 + k - 1)); [|lia].
        eexists _, _. split; [reflexivity|].
        split; [cbn [length]; rewrite repeat_length; reflexivity|].
        constructor; auto. split; [exact Hc | split; [constructor|reflexivity]]. }
    destruct (Z.ltb_spec (len pre + (1 + len bs)) (len pre + 2 + k - 1)); [lia|].
    set (d := firstn (Z.to_nat k) bs). set (r := skipn (Z.to_nat k) bs).
    assert (Ebs : bs = d ++ r) by (symmetry; apply firstn_skipn).
    assert (Hd : len d = k).
    { subst d. unfold len in *. rewrite firstn_length. lia. }
    assert (Hdr : bytes_ok d /\ bytes_ok r) by (apply bytes_ok_app; rewrite <- Ebs; exact Hbs).
    destruct Hdr as [Hdb Hrb].
    assert (Edata : (pre ++ [c]) ++ k :: bs = (pre ++ [c; k] ++ d) ++ r).
    { rewrite Ebs at 1. rewrite <- !app_assoc. reflexivity. }
    assert (Erd : rd_range ((pre ++ [c]) ++ k :: bs) (len pre + 2) k = Ok d).
    { rewrite Edata. rewrite <- !app_assoc. rewrite (app_assoc pre [c; k]).
      apply rd_range_app; [rewrite len_app; reflexivity | symmetry; exact Hd]. }
    rewrite Erd. cbn [bind].
    rewrite (sz_small (len pre + 2 + k)) by (unfold SIZE_MOD; lia).
    assert (Epre : len pre + 2 + k = len (pre ++ [c; k] ++ d)).
    { rewrite !len_app, Hd. rewrite !len_cons, len_nil. lia. }
    rewrite Epre, Edata.
    specialize (IH (pre ++ [c; k] ++ d) r).
    assert (L1 : 1 <= len (pre ++ [c; k] ++ d)) by (rewrite <- Epre; lia).
    assert (L2 : len ((pre ++ [c; k] ++ d) ++ r) <= 9223372036854775807).
    { rewrite <- Edata. rewrite !len_app, !len_cons, len_nil. lia. }
    specialize (IH L1 Hrb L2).
    rewrite setdata_fst.
    destruct (dec_props n r) as [[ps rest]|].
    + destruct IH as (E & Hex & Hl & Hrest & Hps). rewrite E. cbn [bind map].
      repeat split; auto.
      * cbn [length]. lia.
      * constructor; [|exact Hps]. split; [unfold byte_val, is_byte in *; cbn [fst]; lia|].
        cbn [snd]. split.
        -- eapply Forall_impl; [|exact Hdb]. intros x Hx. unfold byte_val, is_byte in *. lia.
        -- unfold len in Hd. lia.
    + destruct IH as (ps & off & E & Hl & Hps). rewrite E. cbn [bind].
      eexists _, _. split; [reflexivity|]. split; [cbn [length]; lia|].
      constructor; auto. split; [exact Hc | split; [exact Hdb|reflexivity]].
Qed.

Lemma dec_props_iff : forall n bs ps rest, bytes_ok bs ->
  dec_props n bs = Some (ps, rest) <->
  length ps = n /\ Forall epair_ok ps /\ bs = concat (map enc_prop ps) ++ rest.
Proof.
  induction n as [|n IH]; intros bs ps rest Hbs; cbn [dec_props].
  - split.
    + intros H. injection H as <- <-. repeat split; auto.
    + intros (Hl & _ & E). destruct ps; [|discriminate]. cbn in E. subst. reflexivity.
  - split.
    + intros H. destruct bs as [|c [|k r]]; try discriminate.
      destruct (Z.leb_spec k (len r)); [|discriminate].
      destruct (dec_props n (skipn (Z.to_nat k) r)) as [[ps' rest']|] eqn:E; [|discriminate].
      injection H as <- <-.
      apply bytes_ok_cons in Hbs. destruct Hbs as [Hc Hbs].
      apply bytes_ok_cons in Hbs. destruct Hbs as [Hk Hbs].
      rewrite <- (firstn_skipn (Z.to_nat k) r) in Hbs.
      apply bytes_ok_app in Hbs. destruct Hbs as [Hd Hr].
      apply IH in E; [|exact Hr]. destruct E as (E1 & E2 & E3).
      assert (El : length (firstn (Z.to_nat k) r) = Z.to_nat k).
      { rewrite firstn_length. unfold len in *. unfold is_byte in *. lia. }
      unfold is_byte in *.
      repeat split.
      * cbn [length]. lia.
      * constructor; [|exact E2]. split; [unfold byte_val; cbn [fst]; lia|]. cbn [snd]. split.
        -- eapply Forall_impl; [|exact Hd]. intros x Hx. unfold byte_val, is_byte in *. lia.
        -- lia.
      * cbn [map concat]. unfold enc_prop at 1. cbn [fst snd app].
        rewrite El. rewrite Z2Nat.id by lia. do 2 f_equal.
        rewrite <- app_assoc, <- E3. symmetry. apply firstn_skipn.
    + intros (Hl & Hf & E). destruct ps as [|[c d] ps]; [discriminate|].
      cbn [length] in Hl. inversion Hf as [|x y Hx Hy]; subst x y.
      cbn [map concat] in E. unfold enc_prop at 1 in E. cbn [fst snd app] in E.
      subst bs. rewrite <- app_assoc.
      pose proof (len_nonneg _ (concat (map enc_prop ps) ++ rest)).
      rewrite len_app. destruct (Z.leb_spec (Z.of_nat (length d)) (len d + len (concat (map enc_prop ps) ++ rest))).
      2:{ unfold len in *. lia. }
      rewrite Nat2Z.id.
      rewrite firstn_app, firstn_all, Nat.sub_diag, skipn_app, skipn_all, Nat.sub_diag.
      cbn [firstn skipn app]. rewrite app_nil_r.
      replace (dec_props n (concat (map enc_prop ps) ++ rest)) with (Some (ps, rest)); [reflexivity|].
      symmetry. apply IH.
      * apply bytes_ok_cons in Hbs. destruct Hbs as [_ Hbs].
        apply bytes_ok_cons in Hbs. destruct Hbs as [_ Hbs].
        rewrite <- app_assoc in Hbs. apply bytes_ok_app in Hbs. tauto.
      * repeat split; auto.
Qed.

(* unfold the record updates and projections of messages *)
Ltac msimp :=
  cbv [uecho_message_setopcset uecho_message_setopcget uecho_message_setopc
       with_esv with_deoj with_seoj with_tid with_p with_pset with_pget with_from with_to with_ehd
       m_esv m_ehd1 m_ehd2 m_tid m_seoj m_deoj m_p m_pset m_pget m_from m_to fst snd].

Definition two_listsb (esv : Z) : bool := (esv =? 110) || (esv =? 126) || (esv =? 94).

Lemma two_listsb_iff : forall e, two_listsb e = true <-> two_lists e.
Proof. intros. unfold two_listsb, two_lists. lia. Qed.

Lemma isreadwrite_two : forall m, uecho_message_isreadwritemessage m = two_listsb (m_esv m).
Proof. reflexivity. Qed.

Definition dec_frame (data : list Z) : option (frame * list Z) :=
  match data with
  | e1 :: e2 :: t0 :: t1 :: s0 :: s1 :: s2 :: d0 :: d1 :: d2 :: esv :: n :: r =>
      if (e1 =? 16) && (e2 =? 129) then
        if two_listsb esv then
          match dec_props (Z.to_nat n) r with
          | Some (ps, g :: r') =>
              match dec_props (Z.to_nat g) r' with
              | Some (gs, rest) =>
                  Some (mkFrame (t0, t1) (s0, s1, s2) (d0, d1, d2) esv (SetGetBody ps gs), rest)
              | None => None
              end
          | _ => None
          end
        else
          match dec_props (Z.to_nat n) r with
          | Some (ps, rest) =>
              Some (mkFrame (t0, t1) (s0, s1, s2) (d0, d1, d2) esv (Plain ps), rest)
          | None => None
          end
      else None
  | _ => None
  end.

Lemma is_byte_val : forall b, is_byte b <-> byte_val b.
Proof. intros. unfold is_byte, byte_val. lia. Qed.

Ltac split_bytes H :=
  repeat (let Hb := fresh "Hb" in apply bytes_ok_cons in H; destruct H as [Hb H]).

Lemma dec_frame_iff : forall data f rest, bytes_ok data ->
  dec_frame data = Some (f, rest) <-> frame_ok f /\ data = enc_frame f ++ rest.
Proof.
  intros data f rest Hd. split.
  - intros H.
    do 12 (destruct data as [|? data]; [discriminate|]).
    split_bytes Hd. cbn [dec_frame] in H.
    destruct ((z =? 16) && (z0 =? 129)) eqn:Eh; [|discriminate].
    assert (z = 16) by lia. assert (z0 = 129) by lia. subst z z0.
    assert (Hn : 0 <= z10 <= 255) by (unfold is_byte in *; lia).
    destruct (two_listsb z9) eqn:E2.
    + apply two_listsb_iff in E2.
      destruct (dec_props (Z.to_nat z10) data) as [[ps [|g r']]|] eqn:Ep; try discriminate.
      apply dec_props_iff in Ep; [|exact Hd]. destruct Ep as (El & Ef & Eq).
      subst data. apply bytes_ok_app in Hd. destruct Hd as [_ Hd].
      apply bytes_ok_cons in Hd. destruct Hd as [Hg Hd].
      destruct (dec_props (Z.to_nat g) r') as [[gs rest']|] eqn:Eg; [|discriminate].
      injection H as <- <-.
      apply dec_props_iff in Eg; [|exact Hd]. destruct Eg as (El2 & Ef2 & Eq2). subst r'.
      assert (Hg' : 0 <= g <= 255) by (unfold is_byte in *; lia).
      split.
      * repeat split; cbn [f_tid f_seoj f_deoj f_esv f_body fst snd eoj_ok body_ok];
          try (apply is_byte_val; assumption); auto; try (unfold byte_val, is_byte in *; lia).
      * unfold enc_frame. cbn [f_tid f_seoj f_deoj f_esv f_body fst snd enc_eoj app enc_body].
        unfold enc_props. rewrite El, El2. rewrite !Z2Nat.id by lia.
        do 12 f_equal. rewrite <- app_assoc. reflexivity.
    + assert (E2' : ~ two_lists z9) by (rewrite <- two_listsb_iff; congruence).
      destruct (dec_props (Z.to_nat z10) data) as [[ps rest']|] eqn:Ep; [|discriminate].
      injection H as <- <-.
      apply dec_props_iff in Ep; [|exact Hd]. destruct Ep as (El & Ef & Eq). subst data.
      split.
      * repeat split; cbn [f_tid f_seoj f_deoj f_esv f_body fst snd eoj_ok body_ok];
          try (apply is_byte_val; assumption); auto; try (unfold byte_val, is_byte in *; lia).
      * unfold enc_frame. cbn [f_tid f_seoj f_deoj f_esv f_body fst snd enc_eoj app enc_body].
        unfold enc_props. rewrite El. rewrite !Z2Nat.id by lia. reflexivity.
  - intros [Hok E]. destruct f as [[t0 t1] [[s0 s1] s2] [[d0 d1] d2] esv b].
    destruct Hok as (_ & _ & _ & _ & _ & Hb). cbn [f_esv f_body] in Hb.
    unfold enc_frame in E. cbn [f_tid f_seoj f_deoj f_esv f_body fst snd enc_eoj app] in E.
    destruct b as [ps|ps gs]; cbn [enc_body body_ok] in *; unfold enc_props in E; cbn [app] in E; subst data.
    + destruct Hb as (H2 & Hps & Hl). cbn [dec_frame]. cbn [Z.eqb Pos.eqb andb].
      destruct (two_listsb esv) eqn:E2; [apply two_listsb_iff in E2; contradiction|].
      rewrite Nat2Z.id.
      replace (dec_props (length ps) (concat (map enc_prop ps) ++ rest)) with (Some (ps, rest)); [reflexivity|].
      symmetry. apply dec_props_iff; auto. split_bytes Hd. exact Hd.
    + destruct Hb as (H2 & (Hps & Hl) & (Hgs & Hgl)). cbn [dec_frame]. cbn [Z.eqb Pos.eqb andb].
      apply two_listsb_iff in H2. rewrite H2. rewrite Nat2Z.id.
      rewrite <- app_assoc. cbn [app].
      replace (dec_props (length ps) (concat (map enc_prop ps) ++ Z.of_nat (length gs) :: concat (map enc_prop gs) ++ rest))
        with (Some (ps, Z.of_nat (length gs) :: concat (map enc_prop gs) ++ rest)).
      * rewrite Nat2Z.id.
        replace (dec_props (length gs) (concat (map enc_prop gs) ++ rest)) with (Some (gs, rest)); [reflexivity|].
        symmetry. apply dec_props_iff; auto. split_bytes Hd.
        rewrite <- app_assoc in Hd. apply bytes_ok_app in Hd. destruct Hd as [_ Hd].
        cbn [app] in Hd. apply bytes_ok_cons in Hd. tauto.
      * symmetry. apply dec_props_iff; auto. split_bytes Hd.
        rewrite <- app_assoc in Hd. exact Hd.
Qed.

(* the array of a successfully parsed list: stays NULL when it is empty *)
Definition pv_of (ps : list epair) : pvec :=
  mkPvec (len ps) (match ps with [] => None | _ => Some (map msgprop ps) end).

Lemma pv_list_of : forall ps, pv_list (pv_of ps) = map msgprop ps.
Proof. intros [|p ps]; reflexivity. Qed.

Lemma msgprop_ok : forall ps, Forall epair_ok ps -> Forall prop_ok (map msgprop ps).
Proof.
  intros ps H. apply Forall_forall. intros x Hx. apply in_map_iff in Hx.
  destruct Hx as (e & <- & He). rewrite Forall_forall in H. apply H in He.
  destruct He as (H1 & H2 & _). split; [apply is_byte_val; exact H1|]. split; [|reflexivity].
  eapply Forall_impl; [|exact H2]. intros; apply is_byte_val; assumption.
Qed.

Lemma pv_of_ok : forall ps, eprops_ok ps -> pv_ok (pv_of ps).
Proof.
  intros ps [Hf Hl]. unfold pv_ok, pv_of. cbn [pv_opc pv_ep].
  split; [unfold len; lia|]. destruct ps as [|p ps]; [reflexivity|].
  split; [apply len_map|]. split; [discriminate|]. exact (msgprop_ok (p :: ps) Hf).
Qed.

(* the message produced from a frame; EHD bytes are those the message had *)
Definition msg_of_frame (m0 : msg) (f : frame) : msg :=
  let e3 e := let '(a, b, c) := e in [a; b; c] in
  let mk p s g := mkMsg (m_ehd1 m0) (m_ehd2 m0) (f_tid f) (e3 (f_seoj f)) (e3 (f_deoj f))
                        (f_esv f) p s g None None in
  match f_body f with
  | Plain ps => mk (pv_of ps) pv_empty pv_empty
  | SetGetBody s g => mk pv_empty (pv_of s) (pv_of g)
  end.

Lemma clear_ok : forall m, msg_ok m ->
  uecho_message_clear m =
  Ok (mkMsg (m_ehd1 m) (m_ehd2 m) (m_tid m) (m_seoj m) (m_deoj m) (m_esv m)
            pv_empty pv_empty pv_empty None None).
Proof.
  intros m H. destruct H as (_ & _ & _ & _ & _ & _ & _ & H1 & H2 & H3).
  unfold uecho_message_clear, uecho_message_clearproperties, uecho_properties_clear.
  cbn [m_p m_pset m_pget with_to with_from].
  rewrite !pv_items_ok by assumption. reflexivity.
Qed.

Lemma pv_items_setopcep : forall n, 0 <= n <= 255 ->
  pv_items (uecho_message_setopcep n pv_empty) = Ok (repeat uecho_property_new (Z.to_nat n)).
Proof.
  intros n H. unfold uecho_message_setopcep, pv_items. cbn [pv_empty pv_ep].
  destruct (Z.leb_spec n 0).
  - cbn [pv_opc]. destruct (Z.leb_spec n 0); [|lia]. replace n with 0 by lia. reflexivity.
  - cbn [pv_opc pv_ep]. destruct (Z.leb_spec n 0); [lia|].
    rewrite len_repeat. destruct (Z.ltb_spec (Z.of_nat (Z.to_nat n)) n); [lia|].
    f_equal. rewrite <- (repeat_length uecho_property_new (Z.to_nat n)) at 1. apply firstn_all.
Qed.

Lemma firstn_repeat_all : forall A (a : A) n, firstn n (repeat a n) = repeat a n.
Proof. intros. rewrite <- (repeat_length a n) at 1. apply firstn_all. Qed.

(* parsing one property list of a message whose array was just allocated *)
Lemma property_parse_spec : forall n pre bs,
  0 <= n <= 255 -> 1 <= len pre -> bytes_ok bs -> len (pre ++ bs) <= PTRDIFF_MAX ->
  match dec_props (Z.to_nat n) bs with
  | Some (ps, rest) =>
      uecho_message_property_parse (uecho_message_setopcep n pv_empty) (pre ++ bs) (len pre)
      = Ok (true, pv_of ps, len (pre ++ bs) - len rest)
      /\ (exists pre', pre ++ bs = pre' ++ rest /\ 1 <= len pre') /\ bytes_ok rest
      /\ eprops_ok ps
  | None =>
      exists v off,
        uecho_message_property_parse (uecho_message_setopcep n pv_empty) (pre ++ bs) (len pre)
        = Ok (false, v, off) /\ pv_ok v
  end.
Proof.
  intros n pre bs Hn Hpre Hbs Hlen.
  pose proof (property_parse_loop_spec (Z.to_nat n) pre bs Hpre Hbs Hlen) as S.
  unfold uecho_message_property_parse. rewrite pv_items_setopcep by exact Hn. cbn [bind].
  destruct (dec_props (Z.to_nat n) bs) as [[ps rest]|].
  - destruct S as (E & Hex & Hl & Hr & Hps). rewrite E. cbn [bind].
    split; [|split; [exact Hex|split; [exact Hr|]]].
    2:{ split; [exact Hps|]. lia. }
    do 2 f_equal. f_equal.
    unfold uecho_message_setopcep. destruct (Z.leb_spec n 0).
    + assert (n = 0) by lia. subst n. destruct ps; [|discriminate]. reflexivity.
    + cbn [pv_opc pv_ep option_map]. unfold pv_of. destruct ps as [|p ps]; [cbn in Hl; lia|].
      f_equal; [unfold len; lia|]. f_equal.
      rewrite skipn_all2; [apply app_nil_r|]. rewrite repeat_length, map_length. lia.
  - destruct S as (ps & off & E & Hl & Hps). rewrite E. cbn [bind].
    eexists _, _. split; [reflexivity|].
    unfold uecho_message_setopcep. destruct (Z.leb_spec n 0).
    + assert (n = 0) by lia. subst n. cbn [pv_opc pv_ep pv_empty option_map]. apply pv_empty_ok.
    + cbn [pv_opc pv_ep option_map].
      rewrite skipn_all2 by (rewrite repeat_length; lia). rewrite app_nil_r.
      unfold pv_ok. cbn [pv_opc pv_ep]. split; [lia|]. split; [unfold len; lia|].
      split; [|exact Hps]. intros ->. cbn in Hl. lia.
Qed.

Lemma msg_of_frame_ok : forall m f, msg_ok m -> frame_ok f -> msg_ok (msg_of_frame m f).
Proof.
  intros m [[t0 t1] [[s0 s1] s2] [[d0 d1] d2] esv b] Hm (H1 & H2 & (Ha & Hb & Hc) & (Hd & He & Hf) & H5 & H6).
  destruct Hm as (M1 & M2 & _).
  cbn [f_tid f_esv f_body fst snd] in *.
  assert (E1 : eoj3 [s0; s1; s2]) by (exists s0, s1, s2; repeat split; try apply is_byte_val; auto;
    unfold byte_val in *; lia).
  assert (E2 : eoj3 [d0; d1; d2]) by (exists d0, d1, d2; repeat split; try apply is_byte_val; auto;
    unfold byte_val in *; lia).
  rewrite <- is_byte_val in H1, H2, H5.
  destruct b as [ps|ps gs]; cbn [body_ok] in H6; unfold msg_of_frame; cbn [f_body f_tid f_seoj f_deoj f_esv];
    (repeat match goal with |- msg_ok _ => unfold msg_ok; cbn [m_ehd1 m_ehd2 m_tid m_seoj m_deoj m_esv m_p m_pset m_pget fst snd] end).
  - destruct H6 as [_ H6]. pose proof pv_empty_ok. pose proof (pv_of_ok ps H6). tauto.
  - destruct H6 as (_ & H6 & H7). pose proof pv_empty_ok.
    pose proof (pv_of_ok ps H6). pose proof (pv_of_ok gs H7). tauto.
Qed.

Lemma mk_msg_ok : forall e1 e2 t0 t1 s0 s1 s2 d0 d1 d2 esv p s g fr to,
  is_byte e1 -> is_byte e2 -> is_byte t0 -> is_byte t1 ->
  is_byte s0 -> is_byte s1 -> is_byte s2 -> is_byte d0 -> is_byte d1 -> is_byte d2 ->
  is_byte esv -> pv_ok p -> pv_ok s -> pv_ok g ->
  msg_ok (mkMsg e1 e2 (t0, t1) [s0; s1; s2] [d0; d1; d2] esv p s g fr to).
Proof.
  intros. unfold msg_ok. msimp.
  assert (eoj3 [s0; s1; s2]) by (exists s0, s1, s2; auto).
  assert (eoj3 [d0; d1; d2]) by (exists d0, d1, d2; auto).
  tauto.
Qed.

Lemma parse_spec : forall m data,
  msg_ok m -> bytes_ok data -> len data <= PTRDIFF_MAX ->
  match dec_frame data with
  | Some (f, rest) => uecho_message_parse m data = Ok (true, msg_of_frame m f)
  | None => exists m', uecho_message_parse m data = Ok (false, m') /\ msg_ok m'
                       /\ m_ehd1 m' = m_ehd1 m /\ m_ehd2 m' = m_ehd2 m
  end.
Proof.
  intros m data Hm Hd Hlen.
  assert (Hcl : msg_ok (mkMsg (m_ehd1 m) (m_ehd2 m) (m_tid m) (m_seoj m) (m_deoj m) (m_esv m)
                   pv_empty pv_empty pv_empty None None)).
  { destruct Hm as (A1 & A2 & A3 & A4 & A5 & A6 & A7 & _).
    unfold msg_ok. cbn [m_ehd1 m_ehd2 m_tid m_seoj m_deoj m_esv m_p m_pset m_pget].
    pose proof pv_empty_ok. tauto. }
  unfold uecho_message_parse. rewrite clear_ok by exact Hm. cbn [bind].
  destruct (Z.ltb_spec (len data) uEchoMessageMinLen) as [Hs|Hs]; unfold uEchoMessageMinLen in Hs.
  { assert (E : dec_frame data = None).
    { do 12 (destruct data as [|? data]; [reflexivity|]).
      rewrite !len_cons in Hs. pose proof (len_nonneg _ data). lia. }
    rewrite E. eexists. split; [reflexivity|split; [exact Hcl|split; reflexivity]]. }
  do 12 (destruct data as [|? data]; [rewrite ?len_cons, ?len_nil in Hs; lia|]).
  pose proof Hd as Hd0. split_bytes Hd.
  cbn [dec_frame].
  repeat (match goal with |- context [rd ?l ?i] =>
    let x := eval cbv [rd nth_error Z.to_nat Z.ltb Z.compare Pos.to_nat Pos.iter_op Nat.add] in (rd l i) in
    match x with Ok _ => change (rd l i) with x end end).
  cbn [bind]. unfold uEchoEhd1, uEchoEhd2.
  destruct (Z.eqb_spec z 16); cbn [negb andb]; [|eexists; split; [reflexivity|split; [exact Hcl|split; reflexivity]]].
  destruct (Z.eqb_spec z0 129); cbn [negb]; [|eexists; split; [reflexivity|split; [exact Hcl|split; reflexivity]]].
  subst z z0. rewrite isreadwrite_two.
  msimp.
  assert (Hn : 0 <= z10 <= 255) by (unfold is_byte in *; lia).
  set (hd := [16; 129; z1; z2; z3; z4; z5; z6; z7; z8; z9; z10]).
  change (16 :: 129 :: z1 :: z2 :: z3 :: z4 :: z5 :: z6 :: z7 :: z8 :: z9 :: z10 :: data)
    with (hd ++ data) in *.
  destruct (two_listsb z9) eqn:E2.
  - msimp.
    pose proof (property_parse_spec z10 hd data Hn ltac:(cbn; lia) Hd Hlen) as S.
    change (len hd) with 12 in S.
    destruct (dec_props (Z.to_nat z10) data) as [[ps rest]|].
    2:{ destruct S as (v & off & E & Hv). rewrite E. cbn [bind negb].
        eexists. split; [reflexivity|].
        destruct Hcl as (A1 & A2 & _).
        pose proof pv_empty_ok. split; [apply mk_msg_ok; auto|split; reflexivity]. }
    destruct S as (E & (pre' & Epre & Hpre') & Hrest & Hps). rewrite E. cbn [bind negb].
    destruct rest as [|g rest].
    { rewrite len_nil, Z.sub_0_r.
      rewrite sz_small by (pose proof (len_nonneg _ (hd ++ data)); rewrite Epre, app_nil_r in *; unfold PTRDIFF_MAX, SIZE_MOD in *; lia).
      destruct (Z.ltb_spec (len (hd ++ data) - 1) (len (hd ++ data))); [|lia].
      eexists. split; [reflexivity|].
      destruct Hcl as (A1 & A2 & _).
      pose proof pv_empty_ok. pose proof (pv_of_ok ps Hps) as Hv. split; [apply mk_msg_ok; auto|split; reflexivity]. }
    rewrite Epre in *. rewrite len_app, len_cons in *. pose proof (len_nonneg _ rest).
    replace (len pre' + (1 + len rest) - (1 + len rest)) with (len pre') by lia.
    unfold PTRDIFF_MAX in Hlen.
    rewrite sz_small by (unfold SIZE_MOD; lia).
    destruct (Z.ltb_spec (len pre' + (1 + len rest) - 1) (len pre')); [lia|].
    rewrite rd_app_cons by reflexivity. cbn [bind].
    rewrite sz_small by (unfold SIZE_MOD; lia).
    apply bytes_ok_cons in Hrest. destruct Hrest as [Hg Hrest].
    assert (Hg' : 0 <= g <= 255) by (unfold is_byte in Hg; lia).
    msimp.
    replace (pre' ++ g :: rest) with ((pre' ++ [g]) ++ rest) by (rewrite <- app_assoc; reflexivity).
    replace (len pre' + 1) with (len (pre' ++ [g])) by (rewrite len_app, len_cons, len_nil; lia).
    pose proof (property_parse_spec g (pre' ++ [g]) rest Hg') as S2.
    assert (X1 : 1 <= len (pre' ++ [g])) by (rewrite len_app, len_cons, len_nil; lia).
    assert (X2 : len ((pre' ++ [g]) ++ rest) <= PTRDIFF_MAX)
      by (unfold PTRDIFF_MAX; rewrite !len_app, len_cons, len_nil; lia).
    specialize (S2 X1 Hrest X2).
    destruct (dec_props (Z.to_nat g) rest) as [[gs rest2]|].
    + destruct S2 as (Eg & _ & _ & Hgs). rewrite Eg. cbn [bind]. reflexivity.
    + destruct S2 as (v & off & Eg & Hv). rewrite Eg. cbn [bind].
      eexists. split; [reflexivity|].
      destruct Hcl as (A1 & A2 & _).
      pose proof pv_empty_ok as H9. pose proof (pv_of_ok ps Hps) as Hv2. split; [apply mk_msg_ok; auto|split; reflexivity].
  - msimp.
    pose proof (property_parse_spec z10 hd data Hn ltac:(cbn; lia) Hd Hlen) as S.
    change (len hd) with 12 in S.
    destruct (dec_props (Z.to_nat z10) data) as [[ps rest]|].
    + destruct S as (E & _ & _ & Hps). rewrite E. cbn [bind]. reflexivity.
    + destruct S as (v & off & E & Hv). rewrite E. cbn [bind].
      eexists. split; [reflexivity|].
      destruct Hcl as (A1 & A2 & _).
      pose proof pv_empty_ok. split; [apply mk_msg_ok; auto|split; reflexivity].
Qed.
