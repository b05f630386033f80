(* The property map decoder and encoder against Spec_Map.v. *)
From Coq Require Import ZArith List Bool Lia ZifyBool ZifyNat Permutation.
From Verif Require Import CSem M_Const M_Misc M_Property M_PropertyList M_Object Spec_Map
  P_Base P_Map P_PropertyList.
Import ListNotations.
Open Scope Z_scope.
Ltac Zify.zify_post_hook ::= Z.div_mod_to_equations.

Definition is_map_code (c : Z) : Prop := c = 157 \/ c = 158 \/ c = 159.

Lemma skipn_app_length : forall A (u v : list A), skipn (length u) (u ++ v) = v.
Proof. induction u; cbn; auto. Qed.

Lemma firstn_app_length : forall A (u v : list A), firstn (length u) (u ++ v) = u.
Proof. induction u; cbn; auto. intros. f_equal. auto. Qed.

Lemma len_firstn_le : forall A n (l : list A), (n <= length l)%nat -> length (firstn n l) = n.
Proof. intros. rewrite firstn_length. lia. Qed.

Lemma mapcount_eq : forall p, uecho_property_getpropertymapcount p =
  if (p_code p =? 157) || (p_code p =? 158) || (p_code p =? 159)
  then Ok (match p_data p with [] => None | n :: _ => Some n end) else Ok None.
Proof.
  intros. unfold uecho_property_getpropertymapcount, EPC_AnnoMap, EPC_SetMap, EPC_GetMap.
  destruct ((p_code p =? 157) || (p_code p =? 158) || (p_code p =? 159)); [|reflexivity].
  unfold uecho_property_getdatasize. destruct (p_data p) as [|n r]; [reflexivity|].
  rewrite len_cons. pose proof (len_nonneg _ r).
  destruct (Z.ltb_spec (1 + len r) 1); [lia|]. reflexivity.
Qed.

(* every decode: the slots written are a prefix and hold listed codes *)
Lemma decode_spec : forall p buf size, bytes_ok (p_data p) -> 0 <= size <= len buf ->
  exists r cs,
    uecho_property_getpropertymapcodes p buf size
      = Ok (r, map Some cs ++ skipn (length cs) buf)
    /\ len cs <= size
    /\ (forall c, In c cs -> map_lists (p_data p) c)
    /\ (r = true ->
        is_map_code (p_code p) /\ nth_error (p_data p) 0 = Some size /\ map_complete (p_data p)
        /\ (size <= 15 -> cs = firstn (Z.to_nat size) (tl (p_data p)) /\ len cs = size)
        /\ (15 < size -> NoDup cs /\ forall c, In c cs <-> map_lists (p_data p) c /\ c < 192))
    /\ (is_map_code (p_code p) -> nth_error (p_data p) 0 = Some size -> map_complete (p_data p) ->
        (size <= 15 -> r = true) /\
        (15 < size -> forall all, NoDup all -> (forall c, In c all <-> map_lists (p_data p) c /\ c < 192) ->
           r = (len all <=? size))).
Proof.
  intros p buf size Hb Hs. unfold uecho_property_getpropertymapcodes. rewrite mapcount_eq.
  unfold MapFormat1MaxSize, MapFormat2MapSize, MapFormat2Size.
  assert (F : forall (P : Prop), (exists r cs, Ok (false, buf) = Ok (r, map Some cs ++ skipn (length cs) buf)
    /\ len cs <= size /\ (forall c, In c cs -> map_lists (p_data p) c) /\ (r = true -> False) /\ r = false) )
    by (intros; exists false, []; repeat split; try reflexivity; cbn; try tauto; try lia; try discriminate).
  specialize (F True). destruct F as (fr & fcs & F1 & F2 & F3 & F4 & F5).
  destruct ((p_code p =? 157) || (p_code p =? 158) || (p_code p =? 159)) eqn:Ec; cbn [bind].
  2:{ exists fr, fcs. split; [exact F1|]. split; [exact F2|]. split; [exact F3|]. split; [tauto|].
      unfold is_map_code. intros [?|[?|?]]; lia. }
  destruct (p_data p) as [|n rest] eqn:Ed.
  { exists fr, fcs. split; [exact F1|]. split; [exact F2|]. split; [exact F3|]. split; [tauto|].
    intros _ H. discriminate. }
  apply bytes_ok_cons in Hb. destruct Hb as [Hn Hr]. unfold is_byte in Hn.
  destruct (Z.eqb_spec n size) as [E|E]; cbn [negb].
  2:{ exists fr, fcs. split; [exact F1|]. split; [exact F2|]. split; [exact F3|]. split; [tauto|].
      intros _ H. cbn in H. congruence. }
  subst n. unfold uecho_property_getdatasize. rewrite Ed, len_cons.
  assert (Hc : is_map_code (p_code p)) by (unfold is_map_code; lia).
  destruct (Z.leb_spec size 15) as [H15|H15].
  - destruct (Z.ltb_spec (1 + len rest) (size + 1)).
    { exists fr, fcs. split; [exact F1|]. split; [exact F2|]. split; [exact F3|]. split; [tauto|].
      intros _ _ H0. unfold map_complete in H0. replace (size <=? 15) with true in H0 by lia.
      unfold len in *. lia. }
    destruct (fmt1_spec (Z.to_nat size) (size :: rest) 0 [] buf) as (out & G1 & G2);
      [reflexivity|unfold len in *; lia|rewrite len_cons; lia|lia|].
    cbn [app] in G1. rewrite G1. cbn [bind].
    change (Z.to_nat (0 + 1)) with 1%nat in G2. cbn [skipn] in G2.
    assert (L : length (firstn (Z.to_nat size) rest) = Z.to_nat size)
      by (apply len_firstn_le; unfold len in *; lia).
    exists true, (firstn (Z.to_nat size) rest). rewrite L, G2.
    split; [reflexivity|]. split; [unfold len; lia|]. cbn [map_lists map_complete tl nth_error].
    replace (size <=? 15) with true by lia. split; [auto|].
    split.
    { intros _. split; [assumption|]. split; [reflexivity|]. split; [unfold len in *; lia|].
      split; [intros; split; [reflexivity|unfold len; lia]|lia]. }
    intros _ _ _. split; [reflexivity|lia].
  - destruct (Z.eqb_spec (1 + len rest) 17) as [H17|H17]; cbn [negb].
    2:{ exists fr, fcs. split; [exact F1|]. split; [exact F2|]. split; [exact F3|]. split; [tauto|].
        intros _ _ H0. unfold map_complete in H0. replace (size <=? 15) with false in H0 by lia.
        unfold len in *. lia. }
    rewrite (rows_emit rest [size]) by (unfold len in *; cbn; try reflexivity; lia).
    destruct (emit_spec (rows_codes 0 rest) size [] buf) as (w & tl & E1 & E2 & E3 & E4 & E5);
      [rewrite len_nil; lia|].
    cbn [app] in E4. rewrite len_nil in *. rewrite E4. cbn [rmap fst snd].
    assert (LM : forall c, In c (rows_codes 0 rest) <-> map_lists (size :: rest) c /\ c < 192).
    { intros c. rewrite in_rows_codes by (auto; lia). cbn [map_lists].
      replace (size <=? 15) with false by lia. split.
      - intros (r & b & byt & H1 & H2 & H3 & H4 & H5). split; [|lia].
        exists r, b, byt. rewrite Z.sub_0_r in H4. split; [lia|]. split; [lia|]. auto.
      - intros [(r & b & byt & H1 & H2 & H3 & H4 & H5) H6].
        exists r, b, byt. rewrite Z.sub_0_r. split; [lia|]. split; [lia|]. auto. }
    assert (ND : NoDup (rows_codes 0 rest)) by (apply nodup_rows_codes; auto; lia).
    exists (len (rows_codes 0 rest) <=? size - 0), (firstn (length w) (rows_codes 0 rest)).
    rewrite len_firstn_le by assumption.
    split; [subst buf; rewrite skipn_app_length; reflexivity|].
    split; [unfold len in *; rewrite len_firstn_le by assumption; lia|].
    split.
    { intros c I. apply LM. rewrite <- (firstn_skipn (length w)). apply in_or_app. auto. }
    split.
    { intros Ht. split; [assumption|]. split; [reflexivity|].
      split; [cbn; replace (size <=? 15) with false by lia; unfold len in *; lia|].
      split; [lia|]. intros _. rewrite E5 by lia. rewrite firstn_all. split; [assumption|].
      apply LM. }
    intros _ _ _. split; [lia|]. intros _ all Hnd Hall.
    replace (len all) with (len (rows_codes 0 rest)); [rewrite Z.sub_0_r; reflexivity|].
    unfold len. f_equal. apply Permutation_length. apply NoDup_Permutation; auto.
    intros. rewrite Hall. apply LM.
Qed.

Lemma nth_error_repeat : forall A (x : A) n k, (k < n)%nat -> nth_error (repeat x n) k = Some x.
Proof. induction n; intros; [lia|]. destruct k; cbn; [reflexivity|]. apply IHn. lia. Qed.

(* what the encoder stores *)
Lemma setmap_spec : forall o m cs, Forall epc cs ->
  exists d, 
    uecho_object_setpropertymap o m (Some cs)
      = Ok (o_with_props (put (o_props o) m (fun p =>
               let p' := put_data d p in
               if len cs <=? 15 then uecho_property_setattribute AttrRead p' else p')) o,
            announced (got (o_props o) m) d)
    /\ bytes_ok d
    /\ (len cs <= 15 -> d = len cs :: cs)
    /\ (15 < len cs -> length d = 17%nat /\ nth_error d 0 = Some (to_byte (len cs))
        /\ forall row bit, 1 <= row <= 16 -> 0 <= bit < 8 ->
           mbit d row bit = (bit <? 4) && existsb (fun c => c =? code_at (row - 1) bit) cs).
Proof.
  intros o m cs Hc. unfold uecho_object_setpropertymap, MapFormat1MaxSize, MapFormat2MapSize.
  assert (Hbc : bytes_ok cs).
  { unfold bytes_ok. eapply Forall_impl; [|exact Hc]. unfold epc, is_byte. intros; lia. }
  pose proof (len_nonneg _ cs).
  destruct (Z.leb_spec (len cs) 15).
  - exists (to_byte (len cs) :: cs). rewrite pl_set_eq. split; [reflexivity|].
    split; [apply bytes_ok_cons; split; [apply to_byte_range|assumption]|].
    split; [|lia]. intros. rewrite to_byte_id by (unfold is_byte; lia). reflexivity.
  - set (d0 := to_byte (len cs) :: repeat 0 (Z.to_nat 16)).
    destruct (format2_spec cs d0) as (d & E1 & E2 & E3 & E4 & E5); [assumption|reflexivity| |].
    { unfold d0. apply bytes_ok_cons. split; [apply to_byte_range|].
      apply Forall_forall. intros x I. apply repeat_spec in I. subst. unfold is_byte. lia. }
    rewrite E1. cbn [bind]. exists d. rewrite pl_setdata_eq.
    split; [reflexivity|]. split; [assumption|]. split; [lia|]. intros _.
    split; [assumption|]. split; [rewrite E4; reflexivity|].
    intros row bit Hr Hbit. rewrite E5 by assumption.
    replace (mbit d0 row bit) with false; [reflexivity|].
    unfold mbit, d0. destruct (Z.to_nat row) eqn:Er; [lia|]. cbn [nth_error].
    rewrite nth_error_repeat by lia. symmetry. apply Z.bits_0.
Qed.

Lemma nodup_epc_len : forall cs, NoDup cs -> Forall epc cs -> len cs <= 128.
Proof.
  intros cs Hn Hc. unfold len. assert (length cs <= length (zseq 128 128))%nat; [|cbn in H; lia].
  apply NoDup_incl_length; [assumption|]. intros x I. apply in_zseq.
  eapply Forall_forall in Hc; [|exact I]. unfold epc in Hc. lia.
Qed.

(* the stored bytes list exactly the codes, minus those above 0xBF in format 2 *)
Lemma setmap_lists : forall cs d, NoDup cs -> Forall epc cs -> bytes_ok d ->
  (len cs <= 15 -> d = len cs :: cs) ->
  (15 < len cs -> length d = 17%nat /\ nth_error d 0 = Some (to_byte (len cs))
        /\ forall row bit, 1 <= row <= 16 -> 0 <= bit < 8 ->
           mbit d row bit = (bit <? 4) && existsb (fun c => c =? code_at (row - 1) bit) cs) ->
  map_complete d /\ nth_error d 0 = Some (len cs)
  /\ forall c, map_lists d c <-> In c cs /\ (len cs <= 15 \/ c < 192).
Proof.
  intros cs d Hn Hc Hb H1 H2. pose proof (nodup_epc_len cs Hn Hc) as L.
  pose proof (len_nonneg _ cs).
  destruct (Z.le_gt_cases (len cs) 15) as [C|C].
  - rewrite (H1 C). cbn. replace (len cs <=? 15) with true by lia.
    rewrite to_nat_len, firstn_all. split; [lia|]. split; [reflexivity|]. intros; tauto.
  - destruct H2 as (G1 & G2 & G3); [lia|]. rewrite to_byte_id in G2 by (unfold is_byte; lia).
    destruct d as [|n rest]; [discriminate|]. cbn in G2. inversion G2; subst n. clear G2.
    cbn [map_complete map_lists nth_error]. replace (len cs <=? 15) with false by lia.
    cbn in G1. split; [lia|]. split; [reflexivity|]. intros c. split.
    + intros (r & b & byt & E1 & E2 & E3 & E4 & E5).
      specialize (G3 (r + 1) b ltac:(lia) ltac:(lia)). unfold mbit in G3.
      replace (Z.to_nat (r + 1)) with (S (Z.to_nat r)) in G3 by lia. cbn [nth_error] in G3.
      rewrite E4, E5 in G3. symmetry in G3. apply andb_true_iff in G3. destruct G3 as [G3 G4].
      apply existsb_exists in G4. destruct G4 as (x & I & Ex). apply Z.eqb_eq in Ex.
      unfold code_at in Ex. replace c with x by lia. split; [assumption|lia].
    + intros [I [?|I2]]; [lia|]. assert (Hcc : epc c) by (rewrite Forall_forall in Hc; auto).
      unfold epc in Hcc. set (r := (c - 128) mod 16). set (b := (c - 128) / 16).
      specialize (G3 (r + 1) b ltac:(unfold r; lia) ltac:(unfold b; lia)). unfold mbit in G3.
      replace (Z.to_nat (r + 1)) with (S (Z.to_nat r)) in G3 by (unfold r; lia). cbn [nth_error] in G3.
      assert (X : (b <? 4) && existsb (fun c0 => c0 =? code_at (r + 1 - 1) b) cs = true).
      { apply andb_true_iff. split; [unfold b; lia|]. apply existsb_exists. exists c.
        split; [assumption|]. unfold code_at, r, b. lia. }
      rewrite X in G3. destruct (nth_error rest (Z.to_nat r)) as [byt|] eqn:En; [|discriminate].
      exists r, b, byt. split; [unfold r; lia|]. split; [unfold b; lia|].
      split; [unfold r, b; lia|]. auto.
Qed.
