(* Lemmas about the property map encoder and decoder. *)
From Coq Require Import ZArith List Bool Lia ZifyBool ZifyNat Permutation.
From Verif Require Import CSem M_Const M_Misc M_Property M_PropertyList M_Object Spec_Map P_Base.
Import ListNotations.
Open Scope Z_scope.
Ltac Zify.zify_post_hook ::= Z.div_mod_to_equations.

(* ---- sequential output into the caller's buffer ---- *)

Fixpoint emit (cs : list Z) (size idx : Z) (buf : list (option Z))
  : res (bool * Z * list (option Z)) :=
  match cs with
  | [] => Ok (true, idx, buf)
  | c :: r =>
      if size <=? idx then Ok (false, idx, buf)
      else do buf' <- wr buf idx (Some c) ;; emit r size (idx + 1) buf'
  end.

Lemma emit_app : forall a b size idx buf,
  emit (a ++ b) size idx buf =
  do r <- emit a size idx buf ;;
  let '(go, idx', buf') := r in
  if go then emit b size idx' buf' else Ok (false, idx', buf').
Proof.
  induction a; cbn; intros; auto.
  destruct (size <=? idx); cbn; auto.
  destruct (wr buf idx (Some a)); cbn; auto.
Qed.

Lemma emit_spec : forall cs size pre rest,
  len pre <= size <= len pre + len rest ->
  exists w tl,
    rest = w ++ tl /\ (length w <= length cs)%nat /\
    len pre + len w <= size /\
    (emit cs size (len pre) (pre ++ rest)
      = Ok (len cs <=? size - len pre, len pre + len w,
            pre ++ map Some (firstn (length w) cs) ++ tl)) /\
    (len cs <= size - len pre -> length w = length cs).
Proof.
  induction cs as [|c cs IH]; intros size pre rest H.
  - exists [], rest. split; [reflexivity|]. split; [cbn; lia|].
    rewrite !len_nil. split; [lia|]. split; [|reflexivity]. cbn [emit length firstn map app].
    rewrite Z.add_0_r. destruct (Z.leb_spec 0 (size - len pre)); [reflexivity|lia].
  - cbn [emit]. destruct (Z.leb_spec size (len pre)).
    + exists [], rest. split; [reflexivity|]. split; [cbn; lia|]. rewrite len_nil, len_cons.
      cbn [length firstn map app].
      split; [lia|]. pose proof (len_nonneg _ cs). split; [|lia].
      destruct (Z.leb_spec (1 + len cs) (size - len pre)); [lia|].
      rewrite Z.add_0_r. reflexivity.
    + destruct rest as [|x rest]; [rewrite len_nil in H; lia|].
      rewrite wr_app_cons by reflexivity. cbn [bind].
      replace (pre ++ Some c :: rest) with ((pre ++ [Some c]) ++ rest) by (rewrite <- app_assoc; reflexivity).
      specialize (IH size (pre ++ [Some c]) rest).
      rewrite len_app in IH. rewrite (len_cons _ (Some c) []), len_nil in IH. rewrite len_cons in *.
      destruct IH as (w & tl & E1 & E2 & E3 & E4 & E5); [lia|].
      exists (x :: w), tl. rewrite !len_cons in *.
      split; [cbn; congruence|]. split; [cbn; lia|]. split; [lia|].
      split.
      * replace (len pre + 1) with (len pre + (1 + 0)) by lia. rewrite E4.
        f_equal. f_equal; [f_equal|].
        -- destruct (Z.leb_spec (len cs) (size - (len pre + (1 + 0)))); destruct (Z.leb_spec (1 + len cs) (size - len pre)); lia || reflexivity.
        -- lia.
        -- cbn. rewrite <- app_assoc. reflexivity.
      * intros. cbn. f_equal. apply E5. lia.
Qed.

(* ---- bits ---- *)

Definition zseq (a : Z) (n : nat) : list Z := map (fun k => a + Z.of_nat k) (seq 0 n).

Lemma zseq_S : forall a n, zseq a (S n) = a :: zseq (a + 1) n.
Proof.
  intros. unfold zseq. cbn [seq map]. f_equal; [lia|].
  rewrite <- seq_shift, map_map. apply map_ext. intros. lia.
Qed.

Lemma in_zseq : forall a n x, In x (zseq a n) <-> a <= x < a + Z.of_nat n.
Proof.
  intros. unfold zseq. rewrite in_map_iff. split.
  - intros (k & E & I). apply in_seq in I. lia.
  - intros. exists (Z.to_nat (x - a)). split; [lia|]. apply in_seq. lia.
Qed.

Definition bitset (b j : Z) : bool := negb (Z.land b (Z.land (Z.shiftl 1 j) 15) =? 0).

Lemma bytes_forall : forall (P : Z -> bool),
  forallb P (zseq 0 256) = true -> forall b, is_byte b -> P b = true.
Proof.
  intros P H b Hb. rewrite forallb_forall in H. apply H. apply in_zseq. unfold is_byte in Hb. lia.
Qed.

Lemma bitset_spec : forall b j, is_byte b -> 0 <= j < 8 ->
  bitset b j = Z.testbit b j && (j <? 4).
Proof.
  intros b j Hb Hj.
  assert (H : forallb (fun b => forallb (fun j => Bool.eqb (bitset b j) (Z.testbit b j && (j <? 4)))
                (zseq 0 8)) (zseq 0 256) = true) by (vm_compute; reflexivity).
  pose proof (bytes_forall _ H b Hb) as H1. cbv beta in H1.
  rewrite forallb_forall in H1. apply eqb_prop. apply H1. apply in_zseq. lia.
Qed.

Definition code_at (i j : Z) : Z := 128 + 16 * j + i.

Lemma bittocode_eq : forall i j, 0 <= i < 16 -> 0 <= j < 8 ->
  uecho_propertymap_format2bittocode i j = code_at i j.
Proof.
  intros. unfold uecho_propertymap_format2bittocode, code_at, to_byte, uEchoPropertyCodeMin. lia.
Qed.

Lemma bits_emit : forall cnt b row j size idx buf,
  mapcodes_bits b row j cnt size idx buf =
  emit (map (uecho_propertymap_format2bittocode row) (filter (bitset b) (zseq j cnt))) size idx buf.
Proof.
  induction cnt; intros; [reflexivity|].
  rewrite zseq_S. cbn [mapcodes_bits filter].
  unfold bitset at 1. cbv zeta.
  destruct (Z.land b (Z.land (Z.shiftl 1 j) 15) =? 0) eqn:E; cbn [negb]; [apply IHcnt|].
  cbn [map emit]. destruct (size <=? idx); [reflexivity|].
  destruct (wr buf idx _); cbn [bind]; [apply IHcnt|reflexivity].
Qed.

(* the bytes of rows i, i+1, ... *)
Fixpoint rows_codes (i : Z) (rows : list Z) : list Z :=
  match rows with
  | [] => []
  | b :: r => map (uecho_propertymap_format2bittocode i) (filter (bitset b) (zseq 0 8))
              ++ rows_codes (i + 1) r
  end.

Lemma rows_emit : forall rows pre data i cnt size idx buf,
  data = pre ++ rows -> len pre = i + 1 -> length rows = cnt ->
  mapcodes_rows data i cnt size idx buf =
  rmap (fun r => (fst (fst r), snd r)) (emit (rows_codes i rows) size idx buf).
Proof.
  induction rows as [|b rows IH]; intros pre data i cnt size idx buf Hd Hp Hc; cbn in Hc; subst cnt.
  - reflexivity.
  - cbn [mapcodes_rows rows_codes]. subst data. rewrite rd_app_cons by lia. cbn [bind].
    rewrite emit_app, bits_emit.
    destruct (emit (map (uecho_propertymap_format2bittocode i) (filter (bitset b) (zseq 0 8))) size idx buf)
      as [[[go idx'] buf']|u]; cbn [bind rmap]; [|reflexivity].
    destruct go; [|reflexivity].
    apply (IH (pre ++ [b])); [rewrite <- app_assoc; reflexivity| |reflexivity].
    rewrite len_app, len_cons, len_nil. lia.
Qed.

(* membership of the decoded list *)
Lemma in_rows_codes : forall rows i c, bytes_ok rows -> 0 <= i -> i + len rows <= 16 ->
  (In c (rows_codes i rows) <->
   exists r b byt, i <= r < i + len rows /\ 0 <= b < 4 /\ c = 128 + 16 * b + r
     /\ nth_error rows (Z.to_nat (r - i)) = Some byt /\ Z.testbit byt b = true).
Proof.
  induction rows as [|x rows IH]; intros i c Hb Hi Hl.
  - cbn. split; [tauto|]. intros (r & b & byt & H & _). unfold len in H; cbn in H; lia.
  - apply bytes_ok_cons in Hb. destruct Hb as [Hx Hb]. rewrite len_cons in *.
    pose proof (len_nonneg _ rows).
    cbn [rows_codes]. rewrite in_app_iff, IH by (auto; lia). split.
    + intros [H0|H0].
      * apply in_map_iff in H0. destruct H0 as (j & E & I). apply filter_In in I.
        destruct I as [I1 I2]. apply in_zseq in I1. rewrite bitset_spec in I2 by (auto; lia).
        apply andb_true_iff in I2. destruct I2 as [I2 I3].
        rewrite bittocode_eq in E by lia. unfold code_at in E.
        exists i, j, x. replace (i - i) with 0 by lia. split; [lia|]. split; [lia|]. split; [lia|].
        split; [reflexivity|assumption].
      * destruct H0 as (r & b & byt & H1 & H2 & H3 & H4 & H5).
        exists r, b, byt. split; [lia|]. split; [lia|]. split; [lia|].
        replace (Z.to_nat (r - i)) with (S (Z.to_nat (r - (i + 1)))) by lia. cbn. auto.
    + intros (r & b & byt & H1 & H2 & H3 & H4 & H5).
      destruct (Z.eq_dec r i).
      * left. subst r. replace (i - i) with 0 in H4 by lia. cbn in H4. inversion H4; subst byt.
        apply in_map_iff. exists b. split; [rewrite bittocode_eq by lia; unfold code_at; lia|].
        apply filter_In. split; [apply in_zseq; lia|]. rewrite bitset_spec by (auto; lia).
        rewrite H5. cbn. lia.
      * right. exists r, b, byt. split; [lia|]. split; [lia|]. split; [lia|].
        replace (Z.to_nat (r - i)) with (S (Z.to_nat (r - (i + 1)))) in H4 by lia. cbn in H4. auto.
Qed.

Lemma nodup_app : forall A (a b : list A), NoDup a -> NoDup b ->
  (forall x, In x a -> ~ In x b) -> NoDup (a ++ b).
Proof.
  induction a; cbn; intros; auto. inversion H; subst. constructor.
  - rewrite in_app_iff. intros [?|?]; [tauto|]. apply (H1 a); auto.
  - apply IHa; auto.
Qed.

Lemma nodup_map_inj : forall A B (f : A -> B) l,
  (forall x y, In x l -> In y l -> f x = f y -> x = y) -> NoDup l -> NoDup (map f l).
Proof.
  induction l; cbn; intros; constructor.
  - rewrite in_map_iff. intros (x & E & I). inversion H0; subst.
    assert (x = a) by (apply H; auto). subst. tauto.
  - inversion H0; subst. apply IHl; auto.
Qed.

Lemma nodup_zseq : forall a n, NoDup (zseq a n).
Proof.
  intros. unfold zseq. apply nodup_map_inj; [intros; lia|apply seq_NoDup].
Qed.

Lemma nodup_rows_codes : forall rows i, bytes_ok rows -> 0 <= i -> i + len rows <= 16 ->
  NoDup (rows_codes i rows).
Proof.
  induction rows as [|x rows IH]; intros i Hb Hi Hl; [constructor|].
  apply bytes_ok_cons in Hb. destruct Hb as [Hx Hb]. rewrite len_cons in Hl.
  pose proof (len_nonneg _ rows).
  cbn [rows_codes]. apply nodup_app.
  - apply nodup_map_inj; [|apply NoDup_filter, nodup_zseq].
    intros a b Ia Ib. apply filter_In in Ia, Ib. destruct Ia as [Ia _], Ib as [Ib _].
    apply in_zseq in Ia, Ib. rewrite !bittocode_eq by lia. unfold code_at. lia.
  - apply IH; auto; lia.
  - intros c I1 I2. apply in_map_iff in I1. destruct I1 as (j & E & I).
    apply filter_In in I. destruct I as [I _]. apply in_zseq in I.
    rewrite bittocode_eq in E by lia. unfold code_at in E.
    apply in_rows_codes in I2; [|auto|lia|lia]. destruct I2 as (r & b & byt & ? & ? & ? & _). lia.
Qed.

(* ---- encoder ---- *)

Lemma codetoformat2_eq : forall c, epc c ->
  uecho_propertymap_codetoformat2 c = Some ((c - 128) mod 16 + 1, (c - 128) / 16).
Proof.
  intros c [H1 H2].
  assert (H : forallb (fun c => match uecho_propertymap_codetoformat2 c with
              | Some (r, b) => (r =? (c - 128) mod 16 + 1) && (b =? (c - 128) / 16)
              | None => false end) (zseq 128 128) = true) by (vm_compute; reflexivity).
  rewrite forallb_forall in H. specialize (H c). rewrite in_zseq in H. specialize (H ltac:(lia)).
  destruct (uecho_propertymap_codetoformat2 c) as [[r b]|]; [|discriminate].
  apply andb_true_iff in H. destruct H as [E1 E2]. apply Z.eqb_eq in E1, E2. congruence.
Qed.

Lemma setbit_testbit : forall b k j, is_byte b -> 0 <= k < 8 -> 0 <= j < 8 ->
  Z.testbit (to_byte (Z.lor b (Z.land (Z.shiftl 1 k) 15))) j
  = Z.testbit b j || ((k =? j) && (j <? 4)).
Proof.
  intros b k j Hb Hk Hj.
  assert (H : forallb (fun b => forallb (fun k => forallb (fun j => Bool.eqb
      (Z.testbit (to_byte (Z.lor b (Z.land (Z.shiftl 1 k) 15))) j)
      (Z.testbit b j || ((k =? j) && (j <? 4)))) (zseq 0 8)) (zseq 0 8)) (zseq 0 256) = true)
    by (vm_compute; reflexivity).
  pose proof (bytes_forall _ H b Hb) as H1. cbv beta in H1.
  rewrite forallb_forall in H1. specialize (H1 k). rewrite in_zseq in H1. specialize (H1 ltac:(lia)).
  rewrite forallb_forall in H1. specialize (H1 j). rewrite in_zseq in H1. specialize (H1 ltac:(lia)).
  apply eqb_prop. exact H1.
Qed.

Lemma wr_nth : forall A (l l' : list A) i x, wr l i x = Ok l' ->
  forall k, nth_error l' k = if Nat.eqb k (Z.to_nat i) then Some x else nth_error l k.
Proof.
  intros A l l' i x H k. unfold wr in H.
  destruct ((0 <=? i) && (i <? len l)) eqn:E; [|discriminate]. inversion H; subst; clear H.
  unfold len in E.
  assert (L : length (firstn (Z.to_nat i) l) = Z.to_nat i) by (rewrite firstn_length; lia).
  destruct (Nat.eqb_spec k (Z.to_nat i)).
  - subst. rewrite nth_error_app2 by lia. rewrite L, Nat.sub_diag. reflexivity.
  - destruct (Nat.lt_ge_cases k (Z.to_nat i)).
    + rewrite nth_error_app1 by lia. rewrite <- (firstn_skipn (Z.to_nat i) l) at 2.
      rewrite nth_error_app1 by lia. reflexivity.
    + rewrite nth_error_app2 by lia. rewrite L.
      destruct (k - Z.to_nat i)%nat as [|m] eqn:Ek; [lia|]. cbn.
      rewrite <- (firstn_skipn (Z.to_nat (i + 1)) l) at 2.
      rewrite nth_error_app2; rewrite firstn_length; [f_equal; lia|lia].
Qed.

(* the bit of code (row, bit) in a 17 byte map *)
Definition mbit (data : list Z) (row bit : Z) : bool :=
  match nth_error data (Z.to_nat row) with Some b => Z.testbit b bit | None => false end.

Lemma format2_spec : forall cs data, Forall epc cs -> length data = 17%nat -> bytes_ok data ->
  exists data', map_format2 cs data = Ok data' /\ length data' = 17%nat /\ bytes_ok data' /\
    nth_error data' 0 = nth_error data 0 /\
    forall row bit, 1 <= row <= 16 -> 0 <= bit < 8 ->
      mbit data' row bit = mbit data row bit
        || ((bit <? 4) && existsb (fun c => c =? code_at (row - 1) bit) cs).
Proof.
  induction cs as [|c cs IH]; intros data Hc Hl Hb.
  - exists data. cbn. split; [reflexivity|]. split; [assumption|]. split; [assumption|].
    split; [reflexivity|]. intros. rewrite andb_false_r, orb_false_r. reflexivity.
  - inversion Hc as [|? ? H1 H2]; subst. cbn [map_format2]. rewrite codetoformat2_eq by assumption.
    unfold epc in H1.
    set (r0 := (c - 128) mod 16 + 1). set (b0 := (c - 128) / 16).
    assert (Hr0 : 1 <= r0 <= 16) by (unfold r0; lia).
    assert (Hb0 : 0 <= b0 < 8) by (unfold b0; lia).
    destruct (rd_in _ data r0) as (x & E & En); [unfold len; lia|]. rewrite E. cbn [bind].
    assert (Hx : is_byte x).
    { eapply Forall_forall in Hb; [exact Hb|]. eapply nth_error_In. exact En. }
    set (y := to_byte (Z.lor x (Z.land (Z.shiftl 1 b0) 15))).
    destruct (wr_total _ data r0 y) as (d1 & E1); [unfold len; lia|]. rewrite E1. cbn [bind].
    pose proof (wr_nth _ _ _ _ _ E1) as Hn. pose proof (wr_len _ _ _ _ _ E1) as Hl1.
    destruct (IH d1) as (d2 & F1 & F2 & F3 & F4 & F5); [assumption|unfold len in Hl1; lia| |].
    { apply Forall_forall. intros z Iz. apply In_nth_error in Iz. destruct Iz as (k & Ek).
      rewrite Hn in Ek. destruct (Nat.eqb k (Z.to_nat r0)).
      - inversion Ek; subst z. apply to_byte_range.
      - apply nth_error_In in Ek. eapply Forall_forall in Hb; eauto. }
    exists d2. split; [assumption|]. split; [assumption|]. split; [assumption|].
    split. { rewrite F4, Hn. destruct (Nat.eqb_spec 0 (Z.to_nat r0)); [lia|reflexivity]. }
    intros row bit Hrow Hbit. rewrite F5 by assumption. cbn [existsb].
    assert (M : mbit d1 row bit = mbit data row bit || ((bit <? 4) && (c =? code_at (row - 1) bit))).
    { unfold mbit. rewrite Hn. destruct (Nat.eqb_spec (Z.to_nat row) (Z.to_nat r0)).
      - assert (row = r0) by lia. subst row. rewrite En. unfold y.
        rewrite setbit_testbit by assumption. f_equal. rewrite andb_comm. f_equal.
        unfold code_at, r0, b0. lia.
      - assert ((c =? code_at (row - 1) bit) = false) by (unfold code_at, r0, b0 in *; lia).
        rewrite H. rewrite andb_false_r, orb_false_r. reflexivity. }
    rewrite M. destruct (mbit data row bit), (bit <? 4), (c =? code_at (row - 1) bit); cbn; auto.
Qed.

(* ---- format 1 ---- *)

Lemma fmt1_spec : forall cnt data n done rest,
  len done = n -> (cnt <= length rest)%nat -> n + 1 + Z.of_nat cnt <= len data -> 0 <= n ->
  exists out, mapcodes_fmt1 data n cnt (done ++ rest) = Ok (done ++ out ++ skipn cnt rest) /\
    out = map Some (firstn cnt (skipn (Z.to_nat (n + 1)) data)).
Proof.
  induction cnt; intros data n done rest Hn Hr Hd H0.
  - exists []. cbn. auto.
  - cbn [mapcodes_fmt1]. destruct (rd_in _ data (n + 1)) as (b & E & En); [lia|]. rewrite E.
    cbn [bind]. destruct rest as [|x rest]; [cbn in Hr; lia|].
    rewrite wr_app_cons by lia. cbn [bind].
    replace (done ++ Some b :: rest) with ((done ++ [Some b]) ++ rest) by (rewrite <- app_assoc; reflexivity).
    destruct (IHcnt data (n + 1) (done ++ [Some b]) rest) as (out & F1 & F2).
    + rewrite len_app, len_cons, len_nil. lia.
    + cbn in Hr. lia.
    + lia.
    + lia.
    + rewrite F1. exists (Some b :: out). split; [cbn; rewrite <- app_assoc; reflexivity|].
      apply nth_error_split in En. destruct En as (l1 & l2 & Ed & El).
      subst data. rewrite F2.
      replace (Z.to_nat (n + 1 + 1)) with (S (length l1)) by lia.
      rewrite <- El.
      replace (l1 ++ b :: l2) with ((l1 ++ [b]) ++ l2) at 1 by (rewrite <- app_assoc; reflexivity).
      replace (S (length l1)) with (length (l1 ++ [b])) by (rewrite app_length; cbn; lia).
      assert (SA : forall A (u v : list A), skipn (length u) (u ++ v) = v)
        by (intros A u; induction u; cbn; auto).
      rewrite !SA.
      reflexivity.
Qed.
