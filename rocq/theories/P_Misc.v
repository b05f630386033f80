(* Lemmas about misc.c / esv.c. *)
From Coq Require Import ZArith List Bool Lia ZifyBool ZifyNat.
From Verif Require Import CSem M_Const M_Misc P_Base.
Import ListNotations.
Open Scope Z_scope.
Ltac Zify.zify_post_hook ::= Z.div_mod_to_equations.

(* big-endian and little-endian value of a byte string *)
Fixpoint le_val (l : list Z) : Z :=
  match l with [] => 0 | b :: r => b + 256 * le_val r end.
Definition be_val (l : list Z) : Z := le_val (rev l).

Lemma le_val_app : forall a b, le_val (a ++ b) = le_val a + 256 ^ len a * le_val b.
Proof.
  induction a as [|x a IH]; intros b; cbn [app le_val].
  - rewrite len_nil. lia.
  - rewrite IH, len_cons. rewrite Z.pow_add_r by (try lia; apply len_nonneg).
    rewrite Z.mul_add_distr_l, Z.mul_assoc. change (256 ^ 1) with 256. lia.
Qed.

Lemma be_val_app : forall a b, be_val (a ++ b) = 256 ^ len b * be_val a + be_val b.
Proof.
  intros. unfold be_val. rewrite rev_app_distr, le_val_app.
  unfold len at 1. rewrite rev_length. fold (len b). lia.
Qed.

Lemma le_val_range : forall l, bytes_ok l -> 0 <= le_val l < 256 ^ len l.
Proof.
  induction l as [|b l IH]; intros H.
  - cbn. lia.
  - apply bytes_ok_cons in H. destruct H as [Hb Hl]. specialize (IH Hl).
    cbn [le_val]. rewrite len_cons, Z.pow_add_r by (try lia; apply len_nonneg).
    change (256 ^ 1) with 256. unfold is_byte in Hb. lia.
Qed.

Lemma bytes_ok_rev : forall l, bytes_ok (rev l) <-> bytes_ok l.
Proof.
  unfold bytes_ok. intros l. rewrite !Forall_forall.
  split; intros H x Hx; apply H.
  - apply in_rev. rewrite rev_involutive. exact Hx.
  - apply in_rev in Hx. exact Hx.
Qed.

Lemma be_val_range : forall l, bytes_ok l -> 0 <= be_val l < 256 ^ len l.
Proof.
  intros l H. unfold be_val. apply bytes_ok_rev in H. apply le_val_range in H.
  unfold len in *. rewrite rev_length in H. exact H.
Qed.

Lemma byte2integer_loop_iff : forall r n val v,
  bytes_ok r -> 0 <= val <= INT_MAX ->
  byte2integer_loop r n val = Ok v <->
  (r = [] \/ (n + length r <= 4)%nat)
  /\ val + 256 ^ Z.of_nat n * le_val r <= INT_MAX
  /\ v = val + 256 ^ Z.of_nat n * le_val r.
Proof.
  induction r as [|b r IH]; intros n val v Hr Hval.
  - cbn [byte2integer_loop le_val]. rewrite Z.mul_0_r, Z.add_0_r. split.
    + intros H. injection H as <-. repeat split; auto; lia.
    + intros (_ & _ & ->). reflexivity.
  - apply bytes_ok_cons in Hr. destruct Hr as [Hb Hr]. unfold is_byte in Hb.
    pose proof (proj1 (le_val_range r Hr)) as Hlv.
    cbn [byte2integer_loop le_val length].
    assert (Hpow : 2 ^ (Z.of_nat n * 8) = 256 ^ Z.of_nat n).
    { rewrite Z.mul_comm, Z.pow_mul_r by lia. reflexivity. }
    assert (Hpos : 0 < 256 ^ Z.of_nat n) by (apply Z.pow_pos_nonneg; lia).
    unfold int_shl. rewrite Hpow.
    replace (256 ^ Z.of_nat n * (b + 256 * le_val r))
      with (b * 256 ^ Z.of_nat n + 256 ^ Z.of_nat (S n) * le_val r)
      by (rewrite Nat2Z.inj_succ, Z.pow_succ_r by lia; ring).
    assert (Hterm : 0 <= b * 256 ^ Z.of_nat n) by nia.
    assert (Hterm2 : 0 <= 256 ^ Z.of_nat (S n) * le_val r).
    { apply Z.mul_nonneg_nonneg; [apply Z.pow_nonneg; lia | lia]. }
    set (t := b * 256 ^ Z.of_nat n) in *.
    set (u := 256 ^ Z.of_nat (S n) * le_val r) in *.
    destruct ((Z.of_nat n * 8 <? 0) || (32 <=? Z.of_nat n * 8)) eqn:E1.
    + cbn [bind]. split; [discriminate|]. intros ([?|?] & _); [discriminate | lia].
    + destruct (INT_MAX <? t) eqn:E2.
      * cbn [bind]. split; [discriminate|]. intros (_ & H & _). lia.
      * cbn [bind]. unfold int_chk.
        destruct ((INT_MIN <=? val + t) && (val + t <=? INT_MAX)) eqn:E3.
        2:{ cbn [bind]. split; [discriminate|]. intros (_ & H & _).
            exfalso. change INT_MIN with (-2147483648) in E3. lia. }
        cbn [bind]. rewrite IH by (auto; lia). fold u. split.
        -- intros (H1 & H2 & H3). repeat split; try lia.
           right. destruct H1 as [->|H1]; cbn [length]; lia.
        -- intros (H1 & H2 & H3). repeat split; try lia.
           destruct H1 as [H1|H1]; [discriminate|]. right. lia.
Qed.

Lemma byte2integer_iff : forall bs v, bytes_ok bs ->
  uecho_byte2integer bs = Ok v <->
  (length bs <= 4)%nat /\ be_val bs <= INT_MAX /\ v = be_val bs.
Proof.
  intros bs v H. unfold uecho_byte2integer.
  rewrite byte2integer_loop_iff by (try (apply bytes_ok_rev; assumption); unfold INT_MAX; lia).
  rewrite rev_length. change (256 ^ Z.of_nat 0) with 1. rewrite Z.mul_1_l, Z.add_0_l.
  fold (be_val bs).
  split.
  - intros (H1 & H2 & H3). split; [|auto].
    destruct H1 as [H1|H1]; [|lia].
    apply (f_equal (@length Z)) in H1. rewrite rev_length in H1. cbn in H1. lia.
  - intros (H1 & H2 & H3). split; [right; lia|auto].
Qed.

Lemma byte2integer_3 : forall a b c, is_byte a -> is_byte b -> is_byte c ->
  uecho_byte2integer [a; b; c] = Ok (a * 65536 + b * 256 + c).
Proof.
  intros a b c Ha Hb Hc. apply byte2integer_iff.
  - repeat (apply Forall_cons; [assumption|]). constructor.
  - unfold is_byte in *. unfold be_val. cbn [rev app le_val length]. unfold INT_MAX.
    split; [lia|]. split; lia.
Qed.

(* the k-th byte (from the least significant one) of an int *)
Definition byte_of (val : Z) (k : Z) : Z := (val / 256 ^ k) mod 256.

Lemma shiftr_byte : forall v n, Z.land (Z.shiftr v (Z.of_nat n * 8)) 255 = byte_of v (Z.of_nat n).
Proof.
  intros. change 255 with (Z.ones 8). rewrite Z.land_ones by lia.
  rewrite Z.shiftr_div_pow2 by lia. unfold byte_of.
  rewrite (Z.mul_comm (Z.of_nat n) 8), Z.pow_mul_r by lia. reflexivity.
Qed.

Lemma integer2byte_loop_iff : forall size v n bs,
  integer2byte_loop v n size = Ok bs <->
  (size = 0%nat \/ (n + size <= 4)%nat)
  /\ bs = rev (map (fun k => byte_of v (Z.of_nat k)) (seq n size)).
Proof.
  induction size as [|size IH]; intros v n bs; cbn [integer2byte_loop seq map rev].
  - split; [intros H; injection H as <-; auto | intros (_ & ->); reflexivity].
  - unfold int_shr.
    destruct ((Z.of_nat n * 8 <? 0) || (32 <=? Z.of_nat n * 8)) eqn:E; cbn [bind].
    + split; [discriminate|]. intros ([?|?] & _); lia.
    + rewrite shiftr_byte.
      destruct (integer2byte_loop v (S n) size) as [rest|u] eqn:El; cbn [bind].
      * apply IH in El. destruct El as [H1 ->]. split.
        -- intros H. injection H as <-. split; [lia | reflexivity].
        -- intros (_ & ->). reflexivity.
      * split; [discriminate|]. intros (H & _).
        assert (integer2byte_loop v (S n) size
                = Ok (rev (map (fun k => byte_of v (Z.of_nat k)) (seq (S n) size)))) as K.
        { apply IH. split; [lia|reflexivity]. }
        rewrite K in El. discriminate.
Qed.

Lemma integer2byte_iff : forall v size bs,
  uecho_integer2byte v size = Ok bs <->
  (size <= 4)%nat /\ bs = rev (map (fun k => byte_of v (Z.of_nat k)) (seq 0 size)).
Proof.
  intros. unfold uecho_integer2byte. rewrite integer2byte_loop_iff. split; intros (? & ?); split; auto; lia.
Qed.

Lemma byte_of_range : forall v k, is_byte (byte_of v k).
Proof. intros. unfold is_byte, byte_of. apply Z.mod_pos_bound. lia. Qed.

Lemma integer2byte_3 : forall v,
  uecho_integer2byte v 3 = Ok [byte_of v 2; byte_of v 1; byte_of v 0].
Proof. intros. apply integer2byte_iff. split; [lia|reflexivity]. Qed.

Lemma le_val_bytes : forall size v,
  le_val (map (fun k => byte_of v (Z.of_nat k)) (seq 0 size)) = v mod 256 ^ Z.of_nat size.
Proof.
  assert (G : forall size n v,
    256 ^ Z.of_nat n * le_val (map (fun k => byte_of v (Z.of_nat k)) (seq n size))
    = v mod 256 ^ Z.of_nat (n + size) - v mod 256 ^ Z.of_nat n).
  { induction size as [|size IH]; intros n v.
    - cbn [seq map le_val]. rewrite Nat.add_0_r. lia.
    - cbn [seq map le_val].
      replace (n + S size)%nat with (S n + size)%nat by lia.
      assert (Hp : 256 ^ Z.of_nat (S n) = 256 * 256 ^ Z.of_nat n)
        by (rewrite Nat2Z.inj_succ, Z.pow_succ_r by lia; reflexivity).
      specialize (IH (S n) v). rewrite Hp in IH.
      set (L := le_val (map (fun k => byte_of v (Z.of_nat k)) (seq (S n) size))) in *.
      assert (Hpos : 0 < 256 ^ Z.of_nat n) by (apply Z.pow_pos_nonneg; lia).
      assert (Hm : v mod (256 * 256 ^ Z.of_nat n)
                   = 256 ^ Z.of_nat n * byte_of v (Z.of_nat n) + v mod 256 ^ Z.of_nat n).
      { unfold byte_of. rewrite (Z.mul_comm 256). rewrite Z.rem_mul_r by lia. lia. }
      transitivity (256 ^ Z.of_nat n * byte_of v (Z.of_nat n) + 256 * 256 ^ Z.of_nat n * L); [ring|].
      rewrite IH, Hm. lia. }
  intros size v. specialize (G size 0%nat v). change (256 ^ Z.of_nat 0) with 1 in G.
  rewrite Z.mod_1_r in G. cbn [Nat.add] in G. lia.
Qed.

Lemma be_val_bytes : forall size v,
  be_val (rev (map (fun k => byte_of v (Z.of_nat k)) (seq 0 size))) = v mod 256 ^ Z.of_nat size.
Proof. intros. unfold be_val. rewrite rev_involutive. apply le_val_bytes. Qed.

Lemma bytes_ok_bytes : forall size v,
  bytes_ok (rev (map (fun k => byte_of v (Z.of_nat k)) (seq 0 size))).
Proof.
  intros. apply bytes_ok_rev. unfold bytes_ok. apply Forall_forall. intros x Hx.
  apply in_map_iff in Hx. destruct Hx as (k & <- & _). apply byte_of_range.
Qed.

(* decoding an encoded integer *)
Lemma int_roundtrip : forall v size bs,
  uecho_integer2byte v size = Ok bs ->
  v mod 256 ^ Z.of_nat size <= INT_MAX ->
  uecho_byte2integer bs = Ok (v mod 256 ^ Z.of_nat size).
Proof.
  intros v size bs H Hm. apply integer2byte_iff in H. destruct H as [Hs ->].
  apply byte2integer_iff; [apply bytes_ok_bytes|].
  rewrite rev_length, map_length, seq_length, be_val_bytes. auto.
Qed.

Lemma bytes_of_be3 : forall a b c, is_byte a -> is_byte b -> is_byte c ->
  uecho_integer2byte (a * 65536 + b * 256 + c) 3 = Ok [a; b; c].
Proof.
  intros a b c Ha Hb Hc. rewrite integer2byte_3. unfold byte_of, is_byte in *.
  change (256 ^ 2) with 65536. change (256 ^ 1) with 256. change (256 ^ 0) with 1.
  f_equal. f_equal; [lia|]. f_equal; [lia|]. f_equal; lia.
Qed.
