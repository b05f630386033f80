(* Basic lemmas about the C semantics layer. *)
From Coq Require Import ZArith List Bool Lia ZifyBool ZifyNat.
From Verif Require Import CSem.
Import ListNotations.
Open Scope Z_scope.
Ltac Zify.zify_post_hook ::= Z.div_mod_to_equations.

(* no object is larger than PTRDIFF_MAX bytes *)
Definition PTRDIFF_MAX : Z := 9223372036854775807.

Lemma len_nil : forall A, len (@nil A) = 0.
Proof. reflexivity. Qed.

Lemma len_cons : forall A (a : A) l, len (a :: l) = 1 + len l.
Proof. intros. unfold len. cbn [length]. lia. Qed.

Lemma len_app : forall A (l l' : list A), len (l ++ l') = len l + len l'.
Proof. intros. unfold len. rewrite app_length. lia. Qed.

Lemma len_nonneg : forall A (l : list A), 0 <= len l.
Proof. intros. unfold len. lia. Qed.

Lemma len_map : forall A B (f : A -> B) l, len (map f l) = len l.
Proof. intros. unfold len. rewrite map_length. reflexivity. Qed.

Lemma len_repeat : forall A (a : A) n, len (repeat a n) = Z.of_nat n.
Proof. intros. unfold len. rewrite repeat_length. reflexivity. Qed.

Lemma to_nat_len : forall A (l : list A), Z.to_nat (len l) = length l.
Proof. intros. unfold len. lia. Qed.

Lemma len_0_nil : forall A (l : list A), len l = 0 -> l = [].
Proof. intros A [|a l] H; [reflexivity | rewrite len_cons in H; pose proof (len_nonneg _ l); lia]. Qed.

Lemma bind_ok : forall A B (x : res A) (f : A -> res B) b,
  bind x f = Ok b <-> exists a, x = Ok a /\ f a = Ok b.
Proof.
  intros A B [a|u] f b; cbn [bind]; split.
  - intros H. exists a. auto.
  - intros (a' & E & H). injection E as ->. exact H.
  - discriminate.
  - intros (a' & E & H). discriminate.
Qed.

Lemma sz_small : forall z, 0 <= z < SIZE_MOD -> sz z = z.
Proof. intros. unfold sz. apply Z.mod_small. assumption. Qed.

Lemma rd_app_cons : forall A (pre : list A) b bs i,
  i = len pre -> rd (pre ++ b :: bs) i = Ok b.
Proof.
  intros A pre b bs i ->. unfold rd.
  pose proof (len_nonneg _ pre). destruct (Z.ltb_spec (len pre) 0); [lia|].
  rewrite to_nat_len, nth_error_app2, Nat.sub_diag by lia. reflexivity.
Qed.

Lemma rd_in : forall A (l : list A) i, 0 <= i < len l -> exists b, rd l i = Ok b /\ nth_error l (Z.to_nat i) = Some b.
Proof.
  intros A l i H. unfold rd. destruct (Z.ltb_spec i 0); [lia|].
  destruct (nth_error l (Z.to_nat i)) eqn:E; eauto.
  apply nth_error_None in E. unfold len in H. lia.
Qed.

Lemma rd_ok_iff : forall A (l : list A) i b,
  rd l i = Ok b <-> 0 <= i /\ nth_error l (Z.to_nat i) = Some b.
Proof.
  intros A l i b. unfold rd. destruct (Z.ltb_spec i 0).
  - split; [discriminate | lia].
  - destruct (nth_error l (Z.to_nat i)); split; intros H'.
    + injection H' as ->; auto.
    + destruct H' as [_ H']; injection H' as ->; reflexivity.
    + discriminate.
    + destruct H'; discriminate.
Qed.

Lemma rd_range_app : forall A (pre mid post : list A) i n,
  i = len pre -> n = len mid -> rd_range (pre ++ mid ++ post) i n = Ok mid.
Proof.
  intros A pre mid post i n -> ->. unfold rd_range.
  destruct (Z.eqb_spec (len mid) 0) as [E|E].
  - apply len_0_nil in E. subst mid. reflexivity.
  - pose proof (len_nonneg _ pre). pose proof (len_nonneg _ mid). pose proof (len_nonneg _ post).
    rewrite !len_app.
    replace ((0 <=? len pre) && (0 <? len mid) && (len pre + len mid <=? len pre + (len mid + len post)))
      with true by lia.
    f_equal. rewrite !to_nat_len.
    rewrite skipn_app, skipn_all, Nat.sub_diag. cbn [skipn app].
    rewrite firstn_app, firstn_all, Nat.sub_diag. cbn [firstn]. apply app_nil_r.
Qed.

Lemma wr_app_cons : forall A (pre : list A) b b' bs i,
  i = len pre -> wr (pre ++ b :: bs) i b' = Ok (pre ++ b' :: bs).
Proof.
  intros A pre b b' bs i ->. unfold wr.
  pose proof (len_nonneg _ pre). pose proof (len_nonneg _ bs).
  rewrite len_app, len_cons.
  replace ((0 <=? len pre) && (len pre <? len pre + (1 + len bs))) with true by lia.
  f_equal. rewrite to_nat_len.
  replace (Z.to_nat (len pre + 1)) with (length pre + 1)%nat by (unfold len; lia).
  rewrite firstn_app, firstn_all, Nat.sub_diag. cbn [firstn]. rewrite app_nil_r.
  rewrite skipn_app. rewrite skipn_all2 by lia.
  replace (length pre + 1 - length pre)%nat with 1%nat by lia.
  reflexivity.
Qed.

Lemma wr_range_app : forall A (pre mid post src : list A) i,
  i = len pre -> len src = len mid -> wr_range (pre ++ mid ++ post) i src = Ok (pre ++ src ++ post).
Proof.
  intros A pre mid post src i -> E. unfold wr_range.
  pose proof (len_nonneg _ pre). pose proof (len_nonneg _ mid). pose proof (len_nonneg _ post).
  destruct (Z.eqb_spec (len src) 0) as [E0|E0].
  - assert (src = []) by (apply len_0_nil; lia).
    assert (mid = []) by (apply len_0_nil; lia). subst. reflexivity.
  - rewrite !len_app.
    replace ((0 <=? len pre) && (len pre + len src <=? len pre + (len mid + len post))) with true by lia.
    f_equal. rewrite to_nat_len.
    replace (Z.to_nat (len pre + len src)) with (length pre + length mid)%nat by (unfold len in *; lia).
    rewrite firstn_app, firstn_all, Nat.sub_diag. cbn [firstn]. rewrite app_nil_r.
    do 2 f_equal.
    rewrite skipn_app, skipn_all2 by lia.
    replace (length pre + length mid - length pre)%nat with (length mid) by lia.
    rewrite skipn_app, skipn_all, Nat.sub_diag. reflexivity.
Qed.

Lemma wr_inv : forall A (l : list A) i b l', wr l i b = Ok l' ->
  exists pre c post, l = pre ++ c :: post /\ len pre = i /\ l' = pre ++ b :: post.
Proof.
  intros A l i b l' H. unfold wr in H.
  destruct ((0 <=? i) && (i <? len l)) eqn:E; [|discriminate].
  injection H as <-.
  assert (Hi : 0 <= i < len l) by lia.
  destruct (nth_error l (Z.to_nat i)) as [c|] eqn:En.
  2:{ apply nth_error_None in En. unfold len in Hi. lia. }
  apply nth_error_split in En. destruct En as (pre & post & -> & Hl).
  exists pre, c, post. repeat split.
  - unfold len; lia.
  - replace (Z.to_nat i) with (length pre) by lia.
    replace (Z.to_nat (i + 1)) with (length pre + 1)%nat by lia.
    rewrite firstn_app, firstn_all, Nat.sub_diag. cbn [firstn]. rewrite app_nil_r.
    rewrite skipn_app. rewrite skipn_all2 by lia.
    replace (length pre + 1 - length pre)%nat with 1%nat by lia. reflexivity.
Qed.

Lemma wr_len : forall A (l : list A) i b l', wr l i b = Ok l' -> len l' = len l.
Proof.
  intros A l i b l' H. apply wr_inv in H. destruct H as (pre & c & post & -> & _ & ->).
  rewrite !len_app, !len_cons. reflexivity.
Qed.

Lemma wr_total : forall A (l : list A) i b, 0 <= i < len l -> exists l', wr l i b = Ok l'.
Proof.
  intros. unfold wr. replace ((0 <=? i) && (i <? len l)) with true by lia. eauto.
Qed.

Lemma init_bytes_map_Some : forall l, init_bytes (map Some l) = Ok l.
Proof. induction l as [|b l IH]; cbn [map init_bytes]; [reflexivity|]. rewrite IH. reflexivity. Qed.

Lemma bytes_ok_app : forall a b, bytes_ok (a ++ b) <-> bytes_ok a /\ bytes_ok b.
Proof. intros. unfold bytes_ok. apply Forall_app. Qed.

Lemma bytes_ok_cons : forall a b, bytes_ok (a :: b) <-> is_byte a /\ bytes_ok b.
Proof. intros. unfold bytes_ok. split; [intros H; inversion H; auto | intros [? ?]; constructor; auto]. Qed.

Lemma to_byte_range : forall z, is_byte (to_byte z).
Proof. intros. unfold is_byte, to_byte. apply Z.mod_pos_bound. lia. Qed.

Lemma to_byte_id : forall z, is_byte z -> to_byte z = z.
Proof. intros. unfold is_byte, to_byte in *. apply Z.mod_small. lia. Qed.
