(* Lemmas about the example programs uechosearch and uechodump. *)
From Coq Require Import String Ascii ZArith List Bool Lia ZifyBool ZifyNat.
From Verif Require Import CSem Spec_Frame Spec_Controller Spec_Node M_Object M_Node M_PostTool M_ShowTool Spec_PostTool Spec_ShowTool P_Base.
Import ListNotations.
Open Scope Z_scope.
Ltac Zify.zify_post_hook ::= Z.div_mod_to_equations.

(* ---- numbers ---- *)

Lemma text_value_app : forall b t c, text_value b (t ++ [c]) = b * text_value b t + digit_value c.
Proof. intros b t c. unfold text_value. rewrite fold_left_app. reflexivity. Qed.

Lemma text_value_zeros : forall b k t, text_value b (repeat 48 k ++ t) = text_value b t.
Proof.
  intros b k t. unfold text_value. rewrite fold_left_app. f_equal. induction k as [|k IH]; [reflexivity|].
  cbn [repeat fold_left]. change (digit_value 48) with 0. rewrite Z.mul_0_r. exact IH.
Qed.

Definition good_digit (base c : Z) : Prop := (48 <= c <= 57 \/ 65 <= c <= 70) /\ 0 <= digit_value c < base.

Lemma hexdig_ok : forall d, 0 <= d < 16 -> good_digit 16 (hexdig d) /\ digit_value (hexdig d) = d.
Proof. intros d H. unfold good_digit, digit_value, hexdig. destruct (Z.ltb_spec d 10); [rewrite (proj2 (Z.leb_le (48 + d) 57)) by lia|rewrite (proj2 (Z.leb_gt (55 + d) 57)) by lia]; lia. Qed.

Lemma hexdig_nz : forall d, 0 < d < 16 -> hexdig d <> 48.
Proof. intros d H. unfold hexdig. destruct (Z.ltb_spec d 10); lia. Qed.

Lemma to_hex_number : forall f v, 0 <= v < 16 ^ Z.of_nat f -> (1 <= f)%nat ->
  to_hex f v <> [] /\ Forall (good_digit 16) (to_hex f v) /\ text_value 16 (to_hex f v) = v
  /\ ((1 < length (to_hex f v))%nat -> hd 0 (to_hex f v) <> 48).
Proof.
  induction f as [|f IH]; intros v V F; [lia|]. cbn [to_hex].
  destruct (hexdig_ok (v mod 16)) as [G D]; [lia|]. rewrite text_value_app, D.
  split; [destruct (v <? 16); [discriminate|]; intro E; apply app_eq_nil in E; destruct E; discriminate|].
  destruct (Z.ltb_spec v 16) as [L|L].
  - split; [constructor; [exact G|constructor]|]. split; [change (text_value 16 []) with 0; lia|]. cbn [app length]. lia.
  - assert (Hf : (1 <= f)%nat) by (destruct f; [change (16 ^ Z.of_nat 1) with 16 in V; lia|lia]).
    assert (V' : 0 <= v / 16 < 16 ^ Z.of_nat f).
    { replace (16 ^ Z.of_nat (S f)) with (16 * 16 ^ Z.of_nat f) in V by (rewrite Nat2Z.inj_succ, Z.pow_succ_r by lia; reflexivity). lia. }
    destruct (IH (v / 16) V' Hf) as (N & Fo & T & H).
    split; [apply Forall_app; split; [exact Fo|constructor; [exact G|constructor]]|]. split; [lia|]. intros _.
    destruct (to_hex f (v / 16)) as [|x r] eqn:E; [contradiction|]. cbn [app hd] in *. destruct r as [|y r]; [|apply H; cbn [length]; lia].
    unfold text_value in T. cbn [fold_left] in T. inversion Fo as [|? ? [Gx _] _]; subst. intros ->. change (digit_value 48) with 0 in T. lia.
Qed.

Lemma fmt_X_number : forall w v, (1 <= w)%nat -> 0 <= v < 4294967296 -> number 16 w (fmt_X w v) v.
Proof.
  intros w v W V. destruct (to_hex_number 8 v) as (N & F & T & H); [change (16 ^ Z.of_nat 8) with 4294967296; lia|lia|].
  unfold fmt_X. set (d := to_hex 8 v) in *. clearbody d. unfold number. rewrite text_value_zeros, app_length, repeat_length.
  split; [intro E; apply app_eq_nil in E; destruct E; contradiction|].
  split; [apply Forall_app; split; [|exact F]; apply Forall_forall; intros c I; apply repeat_spec in I; subst c; unfold digit_value; cbn; lia|].
  split; [exact T|]. split; [lia|]. intros L. replace (w - length d)%nat with 0%nat by lia. cbn [repeat app]. apply H. lia.
Qed.

Lemma to_dec_number : forall f v, 0 <= v < 10 ^ Z.of_nat f -> (1 <= f)%nat ->
  to_dec f v <> [] /\ Forall (good_digit 10) (to_dec f v) /\ text_value 10 (to_dec f v) = v
  /\ ((1 < length (to_dec f v))%nat -> hd 0 (to_dec f v) <> 48).
Proof.
  induction f as [|f IH]; intros v V F; [lia|]. cbn [to_dec].
  assert (G : good_digit 10 (48 + v mod 10) /\ digit_value (48 + v mod 10) = v mod 10).
  { unfold good_digit, digit_value. rewrite (proj2 (Z.leb_le (48 + v mod 10) 57)) by lia. lia. }
  destruct G as [G D]. rewrite text_value_app, D.
  split; [destruct (v <? 10); [discriminate|]; intro E; apply app_eq_nil in E; destruct E; discriminate|].
  destruct (Z.ltb_spec v 10) as [L|L].
  - split; [constructor; [exact G|constructor]|]. split; [change (text_value 10 []) with 0; lia|]. cbn [app length]. lia.
  - assert (Hf : (1 <= f)%nat) by (destruct f; [change (10 ^ Z.of_nat 1) with 10 in V; lia|lia]).
    assert (V' : 0 <= v / 10 < 10 ^ Z.of_nat f).
    { replace (10 ^ Z.of_nat (S f)) with (10 * 10 ^ Z.of_nat f) in V by (rewrite Nat2Z.inj_succ, Z.pow_succ_r by lia; reflexivity). lia. }
    destruct (IH (v / 10) V' Hf) as (N & Fo & T & H).
    split; [apply Forall_app; split; [exact Fo|constructor; [exact G|constructor]]|]. split; [lia|]. intros _.
    destruct (to_dec f (v / 10)) as [|x r] eqn:E; [contradiction|]. cbn [app hd] in *. destruct r as [|y r]; [|apply H; cbn [length]; lia].
    unfold text_value in T. cbn [fold_left] in T. inversion Fo as [|? ? [Gx _] _]; subst. intros ->. change (digit_value 48) with 0 in T. lia.
Qed.

Lemma fmt_d_number : forall v, 0 <= v < 10 ^ 20 -> number 10 1 (fmt_d v) v.
Proof.
  intros v V. destruct (to_dec_number 20 v) as (N & F & T & H); [exact V|lia|]. unfold fmt_d. set (d := to_dec 20 v) in *. clearbody d.
  unfold number. split; [exact N|]. split; [exact F|]. split; [exact T|]. split; [destruct d; [contradiction|cbn [length]; lia]|exact H].
Qed.

(* ---- reading texts back ---- *)

Definition none (s : Z) (l : list Z) : Prop := Forall (fun c => c <> s) l.

Lemma cut : forall s l1 l2 r1 r2, none s l1 -> none s l2 -> l1 ++ s :: r1 = l2 ++ s :: r2 -> l1 = l2 /\ r1 = r2.
Proof.
  intros s. induction l1 as [|x l1 IH]; intros [|y l2] r1 r2 N1 N2 E; cbn [app] in E.
  - injection E as ->. auto.
  - injection E as <- _. inversion N2; subst. contradiction.
  - injection E as -> _. inversion N1; subst. contradiction.
  - injection E as <- E. inversion N1; subst. inversion N2; subst. destruct (IH l2 r1 r2) as [-> ->]; auto.
Qed.

Lemma number_none : forall b w t v s, number b w t v -> s < 48 \/ 57 < s < 65 \/ 70 < s -> none s t.
Proof. intros b w t v s (_ & F & _) S. eapply Forall_impl; [|exact F]. intros c [C _] ->. lia. Qed.

Lemma chars_inj : forall s s', chars s = chars s' -> s = s'.
Proof.
  induction s as [|c s IH]; intros [|c' s'] E; try reflexivity; try discriminate. cbn [chars] in E. injection E as E1 E2.
  f_equal; [|apply IH; exact E2]. apply N2Z.inj in E1. rewrite <- (ascii_N_embedding c), <- (ascii_N_embedding c'), E1. reflexivity.
Qed.

Lemma items_read : forall i es t r i' es' t' r', object_items i es t -> object_items i' es' t' ->
  Forall eoj_ok es -> Forall eoj_ok es' -> t ++ 10 :: r = t' ++ 10 :: r' -> es = es' /\ r = r'.
Proof.
  intros i es t r i' es' t' r' H. revert i' es' t' r r'. induction H as [i|i e es t u I H IH]; intros i' es' t' r r' H' O O' E.
  - destruct H' as [|? ? ? ? ? (d & h & _ & _ & ->) _]; [injection E as ->; auto|discriminate].
  - destruct I as (d & h & D & Hh & ->). destruct H' as [|i' e' es' t' u' (d' & h' & D' & Hh' & ->) H']; [discriminate|].
    inversion O as [|? ? O1 O2]; subst. inversion O' as [|? ? O1' O2']; subst.
    rewrite <- !app_assoc in E. cbn [app] in E. injection E as E.
    apply cut in E; [|eapply number_none; [exact D|lia]|eapply number_none; [exact D'|lia]]. destruct E as [_ E]. injection E as E.
    apply cut in E; [|eapply number_none; [exact Hh|lia]|eapply number_none; [exact Hh'|lia]]. destruct E as [<- E].
    destruct (IH _ _ _ _ _ H' O2 O2' E) as [-> ->]. split; [|reflexivity]. f_equal.
    destruct Hh as (_ & _ & V & _), Hh' as (_ & _ & V' & _). rewrite V in V'.
    destruct e as [[a b] c], e' as [[a' b'] c']. destruct O1 as (? & ? & ?), O1' as (? & ? & ?). unfold byte_val, eoj_code in *. f_equal; [f_equal|]; lia.
Qed.

Lemma lead : forall (l l' : list Z) k k' r r', none 32 l -> none 32 l' -> k = (15 - length l)%nat -> k' = (15 - length l')%nat ->
  l ++ repeat 32 k ++ 32 :: r = l' ++ repeat 32 k' ++ 32 :: r' -> l = l' /\ r = r'.
Proof.
  intros l l' k k' r r' N N' K K' E.
  assert (Q : forall n x, exists y, repeat 32 n ++ 32 :: x = 32 :: y) by (intros [|n] x; cbn; eauto).
  destruct (Q k r) as [y Y], (Q k' r') as [y' Y']. rewrite Y, Y' in E. apply cut in E; [|assumption..]. destruct E as [<- ->]. split; [reflexivity|].
  rewrite <- Y in Y'. rewrite K, K' in Y'. apply app_inv_head in Y'. injection Y' as ->. reflexivity.
Qed.

Lemma listing_read : forall tb t tb' t', listing tb t -> listing tb' t' ->
  Forall (fun x => plain (fst x) /\ Forall eoj_ok (snd x)) tb -> Forall (fun x => plain (fst x) /\ Forall eoj_ok (snd x)) tb' ->
  t = t' -> tb = tb'.
Proof.
  assert (P : forall a, plain a -> none 32 (chars a)) by (intros a; apply Forall_impl; intros c; lia).
  intros tb t tb' t' H. revert tb' t'. induction H as [|[a es] tb t u D H IH]; intros tb' t' H' W W' E.
  - destruct H' as [|[a' es'] tb' t' u' (v' & _ & ->) _]; [reflexivity|]. cbn [fst snd] in *. rewrite <- !app_assoc in E. destruct (chars a'); [|discriminate].
    destruct (15 - length (@nil Z))%nat; discriminate.
  - destruct D as (v & O & ->). cbn [fst snd] in *. destruct H' as [|[a' es'] tb' t' u' (v' & O' & ->) H']; cbn [fst snd] in *.
    + rewrite <- !app_assoc in E. destruct (chars a); [|discriminate]. destruct (15 - length (@nil Z))%nat; discriminate.
    + inversion W as [|? ? [W1 W2] W3]; subst. inversion W' as [|? ? [W1' W2'] W3']; subst. cbn [fst snd] in *.
      rewrite <- !app_assoc in E. cbn [app] in E.
      apply lead in E; [|apply P; assumption|apply P; assumption|reflexivity|reflexivity]. destruct E as [Ea E].
      apply chars_inj in Ea. subst a'. destruct (items_read _ _ _ _ _ _ _ _ O O' W2 W2' E) as [-> ->].
      f_equal. eapply IH; eauto.
Qed.

Lemma print_objects_items : forall os i, 0 <= i -> i + Z.of_nat (length os) < 10 ^ 20 ->
  Forall (fun o => byte_val (o_grp o) /\ byte_val (o_cls o) /\ byte_val (o_ins o)) os ->
  (forall o, In o os -> uecho_object_getcode o = eoj_code (o_grp o, o_cls o, o_ins o)) ->
  object_items i (map (fun o => (o_grp o, o_cls o, o_ins o)) os) (print_objects os i).
Proof.
  induction os as [|o os IH]; intros i I L F C; cbn [map print_objects]; [constructor|].
  inversion F as [|? ? (G1 & G2 & G3) F']; subst. cbn [length] in L.
  replace ([91] ++ fmt_d i ++ [93; 32] ++ fmt_X 6 (uecho_object_getcode o) ++ [32] ++ print_objects os (i + 1))
    with (([91] ++ fmt_d i ++ [93; 32] ++ fmt_X 6 (uecho_object_getcode o) ++ [32]) ++ print_objects os (i + 1)) by (rewrite <- !app_assoc; reflexivity).
  constructor; [|apply IH; [lia|lia|exact F'|intros; apply C; right; assumption]].
  exists (fmt_d i), (fmt_X 6 (uecho_object_getcode o)). split; [apply fmt_d_number; lia|]. split; [|reflexivity].
  rewrite (C o (or_introl eq_refl)). apply fmt_X_number; [lia|]. unfold byte_val, eoj_code in *. lia.
Qed.

(* ---- lines of frames ---- *)

Lemma fold_ge : forall t a, 0 <= a -> Forall (fun c => 0 <= digit_value c) t -> a <= fold_left (fun x c => 16 * x + digit_value c) t a.
Proof.
  induction t as [|c t IH]; intros a A F; cbn [fold_left]; [lia|]. inversion F; subst.
  etransitivity; [|apply IH; [lia|assumption]]. lia.
Qed.

Lemma two_digits : forall h c, number 16 2 h c -> c < 256 -> length h = 2%nat.
Proof.
  intros h c (_ & F & V & L & Z0) C. destruct h as [|x [|y [|z r]]]; cbn [length] in *; try lia.
  specialize (Z0 ltac:(lia)). cbn [hd] in Z0. inversion F as [|? ? [X1 X2] F1]; subst. inversion F1 as [|? ? [Y1 Y2] F2]; subst. inversion F2 as [|? ? [U1 U2] F3]; subst.
  unfold text_value in C. cbn [fold_left] in C.
  assert (1 <= digit_value x) by (unfold digit_value in *; destruct (Z.leb_spec x 57); lia).
  pose proof (fold_ge r (16 * (16 * (16 * 0 + digit_value x) + digit_value y) + digit_value z) ltac:(lia)) as G.
  assert (Fr : Forall (fun c => 0 <= digit_value c) r) by (eapply Forall_impl; [|exact F3]; intros ? [_ ?]; lia). specialize (G Fr). lia.
Qed.

Lemma codes_read : forall cs hs cs' hs' r r', Forall2 (fun c h => number 16 2 h c) cs hs -> Forall2 (fun c h => number 16 2 h c) cs' hs' ->
  Forall (fun c => c < 256) cs -> Forall (fun c => c < 256) cs' -> length cs = length cs' -> concat hs ++ r = concat hs' ++ r' -> cs = cs' /\ r = r'.
Proof.
  intros cs hs cs' hs' r r' H. revert cs' hs' r r'. induction H as [|c h cs hs N H IH]; intros cs' hs' r r' H' B B' L E.
  - destruct H'; [auto|discriminate].
  - destruct H' as [|c' h' cs' hs' N' H']; [discriminate|]. inversion B; subst. inversion B'; subst. cbn [length concat] in *.
    rewrite <- !app_assoc in E. pose proof (two_digits _ _ N ltac:(assumption)) as D. pose proof (two_digits _ _ N' ltac:(assumption)) as D'.
    destruct h as [|x [|y [|]]]; try discriminate. destruct h' as [|x' [|y' [|]]]; try discriminate. cbn [app] in E. injection E as -> -> E.
    destruct (IH _ _ _ _ H' ltac:(assumption) ltac:(assumption) ltac:(lia) E) as [-> ->]. split; [|reflexivity]. f_equal.
    destruct N as (_ & _ & V & _), N' as (_ & _ & V' & _). congruence.
Qed.

Lemma tid_inj : forall le t t', byte_val (fst t) -> byte_val (snd t) -> byte_val (fst t') -> byte_val (snd t') -> tid_number le t = tid_number le t' -> t = t'.
Proof. intros le [a b] [a' b'] ? ? ? ? E. unfold byte_val, tid_number in *. cbn [fst snd] in *. destruct le; f_equal; lia. Qed.

Lemma shown_bytes : forall f, frame_ok f -> Forall (fun c => c < 256) (shown_codes f).
Proof.
  intros f (_ & _ & _ & _ & _ & B). unfold shown_codes. destruct (f_body f) as [ps|ss gs]; [|constructor]. destruct B as (_ & B & _).
  apply Forall_forall. intros c I. apply in_map_iff in I. destruct I as ([k d] & <- & I). rewrite Forall_forall in B. apply B in I. destruct I as (I & _).
  unfold byte_val in I. cbn [fst] in *. lia.
Qed.

Lemma frame_line_read : forall le a f a' f' t r r', frame_ok f -> frame_ok f' -> plain a -> plain a' ->
  frame_line le a f t -> forall t', frame_line le a' f' t' -> t ++ r = t' ++ r' ->
  (a = a' /\ f_tid f = f_tid f' /\ f_seoj f = f_seoj f' /\ f_deoj f = f_deoj f' /\ f_esv f = f_esv f' /\ shown_codes f = shown_codes f') /\ r = r'.
Proof.
  assert (P : forall a, plain a -> none 32 (chars a)) by (intros a; apply Forall_impl; intros c; lia).
  intros le a f a' f' t r r' F F' Pa Pa' (ti & so & de & es & n & cs & T & S & D & E & N & C & ->) t' (ti' & so' & de' & es' & n' & cs' & T' & S' & D' & E' & N' & C' & ->) Q.
  rewrite <- !app_assoc in Q. cbn [app] in Q.
  apply cut in Q; [|apply P; assumption..]. destruct Q as [Qa Q]. apply chars_inj in Qa. subst a'. injection Q as Q.
  assert (K : forall b w x v, number b w x v -> none 32 x) by (intros; eapply number_none; [eassumption|lia]).
  apply cut in Q; [|eapply K; eassumption..]. destruct Q as [<- Q]. apply cut in Q; [|eapply K; eassumption..]. destruct Q as [<- Q].
  apply cut in Q; [|eapply K; eassumption..]. destruct Q as [<- Q]. apply cut in Q; [|eapply K; eassumption..]. destruct Q as [<- Q].
  apply cut in Q; [|eapply K; eassumption..]. destruct Q as [<- Q].
  assert (V : forall b w w' x v v', number b w x v -> number b w' x v' -> v = v') by (intros ? ? ? ? ? ? (_ & _ & ? & _) (_ & _ & ? & _); congruence).
  pose proof (V _ _ _ _ _ _ N N') as L. apply Nat2Z.inj in L.
  destruct (codes_read _ _ _ _ _ _ C C' (shown_bytes _ F) (shown_bytes _ F') L Q) as [Qc Q']. injection Q' as ->.
  split; [|reflexivity]. destruct F as (T1 & T2 & X1 & X2 & _), F' as (T1' & T2' & X1' & X2' & _).
  split; [reflexivity|]. split; [eapply tid_inj; [eassumption..|eapply V; eassumption]|].
  assert (J : forall e e', eoj_ok e -> eoj_ok e' -> eoj_code e = eoj_code e' -> e = e').
  { intros [[x y] z] [[x' y'] z'] (? & ? & ?) (? & ? & ?) ?. unfold byte_val, eoj_code in *. f_equal; [f_equal|]; lia. }
  split; [apply J; [assumption..|eapply V; eassumption]|]. split; [apply J; [assumption..|eapply V; eassumption]|].
  split; [eapply V; eassumption|exact Qc].
Qed.
