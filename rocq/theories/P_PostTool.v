(* uechopost: scanning and printing. *)
From Coq Require Import String ZArith List Bool Lia ZifyBool ZifyNat.
From Verif Require Import CSem M_Const M_Misc M_Property M_Message M_PropertyList M_Object M_Node M_NodeListener M_Controller M_Query M_PostTool
  Spec_Frame Spec_Message Spec_PostTool P_Base P_Misc P_Message P_Encode P_MsgApi.
Import ListNotations.
Open Scope Z_scope.
Ltac Zify.zify_post_hook ::= Z.div_mod_to_equations.

Lemma digit_hexval : forall c d, digit_of c d -> hexval c = Some d /\ 0 <= d < 16 /\ is_space c = false /\ c <> 43 /\ c <> 45 /\ c <> 120 /\ c <> 88.
Proof.
  intros c d D. unfold digit_of in D. unfold hexval, is_space.
  destruct D as [[H ->]|[[H ->]|[H ->]]].
  - replace ((48 <=? c) && (c <=? 57)) with true by lia. split; [reflexivity|]. lia.
  - replace ((48 <=? c) && (c <=? 57)) with false by lia. replace ((65 <=? c) && (c <=? 70)) with true by lia. split; [f_equal; lia|]. lia.
  - replace ((48 <=? c) && (c <=? 57)) with false by lia. replace ((65 <=? c) && (c <=? 70)) with false by lia.
    replace ((97 <=? c) && (c <=? 102)) with true by lia. split; [f_equal; lia|]. lia.
Qed.

Lemma scan_byte : forall c1 c2 h l r, digit_of c1 h -> digit_of c2 l -> scan_x 2 (c1 :: c2 :: r) = Ok (Some (16 * h + l, r)).
Proof.
  intros c1 c2 h l r D1 D2. destruct (digit_hexval _ _ D1) as (H1 & R1 & S1 & P1 & M1 & _). destruct (digit_hexval _ _ D2) as (H2 & R2 & S2 & _ & _ & X1 & X2).
  unfold scan_x. cbn [skip_space]. rewrite S1. replace (c1 =? 43) with false by lia. replace (c1 =? 45) with false by lia.
  replace ((c1 =? 48) && ((c2 =? 120) || (c2 =? 88))) with false by lia. cbn [take_hex]. rewrite H1, H2.
  change (0 + 1 + 1 =? 0) with false. cbv iota. replace (4294967295 <? (0 * 16 + h) * 16 + l) with false by lia.
  unfold as_int, u32, INT_MAX. rewrite Z.mod_small by lia. replace ((0 * 16 + h) * 16 + l <=? 2147483647) with true by lia.
  do 3 f_equal. lia.
Qed.

(* numerals *)
Fixpoint horner (s : list Z) (acc : Z) : option Z :=
  match s with [] => Some acc | c :: r => match hexval c with Some d => horner r (acc * 16 + d) | None => None end end.
Lemma horner_app : forall s1 s2 a, horner (s1 ++ s2) a = match horner s1 a with Some b => horner s2 b | None => None end.
Proof. induction s1 as [|c s1 IH]; intros s2 a; [reflexivity|]. cbn [app horner]. destruct (hexval c); [apply IH|reflexivity]. Qed.
Lemma numeral_horner : forall t v, numeral t v -> horner t 0 = Some v /\ t <> [] /\ 0 <= v
  /\ (forall c r, t = c :: r -> exists d, digit_of c d) /\ Forall (fun c => exists d, digit_of c d) t.
Proof.
  intros t v N. induction N as [c d D|t v c d N (IH1 & IH2 & IH3 & IH4 & IH5) D].
  - destruct (digit_hexval _ _ D) as (H & R & _). cbn [horner]. rewrite H. split; [f_equal; lia|]. split; [discriminate|]. split; [lia|].
    split; [intros x r E; injection E as <- _; eauto|]. constructor; [eauto|constructor].
  - destruct (digit_hexval _ _ D) as (H & R & _). rewrite horner_app, IH1. cbn [horner]. rewrite H. split; [f_equal; lia|].
    split; [intro E; apply app_eq_nil in E; destruct E; discriminate|]. split; [lia|].
    split; [|apply Forall_app; split; [exact IH5|constructor; [eauto|constructor]]].
    intros x r E. destruct t as [|y t]; [contradiction|]. cbn [app] in E. injection E as -> _. eapply IH4. reflexivity.
Qed.
Lemma take_horner : forall s w k a v, (length s <= w)%nat -> horner s a = Some v -> take_hex w s k a = (k + len s, v, []).
Proof.
  induction s as [|c s IH]; intros w k a v L H; cbn [horner] in H.
  - injection H as ->. destruct w; cbn [take_hex]; unfold len; cbn [length]; do 2 f_equal; lia.
  - destruct w as [|w]; [cbn [length] in L; lia|]. cbn [take_hex]. destruct (hexval c); [|discriminate].
    rewrite (IH w _ _ v); [|cbn [length] in L; lia|exact H]. unfold len. cbn [length]. do 2 f_equal. lia.
Qed.

Lemma scan_number : forall t v old, numeral t v -> v <= INT_MAX -> scan_int t old = Ok v.
Proof.
  intros t v old N V. destruct (numeral_horner _ _ N) as (H & Nn & P & F & A). unfold scan_int.
  destruct t as [|c r]; [contradiction|]. destruct (F c r eq_refl) as (d & D).
  destruct (digit_hexval _ _ D) as (_ & _ & S1 & P1 & M1 & _).
  assert (X : scan_x (length (c :: r)) (c :: r) = Ok (Some (v, []))).
  2: { rewrite X. reflexivity. }
  unfold scan_x. cbn [skip_space]. rewrite S1. replace (c =? 43) with false by lia. replace (c =? 45) with false by lia.
  assert (T : take_hex (length (c :: r)) (c :: r) 0 0 = (0 + len (c :: r), v, [])) by (apply take_horner; [lia|exact H]).
  assert (Y : (match length (c :: r), c :: r with
     | S (S w2), z :: x :: r2 => if (z =? 48) && ((x =? 120) || (x =? 88)) then take_hex w2 r2 0 0 else take_hex (length (c :: r)) (c :: r) 0 0
     | _, _ => take_hex (length (c :: r)) (c :: r) 0 0 end) = (0 + len (c :: r), v, [])).
  { destruct r as [|x r]; [exact T|]. inversion A as [|? ? _ A1]; subst. inversion A1 as [|? ? (d2 & D2) _]; subst.
    destruct (digit_hexval _ _ D2) as (_ & _ & _ & _ & _ & X1 & X2). cbn [length].
    replace ((c =? 48) && ((x =? 120) || (x =? 88))) with false by lia. exact T. }
  cbn [length] in Y |- *. rewrite Y. rewrite len_cons. pose proof (len_nonneg _ r). replace (0 + (1 + len r) =? 0) with false by lia.
  unfold INT_MAX in *. replace (4294967295 <? v) with false by lia. unfold as_int, u32, INT_MAX. rewrite Z.mod_small by lia.
  replace (v <=? 2147483647) with true by lia. reflexivity.
Qed.

(* ---- texts of bytes ---- *)
Lemma spells_len : forall t bs, spells t bs -> length t = (2 * length bs)%nat.
Proof. intros t bs S. induction S; cbn [length]; lia. Qed.
Lemma spells_bytes : forall t bs, spells t bs -> bytes_ok bs.
Proof.
  intros t bs S. induction S as [|c1 c2 h l t bs D1 D2 S IH]; constructor; [|exact IH].
  destruct (digit_hexval _ _ D1) as (_ & R1 & _). destruct (digit_hexval _ _ D2) as (_ & R2 & _). unfold is_byte. lia.
Qed.

Lemma scan_one_byte : forall t b bs tail old, spells t (b :: bs) -> scan_one (t ++ tail) old = Ok b.
Proof.
  intros t b bs tail old S. inversion S as [|c1 c2 h l t' bs' D1 D2 S']; subst. unfold scan_one. cbn [app].
  rewrite (scan_byte c1 c2 h l _ D1 D2). reflexivity.
Qed.
Lemma scan_two_bytes : forall t e n bs tail o1 o2, spells t (e :: n :: bs) -> scan_two (t ++ tail) o1 o2 = Ok (e, n).
Proof.
  intros t e n bs tail o1 o2 S. inversion S as [|c1 c2 h l t' bs' D1 D2 S']; subst. unfold scan_two. cbn [app].
  rewrite (scan_byte c1 c2 h l _ D1 D2). cbn [bind]. rewrite (scan_one_byte t' n bs tail o2 S'). reflexivity.
Qed.
Lemma spells_skip : forall d t bs tail, spells t (d ++ bs) -> exists t', spells t' bs /\ skipn (2 * length d) (t ++ tail) = t' ++ tail.
Proof.
  induction d as [|x d IH]; intros t bs tail S.
  - exists t. split; [exact S|]. reflexivity.
  - cbn [app] in S. inversion S as [|c1 c2 h l t' bs' D1 D2 S']; subst. destruct (IH _ _ tail S') as (t'' & A & B).
    exists t''. split; [exact A|]. cbn [length]. replace (2 * Datatypes.S (length d))%nat with (Datatypes.S (Datatypes.S (2 * length d))) by lia.
    cbn [app skipn]. exact B.
Qed.

Lemma data_loop_ok : forall d t bs tail b, spells t (d ++ bs) -> exists b', data_loop (length d) (t ++ tail) b = Ok (d, b').
Proof.
  induction d as [|x d IH]; intros t bs tail b S; [exists b; reflexivity|]. cbn [length data_loop app] in *.
  rewrite (scan_one_byte t x (d ++ bs) tail b S). cbn [bind].
  destruct (spells_skip [x] t (d ++ bs) tail S) as (t' & S' & E). change (2 * length [x])%nat with 2%nat in E. rewrite E.
  destruct (IH t' bs tail x S') as (b' & E'). rewrite E'. cbn [bind fst snd]. exists b'.
  pose proof (spells_bytes _ _ S) as B. inversion B as [|? ? Bx _]; subst. unfold to_byte. unfold is_byte in Bx. rewrite Z.mod_small by lia. reflexivity.
Qed.

(* the loop: it stops without doing anything, or reads one property *)
Lemma prop_loop_ok : forall bs ps, reads bs ps -> forall t tail fuel size pos epc pdc b m,
  spells t bs -> (length tail <= 1)%nat -> (length t < fuel)%nat -> pos + len t + len tail = size -> 0 <= pos -> size <= 9223372036854775807 ->
  prop_loop fuel size pos (t ++ tail) epc pdc b m = set_all ps m.
Proof.
  intros bs ps R. induction R as [bs L|c n r L|c d r ps R IH]; intros t tail fuel size pos epc pdc b m Sp Tl Fu Ps P0 Sz.
  - pose proof (spells_len _ _ Sp) as Lt. destruct fuel; [lia|]. cbn [prop_loop set_all].
    replace (pos + 4 <=? size) with false; [reflexivity|]. unfold len in *. lia.
  - pose proof (spells_len _ _ Sp) as Lt. destruct fuel; [lia|]. cbn [prop_loop set_all].
    rewrite (scan_two_bytes t c n r tail epc pdc Sp). pose proof (spells_bytes _ _ Sp) as B.
    inversion B as [|? ? _ B1]; subst. inversion B1 as [|? ? Bn _]; subst. unfold is_byte in Bn.
    unfold len in *. cbn [length] in *.
    match goal with |- context [?a <=? ?c] => replace (a <=? c) with true by lia end. cbn [bind].
    replace (n =? 0) with false by lia. unfold int_chk, INT_MIN, INT_MAX. replace ((-2147483648 <=? n * 2) && (n * 2 <=? 2147483647)) with true by lia.
    cbn [bind]. unfold sz, SIZE_MOD. rewrite Z.mod_small by lia.
    match goal with |- (if ?a <? ?c then _ else _) = _ => replace (a <? c) with true by lia end. reflexivity.
  - pose proof (spells_len _ _ Sp) as Lt. pose proof (spells_bytes _ _ Sp) as B.
    inversion B as [|? ? Bc B1]; subst. inversion B1 as [|? ? Bn _]; subst. unfold is_byte in Bc, Bn.
    destruct fuel; [lia|]. cbn [prop_loop set_all].
    rewrite (scan_two_bytes t c (len d) (d ++ r) tail epc pdc Sp).
    cbn [length] in Lt. rewrite app_length in Lt.
    replace (pos + 4 <=? pos + len t + len tail) with true by (unfold len; lia). cbn [bind].
    destruct (spells_skip [c; len d] t (d ++ r) tail Sp) as (t1 & S1 & E1). change (2 * length [c; len d])%nat with 4%nat in E1. rewrite E1.
    pose proof (spells_len _ _ S1) as Lt1. rewrite app_length in Lt1. assert (Cb : to_byte c = c) by (unfold to_byte; apply Z.mod_small; lia). rewrite Cb.
    destruct (Z.eqb_spec (len d) 0) as [Z0|Nz].
    + destruct d as [|x d]; [|unfold len in Z0; cbn [length] in Z0; lia]. cbn [app] in *.
      destruct (uecho_message_setproperty c [] m) as [m1|u]; [|reflexivity]. cbn [bind].
      apply IH; [exact S1|exact Tl|cbn [length] in *; lia| |lia|lia]. unfold len in *. cbn [length] in *. lia.
    + unfold int_chk, INT_MIN, INT_MAX. replace ((-2147483648 <=? len d * 2) && (len d * 2 <=? 2147483647)) with true by lia.
      cbn [bind]. unfold sz, SIZE_MOD. rewrite Z.mod_small by (unfold len in *; lia).
      match goal with |- (if ?a <? ?c then _ else _) = _ => replace (a <? c) with false by (unfold len in *; lia) end.
      replace (Z.to_nat (len d)) with (length d) by (unfold len; lia).
      destruct (data_loop_ok d t1 r tail b S1) as (b' & Ed). rewrite Ed. cbn [bind fst snd].
      destruct (uecho_message_setproperty c d m) as [m1|u]; [|reflexivity]. cbn [bind].
      destruct (spells_skip d t1 r tail S1) as (t2 & S2 & E2). replace (Z.to_nat (len d * 2)) with (2 * length d)%nat by (unfold len; lia). rewrite E2.
      pose proof (spells_len _ _ S2) as Lt2.
      apply IH; [exact S2|exact Tl|lia| |lia|lia]. unfold len in *. lia.
Qed.

(* ---- printing ---- *)
Lemma hexdig_digit : forall d, 0 <= d < 16 -> digit_of (hexdig d) d.
Proof. intros d H. unfold hexdig, digit_of. destruct (Z.ltb_spec d 10); lia. Qed.

Lemma fmt_step : forall f w v, 0 <= v -> v < 16 ^ Z.of_nat (S f) -> (1 <= w)%nat -> (1 <= f)%nat ->
  repeat 48 (S w - length (to_hex (S f) v)) ++ to_hex (S f) v
  = (repeat 48 (w - length (to_hex f (v / 16))) ++ to_hex f (v / 16)) ++ [hexdig (v mod 16)].
Proof.
  intros f w v V B W F. cbn [to_hex]. destruct (Z.ltb_spec v 16) as [L|L].
  - rewrite Z.div_small by lia. destruct f as [|f]; [lia|]. cbn [to_hex]. change (0 <? 16) with true. cbv iota. cbn [app length].
    change (hexdig (0 mod 16)) with 48. replace (S w - 1)%nat with w by lia.
    replace (repeat 48 w) with (repeat 48 (w - 1) ++ [48]); [rewrite <- !app_assoc; reflexivity|].
    replace w with (w - 1 + 1)%nat at 2 by lia. rewrite repeat_app. reflexivity.
  - rewrite app_length. cbn [length]. replace (S w - (length (to_hex f (v / 16)) + 1))%nat with (w - length (to_hex f (v / 16)))%nat by lia.
    rewrite app_assoc. reflexivity.
Qed.

Lemma pow16 : forall f, 16 ^ Z.of_nat (S f) = 16 * 16 ^ Z.of_nat f.
Proof. intros f. rewrite Nat2Z.inj_succ, Z.pow_succ_r by lia. reflexivity. Qed.

(* at width [w + 1] of a number with at most that many digits *)
Lemma fmt_one : forall f v, 0 <= v < 16 -> (1 <= f)%nat -> repeat 48 (1 - length (to_hex f v)) ++ to_hex f v = [hexdig v].
Proof.
  intros f v V F. destruct f as [|f]; [lia|]. cbn [to_hex]. replace (v <? 16) with true by lia. cbn [app length Nat.sub repeat].
  rewrite Z.mod_small by lia. reflexivity.
Qed.

Lemma fmt_2 : forall v, is_byte v -> spells (fmt_X 2 v) [v].
Proof.
  intros v V. unfold is_byte in V. unfold fmt_X. rewrite (fmt_step 7 1 v); [|lia|change (16 ^ Z.of_nat 8) with 4294967296; lia|lia|lia].
  rewrite fmt_one by lia. cbn [app]. replace [v] with [16 * (v / 16) + v mod 16] by (f_equal; lia).
  constructor; [apply hexdig_digit; lia|apply hexdig_digit; lia|constructor].
Qed.

Lemma spells_app : forall t bs t' bs', spells t bs -> spells t' bs' -> spells (t ++ t') (bs ++ bs').
Proof. intros t bs t' bs' S S'. induction S as [|c1 c2 h l t bs D1 D2 S IH]; [exact S'|]. cbn [app]. constructor; assumption. Qed.

Lemma fmt_6 : forall a b c, is_byte a -> is_byte b -> is_byte c -> spells (fmt_X 6 (eoj_code (a, b, c))) [a; b; c].
Proof.
  intros a b c A B C. unfold is_byte in *. unfold fmt_X, eoj_code. set (v := a * 65536 + b * 256 + c).
  assert (V : v = a * 65536 + b * 256 + c) by reflexivity. clearbody v.
  rewrite (fmt_step 7 5 v); [|lia|change (16 ^ Z.of_nat 8) with 4294967296; lia|lia|lia].
  rewrite (fmt_step 6 4 (v / 16)); [|lia|change (16 ^ Z.of_nat 7) with 268435456; lia|lia|lia].
  rewrite (fmt_step 5 3 (v / 16 / 16)); [|lia|change (16 ^ Z.of_nat 6) with 16777216; lia|lia|lia].
  rewrite (fmt_step 4 2 (v / 16 / 16 / 16)); [|lia|change (16 ^ Z.of_nat 5) with 1048576; lia|lia|lia].
  rewrite (fmt_step 3 1 (v / 16 / 16 / 16 / 16)); [|lia|change (16 ^ Z.of_nat 4) with 65536; lia|lia|lia].
  rewrite fmt_one by lia. cbn [app].
  replace [a; b; c] with [16 * (v / 16 / 16 / 16 / 16 / 16) + v / 16 / 16 / 16 / 16 mod 16;
                          16 * (v / 16 / 16 / 16 mod 16) + v / 16 / 16 mod 16; 16 * (v / 16 mod 16) + v mod 16].
  - repeat (constructor; [apply hexdig_digit; lia|apply hexdig_digit; lia|]). constructor.
  - repeat (f_equal; try lia).
Qed.

Lemma fmt_bytes : forall l, bytes_ok l -> spells (concat (map (fmt_X 2) l)) l.
Proof.
  intros l H. induction H as [|x l Hx Hl IH]; [constructor|]. cbn [map concat]. change (x :: l) with ([x] ++ l).
  apply spells_app; [apply fmt_2; exact Hx|exact IH].
Qed.

Lemma to_hex_capital : forall f v, capital (to_hex f v).
Proof.
  unfold capital. induction f as [|f IH]; intros v; cbn [to_hex]; [constructor|].
  apply Forall_app. split; [destruct (v <? 16); [constructor|apply IH]|]. constructor; [|constructor].
  unfold hexdig. destruct (Z.ltb_spec (v mod 16) 10); lia.
Qed.

Lemma fmt_capital : forall w v, capital (fmt_X w v).
Proof.
  intros w v. unfold fmt_X. apply Forall_app. split; [|apply to_hex_capital].
  apply Forall_forall. intros x H. apply repeat_spec in H. lia.
Qed.

Lemma bytes_capital : forall l, capital (concat (map (fmt_X 2) l)).
Proof. induction l as [|x l IH]; [constructor|]. cbn [map concat]. apply Forall_app. split; [apply fmt_capital|exact IH]. Qed.

Lemma print_props_ok : forall m (ps qs : list (Z * list Z)), shows_props (uecho_message_getproperty m) (qs ++ ps) ->
  Forall (fun e => is_byte (fst e) /\ bytes_ok (snd e) /\ len (snd e) <= 255) ps -> len (qs ++ ps) <= 255 ->
  exists ts, print_props m (length ps) (len qs) = Ok (concat (map (fun t => t ++ [32]) ts))
  /\ Forall2 (fun t e => spells t (fst e :: len (snd e) :: snd e)) ts ps /\ Forall capital ts.
Proof.
  intros m. induction ps as [|[c d] ps IH]; intros qs Sh Ok_ Ln; unfold epair in *.
  - exists []. split; [reflexivity|split; constructor].
  - inversion Ok_ as [|? ? (K1 & K2 & K3) Ok']; subst. cbn [fst snd] in *. cbn [length print_props].
    assert (Lq : len (qs ++ (c, d) :: ps) = len qs + (1 + len ps)) by (unfold len; rewrite app_length; cbn [length]; lia).
    pose proof (len_nonneg _ qs). pose proof (len_nonneg _ ps).
    assert (G := Sh (len qs) ltac:(unfold SIZE_MOD; lia)).
    replace (Z.to_nat (len qs)) with (length qs) in G by (unfold len; lia).
    rewrite nth_error_app2, Nat.sub_diag in G by lia. cbn [nth_error] in G. destruct G as (p & G & Gc & Gd). rewrite G. cbn [bind]. rewrite Gc, Gd.
    destruct (IH (qs ++ [(c, d)])) as (ts & E & F & Cp).
    { rewrite <- app_assoc. exact Sh. } { exact Ok'. } { rewrite <- app_assoc. exact Ln. }
    replace (len qs + 1) with (len (qs ++ [(c, d)])) by (rewrite len_app; reflexivity). rewrite E. cbn [bind].
    exists ((fmt_X 2 c ++ fmt_X 2 (len d) ++ concat (map (fmt_X 2) d)) :: ts). split.
    + cbn [map concat]. rewrite <- !app_assoc. reflexivity.
    + split; [|constructor; [|exact Cp]; apply Forall_app; split; [apply fmt_capital|apply Forall_app; split; [apply fmt_capital|apply bytes_capital]]].
      constructor; [|exact F]. cbn [fst snd]. change (c :: len d :: d) with ([c] ++ [len d] ++ d).
      apply spells_app; [apply fmt_2; exact K1|]. apply spells_app; [apply fmt_2; unfold is_byte; pose proof (len_nonneg _ d); lia|].
      apply fmt_bytes. exact K2.
Qed.
