(* Proofs about the functions on C strings, the tokenizer and the numbers. *)
From Coq Require Import ZArith List Bool Lia ZifyBool ZifyNat.
From Verif Require Import CSem P_Base M_String Spec_String P_String.
Import ListNotations.
Open Scope Z_scope.
Ltac Zify.zify_post_hook ::= Z.div_mod_to_equations.

(* ---- comparing ---- *)
Lemma strcmp_spec : forall a b ra rb, text_ok a -> text_ok b ->
  exists z, c_strcmp (block a ra) (block b rb) = Ok z /\ -1 <= z <= 1 /\ (z = 0 <-> a = b) /\ (z = -1 <-> before a b) /\ (z = 1 <-> before b a).
Proof.
  assert (N : forall a, ~ before a a).
  { intros a (p & [(y & b' & E & ->)|(x & y & a' & b' & E1 & E2 & L)]).
    - apply (f_equal (@length Z)) in E. rewrite app_length in E. cbn in E. lia.
    - rewrite E1 in E2. apply app_inv_head in E2. injection E2 as -> ->. lia. }
  assert (NN : forall y b, ~ before (y :: b) []).
  { intros y b (p & [(y1 & b' & E & _)|(x & y1 & a' & b' & _ & E & _)]); destruct p; discriminate. }
  assert (HD : forall x a y b, before (x :: a) (y :: b) <-> x < y \/ x = y /\ before a b).
  { intros x a y b. split.
    - intros (p & [(y1 & b' & E & <-)|(x1 & y1 & a' & b' & E1 & E2 & L)]).
      + cbn in E. injection E as -> ->. right. split; [reflexivity|]. exists a. left. eauto.
      + destruct p as [|z p]; cbn in E1, E2; injection E1 as -> ->; injection E2 as -> ->; [left; exact L|].
        right. split; [reflexivity|]. exists p. right. exists x1, y1, a', b'. auto.
    - intros [L|(-> & p & [(y1 & b' & -> & ->)|(x1 & y1 & a' & b' & -> & -> & L)])].
      + exists []. right. exists x, y, a, b. auto.
      + exists (y :: p). left. exists y1, b'. auto.
      + exists (y :: p). right. exists x1, y1, a', b'. auto. }
  assert (NC : forall y b, before [] (y :: b)) by (intros y b; exists []; left; exists y, b; auto).
  induction a as [|x a IH]; intros b ra rb Ha Hb.
  - destruct b as [|y b]; unfold block; cbn [app c_strcmp].
    + exists 0. rewrite Z.ltb_irrefl, Z.eqb_refl. split; [reflexivity|]. split; [lia|].
      split; [split; reflexivity|]. split; (split; [discriminate|intros X; destruct (N _ X)]).
    + inversion Hb as [|? ? H1 H2]; subst. unfold char_ok in H1. destruct (Z.ltb_spec 0 y); [|lia].
      exists (-1). split; [reflexivity|]. split; [lia|]. split; [split; discriminate|].
      split; [split; [intros _; apply NC|reflexivity]|]. split; [discriminate|intros X; destruct (NN _ _ X)].
  - inversion Ha as [|? ? H1 H2]; subst. unfold char_ok in H1. destruct b as [|y b]; unfold block; cbn [app c_strcmp].
    + destruct (Z.ltb_spec x 0); [lia|]. destruct (Z.ltb_spec 0 x); [|lia].
      exists 1. split; [reflexivity|]. split; [lia|]. split; [split; discriminate|].
      split; [split; [discriminate|intros X; destruct (NN _ _ X)]|]. split; [intros _; apply NC|reflexivity].
    + inversion Hb as [|? ? H3 H4]; subst. unfold char_ok in H3.
      destruct (Z.ltb_spec x y).
      { exists (-1). rewrite !HD. split; [reflexivity|]. split; [lia|]. split; [split; [discriminate|intros X; injection X; lia]|]. split; split; try lia; try discriminate; auto. }
      destruct (Z.ltb_spec y x).
      { exists 1. rewrite !HD. split; [reflexivity|]. split; [lia|]. split; [split; [discriminate|intros X; injection X; lia]|]. split; split; try lia; try discriminate; auto. }
      destruct (Z.eqb_spec x 0); [lia|]. assert (x = y) by lia. subst y.
      destruct (IH b ra rb H2 H4) as (z & E & R & Z1 & Z2 & Z3). exists z. rewrite !HD. split; [exact E|]. split; [exact R|].
      split; [rewrite Z1; split; [intros ->; reflexivity|intros X; injection X; auto]|].
      split; [rewrite Z2|rewrite Z3]; (split; [auto|intros [X|[_ X]]; [lia|exact X]]).
Qed.

(* ---- searching ---- *)
Lemma strstr_spec : forall a b i, match c_strstr a b i with
  | Some j => first_at a b (j - i) | None => forall p q, a <> p ++ b ++ q end.
Proof.
  intros a b. induction a as [|x a IH]; intros i; cbn [c_strstr].
  - destruct (prefixb b []) eqn:B.
    + apply prefixb_iff in B. destruct B as (q & B). split; [exists [], q; split; [exact B|rewrite len_nil; lia]|].
      intros p q' _. pose proof (len_nonneg _ p). lia.
    + intros p q E. destruct p; [|discriminate]. cbn in E. assert (prefixb b [] = true) by (apply prefixb_iff; eauto). congruence.
  - destruct (prefixb b (x :: a)) eqn:B.
    + apply prefixb_iff in B. destruct B as (q & B). split; [exists [], q; split; [exact B|rewrite len_nil; lia]|].
      intros p q' _. pose proof (len_nonneg _ p). lia.
    + assert (N : forall q, x :: a <> b ++ q).
      { intros q E. assert (prefixb b (x :: a) = true) by (apply prefixb_iff; eauto). congruence. }
      specialize (IH (i + 1)). destruct (c_strstr a b (i + 1)) as [j|].
      * destruct IH as [(p & q & -> & L) M]. split.
        -- exists (x :: p), q. split; [reflexivity|]. rewrite len_cons. lia.
        -- intros [|y p'] q' E; [destruct (N _ E)|]. cbn in E. injection E as <- E. apply M in E. rewrite len_cons. lia.
      * intros [|y p'] q' E; [destruct (N _ E)|]. cbn in E. injection E as <- E. exact (IH _ _ E).
Qed.

Definition inb (l : list Z) (c : Z) : bool := existsb (fun x => c =? x) l.
Lemma inb_iff : forall l c, inb l c = true <-> In c l.
Proof.
  intros l c. unfold inb. rewrite existsb_exists. split.
  - intros (x & I & E). apply Z.eqb_eq in E. subst. exact I.
  - intros I. exists c. split; [exact I|apply Z.eqb_refl].
Qed.
Lemma inb_not : forall l c, inb l c = false <-> ~ In c l.
Proof. intros l c. rewrite <- inb_iff. destruct (inb l c); split; congruence. Qed.
Lemma one_of_spec : forall l r c, one_of c (l ++ r) (length l) = Ok (inb l c).
Proof.
  induction l as [|x l IH]; intros r c; cbn [app length one_of]; [destruct r; reflexivity|]. unfold inb. cbn [existsb].
  destruct (c =? x); [reflexivity|]. apply IH.
Qed.
Lemma text_len : forall t r, text_ok t -> uecho_strlen (Some (block t r)) = Ok (len t).
Proof. intros. unfold uecho_strlen. rewrite ctext_block by assumption. reflexivity. Qed.

Lemma strchr_spec : forall l r t a z, exists i, strchr_loop (a ++ t ++ z) (l ++ r) (length l) (len a) (length t) = Ok i
  /\ ((i = -1 /\ Forall (fun c => ~ In c l) t) \/ (len a <= i /\ first_in (fun c => In c l) t (i - len a))).
Proof.
  intros l r t. induction t as [|c t IH]; intros a z; cbn [length strchr_loop].
  - exists (-1). split; [reflexivity|]. left. split; [reflexivity|constructor].
  - cbn [app]. rewrite (rd_app_cons _ a c (t ++ z) _ eq_refl). cbn [bind]. rewrite one_of_spec. cbn [bind].
    destruct (inb l c) eqn:B.
    + apply inb_iff in B. exists (len a). split; [reflexivity|]. right. split; [lia|]. exists [], c, t.
      split; [reflexivity|]. split; [rewrite len_nil; lia|]. split; [exact B|constructor].
    + apply inb_not in B. destruct (IH (a ++ [c]) z) as (i & E & C). rewrite len_app in *. change (len [c]) with 1 in *.
      rewrite <- app_assoc in E. cbn [app] in E. exists i. split; [exact E|].
      destruct C as [(-> & C)|(C1 & p & x & q & E1 & E2 & D & F)]; [left; split; [reflexivity|constructor; assumption]|].
      right. split; [lia|]. exists (c :: p), x, q. split; [rewrite E1; reflexivity|]. split; [rewrite len_cons; lia|].
      split; [exact D|constructor; assumption].
Qed.
Lemma strrchr_spec : forall l r t z, exists i, strrchr_loop (t ++ z) (l ++ r) (length l) (length t) = Ok i
  /\ ((i = -1 /\ Forall (fun c => ~ In c l) t) \/ (0 <= i /\ last_in (fun c => In c l) t i)).
Proof.
  intros l r t. induction t as [|c t IH] using rev_ind; intros z.
  - exists (-1). split; [reflexivity|]. left. split; [reflexivity|constructor].
  - rewrite app_length. cbn [length]. rewrite Nat.add_1_r. cbn [strrchr_loop]. rewrite <- app_assoc. cbn [app].
    rewrite (rd_app_cons _ t c z (Z.of_nat (length t)) eq_refl). cbn [bind]. rewrite one_of_spec. cbn [bind].
    destruct (inb l c) eqn:B.
    + apply inb_iff in B. exists (len t). split; [reflexivity|]. right. split; [apply len_nonneg|]. exists t, c, [].
      split; [reflexivity|]. split; [reflexivity|]. split; [exact B|constructor].
    + apply inb_not in B. destruct (IH (c :: z)) as (i & E & C). exists i. split; [exact E|].
      destruct C as [(-> & C)|(C1 & p & x & q & E1 & E2 & D & F)].
      * left. split; [reflexivity|]. apply Forall_app. split; [exact C|constructor; [exact B|constructor]].
      * right. split; [lia|]. exists p, x, (q ++ [c]). split; [rewrite E1, <- app_assoc; reflexivity|]. split; [exact E2|].
        split; [exact D|]. apply Forall_app. split; [exact F|constructor; [exact B|constructor]].
Qed.

(* ---- trimming ---- *)
Lemma ltrim_spec : forall l r t a z, exists x y, t = x ++ y /\ Forall (fun c => In c l) x /\ (forall c w, y = c :: w -> ~ In c l)
  /\ ltrim_loop (a ++ t ++ z) (l ++ r) (length l) (len a) (length t) = Ok (len a + len x).
Proof.
  intros l r t. induction t as [|c t IH]; intros a z; cbn [length ltrim_loop].
  - exists [], []. split; [reflexivity|]. split; [constructor|]. split; [discriminate|]. rewrite len_nil, Z.add_0_r. reflexivity.
  - cbn [app]. rewrite (rd_app_cons _ a c (t ++ z) _ eq_refl). cbn [bind]. rewrite one_of_spec. cbn [bind].
    destruct (inb l c) eqn:B.
    + apply inb_iff in B. destruct (IH (a ++ [c]) z) as (x & y & E & F & H & R). exists (c :: x), y.
      split; [rewrite E; reflexivity|]. split; [constructor; assumption|]. split; [exact H|].
      rewrite <- app_assoc in R. cbn [app] in R. rewrite len_app in R. change (len [c]) with 1 in R. rewrite R, len_cons. f_equal. lia.
    + apply inb_not in B. exists [], (c :: t). split; [reflexivity|]. split; [constructor|]. split; [intros ? ? X; injection X as <- _; exact B|].
      rewrite len_nil, Z.add_0_r. reflexivity.
Qed.
Lemma rtrim_spec : forall l r t z, exists x y, t = x ++ y /\ Forall (fun c => In c l) y /\ (forall c w, x = w ++ [c] -> ~ In c l)
  /\ rtrim_loop (t ++ z) (l ++ r) (length l) (length t) = Ok (x ++ repeat 0 (length y) ++ z).
Proof.
  intros l r t. induction t as [|c t IH] using rev_ind; intros z.
  - exists [], []. split; [reflexivity|]. split; [constructor|]. split; [intros c [|? ?]; discriminate|]. reflexivity.
  - rewrite app_length. cbn [length]. rewrite Nat.add_1_r. cbn [rtrim_loop]. rewrite <- app_assoc. cbn [app].
    rewrite (rd_app_cons _ t c z (Z.of_nat (length t)) eq_refl). cbn [bind]. rewrite one_of_spec. cbn [bind].
    destruct (inb l c) eqn:B.
    + apply inb_iff in B. rewrite (wr_app_cons _ t c 0 z (Z.of_nat (length t)) eq_refl). cbn [bind].
      destruct (IH (0 :: z)) as (x & y & E & F & H & R). exists x, (y ++ [c]). split; [rewrite E, <- app_assoc; reflexivity|].
      split; [apply Forall_app; split; [exact F|constructor; [exact B|constructor]]|]. split; [exact H|]. rewrite R.
      rewrite app_length. cbn [length]. rewrite repeat_app, <- !app_assoc. reflexivity.
    + apply inb_not in B. exists (t ++ [c]), []. split; [rewrite app_nil_r; reflexivity|]. split; [constructor|].
      split; [intros c' w X; apply app_inj_tail in X; destruct X as [_ <-]; exact B|]. rewrite <- app_assoc. reflexivity.
Qed.
(* the whole function: the block afterwards begins with what was cut off in front, then the trimmed text and a NUL *)
Lemma trim_spec : forall l r t rest, text_ok t ->
  exists a b w, t = a ++ w ++ b /\ trimmed (fun c => In c l) t w
    /\ exists rest', uecho_strtrim (Some (block t rest)) (Some (l ++ r)) (len l) = Ok (Some (a ++ block w rest', len a))
      /\ len (a ++ block w rest') = len (block t rest).
Proof.
  intros l r t rest T. unfold uecho_strtrim, uecho_strrtrim, uecho_strltrim. rewrite (text_len t rest T). cbn [bind].
  rewrite !to_nat_len. unfold block. destruct (rtrim_spec l r t (0 :: rest)) as (x & y & E & F & H & R). rewrite R. cbn [bind].
  assert (Tx : text_ok x) by (rewrite E in T; apply text_app in T; apply T).
  assert (Eb : exists q, repeat 0 (length y) ++ 0 :: rest = 0 :: q /\ len q = len y + len rest).
  { destruct y as [|c y]; [exists rest; split; reflexivity|]. exists (repeat 0 (length y) ++ 0 :: rest). split; [reflexivity|].
    rewrite len_app, len_repeat, !len_cons. unfold len. lia. }
  destruct Eb as (q & -> & Lq). assert (TL := text_len x q Tx). unfold block in TL. rewrite TL. cbn [bind]. rewrite to_nat_len.
  destruct (ltrim_spec l r x [] (0 :: q)) as (a & w & Ea & Fa & Ha & Ra). cbn [app] in Ra. change (len []) with 0 in Ra. rewrite Ra. cbn [bind].
  rewrite Z.add_0_l. exists a, y, w. subst x. split; [rewrite E, app_assoc; reflexivity|]. split.
  - exists a, y. split; [rewrite E, app_assoc; reflexivity|]. split; [exact Fa|]. split; [exact F|]. split; [exact Ha|].
    intros c x0 ->. apply (H c (a ++ x0)). rewrite app_assoc. reflexivity.
  - exists q. rewrite <- app_assoc. split; [reflexivity|]. rewrite E, ?len_app, ?len_cons. lia.
Qed.

(* ---- white space ---- *)
Definition blankb (c : Z) : bool := (c =? 32) || ((9 <=? c) && (c <=? 13)).
Lemma blankb_iff : forall c, blankb c = true <-> blank c.
Proof. intros c. unfold blankb, blank. lia. Qed.
Lemma blanks_down_ok : forall t z l, Forall (fun c => 0 < c < 128) t -> len t <= l < SIZE_MOD ->
  blanks_down (t ++ z) (length t) l = Ok (l - len (filter blankb t)).
Proof.
  induction t as [|c t IH] using rev_ind; intros z l H L; [cbn; f_equal; lia|].
  apply Forall_app in H. destruct H as [H1 H2]. inversion H2; subst. rewrite len_app in L. change (len [c]) with 1 in L.
  rewrite app_length. cbn [length]. rewrite Nat.add_1_r. cbn [blanks_down]. rewrite <- app_assoc. cbn [app].
  rewrite (rd_app_cons _ t c z (Z.of_nat (length t)) eq_refl). cbn [bind]. unfold c_isspace. destruct (Z.leb_spec 128 c); [lia|]. cbn [bind].
  fold (blankb c). rewrite filter_app, len_app. cbn [filter]. pose proof (len_nonneg _ t).
  destruct (blankb c).
  - rewrite sz_small by lia. rewrite IH by (try assumption; lia). f_equal. rewrite len_cons, len_nil. lia.
  - rewrite IH by (try assumption; lia). f_equal. rewrite len_nil. lia.
Qed.
Lemma trimwhite_tail : forall w b rest, Forall (fun c => 0 < c < 128 /\ ~ blank c) w -> Forall blank b -> len (w ++ b) < SIZE_MOD ->
  exists rest', uecho_strtrimwhite (Some (block (w ++ b) rest)) = Ok (Some (block w rest')).
Proof.
  intros w b rest W B L.
  assert (W' : Forall (fun c => 0 < c < 128) w) by (eapply Forall_impl; [|exact W]; intros a X; apply X).
  assert (B' : Forall (fun c => 0 < c < 128) b) by (eapply Forall_impl; [|exact B]; unfold blank; intros; lia).
  assert (A : Forall (fun c => 0 < c < 128) (w ++ b)) by (apply Forall_app; auto).
  assert (T : text_ok (w ++ b)) by (eapply Forall_impl; [|exact A]; unfold char_ok; intros; lia).
  unfold uecho_strtrimwhite. rewrite (text_len _ rest T). cbn [bind].
  destruct (Z.eqb_spec (len (w ++ b)) 0) as [E|E].
  { apply len_0_nil in E. apply app_eq_nil in E. destruct E as [-> ->]. exists rest. reflexivity. }
  rewrite to_nat_len. unfold block at 1. rewrite blanks_down_ok by (try assumption; lia). cbn [bind].
  assert (Ef : filter blankb (w ++ b) = b).
  { rewrite filter_app. replace (filter blankb w) with (@nil Z).
    - cbn [app]. clear -B. induction B as [|c b Hc _ IH]; [reflexivity|]. cbn [filter]. apply blankb_iff in Hc. rewrite Hc, IH. reflexivity.
    - clear -W. induction W as [|c w [_ Hc] _ IH]; [reflexivity|]. cbn [filter]. destruct (blankb c) eqn:X; [apply blankb_iff in X; contradiction|exact IH]. }
  rewrite Ef. replace (len (w ++ b) - len b) with (len w) by (rewrite len_app; lia).
  assert (U : blanks_up (block (w ++ b) rest) 0 (Z.to_nat (len w)) = Ok 0).
  { rewrite to_nat_len. destruct w as [|c w]; [reflexivity|]. inversion W as [|? ? [X1 X2] ?]; subst. cbn [length blanks_up]. unfold block. cbn [app].
    assert (Er : forall q, rd (c :: q) 0 = Ok c) by reflexivity. rewrite Er. clear Er. cbn [bind]. unfold c_isspace. destruct (Z.leb_spec 128 c); [lia|]. cbn [bind].
    fold (blankb c). destruct (blankb c) eqn:X; [apply blankb_iff in X; contradiction|reflexivity]. }
  rewrite U. cbn [bind]. rewrite Z.ltb_irrefl. cbn [bind]. unfold block. rewrite <- app_assoc.
  destruct b as [|c b]; cbn [app].
  - rewrite (wr_app_cons _ w 0 0 rest _ eq_refl). cbn [bind]. eauto.
  - rewrite (wr_app_cons _ w c 0 _ _ eq_refl). cbn [bind]. eauto.
Qed.

(* ---- the tokenizer ---- *)
Lemma delim_no : forall ds pre c post cnt start next rep more isd, ~ In c ds ->
  delim_loop ds (pre ++ c :: post) (len pre) cnt start next rep more isd = Ok (pre ++ c :: post, start, next, rep, more, isd).
Proof.
  induction ds as [|d ds IH]; intros pre c post cnt start next rep more isd N; cbn [delim_loop]; [reflexivity|].
  rewrite (rd_app_cons _ pre c post _ eq_refl). cbn [bind]. destruct (Z.eqb_spec c d) as [->|]; [destruct N; left; reflexivity|].
  apply IH. intros I. apply N. right. exact I.
Qed.
Lemma delim_first : forall ds pre c post start next rep more isd, In c ds ->
  delim_loop ds (pre ++ c :: post) (len pre) 0 start next rep more isd = Ok (pre ++ c :: post, sz (len pre + 1), next, rep, more, true).
Proof.
  induction ds as [|d ds IH]; intros pre c post start next rep more isd I; cbn [delim_loop]; [destruct I|].
  rewrite (rd_app_cons _ pre c post _ eq_refl). cbn [bind]. destruct (Z.eqb_spec c d) as [->|N]; [reflexivity|].
  apply IH. destruct I; [congruence|assumption].
Qed.
Lemma delim_after : forall ds pre c post cnt start next rep more isd, In c ds -> ~ In 0 ds -> cnt <> 0 ->
  delim_loop ds (pre ++ c :: post) (len pre) cnt start next rep more isd = Ok (pre ++ 0 :: post, sz (len pre + 1), Some start, c, true, true).
Proof.
  induction ds as [|d ds IH]; intros pre c post cnt start next rep more isd I N C; cbn [delim_loop]; [destruct I|].
  assert (N' : ~ In 0 ds) by (intros X; apply N; right; exact X).
  rewrite (rd_app_cons _ pre c post _ eq_refl). cbn [bind]. destruct (Z.eqb_spec c d) as [->|D].
  - destruct (Z.eqb_spec cnt 0); [lia|]. rewrite (wr_app_cons _ pre d 0 post _ eq_refl). cbn [bind]. apply delim_no. exact N'.
  - apply IH; try assumption. destruct I; [congruence|assumption].
Qed.
Lemma token_word : forall ds w pre z k cnt start, Forall (fun c => ~ In c ds) w ->
  token_loop (length w + k) ds (pre ++ w ++ z) (len pre) cnt start
  = token_loop k ds (pre ++ w ++ z) (len pre + len w) (cnt + len w) start.
Proof.
  intros ds w. induction w as [|c w IH]; intros pre z k cnt start H.
  - cbn [length app Nat.add]. rewrite len_nil, !Z.add_0_r. reflexivity.
  - inversion H as [|? ? H1 H2]; subst. cbn [length Nat.add token_loop app]. rewrite delim_no by exact H1. cbn [bind].
    specialize (IH (pre ++ [c]) z k (cnt + 1) start H2). rewrite <- app_assoc in IH. cbn [app] in IH. rewrite len_app in IH.
    change (len [c]) with 1 in IH. rewrite IH, len_cons. f_equal; lia.
Qed.

Lemma scan_spec : forall ds i t fs, fields (fun c => In c ds) i t fs -> ~ In 0 ds ->
  forall pre, len pre = i -> len pre + len t < SIZE_MOD ->
  match fs with
  | [] => token_loop (length t) ds (pre ++ t ++ [0]) i 0 i = Ok (pre ++ t ++ [0], i + len t, None, 0, false, 0)
  | (o, w) :: fs' => w <> [] /\ exists a, Forall (fun c => In c ds) a /\ o = i + len a /\
      ((t = a ++ w /\ fs' = [] /\ token_loop (length t) ds (pre ++ t ++ [0]) i 0 i = Ok (pre ++ t ++ [0], o, None, 0, false, len w))
       \/ exists c t', t = a ++ w ++ c :: t' /\ In c ds /\ fields (fun c => In c ds) (o + len w + 1) t' fs' /\
          token_loop (length t) ds (pre ++ t ++ [0]) i 0 i = Ok (pre ++ a ++ w ++ 0 :: t' ++ [0], o + len w + 1, Some o, c, true, len w))
  end.
Proof.
  intros ds i t fs H N0. induction H as [i|i c t fs Hc H IH|i w W Hw|i w c t fs W Hw Hc H _]; intros pre P L.
  - cbn. rewrite Z.add_0_r. reflexivity.
  - cbn [length token_loop app]. subst i. rewrite delim_first by exact Hc. cbn [bind]. rewrite len_cons in L.
    pose proof (len_nonneg _ pre). pose proof (len_nonneg _ t).
    rewrite sz_small by lia. specialize (IH (pre ++ [c])). rewrite len_app in IH. change (len [c]) with 1 in IH.
    specialize (IH eq_refl ltac:(lia)). rewrite <- app_assoc in IH. cbn [app] in IH. destruct fs as [|[o w] fs'].
    + rewrite IH, len_cons. do 6 f_equal. lia.
    + destruct IH as (Wn & a & Fa & Eo & C). split; [exact Wn|]. exists (c :: a). split; [constructor; assumption|].
      split; [rewrite len_cons; lia|]. destruct C as [(-> & -> & E)|(x & t' & -> & Ix & Hf & E)].
      * left. split; [reflexivity|]. split; [reflexivity|]. rewrite E. reflexivity.
      * right. exists x, t'. split; [reflexivity|]. split; [exact Ix|]. split; [exact Hf|]. rewrite E.
        rewrite <- app_assoc. reflexivity.
  - split; [exact W|]. exists []. split; [constructor|]. split; [rewrite len_nil; lia|]. left. split; [reflexivity|]. split; [reflexivity|].
    subst i. pose proof (token_word ds w pre [0] 0 0 (len pre) Hw) as T. rewrite Nat.add_0_r in T. rewrite T. cbn [token_loop]. reflexivity.
  - split; [exact W|]. exists []. split; [constructor|]. split; [rewrite len_nil; lia|]. right. exists c, t. split; [reflexivity|].
    split; [exact Hc|]. split; [exact H|]. subst i. rewrite app_length. cbn [length app]. rewrite <- !app_assoc. cbn [app].
    rewrite token_word by exact Hw. cbn [token_loop]. rewrite app_assoc, <- len_app, delim_after; try assumption.
    2:{ intros X. apply W. apply len_0_nil. lia. }
    cbn [bind]. rewrite !len_app, len_cons in L. pose proof (len_nonneg _ pre). pose proof (len_nonneg _ w). pose proof (len_nonneg _ t).
    rewrite sz_small by (rewrite len_app; lia). rewrite len_app, <- app_assoc. reflexivity.
Qed.

(* what holds between two calls: [t] is what is left to scan after [pre] *)
Definition tinv (ds orig : list Z) (T : tok) (pre t : list Z) : Prop :=
  k_value T = pre ++ t ++ [0] /\ k_delim T = ds /\ k_start T = len pre /\ k_last T = len orig - 1
  /\ exists p0, orig = p0 ++ t /\ len p0 = len pre.
Definition token_in (v : list Z) (o : Z) (w : list Z) : Prop := exists x y, v = x ++ w ++ 0 :: y /\ len x = o.
(* the token that the next call returns *)
Definition pend (orig : list Z) (T : tok) (o : Z) (w : list Z) : Prop :=
  k_next T = Some o /\ k_more T = true
  /\ exists x y p q, k_value T = x ++ w ++ 0 :: y /\ len x = o /\ orig = p ++ w ++ q /\ len p = o
     /\ ((q = [] /\ y = [] /\ k_rep T = 0) \/ exists q', q = k_rep T :: q' /\ y = q' ++ [0]).

Lemma next_spec : forall ds orig T pre t fs, ~ In 0 ds -> orig <> [] -> len orig < SIZE_MOD -> tinv ds orig T pre t ->
  fields (fun c => In c ds) (len pre) t fs ->
  exists T', uecho_string_tokenizer_nexttoken T = Ok (T', k_next T) /\
  match fs with
  | [] => k_more T' = false /\ k_next T' = None /\ k_value T' = k_value T
  | (o, w) :: fs' => exists pre' t', tinv ds orig T' pre' t' /\ fields (fun c => In c ds) (len pre') t' fs' /\ pend orig T' o w
      /\ (exists t1, k_value T' = pre ++ t1 ++ [0] /\ len t1 = len t) /\ (o + len w < len pre' \/ t' = []) /\ len pre <= len pre'
  end.
Proof.
  intros ds orig T pre t fs N0 No L (V & D & S & K & p0 & Eo & P0) F.
  assert (Lo : len orig = len pre + len t) by (rewrite Eo, len_app; lia).
  assert (Lp : 0 < len orig). { pose proof (len_nonneg _ orig). destruct (Z.eq_dec (len orig) 0) as [X|]; [apply len_0_nil in X; contradiction|lia]. }
  unfold uecho_string_tokenizer_nexttoken, rounds. rewrite K, S, V, D. destruct (Z.eqb_spec (len orig - 1) (SIZE_MOD - 1)); [lia|]. cbn [bind].
  replace (Z.to_nat (len orig - 1 - len pre + 1)) with (length t) by (unfold len in *; lia).
  pose proof (scan_spec ds (len pre) t fs F N0 pre eq_refl ltac:(lia)) as C. destruct fs as [|[o w] fs'].
  - rewrite C. cbn. eexists. split; [reflexivity|]. split; [reflexivity|]. split; reflexivity.
  - destruct C as (W & a & Fa & Ea & C). assert (0 < len w). { pose proof (len_nonneg _ w). destruct (Z.eq_dec (len w) 0) as [X|]; [apply len_0_nil in X; contradiction|lia]. }
    pose proof (len_nonneg _ pre). pose proof (len_nonneg _ a).
    destruct C as [(Et & -> & C)|(c & t' & Et & Ic & Ff & C)]; rewrite C; cbn [bind negb andb].
    + destruct (Z.ltb_spec 0 (len w)); [|lia]. eexists. split; [reflexivity|]. exists (pre ++ t), [].
      split; [|split; [constructor|]].
      * split; [cbn [k_value]; rewrite <- app_assoc; reflexivity|]. split; [reflexivity|].
        split; [cbn [k_start]; rewrite len_app, sz_small; lia|]. split; [reflexivity|].
        exists orig. rewrite app_nil_r. split; [reflexivity|]. rewrite len_app. lia.
      * split; [|split; [|split; [right; reflexivity|rewrite len_app; pose proof (len_nonneg _ t); lia]]].
        -- split; [reflexivity|]. split; [reflexivity|]. exists (pre ++ a), [], (p0 ++ a), []. cbn [k_value k_rep].
           split; [rewrite Et, <- !app_assoc; reflexivity|]. split; [rewrite len_app; lia|].
           split; [rewrite app_nil_r, Eo, Et, <- !app_assoc; reflexivity|]. split; [rewrite len_app; lia|]. left. auto.
        -- exists t. split; reflexivity.
    + eexists. split; [reflexivity|]. exists (pre ++ a ++ w ++ [0]), t'. cbn [k_value].
      assert (Lpre : len (pre ++ a ++ w ++ [0]) = o + len w + 1) by (rewrite !len_app; change (len [0]) with 1; lia).
      split; [|split; [rewrite Lpre; exact Ff|]].
      * split; [cbn [k_value]; rewrite <- !app_assoc; reflexivity|]. split; [reflexivity|]. split; [cbn [k_start]; lia|]. split; [reflexivity|].
        exists (p0 ++ a ++ w ++ [c]). split; [rewrite Eo, Et, <- !app_assoc; reflexivity|]. rewrite Lpre, !len_app. change (len [c]) with 1. lia.
      * split; [|split; [|split; [left; lia|lia]]].
        -- split; [reflexivity|]. split; [reflexivity|]. exists (pre ++ a), (t' ++ [0]), (p0 ++ a), (c :: t'). cbn [k_value k_rep].
           split; [rewrite <- !app_assoc; reflexivity|]. split; [rewrite len_app; lia|].
           split; [rewrite Eo, Et, <- !app_assoc; reflexivity|]. split; [rewrite len_app; lia|]. right. eauto.
        -- exists (a ++ w ++ 0 :: t'). split; [rewrite <- !app_assoc; reflexivity|]. rewrite Et, !len_app, !len_cons. reflexivity.
Qed.

Lemma text_token : forall T o w, token_in (k_value T) o w -> text_ok w -> text_at T o = Ok w.
Proof.
  intros T o w (x & y & E & <-) H. unfold text_at. rewrite E, to_nat_len, skipn_app, skipn_all, Nat.sub_diag. cbn [app skipn].
  exact (ctext_block w y H).
Qed.
Lemma app_le : forall (a b c d : list Z), a ++ b = c ++ d -> len a <= len c -> exists e, c = a ++ e.
Proof.
  intros a b c d E L. destruct (app_split a c b d E) as [(z & Ez)|(z & Ez)]; [|eauto].
  rewrite Ez, len_app in L. assert (z = []) by (apply len_0_nil; pose proof (len_nonneg _ z); lia). subst z.
  exists []. rewrite Ez, !app_nil_r. reflexivity.
Qed.
Lemma token_kept : forall pre t t1 o w, token_in (pre ++ t ++ [0]) o w -> len t1 = len t -> o + len w < len pre \/ t = [] ->
  token_in (pre ++ t1 ++ [0]) o w.
Proof.
  intros pre t t1 o w (x & y & E & L) L1 [H| ->].
  - destruct (app_le (x ++ w ++ [0]) y pre (t ++ [0])) as (e & Ee).
    { rewrite E, <- !app_assoc. reflexivity. } { rewrite !len_app. change (len [0]) with 1. lia. }
    exists x, (e ++ t1 ++ [0]). split; [|exact L]. rewrite Ee, <- !app_assoc. reflexivity.
  - assert (t1 = []) by (apply len_0_nil; rewrite L1; reflexivity). subst t1. exists x, y. auto.
Qed.
Lemma pend_token : forall orig T o w, pend orig T o w -> text_ok orig -> token_in (k_value T) o w /\ text_ok w.
Proof.
  intros orig T o w (_ & _ & x & y & p & q & V & L & E & _) H. split; [exists x, y; auto|].
  rewrite E in H. apply text_app in H. destruct H as [_ H]. apply text_app in H. apply H.
Qed.

Lemma fields_nil : forall d i fs, fields d i [] fs -> fs = [].
Proof.
  intros d i fs H. remember [] as t eqn:E. destruct H as [| |i w W|i w c t fs W]; [reflexivity|discriminate|congruence|].
  destruct w; discriminate.
Qed.

Section Run.
Variables ds orig : list Z.
Hypothesis (N0 : ~ In 0 ds) (No : orig <> []) (Lo : len orig < SIZE_MOD) (To : text_ok orig).

Lemma run_spec : forall fs T pre t o w, tinv ds orig T pre t -> fields (fun c => In c ds) (len pre) t fs -> pend orig T o w ->
  o + len w < len pre \/ t = [] ->
  exists e, asks T ((o, w) :: fs) e /\ uecho_string_tokenizer_hasmoretoken e = false
    /\ (forall o' w', In (o', w') ((o, w) :: fs) -> token_in (k_value e) o' w')
    /\ (forall o' w', token_in (k_value T) o' w' -> o' + len w' < len pre \/ t = [] -> token_in (k_value e) o' w').
Proof.
  induction fs as [|[o1 w1] fs IH]; intros T pre t o w I F P C.
  - destruct (next_spec ds orig T pre t [] N0 No Lo I F) as (T' & E & M & X & V).
    destruct (pend_token _ _ _ _ P To) as [Pt Tw]. assert (Pn := P). destruct Pn as (Pn & Pm & _).
    exists T'. split; [|split; [exact M|]].
    + eapply k_step; [exact Pm|rewrite E, Pn; reflexivity| |constructor]. apply text_token; [rewrite V; exact Pt|exact Tw].
    + rewrite V. split; [|auto]. intros o' w' [J|[]]. injection J as <- <-. exact Pt.
  - destruct (next_spec ds orig T pre t _ N0 No Lo I F) as (T' & E & pre' & t' & I' & F' & P' & (t1 & V & L1) & C' & Lp).
    destruct (pend_token _ _ _ _ P To) as [Pt Tw]. assert (Pn := P). destruct Pn as (Pn & Pm & _).
    destruct I as (Vt & _). rewrite Vt in Pt.
    assert (Pt' : token_in (k_value T') o w) by (rewrite V; exact (token_kept _ _ _ _ _ Pt L1 C)).
    destruct (IH T' pre' t' o1 w1 I' F' P' C') as (e & A & M & K1 & K2). exists e.
    (* later calls leave the earlier tokens *)
    assert (Keep : forall o' w', token_in (k_value T) o' w' -> o' + len w' < len pre \/ t = [] -> token_in (k_value e) o' w').
    { intros o' w' Ti Cw. rewrite Vt in Ti. apply K2; [rewrite V; exact (token_kept _ _ _ _ _ Ti L1 Cw)|].
      destruct Cw as [Cw| ->].
      - left. lia.
      - apply fields_nil in F. discriminate. }
    split; [eapply k_step; [exact Pm|rewrite E, Pn; reflexivity|apply text_token; assumption|exact A]|]. split; [exact M|].
    split; [|exact Keep]. intros o' w' [J|J]; [injection J as <- <-; apply Keep; [rewrite Vt; exact Pt|exact C]|exact (K1 _ _ J)].
Qed.

Lemma asks_pend : forall fs1 fs T pre t o w o' w' fs2 T1, tinv ds orig T pre t -> fields (fun c => In c ds) (len pre) t fs -> pend orig T o w ->
  asks T fs1 T1 -> (o, w) :: fs = fs1 ++ (o', w') :: fs2 -> pend orig T1 o' w'.
Proof.
  induction fs1 as [|p fs1 IH]; intros fs T pre t o w o' w' fs2 T1 I F P A E.
  - inversion A; subst. cbn in E. injection E as <- <- _. exact P.
  - inversion A as [|? T2 o2 w2 ? ? M N X A2]; subst. cbn in E. injection E as <- <- E.
    destruct (next_spec ds orig T pre t fs N0 No Lo I F) as (T' & E' & R). rewrite E' in N. injection N as -> _.
    destruct fs as [|[o3 w3] fs]; [destruct fs1; discriminate|].
    destruct R as (pre' & t' & I' & F' & P' & _). exact (IH fs T2 pre' t' o3 w3 o' w' fs2 T1 I' F' P' A2 E).
Qed.
Lemma nextall_spec : forall T o w, pend orig T o w -> 
  exists T', uecho_string_tokenizer_nextalltoken T = Ok (T', Some o) /\ text_at T' o = Ok (skipn (Z.to_nat o) orig)
    /\ uecho_string_tokenizer_hasmoretoken T' = false.
Proof.
  intros T o w P. destruct (pend_token _ _ _ _ P To) as [_ Tw]. destruct P as (Pn & _ & x & y & p & q & V & Lx & E & Lp & C).
  unfold uecho_string_tokenizer_nextalltoken. rewrite Pn.
  assert (Sk : forall u z, skipn (Z.to_nat o) ((u ++ z) : list Z) = z \/ len u <> o).
  { intros u z. destruct (Z.eq_dec (len u) o) as [<-|]; [left|right; assumption]. rewrite to_nat_len, skipn_app, skipn_all, Nat.sub_diag. reflexivity. }
  assert (Es : skipn (Z.to_nat o) orig = w ++ q) by (rewrite E; destruct (Sk p (w ++ q)); [assumption|contradiction]).
  assert (Tq : text_ok (w ++ q)) by (rewrite E in To; apply text_app in To; apply To).
  rewrite V. assert (Ev : skipn (Z.to_nat o) (x ++ w ++ 0 :: y) = block w y) by (destruct (Sk x (w ++ 0 :: y)); [assumption|contradiction]).
  rewrite Ev, (ctext_block _ _ Tw). cbn [rmap bind]. rewrite app_assoc, <- Lx, <- len_app.
  rewrite (wr_app_cons _ (x ++ w) 0 (k_rep T) y _ eq_refl). cbn [bind]. eexists. split; [reflexivity|]. split; [|reflexivity].
  rewrite Lx. rewrite Es. unfold text_at. cbn [k_value]. rewrite <- app_assoc.
  destruct (Sk x (w ++ k_rep T :: y)) as [->|]; [|contradiction].
  destruct C as [(-> & -> & ->)|(q' & -> & ->)].
  - rewrite app_nil_r in *. exact (ctext_block w [] Tw).
  - rewrite app_comm_cons, app_assoc. exact (ctext_block (w ++ k_rep T :: q') [] Tq).
Qed.
End Run.

Lemma fields_total : forall ds t i, exists fs, fields (fun c => In c ds) i t fs.
Proof.
  intros ds t. remember (length t) as n eqn:En. assert (L : (length t <= n)%nat) by lia. clear En. revert t L.
  induction n as [|n IH]; intros t L i; [destruct t; [eexists; constructor|cbn in L; lia]|].
  assert (S : exists w r, t = w ++ r /\ Forall (fun c => ~ In c ds) w /\ (r = [] \/ exists c r', r = c :: r' /\ In c ds)).
  { clear. induction t as [|c t (w & r & E & F & C)]; [exists [], []; repeat split; [constructor|left; reflexivity]|].
    destruct (in_dec Z.eq_dec c ds) as [I|I].
    - exists [], (c :: t). split; [reflexivity|]. split; [constructor|]. right. eauto.
    - exists (c :: w), r. split; [rewrite E; reflexivity|]. split; [constructor; assumption|exact C]. }
  destruct S as (w & r & -> & F & C). rewrite app_length in L. destruct C as [->|(c & r' & -> & I)].
  - rewrite app_nil_r. destruct w as [|x w]; [eexists; constructor|]. eexists. apply f_last; [discriminate|exact F].
  - cbn [length] in L. destruct w as [|x w].
    + destruct (IH r' ltac:(lia) (i + 1)) as (fs & H). exists fs. cbn [app]. apply f_delim; assumption.
    + destruct (IH r' ltac:(cbn [length] in L; lia) (i + len (x :: w) + 1)) as (fs & H). eexists. apply f_field; [discriminate|exact F|exact I|exact H].
Qed.

Lemma new_tinv : forall ds orig rv rd, text_ok orig -> text_ok ds -> orig <> [] -> len orig < SIZE_MOD ->
  exists T0, tinv ds orig T0 [] orig /\ k_next T0 = None
    /\ uecho_string_tokenizer_new (block orig rv) (block ds rd) = rmap fst (uecho_string_tokenizer_nexttoken T0).
Proof.
  intros ds orig rv rd To Td No L. unfold uecho_string_tokenizer_new. rewrite (ctext_block _ _ To), (ctext_block _ _ Td). cbn [bind].
  assert (0 < len orig). { pose proof (len_nonneg _ orig). destruct (Z.eq_dec (len orig) 0) as [X|]; [apply len_0_nil in X; contradiction|lia]. }
  rewrite sz_small by lia. eexists. split; [|split; [|reflexivity]]; [|reflexivity].
  split; [reflexivity|]. split; [reflexivity|]. split; [reflexivity|]. split; [reflexivity|]. exists []. split; reflexivity.
Qed.
Lemma no_nul : forall ds, text_ok ds -> ~ In 0 ds.
Proof. intros ds T I. unfold text_ok in T. rewrite Forall_forall in T. specialize (T 0 I). unfold char_ok in T. lia. Qed.

(* ---- numbers ---- *)
Definition digit (c : Z) : Prop := 48 <= c <= 57.
Lemma digits_spec : forall k n acc, 0 <= n < 10 ^ Z.of_nat k -> (0 < k)%nat ->
  exists D, digits k n acc = D ++ acc /\ Forall digit D /\ D <> []
    /\ (forall a rest, c_atoi_loop (D ++ rest) a = c_atoi_loop rest (a * 10 ^ len D + n))
    /\ (forall j, 1 <= j -> n < 10 ^ j -> len D <= j).
Proof.
  induction k as [|k IH]; intros n acc H K; [lia|]. cbn [digits].
  assert (Dg : digit (48 + n mod 10)) by (unfold digit; lia).
  assert (St : forall a rest, c_atoi_loop ((48 + n mod 10) :: rest) a = c_atoi_loop rest (10 * a + n mod 10)).
  { intros a rest. cbn [c_atoi_loop]. unfold digit in Dg. replace ((48 <=? 48 + n mod 10) && (48 + n mod 10 <=? 57)) with true by lia. f_equal. lia. }
  destruct (Z.ltb_spec n 10) as [L|L].
  - exists [48 + n mod 10]. split; [reflexivity|]. split; [constructor; [exact Dg|constructor]|]. split; [discriminate|].
    split; [|intros j J _; change (len [48 + n mod 10]) with 1; exact J].
    intros a rest. cbn [app]. rewrite St. change (len [48 + n mod 10]) with 1. f_equal. rewrite Z.mod_small by lia. lia.
  - destruct k as [|k].
    { change (10 ^ Z.of_nat 1) with 10 in H. lia. }
    rewrite Nat2Z.inj_succ, Z.pow_succ_r in H by lia.
    destruct (IH (n / 10) ((48 + n mod 10) :: acc)) as (D & E & F & Nd & At & Ln).
    { split; [apply Z.div_pos; lia|]. apply Z.div_lt_upper_bound; lia. } { lia. }
    exists (D ++ [48 + n mod 10]). split; [rewrite E, <- app_assoc; reflexivity|].
    split; [apply Forall_app; split; [exact F|constructor; [exact Dg|constructor]]|]. split; [destruct D; discriminate|].
    rewrite len_app. change (len [48 + n mod 10]) with 1. split.
    + intros a rest. rewrite <- app_assoc. cbn [app]. rewrite At, St. f_equal. rewrite Z.pow_add_r by (try lia; apply len_nonneg).
      change (10 ^ 1) with 10. pose proof (Z.div_mod n 10). lia.
    + intros j J Lj. assert (2 <= j). { destruct (Z.eq_dec j 1) as [->|]; [change (10 ^ 1) with 10 in Lj; lia|lia]. }
      assert (len D <= j - 1); [|lia]. apply Ln; [lia|]. apply Z.div_lt_upper_bound; [lia|]. rewrite <- Z.pow_succ_r by lia.
      replace (Z.succ (j - 1)) with j by lia. exact Lj.
Qed.
Lemma printed_spec : forall v j, 1 <= j <= 20 -> - 10 ^ j < v < 10 ^ j ->
  text_ok (printed v) /\ len (printed v) <= j + (if v <? 0 then 1 else 0) /\ c_atoi (printed v) = v.
Proof.
  intros v j J H. assert (10 ^ j <= 10 ^ 20) by (apply Z.pow_le_mono_r; lia). unfold printed. destruct (Z.ltb_spec v 0) as [V|V].
  - destruct (digits_spec 20 (- v) []) as (D & E & F & N & At & Ln); [change (Z.of_nat 20) with 20; lia|lia|].
    rewrite E, app_nil_r. split; [constructor; [unfold char_ok; lia|eapply Forall_impl; [|exact F]; unfold digit, char_ok; intros; lia]|].
    split; [rewrite len_cons; specialize (Ln j); lia|]. cbn [c_atoi]. rewrite <- (app_nil_r D), At. cbn [c_atoi_loop]. lia.
  - destruct (digits_spec 20 v []) as (D & E & F & N & At & Ln); [change (Z.of_nat 20) with 20; lia|lia|].
    rewrite E, app_nil_r. split; [eapply Forall_impl; [|exact F]; unfold digit, char_ok; intros; lia|].
    split; [specialize (Ln j); lia|].
    assert (c_atoi D = c_atoi_loop D 0) as ->.
    { destruct D as [|d D]; [congruence|]. inversion F as [|? ? Fd _]; subst. unfold digit in Fd. unfold c_atoi.
      do 46 (destruct d as [|d|d]; try lia; try reflexivity). }
    rewrite <- (app_nil_r D), At. cbn [c_atoi_loop]. lia.
Qed.

Lemma strncpy_text : forall n t r, text_ok t -> c_strncpy (t ++ 0 :: r) n = Ok (firstn n t ++ repeat 0 (n - length t)).
Proof.
  intros n. induction n as [|n IH]; intros t r T; [destruct t; reflexivity|]. destruct t as [|c t]; cbn [app c_strncpy firstn length].
  - rewrite Z.eqb_refl. reflexivity.
  - inversion T as [|? ? C T']; subst. unfold char_ok in C. destruct (Z.eqb_spec c 0); [lia|]. rewrite (IH t r T'). cbn [rmap bind].
    reflexivity.
Qed.
