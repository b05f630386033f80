(* Proofs about the string helpers. *)
From Coq Require Import ZArith List Bool Lia ZifyBool ZifyNat.
From Verif Require Import CSem P_Base M_String Spec_String.
Import ListNotations.
Open Scope Z_scope.
Ltac Zify.zify_post_hook ::= Z.div_mod_to_equations.

Lemma cells_text_ok : forall t r, text_ok t -> cells_text (cells t r) = Ok t.
Proof.
  intros t r H. induction H as [|c t Hc Ht IH]; [reflexivity|].
  unfold cells in *. cbn [map app cells_text]. destruct (Z.eqb_spec c 0); [unfold char_ok in Hc; lia|]. rewrite IH. reflexivity.
Qed.
Lemma ctext_block : forall t r, text_ok t -> ctext (block t r) = Ok t.
Proof. intros t r H. unfold ctext, block. rewrite map_app. cbn [map]. exact (cells_text_ok t (map Some r) H). Qed.
Lemma len_cells : forall t r, len (cells t r) = len t + 1 + len r.
Proof. intros. unfold cells. rewrite len_app, len_cons, len_map. lia. Qed.

Lemma fresh_len : forall n, 0 <= n -> len (fresh_buf n) = n.
Proof. intros. unfold fresh_buf. rewrite len_repeat. lia. Qed.
Lemma rd_prefix : forall A (b r : list A), rd_range (b ++ r) 0 (len b) = Ok b.
Proof. intros A b r. exact (rd_range_app A [] b r 0 (len b) eq_refl eq_refl). Qed.

(* writing text and NUL after [pre] into a block with room *)
Lemma write_text : forall pre b rest m, len b + 1 <= len rest -> m = len pre ->
  exists slack, bind (wr_range (pre ++ rest) m (map Some b)) (fun blk => wr blk (m + len b) (Some 0))
    = Ok (pre ++ cells b slack) /\ len (pre ++ cells b slack) = len (pre ++ rest).
Proof.
  intros pre b rest m H ->. exists (skipn (Z.to_nat (len b + 1)) rest).
  assert (E1 : wr_range (pre ++ rest) (len pre) (map Some b) = Ok (pre ++ map Some b ++ skipn (length b) rest)).
  { unfold wr_range. rewrite len_map, len_app. pose proof (len_nonneg _ pre). pose proof (len_nonneg _ b).
    destruct (Z.eqb_spec (len b) 0) as [E|E].
    - apply len_0_nil in E. subst b. reflexivity.
    - destruct ((0 <=? len pre) && (len pre + len b <=? len pre + len rest)) eqn:C; [|lia].
      rewrite to_nat_len, firstn_app, Nat.sub_diag, firstn_all, firstn_O, app_nil_r.
      replace (Z.to_nat (len pre + len b)) with (length pre + length b)%nat by (unfold len; lia).
      rewrite skipn_app, skipn_all2 by lia. replace (length pre + length b - length pre)%nat with (length b) by lia. reflexivity. }
  rewrite E1. cbn [bind].
  assert (R : exists x, skipn (length b) rest = x :: skipn (Z.to_nat (len b + 1)) rest).
  { replace (Z.to_nat (len b + 1)) with (S (length b)) by (unfold len; lia).
    assert (L : (length b < length rest)%nat) by (unfold len in H; lia). clear -L. revert rest L. generalize (length b) as n.
    induction n as [|n IH]; intros [|x rest] L; cbn [length] in L; try lia; [exists x; reflexivity|]. cbn [skipn]. apply IH. lia. }
  destruct R as (x & R). rewrite R. split.
  - unfold wr. rewrite !len_app, len_map, len_cons. pose proof (len_nonneg _ pre). pose proof (len_nonneg _ b).
    set (tl := skipn (Z.to_nat (len b + 1)) rest). pose proof (len_nonneg _ tl).
    destruct ((0 <=? len pre + len b) && (len pre + len b <? len pre + (len b + (1 + len tl)))) eqn:C; [|lia].
    rewrite !app_assoc. assert (L : length (pre ++ map Some b) = Z.to_nat (len pre + len b)).
    { rewrite app_length, map_length. unfold len. lia. }
    rewrite <- L, firstn_app, Nat.sub_diag, firstn_all, firstn_O, app_nil_r.
    replace (Z.to_nat (len pre + len b + 1)) with (S (length (pre ++ map Some b))) by (rewrite L; lia).
    rewrite skipn_app, skipn_all2 by lia. replace (S (length (pre ++ map Some b)) - length (pre ++ map Some b))%nat with 1%nat by lia.
    cbn [skipn app]. unfold cells. rewrite !app_assoc. reflexivity.
  - rewrite !len_app, len_cells. unfold len in *. rewrite skipn_length. lia.
Qed.

Lemma setn_spec : forall mem s b r, plenty mem -> len b + 17 <= OBJECT_MAX ->
  exists s', uecho_string_setnvalue mem s (PExt (map Some b ++ r)) (len b) = Ok s' /\ stands s' (Some b).
Proof.
  intros mem s b r P L. pose proof (len_nonneg _ b) as N. unfold uecho_string_setnvalue.
  assert (Z1 : sz (len b + 1) = len b + 1) by (apply sz_small; unfold SIZE_MOD, OBJECT_MAX in *; lia). rewrite Z1.
  rewrite P by lia. cbn [negb]. 
  assert (RD : rd_range (map Some b ++ r) 0 (len b) = Ok (map Some b)).
  { rewrite <- (len_map _ _ (@Some Z) b). apply rd_prefix. }
  rewrite RD. cbn [bind].
  destruct (write_text [] b (fresh_buf (len b + 1)) 0) as (sl & W & LW).
  { rewrite fresh_len; lia. } { reflexivity. }
  cbn [app] in W, LW. change (0 + len b) with (len b) in W.
  destruct (wr_range (fresh_buf (len b + 1)) 0 (map Some b)) as [blk|u]; [|discriminate]. cbn [bind] in *. rewrite W. cbn [bind].
  eexists. split; [reflexivity|]. exists sl. cbn. split; [reflexivity|]. split; [reflexivity|].
  rewrite LW, fresh_len; lia.
Qed.

Lemma stands_size : forall s v, stands s v -> st_size s = vlen v.
Proof. intros s [t|] H; cbn in *; [destruct H as (sl & _ & H & _); exact H|subst s; reflexivity]. Qed.
Lemma firstn_fit : forall A (a b : list A) n, (length a <= n)%nat -> firstn n (a ++ b) = a ++ firstn (n - length a) b.
Proof. intros. rewrite firstn_app, firstn_all2 by lia. reflexivity. Qed.

(* appending bytes that lie outside the string *)
Lemma nadd_spec : forall mem s v b r, plenty mem -> stands s v -> vlen (appended v b) + 17 <= OBJECT_MAX ->
  exists s', rmap fst (uecho_string_naddvalue mem s (PExt (map Some b ++ r)) (len b)) = Ok s' /\ stands s' (appended v b).
Proof.
  intros mem s v b r P S L. unfold uecho_string_naddvalue.
  destruct (Z.eqb_spec (len b) 0) as [E|E].
  { apply len_0_nil in E. subst b. cbn. eauto. }
  assert (A : appended v b = Some (match v with None => [] | Some u => u end ++ b)) by (destruct b; [exfalso; apply E; reflexivity|reflexivity]).
  rewrite A in *. set (u := match v with None => [] | Some u => u end) in *.
  cbn [vlen] in L. rewrite len_app in L. pose proof (len_nonneg _ b) as N. pose proof (len_nonneg _ u) as Nu.
  assert (Sz : st_size s = len u) by (rewrite (stands_size _ _ S); subst u; destruct v; reflexivity). rewrite Sz.
  assert (Z1 : sz (len u + len b) = len u + len b) by (apply sz_small; unfold SIZE_MOD, OBJECT_MAX in *; lia).
  assert (Z2 : sz (len u + len b + 1) = len u + len b + 1) by (apply sz_small; unfold SIZE_MOD, OBJECT_MAX in *; lia).
  assert (Z3 : sz (len u + len b + 1 + 16) = len u + len b + 17) by (rewrite sz_small; unfold SIZE_MOD, OBJECT_MAX in *; lia).
  rewrite Z1, Z2, Z3.
  assert (RD : rd_range (map Some b ++ r) 0 (len b) = Ok (map Some b)).
  { rewrite <- (len_map _ _ (@Some Z) b). apply rd_prefix. }
  rewrite RD.
  assert (G : exists old tail, (match st_value s with Some b0 => b0 | None => [] end) = old
     /\ (old = [] /\ u = [] /\ st_value s = None \/ exists sl, old = map Some u ++ Some 0 :: sl /\ st_mem s = len old) /\ tail = tt).
  { eexists. exists tt. split; [reflexivity|]. split; [|reflexivity]. subst u. destruct v as [t|]; cbn in S.
    - destruct S as (sl & V & _ & M). right. exists sl. rewrite V. split; [reflexivity|exact M].
    - subst s. left. repeat split. }
  destruct G as (old & _ & Eo & G & _). rewrite Eo.
  match goal with |- context [if ?c then _ else _] => destruct c eqn:C end.
  - rewrite P by lia. cbn [negb bind].
    assert (F : exists rest, firstn (Z.to_nat (len u + len b + 17)) (old ++ fresh_buf (len u + len b + 17)) = map Some u ++ rest
       /\ len (map Some u ++ rest) = len u + len b + 17).
    { assert (Lf : len (firstn (Z.to_nat (len u + len b + 17)) (old ++ fresh_buf (len u + len b + 17))) = len u + len b + 17).
      { unfold len at 1. rewrite firstn_length, app_length. pose proof (fresh_len (len u + len b + 17) ltac:(lia)) as Fl. unfold len at 1 in Fl. lia. }
      destruct G as [(-> & -> & _)|(sl & -> & _)].
      - cbn [app map]. eexists. split; [reflexivity|exact Lf].
      - rewrite <- app_assoc in *. rewrite (firstn_fit _ (map Some u)) in *.
        2, 3: rewrite map_length; unfold len; lia.
        eexists. split; [reflexivity|exact Lf]. }
    destruct F as (rest & -> & Lr). rewrite len_app, len_map in Lr.
    destruct (write_text (map Some u) b rest (len u)) as (sl & W & LW).
    { lia. } { rewrite len_map. reflexivity. }
    destruct (wr_range (map Some u ++ rest) (len u) (map Some b)) as [blk|x]; [|discriminate]. cbn [bind] in *. rewrite W.
    cbn [bind rmap fst]. eexists. split; [reflexivity|]. exists sl. cbn [st_value st_size st_mem].
    assert (Ec : map Some u ++ cells b sl = cells (u ++ b) sl) by (unfold cells; rewrite map_app, app_assoc; reflexivity).
    rewrite <- Ec. split; [reflexivity|]. split; [rewrite len_app; reflexivity|].
    rewrite LW, len_app, len_map. lia.
  - apply orb_false_iff in C. destruct C as [C1 C2].
    destruct G as [(_ & _ & V)|(sl0 & -> & M)]; [rewrite V in C2; discriminate|]. cbn [bind].
    destruct (write_text (map Some u) b (Some 0 :: sl0) (len u)) as (sl & W & LW).
    { rewrite M in C1. rewrite len_app, len_map in C1. lia. } { rewrite len_map. reflexivity. }
    destruct (wr_range (map Some u ++ Some 0 :: sl0) (len u) (map Some b)) as [blk|x]; [|discriminate]. cbn [bind] in *. rewrite W.
    cbn [bind rmap fst]. eexists. split; [reflexivity|]. exists sl. cbn [st_value st_size st_mem].
    assert (Ec : map Some u ++ cells b sl = cells (u ++ b) sl) by (unfold cells; rewrite map_app, app_assoc; reflexivity).
    rewrite <- Ec. split; [reflexivity|]. split; [rewrite len_app; reflexivity|].
    rewrite LW. exact M.
Qed.

Lemma appended_app : forall v a b, appended (appended v a) b = appended v (a ++ b).
Proof.
  intros v a b. destruct a as [|x a]; [reflexivity|]. destruct b as [|y b]; [rewrite app_nil_r; reflexivity|].
  cbn [appended app]. rewrite <- app_assoc. reflexivity.
Qed.
Lemma vlen_appended : forall v a, vlen (appended v a) = vlen v + len a.
Proof. intros v [|x a]; cbn [appended]; [rewrite len_nil; lia|]. destruct v; cbn [vlen]; rewrite len_app; [reflexivity|rewrite len_nil; lia]. Qed.
Lemma add_is_nadd : forall mem s t r, text_ok t ->
  uecho_string_addvalue mem s (PExt (cells t r)) = uecho_string_naddvalue mem s (PExt (map Some t ++ Some 0 :: r)) (len t).
Proof. intros mem s t r T. unfold uecho_string_addvalue, src_len. rewrite (cells_text_ok _ _ T). reflexivity. Qed.

Lemma rep_spec : forall mem b r, plenty mem -> forall k s v, stands s v ->
  vlen (appended v (concat (repeat b k))) + 17 <= OBJECT_MAX ->
  exists s', repeated (fun s => uecho_string_naddvalue mem s (PExt (map Some b ++ r)) (len b)) k s = Ok s'
    /\ stands s' (appended v (concat (repeat b k))).
Proof.
  intros mem b r P. induction k as [|k IH]; intros s v S L; cbn [repeated repeat concat] in *; [eauto|].
  rewrite <- appended_app in *.
  assert (L1 : vlen (appended v b) + 17 <= OBJECT_MAX).
  { rewrite vlen_appended in L. pose proof (len_nonneg _ (concat (repeat b k))). lia. }
  destruct (nadd_spec mem s v b r P S L1) as (s1 & E & S1).
  destruct (uecho_string_naddvalue mem s (PExt (map Some b ++ r)) (len b)) as [[s2 f]|u]; [|discriminate].
  cbn [rmap fst] in E. injection E as ->. cbn [bind fst]. exact (IH _ _ S1 L).
Qed.

Lemma tstep_spec : forall mem s v op, plenty mem -> stands s v -> top_ok v op ->
  exists s', tstep mem s op = Ok s' /\ stands s' (vstep v op).
Proof.
  intros mem s v op P S [O L].
  assert (C : stands (uecho_string_clear s) None).
  { unfold uecho_string_clear. destruct v as [t|]; cbn in S; [destruct S as (sl & V & _); rewrite V; reflexivity|subst s; reflexivity]. }
  destruct op as [| |t r|n|b r| |t r|n|b r|t r k|b r k]; cbn [tstep vstep] in *.
  - eauto.
  - cbn. eauto.
  - unfold uecho_string_setvalue, src_len. rewrite (cells_text_ok _ _ O). cbn [rmap bind].
    exact (setn_spec mem s t (Some 0 :: r) P L).
  - cbn. eauto.
  - exact (setn_spec mem s b r P L).
  - cbn. eauto.
  - rewrite (add_is_nadd _ _ _ _ O). exact (nadd_spec mem s v t (Some 0 :: r) P S L).
  - cbn. eauto.
  - exact (nadd_spec mem s v b r P S L).
  - destruct O as [T K]. unfold uecho_string_addrepvalue. destruct (Z.ltb_spec INT_MAX k); [lia|].
    destruct (rep_spec mem t (Some 0 :: r) P (Z.to_nat k) s v S L) as (s' & E & S').
    exists s'. split; [|exact S']. rewrite <- E. generalize s at 1 2. generalize (Z.to_nat k).
    induction n as [|n IH]; intros s0; cbn [repeated]; [reflexivity|]. rewrite (add_is_nadd _ _ _ _ T).
    destruct (uecho_string_naddvalue mem s0 (PExt (map Some t ++ Some 0 :: r)) (len t)); [cbn [bind]; apply IH|reflexivity].
  - unfold uecho_string_naddrepvalue. destruct (Z.ltb_spec INT_MAX k); [lia|].
    exact (rep_spec mem b r P (Z.to_nat k) s v S L).
Qed.
Lemma trun_spec : forall mem ops s v, plenty mem -> stands s v -> tops_ok v ops ->
  exists s', trun mem s ops = Ok s' /\ stands s' (fold_left vstep ops v).
Proof.
  intros mem ops. induction ops as [|op ops IH]; intros s v P S O; cbn [trun fold_left]; [eauto|].
  destruct O as [O1 O2]. destruct (tstep_spec mem s v op P S O1) as (s1 & E & S1). rewrite E. cbn [bind]. exact (IH _ _ P S1 O2).
Qed.

(* ---- replacing ---- *)
Lemma prefixb_iff : forall b a, prefixb b a = true <-> exists x, a = b ++ x.
Proof.
  induction b as [|x b IH]; intros a; cbn [prefixb].
  - split; [intros _; exists a; reflexivity|reflexivity].
  - destruct a as [|y a]; [split; [discriminate|intros (z & E); discriminate]|].
    rewrite andb_true_iff, IH, Z.eqb_eq. split.
    + intros (-> & z & ->). exists z. reflexivity.
    + intros (z & E). injection E as -> ->. eauto.
Qed.
Lemma strn_prefix : forall f t rf sl, text_ok f -> text_ok t ->
  strn_eq (cells f rf) (cells t sl) (length f) = Ok (prefixb f t).
Proof.
  induction f as [|x f IH]; intros t rf sl Hf Ht; [reflexivity|].
  inversion Hf as [|? ? H1 H2]; subst. unfold char_ok in H1. unfold cells. cbn [length map app strn_eq].
  destruct t as [|y t]; cbn [map app prefixb].
  - destruct (Z.eqb_spec x 0); [lia|reflexivity].
  - destruct (Z.eqb_spec x y) as [->|]; [|reflexivity]. destruct (Z.eqb_spec y 0); [lia|].
    inversion Ht; subst. exact (IH t rf sl H2 ltac:(assumption)).
Qed.
Lemma skip_cells : forall a t sl, skipn (length a) (cells (a ++ t) sl) = cells t sl.
Proof.
  intros a t sl. unfold cells. rewrite map_app, <- app_assoc. replace (length a) with (length (map (@Some Z) a)) by apply map_length.
  rewrite skipn_app, skipn_all, Nat.sub_diag. reflexivity.
Qed.
Lemma app_split : forall (a b x y : list Z), a ++ x = b ++ y -> (exists z, a = b ++ z) \/ (exists z, b = a ++ z).
Proof.
  induction a as [|c a IH]; intros b x y E; [right; exists b; reflexivity|].
  destruct b as [|d b]; [left; exists (c :: a); reflexivity|]. cbn in E. injection E as -> E.
  destruct (IH _ _ _ E) as [(z & ->)|(z & ->)]; [left|right]; exists z; reflexivity.
Qed.
(* two patterns that match at one place are the same *)
Lemma one_pattern : forall ps, prefix_free ps -> forall p q x y, In p ps -> In q ps -> fst p ++ x = fst q ++ y -> p = q.
Proof.
  intros ps F p q x y Ip Iq E. apply in_split in Ip. destruct Ip as (l1 & l2 & ->).
  apply in_app_or in Iq. destruct Iq as [Iq|[Iq|Iq]].
  - exfalso. apply in_split in Iq. destruct Iq as (l3 & l4 & ->). destruct p as [f u], q as [g w].
    specialize (F l3 g w l4 f u l2). destruct F as [F1 F2]; [rewrite <- app_assoc; reflexivity|]. cbn [fst] in E.
    destruct (app_split _ _ _ _ E) as [(z & Ez)|(z & Ez)]; [exact (F2 _ Ez)|exact (F1 _ Ez)].
  - exact Iq.
  - exfalso. apply in_split in Iq. destruct Iq as (l3 & l4 & ->). destruct p as [f u], q as [g w].
    specialize (F l1 f u l3 g w l4). destruct F as [F1 F2]; [reflexivity|]. cbn [fst] in E.
    destruct (app_split _ _ _ _ E) as [(z & Ez)|(z & Ez)]; [exact (F1 _ Ez)|exact (F2 _ Ez)].
Qed.
Lemma replaced_hit : forall ps f u t r, prefix_free ps -> In (f, u) ps -> f <> [] -> replaced ps (f ++ t) r ->
  exists r', r = u ++ r' /\ replaced ps t r'.
Proof.
  intros ps f u t r F I N H. remember (f ++ t) as ft eqn:E. destruct H as [|g w t1 r1 pre post Ep Ng _ H|c t1 r1 S H].
  - destruct f; [congruence|discriminate].
  - assert (X : (f, u) = (g, w)).
    { apply (one_pattern ps F (f, u) (g, w) t t1 I); [rewrite Ep; apply in_or_app; right; left; reflexivity|]. cbn. auto. }
    injection X as <- <-. apply app_inv_head in E. subst t1. eauto.
  - exfalso. exact (S f u t I E).
Qed.
Lemma replaced_skip : forall ps c t r, (forall g w x, In (g, w) ps -> c :: t <> g ++ x) -> replaced ps (c :: t) r ->
  exists r', r = c :: r' /\ replaced ps t r'.
Proof.
  intros ps c t r S H. remember (c :: t) as ct eqn:E. destruct H as [|g w t1 r1 pre post Ep Ng _ H|c1 t1 r1 _ H].
  - discriminate.
  - exfalso. refine (S g w t1 _ eq_refl). rewrite Ep. apply in_or_app. right. left. reflexivity.
  - injection E as <- <-. eauto.
Qed.
Lemma replaced_nil : forall ps r, replaced ps [] r -> r = [].
Proof.
  intros ps r H. remember [] as e eqn:E. destruct H as [|g w t1 r1 pre post Ep Ng _ H|c t1 r1 _ H]; [reflexivity| |discriminate].
  exfalso. apply Ng. destruct g; [reflexivity|discriminate].
Qed.
Lemma text_app : forall a b, text_ok (a ++ b) <-> text_ok a /\ text_ok b.
Proof. intros. unfold text_ok. apply Forall_app. Qed.
Lemma replaced_text : forall ps t r, replaced ps t r -> text_ok t -> Forall (fun p => text_ok (snd p)) ps -> text_ok r.
Proof.
  intros ps t r H. induction H as [|f u t r pre post E N S H IH|c t r S H IH]; intros T P.
  - exact T.
  - apply text_app in T. apply text_app. split; [|apply IH; [apply T|exact P]].
    rewrite Forall_forall in P. apply (P (f, u)). rewrite E. apply in_or_app. right. left. reflexivity.
  - inversion T; subst. constructor; [assumption|apply IH; assumption].
Qed.
(* every text can be replaced if no pattern is empty *)
Lemma replaced_total : forall ps, Forall (fun p : list Z * list Z => fst p <> []) ps -> forall n t, (length t <= n)%nat -> exists r, replaced ps t r.
Proof.
  intros ps N. induction n as [|n IH]; intros t L.
  - destruct t; [eexists; constructor|cbn in L; lia].
  - destruct t as [|c t]; [eexists; constructor|].
    assert (X : (exists pre f u post x, ps = pre ++ (f, u) :: post /\ c :: t = f ++ x /\ forall g w y, In (g, w) pre -> c :: t <> g ++ y)
      \/ forall g w y, In (g, w) ps -> c :: t <> g ++ y).
    { clear N IH. induction ps as [|[f u] ps IH]; [right; intros g w y []|].
      destruct (prefixb f (c :: t)) eqn:B.
      - apply prefixb_iff in B. destruct B as (x & B). left. exists [], f, u, ps, x. split; [reflexivity|]. split; [exact B|]. intros g w y [].
      - assert (B' : forall y, c :: t <> f ++ y).
        { intros y Ey. assert (prefixb f (c :: t) = true) by (apply prefixb_iff; eauto). congruence. }
        destruct IH as [(pre & f1 & u1 & post & x & -> & E1 & E2)|E1].
        + left. exists ((f, u) :: pre), f1, u1, post, x. split; [reflexivity|]. split; [exact E1|].
          intros g w y [I|I]; [injection I as <- <-; apply B'|exact (E2 _ _ _ I)].
        + right. intros g w y [I|I]; [injection I as <- <-; apply B'|exact (E1 _ _ _ I)]. }
    destruct X as [(pre & f & u & post & x & E & Ex & S)|S].
    + assert (Nf : f <> []) by (rewrite Forall_forall in N; apply (N (f, u)); rewrite E; apply in_or_app; right; left; reflexivity).
      destruct (IH x) as (r & R).
      { apply (f_equal (@length Z)) in Ex. rewrite app_length in Ex. cbn [length] in *. destruct f; [congruence|cbn [length] in Ex; lia]. }
      exists (u ++ r). rewrite Ex in S |- *. exact (r_hit ps f u x r pre post E Nf S R).
    + destruct (IH t) as (r & R); [cbn in L; lia|]. exists (c :: r). exact (r_skip ps c t r S R).
Qed.

Lemma add_arg : forall mem s v p a, plenty mem -> stands s v -> pat_arg p a -> vlen v + len (snd p) + 17 <= OBJECT_MAX ->
  exists s' f, uecho_string_addvalue mem s (snd a) = Ok (s', f) /\ stands s' (appended v (snd p)).
Proof.
  intros mem s v p a P S (_ & _ & T & _ & A) L. destruct A as [(rest & ->)|(-> & E)].
  - rewrite (add_is_nadd _ _ _ _ T). destruct (nadd_spec mem s v (snd p) (Some 0 :: rest) P S) as (s' & E & S').
    { rewrite vlen_appended. lia. }
    destruct (uecho_string_naddvalue mem s _ _) as [[s2 f]|u]; [|discriminate]. cbn in E. injection E as ->. eauto.
  - rewrite E. cbn. eauto.
Qed.

Definition pat_arg3 (p : list Z * list Z) (a : list (option Z) * Z * src) : Prop :=
  pat_arg p (fst (fst a), snd a) /\ snd (fst a) = len (fst p).
Lemma pattern_lens_ok : forall ps args, Forall2 pat_arg ps args -> exists l, pattern_lens args = Ok l /\ Forall2 pat_arg3 ps l.
Proof.
  intros ps args H. induction H as [|p [f t] ps args A H (l & E & L)]; [exists []; split; [reflexivity|constructor]|].
  assert (A' := A). destruct A as (T & _ & _ & (rest & Ef) & _). cbn [fst snd] in *. cbn [pattern_lens]. rewrite Ef, (cells_text_ok _ _ T). cbn [bind]. rewrite E. cbn [bind].
  eexists. split; [reflexivity|]. constructor; [|exact L]. split; [cbn; rewrite <- Ef; exact A'|reflexivity].
Qed.

Section Rep.
Variables (mem : Z -> bool) (ps : list (list Z * list Z)) (orig : list Z) (sl : list (option Z)).
Hypothesis (P : plenty mem) (F : prefix_free ps) (To : text_ok orig) (Lo : len orig <= INT_MAX).

Lemma inner_spec : forall cur args, Forall2 pat_arg3 cur args -> incl cur ps ->
  forall a t acc v r rep, orig = a ++ t -> stands acc v -> replaced ps t r -> vlen v + len r + 17 <= OBJECT_MAX ->
  exists acc' rep' a' t' u r', replace_inner mem args (cells orig sl) (len a) acc rep = Ok (len a', acc', rep')
    /\ orig = a' ++ t' /\ stands acc' (appended v u) /\ r = u ++ r' /\ replaced ps t' r'
    /\ ((rep' = rep /\ a' = a /\ t' = t /\ u = [] /\ forall g w x, In (g, w) cur -> t <> g ++ x)
        \/ (rep' = true /\ len a < len a')).
Proof.
  intros cur args H. induction H as [|[f u] [[fb n] tb] cur args [A An] H IH]; intros I a t acc v r rep E S R L; cbn [replace_inner].
  - exists acc, rep, a, t, [], r. split; [reflexivity|]. split; [exact E|]. split; [exact S|]. split; [reflexivity|]. split; [exact R|].
    left. repeat split. intros g w x [].
  - cbn [fst snd] in *. subst n. assert (A' := A). destruct A' as (Tf & Nf & Tu & (rest & Ef) & _). cbn [fst snd] in *. subst fb.
    assert (Tt : text_ok t) by (rewrite E in To; apply text_app in To; apply To).
    assert (Es : skipn (Z.to_nat (len a)) (cells orig sl) = cells t sl) by (rewrite E, to_nat_len; apply skip_cells).
    rewrite Es, to_nat_len, (strn_prefix f t rest sl Tf Tt). cbn [bind].
    assert (If : In (f, u) ps) by (apply I; left; reflexivity).
    assert (I' : incl cur ps) by (intros z Hz; apply I; right; exact Hz).
    destruct (prefixb f t) eqn:B.
    + apply prefixb_iff in B. destruct B as (t1 & ->). destruct (replaced_hit ps f u t1 r F If Nf R) as (r1 & -> & R1).
      rewrite len_app in L.
      destruct (add_arg mem acc v (f, u) (cells f rest, tb) P S A) as (acc1 & fl & Ea & S1).
      { cbn [snd]. pose proof (len_nonneg _ r1). lia. }
      cbn [snd] in Ea, S1. rewrite Ea. cbn [bind fst].
      assert (Lp : len a + len f <= INT_MAX).
      { rewrite E, !len_app in Lo. pose proof (len_nonneg _ t1). lia. }
      unfold int_chk. pose proof (len_nonneg _ a). pose proof (len_nonneg _ f).
      destruct ((INT_MIN <=? len a + len f) && (len a + len f <=? INT_MAX)) eqn:C; [|unfold INT_MIN in C; lia]. cbn [bind].
      rewrite <- len_app.
      destruct (IH I' (a ++ f) t1 acc1 (appended v u) r1 true) as (acc' & rep' & a' & t' & u' & r' & Ei & E2 & S2 & Er & R2 & C2).
      { rewrite <- app_assoc. exact E. } { exact S1. } { exact R1. } { rewrite vlen_appended. lia. }
      exists acc', rep', a', t', (u ++ u'), r'. split; [exact Ei|]. split; [exact E2|].
      rewrite appended_app in S2. split; [exact S2|]. split; [rewrite Er, app_assoc; reflexivity|]. split; [exact R2|]. right.
      assert (len f <> 0) by (intros Z0; apply Nf; apply len_0_nil; exact Z0).
      destruct C2 as [(-> & -> & _)|(-> & C2)]; (split; [reflexivity|]); rewrite ?len_app in *; lia.
    + destruct (IH I' a t acc v r rep E S R L) as (acc' & rep' & a' & t' & u' & r' & Ei & E2 & S2 & Er & R2 & C2).
      exists acc', rep', a', t', u', r'. split; [exact Ei|]. split; [exact E2|]. split; [exact S2|]. split; [exact Er|]. split; [exact R2|].
      destruct C2 as [(C2 & C3 & C4 & C5 & C6)|C2]; [left|right; exact C2]. split; [exact C2|]. split; [exact C3|]. split; [exact C4|].
      split; [exact C5|]. intros g w x [J|J]; [|exact (C6 g w x J)]. injection J as <- <-. intros Ex.
      assert (prefixb f t = true) by (apply prefixb_iff; eauto). congruence.
Qed.

Lemma loop_spec : forall args, Forall2 pat_arg3 ps args -> forall k a t acc v r, (length t <= k)%nat -> orig = a ++ t -> stands acc v ->
  replaced ps t r -> vlen v + len r + 17 <= OBJECT_MAX ->
  exists acc', replace_loop mem k args (cells orig sl) (len orig) (len a) acc = Ok acc' /\ stands acc' (appended v r).
Proof.
  intros args HA. induction k as [|k IH]; intros a t acc v r Lk E S R L; cbn [replace_loop].
  - destruct t; [|cbn in Lk; lia]. rewrite app_nil_r in E. subst a. rewrite Z.leb_refl.
    apply replaced_nil in R. subst r. exists acc. split; [reflexivity|exact S].
  - destruct (Z.leb_spec (len orig) (len a)) as [Q|Q].
    + assert (t = []). { rewrite E, len_app in Q. apply len_0_nil. pose proof (len_nonneg _ t). lia. } subst t.
      apply replaced_nil in R. subst r. exists acc. split; [reflexivity|exact S].
    + destruct (inner_spec ps args HA (incl_refl ps) a t acc v r false E S R L) as (acc' & rep' & a' & t' & u & r' & Ei & E2 & S2 & Er & R2 & C).
      rewrite Ei. cbn [bind]. destruct C as [(-> & -> & -> & -> & C)|(-> & C)].
      * destruct t as [|c t]; [rewrite app_nil_r in E; subst a; lia|].
        destruct (replaced_skip ps c t r C R) as (r1 & -> & R1). cbn [app] in Er. subst r'.
        assert (Es : skipn (Z.to_nat (len a)) (cells orig sl) = cells (c :: t) sl) by (rewrite E, to_nat_len; apply skip_cells).
        rewrite Es.
        change (cells (c :: t) sl) with (map Some [c] ++ cells t sl). change 1 with (len [c]) at 1.
        change (appended v []) with v in S2. rewrite len_cons in L. pose proof (len_nonneg _ r1).
        destruct (nadd_spec mem acc' v [c] (cells t sl) P S2) as (s1 & En & S3). { rewrite vlen_appended. change (len [c]) with 1. lia. }
        destruct (uecho_string_naddvalue mem acc' _ _) as [[s2 fl]|x]; [|discriminate]. cbn in En. injection En as ->. cbn [bind fst].
        assert (Lp : len a + 1 <= INT_MAX). { rewrite E, len_app, len_cons in Lo. pose proof (len_nonneg _ t). lia. }
        unfold int_chk. pose proof (len_nonneg _ a).
        destruct ((INT_MIN <=? len a + 1) && (len a + 1 <=? INT_MAX)) eqn:C2; [|unfold INT_MIN in C2; lia]. cbn [bind].
        replace (len a + 1) with (len (a ++ [c])) by (rewrite len_app; reflexivity).
        destruct (IH (a ++ [c]) t s1 (appended v [c]) r1) as (acc2 & El & S4).
        { cbn in Lk. lia. } { rewrite <- app_assoc. exact E. } { exact S3. } { exact R1. } { rewrite vlen_appended. change (len [c]) with 1. lia. }
        exists acc2. split; [exact El|]. rewrite appended_app in S4. exact S4.
      * destruct (Z.eqb_spec (len a') (len a)); [lia|]. subst r. rewrite len_app in L.
        destruct (IH a' t' acc' (appended v u) r') as (acc2 & El & S4).
        { assert (len t' < len t). { rewrite E in E2. apply (f_equal len) in E2. rewrite !len_app in E2. lia. } unfold len in *. lia. }
        { exact E2. } { exact S2. } { exact R2. } { rewrite vlen_appended. lia. }
        exists acc2. split; [exact El|]. rewrite appended_app in S4. exact S4.
Qed.
End Rep.

Lemma replace_spec : forall mem s t ps args r, plenty mem -> prefix_free ps -> stands s (Some t) -> text_ok t -> len t <= INT_MAX ->
  Forall2 pat_arg ps args -> 8 * len args <= OBJECT_MAX -> replaced ps t r -> len r + 17 <= OBJECT_MAX ->
  exists s', uecho_string_replace mem s args = Ok (s', true) /\ stands s' (Some (match r with [] => t | _ => r end)).
Proof.
  intros mem s t ps args r P F S T Lt A La R Lr. unfold uecho_string_replace.
  rewrite (sz_small (8 * len args)) by (pose proof (len_nonneg _ args); unfold OBJECT_MAX, SIZE_MOD in *; lia).
  rewrite (P (8 * len args)) by (pose proof (len_nonneg _ args); lia). cbn [negb].
  destruct (pattern_lens_ok ps args A) as (l & E & L). rewrite E. cbn [bind].
  assert (S0 := S). destruct S as (slk & V & Z1 & M). unfold uecho_string_length. rewrite V, Z1.
  destruct (loop_spec mem ps t slk P F T Lt l L (Datatypes.S (Z.to_nat (len t))) [] t uecho_string_new None r) as (acc & El & Sa).
  { rewrite to_nat_len. lia. } { reflexivity. } { reflexivity. } { exact R. } { cbn [vlen]. lia. }
  change (len []) with 0 in El. rewrite El. cbn [bind].
  assert (Tr : text_ok r).
  { apply (replaced_text ps t r R T). clear -A. induction A as [|p a ps args (_ & _ & X & _)]; constructor; assumption. }
  destruct r as [|c r]; cbn [appended app] in Sa.
  - rewrite Sa. cbn. exists s. split; [reflexivity|exact S0].
  - destruct Sa as (sl2 & V2 & _). rewrite V2. unfold uecho_string_setvalue, src_len. rewrite (cells_text_ok _ _ Tr). cbn [rmap bind].
    destruct (setn_spec mem s (c :: r) (Some 0 :: sl2) P) as (s' & E2 & S2); [lia|].
    change (map Some (c :: r) ++ Some 0 :: sl2) with (cells (c :: r) sl2) in E2. rewrite E2. cbn [bind]. eauto.
Qed.
