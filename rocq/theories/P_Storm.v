(* Reactions die out: lemmas. *)
From Coq Require Import String ZArith List Bool Permutation Lia ZifyBool ZifyNat.
From Verif Require Import CSem M_Const M_Misc M_Property M_Message M_PropertyList M_Object StdDB_Data M_Std M_Node M_NodeListener
  M_Controller Spec_Frame Spec_Message Spec_Object Spec_Std Spec_Node Spec_Request Spec_Controller Spec_Map
  Run_Object Run_Node Run_Controller Run_System Run_Parties P_Base P_Misc P_Message P_Encode P_MsgApi P_Map P_PropertyList P_Object P_ObjectRun
  P_ObjectReach P_Std Properties_Object P_Node P_Request P_NodeReach P_NodeProfile P_NodeInv P_NodeRun P_NodeProps
  P_RequestProps P_RequestApi P_NodeSafe P_Shadow P_Controller P_ControllerProps P_System.
Import ListNotations.
Open Scope Z_scope.
Ltac Zify.zify_post_hook ::= Z.div_mod_to_equations.

(* ---- the frames of a reaction ---- *)
Definition service (b : list Z) : option Z := nth_error b 10.

Lemma requestb_esv : forall b e, service b = Some e -> requestb b = existsb (Z.eqb e) [96; 97; 98; 99; 110; 116].
Proof. intros b e H. unfold requestb, service in *. rewrite H. reflexivity. Qed.

Lemma requestb_cut : forall b k, requestb b = false -> requestb (firstn k b) = false.
Proof.
  intros b k H. unfold requestb in *. 
  destruct (nth_error (firstn k b) 10) as [e|] eqn:E; [|reflexivity].
  assert (X : nth_error b 10 = Some e).
  { revert E. generalize 10%nat. clear. revert b. induction k as [|k IH]; intros b i E; [destruct i; discriminate|].
    destruct b as [|x b]; [destruct i; discriminate|]. destruct i as [|i]; [exact E|]. cbn in *. auto. }
  rewrite X in H. exact H.
Qed.

Lemma notes_quiet : forall le ns t p, In p (notes le t ns) -> requestb (frame_bytes p) = false.
Proof.
  intros le. induction ns as [|[c d] ns IH]; intros t p H; cbn [notes] in H; [destruct H|].
  destruct H as [<-|H]; [|eauto]. reflexivity.
Qed.

Lemma reply_quiet : forall f all e b from p, frame_ok f -> answer_esv (f_esv f) all = Some e ->
  In p (reply_posts e from (wire_msg (rmsg (reply f e b)))) -> requestb (frame_bytes p) = false.
Proof.
  intros f all e b from p Hf Ha Hp. rewrite (reply_in _ _ _ _ Hp).
  assert (X : service (wire_msg (rmsg (reply f e b))) = Some e).
  { unfold service, wire_msg, rmsg, reply. cbn [f_body f_seoj f_deoj f_tid f_esv].
    destruct (f_seoj f) as [[s0 s1] s2]. destruct (f_deoj f) as [[d0 d1] d2]. destruct b; reflexivity. }
  rewrite (requestb_esv _ _ X). revert Ha. unfold answer_esv, ESV_SetI, ESV_SetC, ESV_SetGet, ESV_Get, ESV_INF_REQ, ESV_INFC.
  repeat (match goal with |- context [if ?b then _ else _] => destruct b eqn:? end);
    intros E; try discriminate; injection E as <-; reflexivity.
Qed.

Lemma notes_len : forall le ns t, length (notes le t ns) = length ns.
Proof. intros le. induction ns as [|[c d] ns IH]; intros t; cbn [notes length]; [reflexivity|]. rewrite IH. reflexivity. Qed.

Lemma notices_len : forall o ps vs, (length (notices o ps vs) <= length ps)%nat.
Proof.
  intros o ps vs. unfold notices. rewrite map_length. 
  assert (X : forall (A : Type) (g : A -> bool) l, (length (filter g l) <= length l)%nat).
  { intros A g. induction l as [|x l IH]; cbn; [lia|]. destruct (g x); cbn; lia. }
  eapply Nat.le_trans; [apply X|]. rewrite combine_length. lia.
Qed.

Lemma reply_len : forall e from b, (length (reply_posts e from b) <= 1)%nat.
Proof. intros. unfold reply_posts. destruct (e =? 115); [cbn; lia|]. destruct from; cbn; lia. Qed.

Lemma esv_byte : forall f rest, service (enc_frame f ++ rest) = Some (f_esv f).
Proof.
  intros f rest. unfold service, enc_frame. destruct (f_tid f) as [t0 t1]. destruct (f_seoj f) as [[s0 s1] s2].
  destruct (f_deoj f) as [[d0 d1] d2]. reflexivity.
Qed.

Lemma receive_quiet : forall le net dec n data la ra r, ninv n -> mem_ok n -> buffer data ->
  node_receive le net dec n data la ra = Ok r ->
  ninv (r_node r)
  /\ (forall p, In p (r_anns r ++ r_answer r) -> requestb (frame_bytes p) = false)
  /\ (length (r_anns r ++ r_answer r) <= 256)%nat
  /\ (requestb data = false -> r_anns r ++ r_answer r = []).
Proof.
  intros le net dec n data la ra r N M Hb H.
  assert (Q0 : (forall f rest, dec_frame data = Some (f, rest) ->
     ~ request_esv (f_esv f) \/ uecho_node_getobjectbycode n (eoj_code (f_deoj f)) = None) ->
     r_node r = n /\ r_anns r ++ r_answer r = []).
  { intros X. destruct (receive_ignored le net dec n data la ra N M Hb X) as [t T]. rewrite H in T. injection T as ->. split; reflexivity. }
  assert (Q1 : r_node r = n /\ r_anns r ++ r_answer r = [] -> ninv (r_node r)
    /\ (forall p, In p (r_anns r ++ r_answer r) -> requestb (frame_bytes p) = false)
    /\ (length (r_anns r ++ r_answer r) <= 256)%nat
    /\ (requestb data = false -> r_anns r ++ r_answer r = [])).
  { intros [-> ->]. split; [exact N|]. split; [intros p []|]. split; [cbn; lia|reflexivity]. }
  destruct (dec_frame data) as [[f rest]|] eqn:E; [|apply Q1, Q0; discriminate].
  pose proof E as E'. apply dec_frame_iff in E'; [|apply Hb]. destruct E' as [Hf E'].
  destruct (uecho_node_getobjectbycode n (eoj_code (f_deoj f))) as [o|] eqn:G.
  2: { apply Q1, Q0. intros g r' X. injection X as <- <-. right. exact G. }
  destruct (uecho_esv_isrequest (f_esv f)) eqn:Q.
  2: { apply Q1, Q0. intros g r' X. injection X as <- <-. left. rewrite <- request_isrequest. congruence. }
  apply request_isrequest in Q. clear Q0 Q1. subst data.
  destruct (receive_law le net dec n f rest la ra r o N M Hf Hb G Q H)
    as (o1 & ns & b & all & BE & _ & _ & _ & _ & Nd & An & Aw & _).
  assert (Ln : (length ns <= 255)%nat).
  { destruct Hf as (_ & _ & _ & _ & _ & Hbd). unfold body_effect in BE. destruct (f_body f) as [ps|s g]; cbn [body_ok] in Hbd.
    - destruct BE as (segs & BE). cbv zeta in BE. destruct BE as (_ & _ & _ & _ & _ & ->). destruct Hbd as [_ [_ Hbd]].
      destruct (write_esv (f_esv f)); [|cbn; lia]. pose proof (notices_len o ps (verdicts o ps segs)). lia.
    - destruct BE as (s1 & s2 & BE). cbv zeta in BE. destruct BE as (_ & _ & _ & _ & _ & _ & ->). destruct Hbd as (_ & [_ Hbd] & _).
      pose proof (notices_len o s (verdicts o s s1)). lia. }
  split; [|split; [|split]].
  - rewrite node_receive_spec in H by (assumption || apply fine_objs; assumption). rewrite E in H.
    destruct (receive_frame_ok le net dec n f _ r N Hf H) as [[X _] _]. exact X.
  - intros p Hp. apply in_app_or in Hp. destruct Hp as [Hp|Hp].
    + rewrite An in Hp. destruct (profile n); [|destruct Hp]. eapply notes_quiet; eauto.
    + rewrite Aw in Hp. destruct (answer_esv (f_esv f) all) as [e|] eqn:Ea; [|destruct Hp]. eapply reply_quiet; eauto.
  - rewrite app_length, An, Aw.
    assert (X : (length (match profile n with None => [] | Some _ => notes le (n_tid n) ns end) <= 255)%nat).
    { destruct (profile n); [rewrite notes_len; exact Ln|cbn; lia]. }
    destruct (answer_esv (f_esv f) all); [|cbn [length]; lia].
    match goal with |- context [reply_posts ?e ?from ?b] => pose proof (reply_len e from b) end. lia.
  - intros X. exfalso. rewrite (requestb_esv _ _ (esv_byte f rest)) in X. unfold request_esv in Q. cbn [In] in Q. cbn [existsb] in X. lia.
Qed.

(* ---- parties ---- *)
Definition party_inv (p : party) : Prop :=
  match p with Device n => ninv n /\ mem_ok n | Controller c => cinv c /\ cmem_ok c end.

Section N.
Variable le : nat -> bool.
Variable net snet : nat -> post -> bool.

Lemma party_start : forall i p, party_ok le net snet i p -> party_inv p.
Proof.
  intros i [n|c] H; cbn [party_ok party_inv] in *.
  - eapply api_node_ok; [exact std_db_ok|exact H].
  - eapply api_ctrl_ok; [exact std_db_ok|exact H].
Qed.

Lemma hear_quiet : forall i p data la ra dec fr p' posts, party_inv p -> buffer data -> fresh_ok fr ->
  hear le net snet i p data la ra dec fr = Ok (p', posts) -> party_mem p' ->
  party_inv p' /\ (forall q, In q posts -> requestb (frame_bytes q) = false) /\ (length posts <= 256)%nat
  /\ (requestb data = false -> posts = []).
Proof.
  intros i [n|c] data la ra dec fr p' posts Ip Hb Hfr H M'; cbn [hear] in H.
  - destruct Ip as [N M]. apply bind_ok in H. destruct H as ([[n' own] ans] & E & H). injection H as <- <-.
    cbn [nstep] in E. apply bind_ok in E. destruct E as (r & E & X). injection X as <- <- <-.
    destruct (receive_quiet _ _ _ _ _ _ _ _ N M Hb E) as (A & B & C & D). split; [split; assumption|]. auto.
  - destruct Ip as [Ci M]. apply bind_ok in H. destruct H as (out & E & H). injection H as <- <-. cbn [party_mem] in M'.
    assert (Ci' : cinv (co_ctrl out)).
    { eapply cstep_ok with (x := CReceive data la ra dec fr); [exact std_db_ok|exact Ci|exact M|exact M'|split; assumption|exact E]. }
    split; [split; assumption|]. cbn [cstep] in E. apply bind_ok in E. destruct E as ([o y] & E & X). injection X as <-. cbn [co_own co_ans].
    pose proof (ctrl_receive_spec _ _ _ _ _ _ _ _ _ _ _ Ci (proj1 M) Hb Hfr E) as R.
    destruct (dec_frame data) as [[f rest]|].
    + destruct R as (x & y' & R & _ & _ & _ & R2 & _). injection R as -> _.
      destruct (receive_quiet _ _ _ _ _ _ _ _ (proj1 Ci) (proj1 M) Hb R2) as (_ & B & C & D). auto.
    + injection R as -> _. cbn [app]. split; [intros q []|]. split; [cbn; lia|reflexivity].
Qed.

Lemma replace_len : forall (A : Type) (l : list A) i x, length (replace i x l) = length l.
Proof. induction l as [|y l IH]; intros [|i] x; cbn [replace length]; auto. Qed.

Lemma replace_nth : forall (A : Type) (l : list A) i x j y, nth_error (replace i x l) j = Some y ->
  y = x \/ nth_error l j = Some y.
Proof.
  induction l as [|z l IH]; intros [|i] x [|j] y H; cbn [replace nth_error] in *; try discriminate; auto.
  - injection H as <-. auto.
  - eauto.
Qed.

Definition all_inv (ps : list party) : Prop := forall i p, nth_error ps i = Some p -> party_inv p.

Lemma prod_len : forall (A B : Type) (l : list A) (l' : list B), length (list_prod l l') = (length l * length l')%nat.
Proof. intros. apply prod_length. Qed.

Lemma spread_ok : forall count posts copies, spread count posts copies ->
  (length copies <= count * length posts)%nat
  /\ (forall d, In d copies -> exists q k, In q posts /\ snd d = firstn k (frame_bytes q)).
Proof.
  intros count posts copies (got & lost & P & F). split.
  - apply Forall2_len in F. apply Permutation_length in P. rewrite app_length, prod_length, seq_length in P. lia.
  - intros d Hd. assert (X : exists e, In e got /\ copy_of d e).
    { clear P. revert Hd. induction F as [|x y l l' Hxy F IH]; [intros []|].
      intros [<-|Hd]; [exists y; split; [left; reflexivity|exact Hxy]|]. destruct (IH Hd) as (e & A & B). exists e. split; [right; exact A|exact B]. }
    destruct X as ([j q] & A & _ & k & B). exists q, k. split; [|exact B].
    assert (I : In (j, q) (list_prod (seq 0 count) posts)).
    { eapply Permutation_in; [exact P|]. apply in_or_app. left. exact A. }
    apply in_prod_iff in I. apply I.
Qed.

Lemma requests_app : forall a b, requests (a ++ b) = (requests a + requests b)%nat.
Proof. intros. unfold requests. rewrite filter_app, app_length. reflexivity. Qed.

Lemma requests_none : forall fl, (forall d, In d fl -> requestb (snd d) = false) -> requests fl = 0%nat.
Proof.
  intros fl H. unfold requests. induction fl as [|d fl IH]; [reflexivity|]. cbn [filter]. rewrite (H d (or_introl eq_refl)).
  apply IH. intros e He. apply H. right. exact He.
Qed.

Definition weight (count : nat) (fl : flight) : nat := (length fl + 256 * count * requests fl)%nat.

Lemma step_weight : forall ps fl ps' fl', all_inv ps -> net_step le net snet (ps, fl) (ps', fl') ->
  all_inv ps' /\ length ps' = length ps /\ (weight (length ps) fl' < weight (length ps) fl)%nat
  /\ (forall d, In d fl' -> requestb (snd d) = true -> In d fl).
Proof.
  intros ps fl ps' fl' I St. inversion St as [? fl1 d fl2|? fl1 i data fl2 p p' posts la ra dec fr copies G Hb Hfr L3 L13 H M Sp]; subst.
  - split; [exact I|]. split; [reflexivity|]. split.
    + unfold weight. rewrite !requests_app, !app_length. cbn [length].
      change (d :: fl2) with ([d] ++ fl2). rewrite requests_app. nia.
    + intros e He _. apply in_or_app. apply in_app_or in He. destruct He as [He|He]; [left; exact He|right; right; exact He].
  - destruct (hear_quiet _ _ _ _ _ _ _ _ _ (I _ _ G) Hb Hfr H M) as (A & B & C & D).
    destruct (spread_ok _ _ _ Sp) as [L Cp].
    assert (Qc : forall d, In d copies -> requestb (snd d) = false).
    { intros d Hd. destruct (Cp d Hd) as (q & k & Q1 & ->). apply requestb_cut. apply B. exact Q1. }
    split; [|split; [apply replace_len|split]].
    + intros j q Hq. apply replace_nth in Hq. destruct Hq as [->|Hq]; [exact A|eauto].
    + unfold weight. rewrite !requests_app, !app_length. cbn [length].
      change ((i, data) :: fl2) with ([(i, data)] ++ fl2). rewrite requests_app, (requests_none copies Qc).
      unfold requests at 4. cbn [filter snd]. destruct (requestb data) eqn:R; cbn [length].
      * assert (length copies <= 256 * length ps)%nat by nia. nia.
      * rewrite (D eq_refl) in L. cbn [length] in L. nia.
    + intros e He Re. apply in_app_or in He. apply in_or_app. destruct He as [He|He]; [left; exact He|].
      apply in_app_or in He. destruct He as [He|He]; [right; right; exact He|]. rewrite (Qc e He) in Re. discriminate.
Qed.

Lemma run_weight : forall k s s', net_run le net snet k s s' -> all_inv (fst s) ->
  all_inv (fst s') /\ length (fst s') = length (fst s)
  /\ (k + weight (length (fst s)) (snd s') <= weight (length (fst s)) (snd s))%nat
  /\ (forall d, In d (snd s') -> requestb (snd d) = true -> In d (snd s)).
Proof.
  intros k s s' R. induction R as [s|k [ps fl] [ps1 fl1] [ps' fl'] St R IH]; intros I; cbn [fst snd] in *.
  - split; [exact I|]. split; [reflexivity|]. split; [lia|auto].
  - destruct (step_weight _ _ _ _ I St) as (I1 & L1 & W1 & Q1). destruct (IH I1) as (I2 & L2 & W2 & Q2).
    split; [exact I2|]. split; [lia|]. split; [rewrite L1 in W2; lia|]. eauto.
Qed.
End N.
