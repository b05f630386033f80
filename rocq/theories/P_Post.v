(* Invariants of posting with interleaved threads. *)
From Coq Require Import String ZArith List Bool Lia ZifyBool ZifyNat.
From Verif Require Import CSem M_Const M_Misc M_Property M_Message M_Object M_Node Spec_Frame Spec_Message
  P_Base P_Misc P_Message P_Encode P_MsgApi P_Node M_Post Spec_Post.
Import ListNotations.
Open Scope Z_scope.
Ltac Zify.zify_post_hook ::= Z.div_mod_to_equations.

(* ---- lists of threads ---- *)
Lemma put_same : forall (A : Type) (l : list A) i x y, nth_error l i = Some y -> nth_error (put i x l) i = Some x.
Proof. induction l as [|z l IH]; intros [|i] x y H; try discriminate; [reflexivity|]. cbn in *. eapply IH. exact H. Qed.
Lemma put_other : forall (A : Type) (l : list A) i k x, i <> k -> nth_error (put i x l) k = nth_error l k.
Proof.
  induction l as [|z l IH]; intros [|i] [|k] x H; try reflexivity; [congruence|]. cbn. apply IH. congruence.
Qed.
Lemma put_nth : forall (A : Type) (l : list A) i k x y, nth_error (put i x l) k = Some y ->
  (k = i /\ y = x) \/ (k <> i /\ nth_error l k = Some y).
Proof.
  intros A l i k x y H. destruct (Nat.eq_dec k i) as [->|N].
  - left. split; [reflexivity|]. destruct (nth_error l i) as [z|] eqn:E.
    + rewrite (put_same _ _ _ x _ E) in H. congruence.
    + exfalso. revert i H E. induction l as [|z l IH]; intros [|i] H E; try discriminate. cbn in *. eapply IH; eassumption.
  - right. split; [exact N|]. rewrite put_other in H by congruence. exact H.
Qed.
Lemma put_length : forall (A : Type) (l : list A) i x, length (put i x l) = length l.
Proof. induction l as [|z l IH]; intros [|i] x; try reflexivity. cbn. rewrite IH. reflexivity. Qed.
Lemma put_Forall : forall (A : Type) (P : A -> Prop) l i x, Forall P l -> P x -> Forall P (put i x l).
Proof. induction l as [|z l IH]; intros [|i] x H Hx; cbn; inversion H; subst; auto. Qed.

Lemma waiting_nth : forall l k i p, waiting k l = Some (i, p) ->
  exists n, i = (k + n)%nat /\ nth_error l n = Some p /\ p_pc p = PWaiting.
Proof.
  induction l as [|q l IH]; intros k i p H; [discriminate|]. cbn [waiting] in H.
  destruct (p_pc q) eqn:E;
    try (destruct (IH (S k) i p H) as (n & -> & E1 & E2); exists (S n); split; [lia|split; [exact E1|exact E2]]).
  injection H as <- <-. exists O. split; [lia|split; [reflexivity|exact E]].
Qed.

(* ---- messages ---- *)
Definition fine (m : msg) : Prop := msg_ok m /\ in_memory m.

Lemma api_fine : forall le m, a_message le m -> fine m.
Proof. intros le m [A B]. split; [apply (api_inv_holds le m A)|exact B]. Qed.

Lemma isresponse_answers : forall le q m, msg_ok q -> msg_ok m -> uecho_message_isresponsemessage le q m = true -> answers q m.
Proof.
  intros le q m Hq Hm H. unfold uecho_message_isresponsemessage in H.
  destruct (uecho_message_gettid le q =? uecho_message_gettid le m) eqn:Et; [|discriminate]. cbn [negb] in H.
  destruct (m_esv q =? m_esv m) eqn:Ee; [discriminate|]. apply Z.eqb_eq in Et. apply Z.eqb_neq in Ee.
  destruct Hq as (_ & _ & Q1 & Q2 & _). destruct Hm as (_ & _ & M1 & M2 & _). split; [|congruence].
  rewrite <- (settid_gettid le m m M1 M2), <- Et. apply settid_gettid; assumption.
Qed.

Lemma copy_pair : forall p, prop_pair (uecho_property_copy p) = prop_pair p.
Proof. intros p. unfold prop_pair, uecho_property_copy. rewrite setdata_fst. reflexivity. Qed.

Lemma total_copy : forall l, total_data (map uecho_property_copy l) = total_data l.
Proof. induction l as [|p l IH]; [reflexivity|]. cbn [map total_data fold_right]. fold (total_data (map uecho_property_copy l)). fold (total_data l). rewrite IH.
  pose proof (copy_pair p) as C. unfold prop_pair in C. injection C as _ ->. reflexivity. Qed.

Lemma set_fine : forall le r m, fine r -> fine m -> exists r', uecho_message_set le r m = Ok r' /\ copied m r' /\ fine r'.
Proof.
  intros le r m [Hr _] [Hm Hi]. destruct (message_set_spec le r m Hr Hm) as (v & E & Ev & Hv). eexists. split; [exact E|]. split; [|split].
  - unfold copied. cbn [m_ehd1 m_ehd2 m_tid m_seoj m_deoj m_esv m_p m_from m_to].
    refine (conj eq_refl (conj eq_refl (conj eq_refl (conj eq_refl (conj eq_refl (conj eq_refl (conj eq_refl (conj eq_refl _)))))))).
    rewrite Ev, map_map. apply map_ext. exact copy_pair.
  - destruct Hm as (H1 & H2 & H3 & H4 & H5 & H6 & H7 & _). pose proof pv_empty_ok as Hp.
    unfold msg_ok. cbn [m_ehd1 m_ehd2 m_tid m_seoj m_deoj m_esv m_p m_pset m_pget]. tauto.
  - unfold in_memory in *. cbn [m_p m_pset m_pget]. rewrite Ev, total_copy.
    change (total_data (stored pv_empty)) with 0.
    pose proof (total_data_nonneg (stored (m_pset m))). pose proof (total_data_nonneg (stored (m_pget m))). lia.
Qed.

Lemma send_fine : forall le net n d q, fine q -> exists x, uecho_node_sendmessage le net n d q = Ok x /\ fine (s_msg x).
Proof.
  intros le net n d q [Hq Hi]. rewrite sendmessage_spec; [|exact Hq|apply in_memory_fits; assumption]. eexists. split; [reflexivity|].
  assert (S : forall t, fine (stamp le t q)).
  { intros t. split; [apply stamp_ok; exact Hq|exact Hi]. }
  destruct (profile n); [destruct (n_addr d)|]; cbn [s_msg]; try apply S.
  split; [apply settid_ok; exact Hq|exact Hi].
Qed.

(* ---- the log ---- *)
Lemma sent_cons : forall i L q B e, sent_in i L q B -> ~ begins i e -> sent_in i (e :: L) q (e :: B).
Proof. intros i L q B e (C & -> & F) N. exists C. split; [reflexivity|constructor; assumption]. Qed.

Lemma answered_cons : forall i L r e, answered i L r -> ~ begins i e -> answered i (e :: L) r.
Proof.
  intros i L r e (q & B & m & rm & S & H & A & E & K) N. exists q, (e :: B), m, rm. split; [apply sent_cons; assumption|].
  split; [right; exact H|]. split; [exact A|]. split; assumption.
Qed.

(* ---- the invariant ---- *)
(* a call whose request is out and whose pointers are still set *)
Definition opened (c : ppc) : bool := match c with PWait | PWaiting | PClearReq _ => true | _ => false end.
Definition req_set (c : ppc) : bool :=
  match c with PSetRes | PSending | PFailed | PWait | PWaiting | PClearReq _ => true | _ => false end.
Definition res_set (c : ppc) : bool :=
  match c with PSending | PFailed | PWait | PWaiting | PClearReq _ | PClearRes _ => true | _ => false end.
Definition closing (c : ppc) : bool := match c with PClearRes _ | PUnlock _ => true | _ => false end.
Definition success (c : ppc) : bool := match c with PClearReq b | PClearRes b | PUnlock b => b | _ => false end.

Definition checked (c : rpc) : bool := match c with RStore | RCopy _ | RSignal => true | _ => false end.
(* a pointer that was loaded is still the current one *)
Definition ptr_ok (s : pstate) (c : rpc) : Prop :=
  match c with RCompare a => a = ps_req s | RCopy a => a = ps_res s | _ => True end.

Record pcall (s : pstate) (i : nat) (p : poster) : Prop := mkCall {
  pc_owner : inside (p_pc p) = true <-> ps_owner s = Some i;
  pc_req : req_set (p_pc p) = true -> ps_req s = p_req p;
  pc_res : res_set (p_pc p) = true -> ps_res s = p_res p;
  pc_closing : closing (p_pc p) = true -> ps_req s = 0 /\ quiet s;
  pc_args : busy_call p -> p_req p <> p_res p /\ p_req p <> 0 /\ p_res p <> 0 /\ ps_mem s (p_req p) <> None /\ ps_mem s (p_res p) <> None;
  pc_open : opened (p_pc p) = true -> exists q B, sent_in i (ps_log s) q B /\ ps_mem s (p_req p) = Some q /\
    forall j r, nth_error (ps_receivers s) j = Some r -> in_section (r_pc r) = true ->
      In (EHandle (r_msg r)) B /\
      (checked (r_pc r) = true -> answers q (r_msg r)) /\
      (r_pc r = RSignal -> answered i (ps_log s) (ps_mem s (p_res p)))
}.
(* without spurious wakeups *)
Definition pwell (s : pstate) (i : nat) (p : poster) : Prop :=
  success (p_pc p) = true -> answered i (ps_log s) (ps_mem s (p_res p)).

(* a receiver that has seen both pointers set *)
Definition beyond (c : rpc) : bool := match c with RHandle | RCheck | RCompare _ | RStore | RCopy _ | RSignal => true | _ => false end.

(* every call that returned true was answered *)
Definition returns_ok (L : list event) : Prop :=
  forall A i r B, L = A ++ EReturn i true r :: B -> answered i B r.

Record pinv (W : Prop) (s : pstate) : Prop := mkInv {
  pi_mem : forall a m, ps_mem s a = Some m -> fine m;
  pi_recv : Forall (fun r => fine (r_msg r)) (ps_receivers s);
  (* a stale pointer from a call that could not send: its messages are still there *)
  pi_res : ps_res s <> 0 -> ps_mem s (ps_res s) <> None /\ (ps_req s <> 0 -> ps_mem s (ps_req s) <> None);
  pi_sec : forall j r, nth_error (ps_receivers s) j = Some r -> beyond (r_pc r) = true -> ps_res s <> 0 /\ ptr_ok s (r_pc r);
  pi_calls : forall i p, nth_error (ps_posters s) i = Some p -> pcall s i p;
  pi_well : W -> forall i p, nth_error (ps_posters s) i = Some p -> pwell s i p;
  pi_returns : W -> returns_ok (ps_log s)
}.

Lemma returns_cons : forall e L, returns_ok L -> (forall i r, e = EReturn i true r -> answered i L r) -> returns_ok (e :: L).
Proof.
  intros e L H He [|a A] i r B E; cbn [app] in E; injection E as E1 E2.
  - subst. apply He. reflexivity.
  - apply (H A i r B E2).
Qed.

Lemma quiet_not : forall s j r, quiet s -> nth_error (ps_receivers s) j = Some r -> in_section (r_pc r) = true -> False.
Proof.
  intros s j r Q E H. apply nth_error_In in E. unfold quiet in Q. rewrite Forall_forall in Q. rewrite (Q _ E) in H. discriminate.
Qed.

(* a thread that is not inside: nothing to keep but its messages *)
Lemma outside_call : forall s i p, inside (p_pc p) = false -> ps_owner s <> Some i ->
  (busy_call p -> p_req p <> p_res p /\ p_req p <> 0 /\ p_res p <> 0 /\ ps_mem s (p_req p) <> None /\ ps_mem s (p_res p) <> None) ->
  pcall s i p.
Proof.
  intros s i p H O A. constructor; try (destruct (p_pc p); discriminate); [|exact A].
  split; intros X; [congruence|contradiction].
Qed.
Lemma outside_well : forall s i p, inside (p_pc p) = false -> pwell s i p.
Proof. intros s i p H S. destruct (p_pc p); discriminate. Qed.

Lemma others_outside : forall s i k p, pcall s k p -> ps_owner s = Some i -> k <> i -> inside (p_pc p) = false.
Proof.
  intros s i k p C O N. destruct (inside (p_pc p)) eqn:E; [|reflexivity]. apply (pc_owner _ _ _ C) in E. congruence.
Qed.

(* the posters' side changes nothing the receivers' side looks at, and the other way round *)
Lemma call_frame : forall s s' i p, pcall s i p -> ps_owner s' = ps_owner s -> ps_req s' = ps_req s -> ps_res s' = ps_res s ->
  (forall a, ps_mem s' a = ps_mem s a) -> (forall j r, nth_error (ps_receivers s') j = Some r -> in_section (r_pc r) = true ->
     nth_error (ps_receivers s) j = Some r) ->
  (exists E, ps_log s' = E ++ ps_log s /\ Forall (fun e => ~ begins i e) E) -> pcall s' i p.
Proof.
  intros s s' i p C E1 E2 E3 Em Er (E & El & Fe). constructor.
  - rewrite E1. apply C.
  - rewrite E2. apply C.
  - rewrite E3. apply C.
  - rewrite E2. intros X. destruct (pc_closing _ _ _ C X) as [X1 X2]. split; [exact X1|]. apply Forall_forall. intros r Ir.
    apply In_nth_error in Ir. destruct Ir as [j Ej]. destruct (in_section (r_pc r)) eqn:S; [|reflexivity].
    exfalso. apply (quiet_not s j r X2 (Er _ _ Ej S) S).
  - rewrite !Em. apply C.
  - intros X. destruct (pc_open _ _ _ C X) as (q & B & S & M & H). exists q, (E ++ B). split; [|split; [rewrite Em; exact M|]].
    + destruct S as (D & S1 & S2). exists D. split; [rewrite El, S1, app_assoc; reflexivity|]. apply Forall_app. auto.
    + intros j r Ej S'. destruct (H j r (Er _ _ Ej S') S') as (H1 & H2 & H3). split; [apply in_or_app; auto|]. split; [exact H2|].
      intros X'. specialize (H3 X'). rewrite Em, El. clear -H3 Fe. induction Fe as [|e E Ne Fe IH]; [exact H3|]. apply answered_cons; assumption.
Qed.
Lemma well_frame : forall s s' i p, pwell s i p -> ps_mem s' (p_res p) = ps_mem s (p_res p) ->
  (exists E, ps_log s' = E ++ ps_log s /\ Forall (fun e => ~ begins i e) E) -> pwell s' i p.
Proof.
  intros s s' i p H Em (E & El & Fe) X. specialize (H X). rewrite Em, El. clear -H Fe.
  induction Fe as [|e E Ne Fe IH]; [exact H|]. apply answered_cons; assumption.
Qed.
Lemma no_events : forall i L, exists E, L = E ++ L /\ Forall (fun e => ~ begins i e) E.
Proof. intros. exists []. split; [reflexivity|constructor]. Qed.
Lemma one_event : forall i e L, ~ begins i e -> exists E, e :: L = E ++ L /\ Forall (fun e => ~ begins i e) E.
Proof. intros i e L H. exists [e]. split; [reflexivity|constructor; [exact H|constructor]]. Qed.

Lemma inside_step : forall W s s' i p p', pinv W s -> nth_error (ps_posters s) i = Some p -> inside (p_pc p) = true ->
  ps_posters s' = put i p' (ps_posters s) -> ps_receivers s' = ps_receivers s ->
  (ps_owner s' = Some i \/ ps_owner s' = None) ->
  (forall a m, ps_mem s' a = Some m -> fine m) -> (forall a, ps_mem s a <> None -> ps_mem s' a <> None) ->
  (ps_res s' <> 0 -> ps_mem s' (ps_res s') <> None /\ (ps_req s' <> 0 -> ps_mem s' (ps_req s') <> None)) ->
  ((ps_req s' = ps_req s /\ ps_res s' = ps_res s) \/ quiet s) ->
  pcall s' i p' -> (W -> pwell s' i p') -> (W -> returns_ok (ps_log s')) -> pinv W s'.
Proof.
  intros W s s' i p p' I Ei Hi Ep Er Eo Hm Ha Hr Hs C Hw Hret. constructor; try assumption.
  - rewrite Er. apply I.
  - rewrite Er. intros j r Ej B. destruct Hs as [[Eq Es]|Q]; [destruct (pi_sec _ _ I j r Ej B) as [B1 B2]; rewrite Es; split; [exact B1|];
      unfold ptr_ok in *; rewrite Eq, Es; exact B2|].
    exfalso. apply (quiet_not s j r Q Ej). destruct (r_pc r); try discriminate; reflexivity.
  - rewrite Ep. intros k q Ek. destruct (put_nth _ _ _ _ _ _ Ek) as [[-> ->]|[N Ek']]; [exact C|].
    pose proof (pi_calls _ _ I k q Ek') as Ck. pose proof (pi_calls _ _ I i p Ei) as Ci.
    pose proof (proj1 (pc_owner _ _ _ Ci) Hi) as O. pose proof (others_outside _ _ _ _ Ck O N) as Out.
    apply outside_call; [exact Out|destruct Eo as [->| ->]; congruence|].
    intros Bq. destruct (pc_args _ _ _ Ck Bq) as (A1 & A2 & A3 & A4 & A5). auto 10.
  - rewrite Ep. intros w k q Ek. destruct (put_nth _ _ _ _ _ _ Ek) as [[-> ->]|[N Ek']]; [auto|].
    apply outside_well. apply (others_outside s i k q (pi_calls _ _ I k q Ek')); [|exact N].
    apply (pc_owner _ _ _ (pi_calls _ _ I i p Ei)). exact Hi.
Qed.

Lemma store_alive : forall a m f x, f x <> None -> store a (Some m) f x <> None.
Proof. intros a m f x H. unfold store. destruct (x =? a); [discriminate|exact H]. Qed.
Lemma store_at : forall a m f, store a m f a = m.
Proof. intros. unfold store. rewrite Z.eqb_refl. reflexivity. Qed.
Lemma store_off : forall a m f x, x <> a -> store a m f x = f x.
Proof. intros. unfold store. rewrite (proj2 (Z.eqb_neq x a)) by assumption. reflexivity. Qed.

Ltac psimp := cbn [ps_mem ps_req ps_res ps_owner ps_node ps_posters ps_receivers ps_log with_mem with_req with_res
  with_owner with_pnode with_posters with_receivers log goto rgoto p_pc p_dst p_req p_res r_pc r_msg
  inside opened req_set res_set closing success switches in_section beyond checked ptr_ok] in *.

Lemma alive_load : forall s a, ps_mem s a <> None -> exists m, load s a = Ok m /\ ps_mem s a = Some m.
Proof. intros s a H. unfold load. destruct (ps_mem s a) as [m|]; [exists m; auto|congruence]. Qed.

Lemma post_step_inv : forall W le ok i p s, pinv W s -> nth_error (ps_posters s) i = Some p ->
  (switches (p_pc p) = true -> quiet s) -> exists s', post_step le ok i p s = Ok s' /\ pinv W s'.
Proof.
  intros W le ok i p s I Ei Hq. pose proof (pi_calls _ _ I i p Ei) as C. destruct p as [c d q r].
  pose proof (fun w => pi_well _ _ I w i _ Ei) as Hw. unfold pwell in Hw.
  assert (HR : ps_res s <> 0 -> ps_mem s (ps_res s) <> None /\ (ps_req s <> 0 -> ps_mem s (ps_req s) <> None)) by apply I.
  assert (HM : forall a m, ps_mem s a = Some m -> fine m) by apply I.
  assert (HL : W -> returns_ok (ps_log s)) by apply I.
  assert (A : c <> PIdle -> q <> r /\ q <> 0 /\ r <> 0 /\ ps_mem s q <> None /\ ps_mem s r <> None).
  { intros B. apply (pc_args _ _ _ C). exact B. }
  destruct c; unfold post_step; psimp.
  - exists s. auto.
  - (* lock *)
    destruct (ps_owner s) as [o|] eqn:O; [exists s; auto|]. eexists. split; [reflexivity|].
    assert (Out : forall k pk, nth_error (ps_posters s) k = Some pk -> inside (p_pc pk) = false).
    { intros k pk Ek. destruct (inside (p_pc pk)) eqn:X; [|reflexivity].
      apply (pc_owner _ _ _ (pi_calls _ _ I k pk Ek)) in X. congruence. }
    constructor; psimp; try apply I.
    + intros k pk Ek. destruct (put_nth _ _ _ _ _ _ Ek) as [[-> ->]|[N Ek']].
      * constructor; psimp; try discriminate; [split; reflexivity|]. intros _. apply A. discriminate.
      * apply outside_call; [apply (Out k pk Ek')|psimp; congruence|]. psimp. apply (pi_calls _ _ I k pk Ek').
    + intros w k pk Ek. destruct (put_nth _ _ _ _ _ _ Ek) as [[-> ->]|[N Ek']]; [intros X; discriminate|].
      apply outside_well. apply (Out k pk Ek').
  - (* set the request *)
    destruct A as (A1 & A2 & A3 & A4 & A5); [discriminate|]. specialize (Hq eq_refl).
    assert (O : ps_owner s = Some i) by (apply (pc_owner _ _ _ C); reflexivity). eexists. split; [reflexivity|].
    eapply (inside_step W s _ i _ _ I Ei eq_refl); psimp; [reflexivity|reflexivity|auto|exact HM|auto|intros X; destruct (HR X); auto|auto| |intros _ X; discriminate|exact HL].
    constructor; psimp; [split; auto|auto|discriminate|discriminate|auto|discriminate].
  - (* set the response *)
    destruct A as (A1 & A2 & A3 & A4 & A5); [discriminate|]. specialize (Hq eq_refl).
    assert (O : ps_owner s = Some i) by (apply (pc_owner _ _ _ C); reflexivity).
    assert (Er : ps_req s = q) by (apply (pc_req _ _ _ C); reflexivity). eexists. split; [reflexivity|].
    eapply (inside_step W s _ i _ _ I Ei eq_refl); psimp; [reflexivity|reflexivity|auto|exact HM|auto|rewrite Er; auto|auto| |intros _ X; discriminate|exact HL].
    constructor; psimp; [split; auto|auto|auto|discriminate|auto|discriminate].
  - (* send *)
    destruct A as (A1 & A2 & A3 & A4 & A5); [discriminate|]. specialize (Hq eq_refl).
    assert (O : ps_owner s = Some i) by (apply (pc_owner _ _ _ C); reflexivity).
    assert (Er : ps_req s = q) by (apply (pc_req _ _ _ C); reflexivity).
    assert (Es : ps_res s = r) by (apply (pc_res _ _ _ C); reflexivity).
    rewrite (proj2 (Z.eqb_neq q 0) A2). destruct (alive_load s q A4) as (mq & Eq & Mq). rewrite Eq. cbn [bind].
    destruct (send_fine le (fun _ => ok) (ps_node s) d mq (HM _ _ Mq)) as (x & Ex & Fx). rewrite Ex. cbn [bind].
    eexists. split; [reflexivity|].
    eapply (inside_step W s _ i _ _ I Ei eq_refl); psimp;
      [reflexivity|reflexivity|auto| |intros a; apply store_alive| |auto| | |].
    + intros a m. unfold store. destruct (a =? q); [intros E; injection E as <-; exact Fx|apply HM].
    + intros X. split; [apply store_alive; rewrite Es; exact A5|intros _; apply store_alive; rewrite Er; exact A4].
    + constructor; psimp.
      * destruct (s_ret x); split; auto.
      * auto.
      * auto.
      * destruct (s_ret x); discriminate.
      * intros _. pose proof (fun a => store_alive q (s_msg x) (ps_mem s) a). auto 10.
      * intros _. exists (s_msg x), []. split; [exists (ps_log s); split; [reflexivity|constructor]|]. split; [apply store_at|].
        intros j rr Ej S. exfalso. apply (quiet_not s j rr Hq Ej S).
    + intros _ X. psimp. destruct (s_ret x); discriminate.
    + intros w. apply returns_cons; [auto|discriminate].
  - (* could not send *)
    assert (O : ps_owner s = Some i) by (apply (pc_owner _ _ _ C); reflexivity). eexists. split; [reflexivity|].
    eapply (inside_step W s _ i _ _ I Ei eq_refl); psimp;
      [reflexivity|reflexivity|auto|exact HM|auto|exact HR|auto| |intros _ X; discriminate|intros w; apply returns_cons; [auto|discriminate]].
    apply outside_call; psimp; [reflexivity|discriminate|intros X; exfalso; apply X; reflexivity].
  - (* wait *)
    assert (O : ps_owner s = Some i) by (apply (pc_owner _ _ _ C); reflexivity). eexists. split; [reflexivity|].
    eapply (inside_step W s _ i _ _ I Ei eq_refl); psimp;
      [reflexivity|reflexivity|auto|exact HM|auto|exact HR|auto| |intros _ X; discriminate|exact HL].
    constructor; psimp; [split; auto|intros _; apply (pc_req _ _ _ C eq_refl)|intros _; apply (pc_res _ _ _ C eq_refl)|discriminate| |intros _; exact (pc_open _ _ _ C eq_refl)].
    intros _. apply A. discriminate.
  - exists s. auto.
  - (* clear the request *)
    destruct A as (A1 & A2 & A3 & A4 & A5); [discriminate|]. specialize (Hq eq_refl).
    assert (O : ps_owner s = Some i) by (apply (pc_owner _ _ _ C); reflexivity).
    assert (Es : ps_res s = r) by (apply (pc_res _ _ _ C); reflexivity). eexists. split; [reflexivity|].
    eapply (inside_step W s _ i _ _ I Ei eq_refl); psimp;
      [reflexivity|reflexivity|auto|exact HM|auto|intros X; split; [apply (HR X)|congruence]|auto| |exact Hw|exact HL].
    constructor; psimp; [split; auto|discriminate|auto|intros _; split; [reflexivity|exact Hq]|auto|discriminate].
  - (* clear the response *)
    destruct A as (A1 & A2 & A3 & A4 & A5); [discriminate|]. specialize (Hq eq_refl).
    assert (O : ps_owner s = Some i) by (apply (pc_owner _ _ _ C); reflexivity).
    destruct (pc_closing _ _ _ C eq_refl) as [Z1 Z2]. eexists. split; [reflexivity|].
    eapply (inside_step W s _ i _ _ I Ei eq_refl); psimp;
      [reflexivity|reflexivity|auto|exact HM|auto|congruence|auto| |exact Hw|exact HL].
    constructor; psimp; [split; auto|discriminate|discriminate|intros _; split; [exact Z1|exact Hq]|auto|discriminate].
  - (* unlock and return *)
    assert (O : ps_owner s = Some i) by (apply (pc_owner _ _ _ C); reflexivity). eexists. split; [reflexivity|].
    eapply (inside_step W s _ i _ _ I Ei eq_refl); psimp;
      [reflexivity|reflexivity|auto|exact HM|auto|exact HR|auto| |intros _ X; discriminate|].
    + apply outside_call; psimp; [reflexivity|discriminate|intros X; exfalso; apply X; reflexivity].
    + intros w. apply returns_cons; [auto|]. intros k rr E. injection E as E1 E2 E3. rewrite <- E1, <- E3. apply (Hw w). exact E2.
Qed.

(* ---- receivers ---- *)

(* a receiver that does not enter the section and leaves the rest alone *)
Lemma recv_leaves : forall W s j r c, pinv W s -> nth_error (ps_receivers s) j = Some r -> in_section c = false ->
  pinv W (rgoto j r c s).
Proof.
  intros W s j r c I Ej Hc. constructor; psimp; try apply I.
  - apply put_Forall; [apply I|]. psimp. apply nth_error_In in Ej. pose proof (pi_recv _ _ I) as F. rewrite Forall_forall in F. apply (F _ Ej).
  - intros k x Ek B. destruct (put_nth _ _ _ _ _ _ Ek) as [[-> ->]|[N Ek']]; [psimp; destruct c; discriminate|].
    apply (pi_sec _ _ I k x Ek' B).
  - intros i p Ei. apply (call_frame s); psimp; try reflexivity; [apply I; exact Ei| |apply no_events].
    intros k x Ek S. destruct (put_nth _ _ _ _ _ _ Ek) as [[-> ->]|[N Ek']]; [psimp; congruence|exact Ek'].
Qed.

(* a receiver in the section going on in it *)
Lemma recv_goes_on : forall W s j r c, pinv W s -> nth_error (ps_receivers s) j = Some r -> in_section (r_pc r) = true ->
  (beyond c = true -> ps_res s <> 0 /\ ptr_ok s c) ->
  (checked c = true -> forall q, ps_mem s (ps_req s) = Some q -> answers q (r_msg r)) -> c <> RSignal ->
  pinv W (rgoto j r c s).
Proof.
  intros W s j r c I Ej Hr Hb Hc Hs. constructor; psimp; try apply I.
  - apply put_Forall; [apply I|]. psimp. apply nth_error_In in Ej. pose proof (pi_recv _ _ I) as F. rewrite Forall_forall in F. apply (F _ Ej).
  - intros k x Ek B. destruct (put_nth _ _ _ _ _ _ Ek) as [[-> ->]|[N Ek']]; [psimp; auto|]. apply (pi_sec _ _ I k x Ek' B).
  - intros i p Ei. pose proof (pi_calls _ _ I i p Ei) as C. constructor; psimp; try apply C.
    + intros X. exfalso. destruct (pc_closing _ _ _ C X) as [_ Q]. apply (quiet_not s j r Q Ej Hr).
    + intros X. destruct (pc_open _ _ _ C X) as (q & B & S & M & H). exists q, B. split; [exact S|]. split; [exact M|].
      intros k x Ek Sx. destruct (put_nth _ _ _ _ _ _ Ek) as [[-> ->]|[N Ek']]; [|apply (H k x Ek' Sx)]. psimp.
      destruct (H j r Ej Hr) as (H1 & _). split; [exact H1|]. split; [|congruence].
      intros Y. apply (Hc Y). rewrite (pc_req _ _ _ C); [exact M|]. destruct (p_pc p); discriminate || reflexivity.
Qed.

Lemma recv_step_inv : forall W le j r s, pinv W s -> nth_error (ps_receivers s) j = Some r ->
  exists s', recv_step le j r s = Ok s' /\ pinv W s'.
Proof.
  intros W le j r s I Ej.
  assert (Fr : fine (r_msg r)).
  { pose proof (pi_recv _ _ I) as F. rewrite Forall_forall in F. apply (F r). apply nth_error_In in Ej. exact Ej. }
  unfold recv_step. destruct (r_pc r) eqn:Ec.
  - (* is a request pending *)
    destruct (Z.eqb_spec (ps_req s) 0) as [Z0|Z0]; [eexists; split; [reflexivity|]; apply recv_leaves; auto|].
    eexists. split; [reflexivity|]. constructor; psimp; try apply I.
    + apply put_Forall; [apply I|exact Fr].
    + intros k x Ek B. destruct (put_nth _ _ _ _ _ _ Ek) as [[-> ->]|[N Ek']]; [discriminate|]. apply (pi_sec _ _ I k x Ek' B).
    + intros i p Ei. pose proof (pi_calls _ _ I i p Ei) as C. constructor; psimp; try apply C.
      * intros X. exfalso. destruct (pc_closing _ _ _ C X) as [Q _]. contradiction.
      * intros X. destruct (pc_open _ _ _ C X) as (q & B & S & M & H). exists q, (EHandle (r_msg r) :: B).
        split; [apply sent_cons; [exact S|exact (fun x => x)]|]. split; [exact M|].
        intros k x Ek Sx. destruct (put_nth _ _ _ _ _ _ Ek) as [[-> ->]|[N Ek']].
        -- psimp. split; [left; reflexivity|]. split; discriminate.
        -- destruct (H k x Ek' Sx) as (H1 & H2 & H3). split; [right; exact H1|]. split; [exact H2|].
           intros Y. apply answered_cons; [apply (H3 Y)|exact (fun x => x)].
    + intros w i p Ei. apply (well_frame s); psimp; [apply (pi_well _ _ I w i p Ei)|reflexivity|apply one_event; exact (fun x => x)].
    + intros w. apply returns_cons; [apply (pi_returns _ _ I w)|discriminate].
  - destruct (Z.eqb_spec (ps_res s) 0) as [Z0|Z0]; eexists; (split; [reflexivity|]); [apply recv_leaves; auto|].
    apply recv_goes_on; auto; [rewrite Ec; reflexivity|intros _; split; [exact Z0|exact Logic.I]|discriminate|discriminate].
  - destruct (Z.eqb_spec (ps_req s) 0) as [Z0|Z0]; eexists; (split; [reflexivity|]); [apply recv_leaves; auto|].
    apply recv_goes_on; auto; [rewrite Ec; reflexivity| |discriminate|discriminate].
    intros _. destruct (pi_sec _ _ I j r Ej) as [B1 _]; [rewrite Ec; reflexivity|]. split; [exact B1|exact Logic.I].
  - eexists. split; [reflexivity|]. apply recv_goes_on; auto; [rewrite Ec; reflexivity| |discriminate|discriminate].
    intros _. destruct (pi_sec _ _ I j r Ej) as [B1 _]; [rewrite Ec; reflexivity|]. split; [exact B1|reflexivity].
  - destruct (pi_sec _ _ I j r Ej) as [Zr Ea]; [rewrite Ec; reflexivity|]. rewrite Ec in Ea. cbn [ptr_ok] in Ea. subst a.
    destruct (Z.eqb_spec (ps_req s) 0) as [Z0|Z0]; [eexists; (split; [reflexivity|]); apply recv_leaves; auto|].
    destruct (alive_load s (ps_req s)) as (q & Eq & Mq); [apply (pi_res _ _ I); assumption|]. rewrite Eq. cbn [bind].
    eexists. split; [reflexivity|]. destruct (uecho_message_isresponsemessage le q (r_msg r)) eqn:Ea; [|apply recv_leaves; auto].
    apply recv_goes_on; auto; [rewrite Ec; reflexivity|intros _; split; [exact Zr|exact Logic.I]| |discriminate].
    intros _ q' Mq'. assert (q' = q) by congruence. subst q'. apply (isresponse_answers le); [apply (pi_mem _ _ I _ _ Mq)|apply Fr|exact Ea].
  - assert (Sec : in_section (r_pc r) = true) by (rewrite Ec; reflexivity).
    eexists. split; [reflexivity|]. destruct (pi_sec _ _ I j r Ej) as [Zr _]; [rewrite Ec; reflexivity|].
    constructor; psimp; try apply I.
    + apply put_Forall; [apply I|exact Fr].
    + intros k x Ek B. destruct (put_nth _ _ _ _ _ _ Ek) as [[-> ->]|[N Ek']]; [psimp; split; [exact Zr|reflexivity]|]. apply (pi_sec _ _ I k x Ek' B).
    + intros i p Ei. pose proof (pi_calls _ _ I i p Ei) as C. constructor; psimp; try apply C.
      * intros X. exfalso. destruct (pc_closing _ _ _ C X) as [_ Q]. apply (quiet_not s j r Q Ej Sec).
      * intros X. destruct (pc_open _ _ _ C X) as (q & B & S & M & H). exists q, B. split; [exact S|]. split; [exact M|].
        intros k x Ek Sx. destruct (put_nth _ _ _ _ _ _ Ek) as [[-> ->]|[N Ek']]; [|apply (H k x Ek' Sx)]. psimp.
        destruct (H j r Ej Sec) as (H1 & H2 & _). split; [exact H1|]. split; [|discriminate].
        intros _. apply H2. rewrite Ec. reflexivity.
  - (* copy *)
    destruct (pi_sec _ _ I j r Ej) as [Zr Ea]; [rewrite Ec; reflexivity|]. rewrite Ec in Ea. cbn [ptr_ok] in Ea. subst a.
    rewrite (proj2 (Z.eqb_neq _ _) Zr).
    destruct (alive_load s (ps_res s)) as (m & Em & Mm); [apply (pi_res _ _ I Zr)|]. rewrite Em. cbn [bind].
    destruct (set_fine le m (r_msg r) (pi_mem _ _ I _ _ Mm) Fr) as (m' & Es & Cp & Fm). rewrite Es. cbn [bind].
    eexists. split; [reflexivity|].
    assert (Sec : in_section (r_pc r) = true) by (rewrite Ec; reflexivity).
    assert (Ans : forall i p q B, nth_error (ps_posters s) i = Some p -> opened (p_pc p) = true -> sent_in i (ps_log s) q B ->
      ps_mem s (p_req p) = Some q -> In (EHandle (r_msg r)) B -> answers q (r_msg r) ->
      answered i (ps_log s) (store (ps_res s) (Some m') (ps_mem s) (p_res p))).
    { intros i p q B Ei X S M H1 H2. exists q, B, (r_msg r), m'. split; [exact S|]. split; [exact H1|]. split; [exact H2|]. split; [|exact Cp].
      rewrite <- (pc_res _ _ _ (pi_calls _ _ I i p Ei)); [apply store_at|]. destruct (p_pc p); discriminate || reflexivity. }
    constructor; psimp; try apply I.
    + intros a x. unfold store. destruct (a =? ps_res s); [intros E; injection E as <-; exact Fm|apply I].
    + apply put_Forall; [apply I|exact Fr].
    + intros X. destruct (pi_res _ _ I X) as [R1 R2]. split; [apply store_alive; exact R1|]. intros Y. apply store_alive. apply (R2 Y).
    + intros k x Ek B. destruct (put_nth _ _ _ _ _ _ Ek) as [[-> ->]|[N Ek']]; [psimp; auto|]. apply (pi_sec _ _ I k x Ek' B).
    + intros i p Ei. pose proof (pi_calls _ _ I i p Ei) as C. constructor; psimp; try apply C.
      * intros X. exfalso. destruct (pc_closing _ _ _ C X) as [_ Q]. apply (quiet_not s j r Q Ej Sec).
      * intros X. destruct (pc_args _ _ _ C X) as (A1 & A2 & A3 & A4 & A5).
        pose proof (fun a => store_alive (ps_res s) m' (ps_mem s) a). auto 10.
      * intros X. destruct (pc_open _ _ _ C X) as (q & B & S & M & H). exists q, B. split; [exact S|].
        assert (Hb : busy_call p) by (unfold busy_call; intros Y; rewrite Y in X; discriminate).
        assert (Ers : ps_res s = p_res p) by (apply (pc_res _ _ _ C); destruct (p_pc p); discriminate || reflexivity).
        split; [rewrite store_off; [exact M|rewrite Ers; apply (pc_args _ _ _ C Hb)]|].
        destruct (H j r Ej Sec) as (H1 & H2 & _). pose proof (Ans i p q B Ei X S M H1 (H2 (f_equal checked Ec))) as An.
        intros k x Ek Sx. destruct (put_nth _ _ _ _ _ _ Ek) as [[-> ->]|[N Ek']].
        -- psimp. split; [exact H1|]. split; [intros _; apply (H2 (f_equal checked Ec))|]. intros _. exact An.
        -- destruct (H k x Ek' Sx) as (K1 & K2 & K3). split; [exact K1|]. split; [exact K2|]. intros _. exact An.
    + intros w i p Ei X. psimp. pose proof (pi_calls _ _ I i p Ei) as C. destruct (opened (p_pc p)) eqn:O.
      * destruct (pc_open _ _ _ C O) as (q & B & S & M & H). destruct (H j r Ej Sec) as (H1 & H2 & _).
        apply (Ans i p q B Ei O S M H1). apply H2. rewrite Ec. reflexivity.
      * exfalso. assert (Cl : closing (p_pc p) = true) by (destruct (p_pc p); discriminate || reflexivity).
        destruct (pc_closing _ _ _ C Cl) as [_ Q]. apply (quiet_not s j r Q Ej Sec).
  - (* signal *)
    eexists. split; [reflexivity|]. unfold uecho_cond_signal. destruct (waiting 0 (ps_posters s)) as [[i p]|] eqn:Ew; [|apply recv_leaves; auto].
    destruct (waiting_nth _ _ _ _ Ew) as (n & En & Ei & Ep). cbn [Nat.add] in En. subst n.
    assert (Ej' : nth_error (ps_receivers (log (EWake i) (goto i p (PClearReq true) s))) j = Some r) by exact Ej.
    apply recv_leaves; [|exact Ej'|reflexivity].
    pose proof (pi_calls _ _ I i p Ei) as C. destruct p as [c d q rr]. cbn [p_pc] in Ep. subst c.
    assert (O : ps_owner s = Some i) by (apply (pc_owner _ _ _ C); reflexivity).
    destruct (pc_open _ _ _ C eq_refl) as (qm & B & S & M & H). psimp.
    destruct (H j r Ej) as (_ & _ & H3); [rewrite Ec; reflexivity|]. specialize (H3 Ec).
    assert (NB : ~ begins i (EWake i)) by exact (fun x => x).
    eapply (inside_step W s _ i _ _ I Ei eq_refl); psimp; [reflexivity|reflexivity|auto|apply I|auto|apply I|auto| | |].
    + constructor; psimp; [split; auto|intros _; apply (pc_req _ _ _ C eq_refl)|intros _; apply (pc_res _ _ _ C eq_refl)|discriminate| |].
      * intros _. apply (pc_args _ _ _ C). discriminate.
      * intros _. exists qm, (EWake i :: B). split; [apply sent_cons; assumption|]. split; [exact M|].
        intros k x Ek Sx. destruct (H k x Ek Sx) as (K1 & K2 & K3). split; [right; exact K1|]. split; [exact K2|].
        intros Y. apply answered_cons; [apply (K3 Y)|exact NB].
    + intros _ X. psimp. apply answered_cons; [exact H3|exact NB].
    + intros w. apply returns_cons; [apply (pi_returns _ _ I w)|discriminate].
  - exists s. auto.
Qed.

Lemma wake_inv : forall W s i p b, pinv W s -> nth_error (ps_posters s) i = Some p -> p_pc p = PWaiting -> (W -> b = false) ->
  pinv W (goto i p (PClearReq b) s).
Proof.
  intros W s i p b I Ei Ep Hb. pose proof (pi_calls _ _ I i p Ei) as C. destruct p as [c d q rr]. cbn [p_pc] in Ep. subst c.
  assert (O : ps_owner s = Some i) by (apply (pc_owner _ _ _ C); reflexivity).
  eapply (inside_step W s _ i _ _ I Ei eq_refl); psimp; [reflexivity|reflexivity|auto|apply I|auto|apply I|auto| | |apply I].
  - constructor; psimp; [split; auto|intros _; apply (pc_req _ _ _ C eq_refl)|intros _; apply (pc_res _ _ _ C eq_refl)|discriminate| |].
    + intros _. apply (pc_args _ _ _ C). discriminate.
    + intros _. exact (pc_open _ _ _ C eq_refl).
  - intros w X. psimp. rewrite (Hb w) in X. discriminate.
Qed.

Lemma mem_inv : forall W s a o, pinv W s -> private s a -> (forall m, o = Some m -> fine m) ->
  pinv W (with_mem (store a o (ps_mem s)) s).
Proof.
  intros W s a o I (P0 & P1 & P2 & P3) Ho. constructor; psimp; try apply I.
  - intros x m. unfold store. destruct (x =? a); [apply Ho|apply I].
  - intros X. destruct (pi_res _ _ I X) as [R1 R2]. rewrite !store_off by congruence. auto.
  - intros i p Ei. pose proof (pi_calls _ _ I i p Ei) as C. constructor; psimp; try apply C.
    + intros X. destruct (P3 i p Ei X). rewrite !store_off by congruence. apply (pc_args _ _ _ C X).
    + intros X. assert (Hb : busy_call p) by (unfold busy_call; intros Y; rewrite Y in X; discriminate).
      destruct (P3 i p Ei Hb). rewrite !store_off by congruence. apply (pc_open _ _ _ C X).
  - intros w i p Ei X. psimp. assert (Hb : busy_call p) by (unfold busy_call; intros Y; rewrite Y in X; discriminate).
    destruct (P3 i p Ei Hb). rewrite store_off by congruence. apply (pi_well _ _ I w i p Ei X).
Qed.

Lemma step_inv : forall W le s l, pinv W s -> calm le s l -> (W -> spurious l = false) ->
  exists s', pstep le s l = Ok s' /\ pinv W s'.
Proof.
  intros W le s l I Hc Hs. destruct l as [i d q r|i ok|i|i|m|j|a m|a]; cbn [pstep calm] in *.
  - destruct (nth_error (ps_posters s) i) as [p|] eqn:Ei; [|exists s; auto]. destruct (p_pc p) eqn:Ep; try (exists s; auto; fail).
    eexists. split; [reflexivity|]. pose proof (pi_calls _ _ I i p Ei) as C.
    assert (O : ps_owner s <> Some i) by (intros O; apply (pc_owner _ _ _ C) in O; rewrite Ep in O; discriminate).
    constructor; psimp; try apply I.
    + intros k x Ek. destruct (put_nth _ _ _ _ _ _ Ek) as [[-> ->]|[N Ek']].
      * apply outside_call; psimp; [reflexivity|exact O|]. intros _. tauto.
      * apply (call_frame s); psimp; try reflexivity; [apply I; exact Ek'|auto|apply one_event; cbn; congruence].
    + intros w k x Ek. destruct (put_nth _ _ _ _ _ _ Ek) as [[-> ->]|[N Ek']]; [apply outside_well; reflexivity|].
      apply (well_frame s); psimp; [apply (pi_well _ _ I w k x Ek')|reflexivity|apply one_event; cbn; congruence].
    + intros w. apply returns_cons; [apply (pi_returns _ _ I w)|discriminate].
  - destruct (nth_error (ps_posters s) i) as [p|] eqn:Ei; [|exists s; auto].
    apply post_step_inv; [exact I|exact Ei|]. intros X. apply (Hc p eq_refl X).
  - destruct (nth_error (ps_posters s) i) as [p|] eqn:Ei; [|exists s; auto]. destruct (p_pc p) eqn:Ep; try (exists s; auto; fail).
    eexists. split; [reflexivity|]. apply wake_inv; auto.
  - destruct (nth_error (ps_posters s) i) as [p|] eqn:Ei; [|exists s; auto]. destruct (p_pc p) eqn:Ep; try (exists s; auto; fail).
    eexists. split; [reflexivity|]. apply wake_inv; auto.
  - eexists. split; [reflexivity|]. constructor; psimp; try apply I.
    + apply Forall_app. split; [apply I|constructor; [apply (api_fine le m Hc)|constructor]].
    + intros k x Ek B. apply (pi_sec _ _ I k x); [|exact B].
      destruct (Nat.lt_ge_cases k (length (ps_receivers s))) as [L|L]; [rewrite nth_error_app1 in Ek by exact L; exact Ek|].
      rewrite nth_error_app2 in Ek by exact L. destruct (k - _)%nat as [|z]; [cbn in Ek; injection Ek as <-; discriminate|destruct z; discriminate].
    + intros i p Ei. apply (call_frame s); psimp; try reflexivity; [apply I; exact Ei|intros k x Ek B|apply no_events].
      destruct (Nat.lt_ge_cases k (length (ps_receivers s))) as [L|L]; [rewrite nth_error_app1 in Ek by exact L; exact Ek|].
      rewrite nth_error_app2 in Ek by exact L. destruct (k - _)%nat as [|z]; [cbn in Ek; injection Ek as <-; discriminate|destruct z; discriminate].
  - destruct (nth_error (ps_receivers s) j) as [r|] eqn:Ej; [|exists s; auto]. apply recv_step_inv; assumption.
  - eexists. split; [reflexivity|]. apply mem_inv; [exact I|apply Hc|]. intros x E. injection E as <-. apply (api_fine le m (proj2 Hc)).
  - eexists. split; [reflexivity|]. apply mem_inv; [exact I|apply Hc|]. discriminate.
Qed.

Lemma init_inv : forall W le n k mem req, (forall a m, mem a = Some m -> a_message le m) -> pinv W (post_init n k mem req).
Proof.
  intros W le n k mem req H. unfold post_init.
  assert (P : forall i p, nth_error (repeat (mkPoster PIdle n 0 0) k) i = Some p -> p = mkPoster PIdle n 0 0).
  { intros i p E. apply nth_error_In in E. apply repeat_spec in E. exact E. }
  constructor; psimp.
  - intros a m E. apply (api_fine le). apply (H a m E).
  - constructor.
  - congruence.
  - intros [|j] r E; discriminate.
  - intros i p E. apply P in E. subst p. apply outside_call; psimp; [reflexivity|discriminate|intros X; exfalso; apply X; reflexivity].
  - intros _ i p E. apply P in E. subst p. apply outside_well. reflexivity.
  - intros _ A i r B E. destruct A; discriminate.
Qed.

Lemma calm_run_inv : forall (W : Prop) le s sched s', calm_run le s sched s' -> (W -> forallb (fun l => negb (spurious l)) sched = true) ->
  pinv W s -> pinv W s'.
Proof.
  intros W le s sched s' R. induction R as [s|s l s1 r s2 Hc E R IH]; intros Hs I; [exact I|].
  assert (Hl : W -> spurious l = false).
  { intros w. specialize (Hs w). cbn [forallb] in Hs. apply andb_prop in Hs. destruct (spurious l); [destruct Hs; discriminate|reflexivity]. }
  apply IH.
  - intros w. specialize (Hs w). cbn [forallb] in Hs. apply andb_prop in Hs. apply Hs.
  - destruct (step_inv W le s l I Hc Hl) as (s' & E' & I'). congruence.
Qed.

(* ---- every schedule: the mutex, and what a signal does ---- *)
(* thread [i] was woken by a signal in its latest call *)
Definition woken (i : nat) (L : list event) : Prop :=
  exists A B, L = A ++ EWake i :: B /\ Forall (fun e => ~ ends i e) A.
Definition wakes_ok (L : list event) : Prop :=
  forall A i b r B, L = A ++ EReturn i b r :: B -> woken i B -> b = true.

Record tinv (s : pstate) : Prop := mkT {
  t_owner : forall i p, nth_error (ps_posters s) i = Some p -> (inside (p_pc p) = true <-> ps_owner s = Some i);
  t_woken : forall i p, nth_error (ps_posters s) i = Some p -> woken i (ps_log s) -> success (p_pc p) = true;
  t_wakes : wakes_ok (ps_log s);
  t_range : forall i, ps_owner s = Some i -> exists p, nth_error (ps_posters s) i = Some p
}.

Lemma woken_cons : forall i e L, woken i (e :: L) -> e = EWake i \/ (woken i L /\ ~ ends i e).
Proof.
  intros i e L (A & B & E & F). destruct A as [|a A]; cbn [app] in E; injection E as E1 E2; [left; exact E1|].
  right. subst a. inversion F as [|? ? N F']; subst. split; [exists A, B; auto|exact N].
Qed.
Lemma wakes_cons : forall e L, wakes_ok L -> (forall i b r, e = EReturn i b r -> woken i L -> b = true) -> wakes_ok (e :: L).
Proof.
  intros e L H He [|a A] i b r B E; cbn [app] in E; injection E as E1 E2; [subst; apply He with (1 := eq_refl)|].
  apply (H A i b r B E2).
Qed.

(* a step of thread [i] from [p] to [p'] *)
Lemma t_move : forall s s' i p p', tinv s -> nth_error (ps_posters s) i = Some p -> ps_posters s' = put i p' (ps_posters s) ->
  (inside (p_pc p') = true <-> ps_owner s' = Some i) -> (forall k, k <> i -> (ps_owner s' = Some k <-> ps_owner s = Some k)) ->
  (ps_log s' = ps_log s \/ exists e, ps_log s' = e :: ps_log s /\ (forall k, e = EWake k -> k = i) /\
     (forall b r, e = EReturn i b r -> success (p_pc p) = true -> b = true) /\ (forall k b r, e = EReturn k b r -> k = i)) ->
  (woken i (ps_log s') -> success (p_pc p') = true) -> tinv s'.
Proof.
  intros s s' i p p' T Ei Ep Ho Hk Hl Hw. constructor.
  - rewrite Ep. intros k q Ek. destruct (put_nth _ _ _ _ _ _ Ek) as [[-> ->]|[N Ek']]; [exact Ho|].
    rewrite (Hk k N). apply (t_owner _ T k q Ek').
  - rewrite Ep. intros k q Ek. destruct (put_nth _ _ _ _ _ _ Ek) as [[-> ->]|[N Ek']]; [exact Hw|].
    intros W. apply (t_woken _ T k q Ek'). destruct Hl as [El|(e & El & He & _)]; rewrite El in W; [exact W|].
    destruct (woken_cons _ _ _ W) as [X|[X _]]; [exfalso; apply N; apply (He k X)|exact X].
  - destruct Hl as [El|(e & El & _ & Hb & Hr)]; rewrite El; [apply T|]. apply wakes_cons; [apply T|].
    intros k b r E W. assert (k = i) by (apply (Hr k b r E)). subst k. apply (Hb b r E). apply (t_woken _ T i p Ei W).
  - rewrite Ep. intros k Ok. destruct (Nat.eq_dec k i) as [->|N]; [exists p'; apply (put_same _ _ _ _ _ Ei)|].
    destruct (t_range _ T k) as [q Ek]; [apply (Hk k N); exact Ok|]. exists q. rewrite put_other by congruence. exact Ek.
Qed.

Lemma t_same : forall s s', tinv s -> ps_posters s' = ps_posters s -> ps_owner s' = ps_owner s ->
  (ps_log s' = ps_log s \/ exists m, ps_log s' = EHandle m :: ps_log s) -> tinv s'.
Proof.
  intros s s' T Ep Eo El. constructor.
  - rewrite Ep, Eo. apply T.
  - rewrite Ep. intros i p Ei W. apply (t_woken _ T i p Ei). destruct El as [El|[m El]]; rewrite El in W; [exact W|].
    destruct (woken_cons _ _ _ W) as [X|[X _]]; [discriminate|exact X].
  - destruct El as [El|[m El]]; rewrite El; [apply T|]. apply wakes_cons; [apply T|discriminate].
  - rewrite Ep, Eo. apply T.
Qed.

Lemma step_tinv : forall le s l s', tinv s -> pstep le s l = Ok s' -> tinv s'.
Proof.
  intros le s l s' T E. destruct l as [i d q r|i ok|i|i|m|j|a m|a]; cbn [pstep] in E.
  - destruct (nth_error (ps_posters s) i) as [p|] eqn:Ei; [|injection E as <-; exact T].
    pose proof (t_owner _ T i p Ei) as O.
    destruct (p_pc p) eqn:Ep; injection E as <-; try exact T.
    eapply (t_move s _ i p); psimp; try eassumption; [reflexivity|exact O|reflexivity| |].
    + right. eexists. split; [reflexivity|]. split; [discriminate|]. split; discriminate.
    + intros W. exfalso. destruct (woken_cons _ _ _ W) as [X|[_ X]]; [discriminate|apply X; reflexivity].
  - destruct (nth_error (ps_posters s) i) as [p|] eqn:Ei; [|injection E as <-; exact T].
    pose proof (t_owner _ T i p Ei) as O. pose proof (t_woken _ T i p Ei) as Wi. destruct p as [c d q r].
    destruct c; unfold post_step in E; psimp; try (injection E as <-; exact T);
      try (assert (Oi : ps_owner s = Some i) by (apply O; reflexivity)).
    + destruct (ps_owner s) as [o|] eqn:Eo; injection E as <-; [exact T|].
      eapply (t_move s _ i _ _ T Ei); psimp; [reflexivity|split; reflexivity|intros k N; split; congruence|left; reflexivity|].
      intros W. specialize (Wi W). discriminate.
    + injection E as <-. eapply (t_move s _ i _ _ T Ei); psimp; [reflexivity|split; auto|reflexivity|left; reflexivity|].
      intros W. specialize (Wi W). discriminate.
    + injection E as <-. eapply (t_move s _ i _ _ T Ei); psimp; [reflexivity|split; auto|reflexivity|left; reflexivity|].
      intros W. specialize (Wi W). discriminate.
    + destruct (q =? 0).
      * injection E as <-. eapply (t_move s _ i _ _ T Ei); psimp; [reflexivity|split; auto|reflexivity|left; reflexivity|].
        intros W. specialize (Wi W). discriminate.
      * apply bind_ok in E. destruct E as (mq & E1 & E). apply bind_ok in E. destruct E as (x & E2 & E). injection E as <-.
        eapply (t_move s _ i _ _ T Ei); psimp; [reflexivity|destruct (s_ret x); split; auto|reflexivity| |].
        -- right. eexists. split; [reflexivity|]. split; [discriminate|]. split; discriminate.
        -- intros W. destruct (woken_cons _ _ _ W) as [X|[X _]]; [discriminate|]. specialize (Wi X). discriminate.
    + injection E as <-. eapply (t_move s _ i _ _ T Ei); psimp; [reflexivity|split; discriminate|intros k N; split; congruence| |].
      * right. eexists. split; [reflexivity|]. split; [discriminate|]. split; [discriminate|]. intros k b x X. injection X as X _ _. congruence.
      * intros W. exfalso. destruct (woken_cons _ _ _ W) as [X|[_ X]]; [discriminate|apply X; reflexivity].
    + injection E as <-. eapply (t_move s _ i _ _ T Ei); psimp; [reflexivity|split; auto|reflexivity|left; reflexivity|].
      intros W. specialize (Wi W). discriminate.
    + injection E as <-. eapply (t_move s _ i _ _ T Ei); psimp; [reflexivity|split; auto|reflexivity|left; reflexivity|exact Wi].
    + injection E as <-. eapply (t_move s _ i _ _ T Ei); psimp; [reflexivity|split; auto|reflexivity|left; reflexivity|exact Wi].
    + injection E as <-. eapply (t_move s _ i _ _ T Ei); psimp; [reflexivity|split; discriminate|intros k N; split; congruence| |].
      * right. eexists. split; [reflexivity|]. split; [discriminate|]. split; [intros b' x X Y; injection X as X _; congruence|].
        intros k b' x X. injection X as X _ _. congruence.
      * intros W. exfalso. destruct (woken_cons _ _ _ W) as [X|[_ X]]; [discriminate|apply X; reflexivity].
  - destruct (nth_error (ps_posters s) i) as [p|] eqn:Ei; [|injection E as <-; exact T].
    pose proof (t_owner _ T i p Ei) as O. pose proof (t_woken _ T i p Ei) as Wi.
    destruct (p_pc p) eqn:Ep; injection E as <-; try exact T.
    eapply (t_move s _ i p _ T Ei); psimp; [reflexivity|exact O|reflexivity|left; reflexivity|].
    intros W. specialize (Wi W). discriminate.
  - destruct (nth_error (ps_posters s) i) as [p|] eqn:Ei; [|injection E as <-; exact T].
    pose proof (t_owner _ T i p Ei) as O.
    destruct (p_pc p) eqn:Ep; injection E as <-; try exact T.
    eapply (t_move s _ i p _ T Ei); psimp; [reflexivity|exact O|reflexivity|left; reflexivity|reflexivity].
  - injection E as <-. apply (t_same s); auto.
  - destruct (nth_error (ps_receivers s) j) as [r|] eqn:Ej; [|injection E as <-; exact T].
    unfold recv_step in E. destruct (r_pc r).
    + injection E as <-. apply (t_same s); auto; destruct (ps_req s =? 0); psimp; eauto.
    + injection E as <-. apply (t_same s); auto.
    + injection E as <-. apply (t_same s); auto.
    + injection E as <-. apply (t_same s); auto.
    + destruct (a =? 0); [injection E as <-; apply (t_same s); auto|].
      apply bind_ok in E. destruct E as (mq & E1 & E). injection E as <-. apply (t_same s); auto.
    + injection E as <-. apply (t_same s); auto.
    + destruct (a =? 0); [injection E as <-; apply (t_same s); auto|].
      apply bind_ok in E. destruct E as (mq & E1 & E). apply bind_ok in E. destruct E as (mr & E2 & E). injection E as <-. apply (t_same s); auto.
    + injection E as <-. unfold uecho_cond_signal. destruct (waiting 0 (ps_posters s)) as [[i p]|] eqn:Ew; [|apply (t_same s); auto].
      destruct (waiting_nth _ _ _ _ Ew) as (n & En & Ei & Ep). cbn [Nat.add] in En. subst n.
      pose proof (t_owner _ T i p Ei) as O. rewrite Ep in O.
      eapply (t_move s _ i p _ T Ei); psimp; [reflexivity|exact O|reflexivity| |reflexivity].
      right. eexists. split; [reflexivity|]. split; [intros k X; injection X as X; congruence|]. split; discriminate.
    + injection E as <-. exact T.
  - injection E as <-. apply (t_same s); auto.
  - injection E as <-. apply (t_same s); auto.
Qed.

Lemma init_tinv : forall n k mem req, tinv (post_init n k mem req).
Proof.
  intros n k mem req. constructor; psimp; cbn [post_init ps_posters ps_owner ps_log].
  - intros i p E. apply nth_error_In in E. apply repeat_spec in E. subst p. split; discriminate.
  - intros i p E (A & B & E' & _). destruct A; discriminate.
  - intros A i b r B E. destruct A; discriminate.
  - discriminate.
Qed.

Lemma run_tinv : forall le sched s s', tinv s -> prun le s sched = Ok s' -> tinv s'.
Proof.
  intros le sched. induction sched as [|l sched IH]; intros s s' T E; cbn [prun] in E; [injection E as <-; exact T|].
  apply bind_ok in E. destruct E as (s1 & E1 & E). apply (IH s1); [|exact E]. apply (step_tinv le s l); assumption.
Qed.

(* ---- a call can always be completed ---- *)
Lemma calm_app : forall le s a s1 b s2, calm_run le s a s1 -> calm_run le s1 b s2 -> calm_run le s (a ++ b) s2.
Proof. intros le s a s1 b s2 R. induction R; intros R2; [exact R2|]. cbn [app]. econstructor; eauto. Qed.
Lemma calm_one : forall le s l s', calm le s l -> pstep le s l = Ok s' -> calm_run le s [l] s'.
Proof. intros. econstructor; [eassumption|eassumption|constructor]. Qed.

Definition rank (r : receiver) : nat :=
  match r_pc r with RArrived => 8 | RSawReq => 7 | RHandle => 6 | RCheck => 5 | RCompare _ => 4 | RStore => 3 | RCopy _ => 2 | RSignal => 1 | RDone => 0 end.
Fixpoint total (l : list receiver) : nat := match l with [] => 0%nat | r :: t => (rank r + total t)%nat end.
Lemma total_put : forall l j r r', nth_error l j = Some r -> (rank r' < rank r)%nat -> (total (put j r' l) < total l)%nat.
Proof.
  induction l as [|x l IH]; intros [|j] r r' E H; try discriminate; cbn in E.
  - injection E as ->. cbn [put total]. lia.
  - cbn [put total]. specialize (IH j r r' E H). lia.
Qed.

Lemma recv_rank : forall le j r s s', nth_error (ps_receivers s) j = Some r -> in_section (r_pc r) = true -> recv_step le j r s = Ok s' ->
  (total (ps_receivers s') < total (ps_receivers s))%nat /\ Datatypes.length (ps_posters s') = Datatypes.length (ps_posters s) /\
  (forall i p, nth_error (ps_posters s) i = Some p -> exists p', nth_error (ps_posters s') i = Some p' /\
     (busy_call p -> busy_call p') /\ inside (p_pc p') = inside (p_pc p)) /\ ps_owner s' = ps_owner s.
Proof.
  intros le j r s s' Ej Hs E.
  assert (G : forall s1 c, ps_receivers s1 = ps_receivers s -> ps_posters s1 = ps_posters s -> ps_owner s1 = ps_owner s ->
     (rank (mkReceiver c (r_msg r)) < rank r)%nat -> s' = rgoto j r c s1 -> 
     (total (ps_receivers s') < total (ps_receivers s))%nat /\ length (ps_posters s') = length (ps_posters s) /\
     (forall i p, nth_error (ps_posters s) i = Some p -> exists p', nth_error (ps_posters s') i = Some p' /\
       (busy_call p -> busy_call p') /\ inside (p_pc p') = inside (p_pc p)) /\ ps_owner s' = ps_owner s).
  { intros s1 c E1 E2 E3 R ->. psimp. rewrite E1, E2, E3. split; [apply (total_put _ _ r); assumption|]. split; [reflexivity|].
    split; [intros i p Ei; exists p; auto|reflexivity]. }
  unfold recv_step in E. destruct (r_pc r) eqn:Ec; try discriminate;
    assert (Rk : rank r = rank (mkReceiver (r_pc r) (r_msg r))) by reflexivity; rewrite Ec in Rk; cbn [rank r_pc] in Rk.
  - injection E as <-. apply (G s (if ps_res s =? 0 then RDone else RHandle)); try reflexivity. rewrite Rk. destruct (ps_res s =? 0); cbn; lia.
  - injection E as <-. apply (G s (if ps_req s =? 0 then RDone else RCheck)); try reflexivity. rewrite Rk. destruct (ps_req s =? 0); cbn; lia.
  - injection E as <-. apply (G s (RCompare (ps_req s))); try reflexivity. rewrite Rk. cbn; lia.
  - destruct (a =? 0); [injection E as <-; apply (G s RDone); try reflexivity; rewrite Rk; cbn; lia|].
    apply bind_ok in E. destruct E as (mq & E1 & E). injection E as <-.
    apply (G s (if uecho_message_isresponsemessage le mq (r_msg r) then RStore else RDone)); try reflexivity.
    rewrite Rk. destruct (uecho_message_isresponsemessage le mq (r_msg r)); cbn; lia.
  - injection E as <-. apply (G s (RCopy (ps_res s))); try reflexivity. rewrite Rk. cbn; lia.
  - destruct (a =? 0); [injection E as <-; apply (G s RSignal); try reflexivity; rewrite Rk; cbn; lia|].
    apply bind_ok in E. destruct E as (mq & E1 & E). apply bind_ok in E. destruct E as (mr & E2 & E). injection E as <-.
    apply (G (with_mem (store a (Some mr) (ps_mem s)) s) RSignal); try reflexivity. rewrite Rk. cbn; lia.
  - injection E as <-. unfold uecho_cond_signal in *. destruct (waiting 0 (ps_posters s)) as [[i p]|] eqn:Ew;
      [|apply (G s RDone); try reflexivity; rewrite Rk; cbn; lia].
    destruct (waiting_nth _ _ _ _ Ew) as (n & En & Ei & Ep). cbn [Nat.add] in En. subst n. psimp.
    split; [apply (total_put _ _ r); [exact Ej|rewrite Rk; cbn; lia]|]. split; [apply put_length|]. split; [|reflexivity].
    intros k pk Ek. destruct (Nat.eq_dec i k) as [<-|N].
    + eexists. split; [apply (put_same _ _ _ _ _ Ei)|]. assert (pk = p) by congruence. subst pk. cbn [p_pc]. rewrite Ep.
      split; [intros _; unfold busy_call; discriminate|reflexivity].
    + exists pk. rewrite put_other by exact N. auto.
Qed.

Lemma not_quiet : forall l, ~ Forall (fun r => in_section (r_pc r) = false) l -> exists j r, nth_error l j = Some r /\ in_section (r_pc r) = true.
Proof.
  induction l as [|x l IH]; intros N; [exfalso; apply N; constructor|]. destruct (in_section (r_pc x)) eqn:E; [exists O, x; auto|].
  destruct IH as (j & r & E1 & E2); [intros F; apply N; constructor; assumption|]. exists (S j), r. auto.
Qed.

(* all receivers can finish what they have begun *)
Lemma drain : forall le n s, (total (ps_receivers s) <= n)%nat -> pinv False s -> exists sched s', calm_run le s sched s' /\ quiet s' /\ pinv False s' /\
  (forall i p, nth_error (ps_posters s) i = Some p -> exists p', nth_error (ps_posters s') i = Some p' /\
     (busy_call p -> busy_call p') /\ inside (p_pc p') = inside (p_pc p)) /\ ps_owner s' = ps_owner s.
Proof.
  intros le n. induction n as [|n IH]; intros s Hn I.
  - exists [], s. split; [constructor|]. split; [|split; [exact I|split; [intros i p Ei; exists p; auto|reflexivity]]].
    apply Forall_forall. intros r Ir. destruct (in_section (r_pc r)) eqn:E; [|reflexivity]. exfalso.
    assert (X : (rank r <= total (ps_receivers s))%nat).
    { clear -Ir. induction (ps_receivers s) as [|x l IH]; [destruct Ir|]. cbn [total]. destruct Ir as [->|Ir]; [lia|specialize (IH Ir); lia]. }
    unfold rank in X. destruct (r_pc r); try discriminate; lia.
  - destruct (Forall_dec (fun r => in_section (r_pc r) = false) (fun r => bool_dec _ _) (ps_receivers s)) as [Q|Q].
    + exists [], s. split; [constructor|]. split; [exact Q|split; [exact I|split; [intros i p Ei; exists p; auto|reflexivity]]].
    + destruct (not_quiet _ Q) as (j & r & Ej & Hr).
      destruct (step_inv False le s (LStep j) I Logic.I (fun f : False => match f with end)) as (s1 & E1 & I1).
      pose proof E1 as E2. cbn [pstep] in E2. rewrite Ej in E2. destruct (recv_rank le j r s s1 Ej Hr E2) as (R1 & R2 & R3 & R4).
      destruct (IH s1) as (sched & s' & R & Q' & I' & P & O); [lia|exact I1|].
      exists (LStep j :: sched), s'. split; [econstructor; [exact Logic.I|exact E1|exact R]|]. split; [exact Q'|]. split; [exact I'|]. split.
      * intros i p Ei. destruct (R3 i p Ei) as (p1 & P1 & P2 & P3). destruct (P i p1 P1) as (p2 & P4 & P5 & P6).
        exists p2. split; [exact P4|]. split; [auto|congruence].
      * congruence.
Qed.

Definition prank (c : ppc) : nat :=
  match c with PIdle => 0 | PUnlock _ => 1 | PFailed => 1 | PClearRes _ => 2 | PClearReq _ => 3 | PWaiting => 4 | PWait => 5 | PSending => 6 | PSetRes => 7 | PSetReq => 8 | PLock => 9 end.

(* and so can the call that holds the mutex *)
Lemma finish : forall le n s i p, (prank (p_pc p) <= n)%nat -> pinv False s -> quiet s -> nth_error (ps_posters s) i = Some p ->
  inside (p_pc p) = true -> exists sched s', calm_run le s sched s' /\ quiet s' /\ pinv False s' /\ ps_owner s' = None /\
  (exists p', nth_error (ps_posters s') i = Some p' /\ p_pc p' = PIdle) /\
  (forall k pk, k <> i -> nth_error (ps_posters s) k = Some pk -> nth_error (ps_posters s') k = Some pk).
Proof.
  intros le n. induction n as [|n IH]; intros s i p Hn I Q Ei Hi; [destruct (p_pc p); cbn in *; try discriminate; lia|].
  pose proof (pi_calls _ _ I i p Ei) as C. pose proof (proj1 (pc_owner _ _ _ C) Hi) as O.
  (* one step of the call *)
  assert (St : exists l s1 p1, calm le s l /\ pstep le s l = Ok s1 /\ ps_receivers s1 = ps_receivers s /\
    ps_posters s1 = put i p1 (ps_posters s) /\ (prank (p_pc p1) < prank (p_pc p))%nat /\
    (p_pc p1 = PIdle /\ ps_owner s1 = None \/ inside (p_pc p1) = true)).
  { assert (Cq : forall ok, calm le s (LPost i ok)) by (intros ok p0 _ _; exact Q).
    destruct p as [c d q r]. destruct c; try discriminate; psimp.
    - exists (LPost i true). cbn [pstep]. rewrite Ei. unfold post_step. psimp. eexists _, _. split; [apply Cq|]. split; [reflexivity|].
      split; [reflexivity|]. split; [reflexivity|]. cbn; split; [lia|auto].
    - exists (LPost i true). cbn [pstep]. rewrite Ei. unfold post_step. psimp. eexists _, _. split; [apply Cq|]. split; [reflexivity|].
      split; [reflexivity|]. split; [reflexivity|]. cbn; split; [lia|auto].
    - exists (LPost i true). destruct (step_inv False le s (LPost i true) I (Cq true) (fun f : False => match f with end)) as (s1 & E1 & _).
      pose proof E1 as E2. cbn [pstep] in E2. rewrite Ei in E2. unfold post_step in E2. psimp.
      destruct (q =? 0).
      + injection E2 as E2. exists s1. subst s1. eexists. split; [apply Cq|]. split; [exact E1|]. split; [reflexivity|]. split; [reflexivity|]. cbn; split; [lia|auto].
      + apply bind_ok in E2. destruct E2 as (mq & _ & E2). apply bind_ok in E2. destruct E2 as (x & _ & E2). injection E2 as E2. exists s1. subst s1.
        eexists. split; [apply Cq|]. split; [exact E1|]. split; [reflexivity|]. split; [reflexivity|]. psimp. destruct (s_ret x); cbn; split; auto; lia.
    - exists (LPost i true). cbn [pstep]. rewrite Ei. unfold post_step. psimp. eexists _, _. split; [apply Cq|]. split; [reflexivity|].
      split; [reflexivity|]. split; [reflexivity|]. cbn; split; [lia|auto].
    - exists (LPost i true). cbn [pstep]. rewrite Ei. unfold post_step. psimp. eexists _, _. split; [apply Cq|]. split; [reflexivity|].
      split; [reflexivity|]. split; [reflexivity|]. cbn; split; [lia|auto].
    - exists (LTimeout i). cbn [pstep]. rewrite Ei. psimp. eexists _, _. split; [exact Logic.I|]. split; [reflexivity|].
      split; [reflexivity|]. split; [reflexivity|]. cbn; split; [lia|auto].
    - exists (LPost i true). cbn [pstep]. rewrite Ei. unfold post_step. psimp. eexists _, _. split; [apply Cq|]. split; [reflexivity|].
      split; [reflexivity|]. split; [reflexivity|]. cbn; split; [lia|auto].
    - exists (LPost i true). cbn [pstep]. rewrite Ei. unfold post_step. psimp. eexists _, _. split; [apply Cq|]. split; [reflexivity|].
      split; [reflexivity|]. split; [reflexivity|]. cbn; split; [lia|auto].
    - exists (LPost i true). cbn [pstep]. rewrite Ei. unfold post_step. psimp. eexists _, _. split; [apply Cq|]. split; [reflexivity|].
      split; [reflexivity|]. split; [reflexivity|]. cbn; split; [lia|auto]. }
  destruct St as (l & s1 & p1 & Hc & E1 & Er & Ep & Hr & Hd).
  destruct (step_inv False le s l I Hc (fun f : False => match f with end)) as (s1' & E1' & I1). assert (s1' = s1) by congruence. subst s1'.
  assert (Q1 : quiet s1) by (unfold quiet; rewrite Er; exact Q).
  assert (Ei1 : nth_error (ps_posters s1) i = Some p1) by (rewrite Ep; apply (put_same _ _ _ _ _ Ei)).
  assert (Ok1 : forall k pk, k <> i -> nth_error (ps_posters s) k = Some pk -> nth_error (ps_posters s1) k = Some pk).
  { intros k pk N Ek. rewrite Ep, put_other by congruence. exact Ek. }
  destruct Hd as [[D1 D2]|D].
  - exists [l], s1. split; [apply calm_one; assumption|]. split; [exact Q1|]. split; [exact I1|]. split; [exact D2|]. split; [exists p1; auto|exact Ok1].
  - destruct (IH s1 i p1) as (sched & s' & R & Q' & I' & O' & P' & K'); try assumption; [lia|].
    exists (l :: sched), s'. split; [econstructor; [exact Hc|exact E1|exact R]|]. split; [exact Q'|]. split; [exact I'|]. split; [exact O'|].
    split; [exact P'|]. intros k pk N Ek. apply K'; [exact N|]. apply Ok1; assumption.
Qed.

Lemma can_finish : forall le s i p, pinv False s -> tinv s -> nth_error (ps_posters s) i = Some p ->
  exists sched s' p', calm_run le s sched s' /\ nth_error (ps_posters s') i = Some p' /\ p_pc p' = PIdle.
Proof.
  intros le s i p I T Ei.
  destruct (drain le _ s (le_n _) I) as (d & s1 & R1 & Q1 & I1 & P1 & O1).
  destruct (P1 i p Ei) as (p1 & E1 & _ & In1).
  (* the owner finishes first *)
  assert (St : exists sched s2, calm_run le s1 sched s2 /\ quiet s2 /\ pinv False s2 /\
     (ps_owner s2 = None /\ nth_error (ps_posters s2) i = Some p1 \/ exists p', nth_error (ps_posters s2) i = Some p' /\ p_pc p' = PIdle)).
  { destruct (ps_owner s1) as [o|] eqn:Eo; [|exists [], s1; split; [constructor|auto]].
    destruct (t_range _ T o) as [po' Epo']; [congruence|]. destruct (P1 o po' Epo') as (po & Epo & _ & _).
    assert (Io : inside (p_pc po) = true) by (apply (pc_owner _ _ _ (pi_calls _ _ I1 o po Epo)); exact Eo).
    destruct (finish le _ s1 o po (le_n _) I1 Q1 Epo Io) as (sched & s2 & R & Q2 & I2 & O2 & P2 & K2).
    exists sched, s2. split; [exact R|]. split; [exact Q2|]. split; [exact I2|]. destruct (Nat.eq_dec i o) as [->|N]; [right; exact P2|].
    left. split; [exact O2|]. apply K2; assumption. }
  destruct St as (e & s2 & R2 & Q2 & I2 & [[O2 E2]|(p' & E2 & Hp)]).
  2:{ exists (d ++ e), s2, p'. split; [apply (calm_app le s d s1); assumption|]. auto. }
  pose proof (calm_app le s d s1 e s2 R1 R2) as R12.
  destruct (p_pc p1) eqn:Ep; try (exfalso; assert (ps_owner s2 = Some i) by (apply (pc_owner _ _ _ (pi_calls _ _ I2 i p1 E2)); rewrite Ep; reflexivity); congruence).
  - exists (d ++ e), s2, p1. auto.
  - assert (Hc : calm le s2 (LPost i true)) by (intros p0 _ _; exact Q2).
    assert (E3 : pstep le s2 (LPost i true) = Ok (goto i p1 PSetReq (with_owner (Some i) s2))).
    { cbn [pstep]. rewrite E2. unfold post_step. rewrite Ep, O2. reflexivity. }
    destruct (step_inv False le s2 _ I2 Hc (fun f : False => match f with end)) as (s3 & E3' & I3). assert (X : s3 = goto i p1 PSetReq (with_owner (Some i) s2)) by congruence.
    destruct (finish le _ s3 i (mkPoster PSetReq (p_dst p1) (p_req p1) (p_res p1)) (le_n _) I3) as (f & s4 & R4 & _ & _ & _ & (p4 & E4 & Hp4) & _).
    + rewrite X. exact Q2.
    + rewrite X. psimp. apply (put_same _ _ _ _ _ E2).
    + reflexivity.
    + exists ((d ++ e) ++ LPost i true :: f), s4, p4. split; [|auto]. apply (calm_app le s (d ++ e) s2); [exact R12|].
      econstructor; [exact Hc|exact E3'|exact R4].
Qed.

(* ---- the log only grows ---- *)
Lemma step_log : forall le s l s', pstep le s l = Ok s' -> exists A, ps_log s' = A ++ ps_log s.
Proof.
  intros le s l s' E.
  assert (N : forall s1, ps_log s1 = ps_log s -> exists A, ps_log s1 = A ++ ps_log s) by (intros s1 H; exists []; exact H).
  assert (C : forall s1 e, ps_log s1 = e :: ps_log s -> exists A, ps_log s1 = A ++ ps_log s) by (intros s1 e H; exists [e]; exact H).
  destruct l as [i d q r|i ok|i|i|m|j|a m|a]; cbn [pstep] in E.
  - destruct (nth_error (ps_posters s) i) as [p|]; [|injection E as <-; apply N; reflexivity].
    destruct (p_pc p); injection E as <-; try (apply N; reflexivity). eapply C. reflexivity.
  - destruct (nth_error (ps_posters s) i) as [p|]; [|injection E as <-; apply N; reflexivity].
    unfold post_step in E. destruct (p_pc p); try (injection E as <-; apply N; reflexivity); try (injection E as <-; eapply C; reflexivity).
    + destruct (ps_owner s); injection E as <-; apply N; reflexivity.
    + destruct (p_req p =? 0); [injection E as <-; apply N; reflexivity|].
      apply bind_ok in E. destruct E as (mq & _ & E). apply bind_ok in E. destruct E as (x & _ & E). injection E as <-. eapply C; reflexivity.
  - destruct (nth_error (ps_posters s) i) as [p|]; [|injection E as <-; apply N; reflexivity].
    destruct (p_pc p); injection E as <-; apply N; reflexivity.
  - destruct (nth_error (ps_posters s) i) as [p|]; [|injection E as <-; apply N; reflexivity].
    destruct (p_pc p); injection E as <-; apply N; reflexivity.
  - injection E as <-. apply N. reflexivity.
  - destruct (nth_error (ps_receivers s) j) as [r|]; [|injection E as <-; apply N; reflexivity].
    unfold recv_step in E. destruct (r_pc r); try (injection E as <-; apply N; reflexivity).
    + destruct (ps_req s =? 0); injection E as <-; [apply N; reflexivity|eapply C; reflexivity].
    + destruct (a =? 0); [injection E as <-; apply N; reflexivity|]. apply bind_ok in E. destruct E as (mq & _ & E). injection E as <-. apply N. reflexivity.
    + destruct (a =? 0); [injection E as <-; apply N; reflexivity|]. apply bind_ok in E. destruct E as (mq & _ & E). apply bind_ok in E. destruct E as (x & _ & E).
      injection E as <-. apply N. reflexivity.
    + injection E as <-. unfold uecho_cond_signal. destruct (waiting 0 (ps_posters s)) as [[i p]|]; [eapply C; reflexivity|apply N; reflexivity].
  - injection E as <-. apply N. reflexivity.
  - injection E as <-. apply N. reflexivity.
Qed.
Lemma run_log : forall le sched s s', prun le s sched = Ok s' -> exists A, ps_log s' = A ++ ps_log s.
Proof.
  intros le sched. induction sched as [|l sched IH]; intros s s' E; cbn [prun] in E; [injection E as <-; exists []; reflexivity|].
  apply bind_ok in E. destruct E as (s1 & E1 & E). destruct (IH _ _ E) as [A EA]. destruct (step_log _ _ _ _ E1) as [B EB].
  exists (A ++ B). rewrite <- app_assoc, <- EB. exact EA.
Qed.
Lemma calm_prun : forall le s sched s', calm_run le s sched s' -> prun le s sched = Ok s'.
Proof. intros le s sched s' R. induction R as [s|s l s1 r s2 Hc E R IH]; [reflexivity|]. cbn [prun]. rewrite E. exact IH. Qed.
Lemma polite_prun : forall le s sched s', polite_run le s sched s' -> prun le s sched = Ok s'.
Proof. intros le s sched s' R. induction R as [s|s l s1 r s2 Hc E R IH]; [reflexivity|]. cbn [prun]. rewrite E. exact IH. Qed.
Lemma prun_app : forall le a b s, prun le s (a ++ b) = do s1 <- prun le s a ;; prun le s1 b.
Proof.
  intros le a. induction a as [|l a IH]; intros b s; [reflexivity|]. cbn [app prun]. destruct (pstep le s l); cbn [bind]; [apply IH|reflexivity].
Qed.

(* ---- the only waiting thread is the one that is woken ---- *)
Lemma waiting_only : forall s i p, tinv s -> nth_error (ps_posters s) i = Some p -> p_pc p = PWaiting -> waiting 0 (ps_posters s) = Some (i, p).
Proof.
  intros s i p T Ei Ep. destruct (waiting 0 (ps_posters s)) as [[k q]|] eqn:Ew.
  - destruct (waiting_nth _ _ _ _ Ew) as (n & En & Ek & Eq). cbn [Nat.add] in En. subst n.
    assert (A : ps_owner s = Some i) by (apply (t_owner _ T i p Ei); rewrite Ep; reflexivity).
    assert (B : ps_owner s = Some k) by (apply (t_owner _ T k q Ek); rewrite Eq; reflexivity).
    assert (X : k = i) by congruence. subst k. congruence.
  - exfalso. revert i Ei Ew. generalize 0%nat. clear T. generalize (ps_posters s). clear s. intros l. induction l as [|x l IH]; intros k [|i] Ei Ew; try discriminate; cbn [nth_error waiting] in *.
    + injection Ei as ->. rewrite Ep in Ew. discriminate.
    + destruct (p_pc x); try discriminate; apply (IH (S k) i Ei Ew).
Qed.

Lemma signal_wakes : forall le s i p j r, tinv s -> nth_error (ps_posters s) i = Some p -> p_pc p = PWaiting ->
  nth_error (ps_receivers s) j = Some r -> r_pc r = RSignal ->
  pstep le s (LStep j) = Ok (rgoto j r RDone (log (EWake i) (goto i p (PClearReq true) s))).
Proof.
  intros le s i p j r T Ei Ep Ej Er. cbn [pstep]. rewrite Ej. unfold recv_step. rewrite Er. unfold uecho_cond_signal.
  rewrite (waiting_only s i p T Ei Ep). reflexivity.
Qed.

Lemma woken_returns : forall le s i p j r sched s' A b x C, tinv s -> nth_error (ps_posters s) i = Some p -> p_pc p = PWaiting ->
  nth_error (ps_receivers s) j = Some r -> r_pc r = RSignal -> prun le s (LStep j :: sched) = Ok s' ->
  ps_log s' = A ++ EReturn i b x :: C ++ ps_log s -> Forall (fun e => ~ ends i e) C -> b = true.
Proof.
  intros le s i p j r sched s' A b x C T Ei Ep Ej Er E EL F.
  assert (T' : tinv s') by (apply (run_tinv le (LStep j :: sched) s); assumption).
  cbn [prun] in E. rewrite (signal_wakes le s i p j r T Ei Ep Ej Er) in E. cbn [bind] in E.
  destruct (run_log _ _ _ _ E) as [D ED]. psimp. rewrite ED in EL.
  destruct (rev C) as [|c C'] eqn:Ec.
  - assert (C = []) by (rewrite <- (rev_involutive C), Ec; reflexivity). subst C. exfalso.
    cbn [app] in EL. change (D ++ EWake i :: ps_log s) with (D ++ [EWake i] ++ ps_log s) in EL.
    change (A ++ EReturn i b x :: ps_log s) with (A ++ [EReturn i b x] ++ ps_log s) in EL. rewrite !app_assoc in EL. apply app_inv_tail in EL.
    apply app_inj_tail in EL. destruct EL as [_ EL]. discriminate.
  - assert (EC : C = rev C' ++ [c]) by (rewrite <- (rev_involutive C), Ec; reflexivity). rewrite EC in *.
    assert (X : c = EWake i).
    { change (D ++ EWake i :: ps_log s) with (D ++ [EWake i] ++ ps_log s) in EL. rewrite app_comm_cons in EL.
      rewrite (app_assoc D), (app_assoc A) in EL. apply app_inv_tail in EL. rewrite app_comm_cons, app_assoc in EL. apply app_inj_tail in EL. destruct EL as [_ EL]. congruence. }
    subst c. apply (t_wakes _ T' A i b x ((rev C' ++ [EWake i]) ++ ps_log s)).
    + rewrite ED. exact EL.
    + exists (rev C'), (ps_log s). split; [rewrite <- app_assoc; reflexivity|]. apply Forall_app in F. apply F.
Qed.

(* ---- a response that arrives while the call waits ---- *)
Lemma answers_isresponse : forall le q m, msg_ok q -> msg_ok m -> answers q m -> uecho_message_isresponsemessage le q m = true.
Proof.
  intros le q m Hq Hm [At Ae]. unfold uecho_message_isresponsemessage, uecho_message_gettid. rewrite At, Z.eqb_refl. cbn [negb].
  destruct (m_esv q =? m_esv m) eqn:E; [apply Z.eqb_eq in E; congruence|reflexivity].
Qed.

Lemma in_time : forall le s i p j m q, pinv False s -> tinv s -> nth_error (ps_posters s) i = Some p -> p_pc p = PWaiting ->
  nth_error (ps_receivers s) j = Some (mkReceiver RArrived m) -> ps_mem s (p_req p) = Some q -> answers q m ->
  exists s' rm, prun le s (repeat (LStep j) 8 ++ repeat (LPost i true) 3) = Ok s' /\ copied m rm /\
    ps_log s' = EReturn i true (Some rm) :: EWake i :: EHandle m :: ps_log s.
Proof.
  intros le s i p j m q I T Ei Ep Ej Eq Ha.
  pose proof (pi_calls _ _ I i p Ei) as C.
  assert (Er : ps_req s = p_req p) by (apply (pc_req _ _ _ C); rewrite Ep; reflexivity).
  assert (Es : ps_res s = p_res p) by (apply (pc_res _ _ _ C); rewrite Ep; reflexivity).
  destruct (pc_args _ _ _ C) as (A1 & A2 & A3 & A4 & A5); [unfold busy_call; rewrite Ep; discriminate|].
  destruct (alive_load s (p_res p) A5) as (r0 & L0 & M0).
  assert (Fm : fine m). { pose proof (pi_recv _ _ I) as F. rewrite Forall_forall in F. apply (F (mkReceiver RArrived m)). apply (nth_error_In _ j). exact Ej. }
  assert (Fr : fine r0) by (apply (pi_mem _ _ I _ _ M0)). assert (Fq : fine q) by (apply (pi_mem _ _ I _ _ Eq)).
  destruct (set_fine le r0 m Fr Fm) as (rm & E1 & E2 & _).
  assert (Hr : uecho_message_isresponsemessage le q m = true) by (apply answers_isresponse; [apply Fq|apply Fm|exact Ha]).
  pose proof (waiting_only s i p T Ei Ep) as Hw.
  assert (Nr : (p_req p =? 0) = false) by (apply Z.eqb_neq; exact A2). assert (Ns : (p_res p =? 0) = false) by (apply Z.eqb_neq; exact A3).
  eexists. exists rm. split; [|split; [exact E2|]].
  - rewrite prun_app. cbn [repeat prun].
    cbn [pstep]. rewrite Ej. unfold recv_step at 1. cbn [r_pc r_msg]. rewrite Er, Nr. cbn [bind]. psimp.
    assert (P : forall c l, nth_error (put j (mkReceiver c m) l) j = match nth_error l j with Some _ => Some (mkReceiver c m) | None => None end).
    { intros c l. destruct (nth_error l j) as [y|] eqn:Ey; [apply (put_same _ _ _ _ _ Ey)|].
      revert Ey. clear. revert j. induction l as [|x l IH]; intros [|j] E; try discriminate; try reflexivity. cbn in *. apply IH. exact E. }
    rewrite P, Ej. unfold recv_step at 1. psimp. rewrite Es, Ns. cbn [bind]. psimp.
    rewrite !P, Ej. unfold recv_step at 1. psimp. rewrite Er, Nr. cbn [bind]. psimp.
    rewrite !P, Ej. unfold recv_step at 1. psimp. rewrite Er. cbn [bind]. psimp.
    rewrite !P, Ej. unfold recv_step at 1. psimp. rewrite Nr. unfold load at 1. psimp. rewrite Eq. cbn [bind]. rewrite Hr. psimp.
    rewrite !P, Ej. unfold recv_step at 1. psimp. rewrite Es. cbn [bind]. psimp.
    rewrite !P, Ej. unfold recv_step at 1. psimp. rewrite Ns. unfold load at 1. psimp. rewrite M0. cbn [bind]. rewrite E1. cbn [bind]. psimp.
    rewrite !P, Ej. unfold recv_step at 1. psimp. unfold uecho_cond_signal. psimp. rewrite Hw. cbn [bind]. psimp.
    rewrite (put_same _ _ _ _ _ Ei). unfold post_step at 1. psimp. cbn [bind]. psimp.
    rewrite (put_same _ _ _ _ (mkPoster (PClearReq true) (p_dst p) (p_req p) (p_res p))) by apply (put_same _ _ _ _ _ Ei).
    unfold post_step at 1. psimp. cbn [bind]. psimp.
    rewrite (put_same _ _ _ _ (mkPoster (PClearRes true) (p_dst p) (p_req p) (p_res p)))
      by (rewrite (put_same _ _ _ _ (mkPoster (PClearReq true) (p_dst p) (p_req p) (p_res p))) by apply (put_same _ _ _ _ _ Ei); reflexivity).
    unfold post_step at 1. psimp. cbn [bind]. reflexivity.
  - psimp. unfold store. rewrite Z.eqb_refl. reflexivity.
Qed.
