(* Lemmas about interfaces and addresses. *)
From Coq Require Import String Ascii ZArith Lia List Bool DecimalString.
From Coq Require Import ZifyBool ZifyNat.
From Verif Require Import CSem P_Base M_String Spec_String P_String P_Text M_Net Spec_Net.
Import ListNotations.
Open Scope Z_scope.
Ltac Zify.zify_post_hook ::= Z.div_mod_to_equations.

(* ---- flags and masks ---- *)
Lemma flagged_bit : forall f k, 0 <= k -> flagged f (2 ^ k) = Z.testbit f k.
Proof.
  intros f k K. unfold flagged. destruct (Z.land f (2 ^ k) =? 0) eqn:E; cbn [negb].
  - apply Z.eqb_eq in E. assert (H : Z.testbit (Z.land f (2 ^ k)) k = false) by (rewrite E; apply Z.bits_0).
    rewrite Z.land_spec, Z.pow2_bits_true in H by exact K. rewrite andb_true_r in H. auto.
  - apply Z.eqb_neq in E. destruct (Z.testbit f k) eqn:B; [reflexivity|]. exfalso. apply E. apply Z.bits_inj'.
    intros n Hn. rewrite Z.land_spec, Z.bits_0, Z.pow2_bits_eqb by exact K. destruct (k =? n) eqn:X; [|apply andb_false_r].
    apply Z.eqb_eq in X. subst. rewrite B. reflexivity.
Qed.
Lemma flag_up : forall i, flagged (ia_flags i) IFF_UP = true <-> is_up i.
Proof. intros i. change IFF_UP with (2 ^ 0). rewrite flagged_bit by lia. reflexivity. Qed.
Lemma flag_loopback : forall i, flagged (ia_flags i) IFF_LOOPBACK = true <-> is_loopback i.
Proof. intros i. change IFF_LOOPBACK with (2 ^ 3). rewrite flagged_bit by lia. reflexivity. Qed.
Lemma flag_ptp : forall i, flagged (ia_flags i) IFF_POINTOPOINT = true <-> is_pointtopoint i.
Proof. intros i. change IFF_POINTOPOINT with (2 ^ 4). rewrite flagged_bit by lia. reflexivity. Qed.

Lemma subnet_iff : forall a m r, (Z.land a m =? Z.land r m) = true <-> same_subnet a m r.
Proof.
  intros a m r. rewrite Z.eqb_eq. split.
  - intros E k M. assert (H : Z.testbit (Z.land a m) k = Z.testbit (Z.land r m) k) by (rewrite E; reflexivity).
    rewrite !Z.land_spec, M, !andb_true_r in H. exact H.
  - intros S. apply Z.bits_inj'. intros n _. rewrite !Z.land_spec. destruct (Z.testbit m n) eqn:M; [rewrite (S n M); reflexivity|].
    rewrite !andb_false_r. reflexivity.
Qed.

(* ---- dotted notation ---- *)
Lemma text_string_app : forall a b, text_string (a ++ b) = (text_string a ++ text_string b)%string.
Proof.
  intros a b. unfold text_string. rewrite map_app. induction (map (fun c => ascii_of_N (Z.to_N c)) a) as [|x r IH]; [reflexivity|].
  cbn. rewrite IH. reflexivity.
Qed.
Definition octets : list Z := map Z.of_nat (seq 0 256).
Lemma octets_all : forall b, octet b -> In b octets.
Proof.
  intros b [B1 B2]. unfold octets. apply in_map_iff. exists (Z.to_nat b). split; [lia|]. apply in_seq. lia.
Qed.
Lemma decimal_printed : forall b, octet b -> text_string (printed b) = decimal b.
Proof.
  intros b B. apply octets_all in B. revert b B. apply Forall_forall.
  assert (H : forallb (fun b => String.eqb (text_string (printed b)) (decimal b)) octets = true) by (vm_compute; reflexivity).
  rewrite forallb_forall in H. apply Forall_forall. intros b B. apply String.eqb_eq. auto.
Qed.
Lemma inet_ntoa_dotted : forall a, 0 <= a < 4294967296 -> dotted a (inet_ntoa a).
Proof.
  intros a A. exists (a / 16777216), (a / 65536 mod 256), (a / 256 mod 256), (a mod 256). unfold octet.
  assert (B1 : 0 <= a / 16777216 < 256) by lia. assert (B2 : 0 <= a / 65536 mod 256 < 256) by lia.
  assert (B3 : 0 <= a / 256 mod 256 < 256) by lia. assert (B4 : 0 <= a mod 256 < 256) by lia.
  split; [exact B1|]. split; [exact B2|]. split; [exact B3|]. split; [exact B4|]. split; [lia|].
  unfold inet_ntoa. rewrite !text_string_app, !decimal_printed by assumption. reflexivity.
Qed.

(* different addresses have different notations *)
Definition DOT : ascii := "."%char.
Fixpoint no_dot (s : string) : bool := match s with EmptyString => true | String c r => negb (Ascii.eqb c DOT) && no_dot r end.
Lemma decimal_facts : forall b, octet b -> no_dot (decimal b) = true.
Proof.
  intros b B. apply octets_all in B. revert b B. apply Forall_forall. apply Forall_forall.
  assert (H : forallb (fun b => no_dot (decimal b)) octets = true) by (vm_compute; reflexivity).
  rewrite forallb_forall in H. exact H.
Qed.
Lemma decimal_inj : forall b c, octet b -> octet c -> decimal b = decimal c -> b = c.
Proof.
  intros b c B C. apply octets_all in B. apply octets_all in C.
  assert (H : forallb (fun b => forallb (fun c => negb (String.eqb (decimal b) (decimal c)) || (b =? c)) octets) octets = true)
    by (vm_compute; reflexivity).
  rewrite forallb_forall in H. specialize (H b B). rewrite forallb_forall in H. specialize (H c C).
  intros E. rewrite E, String.eqb_refl in H. cbn in H. lia.
Qed.
Lemma dot_split : forall s1 s2 r1 r2, no_dot s1 = true -> no_dot s2 = true ->
  (s1 ++ String DOT r1)%string = (s2 ++ String DOT r2)%string -> s1 = s2 /\ r1 = r2.
Proof.
  intros s1. induction s1 as [|c s1 IH]; intros s2 r1 r2 N1 N2 E; destruct s2 as [|d s2]; cbn [append] in E.
  - injection E. auto.
  - injection E as E1 E2. cbn in N2. rewrite <- E1 in N2. discriminate.
  - injection E as E1 E2. cbn in N1. rewrite E1 in N1. discriminate.
  - injection E as E1 E2. cbn [no_dot] in N1, N2. apply andb_prop in N1. apply andb_prop in N2.
    destruct (IH s2 r1 r2) as (X & Y); [apply N1|apply N2|exact E2|]. subst. auto.
Qed.
Lemma dotted_inj : forall a b t, dotted a t -> dotted b t -> a = b.
Proof.
  intros a b t (b1 & b2 & b3 & b4 & B1 & B2 & B3 & B4 & EA & ET) (c1 & c2 & c3 & c4 & C1 & C2 & C3 & C4 & EB & ET').
  rewrite ET in ET'. cbn [append] in ET'.
  apply dot_split in ET'; [|apply decimal_facts; assumption|apply decimal_facts; assumption]. destruct ET' as (E1 & ET').
  apply dot_split in ET'; [|apply decimal_facts; assumption|apply decimal_facts; assumption]. destruct ET' as (E2 & ET').
  apply dot_split in ET'; [|apply decimal_facts; assumption|apply decimal_facts; assumption]. destruct ET' as (E3 & E4).
  apply decimal_inj in E1; [|assumption|assumption]. apply decimal_inj in E2; [|assumption|assumption].
  apply decimal_inj in E3; [|assumption|assumption]. apply decimal_inj in E4; [|assumption|assumption]. subst. reflexivity.
Qed.

(* ---- interfaces ---- *)
Lemma interfaces_acc : forall numeric l acc, interfaces_loop numeric l acc
  = acc ++ flat_map (fun i => match host_interface numeric i with None => [] | Some n => [n] end) l.
Proof.
  intros numeric l. induction l as [|i r IH]; intros acc; cbn [interfaces_loop flat_map]; [rewrite app_nil_r; reflexivity|].
  rewrite IH. destruct (host_interface numeric i); [rewrite <- app_assoc|]; reflexivity.
Qed.
Lemma host_some : forall numeric i n, names_ipv4 numeric -> entry_ok i -> masks_match i ->
  host_interface numeric i = Some n -> listens i /\ described i n.
Proof.
  intros numeric i n NI [WA WM] MM H. unfold host_interface in H. destruct (ia_addr i) as [a|] eqn:EA; [|discriminate].
  destruct (ia_mask i) as [m|] eqn:EM; [|discriminate]. destruct (sa_family a =? AF_INET) eqn:F; cbn [negb] in H; [|discriminate].
  apply Z.eqb_eq in F. pose proof (MM a m EA EM F) as G.
  destruct (flagged (ia_flags i) IFF_UP) eqn:U; cbn [negb] in H; [|discriminate]. apply flag_up in U.
  destruct (flagged (ia_flags i) IFF_LOOPBACK) eqn:L; [discriminate|].
  destruct (NI a F (WA a eq_refl)) as (ta & TA & DA). destruct (NI m G (WM m eq_refl)) as (tm & TM & DM).
  rewrite TA, TM in H. injection H as <-.
  assert (I4 : has_ipv4 i (sa_word a) (sa_word m)).
  { split; [rewrite EA|rewrite EM]; f_equal; [destruct a|destruct m]; cbn in *; subst; reflexivity. }
  split.
  - split; [exact U|]. split; [|eauto]. intros X. apply flag_loopback in X. congruence.
  - exists (sa_word a), (sa_word m). cbn. auto.
Qed.
Lemma host_none : forall numeric i, names_ipv4 numeric -> entry_ok i ->
  host_interface numeric i = None -> ~ listens i.
Proof.
  intros numeric i NI [WA WM] H (U & L & a & m & A & M). unfold host_interface in H. rewrite A, M in H. cbn [sa_family] in H.
  rewrite Z.eqb_refl in H. cbn [negb] in H. rewrite (proj2 (flag_up i) U) in H. cbn [negb] in H.
  destruct (flagged (ia_flags i) IFF_LOOPBACK) eqn:X; [apply flag_loopback in X; contradiction|].
  destruct (NI (mkSa AF_INET a) eq_refl (WA _ A)) as (ta & TA & _). destruct (NI (mkSa AF_INET m) eq_refl (WM _ M)) as (tm & TM & _).
  rewrite TA, TM in H. discriminate.
Qed.
Lemma interfaces_spec : forall numeric l, names_ipv4 numeric -> Forall entry_ok l -> Forall masks_match l ->
  exists us, those listens l us /\ Forall2 described us (interfaces_loop numeric l []).
Proof.
  intros numeric l NI E M. rewrite interfaces_acc. cbn [app]. induction l as [|i r IH]; [exists []; split; constructor|].
  inversion E as [|? ? E1 E2]; subst. inversion M as [|? ? M1 M2]; subst. destruct (IH E2 M2) as (us & T & D). cbn [flat_map].
  destruct (host_interface numeric i) as [n|] eqn:H.
  - destruct (host_some numeric i n NI E1 M1 H) as (L & DS). exists (i :: us). split; [constructor; assumption|]. cbn [app]. constructor; assumption.
  - exists us. split; [|exact D]. constructor; [exact (host_none numeric i NI E1 H)|exact T].
Qed.
Lemma those_in : forall A (P : A -> Prop) l r, those P l r -> forall x, In x r <-> In x l /\ P x.
Proof.
  intros A P l r T. induction T as [|x l r Hx T IH|x l r Hx T IH]; intros y.
  - cbn. tauto.
  - cbn [In]. rewrite IH. split; [intros [->|[X Y]]; auto|intros [[->|X] Y]; auto].
  - rewrite IH. cbn [In]. split; [intros [X Y]; auto|intros [[->|X] Y]; [contradiction|auto]].
Qed.

(* ---- the local address ---- *)
Lemma has_ipv4_fun : forall i a m a' m', has_ipv4 i a m -> has_ipv4 i a' m' -> a = a' /\ m = m'.
Proof. intros i a m a' m' [A M] [A' M']. rewrite A in A'. rewrite M in M'. injection A' as <-. injection M' as <-. auto. Qed.

(* the state of the loop after the entries [d]: none of them is near *)
Definition select_inv (d : list ifaddr) (cand auto : option string) : Prop :=
  match cand with
  | Some t => exists i, last_with routable d i /\ address_of i t
  | None => Forall (fun j => ~ routable j) d
  end
  /\ match auto with
     | Some t => exists i, last_with local_only d i /\ address_of i t
     | None => Forall (fun j => ~ local_only j) d
     end.
Lemma last_skip : forall (P : ifaddr -> Prop) d i x, last_with P d i -> ~ P x -> last_with P (d ++ [x]) i.
Proof.
  intros P d i x (p & q & -> & Pi & Q) N. exists p, (q ++ [x]). rewrite <- app_assoc. cbn. split; [reflexivity|]. split; [exact Pi|].
  apply Forall_app. auto.
Qed.
Lemma inv_skip : forall d c a x, select_inv d c a -> ~ routable x -> ~ local_only x -> select_inv (d ++ [x]) c a.
Proof.
  intros d c a x [C A] N1 N2. split; [destruct c as [t|]|destruct a as [t|]].
  - destruct C as (i & L & T). exists i. split; [apply last_skip; assumption|exact T].
  - apply Forall_app. auto.
  - destruct A as (i & L & T). exists i. split; [apply last_skip; assumption|exact T].
  - apply Forall_app. auto.
Qed.
Lemma not_candidate : forall x, (forall a m, ~ candidate x a m) -> (forall r, ~ near r x) /\ ~ routable x /\ ~ local_only x.
Proof.
  intros x N. split; [intros r (a & m & C & _)|split; intros (a & m & C & _)]; exact (N a m C).
Qed.

Lemma select_spec : forall l d r c a, Forall entry_ok l -> Forall only_ipv4 l -> Forall (fun j => ~ near r j) d -> select_inv d c a ->
  let '(c', a') := select_loop l r c a in
  (exists i t, c' = Some t /\ first_with (near r) (d ++ l) i /\ address_of i t)
  \/ (Forall (fun j => ~ near r j) (d ++ l) /\ select_inv (d ++ l) c' a').
Proof.
  intros l. induction l as [|i l IH]; intros d r c a E O N I; cbn [select_loop].
  - right. rewrite app_nil_r. auto.
  - inversion E as [|? ? [WA WM] E2]; subst. inversion O as [|? ? O1 O2]; subst.
    replace (d ++ i :: l) with ((d ++ [i]) ++ l) by (rewrite <- app_assoc; reflexivity).
    assert (SKIP : (forall x m, ~ candidate i x m) -> 
      let '(c', a') := select_loop l r c a in
      (exists j t, c' = Some t /\ first_with (near r) ((d ++ [i]) ++ l) j /\ address_of j t)
      \/ (Forall (fun j => ~ near r j) ((d ++ [i]) ++ l) /\ select_inv ((d ++ [i]) ++ l) c' a')).
    { intros X. destruct (not_candidate i X) as (X1 & X2 & X3). apply IH; [assumption|assumption| |].
      - apply Forall_app. split; [exact N|]. constructor; [apply X1|constructor].
      - apply inv_skip; assumption. }
    destruct (ia_addr i) as [x|] eqn:EA; [|apply SKIP; intros y m ((A & _) & _); congruence].
    destruct (flagged (ia_flags i) IFF_UP) eqn:U; cbn [negb];
      [|apply SKIP; intros y m (_ & A & _); apply flag_up in A; congruence].
    destruct (flagged (ia_flags i) IFF_LOOPBACK) eqn:L;
      [apply SKIP; intros y m (_ & _ & A & _); apply flag_loopback in L; contradiction|].
    destruct (flagged (ia_flags i) IFF_POINTOPOINT) eqn:P;
      [apply SKIP; intros y m (_ & _ & _ & A); apply flag_ptp in P; contradiction|].
    destruct (ia_mask i) as [m|] eqn:EM; [|apply SKIP; intros y m ((_ & A) & _); congruence].
    destruct (O1 x m EA EM) as (F1 & F2).
    assert (I4 : has_ipv4 i (sa_word x) (sa_word m)).
    { split; [rewrite EA|rewrite EM]; f_equal; [destruct x|destruct m]; cbn in *; subst; reflexivity. }
    assert (C : candidate i (sa_word x) (sa_word m)).
    { split; [exact I4|]. split; [apply flag_up; exact U|]. split; intros B; [apply flag_loopback in B|apply flag_ptp in B]; congruence. }
    assert (T : address_of i (inet_ntoa (sa_word x))).
    { exists (sa_word x), (sa_word m). split; [exact I4|]. apply inet_ntoa_dotted. exact (WA x eq_refl). }
    destruct (Z.land (sa_word x) (sa_word m) =? Z.land r (sa_word m)) eqn:S.
    + left. exists i, (inet_ntoa (sa_word x)). split; [reflexivity|]. split; [|exact T]. exists d, l.
      split; [rewrite <- app_assoc; reflexivity|]. split; [|exact N]. exists (sa_word x), (sa_word m). split; [exact C|]. apply subnet_iff. exact S.
    + assert (N' : Forall (fun j => ~ near r j) (d ++ [i])).
      { apply Forall_app. split; [exact N|]. constructor; [|constructor]. intros (y & k & (C' & _) & S').
        destruct (has_ipv4_fun _ _ _ _ _ I4 C') as (<- & <-). apply subnet_iff in S'. congruence. }
      destruct I as [IC IA]. destruct (Z.land (sa_word x) (sa_word m) =? AUTO_IP_NET) eqn:K.
      * assert (LL : local_only i) by (exists (sa_word x), (sa_word m); split; [exact C|]; apply Z.eqb_eq in K; exact K).
        assert (NR : ~ routable i).
        { intros (y & k & (C' & _) & S'). destruct (has_ipv4_fun _ _ _ _ _ I4 C') as (<- & <-). apply S'. apply Z.eqb_eq in K. exact K. }
        apply IH; [assumption|assumption|assumption|]. split.
        -- destruct c as [t|]; [destruct IC as (j & Lj & Tj); exists j; split; [apply last_skip; assumption|exact Tj]|].
           apply Forall_app. auto.
        -- exists i. split; [|exact T]. exists d, []. auto.
      * assert (RR : routable i) by (exists (sa_word x), (sa_word m); split; [exact C|]; intros B; apply Z.eqb_neq in K; apply K; exact B).
        assert (NL : ~ local_only i).
        { intros (y & k & (C' & _) & S'). destruct (has_ipv4_fun _ _ _ _ _ I4 C') as (<- & <-). apply Z.eqb_neq in K. apply K. exact S'. }
        apply IH; [assumption|assumption|assumption|]. split.
        -- exists i. split; [|exact T]. exists d, []. auto.
        -- destruct a as [t|]; [destruct IA as (j & Lj & Tj); exists j; split; [apply last_skip; assumption|exact Tj]|].
           apply Forall_app. auto.
Qed.

(* ---- IPv6 texts ---- *)
Lemma strchr_char : forall c t rest, text_ok t -> exists i, uecho_strchr (Some (block t rest)) (Some [c; 0]) 1 = Ok i
  /\ ((i = -1 /\ ~ In c t) \/ exists p q, t = p ++ c :: q /\ ~ In c p /\ i = len p).
Proof.
  intros c t rest T. unfold uecho_strchr. rewrite (text_len t rest T). cbn [bind]. rewrite to_nat_len. unfold block.
  destruct (strchr_spec [c] [0] t [] (0 :: rest)) as (i & E & C). change (len (@nil Z)) with 0 in *. cbn [app length] in E.
  exists i. split; [exact E|]. destruct C as [(-> & C)|(C1 & p & x & q & -> & E2 & D & F)].
  - left. split; [reflexivity|]. rewrite Forall_forall in C. intros I. apply (C c I). left. reflexivity.
  - right. destruct D as [<-|[]]. exists p, q. split; [reflexivity|]. split; [|lia]. rewrite Forall_forall in F. intros I. apply (F c I). left. reflexivity.
Qed.
Lemma isipv6_spec : forall t rest, text_ok t -> exists b, uecho_net_isipv6address (Some (block t rest)) = Ok b
  /\ (b = true <-> In 58 t /\ forall q, t <> 58 :: q).
Proof.
  intros t rest T. unfold uecho_net_isipv6address. destruct (strchr_char 58 t rest T) as (i & E & C). rewrite E. cbn [bind].
  exists (0 <? i). split; [reflexivity|]. destruct C as [(-> & C)|(p & q & -> & N & ->)].
  - split; [discriminate|intros [X _]; contradiction].
  - destruct p as [|x p]; cbn [app].
    + split; [discriminate|intros [_ X]; exfalso; exact (X q eq_refl)].
    + rewrite len_cons. pose proof (len_nonneg _ p). split; [intros _|intros _; lia]. split.
      * right. apply in_or_app. right. left. reflexivity.
      * intros q' X. injection X as X _. apply N. left. exact X.
Qed.
Lemma text_firstn : forall n t, text_ok t -> text_ok (firstn n t).
Proof. intros n t T. rewrite <- (firstn_skipn n t) in T. apply text_app in T. apply T. Qed.
Lemma scope_buf : forall w k, text_ok w -> cells_text (map Some (w ++ repeat 0 k) ++ [Some 0]) = Ok w.
Proof.
  intros w k T. rewrite map_app, <- app_assoc. assert (exists r, map Some (repeat 0 k) ++ [Some 0] = Some 0 :: r) as (r & ->).
  { destruct k; [exists []; reflexivity|]. cbn. eexists. reflexivity. }
  exact (cells_text_ok w r T).
Qed.
Lemma scope_spec : forall t rest, text_ok t -> exists z, uecho_net_getipv6scopeid (Some (block t rest)) = Ok z
  /\ forall p u, t = p ++ 37 :: u -> ~ In 37 p -> In 58 t -> (forall q, t <> 58 :: q) -> z = c_atoi (firstn 8 u).
Proof.
  intros t rest T. unfold uecho_net_getipv6scopeid. destruct (isipv6_spec t rest T) as (b & E & B). rewrite E. cbn [bind].
  destruct b; cbn [negb].
  2:{ exists 0. split; [reflexivity|]. intros p u _ _ I Q. exfalso. destruct B as [_ B]. specialize (B (conj I Q)). discriminate. }
  destruct (strchr_char 37 t rest T) as (i & E' & C). rewrite E'. cbn [bind]. destruct C as [(-> & C)|(p & u & -> & N & ->)].
  - exists 0. split; [reflexivity|]. intros p u -> _ _ _. exfalso. apply C. apply in_or_app. right. left. reflexivity.
  - pose proof (len_nonneg _ p). destruct (Z.ltb_spec (len p) 0); [lia|].
    replace (skipn (Z.to_nat (len p + 1)) (block (p ++ 37 :: u) rest)) with (u ++ 0 :: rest).
    2:{ unfold block. rewrite <- app_assoc. cbn [app]. replace (Z.to_nat (len p + 1)) with (length p + 1)%nat by (unfold len; lia).
        rewrite skipn_app, skipn_all2 by lia. replace (length p + 1 - length p)%nat with 1%nat by lia. reflexivity. }
    apply text_app in T. destruct T as [_ T]. inversion T as [|? ? _ TU]; subst. rewrite (strncpy_text 8 u rest TU). cbn [bind].
    set (w := firstn 8 u). assert (TW : text_ok w) by (apply text_firstn; exact TU).
    assert (LW : length (w ++ repeat 0 (8 - length u)) = 8%nat) by (unfold w; rewrite app_length, repeat_length, firstn_length; lia).
    assert (W1 : wr_range (fresh_buf 9) 0 (map Some (w ++ repeat 0 (8 - length u))) = Ok (map Some (w ++ repeat 0 (8 - length u)) ++ [None])).
    { set (v := w ++ repeat 0 (8 - length u)) in *. clearbody v. do 8 (destruct v as [|? v]; [discriminate LW|]). destruct v; [|discriminate LW]. reflexivity. }
    rewrite W1. cbn [bind].
    assert (W2 : wr (map Some (w ++ repeat 0 (8 - length u)) ++ [None]) 8 (Some 0) = Ok (map Some (w ++ repeat 0 (8 - length u)) ++ [Some 0])).
    { apply wr_app_cons. unfold len. rewrite map_length, LW. reflexivity. }
    rewrite W2. cbn [bind]. rewrite (scope_buf w _ TW). cbn [bind]. exists (c_atoi w). split; [reflexivity|].
    intros p' u' Eq N' _ _. assert (X : p = p' /\ u = u'); [|destruct X as [_ <-]; reflexivity].
    clear - Eq N N'. revert p' Eq N'. induction p as [|x p IH]; intros [|y p'] Eq N'; cbn [app] in Eq; injection Eq; intros.
    + auto.
    + exfalso. apply N'. left. auto.
    + exfalso. apply N. left. auto.
    + subst y. destruct (IH (fun I => N (or_intror I)) p' H (fun I => N' (or_intror I))) as [-> ->]. auto.
Qed.
Definition number (ds : list Z) : Z := fold_left (fun n d => 10 * n + d) ds 0.
Lemma atoi_digits : forall ds, Forall (fun d => 0 <= d <= 9) ds -> c_atoi (map (fun d => 48 + d) ds) = number ds.
Proof.
  intros ds F. assert (L : c_atoi (map (fun d => 48 + d) ds) = c_atoi_loop (map (fun d => 48 + d) ds) 0).
  { destruct ds as [|d ds]; [reflexivity|]. inversion F; subst. assert (D : d = 0 \/ d = 1 \/ d = 2 \/ d = 3 \/ d = 4 \/ d = 5 \/ d = 6 \/ d = 7 \/ d = 8 \/ d = 9) by lia.
    cbn [map]. destruct D as [->|[->|[->|[->|[->|[->|[->|[->|[->| ->]]]]]]]]]; reflexivity. }
  rewrite L. unfold number. clear L. generalize 0 as n. induction ds as [|d ds IH]; intros n; [reflexivity|]. inversion F; subst.
  cbn [map c_atoi_loop fold_left]. replace ((48 <=? 48 + d) && (48 + d <=? 57)) with true by lia.
  rewrite IH by assumption. f_equal. lia.
Qed.

(* ---- further facts about addresses ---- *)
Lemma dotted_fun : forall a t t', dotted a t -> dotted a t' -> t = t'.
Proof.
  intros a t t' (b1 & b2 & b3 & b4 & B1 & B2 & B3 & B4 & EA & ->) (c1 & c2 & c3 & c4 & C1 & C2 & C3 & C4 & EB & ->).
  unfold octet in *. assert (b1 = c1) by lia. assert (b2 = c2) by lia. assert (b3 = c3) by lia. assert (b4 = c4) by lia. subst. reflexivity.
Qed.
Lemma candidate_split : forall i a m, candidate i a m -> routable i \/ local_only i.
Proof.
  intros i a m C. destruct (Z.eq_dec (Z.land a m) (169 * 16777216 + 254 * 65536)) as [E|E].
  - right. exists a, m. split; [exact C|exact E].
  - left. exists a, m. split; [exact C|exact E].
Qed.
Lemma select_reported : forall l r, Forall entry_ok l -> Forall only_ipv4 l ->
  exists t, uecho_net_selectaddr (Some l) r = Some t /\ reported l (sa_word r) t.
Proof.
  intros l r E O. unfold uecho_net_selectaddr.
  pose proof (select_spec l [] (sa_word r) None None E O (Forall_nil _) (conj (Forall_nil _) (Forall_nil _))) as S.
  destruct (select_loop l (sa_word r) None None) as [c a]. cbn [app] in S. destruct S as [(i & t & -> & F & A)|(N & C & D)].
  - exists t. split; [reflexivity|]. exact (r_near l _ t i F A).
  - rewrite Forall_forall in N. destruct c as [t|].
    + destruct C as (i & L & A). exists t. split; [reflexivity|]. exact (r_routable l _ t i N L A).
    + rewrite Forall_forall in C. destruct a as [t|].
      * destruct D as (i & L & A). exists t. split; [reflexivity|]. apply (r_local l _ t i); [|exact L|exact A]. intros j J. split; auto.
      * rewrite Forall_forall in D. exists "127.0.0.1"%string. split; [reflexivity|]. apply r_none; [|reflexivity].
        intros j x m J K. destruct (candidate_split j x m K) as [X|X]; [exact (C j J X)|exact (D j J X)].
Qed.
(* at most one address is to be reported *)
Lemma first_unique : forall (P : ifaddr -> Prop) l i j, first_with P l i -> first_with P l j -> i = j.
Proof.
  intros P l i j (p & q & -> & Pi & N) (p' & q' & E & Pj & N'). revert p' E N'. induction p as [|x p IH]; intros [|y p'] E N'; cbn [app] in E; injection E; intros.
  - assumption.
  - inversion N'; subst. contradiction.
  - inversion N; subst. contradiction.
  - inversion N; inversion N'; subst. eapply IH; eassumption.
Qed.
Lemma last_unique : forall (P : ifaddr -> Prop) l i j, last_with P l i -> last_with P l j -> i = j.
Proof.
  intros P l i j (p & q & -> & Pi & N) (p' & q' & E & Pj & N'). apply (f_equal (@rev _)) in E. rewrite !rev_app_distr in E. cbn [rev] in E. rewrite <- !app_assoc in E. cbn [app] in E.
  apply (first_unique P (rev q ++ i :: rev p)).
  - exists (rev q), (rev p). split; [reflexivity|]. split; [exact Pi|]. apply Forall_rev. exact N.
  - exists (rev q'), (rev p'). split; [exact E|]. split; [exact Pj|]. apply Forall_rev. exact N'.
Qed.
Lemma address_fun : forall i t t', address_of i t -> address_of i t' -> t = t'.
Proof.
  intros i t t' (a & m & H & D) (a' & m' & H' & D'). destruct (has_ipv4_fun i a m a' m' H H') as [-> ->]. exact (dotted_fun _ _ _ D D').
Qed.
Lemma first_in_list : forall (P : ifaddr -> Prop) l i, first_with P l i -> In i l /\ P i.
Proof. intros P l i (p & q & -> & Pi & _). split; [apply in_or_app; right; left; reflexivity|exact Pi]. Qed.
Lemma last_in_list : forall (P : ifaddr -> Prop) l i, last_with P l i -> In i l /\ P i.
Proof. intros P l i (p & q & -> & Pi & _). split; [apply in_or_app; right; left; reflexivity|exact Pi]. Qed.
Lemma reported_unique : forall l r t t', reported l r t -> reported l r t' -> t = t'.
Proof.
  intros l r t t' R R'.
  assert (RC : forall i, routable i -> exists a m, candidate i a m) by (intros i (a & m & C & _); eauto).
  assert (LC : forall i, local_only i -> exists a m, candidate i a m) by (intros i (a & m & C & _); eauto).
  assert (NC : forall i, near r i -> exists a m, candidate i a m) by (intros i (a & m & C & _); eauto).
  destruct R as [i F A|i N F A|i N F A|N ->]; destruct R' as [j F' A'|j N' F' A'|j N' F' A'|N' ->];
    try (pose proof (first_in_list _ _ _ F) as [I X]); try (pose proof (last_in_list _ _ _ F) as [I X]);
    try (pose proof (first_in_list _ _ _ F') as [I' X']); try (pose proof (last_in_list _ _ _ F') as [I' X']).
  - rewrite (first_unique _ _ _ _ F F') in A. exact (address_fun _ _ _ A A').
  - destruct (N' i I X).
  - destruct (proj1 (N' i I) X).
  - destruct (NC i X) as (a & m & C). destruct (N' i a m I C).
  - destruct (N j I' X').
  - rewrite (last_unique _ _ _ _ F F') in A. exact (address_fun _ _ _ A A').
  - destruct (proj2 (N' i I) X).
  - destruct (RC i X) as (a & m & C). destruct (N' i a m I C).
  - destruct (proj1 (N j I') X').
  - destruct (proj2 (N j I') X').
  - rewrite (last_unique _ _ _ _ F F') in A. exact (address_fun _ _ _ A A').
  - destruct (LC i X) as (a & m & C). destruct (N' i a m I C).
  - destruct (NC j X') as (a & m & C). destruct (N j a m I' C).
  - destruct (RC j X') as (a & m & C). destruct (N j a m I' C).
  - destruct (LC j X') as (a & m & C). destruct (N j a m I' C).
  - reflexivity.
Qed.
