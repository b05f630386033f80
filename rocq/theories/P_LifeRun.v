(* Lists of small things, and the programs that use them. *)
From Coq Require Import ZArith List Bool Lia Permutation.
From Verif Require Import CSem P_Base M_Const M_String M_Mem M_MemUse M_ObjMem M_Life Spec_Life P_Mem P_MemProp P_MemPkt P_Ring P_Life.
Import ListNotations.
Open Scope Z_scope.

Lemma kind_eqb_eq : forall a b, kind_eqb a b = true -> a = b.
Proof. intros [] [] E; try discriminate E; reflexivity. Qed.

Lemma wp_set_code : forall k a v La c L F (Q : unit -> heaplet -> Prop), alone k a v La -> Permutation L (La ++ F) ->
  (forall La', alone k a (c, snd v) La' -> Q tt (La' ++ F)) -> wp (set_code a c) L Q.
Proof.
  intros k a v La c L F Q (ss & Lt & -> & T & E) P H. eapply wp_perm; [exact P|]. cbn [app]. unfold set_code. nz a.
  apply wp_bind. eapply wp_load; [inl|]. eapply wp_store; [apply Permutation_refl|].
  apply (H ((a, BElem a a c ss) :: Lt)). exists ss, Lt. auto.
Qed.

(* ---- lists ---- *)

Fixpoint awithout (c : Z) (l : list aelem) : list aelem :=
  match l with
  | [] => []
  | e :: r => if fst e =? c then r else e :: awithout c r
  end.
Definition aappend (k : kind) (l : list aelem) (e : aelem) : list aelem :=
  match k with KEnum => awithout (fst e) l ++ [e] | _ => l ++ [e] end.
Lemma without_exact : forall c l, awithout c (map exact l) = map exact (without c l).
Proof. intros c l. induction l as [|e l IH]; [reflexivity|]. cbn [map awithout without]. cbn [exact fst]. destruct (fst e =? c); [reflexivity|]. cbn [map]. rewrite IH. reflexivity. Qed.
Lemma append_exact : forall k l e, aappend k (map exact l) (exact e) = map exact (append k l e).
Proof. intros [] l e; cbn [aappend append exact fst]; rewrite ?without_exact, map_app; reflexivity. Qed.
Lemma without_at : forall c v1 v v2, Forall (fun e => (fst e =? c) = false) v1 -> fst v =? c = true -> awithout c (v1 ++ v :: v2) = v1 ++ v2.
Proof.
  intros c v1 v v2 H E. induction H as [|e l H0 H IH]; cbn [app awithout]; [rewrite E; reflexivity|]. rewrite H0, IH. reflexivity.
Qed.
Lemma without_none : forall c l, Forall (fun e => (fst e =? c) = false) l -> awithout c l = l.
Proof. intros c l H. induction H as [|e l H0 H IH]; [reflexivity|]. cbn [awithout]. rewrite H0, IH. reflexivity. Qed.

Lemma rlist_in : forall (B : Z -> blk -> aelem -> heaplet -> Prop) h vs Lr L F, rlist B h vs Lr -> Permutation L (Lr ++ F) -> exists p n, In (h, BHead p n) L.
Proof.
  intros B h vs Lr L F R P. destruct (rlist_head _ _ _ _ _ R) as (p & n & I). exists p, n.
  eapply Permutation_in; [apply Permutation_sym; exact P|]. apply in_or_app. left. exact I.
Qed.

Lemma wp_list_delete : forall k h vs Lr L F (Q : unit -> heaplet -> Prop), rlist (ebody k) h vs Lr -> Permutation L (Lr ++ F) -> Q tt F ->
  wp (list_delete k h) L Q.
Proof.
  intros k h vs Lr L F Q R P H. unfold list_delete. destruct (rlist_in _ _ _ _ _ _ R P) as (p & n & I). nz h.
  apply wp_bind. eapply (P_Ring.wp_clear _ _ (delete_of k) h vs Lr L F); [exact R|exact P| |].
  - intros a b v Lx L' F' R0 B _ _ P' _ H'. eapply (wp_elem_delete k a v); [apply body_alone; exact B| |exact H'].
    exact P'.
  - eapply wp_free; [apply Permutation_refl|exact H].
Qed.

Lemma wp_list_find : forall k h vs Lr L F c (Q : Z -> heaplet -> Prop), rlist (ebody k) h vs Lr -> Permutation L (Lr ++ F) ->
  (Forall (fun v => (fst v =? c) = false) vs -> Q 0 L) ->
  (forall v1 a v v2, vs = v1 ++ v :: v2 -> Forall (fun v => (fst v =? c) = false) v1 -> (fst v =? c) = true -> 0 < a ->
     rl_at (ebody k) h v1 a v v2 Lr -> Q a L) ->
  wp (list_find h c) L Q.
Proof.
  intros k h vs Lr L F c Q R P H0 H1. unfold list_find. destruct (rlist_in _ _ _ _ _ _ R P) as (p & n & I). nz h.
  eapply (P_Ring.wp_find _ (ebody k) _ (fun v => fst v =? c) h vs Lr L F); [exact R|exact P| |exact H0|exact H1].
  intros a b v Lx p' n' R0 B _ _ I' J H. apply wp_bind. eapply (wp_get_code k a v); [eapply body_readable; eassumption|]. apply wp_ret. exact H.
Qed.

Lemma rl_readable : forall k h v1 a v v2 Lr, rl_at (ebody k) h v1 a v v2 Lr -> readable k a v Lr.
Proof.
  intros k h v1 a v v2 Lr R. destruct (rl_focus _ _ _ _ _ _ _ _ R) as (p & n & b & Lx & R' & _ & B & P & _).
  eapply body_readable; [exact B| |].
  - eapply Permutation_in; [apply Permutation_sym; exact P|]. left. reflexivity.
  - intros x X. eapply Permutation_in; [apply Permutation_sym; exact P|]. right. apply in_or_app. left. exact X.
Qed.
Lemma readable_incl : forall k a v L L', readable k a v L -> incl L L' -> readable k a v L'.
Proof. intros k a v L L' (p & n & ss & Lt & I & T & J & E) IN. exists p, n, ss, Lt. split; [apply IN; exact I|]. split; [exact T|]. split; [intros x X; apply IN, J; exact X|exact E]. Qed.

Lemma wp_plain_add : forall k h vs Lr a v La L F (Q : bool -> heaplet -> Prop), rlist (ebody k) h vs Lr -> alone k a v La ->
  Permutation L (La ++ Lr ++ F) -> (forall Lr', rlist (ebody k) h (vs ++ [v]) Lr' -> Q true (Lr' ++ F)) -> wp (uecho_list_add h a) L Q.
Proof.
  intros k h vs Lr a v La L F Q R A P H. destruct (alone_body _ _ _ _ A) as (b & Lx & -> & FB & B).
  eapply (wp_rl_add _ (ebody k) h vs Lr a b v Lx L F); [exact R|exact FB|exact B|exact P|].
  intros Lr' R'. apply H. eapply rl_at_list. exact R'.
Qed.

Lemma wp_enum_delete : forall a v La L F (Q : bool -> heaplet -> Prop), alone KEnum a v La -> Permutation L (La ++ F) -> (forall b, Q b F) ->
  wp (uecho_property_enum_delete a) L Q.
Proof.
  intros a v La L F Q A P H h J.
  destruct (wp_elem_delete KEnum a v La L F (fun _ L' => L' = F) A P eq_refl h J) as (u & h' & L' & EX & J' & ->).
  cbn [delete_of] in EX. unfold drop_bool, mbind in EX. destruct (uecho_property_enum_delete a h) as [[b h2]|]; [|discriminate].
  injection EX as _ <-. exists b, h2, F. auto.
Qed.

Lemma wp_list_add : forall k h vs Lr a v La L F (Q : bool -> heaplet -> Prop), rlist (ebody k) h vs Lr -> alone k a v La ->
  Permutation L (La ++ Lr ++ F) -> (forall Lr', rlist (ebody k) h (aappend k vs v) Lr' -> Q true (Lr' ++ F)) -> wp (list_add k h a) L Q.
Proof.
  intros k h vs Lr a v La L F Q R A P H. destruct k; cbn [list_add aappend] in *; try (eapply wp_plain_add; eassumption).
  unfold uecho_property_enumlist_add.
  assert (PI : Permutation L (Lr ++ La ++ F)) by (eapply perm_trans; [exact P|perm]).
  destruct (rlist_in _ _ _ _ _ _ R PI) as (p & n & I). destruct (alone_in _ _ _ _ A) as (ss & IA).
  assert (IL : incl La L) by (intros x X; eapply Permutation_in; [apply Permutation_sym; exact P|]; apply in_or_app; left; exact X).
  apply IL in IA. nz h. nz a. cbn [orb].
  apply wp_bind. eapply (wp_get_code KEnum a v); [eapply alone_readable; eassumption|].
  apply wp_bind. eapply (wp_list_find KEnum h vs Lr L (La ++ F)); [exact R|exact PI| |].
  - intro NONE. rewrite (without_none _ _ NONE) in H. cbn [Z.eqb]. apply wp_bind, wp_ret. eapply wp_plain_add; eassumption.
  - intros v1 old w v2 EV FA EH PO RA. rewrite EV, (without_at _ _ _ _ FA EH) in H. rewrite (pos_nz old) by exact PO.
    apply wp_bind, wp_bind. eapply (wp_rl_remove _ (ebody KEnum) h v1 old w v2 Lr L (La ++ F)); [exact RA|exact PI|].
    intros b Lx R' FB B RR. eapply (wp_enum_delete old w ((old, set_links old old b) :: Lx) _ (R' ++ La ++ F)).
    + apply body_alone. exact B.
    + cbn [app]. perm.
    + intros _. eapply (wp_plain_add KEnum h (v1 ++ v2) R' a v La _ F); [exact RR|exact A|perm|exact H].
Qed.

Lemma wp_read_all : forall k h ns vs Ln L F, items (ebody k) ns vs Ln -> Permutation L (ring ((h, hblk) :: ns) ++ Ln ++ F) ->
  forall n2 n1 v1 v2 L1 L2 m (Q : _ -> heaplet -> Prop), ns = n1 ++ n2 -> vs = v1 ++ v2 -> items (ebody k) n1 v1 L1 -> items (ebody k) n2 v2 L2 -> Ln = L1 ++ L2 ->
  (length n2 <= m)%nat -> Q (map shown_elem v2) L -> wp (read_all k m (fst_of 0 n2)) L Q.
Proof.
  intros k h ns vs Ln L F I PL. assert (N := items_nodes _ _ _ _ _ I).
  induction n2 as [|[b kb] n2 IH]; intros n1 v1 v2 L1 L2 m Q En Ev I1 I2 EL LM H.
  - inversion I2; subst v2 L2. destruct m; cbn [read_all fst_of Z.eqb]; apply wp_ret; exact H.
  - inversion I2 as [|b' kb' v Lx ns' vs' L' E X Y]; subst b' kb' ns' v2 L2. cbn [fst_of].
    assert (IB : exists p, In (b, set_links p (fst_of h n2) kb) L).
    { destruct (ring_in ((h, hblk) :: n1) b kb n2) as [p J]. exists p. eapply Permutation_in; [apply Permutation_sym; exact PL|].
      apply in_or_app. left. rewrite En. exact J. }
    destruct IB as [p IB].
    assert (RB : readable k b v L).
    { eapply body_readable; [exact X|exact IB|]. intros z J. eapply Permutation_in; [apply Permutation_sym; exact PL|]. apply in_or_app. right.
      apply in_or_app. left. rewrite EL. apply in_or_app. right. apply in_or_app. left. exact J. }
    destruct m as [|m]; [cbn [length] in LM; lia|]. cbn [read_all].
    eapply (wp_pos _ _ _ _ b); [exact IB|intro PB]. rewrite (pos_nz b) by exact PB.
    apply wp_bind. eapply wp_get_code; [exact RB|].
    apply wp_bind. eapply (wp_read_texts k b v L (strings_of k) 0); [exact RB|reflexivity|].
    apply wp_bind. assert (EN2 : ns = (n1 ++ [(b, kb)]) ++ n2) by (rewrite <- app_assoc; exact En).
    replace b with (lst_of h (n1 ++ [(b, kb)])) by (rewrite lst_of_app; reflexivity).
    eapply (wp_list_next h hblk (n1 ++ [(b, kb)]) n2 _ (Ln ++ F)); [reflexivity|rewrite <- EN2; exact N|rewrite <- EN2; exact PL|].
    apply wp_bind. eapply (IH (n1 ++ [(b, kb)]) (v1 ++ [v]) vs' (L1 ++ Lx) L' m).
    + exact EN2.
    + rewrite <- app_assoc. exact Ev.
    + apply items_app; [exact I1|]. apply items_one; assumption.
    + exact Y.
    + rewrite <- app_assoc. exact EL.
    + cbn [length] in LM. lia.
    + apply wp_ret. cbn [skipn]. exact H.
Qed.
Lemma wp_walk_list : forall k h vs Lr L F (Q : _ -> heaplet -> Prop), rlist (ebody k) h vs Lr -> Permutation L (Lr ++ F) ->
  Q (map shown_elem vs) L -> wp (let! a := uecho_list_next h in walk (fun n => read_all k n a)) L Q.
Proof.
  intros k h vs Lr L F Q (ns & Ln & I & PR) P H.
  assert (PL : Permutation L (ring ((h, hblk) :: ns) ++ Ln ++ F)).
  { eapply perm_trans; [exact P|]. eapply perm_trans; [apply Permutation_app_tail; exact PR|]. rperm. }
  assert (N := items_nodes _ _ _ _ _ I).
  apply wp_bind. change h with (lst_of h []). eapply (wp_list_next h hblk [] ns); [reflexivity|exact N|exact PL|].
  apply wp_walk. intros n LN.
  assert (LE : (length ns <= n)%nat).
  { pose proof (Permutation_length PL) as X. rewrite app_length in X. rewrite ring_length in X. cbn [length] in X. lia. }
  eapply (wp_read_all k h ns vs Ln L F I PL ns [] [] vs [] Ln n); try reflexivity; [constructor|exact I|exact LE|exact H].
Qed.

(* ---- the element number n ---- *)

Lemma wp_elem_at : forall k h vs Lr L F n (Q : Z -> heaplet -> Prop), rlist (ebody k) h vs Lr -> Permutation L (Lr ++ F) ->
  ((length vs <= n)%nat -> Q 0 L) ->
  (forall v1 a v v2, vs = v1 ++ v :: v2 -> length v1 = n -> 0 < a -> rl_at (ebody k) h v1 a v v2 Lr -> Q a L) ->
  wp (elem_at h n) L Q.
Proof.
  intros k h vs Lr L F n Q (ns & Ln & I & PR) P H0 H1.
  assert (PL : Permutation L (ring ((h, hblk) :: ns) ++ Ln ++ F)).
  { eapply perm_trans; [exact P|]. eapply perm_trans; [apply Permutation_app_tail; exact PR|]. rperm. }
  assert (N := items_nodes _ _ _ _ _ I).
  assert (G : forall m n1 v1 n2 v2 L1 L2, ns = n1 ++ n2 -> vs = v1 ++ v2 -> items (ebody k) n1 v1 L1 -> items (ebody k) n2 v2 L2 -> Ln = L1 ++ L2 ->
     (length v1 + m = n)%nat -> wp (nth_next m (fst_of 0 n2)) L Q).
  { induction m as [|m IH]; intros n1 v1 n2 v2 L1 L2 En Ev I1 I2 EL LM; inversion I2 as [|a kb v Lx ns' vs' L' E X Y]; subst n2 v2 L2.
    - cbn [nth_next fst_of Z.eqb]. apply wp_ret. apply H0. rewrite Ev, app_nil_r. lia.
    - cbn [nth_next fst_of]. assert (IA : exists p, In (a, set_links p (fst_of h ns') kb) L).
      { destruct (ring_in ((h, hblk) :: n1) a kb ns') as [p J]. exists p. eapply Permutation_in; [apply Permutation_sym; exact PL|].
        apply in_or_app. left. rewrite En. exact J. }
      destruct IA as [p IA]. eapply (wp_pos _ _ _ _ a); [exact IA|intro PA]. rewrite (pos_nz a) by exact PA. apply wp_ret.
      eapply (H1 v1 a v vs'); [exact Ev|lia|exact PA|]. exists n1, kb, ns', L1, Lx, L'. split; [exact I1|]. split; [exact E|]. split; [exact X|].
      split; [exact Y|]. rewrite <- En, <- EL. exact PR.
    - cbn [nth_next fst_of Z.eqb]. apply wp_ret. apply H0. rewrite Ev, app_nil_r. lia.
    - cbn [nth_next fst_of]. assert (IA : exists p, In (a, set_links p (fst_of h ns') kb) L).
      { destruct (ring_in ((h, hblk) :: n1) a kb ns') as [p J]. exists p. eapply Permutation_in; [apply Permutation_sym; exact PL|].
        apply in_or_app. left. rewrite En. exact J. }
      destruct IA as [p IA]. eapply (wp_pos _ _ _ _ a); [exact IA|intro PA]. rewrite (pos_nz a) by exact PA.
      assert (EN2 : ns = (n1 ++ [(a, kb)]) ++ ns') by (rewrite <- app_assoc; exact En).
      apply wp_bind. replace a with (lst_of h (n1 ++ [(a, kb)])) by (rewrite lst_of_app; reflexivity).
      eapply (wp_list_next h hblk (n1 ++ [(a, kb)]) ns' _ (Ln ++ F)); [reflexivity|rewrite <- EN2; exact N|rewrite <- EN2; exact PL|].
      eapply (IH (n1 ++ [(a, kb)]) (v1 ++ [v]) ns' vs' (L1 ++ Lx) L').
      + exact EN2.
      + rewrite <- app_assoc. exact Ev.
      + apply items_app; [exact I1|]. apply items_one; assumption.
      + exact Y.
      + rewrite <- app_assoc. exact EL.
      + rewrite app_length. cbn [length]. lia. }
  unfold elem_at. apply wp_bind. change h with (lst_of h []). eapply (wp_list_next h hblk [] ns); [reflexivity|exact N|exact PL|].
  eapply (G n [] [] ns vs [] Ln); try reflexivity; [constructor|exact I].
Qed.

Lemma wp_set_code_at : forall k h v1 a v v2 Lr c L F (Q : unit -> heaplet -> Prop), rl_at (ebody k) h v1 a v v2 Lr -> Permutation L (Lr ++ F) ->
  (forall Lr', rlist (ebody k) h (v1 ++ (c, snd v) :: v2) Lr' -> Q tt (Lr' ++ F)) -> wp (set_code a c) L Q.
Proof.
  intros k h v1 a v v2 Lr c L F Q R P H. destruct (rl_focus _ _ _ _ _ _ _ _ R) as (p & n & b & Lx & Rr & FB & (p0 & n0 & ss & -> & T & E) & PR & G).
  cbn [set_links] in PR. eapply wp_perm; [eapply perm_trans; [exact P|apply Permutation_app_tail; exact PR]|]. cbn [app]. unfold set_code. nz a.
  apply wp_bind. eapply wp_load; [inl|]. eapply wp_store; [apply Permutation_refl|].
  change ((a, BElem p n c ss) :: (Lx ++ Rr) ++ F) with (((a, set_links p n (BElem p n c ss)) :: Lx ++ Rr) ++ F).
  apply H. eapply rl_at_list. apply G; [reflexivity|]. exists p, n, ss. auto.
Qed.

Lemma wp_set_text_at : forall room k h v1 a v v2 Lr j value t L F (Q : unit -> heaplet -> Prop), rl_at (ebody k) h v1 a v v2 Lr -> Permutation L (Lr ++ F) ->
  (j < strings_of k)%nat -> In (value, BBytes (map Some t ++ [Some 0])) F -> plain t -> len t + 1 < SIZE_MOD ->
  (forall o' Lr', rlist (ebody k) h (v1 ++ (fst v, put_at j o' (snd v)) :: v2) Lr' ->
     (full room -> Forall (fun o => o <> None) (snd v) -> o' = Some (Some t)) -> Q tt (Lr' ++ F)) ->
  wp (set_text room a j value) L Q.
Proof.
  intros room k h v1 a v v2 Lr j value t L F Q R P J I T1 T2 H.
  destruct (rl_focus _ _ _ _ _ _ _ _ R) as (p & n & b & Lx & Rr & FB & (p0 & n0 & ss & -> & T & E) & PR & G).
  cbn [set_links] in PR. eapply wp_perm; [eapply perm_trans; [exact P|apply Permutation_app_tail; exact PR]|]. cbn [app]. unfold set_text. nz a.
  apply wp_bind. eapply wp_load_elem; [inl|]. cbn [snd].
  destruct (texts_split ss (snd v) Lx j T) as (o & Lj & R2 & EO & W & PT & G2); [lia|].
  apply wp_post. eapply (wp_wtext_set room (nth j ss 0) o Lj value t _ ((a, BElem p n (fst v) ss) :: R2 ++ Rr ++ F)); [exact W| | |exact T1|exact T2|].
  - eapply perm_trans; [apply perm_skip, Permutation_app_tail, Permutation_app_tail; exact PT|]. perm.
  - right. apply in_or_app. right. apply in_or_app. right. exact I.
  - intros o' Ls' W' FU HO. destruct (G2 o' Ls' W') as (L2 & T' & P2).
    exists (((a, set_links p n (BElem p n (fst v) ss)) :: L2 ++ Rr) ++ F). cbn [set_links]. split.
    + cbn [app]. eapply perm_trans; [|apply perm_skip, Permutation_app_tail, Permutation_app_tail; exact P2]. perm.
    + apply (H o').
      * eapply rl_at_list. apply (G (BElem p n (fst v) ss)); [reflexivity|]. exists p, n, ss. cbn [fst snd]. split; [reflexivity|]. split; [exact T'|]. rewrite put_len. exact E.
      * intros X FA. apply FU; [exact X|]. rewrite Forall_forall in FA. apply FA. eapply nth_error_In. exact EO.
Qed.

(* deleting an element that is in a list; [REM]: what unlinking it does *)
Lemma wp_delete_linked : forall k a c p n ss os Lt R R' (Q : unit -> heaplet -> Prop), texts ss os Lt -> length os = strings_of k ->
  (forall G (Q' : unit -> heaplet -> Prop), Q' tt ((a, BElem a a c ss) :: R' ++ G) -> wp (uecho_list_remove a) ((a, BElem p n c ss) :: R ++ G) Q') ->
  Q tt R' -> wp (delete_of k a) ((a, BElem p n c ss) :: Lt ++ R) Q.
Proof.
  intros k a c p n ss os Lt R R' Q T E REM H.
  destruct k; cbn [strings_of delete_of] in *.
  - apply texts0 in T; [|exact E]. destruct T as (-> & _ & ->). unfold drop_bool, uecho_class_delete. nz a.
    apply wp_bind, wp_bind. eapply wp_perm; [|apply (REM [])]; [perm|]. rewrite app_nil_r.
    apply wp_bind. eapply wp_free; [apply Permutation_refl|]. apply wp_ret, wp_ret. exact H.
  - destruct (textsS _ _ _ _ T E) as (s & o & Ls & ss' & os' & L' & -> & EO & -> & W & T' & E'). apply texts0 in T'; [|exact E'].
    destruct T' as (-> & _ & ->). unfold drop_bool, uecho_manufacture_delete. nz a.
    apply wp_bind, wp_bind. eapply wp_perm; [|apply (REM Ls)]; [perm|].
    apply wp_bind. eapply wp_load_elem; [inl|]. cbn [snd nth].
    apply wp_bind. eapply (wp_wtext_delete s o Ls _ ((a, BElem a a c [s]) :: R')); [exact W|perm|].
    apply wp_bind. eapply wp_free; [apply Permutation_refl|]. apply wp_ret, wp_ret. exact H.
  - destruct (textsS _ _ _ _ T E) as (s & o & Ls & ss' & os' & L' & -> & EO & -> & W & T' & E').
    destruct (textsS _ _ _ _ T' E') as (s2 & o2 & Ls2 & ss2 & os2 & L2 & -> & -> & -> & W2 & T2 & E2). apply texts0 in T2; [|exact E2].
    destruct T2 as (-> & _ & ->). unfold drop_bool, uecho_property_enum_delete. nz a.
    apply wp_bind, wp_bind. eapply wp_load_elem; [inl|]. cbn [snd nth].
    assert (D1 : forall s o Ls L F (Q : unit -> heaplet -> Prop), wtext s o Ls -> Permutation L (Ls ++ F) -> Q tt F ->
       wp (if s =? 0 then ret tt else uecho_string_delete s) L Q).
    { clear. intros s o Ls L F Q W P H. eapply (wtext_nz s o Ls L); [exact W| | |].
      - intros x X. eapply Permutation_in; [apply Permutation_sym; exact P|]. apply in_or_app. left. exact X.
      - intros -> ->. cbn [Z.eqb]. destruct W as [_ ->]. eapply wp_perm; [exact P|]. apply wp_ret. exact H.
      - intro PS. rewrite (pos_nz s) by exact PS. eapply wp_wtext_delete; eassumption. }
    apply wp_bind. eapply (D1 s o Ls _ ((a, BElem p n c [s; s2]) :: Ls2 ++ R)); [exact W|perm|].
    apply wp_bind. eapply wp_load_elem; [inl|]. cbn [snd nth].
    apply wp_bind. eapply (D1 s2 o2 Ls2 _ ((a, BElem p n c [s; s2]) :: R)); [exact W2|perm|].
    apply wp_bind. eapply wp_perm; [|apply (REM [])]; [perm|]. rewrite app_nil_r.
    apply wp_bind. eapply wp_free; [apply Permutation_refl|]. apply wp_ret, wp_ret. exact H.
  - destruct (textsS _ _ _ _ T E) as (s & o & Ls & ss' & os' & L' & -> & EO & -> & W & T' & E').
    destruct (textsS _ _ _ _ T' E') as (s2 & o2 & Ls2 & ss2 & os2 & L2 & -> & -> & -> & W2 & T2 & E2).
    destruct (textsS _ _ _ _ T2 E2) as (s3 & o3 & Ls3 & ss3 & os3 & L3 & -> & -> & -> & W3 & T3 & E3). apply texts0 in T3; [|exact E3].
    destruct T3 as (-> & _ & ->). unfold uecho_net_interface_delete. nz a.
    apply wp_bind. eapply wp_perm; [|apply (REM (Ls ++ Ls2 ++ Ls3))]; [perm|].
    apply wp_bind. eapply wp_load_elem; [inl|]. cbn [snd nth].
    apply wp_bind. eapply (wp_wtext_delete s o Ls _ ((a, BElem a a c [s; s2; s3]) :: Ls2 ++ Ls3 ++ R')); [exact W|perm|].
    apply wp_bind. eapply wp_load_elem; [inl|]. cbn [snd nth].
    apply wp_bind. eapply (wp_wtext_delete s2 o2 Ls2 _ ((a, BElem a a c [s; s2; s3]) :: Ls3 ++ R')); [exact W2|perm|].
    apply wp_bind. eapply wp_load_elem; [inl|]. cbn [snd nth].
    apply wp_bind. eapply (wp_wtext_delete s3 o3 Ls3 _ ((a, BElem a a c [s; s2; s3]) :: R')); [exact W3|perm|].
    eapply wp_free; [apply Permutation_refl|exact H].
  - apply texts0 in T; [|exact E]. destruct T as (-> & _ & ->). unfold drop_bool, uecho_thread_delete. nz a.
    apply wp_bind, wp_bind. eapply wp_perm; [|apply (REM [])]; [perm|]. rewrite app_nil_r.
    apply wp_bind. eapply wp_free; [apply Permutation_refl|]. apply wp_ret, wp_ret. exact H.
Qed.
Lemma wp_delete_at : forall k h v1 a v v2 Lr L F (Q : unit -> heaplet -> Prop), rl_at (ebody k) h v1 a v v2 Lr -> Permutation L (Lr ++ F) ->
  (forall Lr', rlist (ebody k) h (v1 ++ v2) Lr' -> Q tt (Lr' ++ F)) -> wp (delete_of k a) L Q.
Proof.
  intros k h v1 a v v2 Lr L F Q (n1 & kb & n2 & L1 & Lx & L2 & I1 & FB & (p0 & n0 & ss & -> & T & E) & I2 & PR) P H.
  pose proof (ring_at ((h, hblk) :: n1) a (BElem p0 n0 (fst v) ss) n2) as RA. cbn [app set_links] in RA.
  set (p := lst_of a (n2 ++ (h, hblk) :: n1)) in *. set (n := fst_of a (n2 ++ (h, hblk) :: n1)) in *.
  set (CH := chain a (n2 ++ (h, hblk) :: n1) a) in *.
  eapply (wp_perm _ _ _ ((a, BElem p n (fst v) ss) :: Lx ++ (CH ++ L1 ++ L2 ++ F))).
  { eapply perm_trans; [exact P|]. eapply perm_trans; [apply Permutation_app_tail; exact PR|].
    eapply perm_trans; [apply Permutation_app_tail, Permutation_app_tail; exact RA|]. rperm. }
  eapply (wp_delete_linked k a (fst v) p n ss (snd v) Lx _ ((ring ((h, hblk) :: n1 ++ n2) ++ L1 ++ L2) ++ F)); [exact T|exact E| |].
  - intros G Q' HQ. apply wp_post.
    eapply (wp_list_remove ((h, hblk) :: n1) a (BElem p0 n0 (fst v) ss) false n2 _ (L1 ++ L2 ++ F ++ G)); [discriminate|reflexivity| | |].
    + cbn [app]. constructor; [exists true; reflexivity|]. apply nodes_flags. eapply items_nodes. apply items_app; eassumption.
    + cbn [app]. eapply perm_trans; [|apply Permutation_app_tail; apply Permutation_sym; exact RA]. perm.
    + cbn [app set_links]. eexists. split; [|exact HQ]. rperm.
  - apply H. exists (n1 ++ n2), (L1 ++ L2). split; [apply items_app; assumption|apply Permutation_refl].
Qed.

Lemma change_mid : forall A (f : A -> A) l1 x l2 n, length l1 = n -> change_at n f (l1 ++ x :: l2) = l1 ++ f x :: l2.
Proof. intros A f l1 x l2 n <-. induction l1 as [|y l1 IH]; [reflexivity|]. cbn [app length change_at]. rewrite IH. reflexivity. Qed.
Lemma drop_mid : forall A (l1 : list A) x l2 n, length l1 = n -> drop_at n (l1 ++ x :: l2) = l1 ++ l2.
Proof. intros A l1 x l2 n <-. induction l1 as [|y l1 IH]; [reflexivity|]. cbn [app length drop_at]. rewrite IH. reflexivity. Qed.
Lemma change_none : forall A (f : A -> A) l n, (length l <= n)%nat -> change_at n f l = l.
Proof. intros A f l. induction l as [|y l IH]; intros [|n] H; cbn in *; try reflexivity; [lia|]. rewrite IH by lia. reflexivity. Qed.
Lemma drop_none : forall A (l : list A) n, (length l <= n)%nat -> drop_at n l = l.
Proof. intros A l. induction l as [|y l IH]; intros [|n] H; cbn in *; try reflexivity; [lia|]. rewrite IH by lia. reflexivity. Qed.
Lemma map_mid : forall A B (g : A -> B) es v1 v v2, map g es = v1 ++ v :: v2 -> exists e1 e e2, es = e1 ++ e :: e2 /\ v1 = map g e1 /\ v = g e /\ v2 = map g e2.
Proof.
  intros A B g es v1. revert es. induction v1 as [|w v1 IH]; intros [|e es] v v2 E; cbn in E; try discriminate; injection E as <- E.
  - exists [], e, es. auto.
  - destruct (IH es v v2 E) as (e1 & x & e2 & -> & -> & -> & ->). exists (e :: e1), x, e2. auto.
Qed.

(* ---- programs ---- *)

Section Room.
Variable room : Z -> bool.

Definition slot_rep (h : handle) (s : slot) (L : heaplet) : Prop :=
  match s with
  | SElem k e => fst h = k /\ length (snd e) = strings_of k
      /\ ((snd h = 0 /\ L = [] /\ ~ full room) \/ exists v, alone k (snd h) v L /\ (full room -> v = exact e) /\ within v e)
  | SList k es => fst h = k
      /\ ((snd h = 0 /\ L = [] /\ ~ full room) \/ exists vs, rlist (ebody k) (snd h) vs L /\ (full room -> vs = map exact es))
  | SGone => L = []
  end.
Inductive world : list handle -> list slot -> heaplet -> Prop :=
| world_nil : world [] [] []
| world_cons : forall h s Ls hs ss L, slot_rep h s Ls -> world hs ss L -> world (h :: hs) (s :: ss) (Ls ++ L).

Lemma world_len : forall hs ss L, world hs ss L -> length hs = length ss.
Proof. intros hs ss L H. induction H; cbn; congruence. Qed.
Lemma world_gone : forall hs ss L, world hs ss L -> everything_gone ss -> L = [].
Proof.
  intros hs ss L H. induction H as [|h s Ls hs ss L R W IH]; intro G; [reflexivity|]. apply Forall_cons_iff in G. destruct G as [-> G].
  cbn [slot_rep] in R. subst Ls. apply IH. exact G.
Qed.
Lemma world_snoc : forall hs ss L h s Ls, world hs ss L -> slot_rep h s Ls -> exists L', world (hs ++ [h]) (ss ++ [s]) L' /\ Permutation (Ls ++ L) L'.
Proof.
  intros hs ss L h s Ls W R. induction W as [|h' s' Ls' hs ss L R' W IH].
  - exists (Ls ++ []). split; [cbn [app]; constructor; [exact R|constructor]|apply Permutation_refl].
  - destruct IH as (L' & W' & P). exists (Ls' ++ L'). split; [cbn [app]; constructor; assumption|].
    eapply perm_trans; [|apply Permutation_app_head; exact P]. perm.
Qed.
Lemma world_take : forall hs ss L i s, world hs ss L -> nth_error ss i = Some s ->
  exists Li R, Permutation L (Li ++ R) /\ slot_rep (ptr_of hs i) s Li /\ world hs (put_at i SGone ss) R.
Proof.
  intros hs ss L i s W. revert i. induction W as [|h s' Ls' hs ss L R' W IH]; intros [|i] E; cbn [nth_error] in E; try discriminate.
  - injection E as ->. exists Ls', L. split; [apply Permutation_refl|]. split; [exact R'|]. cbn [put_at]. apply (world_cons h SGone []); [reflexivity|exact W].
  - destruct (IH i E) as (Li & R & P & SR & W'). exists Li, (Ls' ++ R). split.
    + eapply perm_trans; [apply Permutation_app_head; exact P|]. perm.
    + split; [exact SR|]. cbn [put_at]. constructor; assumption.
Qed.
Lemma world_put : forall hs ss R i s Li, world hs ss R -> nth_error ss i = Some SGone -> slot_rep (ptr_of hs i) s Li ->
  exists L, Permutation (Li ++ R) L /\ world hs (put_at i s ss) L.
Proof.
  intros hs ss R i s Li W. revert i. induction W as [|h s' Ls' hs ss L R' W IH]; intros [|i] E SR; cbn [nth_error] in E; try discriminate.
  - injection E as ->. cbn [slot_rep] in R'. subst Ls'. exists (Li ++ L). split; [apply Permutation_refl|]. cbn [put_at]. constructor; assumption.
  - destruct (IH i E SR) as (L2 & P & W'). exists (Ls' ++ L2). split.
    + eapply perm_trans; [|apply Permutation_app_head; exact P]. perm.
    + cbn [put_at]. constructor; assumption.
Qed.

(* what a reading call may show: the value of the specification, or nothing *)
Definition fair (op : lop) (v v' : lobs) : Prop :=
  match op with
  | LGet _ _ => v' = v \/ v' = VText None
  | LGetCode _ => v' = v \/ v' = VNum 0
  | _ => True
  end.
Definition after (F : heaplet) (op : lop) (v : lobs) (st' : list slot) (r : lobs * list handle) (L : heaplet) : Prop :=
  (full room -> fst r = v) /\ fair op v (fst r) /\ exists W, Permutation L (W ++ F) /\ world (snd r) st' W.

Lemma plain_b : forall t, forallb (fun c => negb (c =? 0)) t = true -> plain t.
Proof.
  intros t H. apply Forall_forall. intros c I. rewrite forallb_forall in H. specialize (H c I). apply negb_true_iff, Z.eqb_neq in H. exact H.
Qed.
Lemma put_Forall2 : forall A B (R : A -> B -> Prop) l m j x y, Forall2 R l m -> R x y -> Forall2 R (put_at j x l) (put_at j y m).
Proof.
  intros A B R l m j x y H X. revert j. induction H as [|a b l m AB H IH]; intros [|j]; cbn [put_at]; constructor; auto.
Qed.
Lemma Forall2_nth : forall A B (R : A -> B -> Prop) l m j x y, Forall2 R l m -> nth_error l j = Some x -> nth_error m j = Some y -> R x y.
Proof.
  intros A B R l m j x y H. revert j. induction H as [|a b l m AB H IH]; intros [|j] E1 E2; cbn in *; try discriminate.
  - injection E1 as <-. injection E2 as <-. exact AB.
  - eapply IH; eassumption.
Qed.
Lemma nth_ok : forall A (l : list A) j d, (j < length l)%nat -> nth_error l j = Some (nth j l d).
Proof. intros A l. induction l as [|x l IH]; intros [|j] d H; cbn in *; try lia; [reflexivity|]. apply IH. lia. Qed.
Lemma exact_there : forall e, Forall (fun o => o <> None) (snd (exact e)).
Proof. intros e. apply Forall_forall. intros o I. cbn [exact snd] in I. apply in_map_iff in I. destruct I as (x & <- & _). discriminate. Qed.
Lemma find_exact : forall c l, List.find (fun v => fst v =? c) (map exact l) = option_map exact (List.find (fun e => fst e =? c) l).
Proof. intros c l. induction l as [|e l IH]; [reflexivity|]. cbn [map List.find]. cbn [exact fst]. destruct (fst e =? c); [reflexivity|exact IH]. Qed.
Lemma find_at : forall A (t : A -> bool) v1 v v2, Forall (fun x => t x = false) v1 -> t v = true -> List.find t (v1 ++ v :: v2) = Some v.
Proof. intros A t v1 v v2 H E. induction H as [|x l X H IH]; cbn [app List.find]; [rewrite E; reflexivity|]. rewrite X. exact IH. Qed.
Lemma find_no : forall A (t : A -> bool) l, Forall (fun x => t x = false) l -> List.find t l = None.
Proof. intros A t l H. induction H as [|x l X H IH]; cbn [List.find]; [reflexivity|]. rewrite X. exact IH. Qed.

(* a call that changes one list *)
Lemma list_change : forall l op ps st W F k es es' v, world ps st W -> nth_error st l = Some (SList k es) -> fair op v VDone ->
  (snd (ptr_of ps l) = 0 -> forall L (Q : _ -> heaplet -> Prop), Q (VDone, ps) L -> wp (lstep room op ps) L Q) ->
  (forall vs Lr F', rlist (ebody k) (snd (ptr_of ps l)) vs Lr -> fst (ptr_of ps l) = k -> forall (Q : _ -> heaplet -> Prop),
     (forall vs' Lr', rlist (ebody k) (snd (ptr_of ps l)) vs' Lr' -> (full room -> vs = map exact es -> vs' = map exact es') -> Q (VDone, ps) (Lr' ++ F')) ->
     wp (lstep room op ps) (Lr ++ F') Q) ->
  v = VDone ->
  wp (lstep room op ps) (W ++ F) (after F op v (put_at l (SList k es') st)).
Proof.
  intros l op ps st W F k es es' v WO EL FA H0 H1 ->.
  destruct (world_take _ _ _ _ _ WO EL) as (Ll & R & PW & (EK & [(E0 & -> & NF)|(vs & RL & FU)]) & WR).
  - apply H0; [exact E0|]. split; [reflexivity|]. split; [exact FA|].
    destruct (world_put _ _ _ l (SList k es') [] WR) as (L' & P' & W'); [apply nth_put; eapply nth_lt; exact EL|split; [exact EK|]; left; auto|].
    rewrite put_put in W'. exists L'. split; [|exact W']. apply Permutation_app_tail. eapply perm_trans; [exact PW|exact P'].
  - eapply wp_perm; [apply Permutation_app_tail; exact PW|]. rewrite <- app_assoc. eapply H1; [exact RL|exact EK|].
    intros vs' Lr' RL' FU'. split; [reflexivity|]. split; [exact FA|].
    destruct (world_put _ _ _ l (SList k es') Lr' WR) as (L' & P' & W'); [apply nth_put; eapply nth_lt; exact EL| |].
    { split; [exact EK|]. right. exists vs'. split; [exact RL'|]. intro X. apply FU'; [exact X|]. apply FU. exact X. }
    rewrite put_put in W'. exists L'. split; [|exact W']. rewrite app_assoc. apply Permutation_app_tail. exact P'.
Qed.

Lemma wp_lstep : forall op ps st v st' L W F, spec_step op st = Some (v, st') -> world ps st W -> Permutation L (W ++ F) ->
  wp (lstep room op ps) L (after F op v st').
Proof.
  intros op ps st v st' L W F E WO P. eapply wp_perm; [exact P|]. clear P L.
  destruct op as [k|i c|i j t|i j|i|i|k|l i|l|l c j|l|l n c|l n j t|l n]; cbn [spec_step lstep] in *.
  - (* LNew *) injection E as <- <-. apply wp_bind. apply wp_elem_new.
    + intros a v La PA A FU WI. apply wp_ret. split; [reflexivity|]. split; [exact Logic.I|].
      destruct (world_snoc _ _ _ (k, a) (SElem k (fresh_elem k)) La WO) as (L' & W' & P').
      { cbn [slot_rep fst snd]. split; [reflexivity|]. split; [cbn; apply repeat_length|]. right. exists v. auto. }
      exists L'. split; [|exact W']. rewrite app_assoc. apply Permutation_app_tail. exact P'.
    + intro NF. apply wp_ret. split; [reflexivity|]. split; [exact Logic.I|].
      destruct (world_snoc _ _ _ (k, 0) (SElem k (fresh_elem k)) [] WO) as (L' & W' & P').
      { cbn [slot_rep fst snd]. split; [reflexivity|]. split; [cbn; apply repeat_length|]. left. auto. }
      exists L'. split; [|exact W']. apply Permutation_app_tail. exact P'.
  - (* LCode *) destruct (nth_error st i) as [[k e| |]|] eqn:EN; try discriminate. destruct (has_code k); [|discriminate]. injection E as <- <-.
    destruct (world_take _ _ _ _ _ WO EN) as (Li & R & PW & (EK & EL & [(E0 & -> & NF)|(v & A & FU & WI)]) & WR).
    + rewrite E0. apply wp_bind. apply wp_ret. apply wp_ret. split; [reflexivity|]. split; [exact Logic.I|].
      destruct (world_put _ _ _ i (SElem k (c, snd e)) [] WR) as (L' & P' & W'); [apply nth_put; eapply nth_lt; exact EN|split; [exact EK|]; split; [exact EL|]; left; auto|].
      rewrite put_put in W'. exists L'. split; [|exact W']. apply Permutation_app_tail. eapply perm_trans; [exact PW|exact P'].
    + apply wp_bind. eapply (wp_set_code k _ v Li c _ (R ++ F)); [exact A|rewrite app_assoc; apply Permutation_app_tail; exact PW|].
      intros La' A'. apply wp_ret. split; [reflexivity|]. split; [exact Logic.I|].
      destruct (world_put _ _ _ i (SElem k (c, snd e)) La' WR) as (L' & P' & W'); [apply nth_put; eapply nth_lt; exact EN| |].
      { split; [exact EK|]. split; [exact EL|]. right. exists (c, snd v). split; [exact A'|]. split; [intro X; rewrite (FU X); reflexivity|].
        split; [reflexivity|]. apply WI. }
      rewrite put_put in W'. exists L'. split; [|exact W']. rewrite app_assoc. apply Permutation_app_tail. exact P'.
  - (* LText *) destruct (nth_error st i) as [[k e| |]|] eqn:EN; try discriminate.
    destruct ((j <? strings_of k)%nat && forallb (fun c => negb (c =? 0)) t && (len t + 1 <? SIZE_MOD)) eqn:EC; [|discriminate].
    apply andb_true_iff in EC. destruct EC as [EC T2]. apply andb_true_iff in EC. destruct EC as [EJ T1].
    apply Nat.ltb_lt in EJ. apply Z.ltb_lt in T2. apply plain_b in T1. injection E as <- <-.
    destruct (world_take _ _ _ _ _ WO EN) as (Li & R & PW & (EK & EL & [(E0 & -> & NF)|(v & A & FU & WI)]) & WR).
    + rewrite E0. apply wp_bind. apply wp_given. intros p P0. apply wp_ret. eexists. split; [apply Permutation_refl|].
      apply wp_ret. split; [reflexivity|]. split; [exact Logic.I|].
      destruct (world_put _ _ _ i (SElem k (fst e, put_at j (Some t) (snd e))) [] WR) as (L' & P' & W'); [apply nth_put; eapply nth_lt; exact EN|split; [exact EK|]; split; [cbn [snd]; rewrite put_len; exact EL|]; left; auto|].
      rewrite put_put in W'. exists L'. split; [|exact W']. apply Permutation_app_tail. eapply perm_trans; [exact PW|exact P'].
    + apply wp_bind. apply wp_given. intros p P0. rewrite map_app. cbn [map].
      eapply (wp_set_text room k _ v Li j p t _ ((p, BBytes (map Some t ++ [Some 0])) :: R ++ F)); [exact A| |exact EJ|left; reflexivity|exact T1|exact T2|].
      * eapply perm_trans; [apply perm_skip, Permutation_app_tail; exact PW|]. perm.
      * intros o' La' A' FU' HO. exists (La' ++ R ++ F). split; [perm|]. apply wp_ret. split; [reflexivity|]. split; [exact Logic.I|].
        destruct (world_put _ _ _ i (SElem k (fst e, put_at j (Some t) (snd e))) La' WR) as (L' & P' & W'); [apply nth_put; eapply nth_lt; exact EN| |].
        { split; [exact EK|]. split; [cbn [snd]; rewrite put_len; exact EL|]. right. eexists. split; [exact A'|]. split.
          - intro X. specialize (FU X). subst v. rewrite (FU' X (exact_there e)). unfold exact. cbn [fst snd]. rewrite put_map. reflexivity.
          - destruct WI as [WI1 WI2]. split; [exact WI1|]. cbn [snd]. apply put_Forall2; assumption. }
        rewrite put_put in W'. exists L'. split; [|exact W']. rewrite app_assoc. apply Permutation_app_tail. exact P'.
  - (* LGet *) destruct (nth_error st i) as [[k e| |]|] eqn:EN; try discriminate.
    destruct (j <? strings_of k)%nat eqn:EJ; [|discriminate]. apply Nat.ltb_lt in EJ. injection E as <- <-.
    destruct (world_take _ _ _ _ _ WO EN) as (Li & R & PW & (EK & EL & [(E0 & -> & NF)|(v & A & FU & WI)]) & WR).
    + rewrite E0. apply wp_bind. apply wp_ret. apply wp_bind. apply wp_ret. apply wp_ret.
      split; [intro X; contradiction|]. split; [right; reflexivity|]. exists W. split; [apply Permutation_refl|exact WO].
    + assert (X : wp (let! o := (let! p := get_text (snd (ptr_of ps i)) j in read_text p) in ret (VText o, ps)) (W ++ F) (after F (LGet i j) (VText (text_of (Some e) j)) st)).
      { apply wp_bind. eapply (wp_get_text k _ v j).
        - eapply alone_readable; [exact A|]. intros x X. apply in_or_app. left. eapply Permutation_in; [apply Permutation_sym; exact PW|]. apply in_or_app. left. exact X.
        - exact EJ.
        - apply wp_ret. cbn [text_of].
          assert (LV : length (snd v) = strings_of k) by (destruct A as (? & ? & _ & _ & A); exact A).
          pose proof (Forall2_nth _ _ _ _ _ j _ _ (proj2 WI) (nth_ok _ (snd v) j None ltac:(lia)) (nth_ok _ (snd e) j None ltac:(lia))) as HO.
          split; [|split].
          + intro X. specialize (FU X). subst v. cbn [exact snd fst].
            rewrite (nth_indep (map Some (snd e)) None (Some None)) by (rewrite map_length; lia). rewrite map_nth. reflexivity.
          + cbn [fst fair]. destruct HO as [HO|HO]; rewrite HO; [left|right]; reflexivity.
          + exists W. split; [apply Permutation_refl|exact WO]. }
      intros h J. destruct (X h J) as (r & h' & L' & EX & J' & QQ). exists r, h', L'. split; [|auto].
      unfold mbind in *. destruct (get_text (snd (ptr_of ps i)) j h) as [[q h1]|]; exact EX.
  - (* LGetCode *) destruct (nth_error st i) as [[k e| |]|] eqn:EN; try discriminate. destruct (has_code k); [|discriminate]. injection E as <- <-.
    destruct (world_take _ _ _ _ _ WO EN) as (Li & R & PW & (EK & EL & [(E0 & -> & NF)|(v & A & FU & WI)]) & WR).
    + rewrite E0. apply wp_bind. apply wp_ret. apply wp_ret. split; [intro X; contradiction|]. split; [right; reflexivity|]. exists W. split; [apply Permutation_refl|exact WO].
    + apply wp_bind. eapply (wp_get_code k _ v).
      * eapply alone_readable; [exact A|]. intros x X. apply in_or_app. left. eapply Permutation_in; [apply Permutation_sym; exact PW|]. apply in_or_app. left. exact X.
      * apply wp_ret. destruct WI as [WI _]. rewrite WI. split; [reflexivity|]. split; [left; reflexivity|]. exists W. split; [apply Permutation_refl|exact WO].
  - (* LDelete *) destruct (nth_error st i) as [[k e| |]|] eqn:EN; try discriminate. injection E as <- <-.
    destruct (world_take _ _ _ _ _ WO EN) as (Li & R & PW & (EK & EL & [(E0 & -> & NF)|(v & A & FU & WI)]) & WR).
    + rewrite E0. apply wp_bind. apply wp_delete_null. apply wp_ret. split; [reflexivity|]. split; [exact Logic.I|]. exists R. split; [|exact WR].
      apply Permutation_app_tail. exact PW.
    + rewrite EK. apply wp_bind. eapply (wp_elem_delete k _ v Li _ (R ++ F)); [exact A|rewrite app_assoc; apply Permutation_app_tail; exact PW|].
      apply wp_ret. split; [reflexivity|]. split; [exact Logic.I|]. exists R. split; [apply Permutation_refl|exact WR].
  - (* LList *) injection E as <- <-. apply wp_bind. unfold list_new. apply wp_malloc_any.
    + intros a PA. apply wp_ret. split; [reflexivity|]. split; [exact Logic.I|].
      destruct (world_snoc _ _ _ (k, a) (SList k []) [(a, BHead a a)] WO) as (L' & W' & P').
      { cbn [slot_rep fst snd]. split; [reflexivity|]. right. exists []. split; [apply rlist_new|reflexivity]. }
      exists L'. split; [|exact W']. change ((a, BHead a a) :: W ++ F) with (([(a, BHead a a)] ++ W) ++ F). apply Permutation_app_tail. exact P'.
    + intro NF. apply wp_ret. split; [reflexivity|]. split; [exact Logic.I|].
      destruct (world_snoc _ _ _ (k, 0) (SList k []) [] WO) as (L' & W' & P').
      { cbn [slot_rep fst snd]. split; [reflexivity|]. left. auto. }
      exists L'. split; [|exact W']. apply Permutation_app_tail. exact P'.
  - (* LAdd *) destruct (nth_error st l) as [[|k es|]|] eqn:EL; try discriminate. destruct (nth_error st i) as [[k' e| |]|] eqn:EI; try discriminate.
    destruct (kind_eqb k k') eqn:EQ; [|discriminate]. apply kind_eqb_eq in EQ. subst k'. injection E as <- <-.
    assert (NE : i <> l) by (intros ->; congruence).
    destruct (world_take _ _ _ _ _ WO EI) as (Li & R & PW & (EK & ELen & EE) & WR).
    assert (EL' : nth_error (put_at i SGone st) l = Some (SList k es)) by (rewrite nth_put_other by exact NE; exact EL).
    destruct (world_take _ _ _ _ _ WR EL') as (Ll & R2 & PW2 & (EKl & EEl) & WR2).
    assert (GL : nth_error (put_at l SGone (put_at i SGone st)) l = Some SGone).
    { apply nth_put. rewrite put_len. eapply nth_lt. exact EL. }
    assert (PA : Permutation (W ++ F) (Li ++ Ll ++ R2 ++ F)).
    { eapply perm_trans; [apply Permutation_app_tail; exact PW|]. rewrite <- app_assoc. apply Permutation_app_head.
      eapply perm_trans; [apply Permutation_app_tail; exact PW2|]. rewrite <- app_assoc. apply Permutation_refl. }
    eapply wp_perm; [exact PA|]. rewrite EK, EKl.
    assert (REST : forall vs Lr L', rlist (ebody k) (snd (ptr_of ps l)) vs Lr -> (full room -> vs = map exact (append k es e)) -> Permutation L' (Lr ++ R2 ++ F) ->
      after F (LAdd l i) VDone (put_at l (SList k (append k es e)) (put_at i SGone st)) (VDone, ps) L').
    { intros vs Lr L' RL FUL PL'. split; [reflexivity|]. split; [exact Logic.I|].
      destruct (world_put _ _ _ l (SList k (append k es e)) Lr WR2 GL) as (L2 & P2 & W2); [split; [exact EKl|]; right; exists vs; auto|].
      rewrite put_put in W2. exists L2. split; [|exact W2]. eapply perm_trans; [exact PL'|]. rewrite app_assoc. apply Permutation_app_tail. exact P2. }
    assert (NONE : forall L', ~ full room -> snd (ptr_of ps l) = 0 -> Permutation L' (R2 ++ F) ->
      after F (LAdd l i) VDone (put_at l (SList k (append k es e)) (put_at i SGone st)) (VDone, ps) L').
    { intros L' NF E0 PL'. split; [reflexivity|]. split; [exact Logic.I|].
      destruct (world_put _ _ _ l (SList k (append k es e)) [] WR2 GL) as (L2 & P2 & W2); [split; [exact EKl|]; left; auto|].
      rewrite put_put in W2. exists L2. split; [|exact W2]. eapply perm_trans; [exact PL'|]. apply Permutation_app_tail. exact P2. }
    assert (NULL1 : forall a L0 (Q : bool -> heaplet -> Prop), Q false L0 -> wp (list_add k 0 a) L0 Q) by (intros a L0 Q HQ; destruct k; apply wp_ret; exact HQ).
    assert (NULL2 : forall h L0 (Q : bool -> heaplet -> Prop), Q false L0 -> wp (list_add k h 0) L0 Q).
    { intros h L0 Q HQ; destruct k; cbn [list_add]; unfold uecho_property_enumlist_add, uecho_list_add; cbn [Z.eqb]; rewrite orb_true_r; apply wp_ret; exact HQ. }
    destruct EEl as [(E0 & -> & NF)|(vs & RL & FUL)].
    + rewrite E0. apply wp_bind. apply NULL1. apply wp_bind. destruct EE as [(E1 & -> & _)|(v & A & FU & WI)].
      * rewrite E1. apply wp_delete_null. apply wp_ret. apply NONE; [exact NF|exact E0|]. apply Permutation_refl.
      * eapply (wp_elem_delete k _ v Li _ (R2 ++ F)); [exact A|apply Permutation_refl|]. apply wp_ret. apply NONE; [exact NF|exact E0|apply Permutation_refl].
    + apply wp_bind. destruct EE as [(E1 & -> & NF)|(v & A & FU & WI)].
      * rewrite E1. apply NULL2. apply wp_bind. apply wp_delete_null. apply wp_ret. eapply REST; [exact RL|intro X; contradiction|apply Permutation_refl].
      * eapply (wp_list_add k _ vs Ll _ v Li _ (R2 ++ F)); [exact RL|exact A|apply Permutation_refl|]. intros Lr' RL'. apply wp_bind. apply wp_ret. apply wp_ret.
        eapply REST; [exact RL'| |apply Permutation_refl]. intro X. rewrite (FU X), (FUL X). apply append_exact.
  - (* LWalk *) destruct (nth_error st l) as [[|k es|]|] eqn:EL; try discriminate. injection E as <- <-.
    destruct (world_take _ _ _ _ _ WO EL) as (Ll & R & PW & (EK & [(E0 & -> & NF)|(vs & RL & FU)]) & WR).
    + rewrite E0. apply wp_bind. apply wp_ret. apply wp_bind. apply wp_walk. intros n _. destruct n; cbn [read_all Z.eqb]; apply wp_ret; apply wp_ret;
        (split; [intro X; contradiction|]; split; [exact Logic.I|]; exists W; split; [apply Permutation_refl|exact WO]).
    + rewrite EK.
      assert (X : wp (let! r := (let! a := uecho_list_next (snd (ptr_of ps l)) in walk (fun n => read_all k n a)) in ret (VAll r, ps)) (W ++ F) (after F (LWalk l) (VAll es) st)).
      { apply wp_bind. eapply (wp_walk_list k _ vs Ll _ (R ++ F)); [exact RL|rewrite app_assoc; apply Permutation_app_tail; exact PW|]. apply wp_ret.
        split; [|split; [exact Logic.I|exists W; split; [apply Permutation_refl|exact WO]]]. intro X. rewrite (FU X). cbn [fst]. rewrite map_map.
        rewrite (map_ext _ (fun e => e)) by (intro; apply shown_exact). rewrite map_id. reflexivity. }
      intros h J. destruct (X h J) as (r & h' & L' & EX & J' & QQ). exists r, h', L'. split; [|auto].
      unfold mbind in *. destruct (uecho_list_next (snd (ptr_of ps l)) h) as [[q h1]|]; exact EX.
  - (* LFind *) destruct (nth_error st l) as [[|k es|]|] eqn:EL; try discriminate.
    destruct (has_code k && (j <? strings_of k)%nat) eqn:EC; [|discriminate]. apply andb_true_iff in EC. destruct EC as [_ EJ]. apply Nat.ltb_lt in EJ. injection E as <- <-.
    destruct (world_take _ _ _ _ _ WO EL) as (Ll & R & PW & (EK & [(E0 & -> & NF)|(vs & RL & FU)]) & WR).
    + rewrite E0. apply wp_bind. apply wp_ret. apply wp_bind. apply wp_ret. apply wp_bind. apply wp_ret. apply wp_ret.
      split; [intro X; contradiction|]. split; [exact Logic.I|]. exists W. split; [apply Permutation_refl|exact WO].
    + assert (PL : Permutation (W ++ F) (Ll ++ R ++ F)) by (rewrite app_assoc; apply Permutation_app_tail; exact PW).
      assert (X : forall a (Q : _ -> heaplet -> Prop), wp (let! o := (let! p := get_text a j in read_text p) in ret (VText o, ps)) (W ++ F) Q -> wp (let! p := get_text a j in let! o := read_text p in ret (VText o, ps)) (W ++ F) Q).
      { intros a Q X h J. destruct (X h J) as (r & h' & L' & EX & J' & QQ). exists r, h', L'. split; [|auto].
        unfold mbind in *. destruct (get_text a j h) as [[q h1]|]; exact EX. }
      apply wp_bind. eapply (wp_list_find k _ vs Ll _ (R ++ F)); [exact RL|exact PL| |].
      * intro NONE. apply wp_bind. apply wp_ret. apply wp_bind. apply wp_ret. apply wp_ret. split; [|split; [exact Logic.I|exists W; split; [apply Permutation_refl|exact WO]]].
        intro FL. rewrite (FU FL) in NONE. apply find_no in NONE. rewrite find_exact in NONE. destruct (List.find (fun e => fst e =? c) es); [discriminate|reflexivity].
      * intros v1 a v v2 EV FA EH PO RA. apply X. apply wp_bind. eapply (wp_get_text k a v j).
        -- eapply readable_incl; [eapply rl_readable; exact RA|]. intros x Y. eapply Permutation_in; [apply Permutation_sym; exact PL|]. apply in_or_app. left. exact Y.
        -- exact EJ.
        -- apply wp_ret. split; [|split; [exact Logic.I|exists W; split; [apply Permutation_refl|exact WO]]].
           intro FL. assert (FE : List.find (fun v : aelem => fst v =? c) vs = Some v) by (rewrite EV; apply (find_at aelem); assumption). rewrite (FU FL), find_exact in FE.
           destruct (List.find (fun e => fst e =? c) es) as [e|]; [|discriminate]. cbn [option_map] in FE. injection FE as <-. cbn [fst text_of exact snd].
           f_equal. clear. revert j. induction (snd e) as [|x r IH]; intros [|j]; cbn; try reflexivity. apply IH.
  - (* LDrop *) destruct (nth_error st l) as [[|k es|]|] eqn:EL; try discriminate. injection E as <- <-.
    destruct (world_take _ _ _ _ _ WO EL) as (Ll & R & PW & (EK & [(E0 & -> & NF)|(vs & RL & FU)]) & WR).
    + rewrite E0. apply wp_bind. apply wp_ret. apply wp_ret. split; [reflexivity|]. split; [exact Logic.I|]. exists R. split; [apply Permutation_app_tail; exact PW|exact WR].
    + rewrite EK. apply wp_bind. eapply (wp_list_delete k _ vs Ll _ (R ++ F)); [exact RL|rewrite app_assoc; apply Permutation_app_tail; exact PW|].
      apply wp_ret. split; [reflexivity|]. split; [exact Logic.I|]. exists R. split; [apply Permutation_refl|exact WR].
  - (* LCodeAt *) destruct (nth_error st l) as [[|k es|]|] eqn:EL; try discriminate. destruct (has_code k); [|discriminate]. injection E as <- <-.
    apply (list_change l (LCodeAt l n c) ps st W F k es _ _ WO EL Logic.I); [| |reflexivity]; cbn [lstep].
    + intros E0 L0 Q HQ. rewrite E0. apply wp_bind. apply wp_bind, wp_ret. destruct n; cbn [nth_next Z.eqb]; apply wp_ret; apply wp_bind, wp_ret; apply wp_ret; exact HQ.
    + intros vs Lr F' RL EK Q HQ. apply wp_bind. eapply (wp_elem_at k _ vs Lr _ F' n); [exact RL|apply Permutation_refl| |].
      * intros LN. apply wp_bind, wp_ret. apply wp_ret. eapply HQ; [exact RL|]. intros _ ->. rewrite map_length in LN. rewrite change_none by exact LN. reflexivity.
      * intros v1 a v v2 EV LV PA RA. apply wp_bind. eapply wp_set_code_at; [exact RA|apply Permutation_refl|]. intros Lr' RL'. apply wp_ret. eapply HQ; [exact RL'|].
        intros _ ->. destruct (map_mid _ _ _ _ _ _ _ EV) as (e1 & e & e2 & -> & -> & -> & ->). rewrite map_length in LV. rewrite (change_mid _ _ _ _ _ _ LV).
        rewrite map_app. reflexivity.
  - (* LTextAt *) destruct (nth_error st l) as [[|k es|]|] eqn:EL; try discriminate.
    destruct ((j <? strings_of k)%nat && forallb (fun c => negb (c =? 0)) t && (len t + 1 <? SIZE_MOD)) eqn:EC; [|discriminate].
    apply andb_true_iff in EC. destruct EC as [EC T2]. apply andb_true_iff in EC. destruct EC as [EJ T1].
    apply Nat.ltb_lt in EJ. apply Z.ltb_lt in T2. apply plain_b in T1. injection E as <- <-.
    apply (list_change l (LTextAt l n j t) ps st W F k es _ _ WO EL Logic.I); [| |reflexivity]; cbn [lstep].
    + intros E0 L0 Q HQ. rewrite E0. apply wp_bind. apply wp_bind, wp_ret. destruct n; cbn [nth_next Z.eqb]; apply wp_ret;
        (apply wp_bind, wp_given; intros p P0; apply wp_ret; eexists; (split; [apply Permutation_refl|]); apply wp_ret; exact HQ).
    + intros vs Lr F' RL EK Q HQ. apply wp_bind. eapply (wp_elem_at k _ vs Lr _ F' n); [exact RL|apply Permutation_refl| |].
      * intros LN. apply wp_bind, wp_given. intros p P0. apply wp_ret. eexists. split; [apply Permutation_refl|]. apply wp_ret.
        eapply HQ; [exact RL|]. intros _ ->. rewrite map_length in LN. rewrite change_none by exact LN. reflexivity.
      * intros v1 a v v2 EV LV PA RA. apply wp_bind, wp_given. intros p P0. rewrite map_app. cbn [map].
        eapply (wp_set_text_at room k _ v1 a v v2 Lr j p t _ ((p, BBytes (map Some t ++ [Some 0])) :: F')); [exact RA| |exact EJ|left; reflexivity|exact T1|exact T2|].
        { perm. }
        intros o' Lr' RL' FU. exists (Lr' ++ F'). split; [perm|]. apply wp_ret. eapply HQ; [exact RL'|].
        intros FL ->. destruct (map_mid _ _ _ _ _ _ _ EV) as (e1 & e & e2 & -> & -> & -> & ->). rewrite map_length in LV. rewrite (change_mid _ _ _ _ _ _ LV).
        rewrite map_app. cbn [map]. rewrite (FU FL (exact_there e)). f_equal. f_equal. unfold exact. cbn [fst snd]. rewrite put_map. reflexivity.
  - (* LDeleteAt *) destruct (nth_error st l) as [[|k es|]|] eqn:EL; try discriminate. injection E as <- <-.
    apply (list_change l (LDeleteAt l n) ps st W F k es _ _ WO EL Logic.I); [| |reflexivity]; cbn [lstep].
    + intros E0 L0 Q HQ. rewrite E0. apply wp_bind. apply wp_bind, wp_ret. destruct n; cbn [nth_next Z.eqb]; apply wp_ret; apply wp_bind, wp_delete_null; apply wp_ret; exact HQ.
    + intros vs Lr F' RL EK Q HQ. rewrite EK. apply wp_bind. eapply (wp_elem_at k _ vs Lr _ F' n); [exact RL|apply Permutation_refl| |].
      * intros LN. apply wp_bind, wp_delete_null. apply wp_ret. eapply HQ; [exact RL|]. intros _ ->. rewrite map_length in LN. rewrite drop_none by exact LN. reflexivity.
      * intros v1 a v v2 EV LV PA RA. apply wp_bind. eapply wp_delete_at; [exact RA|apply Permutation_refl|]. intros Lr' RL'. apply wp_ret. eapply HQ; [exact RL'|].
        intros _ ->. destruct (map_mid _ _ _ _ _ _ _ EV) as (e1 & e & e2 & -> & -> & -> & ->). rewrite map_length in LV. rewrite (drop_mid _ _ _ _ _ LV).
        rewrite map_app. reflexivity.
Qed.
End Room.
