(* The heap as a list of blocks, and what malloc, free and accesses do to it. *)
From Coq Require Import ZArith List Bool Lia Permutation.
From Verif Require Import CSem P_Base M_Mem.
Import ListNotations.
Open Scope Z_scope.

Definition heaplet : Type := list (Z * blk).

(* [h] has exactly the blocks of [L] *)
Definition heap_is (h : heap) (L : heaplet) : Prop :=
  0 < h_next h /\ NoDup (map fst L) /\ (forall a, In a (map fst L) -> 0 < a < h_next h)
  /\ (forall a b, h_mem h a = Some b <-> In (a, b) L).

Lemma heap_perm : forall h L L', heap_is h L -> Permutation L L' -> heap_is h L'.
Proof.
  intros h L L' (H0 & H1 & H2 & H3) P.
  assert (PM : Permutation (map fst L) (map fst L')) by (apply Permutation_map; exact P).
  split; [exact H0|]. split; [eapply Permutation_NoDup; eauto|]. split.
  - intros a I. apply H2. eapply Permutation_in; [apply Permutation_sym; exact PM|exact I].
  - intros a b. rewrite H3. split; intro I.
    + eapply Permutation_in; [exact P|exact I].
    + eapply Permutation_in; [apply Permutation_sym; exact P|exact I].
Qed.

Lemma heap_empty : heap_is empty_heap [].
Proof. split; [cbn; lia|]. split; [constructor|]. split; [intros a []|]. intros a b. cbn. split; [discriminate|intros []]. Qed.

Lemma heap_in : forall h L a b, heap_is h L -> In (a, b) L -> h_mem h a = Some b /\ 0 < a < h_next h.
Proof.
  intros h L a b (H0 & H1 & H2 & H3) I. split; [apply H3; exact I|].
  apply H2. change a with (fst (a, b)). apply in_map. exact I.
Qed.

Lemma load_is : forall h L a b, heap_is h L -> In (a, b) L -> load a h = Ok (b, h).
Proof.
  intros h L a b H I. destruct (heap_in h L a b H I) as [E R]. unfold load.
  rewrite (proj2 (Z.eqb_neq a 0)) by lia. rewrite E. reflexivity.
Qed.

Lemma store_is : forall h L a b b', heap_is h ((a, b) :: L) ->
  exists h', store a b' h = Ok (tt, h') /\ heap_is h' ((a, b') :: L).
Proof.
  intros h L a b b' H. destruct (heap_in h _ a b H (or_introl eq_refl)) as [E R].
  unfold store. rewrite (proj2 (Z.eqb_neq a 0)) by lia. rewrite E. eexists. split; [reflexivity|].
  destruct H as (H0 & H1 & H2 & H3). split; [exact H0|]. split; [exact H1|]. split; [exact H2|].
  intros x c. cbn [h_mem hupd]. cbn [map fst] in H1. apply NoDup_cons_iff in H1. destruct H1 as [N1 N2].
  destruct (Z.eqb_spec x a) as [->|N].
  - split.
    + intro X. injection X as <-. left. reflexivity.
    + intros [X|X]; [injection X as <-; reflexivity|]. exfalso. apply N1. change a with (fst (a, c)). apply in_map. exact X.
  - rewrite H3. split; intros [X|X]; try (injection X as <- <-; contradiction); right; exact X.
Qed.

Lemma free_is : forall h L a b, heap_is h ((a, b) :: L) -> exists h', mfree a h = Ok (tt, h') /\ heap_is h' L.
Proof.
  intros h L a b H. destruct (heap_in h _ a b H (or_introl eq_refl)) as [E R].
  unfold mfree. rewrite (proj2 (Z.eqb_neq a 0)) by lia. rewrite E. eexists. split; [reflexivity|].
  destruct H as (H0 & H1 & H2 & H3). cbn [map fst] in H1. apply NoDup_cons_iff in H1. destruct H1 as [N1 N2].
  split; [exact H0|]. split; [exact N2|]. split; [intros x I; apply H2; right; exact I|].
  intros x c. cbn [h_mem hupd]. destruct (Z.eqb_spec x a) as [->|N].
  - split; [discriminate|]. intro X. exfalso. apply N1. change a with (fst (a, c)). apply in_map. exact X.
  - rewrite H3. split; [intros [X|X]; [injection X as <- <-; contradiction|exact X]|intro X; right; exact X].
Qed.

Lemma malloc_is : forall room h L b, (forall n, room n = true) -> heap_is h L ->
  exists h', malloc room b h = Ok (h_next h, h') /\ heap_is h' ((h_next h, b (h_next h)) :: L) /\ 0 < h_next h.
Proof.
  intros room h L b R (H0 & H1 & H2 & H3). unfold malloc. rewrite R. eexists. split; [reflexivity|].
  split; [|exact H0]. split; [cbn [h_next]; lia|]. split.
  - cbn [map fst]. constructor; [|exact H1]. intro I. specialize (H2 _ I). lia.
  - split.
    + intros a [<-|I]; cbn [h_next fst]; [lia|]. specialize (H2 _ I). lia.
    + intros a c. cbn [h_mem]. destruct (Z.eqb_spec a (h_next h)) as [->|N].
      * split; [intro X; injection X as <-; left; reflexivity|]. intros [X|X]; [injection X as <-; reflexivity|].
        exfalso. assert (I : In (h_next h) (map fst L)) by (change (h_next h) with (fst (h_next h, c)); apply in_map; exact X).
        specialize (H2 _ I). lia.
      * rewrite H3. split; [intro X; right; exact X|intros [X|X]; [injection X as X _; congruence|exact X]].
Qed.

(* ---- permutations ---- *)

Lemma pf_here : forall A (x : A) l, Permutation (x :: l) (x :: l).
Proof. intros. apply Permutation_refl. Qed.
Lemma pf_cons : forall A (x y : A) l l', Permutation l (x :: l') -> Permutation (y :: l) (x :: y :: l').
Proof. intros. eapply perm_trans; [apply perm_skip; eassumption|apply perm_swap]. Qed.
Lemma pf_app_r : forall A (x : A) a b b', Permutation b (x :: b') -> Permutation (a ++ b) (x :: a ++ b').
Proof. intros. eapply perm_trans; [apply Permutation_app_head; eassumption|]. apply Permutation_sym, Permutation_middle. Qed.
Lemma pf_app_l : forall A (x : A) a a' b, Permutation a (x :: a') -> Permutation (a ++ b) (x :: a' ++ b).
Proof. intros. change (x :: a' ++ b) with ((x :: a') ++ b). apply Permutation_app_tail. assumption. Qed.

Lemma pc_here : forall A (c : list A) l, Permutation (c ++ l) (c ++ l).
Proof. intros. apply Permutation_refl. Qed.
Lemma pc_whole : forall A (c : list A), Permutation c (c ++ []).
Proof. intros. rewrite app_nil_r. apply Permutation_refl. Qed.
Lemma pc_cons : forall A (c : list A) y l l', Permutation l (c ++ l') -> Permutation (y :: l) (c ++ y :: l').
Proof. intros. eapply perm_trans; [apply perm_skip; eassumption|apply Permutation_middle]. Qed.
Lemma pc_app_r : forall A (c a b b' : list A), Permutation b (c ++ b') -> Permutation (a ++ b) (c ++ a ++ b').
Proof.
  intros. eapply perm_trans; [apply Permutation_app_head; eassumption|].
  rewrite !app_assoc. apply Permutation_app_tail, Permutation_app_comm.
Qed.
Lemma pc_app_l : forall A (c a a' b : list A), Permutation a (c ++ a') -> Permutation (a ++ b) (c ++ a' ++ b).
Proof. intros. rewrite app_assoc. apply Permutation_app_tail. assumption. Qed.

Ltac find_x := first [ apply pf_here | eapply pf_cons; find_x | eapply pf_app_l; find_x | eapply pf_app_r; find_x ].
Ltac find_c := first [ apply pc_here | apply pc_whole | eapply pc_cons; find_c | eapply pc_app_l; find_c | eapply pc_app_r; find_c ].
Ltac perm :=
  cbn [app]; rewrite ?app_nil_r; rewrite <- ?app_assoc; cbn [app];
  lazymatch goal with
  | |- Permutation ?a ?a => apply Permutation_refl
  | |- Permutation (?x :: ?l) ?r =>
      eapply perm_trans; [apply perm_skip | apply Permutation_sym; find_x]; perm
  | |- Permutation (?c ++ ?l) ?r =>
      eapply perm_trans; [apply Permutation_app_head | apply Permutation_sym; find_c]; perm
  | |- Permutation ?c ?r =>
      eapply perm_trans; [| apply Permutation_sym; find_c]; rewrite ?app_nil_r; apply Permutation_refl
  end.

Example perm_works : forall (x y z : Z) a b c, Permutation (x :: a ++ y :: b ++ c ++ [z]) (c ++ z :: (b ++ [y]) ++ x :: a).
Proof. intros. perm. Qed.

(* ---- what a computation does to the blocks ---- *)

Definition wp {A : Type} (c : mm A) (L : heaplet) (Q : A -> heaplet -> Prop) : Prop :=
  forall h, heap_is h L -> exists a h' L', c h = Ok (a, h') /\ heap_is h' L' /\ Q a L'.

Lemma wp_ret : forall A (a : A) L (Q : A -> heaplet -> Prop), Q a L -> wp (ret a) L Q.
Proof. intros A a L Q H h I. exists a, h, L. auto. Qed.
Lemma wp_bind : forall A B (c : mm A) (f : A -> mm B) L Q,
  wp c L (fun a L' => wp (f a) L' Q) -> wp (mbind c f) L Q.
Proof.
  intros A B c f L Q H h I. destruct (H h I) as (a & h' & L' & E & I' & W).
  destruct (W h' I') as (b & h2 & L2 & E2 & I2 & W2). exists b, h2, L2.
  unfold mbind. rewrite E. auto.
Qed.
Lemma wp_perm : forall A (c : mm A) L L' Q, Permutation L L' -> wp c L' Q -> wp c L Q.
Proof. intros A c L L' Q P H h I. apply H. eapply heap_perm; eauto. Qed.
Lemma wp_conseq : forall A (c : mm A) L (Q Q' : A -> heaplet -> Prop),
  wp c L Q -> (forall a L', Q a L' -> Q' a L') -> wp c L Q'.
Proof. intros A c L Q Q' H I h J. destruct (H h J) as (a & h' & L' & E & I' & W). exists a, h', L'. auto. Qed.
Lemma wp_pos : forall A (c : mm A) L Q a b, In (a, b) L -> (0 < a -> wp c L Q) -> wp c L Q.
Proof. intros A c L Q a b I H h J. apply H; [|exact J]. apply (heap_in h L a b J I). Qed.
Lemma wp_nodup : forall A (c : mm A) L Q, (NoDup (map fst L) -> wp c L Q) -> wp c L Q.
Proof. intros A c L Q H h J. apply H; [|exact J]. apply J. Qed.
Lemma wp_load : forall a b L (Q : _ -> heaplet -> Prop), In (a, b) L -> Q b L -> wp (load a) L Q.
Proof. intros a b L Q I H h J. exists b, h, L. split; [eapply load_is; eauto|auto]. Qed.
Lemma wp_store : forall a b b' L L' (Q : _ -> heaplet -> Prop), Permutation L ((a, b) :: L') -> Q tt ((a, b') :: L') -> wp (store a b') L Q.
Proof.
  intros a b b' L L' Q P H h J. destruct (store_is h L' a b b' (heap_perm _ _ _ J P)) as (h' & E & I).
  exists tt, h', ((a, b') :: L'). auto.
Qed.
Lemma wp_free : forall a b L L' (Q : _ -> heaplet -> Prop), Permutation L ((a, b) :: L') -> Q tt L' -> wp (mfree a) L Q.
Proof.
  intros a b L L' Q P H h J. destruct (free_is h L' a b (heap_perm _ _ _ J P)) as (h' & E & I).
  exists tt, h', L'. auto.
Qed.
Lemma wp_malloc : forall room b L (Q : Z -> heaplet -> Prop), (forall n, room n = true) ->
  (forall a, 0 < a -> ~ In a (map fst L) -> Q a ((a, b a) :: L)) -> wp (malloc room b) L Q.
Proof.
  intros room b L Q R H h J. destruct (malloc_is room h L b R J) as (h' & E & I & P).
  exists (h_next h), h', ((h_next h, b (h_next h)) :: L). split; [exact E|]. split; [exact I|].
  apply H; [exact P|]. intro X. destruct J as (_ & _ & J & _). specialize (J _ X). lia.
Qed.
Lemma wp_lift : forall A (x : res A) a L (Q : A -> heaplet -> Prop), x = Ok a -> Q a L -> wp (lift x) L Q.
Proof. intros A x a L Q E H h J. exists a, h, L. unfold lift. rewrite E. auto. Qed.

(* the blocks may be listed in another order *)
Lemma wp_post : forall A (c : mm A) L (Q : A -> heaplet -> Prop),
  wp c L (fun a L' => exists L2, Permutation L' L2 /\ Q a L2) -> wp c L Q.
Proof.
  intros A c L Q H h J. destruct (H h J) as (a & h' & L' & E & I & L2 & P & W).
  exists a, h', L2. split; [exact E|]. split; [eapply heap_perm; eauto|exact W].
Qed.

Ltac inl := first [ eassumption | left; reflexivity | right; inl | apply in_or_app; first [ left; inl | right; inl ] ].
Lemma pos_nz : forall a, 0 < a -> (a =? 0) = false.
Proof. intros a H. apply Z.eqb_neq. lia. Qed.
(* [a] is not NULL: it is in the heap *)
Ltac nz a := eapply (wp_pos _ _ _ _ a); [inl | let H := fresh "P" in intro H];
  rewrite ?(pos_nz a) by assumption.

Lemma wp_load_bytes : forall a l L (Q : _ -> heaplet -> Prop), In (a, BBytes l) L -> Q l L -> wp (load_bytes a) L Q.
Proof. intros a l L Q I H. apply wp_bind. eapply wp_load; [exact I|]. apply wp_ret. exact H. Qed.
Lemma wp_load_ptrs : forall a l L (Q : _ -> heaplet -> Prop), In (a, BPtrs l) L -> Q l L -> wp (load_ptrs a) L Q.
Proof. intros a l L Q I H. apply wp_bind. eapply wp_load; [exact I|]. apply wp_ret. exact H. Qed.
Lemma wp_load_prop : forall a l L (Q : _ -> heaplet -> Prop), In (a, BProp l) L -> Q l L -> wp (load_prop a) L Q.
Proof. intros a l L Q I H. apply wp_bind. eapply wp_load; [exact I|]. apply wp_ret. exact H. Qed.
Lemma wp_load_msg : forall a l L (Q : _ -> heaplet -> Prop), In (a, BMsg l) L -> Q l L -> wp (load_msg a) L Q.
Proof. intros a l L Q I H. apply wp_bind. eapply wp_load; [exact I|]. apply wp_ret. exact H. Qed.
Lemma wp_load_str : forall a l L (Q : _ -> heaplet -> Prop), In (a, BStr l) L -> Q l L -> wp (load_str a) L Q.
Proof. intros a l L Q I H. apply wp_bind. eapply wp_load; [exact I|]. apply wp_ret. exact H. Qed.
Lemma wp_load_pkt : forall a l L (Q : _ -> heaplet -> Prop), In (a, BPkt l) L -> Q l L -> wp (load_pkt a) L Q.
Proof. intros a l L Q I H. apply wp_bind. eapply wp_load; [exact I|]. apply wp_ret. exact H. Qed.
Lemma wp_ptr_at : forall a i l p L (Q : _ -> heaplet -> Prop), In (a, BPtrs l) L -> rd l i = Ok (Some p) -> Q p L -> wp (ptr_at a i) L Q.
Proof.
  intros a i l p L Q I E H. apply wp_bind. eapply wp_load_ptrs; [exact I|].
  apply wp_bind. eapply wp_lift; [exact E|]. apply wp_ret. exact H.
Qed.
Lemma wp_peek : forall a i l c L (Q : _ -> heaplet -> Prop), In (a, BBytes l) L -> rd l i = Ok (Some c) -> Q c L -> wp (peek a i) L Q.
Proof.
  intros a i l p L Q I E H. apply wp_bind. eapply wp_load_bytes; [exact I|].
  apply wp_bind. eapply wp_lift; [exact E|]. apply wp_ret. exact H.
Qed.
Lemma wp_poke : forall a i c l l' L L' (Q : unit -> heaplet -> Prop), Permutation L ((a, BBytes l) :: L') ->
  wr l i (Some c) = Ok l' -> Q tt ((a, BBytes l') :: L') -> wp (poke a i c) L Q.
Proof.
  intros a i c l l' L L' Q P E H. eapply wp_perm; [exact P|]. apply wp_bind. eapply wp_load_bytes; [inl|].
  apply wp_bind. eapply wp_lift; [exact E|]. eapply wp_store; [apply Permutation_refl|exact H].
Qed.
(* memcpy of [n] bytes, all of them initialised *)
Lemma wp_copy_bytes : forall a i src j n s c l l' L L' (Q : unit -> heaplet -> Prop),
  Permutation L ((a, BBytes l) :: L') -> In (src, BBytes s) L' -> 0 < n ->
  rd_range s j n = Ok c -> wr_range l i c = Ok l' ->
  Q tt ((a, BBytes l') :: L') -> wp (copy_bytes a i src j n) L Q.
Proof.
  intros a i src j n s c l l' L L' Q P I N E1 E2 H. eapply wp_perm; [exact P|]. unfold copy_bytes.
  rewrite (proj2 (Z.eqb_neq n 0)) by lia.
  apply wp_bind. eapply wp_load_bytes; [right; exact I|].
  apply wp_bind. eapply wp_lift; [exact E1|].
  apply wp_bind. eapply wp_load_bytes; [left; reflexivity|].
  apply wp_bind. eapply wp_lift; [exact E2|]. eapply wp_store; [apply Permutation_refl|exact H].
Qed.
