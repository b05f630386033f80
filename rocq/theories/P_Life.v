(* Small things in memory when requests for memory may fail. *)
From Coq Require Import ZArith List Bool Lia Permutation.
From Verif Require Import CSem P_Base M_Const M_String M_Mem M_MemUse M_ObjMem M_Life Spec_Life P_Mem P_MemProp P_MemPkt P_Ring.
Import ListNotations.
Open Scope Z_scope.

(* a string object: missing, without a value, or with a text *)
Definition tval : Type := option (option (list Z)).
Definition wtext (s : Z) (o : tval) (L : heaplet) : Prop :=
  match o with
  | None => s = 0 /\ L = []
  | Some None => exists m n, L = [(s, BStr (mkCstring 0 m n))]
  | Some (Some t) => str_rep s (Some t) L
  end.
Inductive texts : list Z -> list tval -> heaplet -> Prop :=
| texts_nil : texts [] [] []
| texts_cons : forall s o Ls ss os L, wtext s o Ls -> texts ss os L -> texts (s :: ss) (o :: os) (Ls ++ L).
Definition seen_text (o : tval) : option (list Z) := match o with Some x => x | None => None end.

Definition aelem : Type := (Z * list tval)%type.
Definition ebody (k : kind) (a : Z) (b : blk) (v : aelem) (L : heaplet) : Prop :=
  exists p n ss, b = BElem p n (fst v) ss /\ texts ss (snd v) L /\ length (snd v) = strings_of k.
Definition exact (e : elem) : aelem := (fst e, map Some (snd e)).
Definition shown_elem (v : aelem) : elem := (fst v, map seen_text (snd v)).

(* what is read of [v] is what [e] says, or nothing *)
Definition holds (o : tval) (x : option (list Z)) : Prop := o = Some x \/ seen_text o = None.
Definition within (v : aelem) (e : elem) : Prop := fst v = fst e /\ Forall2 holds (snd v) (snd e).

Lemma shown_exact : forall e, shown_elem (exact e) = e.
Proof. intros [c l]. unfold shown_elem, exact. cbn [fst snd]. rewrite map_map, map_id. reflexivity. Qed.
Lemma seen_some : forall l, map seen_text (map Some l) = l.
Proof. intro l. rewrite map_map. apply map_id. Qed.
Lemma texts_length : forall ss os L, texts ss os L -> length ss = length os.
Proof. intros ss os L H. induction H; cbn; congruence. Qed.
Lemma texts_split : forall ss os L j, texts ss os L -> (j < length os)%nat ->
  exists o Lj R, nth_error os j = Some o /\ wtext (nth j ss 0) o Lj /\ Permutation L (Lj ++ R)
   /\ forall o' L', wtext (nth j ss 0) o' L' -> exists L2, texts ss (put_at j o' os) L2 /\ Permutation (L' ++ R) L2.
Proof.
  intros ss os L j H. revert j. induction H as [|s o Ls ss os L W H IH]; intros j J; [cbn in J; lia|].
  destruct j as [|j].
  - exists o, Ls, L. cbn [nth_error nth put_at]. split; [reflexivity|]. split; [exact W|]. split; [apply Permutation_refl|].
    intros o' L' W'. exists (L' ++ L). split; [constructor; assumption|apply Permutation_refl].
  - cbn [length] in J. destruct (IH j) as (o1 & Lj & R & E & W1 & P & G); [lia|].
    exists o1, Lj, (Ls ++ R). cbn [nth_error nth put_at]. split; [exact E|]. split; [exact W1|]. split.
    + eapply perm_trans; [apply Permutation_app_head; exact P|]. perm.
    + intros o' L' W'. destruct (G o' L' W') as (L2 & T & P2). exists (Ls ++ L2). split; [constructor; assumption|].
      eapply perm_trans; [|apply Permutation_app_head; exact P2]. perm.
Qed.
Lemma put_len : forall A (l : list A) i x, length (put_at i x l) = length l.
Proof. intros A l. induction l as [|y l IH]; intros [|i] x; cbn; auto. Qed.
Lemma put_map : forall A B (f : A -> B) l i x, map f (put_at i x l) = put_at i (f x) (map f l).
Proof. intros A B f l. induction l as [|y l IH]; intros [|i] x; cbn; [reflexivity..|]. rewrite IH. reflexivity. Qed.
Lemma put_put : forall A (l : list A) i x y, put_at i x (put_at i y l) = put_at i x l.
Proof. intros A l. induction l as [|z l IH]; intros [|i] x y; cbn; [reflexivity..|]. rewrite IH. reflexivity. Qed.
Lemma put_same : forall A (l : list A) i x, nth_error l i = Some x -> put_at i x l = l.
Proof. intros A l. induction l as [|z l IH]; intros [|i] x E; cbn in *; try discriminate; [congruence|]. rewrite IH by exact E. reflexivity. Qed.
Lemma put_swap : forall A (l : list A) i j x y, i <> j -> put_at i x (put_at j y l) = put_at j y (put_at i x l).
Proof.
  intros A l. induction l as [|z l IH]; intros [|i] [|j] x y N; cbn; try reflexivity; [congruence|].
  rewrite IH by congruence. reflexivity.
Qed.
Lemma nth_put : forall A (l : list A) i x, (i < length l)%nat -> nth_error (put_at i x l) i = Some x.
Proof. intros A l. induction l as [|z l IH]; intros [|i] x E; cbn in *; try lia; [reflexivity|]. apply IH. lia. Qed.
Lemma nth_put_other : forall A (l : list A) i j x, i <> j -> nth_error (put_at i x l) j = nth_error l j.
Proof. intros A l. induction l as [|z l IH]; intros [|i] [|j] x N; cbn; try reflexivity; [congruence|]. apply IH. congruence. Qed.
Lemma nth_lt : forall A (l : list A) i x, nth_error l i = Some x -> (i < length l)%nat.
Proof. intros A l i x E. apply nth_error_Some. rewrite E. discriminate. Qed.

Lemma wp_load_elem : forall a p n c ss L (Q : _ -> heaplet -> Prop), In (a, BElem p n c ss) L -> Q (c, ss) L -> wp (load_elem a) L Q.
Proof. intros a p n c ss L Q I H. apply wp_bind. eapply wp_load; [exact I|]. apply wp_ret. exact H. Qed.
Lemma wp_load_rec : forall a l L (Q : _ -> heaplet -> Prop), In (a, BRec l) L -> Q l L -> wp (load_rec a) L Q.
Proof. intros a l L Q I H. apply wp_bind. eapply wp_load; [exact I|]. apply wp_ret. exact H. Qed.

(* ---- strings ---- *)

Lemma wp_wtext_clear : forall s m Ls L F (Q : unit -> heaplet -> Prop), wtext s (Some m) Ls -> Permutation L (Ls ++ F) ->
  (forall x y, 0 < s -> Q tt ((s, BStr (mkCstring 0 x y)) :: F)) -> wp (uecho_string_clear s) L Q.
Proof.
  intros s [t|] Ls L F Q W P H; cbn [wtext] in W.
  - destruct (str_rep_in _ _ _ W) as [c I]. eapply (wp_pos _ _ _ _ s); [eapply Permutation_in; [apply Permutation_sym; exact P|]; apply in_or_app; left; exact I|].
    intro PS. eapply wp_string_clear; [exact W|exact P|]. apply H. exact PS.
  - destruct W as (x & y & ->). eapply wp_perm; [exact P|]. cbn [app]. unfold uecho_string_clear. nz s.
    apply wp_bind. eapply wp_load_str; [inl|]. cbn [t_value Z.eqb]. apply wp_ret. apply H. assumption.
Qed.
Lemma wp_wtext_delete : forall s o Ls L F (Q : unit -> heaplet -> Prop), wtext s o Ls -> Permutation L (Ls ++ F) ->
  Q tt F -> wp (uecho_string_delete s) L Q.
Proof.
  intros s [m|] Ls L F Q W P H.
  - assert (I : exists c, In (s, BStr c) Ls).
    { destruct m as [t|]; cbn [wtext] in W; [apply (str_rep_in _ _ _ W)|]. destruct W as (x & y & ->). eexists. left. reflexivity. }
    destruct I as [c I]. unfold uecho_string_delete.
    eapply (wp_pos _ _ _ _ s); [eapply Permutation_in; [apply Permutation_sym; exact P|]; apply in_or_app; left; exact I|intro PS].
    rewrite (pos_nz s) by exact PS. apply wp_bind. eapply wp_wtext_clear; [exact W|exact P|]. intros x y _.
    eapply wp_free; [apply Permutation_refl|exact H].
  - destruct W as [-> ->]. eapply wp_perm; [exact P|]. cbn [app]. unfold uecho_string_delete. cbn [Z.eqb]. apply wp_ret. exact H.
Qed.
Lemma wp_wtext_get : forall s o Ls L (Q : Z -> heaplet -> Prop), wtext s o Ls -> incl Ls L ->
  match seen_text o with
  | None => Q 0 L
  | Some t => forall v, In (v, BBytes (map Some t ++ [Some 0])) L -> plain t -> Q v L
  end -> wp (uecho_string_getvalue s) L Q.
Proof.
  intros s [[t|]|] Ls L Q W I H; cbn [seen_text wtext] in *.
  - eapply wp_string_getvalue; [exact W|exact I|]. cbn beta iota. intros v V. destruct W as [W _]. apply H; [apply I; exact V|exact W].
  - destruct W as (x & y & ->). unfold uecho_string_getvalue. assert (J : In (s, BStr (mkCstring 0 x y)) L) by (apply I; left; reflexivity).
    nz s. apply wp_bind. eapply wp_load_str; [exact J|]. apply wp_ret. exact H.
  - destruct W as [-> ->]. unfold uecho_string_getvalue. cbn [Z.eqb]. apply wp_ret. exact H.
Qed.
Lemma wp_read_text_seen : forall s o Ls L (Q : _ -> heaplet -> Prop), wtext s o Ls -> incl Ls L -> Q (seen_text o) L ->
  wp (let! p := uecho_string_getvalue s in read_text p) L Q.
Proof.
  intros s o Ls L Q W I H. apply wp_bind. eapply wp_wtext_get; [exact W|exact I|].
  destruct (seen_text o) as [t|].
  - intros v V PT. unfold read_text. nz v. apply wp_bind. unfold text_at. apply wp_bind. eapply wp_load_bytes; [exact V|].
    eapply wp_lift; [apply cells_text_plain; exact PT|]. apply wp_ret. exact H.
  - unfold read_text. cbn [Z.eqb]. apply wp_ret. exact H.
Qed.

Section Room.
Variable room : Z -> bool.
(* every request is granted *)
Definition full : Prop := forall n, room n = true.

Lemma wp_malloc_any : forall b L (Q : Z -> heaplet -> Prop),
  (forall a, 0 < a -> Q a ((a, b a) :: L)) -> (~ full -> Q 0 L) -> wp (malloc room b) L Q.
Proof.
  intros b L Q H1 H0 h J. unfold malloc. destruct (room (h_next h)) eqn:E.
  - destruct (malloc_is (fun _ => true) h L b (fun _ => eq_refl) J) as (h' & EM & J' & P). unfold malloc in EM. injection EM as EM.
    do 3 eexists. split; [reflexivity|]. rewrite EM. split; [exact J'|]. apply H1. exact P.
  - do 3 eexists. split; [reflexivity|]. split; [|apply H0; intro F; rewrite F in E; discriminate].
    destruct J as (J0 & J1 & J2 & J3). split; [cbn [h_next]; lia|]. split; [exact J1|]. split; [|exact J3].
    intros a I. cbn [h_next]. specialize (J2 a I). lia.
Qed.

Lemma wp_string_new_any : forall L (Q : Z -> heaplet -> Prop),
  (forall s o Ls, wtext s o Ls -> (full -> o = Some None) -> (o = None <-> s = 0) -> seen_text o = None -> Q s (Ls ++ L)) -> wp (uecho_string_new room) L Q.
Proof.
  intros L Q H. unfold uecho_string_new. apply wp_malloc_any.
  - intros a P. apply (H a (Some None) [(a, BStr (mkCstring 0 0 0))]); [exists 0, 0; reflexivity|reflexivity| |].
    + split; [discriminate|lia].
    + reflexivity.
  - intros N. apply (H 0 None []); [split; reflexivity|intro F; contradiction|tauto|reflexivity].
Qed.

Lemma wp_wtext_set : forall s o Ls value t L F (Q : unit -> heaplet -> Prop), wtext s o Ls -> Permutation L (Ls ++ F) ->
  In (value, BBytes (map Some t ++ [Some 0])) F -> plain t -> len t + 1 < SIZE_MOD ->
  (forall o' Ls', wtext s o' Ls' -> (full -> o <> None -> o' = Some (Some t)) -> holds o' (Some t) -> Q tt (Ls' ++ F)) ->
  wp (uecho_string_setvalue room s value) L Q.
Proof.
  intros s [m|] Ls value t L F Q W P I T1 T2 H.
  - assert (J : exists c, In (s, BStr c) Ls).
    { destruct m as [t'|]; cbn [wtext] in W; [apply (str_rep_in _ _ _ W)|]. destruct W as (x & y & ->). eexists. left. reflexivity. }
    destruct J as [c J]. eapply wp_perm; [exact P|]. unfold uecho_string_setvalue. nz s. nz value.
    apply wp_bind. unfold text_at. apply wp_bind. eapply wp_load_bytes; [inl|].
    eapply wp_lift; [apply cells_text_plain; exact T1|].
    unfold uecho_string_setnvalue. rewrite (pos_nz s) by assumption.
    apply wp_bind. eapply wp_wtext_clear; [exact W|apply Permutation_refl|]. intros x y _.
    rewrite (pos_nz value) by assumption.
    pose proof (len_nonneg _ t) as N. rewrite sz_small by lia.
    apply wp_bind. apply wp_malloc_any.
    + intros v V. apply wp_bind. eapply wp_store; [eapply pf_cons; apply pf_here|].
      rewrite (pos_nz v) by assumption. apply wp_bind.
      assert (FIN : forall L', Permutation L' ((v, BBytes (map Some t ++ [None])) :: (s, BStr (mkCstring v (len t + 1) (len t))) :: F) ->
        wp (poke v (len t) 0) L' Q).
      { intros L' P'. apply wp_post. eapply wp_poke; [exact P'| |].
        - rewrite (wr_app_cons _ (map Some t) None (Some 0) []); [reflexivity|]. rewrite len_map. reflexivity.
        - eexists. split; [|eapply (H (Some (Some t)) [(s, BStr (mkCstring v (len t + 1) (len t))); (v, BBytes (map Some t ++ [Some 0]))]);
            [cbn; split; [exact T1|]; split; [exact T2|]; exists v; reflexivity|reflexivity|left; reflexivity]].
          cbn [app]. apply perm_swap. }
      destruct (Z.eq_dec (len t) 0) as [Z0|Z0].
      * apply len_0_nil in Z0. subst t. apply wp_ret. apply FIN. apply perm_swap.
      * destruct (copy_text (fun _ => true) (fun _ => eq_refl) t T2) as [C1 C2]; [lia|].
        eapply wp_copy_bytes; [apply perm_swap|inl|lia|exact C1|exact C2|]. apply FIN. apply Permutation_refl.
    + intros NF. apply wp_bind. eapply wp_store; [apply Permutation_refl|]. cbn [Z.eqb]. apply wp_ret.
      apply (H (Some None) [(s, BStr (mkCstring 0 (len t + 1) (len t)))]); [do 2 eexists; reflexivity|intro FU; contradiction|right; reflexivity].
  - destruct W as [-> ->]. eapply wp_perm; [exact P|]. cbn [app]. unfold uecho_string_setvalue. cbn [Z.eqb]. apply wp_ret.
    apply (H None []); [split; reflexivity| |right; reflexivity]. intros _ X. congruence.
Qed.
End Room.

(* ---- elements ---- *)

(* an element in no list, at [a] *)
Definition alone (k : kind) (a : Z) (v : aelem) (L : heaplet) : Prop :=
  exists ss Lt, L = (a, BElem a a (fst v) ss) :: Lt /\ texts ss (snd v) Lt /\ length (snd v) = strings_of k.
Lemma alone_body : forall k a v L, alone k a v L -> exists b Lx, L = (a, b) :: Lx /\ flag b = Some false /\ ebody k a b v Lx.
Proof. intros k a v L (ss & Lt & -> & T & E). exists (BElem a a (fst v) ss), Lt. split; [reflexivity|]. split; [reflexivity|]. exists a, a, ss. auto. Qed.
Lemma body_alone : forall k a b v Lx, ebody k a b v Lx -> alone k a v ((a, set_links a a b) :: Lx).
Proof. intros k a b v Lx (p & n & ss & -> & T & E). exists ss, Lx. cbn [set_links]. auto. Qed.
Lemma alone_in : forall k a v L, alone k a v L -> exists ss, In (a, BElem a a (fst v) ss) L.
Proof. intros k a v L (ss & Lt & -> & _). exists ss. left. reflexivity. Qed.

Lemma texts0 : forall ss os L, texts ss os L -> length os = 0%nat -> ss = [] /\ os = [] /\ L = [].
Proof. intros ss os L T E. inversion T; subst; [auto|discriminate]. Qed.
Lemma textsS : forall ss os L n, texts ss os L -> length os = S n ->
  exists s o Ls ss' os' L', ss = s :: ss' /\ os = o :: os' /\ L = Ls ++ L' /\ wtext s o Ls /\ texts ss' os' L' /\ length os' = n.
Proof. intros ss os L n T E. inversion T as [|s o Ls ss' os' L' W T']; subst; [discriminate|]. cbn in E. do 6 eexists. repeat (split; [reflexivity|]). auto. Qed.

Lemma wtext_nz : forall s o Ls L A (c : mm A) (Q : A -> heaplet -> Prop), wtext s o Ls -> incl Ls L -> (s = 0 -> o = None -> wp c L Q) -> (0 < s -> wp c L Q) -> wp c L Q.
Proof.
  intros s [m|] Ls L A c Q W I H0 H1.
  - assert (J : exists c, In (s, BStr c) Ls).
    { destruct m as [t'|]; cbn [wtext] in W; [apply (str_rep_in _ _ _ W)|]. destruct W as (x & y & ->). eexists. left. reflexivity. }
    destruct J as [z J]. eapply (wp_pos _ _ _ _ s); [apply I; exact J|]. exact H1.
  - destruct W as [-> ->]. apply H0; reflexivity.
Qed.

Lemma wp_elem_delete : forall k a v La L F (Q : unit -> heaplet -> Prop), alone k a v La -> Permutation L (La ++ F) -> Q tt F ->
  wp (delete_of k a) L Q.
Proof.
  intros k a v La L F Q (ss & Lt & -> & T & E) P H. eapply wp_perm; [exact P|]. cbn [app]. clear P L.
  destruct k; cbn [strings_of delete_of] in *.
  - apply texts0 in T; [|exact E]. destruct T as (-> & _ & ->). unfold drop_bool, uecho_class_delete. nz a.
    apply wp_bind, wp_bind. eapply wp_remove_self; [apply Permutation_refl|reflexivity|].
    apply wp_bind. eapply wp_free; [apply Permutation_refl|]. apply wp_ret, wp_ret. exact H.
  - destruct (textsS _ _ _ _ T E) as (s & o & Ls & ss' & os' & L' & -> & EO & -> & W & T' & E'). apply texts0 in T'; [|exact E'].
    destruct T' as (-> & _ & ->). unfold drop_bool, uecho_manufacture_delete. nz a.
    apply wp_bind, wp_bind. eapply wp_remove_self; [apply Permutation_refl|reflexivity|].
    apply wp_bind. eapply wp_load_elem; [inl|]. cbn [snd nth].
    apply wp_bind. eapply (wp_wtext_delete s o Ls _ ((a, BElem a a (fst v) [s]) :: F)); [exact W|perm|].
    apply wp_bind. eapply wp_free; [apply Permutation_refl|]. apply wp_ret, wp_ret. exact H.
  - destruct (textsS _ _ _ _ T E) as (s & o & Ls & ss' & os' & L' & -> & EO & -> & W & T' & E').
    destruct (textsS _ _ _ _ T' E') as (s2 & o2 & Ls2 & ss2 & os2 & L2 & -> & -> & -> & W2 & T2 & E2). apply texts0 in T2; [|exact E2].
    destruct T2 as (-> & _ & ->). unfold drop_bool, uecho_property_enum_delete. nz a.
    apply wp_bind, wp_bind. eapply wp_load_elem; [inl|]. cbn [snd nth].
    assert (D1 : forall s o Ls L F (Q : unit -> heaplet -> Prop), wtext s o Ls -> Permutation L (Ls ++ F) -> Q tt F ->
       wp (if s =? 0 then ret tt else uecho_string_delete s) L Q).
    { clear. intros s o Ls L F Q W P H. eapply (wtext_nz s o Ls L); [exact W| | |].
      - intros x X. eapply Permutation_in; [apply Permutation_sym; exact P|]. apply in_or_app. left. exact X.
      - intros -> ->. cbn [Z.eqb]. destruct W as [_ ->]. eapply wp_perm; [exact P|]. apply wp_ret. exact H.
      - intro PS. rewrite (pos_nz s) by exact PS. eapply wp_wtext_delete; eassumption. }
    apply wp_bind. eapply (D1 s o Ls _ ((a, BElem a a (fst v) [s; s2]) :: Ls2 ++ F)); [exact W|perm|].
    apply wp_bind. eapply wp_load_elem; [inl|]. cbn [snd nth].
    apply wp_bind. eapply (D1 s2 o2 Ls2 _ ((a, BElem a a (fst v) [s; s2]) :: F)); [exact W2|perm|].
    apply wp_bind. eapply wp_remove_self; [apply Permutation_refl|reflexivity|].
    apply wp_bind. eapply wp_free; [apply Permutation_refl|]. apply wp_ret, wp_ret. exact H.
  - destruct (textsS _ _ _ _ T E) as (s & o & Ls & ss' & os' & L' & -> & EO & -> & W & T' & E').
    destruct (textsS _ _ _ _ T' E') as (s2 & o2 & Ls2 & ss2 & os2 & L2 & -> & -> & -> & W2 & T2 & E2).
    destruct (textsS _ _ _ _ T2 E2) as (s3 & o3 & Ls3 & ss3 & os3 & L3 & -> & -> & -> & W3 & T3 & E3). apply texts0 in T3; [|exact E3].
    destruct T3 as (-> & _ & ->). unfold uecho_net_interface_delete. nz a.
    apply wp_bind. eapply wp_remove_self; [apply Permutation_refl|reflexivity|].
    apply wp_bind. eapply wp_load_elem; [inl|]. cbn [snd nth].
    apply wp_bind. eapply (wp_wtext_delete s o Ls _ ((a, BElem a a (fst v) [s; s2; s3]) :: Ls2 ++ Ls3 ++ F)); [exact W|perm|].
    apply wp_bind. eapply wp_load_elem; [inl|]. cbn [snd nth].
    apply wp_bind. eapply (wp_wtext_delete s2 o2 Ls2 _ ((a, BElem a a (fst v) [s; s2; s3]) :: Ls3 ++ F)); [exact W2|perm|].
    apply wp_bind. eapply wp_load_elem; [inl|]. cbn [snd nth].
    apply wp_bind. eapply (wp_wtext_delete s3 o3 Ls3 _ ((a, BElem a a (fst v) [s; s2; s3]) :: F)); [exact W3|perm|].
    eapply wp_free; [apply Permutation_refl|exact H].
  - apply texts0 in T; [|exact E]. destruct T as (-> & _ & ->). unfold drop_bool, uecho_thread_delete. nz a.
    apply wp_bind, wp_bind. eapply wp_remove_self; [apply Permutation_refl|reflexivity|].
    apply wp_bind. eapply wp_free; [apply Permutation_refl|]. apply wp_ret, wp_ret. exact H.
Qed.
Lemma wp_delete_null : forall k L (Q : unit -> heaplet -> Prop), Q tt L -> wp (delete_of k 0) L Q.
Proof. intros k L Q H. destruct k; apply wp_ret; exact H. Qed.

Section Room.
Variable room : Z -> bool.

Lemma wp_elem_new : forall k L (Q : Z -> heaplet -> Prop),
  (forall a v La, 0 < a -> alone k a v La -> (full room -> v = exact (fresh_elem k)) -> within v (fresh_elem k) -> Q a (La ++ L)) ->
  (~ full room -> Q 0 L) -> wp (new_of room k) L Q.
Proof.
  intros k L Q H H0. destruct k; cbn [new_of].
  - apply wp_malloc_any; [|exact H0]. intros a P. apply (H a (0, []) [(a, BElem a a 0 [])]); [exact P| |reflexivity|split; [reflexivity|constructor]].
    exists [], []. split; [reflexivity|]. split; [constructor|reflexivity].
  - unfold uecho_manufacture_new. apply wp_bind, wp_malloc_any; [|intro NF0; cbn [Z.eqb]; apply wp_ret, H0; exact NF0]. intros a P. rewrite (pos_nz a) by exact P.
    apply wp_bind, wp_string_new_any. intros s o Ls W FU _ S1. apply wp_bind. eapply wp_store; [find_x|]. apply wp_post, wp_ret.
    exists (((a, BElem a a 0 [s]) :: Ls ++ []) ++ L). split; [perm|]. apply (H a (0, [o])); [exact P| | |split; [reflexivity|]; repeat (constructor; [right; assumption|]); constructor].
    + exists [s], (Ls ++ []). split; [reflexivity|]. split; [|reflexivity]. constructor; [exact W|constructor].
    + intro X. rewrite (FU X). reflexivity.
  - unfold uecho_property_enum_new. apply wp_bind, wp_malloc_any; [|intro NF0; cbn [Z.eqb]; apply wp_ret, H0; exact NF0]. intros a P. rewrite (pos_nz a) by exact P.
    apply wp_bind, wp_string_new_any. intros s o Ls W FU N1 S1. apply wp_bind, wp_string_new_any. intros s2 o2 Ls2 W2 FU2 N2 S2.
    apply wp_bind. eapply wp_store; [find_x|].
    assert (A : alone KEnum a (0, [o; o2]) ((a, BElem a a 0 [s; s2]) :: Ls ++ Ls2 ++ [])).
    { exists [s; s2], (Ls ++ Ls2 ++ []). split; [reflexivity|]. split; [|reflexivity]. constructor; [exact W|]. constructor; [exact W2|constructor]. }
    destruct ((s =? 0) || (s2 =? 0)) eqn:EZ.
    + assert (NF : ~ full room).
      { intro X. apply orb_true_iff in EZ. specialize (FU X). specialize (FU2 X). destruct EZ as [EZ|EZ]; apply Z.eqb_eq in EZ;
          [apply N1 in EZ|apply N2 in EZ]; congruence. }
      apply wp_bind.
      intros h J.
      destruct (wp_elem_delete KEnum a _ _ ((a, BElem a a 0 [s; s2]) :: Ls2 ++ Ls ++ L) L (fun _ L' => Permutation L' L) A) with (h := h) as (u & h' & L' & EX & J' & PL).
      * perm.
      * apply Permutation_refl.
      * exact J.
      * cbn [delete_of] in EX. unfold drop_bool, mbind in EX. destruct (uecho_property_enum_delete a h) as [[b h2]|] eqn:ED; [|discriminate].
        injection EX as _ <-. exists b, h2, L. split; [reflexivity|]. split; [eapply heap_perm; eassumption|]. apply wp_ret. apply H0. exact NF.
    + apply wp_post, wp_ret. exists (((a, BElem a a 0 [s; s2]) :: Ls ++ Ls2 ++ []) ++ L). split; [perm|].
      apply (H a (0, [o; o2])); [exact P|exact A| |split; [reflexivity|]; repeat (constructor; [right; assumption|]); constructor]. intro X. rewrite (FU X), (FU2 X). reflexivity.
  - unfold uecho_net_interface_new. apply wp_bind, wp_malloc_any; [|intro NF0; cbn [Z.eqb]; apply wp_ret, H0; exact NF0]. intros a P. rewrite (pos_nz a) by exact P.
    apply wp_bind, wp_string_new_any. intros s o Ls W FU _ S1. apply wp_bind, wp_string_new_any. intros s2 o2 Ls2 W2 FU2 _ S2.
    apply wp_bind, wp_string_new_any. intros s3 o3 Ls3 W3 FU3 _ S3.
    apply wp_bind. eapply wp_store; [find_x|]. apply wp_post, wp_ret.
    exists (((a, BElem a a 0 [s; s2; s3]) :: Ls ++ Ls2 ++ Ls3 ++ []) ++ L). split; [perm|]. apply (H a (0, [o; o2; o3])); [exact P| | |split; [reflexivity|]; repeat (constructor; [right; assumption|]); constructor].
    + exists [s; s2; s3], (Ls ++ Ls2 ++ Ls3 ++ []). split; [reflexivity|]. split; [|reflexivity].
      constructor; [exact W|]. constructor; [exact W2|]. constructor; [exact W3|constructor].
    + intro X. rewrite (FU X), (FU2 X), (FU3 X). reflexivity.
  - apply wp_malloc_any; [|exact H0]. intros a P. apply (H a (0, []) [(a, BElem a a 0 [])]); [exact P| |reflexivity|split; [reflexivity|constructor]].
    exists [], []. split; [reflexivity|]. split; [constructor|reflexivity].
Qed.

(* ---- members ---- *)

Lemma wp_set_text : forall k a v La j value t L F (Q : unit -> heaplet -> Prop), alone k a v La -> Permutation L (La ++ F) -> (j < strings_of k)%nat ->
  In (value, BBytes (map Some t ++ [Some 0])) F -> plain t -> len t + 1 < SIZE_MOD ->
  (forall o' La', alone k a (fst v, put_at j o' (snd v)) La' -> (full room -> Forall (fun o => o <> None) (snd v) -> o' = Some (Some t)) ->
     holds o' (Some t) -> Q tt (La' ++ F)) ->
  wp (set_text room a j value) L Q.
Proof.
  intros k a v La j value t L F Q (ss & Lt & -> & T & E) P J I T1 T2 H. eapply wp_perm; [exact P|]. cbn [app]. unfold set_text. nz a.
  apply wp_bind. eapply wp_load_elem; [inl|]. cbn [snd].
  destruct (texts_split ss (snd v) Lt j T) as (o & Lj & R & EO & W & PT & G); [lia|].
  apply wp_post. eapply (wp_wtext_set room (nth j ss 0) o Lj value t _ ((a, BElem a a (fst v) ss) :: R ++ F)); [exact W| | |exact T1|exact T2|].
  - eapply perm_trans; [apply perm_skip, Permutation_app_tail; exact PT|]. perm.
  - right. apply in_or_app. right. exact I.
  - intros o' Ls' W' FU HO. destruct (G o' Ls' W') as (L2 & T' & P2).
    exists (((a, BElem a a (fst v) ss) :: L2) ++ F). split.
    + cbn [app]. eapply perm_trans; [|apply perm_skip, Permutation_app_tail; exact P2]. perm.
    + apply (H o').
      * exists ss, L2. cbn [fst snd]. split; [reflexivity|]. split; [exact T'|]. rewrite put_len. exact E.
      * intros X FA. apply FU; [exact X|]. rewrite Forall_forall in FA. apply FA. eapply nth_error_In. exact EO.
      * exact HO.
Qed.

End Room.

(* the element at [a] can be read: alone or in a list *)
Definition readable (k : kind) (a : Z) (v : aelem) (L : heaplet) : Prop :=
  exists p n ss Lt, In (a, BElem p n (fst v) ss) L /\ texts ss (snd v) Lt /\ incl Lt L /\ length (snd v) = strings_of k.
Lemma alone_readable : forall k a v La L, alone k a v La -> incl La L -> readable k a v L.
Proof.
  intros k a v La L (ss & Lt & -> & T & E) I. exists a, a, ss, Lt. split; [apply I; left; reflexivity|]. split; [exact T|]. split; [|exact E].
  intros x X. apply I. right. exact X.
Qed.
Lemma body_readable : forall k a b v Lx p n L, ebody k a b v Lx -> In (a, set_links p n b) L -> incl Lx L -> readable k a v L.
Proof. intros k a b v Lx p n L (p0 & n0 & ss & -> & T & E) I J. exists p, n, ss, Lx. auto. Qed.

Lemma wp_get_code : forall k a v L (Q : Z -> heaplet -> Prop), readable k a v L -> Q (fst v) L -> wp (get_code a) L Q.
Proof.
  intros k a v L Q (p & n & ss & Lt & I & _) H. unfold get_code. nz a. apply wp_bind. eapply wp_load_elem; [exact I|]. apply wp_ret. exact H.
Qed.
Lemma wp_get_text : forall k a v j L (Q : _ -> heaplet -> Prop), readable k a v L -> (j < strings_of k)%nat ->
  Q (seen_text (nth j (snd v) None)) L -> wp (let! p := get_text a j in read_text p) L Q.
Proof.
  intros k a v j L Q (p & n & ss & Lt & I & T & IL & E) J H. unfold get_text.
  destruct (texts_split ss (snd v) Lt j T) as (o & Lj & R & EO & W & PT & _); [lia|].
  replace (nth j (snd v) None) with o in H by (symmetry; apply nth_error_nth; exact EO). nz a.
  intros h HI. assert (X : wp (let! q := uecho_string_getvalue (nth j ss 0) in read_text q) L Q).
  { eapply wp_read_text_seen; [exact W| |exact H]. intros x X. apply IL. eapply Permutation_in; [apply Permutation_sym; exact PT|].
    apply in_or_app. left. exact X. }
  destruct (X h HI) as (r & h' & L' & EX & J' & QQ). exists r, h', L'. split; [|split; assumption].
  unfold mbind in *. unfold load_elem, mbind. rewrite (load_is h L a _ HI I). cbn [ret snd]. exact EX.
Qed.
Lemma wp_read_texts : forall k a v L n j (Q : _ -> heaplet -> Prop), readable k a v L -> (j + n = strings_of k)%nat ->
  Q (map seen_text (skipn j (snd v))) L -> wp (read_texts a j n) L Q.
Proof.
  intros k a v L n. induction n as [|n IH]; intros j Q R E H; cbn [read_texts].
  - assert (EL : length (snd v) = strings_of k) by (destruct R as (? & ? & ? & ? & _ & _ & _ & R); exact R).
    rewrite skipn_all2 in H by lia. apply wp_ret. exact H.
  - assert (EL : length (snd v) = strings_of k) by (destruct R as (? & ? & ? & ? & _ & _ & _ & R); exact R).
    assert (W : wp (let! t := (let! p := get_text a j in read_text p) in let! r := read_texts a (S j) n in ret (t :: r)) L Q).
    { apply wp_bind. eapply wp_get_text; [exact R|lia|]. apply wp_bind. eapply IH; [exact R|lia|]. apply wp_ret.
      replace (seen_text (nth j (snd v) None) :: map seen_text (skipn (S j) (snd v))) with (map seen_text (skipn j (snd v))); [exact H|].
      clear - E EL. assert (J : (j < length (snd v))%nat) by lia. revert J. generalize (snd v). clear.
      induction j as [|j IH]; intros [|x l] J; cbn [length] in J; try lia; [reflexivity|]. cbn [skipn nth]. apply IH. lia. }
    intros h J. destruct (W h J) as (r & h' & L' & EX & J' & QQ). exists r, h', L'. split; [|auto].
    unfold mbind in *. destruct (get_text a j h) as [[q h1]|]; [exact EX|exact EX].
Qed.
