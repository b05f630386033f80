(* The linked lists of util/list.c refine the sequences of Spec_List. *)
From Coq Require Import ZArith List Bool Lia Permutation.
From Verif Require Import CSem M_List Spec_List.
Import ListNotations.
Open Scope Z_scope.

Definition fh (h : heap) (a : Z) : option bool := option_map l_head (h a).
Definition nf (h : heap) (a : Z) : option Z := option_map l_next (h a).
Definition pf (h : heap) (a : Z) : option Z := option_map l_prev (h a).

(* ---- reading and writing ---- *)
Lemma get_next_ok : forall h a v, a <> 0 -> nf h a = Some v -> get_next h a = Ok v.
Proof.
  intros h a v Ha H. unfold get_next, deref. apply Z.eqb_neq in Ha. rewrite Ha. unfold nf in H.
  destruct (h a); [|discriminate]. cbn in *. congruence.
Qed.
Lemma get_prev_ok : forall h a v, a <> 0 -> pf h a = Some v -> get_prev h a = Ok v.
Proof.
  intros h a v Ha H. unfold get_prev, deref. apply Z.eqb_neq in Ha. rewrite Ha. unfold pf in H.
  destruct (h a); [|discriminate]. cbn in *. congruence.
Qed.
Lemma get_head_ok : forall h a v, a <> 0 -> fh h a = Some v -> get_head h a = Ok v.
Proof.
  intros h a v Ha H. unfold get_head, deref. apply Z.eqb_neq in Ha. rewrite Ha. unfold fh in H.
  destruct (h a); [|discriminate]. cbn in *. congruence.
Qed.

Lemma set_next_ok : forall h a v, a <> 0 -> fh h a <> None ->
  exists h', set_next h a v = Ok h' /\ (forall x, fh h' x = fh h x) /\ (forall x, pf h' x = pf h x)
    /\ (forall x, nf h' x = if x =? a then Some v else nf h x).
Proof.
  intros h a v Ha H. unfold set_next, deref, fh, nf, pf in *. apply Z.eqb_neq in Ha. rewrite Ha.
  destruct (h a) as [c|] eqn:E; [|contradiction]. cbn [bind]. eexists. split; [reflexivity|].
  split; [|split]; intros x; unfold upd; destruct (Z.eqb_spec x a) as [->|]; try reflexivity; rewrite E; reflexivity.
Qed.
Lemma set_prev_ok : forall h a v, a <> 0 -> fh h a <> None ->
  exists h', set_prev h a v = Ok h' /\ (forall x, fh h' x = fh h x) /\ (forall x, nf h' x = nf h x)
    /\ (forall x, pf h' x = if x =? a then Some v else pf h x).
Proof.
  intros h a v Ha H. unfold set_prev, deref, fh, nf, pf in *. apply Z.eqb_neq in Ha. rewrite Ha.
  destruct (h a) as [c|] eqn:E; [|contradiction]. cbn [bind]. eexists. split; [reflexivity|].
  split; [|split]; intros x; unfold upd; destruct (Z.eqb_spec x a) as [->|]; try reflexivity; rewrite E; reflexivity.
Qed.

(* ---- links ---- *)
Fixpoint pairs (l : list Z) : list (Z * Z) :=
  match l with
  | x :: (y :: _) as r => match r with y :: _ => (x, y) :: pairs r | [] => [] end
  | _ => []
  end.

Lemma pairs_cons : forall x y l, pairs (x :: y :: l) = (x, y) :: pairs (y :: l).
Proof. reflexivity. Qed.

Lemma pairs_app : forall a x b, pairs (a ++ x :: b) = pairs (a ++ [x]) ++ pairs (x :: b).
Proof.
  induction a as [|y a IH]; intros x b; [reflexivity|].
  destruct a as [|z a]; [reflexivity|]. change ((y :: z :: a) ++ x :: b) with (y :: z :: (a ++ x :: b)).
  change ((y :: z :: a) ++ [x]) with (y :: z :: (a ++ [x])). rewrite !pairs_cons. cbn [app]. f_equal. apply (IH x b).
Qed.

Lemma pairs_fst : forall l z, map fst (pairs (l ++ [z])) = l.
Proof.
  induction l as [|x l IH]; intros z; [reflexivity|]. destruct l as [|y l]; [reflexivity|].
  change ((x :: y :: l) ++ [z]) with (x :: y :: (l ++ [z])). rewrite pairs_cons. cbn [map fst]. f_equal. apply (IH z).
Qed.
Lemma pairs_snd : forall l x, map snd (pairs (x :: l)) = l.
Proof.
  induction l as [|y l IH]; intros x; [reflexivity|]. rewrite pairs_cons. cbn [map snd]. f_equal. apply IH.
Qed.

Definition slinks (e : Z * list Z) : list (Z * Z) := pairs (ring e ++ [fst e]).
Definition links (w : lists) : list (Z * Z) := flat_map slinks (seqs w) ++ map (fun x => (x, x)) (loose w).

Lemma links_fst : forall w, map fst (links w) = used w.
Proof.
  intros [s l]. unfold links, used. cbn [seqs loose]. rewrite map_app, map_map. cbn [fst]. rewrite map_id. f_equal.
  induction s as [|e s IH]; [reflexivity|]. cbn [flat_map]. rewrite map_app, IH. f_equal. unfold slinks. apply pairs_fst.
Qed.
Lemma links_snd : forall w, Permutation (map snd (links w)) (used w).
Proof.
  intros [s l]. unfold links, used. cbn [seqs loose]. rewrite map_app, map_map. cbn [snd]. rewrite map_id.
  apply Permutation_app_tail. induction s as [|[a r] s IH]; [constructor|]. cbn [flat_map]. rewrite map_app.
  apply Permutation_app; [|exact IH]. unfold slinks, ring. cbn [fst snd app]. rewrite pairs_snd.
  apply Permutation_sym, (Permutation_cons_append r a).
Qed.

Lemma nodup_fst : forall (l : list (Z * Z)) a b c, NoDup (map fst l) -> In (a, b) l -> In (a, c) l -> b = c.
Proof.
  induction l as [|[x y] l IH]; intros a b c N; cbn [map In] in *; [tauto|]. inversion N as [|? ? N1 N2]; subst.
  intros [E|I] [F|J].
  - congruence.
  - injection E as -> ->. exfalso. apply N1. apply (in_map fst) in J. exact J.
  - injection F as -> ->. exfalso. apply N1. apply (in_map fst) in I. exact I.
  - eapply IH; eauto.
Qed.
Lemma nodup_snd : forall (l : list (Z * Z)) a b c, NoDup (map snd l) -> In (b, a) l -> In (c, a) l -> b = c.
Proof.
  induction l as [|[x y] l IH]; intros a b c N; cbn [map In] in *; [tauto|]. inversion N as [|? ? N1 N2]; subst.
  intros [E|I] [F|J].
  - congruence.
  - injection E as -> ->. exfalso. apply N1. apply (in_map snd) in J. exact J.
  - injection F as -> ->. exfalso. apply N1. apply (in_map snd) in I. exact I.
  - eapply IH; eauto.
Qed.

Definition inb (a : Z) (l : list Z) : bool := existsb (Z.eqb a) l.
Lemma inb_iff : forall a l, inb a l = true <-> In a l.
Proof.
  intros a l. unfold inb. rewrite existsb_exists. split; [intros (x & I & E); apply Z.eqb_eq in E; congruence|].
  intros I. exists a. split; [exact I|apply Z.eqb_refl].
Qed.

Record rep (h : heap) (w : lists) : Prop := mkRep {
  rep_nodup : NoDup (used w);
  rep_null : ~ In 0 (used w);
  rep_flag : forall a, fh h a = if inb a (used w) then Some (inb a (headers w)) else None;
  rep_link : forall a b, In (a, b) (links w) -> nf h a = Some b /\ pf h b = Some a
}.

Lemma used_link : forall w a, In a (used w) -> exists b, In (a, b) (links w).
Proof.
  intros w a I. rewrite <- links_fst in I. apply in_map_iff in I. destruct I as ([x b] & E & I). cbn in E. subst. eauto.
Qed.
Lemma used_link_to : forall w a, In a (used w) -> exists b, In (b, a) (links w).
Proof.
  intros w a I. apply (Permutation_in _ (Permutation_sym (links_snd w))) in I. apply in_map_iff in I.
  destruct I as ([b x] & E & I). cbn in E. subst. eauto.
Qed.
Lemma link_used : forall w a b, In (a, b) (links w) -> In a (used w) /\ In b (used w).
Proof.
  intros w a b I. split; [rewrite <- links_fst; apply (in_map fst) in I; exact I|].
  apply (Permutation_in _ (links_snd w)). apply (in_map snd) in I. exact I.
Qed.

Section Rep.
Variable h : heap.
Variable w : lists.
Hypothesis R : rep h w.

Lemma rep_alive : forall a, In a (used w) -> a <> 0 /\ fh h a = Some (inb a (headers w)).
Proof.
  intros a I. split; [intros ->; exact (rep_null _ _ R I)|]. rewrite (rep_flag _ _ R). apply inb_iff in I. rewrite I. reflexivity.
Qed.
Lemma link_fun : forall a b c, In (a, b) (links w) -> In (a, c) (links w) -> b = c.
Proof. intros a b c. apply nodup_fst. rewrite links_fst. apply R. Qed.
Lemma link_inj : forall a b c, In (b, a) (links w) -> In (c, a) (links w) -> b = c.
Proof.
  intros a b c. apply nodup_snd. apply (Permutation_NoDup (Permutation_sym (links_snd w))). apply R.
Qed.
Lemma loose_link : forall x, In x (loose w) -> In (x, x) (links w) /\ In x (used w).
Proof.
  intros x I. split; [unfold links|unfold used]; apply in_or_app; right; [|exact I]. apply in_map_iff. eauto.
Qed.

(* x, in no list, is put between p and q *)
Lemma insert_rep : forall p q x w', In (p, q) (links w) -> p <> x -> In x (loose w) ->
  Permutation (used w') (used w) -> headers w' = headers w ->
  (forall a b, In (a, b) (links w') -> (In (a, b) (links w) /\ a <> p /\ a <> x) \/ (a, b) = (p, x) \/ (a, b) = (x, q)) ->
  exists h', uecho_list_insert h p x = Ok (h', true) /\ rep h' w'.
Proof.
  intros p q x w' L Px Ix Hu Hh Hl.
  destruct (loose_link x Ix) as [Lx Ux]. destruct (link_used _ _ _ L) as [Up Uq].
  destruct (rep_alive p Up) as [Np Fp]. destruct (rep_alive q Uq) as [Nq Fq]. destruct (rep_alive x Ux) as [Nx Fx].
  assert (Qx : q <> x) by (intros ->; apply Px; exact (link_inj x p x L Lx)).
  unfold uecho_list_insert. rewrite (proj2 (Z.eqb_neq p 0) Np), (proj2 (Z.eqb_neq x 0) Nx). cbn [orb].
  destruct (rep_link _ _ R _ _ L) as [L1 L2]. destruct (rep_link _ _ R _ _ Lx) as [X1 X2].
  destruct (set_prev_ok h x p Nx) as (h1 & E1 & F1 & N1 & P1); [congruence|]. rewrite E1. cbn [bind].
  rewrite (get_next_ok h1 p q Np) by (rewrite N1; exact L1). cbn [bind].
  destruct (set_next_ok h1 x q Nx) as (h2 & E2 & F2 & P2 & N2); [rewrite F1; congruence|]. rewrite E2. cbn [bind].
  rewrite (get_next_ok h2 p q Np) by (rewrite N2, (proj2 (Z.eqb_neq p x) Px), N1; exact L1). cbn [bind].
  destruct (set_prev_ok h2 q x Nq) as (h3 & E3 & F3 & N3 & P3); [rewrite F2, F1; congruence|]. rewrite E3. cbn [bind].
  destruct (set_next_ok h3 p x Np) as (h4 & E4 & F4 & P4 & N4); [rewrite F3, F2, F1; congruence|]. rewrite E4. cbn [bind].
  exists h4. split; [reflexivity|]. constructor.
  - apply (Permutation_NoDup (Permutation_sym Hu)). apply R.
  - intros I. apply (rep_null _ _ R). apply (Permutation_in _ Hu). exact I.
  - intros a. rewrite F4, F3, F2, F1, (rep_flag _ _ R), Hh.
    replace (inb a (used w')) with (inb a (used w)); [reflexivity|]. apply eq_true_iff_eq. rewrite !inb_iff.
    split; apply Permutation_in; [apply Permutation_sym|]; exact Hu.
  - intros a b I. rewrite N4, P4, N3, P3, N2, P2, N1, P1. destruct (Hl a b I) as [(J & A1 & A2)|[J|J]].
    + rewrite (proj2 (Z.eqb_neq a p) A1), (proj2 (Z.eqb_neq a x) A2).
      assert (B1 : b <> q) by (intros ->; apply A1; exact (link_inj q a p J L)).
      assert (B2 : b <> x) by (intros ->; apply A2; exact (link_inj x a x J Lx)).
      rewrite (proj2 (Z.eqb_neq b q) B1), (proj2 (Z.eqb_neq b x) B2). apply (rep_link _ _ R). exact J.
    + injection J as -> ->. rewrite !Z.eqb_refl. rewrite (proj2 (Z.eqb_neq x q) (not_eq_sym Qx)). auto.
    + injection J as -> ->. rewrite !Z.eqb_refl. rewrite (proj2 (Z.eqb_neq x p) (not_eq_sym Px)). auto.
Qed.

(* x is taken out from between p and q *)
Lemma remove_rep : forall p q x w', In (p, x) (links w) -> In (x, q) (links w) ->
  Permutation (used w') (used w) -> headers w' = headers w ->
  (forall a b, In (a, b) (links w') -> (In (a, b) (links w) /\ a <> p /\ a <> x) \/ ((a, b) = (p, q) /\ p <> x) \/ (a, b) = (x, x)) ->
  exists h', uecho_list_remove h x = Ok (h', true) /\ rep h' w'.
Proof.
  intros p q x w' Lp Lq Hu Hh Hl.
  destruct (link_used _ _ _ Lp) as [Up Ux]. destruct (link_used _ _ _ Lq) as [_ Uq].
  destruct (rep_alive p Up) as [Np Fp]. destruct (rep_alive q Uq) as [Nq Fq]. destruct (rep_alive x Ux) as [Nx Fx].
  destruct (rep_link _ _ R _ _ Lp) as [L1 L2]. destruct (rep_link _ _ R _ _ Lq) as [X1 X2].
  unfold uecho_list_remove. rewrite (proj2 (Z.eqb_neq x 0) Nx).
  rewrite (get_prev_ok h x p Nx L2), (get_next_ok h x q Nx X1). cbn [bind].
  rewrite (proj2 (Z.eqb_neq p 0) Np), (proj2 (Z.eqb_neq q 0) Nq). cbn [orb].
  destruct (set_next_ok h p q Np) as (h1 & E1 & F1 & P1 & N1); [congruence|]. rewrite E1. cbn [bind].
  assert (Eq : nf h1 x = Some q) by (rewrite N1; destruct (x =? p); [reflexivity|exact X1]).
  rewrite (get_next_ok h1 x q Nx Eq), (get_prev_ok h1 x p Nx) by (rewrite P1; exact L2). cbn [bind].
  destruct (set_prev_ok h1 q p Nq) as (h2 & E2 & F2 & N2 & P2); [rewrite F1; congruence|]. rewrite E2. cbn [bind].
  destruct (set_next_ok h2 x x Nx) as (h3 & E3 & F3 & P3 & N3); [rewrite F2, F1; congruence|]. rewrite E3. cbn [bind].
  destruct (set_prev_ok h3 x x Nx) as (h4 & E4 & F4 & N4 & P4); [rewrite F3, F2, F1; congruence|]. rewrite E4. cbn [bind].
  exists h4. split; [reflexivity|]. constructor.
  - apply (Permutation_NoDup (Permutation_sym Hu)). apply R.
  - intros I. apply (rep_null _ _ R). apply (Permutation_in _ Hu). exact I.
  - intros a. rewrite F4, F3, F2, F1, (rep_flag _ _ R), Hh.
    replace (inb a (used w')) with (inb a (used w)); [reflexivity|]. apply eq_true_iff_eq. rewrite !inb_iff.
    split; apply Permutation_in; [apply Permutation_sym|]; exact Hu.
  - intros a b I. rewrite N4, P4, N3, P3, N2, P2, N1, P1. destruct (Hl a b I) as [(J & A1 & A2)|[[J A]|J]].
    + rewrite (proj2 (Z.eqb_neq a p) A1), (proj2 (Z.eqb_neq a x) A2).
      assert (B1 : b <> q) by (intros ->; apply A2; exact (link_inj q a x J Lq)).
      assert (B2 : b <> x) by (intros ->; apply A1; exact (link_inj x a p J Lp)).
      rewrite (proj2 (Z.eqb_neq b q) B1), (proj2 (Z.eqb_neq b x) B2). apply (rep_link _ _ R). exact J.
    + injection J as -> ->. rewrite !Z.eqb_refl. rewrite (proj2 (Z.eqb_neq p x) A).
      assert (B : q <> x) by (intros ->; apply A; exact (link_inj x p x Lp Lq)).
      rewrite (proj2 (Z.eqb_neq q x) B). auto.
    + injection J as -> ->. rewrite !Z.eqb_refl. auto.
Qed.
End Rep.

(* ---- the sequences ---- *)
Lemma NoDup_app_remove_l : forall (A : Type) (l l' : list A), NoDup (l ++ l') -> NoDup l'.
Proof. induction l as [|x l IH]; intros l' N; [exact N|]. inversion N; auto. Qed.
Lemma NoDup_app_remove_r : forall (A : Type) (l l' : list A), NoDup (l ++ l') -> NoDup l.
Proof.
  induction l as [|x l IH]; intros l' N; [constructor|]. inversion N as [|? ? N1 N2]; subst. constructor; [|eauto].
  intros I. apply N1. apply in_or_app. auto.
Qed.

Lemma used_app : forall s1 s2 l, used (mkLists (s1 ++ s2) l) = flat_map ring s1 ++ flat_map ring s2 ++ l.
Proof. intros. unfold used. cbn [seqs loose]. rewrite flat_map_app, app_assoc. reflexivity. Qed.

Lemma headers_split : forall s1 a l s2 w, seqs w = s1 ++ (a, l) :: s2 -> headers w = map fst s1 ++ a :: map fst s2.
Proof. intros s1 a l s2 w E. unfold headers. rewrite E, map_app. reflexivity. Qed.

Lemma ring_links : forall a l A' p q B', a :: l ++ [a] = A' ++ p :: q :: B' ->
  slinks (a, l) = pairs (A' ++ [p]) ++ (p, q) :: pairs (q :: B').
Proof.
  intros a l A' p q B' E. unfold slinks, ring. cbn [fst snd app]. rewrite E, pairs_app, pairs_cons. reflexivity.
Qed.

Lemma ring_nodup : forall s1 a l s2 L, NoDup (used (mkLists (s1 ++ (a, l) :: s2) L)) -> NoDup (a :: l).
Proof.
  intros s1 a l s2 L N. rewrite used_app in N. apply NoDup_app_remove_l in N. cbn [flat_map] in N. rewrite <- app_assoc in N.
  apply NoDup_app_remove_r in N. exact N.
Qed.

Lemma nodup_app_disj : forall (A : Type) (l1 l2 : list A), NoDup (l1 ++ l2) -> forall x, In x l1 -> In x l2 -> False.
Proof.
  induction l1 as [|y l1 IH]; intros l2 N x H1 H2; [destruct H1|]. cbn [app] in N. inversion N as [|? ? N1 N2]; subst.
  destruct H1 as [->|H1]; [apply N1; apply in_or_app; auto|eapply IH; eauto].
Qed.

Lemma links_in : forall s1 e s2 L a b, In (a, b) (links (mkLists (s1 ++ e :: s2) L)) <->
  In (a, b) (slinks e) \/ In (a, b) (flat_map slinks s1) \/ In (a, b) (flat_map slinks s2) \/ (a = b /\ In a L).
Proof.
  intros. unfold links. cbn [seqs loose]. rewrite flat_map_app. cbn [flat_map]. rewrite !in_app_iff.
  assert (X : In (a, b) (map (fun x => (x, x)) L) <-> a = b /\ In a L).
  { rewrite in_map_iff. split; [intros (x & E & I); injection E as <- <-; auto|intros [-> I]; eauto]. }
  tauto.
Qed.
Lemma flat_links_fst : forall s a b, In (a, b) (flat_map slinks s) -> In a (flat_map ring s).
Proof.
  intros s a b I. apply in_flat_map in I. destruct I as (e & I & J). apply in_flat_map. exists e. split; [exact I|].
  apply (in_map fst) in J. unfold slinks in J. rewrite pairs_fst in J. exact J.
Qed.

Section Moved.
Variables (s1 s2 : list (Z * list Z)) (a : Z) (A B L1 L2 : list Z) (x : Z).
Let w := mkLists (s1 ++ (a, A ++ B) :: s2) (L1 ++ x :: L2).
Let w' := mkLists (s1 ++ (a, A ++ x :: B) :: s2) (L1 ++ L2).

Lemma moved_used : Permutation (used w') (used w).
Proof.
  unfold w, w'. rewrite !used_app. apply Permutation_app_head. cbn [flat_map ring fst snd app]. apply perm_skip.
  rewrite <- !app_assoc. apply Permutation_app_head. cbn [app].
  assert (E : forall (m : list Z), x :: B ++ m ++ L1 ++ L2 = (x :: B ++ m ++ L1) ++ L2) by (intros; cbn; rewrite <- !app_assoc; reflexivity).
  rewrite !E. replace (B ++ flat_map ring s2 ++ L1 ++ x :: L2) with ((B ++ flat_map ring s2 ++ L1) ++ x :: L2)
    by (rewrite <- !app_assoc; reflexivity). apply (Permutation_middle (B ++ flat_map ring s2 ++ L1) L2 x).
Qed.

Lemma moved_headers : headers w' = headers w.
Proof. unfold w, w', headers. cbn [seqs]. rewrite !map_app. reflexivity. Qed.

Variables (A' B' : list Z) (p q : Z).
Hypothesis Ea : a :: A = A' ++ [p].
Hypothesis Eb : B ++ [a] = q :: B'.

Lemma path_without : a :: (A ++ B) ++ [a] = A' ++ p :: q :: B'.
Proof.
  rewrite <- app_assoc, Eb. change (a :: A ++ q :: B') with ((a :: A) ++ q :: B'). rewrite Ea, <- app_assoc. reflexivity.
Qed.
Lemma path_with : a :: (A ++ x :: B) ++ [a] = A' ++ p :: x :: q :: B'.
Proof.
  rewrite <- app_assoc. cbn [app]. rewrite Eb. change (a :: A ++ x :: q :: B') with ((a :: A) ++ x :: q :: B').
  rewrite Ea, <- app_assoc. reflexivity.
Qed.

Lemma link_without : In (p, q) (links w).
Proof.
  unfold w. apply links_in. left. rewrite (ring_links _ _ _ _ _ _ path_without). apply in_or_app. right. left. reflexivity.
Qed.
Lemma link_with : In (p, x) (links w') /\ In (x, q) (links w').
Proof.
  unfold w'. split; apply links_in; left; rewrite (ring_links _ _ _ _ _ _ path_with), pairs_cons; apply in_or_app; right;
    [left; reflexivity|right; left; reflexivity].
Qed.

Hypothesis N : NoDup (used w).
Lemma p_not_x : p <> x.
Proof.
  intros E. unfold w in N. rewrite used_app in N. apply NoDup_app_remove_l in N. cbn [flat_map] in N. rewrite <- app_assoc in N.
  apply (nodup_app_disj _ _ _ N x).
  - unfold ring. cbn [fst snd]. change (a :: A ++ B) with ((a :: A) ++ B). rewrite Ea, <- E. apply in_or_app. left. apply in_or_app. right. left. reflexivity.
  - apply in_or_app. right. apply in_or_app. right. left. reflexivity.
Qed.

(* links of one state and of the other *)
Lemma links_with : forall u v, In (u, v) (links w') ->
  (In (u, v) (links w) /\ u <> p /\ u <> x) \/ (u, v) = (p, x) \/ (u, v) = (x, q).
Proof.
  intros u v I. destruct link_with as [I1 I2].
  assert (N' : NoDup (map fst (links w'))) by (rewrite links_fst; apply (Permutation_NoDup (Permutation_sym moved_used) N)).
  destruct (Z.eq_dec u p) as [->|P1]; [right; left; f_equal; exact (nodup_fst _ _ _ _ N' I I1)|].
  destruct (Z.eq_dec u x) as [->|P2]; [right; right; f_equal; exact (nodup_fst _ _ _ _ N' I I2)|].
  left. split; [|auto]. unfold w', w in *. apply links_in in I. apply links_in.
  rewrite (ring_links _ _ _ _ _ _ path_with), pairs_cons in I. rewrite (ring_links _ _ _ _ _ _ path_without).
  rewrite in_app_iff in *. cbn [In] in *.
  destruct I as [[I|[I|[I|I]]]|[I|[I|[I J]]]]; try (injection I as -> ->; contradiction); try tauto.
  right. right. right. split; [exact I|]. apply in_app_iff in J. apply in_or_app. cbn. tauto.
Qed.
Lemma links_without : forall u v, In (u, v) (links w) ->
  (In (u, v) (links w') /\ u <> p /\ u <> x) \/ ((u, v) = (p, q) /\ p <> x) \/ (u, v) = (x, x).
Proof.
  intros u v I. pose proof link_without as I1. pose proof p_not_x as Hpx.
  assert (I2 : In (x, x) (links w)).
  { unfold w. apply links_in. right. right. right. split; [reflexivity|]. apply in_or_app. right. left. reflexivity. }
  assert (N' : NoDup (map fst (links w))) by (rewrite links_fst; exact N).
  destruct (Z.eq_dec u p) as [->|P1]; [right; left; split; [f_equal; exact (nodup_fst _ _ _ _ N' I I1)|exact Hpx]|].
  destruct (Z.eq_dec u x) as [->|P2]; [right; right; f_equal; exact (nodup_fst _ _ _ _ N' I I2)|].
  left. split; [|auto]. unfold w', w in *. apply links_in in I. apply links_in.
  rewrite (ring_links _ _ _ _ _ _ path_without) in I. rewrite (ring_links _ _ _ _ _ _ path_with), pairs_cons.
  rewrite in_app_iff in *. cbn [In] in *.
  destruct I as [[I|[I|I]]|[I|[I|[I J]]]]; try (injection I as -> ->; contradiction); try tauto.
  right. right. right. split; [exact I|]. apply in_app_iff in J. cbn in J. apply in_or_app. destruct J as [J|[J|J]]; auto. congruence.
Qed.
End Moved.

(* every path has a last element before a given place, and a first one after it *)
Lemma last_of : forall (a : Z) A, exists A' p, a :: A = A' ++ [p].
Proof. intros a A. destruct (@exists_last Z (a :: A)) as (A' & p & E); [discriminate|]. eauto. Qed.
Lemma first_of : forall (B : list Z) a, exists q B', B ++ [a] = q :: B'.
Proof. intros [|b B] a; cbn [app]; eauto. Qed.

Lemma nodup_perm : forall w w', Permutation (used w') (used w) -> NoDup (used w) -> NoDup (used w').
Proof. intros w w' P N. apply (Permutation_NoDup (Permutation_sym P) N). Qed.

Lemma seq_split : forall w h l, has w h l -> exists s1 s2, seqs w = s1 ++ (h, l) :: s2.
Proof. intros w h l H. apply in_split in H. exact H. Qed.
Lemma header_has : forall w h, In h (headers w) -> exists l, has w h l.
Proof. intros w h I. apply in_map_iff in I. destruct I as ([x l] & E & I). cbn in E. subst. eexists. exact I. Qed.

Lemma headers_nodup : forall w, NoDup (used w) -> NoDup (headers w).
Proof.
  intros [s l] N. unfold used in N. cbn [seqs loose] in N. apply NoDup_app_remove_r in N. unfold headers. cbn [seqs].
  induction s as [|[a r] s IH]; [constructor|]. cbn [flat_map ring fst snd map app] in *. inversion N as [|? ? N1 N2]; subst. constructor.
  - intros I. apply N1. apply in_or_app. right. apply in_map_iff in I. destruct I as (e & E & I). apply in_flat_map. exists e.
    split; [exact I|]. left. exact E.
  - apply IH. apply NoDup_app_remove_l in N2. exact N2.
Qed.

Lemma put_seq_id : forall h f s, ~ In h (map fst s) -> put_seq h f s = s.
Proof.
  intros h f s. induction s as [|e s IH]; intros H; [reflexivity|]. cbn [put_seq map] in *.
  destruct (Z.eqb_spec (fst e) h) as [E|E]; [exfalso; apply H; left; exact E|]. f_equal. apply IH. intros X. apply H. right. exact X.
Qed.
Lemma put_seq_split : forall h f s1 l s2, NoDup (map fst (s1 ++ (h, l) :: s2)) ->
  put_seq h f (s1 ++ (h, l) :: s2) = s1 ++ (h, f l) :: s2.
Proof.
  intros h f s1 l s2 N. rewrite map_app in N. cbn [map fst] in N. apply NoDup_remove in N. destruct N as [_ N].
  unfold put_seq. rewrite map_app. cbn [map fst snd]. rewrite Z.eqb_refl.
  fold (put_seq h f s1). fold (put_seq h f s2). rewrite !put_seq_id; [reflexivity| |]; intros X; apply N; apply in_or_app; auto.
Qed.

Lemma drop_id : forall x l, ~ In x l -> drop x l = l.
Proof.
  intros x l. induction l as [|y l IH]; intros H; [reflexivity|]. cbn [drop filter] in *. fold (drop x l).
  destruct (Z.eqb_spec y x) as [E|E]; [exfalso; apply H; left; exact E|]. cbn [negb]. f_equal. apply IH. intros X. apply H. right. exact X.
Qed.
Lemma drop_split : forall x l1 l2, NoDup (l1 ++ x :: l2) -> drop x (l1 ++ x :: l2) = l1 ++ l2.
Proof.
  intros x l1 l2 N. apply NoDup_remove in N. destruct N as [_ N]. unfold drop. rewrite filter_app. cbn [filter]. rewrite Z.eqb_refl. cbn [negb].
  fold (drop x l1). fold (drop x l2). rewrite !drop_id; [reflexivity| |]; intros X; apply N; apply in_or_app; auto.
Qed.

Lemma after_id : forall p x l, ~ In p l -> after p x l = l.
Proof.
  intros p x l. induction l as [|y l IH]; intros H; [reflexivity|]. cbn [after].
  destruct (Z.eqb_spec y p) as [E|E]; [exfalso; apply H; left; exact E|]. f_equal. apply IH. intros X. apply H. right. exact X.
Qed.
Lemma after_split : forall p x l1 l2, ~ In p l1 -> after p x (l1 ++ p :: l2) = l1 ++ p :: x :: l2.
Proof.
  intros p x l1 l2. induction l1 as [|y l IH]; intros H; cbn [after app]; [rewrite Z.eqb_refl; reflexivity|].
  destruct (Z.eqb_spec y p) as [E|E]; [exfalso; apply H; left; exact E|]. f_equal. apply IH. intros X. apply H. right. exact X.
Qed.

Lemma loose_nodup : forall w, NoDup (used w) -> NoDup (loose w).
Proof. intros w N. unfold used in N. apply NoDup_app_remove_l in N. exact N. Qed.

(* ---- the operations ---- *)
Lemma add_ok : forall h w hd x, rep h w -> In hd (headers w) -> In x (loose w) ->
  exists h', uecho_list_add h hd x = Ok (h', true) /\ rep h' (lstep w (LAdd hd x)).
Proof.
  intros h w hd x R Ih Ix. pose proof (rep_nodup _ _ R) as N.
  destruct (header_has _ _ Ih) as (l & Hl). destruct (seq_split _ _ _ Hl) as (s1 & s2 & Es).
  destruct (in_split _ _ Ix) as (L1 & L2 & El).
  destruct (last_of hd l) as (A' & p & Ea).
  assert (Ew : w = mkLists (s1 ++ (hd, l ++ []) :: s2) (L1 ++ x :: L2)) by (destruct w; cbn in *; rewrite app_nil_r; congruence).
  cbn [lstep]. rewrite Es, El. rewrite put_seq_split, drop_split; cycle 1.
  { rewrite <- El. apply loose_nodup. exact N. } { rewrite <- Es. apply headers_nodup. exact N. }
  set (w' := mkLists (s1 ++ (hd, l ++ x :: []) :: s2) (L1 ++ L2)).
  assert (Lk : In (p, hd) (links w)) by (rewrite Ew; apply link_without with (A' := A') (B' := []); [exact Ea|reflexivity]).
  destruct (link_used _ _ _ Lk) as [_ Uh]. destruct (rep_alive _ _ R _ Uh) as [Nh _].
  destruct (link_used _ _ _ Lk) as [Up _]. destruct (rep_alive _ _ R _ Up) as [Np _].
  destruct (loose_link w x Ix) as [_ Ux]. destruct (rep_alive _ _ R _ Ux) as [Nx _].
  rewrite Ew in N.
  destruct (insert_rep h w R p hd x w' Lk) as (h' & E & R').
  - eapply p_not_x; [exact Ea|exact N].
  - exact Ix.
  - rewrite Ew. apply moved_used.
  - rewrite Ew. apply moved_headers.
  - intros u v I. rewrite Ew. eapply links_with; [exact Ea|reflexivity|exact N|exact I].
  - exists h'. split; [|exact R']. unfold uecho_list_add. rewrite (proj2 (Z.eqb_neq hd 0) Nh), (proj2 (Z.eqb_neq x 0) Nx). cbn [orb].
    rewrite (get_prev_ok h hd p Nh) by apply (rep_link _ _ R _ _ Lk). cbn [bind]. rewrite (proj2 (Z.eqb_neq p 0) Np), E. reflexivity.
Qed.

Lemma element_has : forall w p, In p (elements w) -> exists hd A B, has w hd (A ++ p :: B).
Proof.
  intros w p I. apply in_flat_map in I. destruct I as ([hd l] & I & J). cbn [snd] in J. apply in_split in J. destruct J as (A & B & ->).
  exists hd, A, B. exact I.
Qed.

Lemma others : forall s1 a l s2 L p, NoDup (used (mkLists (s1 ++ (a, l) :: s2) L)) -> In p (a :: l) ->
  forall e, In e (s1 ++ s2) -> fst e <> p /\ ~ In p (snd e).
Proof.
  intros s1 a l s2 L p N Ip e Ie. rewrite used_app in N. cbn [flat_map] in N.
  assert (X : In p (ring e) -> False).
  { intros X. apply in_app_or in Ie. destruct Ie as [Ie|Ie].
    - apply (nodup_app_disj _ _ _ N p); [apply in_flat_map; eauto|]. apply in_or_app. left. apply in_or_app. left. exact Ip.
    - apply NoDup_app_remove_l in N. rewrite <- app_assoc in N. apply (nodup_app_disj _ _ _ N p); [exact Ip|].
      apply in_or_app. left. apply in_flat_map. eauto. }
  split; intros Y; apply X; [left; exact Y|right; exact Y].
Qed.

Lemma insert_seqs : forall s1 a l s2 L p x l', NoDup (used (mkLists (s1 ++ (a, l) :: s2) L)) -> In p (a :: l) ->
  (if a =? p then x :: l else after p x l) = l' ->
  map (fun e : Z * list Z => (fst e, if fst e =? p then x :: snd e else after p x (snd e))) (s1 ++ (a, l) :: s2) = s1 ++ (a, l') :: s2.
Proof.
  intros s1 a l s2 L p x l' N Ip E. rewrite map_app. cbn [map fst snd]. rewrite E.
  assert (Same : forall s, (forall e, In e s -> In e (s1 ++ s2)) ->
    map (fun e : Z * list Z => (fst e, if fst e =? p then x :: snd e else after p x (snd e))) s = s).
  { intros s Hs. rewrite <- (map_id s) at 2. apply map_ext_in. intros [u v] Ie. cbn [fst snd].
    destruct (others _ _ _ _ _ _ N Ip _ (Hs _ Ie)) as [O1 O2]. cbn [fst snd] in *.
    rewrite (proj2 (Z.eqb_neq u p) O1), after_id by exact O2. reflexivity. }
  rewrite !Same; [reflexivity| |]; intros e I; apply in_or_app; auto.
Qed.

Lemma insert_ok : forall h w p x, rep h w -> In p (headers w) \/ In p (elements w) -> In x (loose w) ->
  exists h', uecho_list_insert h p x = Ok (h', true) /\ rep h' (lstep w (LInsert p x)).
Proof.
  intros h w p x R Ip Ix. pose proof (rep_nodup _ _ R) as N.
  destruct (in_split _ _ Ix) as (L1 & L2 & El).
  assert (X : exists s1 hd A B s2 A', seqs w = s1 ++ (hd, A ++ B) :: s2 /\ hd :: A = A' ++ [p]
    /\ (if hd =? p then x :: A ++ B else after p x (A ++ B)) = A ++ x :: B).
  { destruct Ip as [Ip|Ip].
    - destruct (header_has _ _ Ip) as (l & Hl). destruct (seq_split _ _ _ Hl) as (s1 & s2 & Es).
      exists s1, p, [], l, s2, []. split; [exact Es|]. split; [reflexivity|]. rewrite Z.eqb_refl. reflexivity.
    - destruct (element_has _ _ Ip) as (hd & A & B & Hl). destruct (seq_split _ _ _ Hl) as (s1 & s2 & Es).
      assert (Nr : NoDup (hd :: A ++ p :: B)).
      { destruct w as [s l0]. cbn in Es. subst s. eapply ring_nodup. exact N. }
      exists s1, hd, (A ++ [p]), B, s2, (hd :: A). split; [rewrite <- app_assoc; exact Es|]. split; [reflexivity|].
      inversion Nr as [|? ? N1 N2]; subst.
      assert (hd <> p) by (intros ->; apply N1; apply in_or_app; right; left; reflexivity).
      rewrite (proj2 (Z.eqb_neq hd p) H). rewrite <- !app_assoc. cbn [app]. apply after_split.
      intros Y. apply NoDup_remove in N2. apply (proj2 N2). apply in_or_app. auto. }
  destruct X as (s1 & hd & A & B & s2 & A' & Es & Ea & Ei). destruct (first_of B hd) as (q & B' & Eb).
  assert (Ew : w = mkLists (s1 ++ (hd, A ++ B) :: s2) (L1 ++ x :: L2)) by (destruct w; cbn in *; congruence).
  assert (Inp : In p (hd :: A ++ B)).
  { change (hd :: A ++ B) with ((hd :: A) ++ B). rewrite Ea. apply in_or_app. left. apply in_or_app. right. left. reflexivity. }
  cbn [lstep]. rewrite Es, El, drop_split by (rewrite <- El; apply loose_nodup; exact N). rewrite Ew in N.
  rewrite (insert_seqs _ _ _ _ _ _ _ _ N Inp Ei).
  apply (insert_rep h w R p q x).
  - rewrite Ew. eapply link_without; eassumption.
  - eapply p_not_x; eassumption.
  - exact Ix.
  - rewrite Ew. apply moved_used.
  - rewrite Ew. apply moved_headers.
  - intros u v I. rewrite Ew. eapply links_with; eassumption.
Qed.

Lemma remove_seqs : forall s1 a l s2 L x, NoDup (used (mkLists (s1 ++ (a, l) :: s2) L)) -> In x (a :: l) ->
  map (fun e : Z * list Z => (fst e, drop x (snd e))) (s1 ++ (a, l) :: s2) = s1 ++ (a, drop x l) :: s2.
Proof.
  intros s1 a l s2 L x N Ix. rewrite map_app. cbn [map fst snd].
  assert (Same : forall s, (forall e, In e s -> In e (s1 ++ s2)) ->
    map (fun e : Z * list Z => (fst e, drop x (snd e))) s = s).
  { intros s Hs. rewrite <- (map_id s) at 2. apply map_ext_in. intros [u v] Ie. cbn [fst snd].
    destruct (others _ _ _ _ _ _ N Ix _ (Hs _ Ie)) as [O1 O2]. cbn [fst snd] in *. rewrite drop_id by exact O2. reflexivity. }
  rewrite !Same; [reflexivity| |]; intros e I; apply in_or_app; auto.
Qed.

Lemma remove_loose_seqs : forall s L x, NoDup (used (mkLists s L)) -> In x L ->
  map (fun e : Z * list Z => (fst e, drop x (snd e))) s = s.
Proof.
  intros s L x N Ix. rewrite <- (map_id s) at 2. apply map_ext_in. intros [u v] Ie. cbn [fst snd].
  rewrite drop_id; [reflexivity|]. intros Y. apply (nodup_app_disj _ _ _ N x); [|exact Ix].
  cbn [seqs]. apply in_flat_map. exists (u, v). split; [exact Ie|]. right. exact Y.
Qed.

Lemma remove_ok : forall h w x, rep h w -> In x (elements w) \/ In x (loose w) ->
  exists h', uecho_list_remove h x = Ok (h', true) /\ rep h' (lstep w (LRemove x)).
Proof.
  intros h w x R Ix. pose proof (rep_nodup _ _ R) as N. destruct Ix as [Ix|Ix].
  - destruct (element_has _ _ Ix) as (hd & A & B & Hl). destruct (seq_split _ _ _ Hl) as (s1 & s2 & Es).
    destruct (last_of hd A) as (A' & p & Ea). destruct (first_of B hd) as (q & B' & Eb).
    assert (Ew : w = mkLists (s1 ++ (hd, A ++ x :: B) :: s2) (loose w)) by (destruct w; cbn in *; congruence).
    assert (Nr : NoDup (hd :: A ++ x :: B)) by (rewrite Ew in N; exact (ring_nodup _ _ _ _ _ N)).
    assert (Nl : ~ In x (loose w)).
    { intros Y. unfold used in N. apply (nodup_app_disj _ _ _ N x); [|exact Y]. apply in_flat_map. exists (hd, A ++ x :: B).
      split; [rewrite Es; apply in_or_app; right; left; reflexivity|]. right. cbn. apply in_or_app. right. left. reflexivity. }
    cbn [lstep]. rewrite (drop_id x (loose w) Nl), Es.
    assert (Inx : In x (hd :: A ++ x :: B)) by (right; apply in_or_app; right; left; reflexivity).
    rewrite (remove_seqs s1 hd (A ++ x :: B) s2 (loose w) x) by (rewrite <- ?Ew; assumption || exact Inx).
    inversion Nr as [|? ? N1 N2]; subst. rewrite drop_split by exact N2.
    assert (Ew' : w = mkLists (s1 ++ (hd, A ++ x :: B) :: s2) (loose w ++ [])) by (rewrite app_nil_r; exact Ew).
    set (w' := mkLists (s1 ++ (hd, A ++ B) :: s2) (loose w ++ [x])).
    assert (Nw : NoDup (used w')).
    { apply (Permutation_NoDup (l := used w)); [|exact N]. rewrite Ew' at 1. apply moved_used. }
    destruct (link_with s1 s2 hd A B (loose w) [] x A' B' p q Ea Eb) as [I1 I2]. rewrite <- Ew' in I1, I2.
    apply (remove_rep h w R p q x w' I1 I2).
    + rewrite Ew'. apply Permutation_sym. apply moved_used.
    + rewrite Ew'. symmetry. apply moved_headers.
    + intros u v I. pose proof (links_without s1 s2 hd A B (loose w) [] x A' B' p q Ea Eb Nw u v I) as [X|[X|X]]; [|tauto|tauto].
      rewrite <- Ew' in X. tauto.
  - destruct (in_split _ _ Ix) as (L1 & L2 & El). destruct (loose_link w x Ix) as [Lx Ux].
    cbn [lstep]. rewrite El, drop_split by (rewrite <- El; apply loose_nodup; exact N).
    assert (Ew : w = mkLists (seqs w) (L1 ++ x :: L2)) by (destruct w; cbn in *; congruence).
    rewrite (remove_loose_seqs (seqs w) (L1 ++ x :: L2)); [|rewrite <- Ew; exact N|rewrite <- El; exact Ix].
    assert (P : Permutation (used (mkLists (seqs w) ((L1 ++ L2) ++ [x]))) (used w)).
    { rewrite Ew at 2. unfold used. cbn [seqs loose]. apply Permutation_app_head. rewrite <- app_assoc. apply Permutation_app_head.
      apply Permutation_sym, Permutation_cons_append. }
    apply (remove_rep h w R x x x _ Lx Lx P eq_refl).
    intros u v I. destruct (Z.eq_dec u x) as [->|Ux'].
    + right. right. f_equal. assert (J : In (x, v) (links w)).
      { rewrite Ew. unfold links in *. cbn [seqs loose] in *. rewrite in_app_iff in *. destruct I as [I|I]; [auto|]. right.
        rewrite !map_app, !in_app_iff in I. rewrite map_app, in_app_iff. cbn [map In] in *. tauto. }
      exact (link_fun _ _ R _ _ _ J Lx).
    + left. split; [|auto]. rewrite Ew. unfold links in *. cbn [seqs loose] in *. rewrite in_app_iff in *. destruct I as [I|I]; [auto|]. right.
      rewrite !map_app, !in_app_iff in I. rewrite map_app, in_app_iff. cbn [map In] in *. tauto.
Qed.

(* ---- allocation ---- *)
Lemma set_head_ok : forall h a v, a <> 0 -> h a <> None ->
  exists h', set_head h a v = Ok h' /\ (forall x, x <> a -> h' x = h x) /\ fh h' a = Some v /\ h' a <> None.
Proof.
  intros h a v Ha H. unfold set_head, deref, fh. rewrite (proj2 (Z.eqb_neq a 0) Ha). destruct (h a) as [c|] eqn:E; [|contradiction].
  cbn [bind]. eexists. split; [reflexivity|]. unfold upd. rewrite Z.eqb_refl. split; [|split; [reflexivity|discriminate]].
  intros x Hx. rewrite (proj2 (Z.eqb_neq x a) Hx). reflexivity.
Qed.

Lemma init_ok : forall (b : bool) h a junk, a <> 0 ->
  exists h', (do h1 <- set_head (malloc h a junk) a b ;; do h2 <- set_next h1 a a ;; do h3 <- set_prev h2 a a ;; Ok (h3, true)) = Ok (h', true)
  /\ (forall x, fh h' x = if x =? a then Some b else fh h x)
  /\ (forall x, nf h' x = if x =? a then Some a else nf h x)
  /\ (forall x, pf h' x = if x =? a then Some a else pf h x).
Proof.
  intros b h a junk Ha. destruct (set_head_ok (malloc h a junk) a b Ha) as (h1 & E1 & O1 & F1 & S1).
  { unfold malloc, upd. rewrite Z.eqb_refl. discriminate. }
  rewrite E1. cbn [bind].
  destruct (set_next_ok h1 a a Ha) as (h2 & E2 & F2 & P2 & N2); [rewrite F1; discriminate|]. rewrite E2. cbn [bind].
  destruct (set_prev_ok h2 a a Ha) as (h3 & E3 & F3 & N3 & P3); [rewrite F2, F1; discriminate|]. rewrite E3. cbn [bind].
  exists h3. split; [reflexivity|].
  assert (O : forall x, x <> a -> h1 x = h x).
  { intros x Hx. rewrite O1 by exact Hx. unfold malloc, upd. rewrite (proj2 (Z.eqb_neq x a) Hx). reflexivity. }
  split; [|split]; intros x; destruct (Z.eqb_spec x a) as [->|Hx].
  - rewrite F3, F2. exact F1.
  - rewrite F3, F2. unfold fh. rewrite O by exact Hx. reflexivity.
  - rewrite N3, N2, Z.eqb_refl. reflexivity.
  - rewrite N3, N2, (proj2 (Z.eqb_neq x a) Hx). unfold nf. rewrite O by exact Hx. reflexivity.
  - rewrite P3, Z.eqb_refl. reflexivity.
  - rewrite P3, (proj2 (Z.eqb_neq x a) Hx), P2. unfold pf. rewrite O by exact Hx. reflexivity.
Qed.

Lemma inb_app : forall a l l', inb a (l ++ l') = inb a l || inb a l'.
Proof. intros. unfold inb. apply existsb_app. Qed.

Lemma new_rep : forall h h' w w' a b, rep h w -> a <> 0 -> ~ In a (used w) ->
  (forall x, fh h' x = if x =? a then Some b else fh h x) ->
  (forall x, nf h' x = if x =? a then Some a else nf h x) ->
  (forall x, pf h' x = if x =? a then Some a else pf h x) ->
  Permutation (used w') (a :: used w) -> (forall x, inb x (headers w') = if x =? a then b else inb x (headers w)) ->
  (forall u v, In (u, v) (links w') -> (u, v) = (a, a) \/ In (u, v) (links w)) -> rep h' w'.
Proof.
  intros h h' w w' a b R Ha Hn F N P Hu Hh Hl. constructor.
  - apply (Permutation_NoDup (Permutation_sym Hu)). constructor; [exact Hn|apply R].
  - intros I. apply (Permutation_in _ Hu) in I. destruct I as [I|I]; [congruence|exact (rep_null _ _ R I)].
  - intros x. rewrite F, (rep_flag _ _ R), Hh.
    replace (inb x (used w')) with (inb x (a :: used w)).
    + cbn [inb existsb]. fold (inb x (used w)). destruct (Z.eqb_spec x a) as [->|]; reflexivity.
    + apply eq_true_iff_eq. rewrite !inb_iff. split; apply Permutation_in; [apply Permutation_sym|]; exact Hu.
  - intros u v I. destruct (Hl u v I) as [E|I']; [injection E as -> ->; rewrite N, P, Z.eqb_refl; auto|].
    destruct (link_used _ _ _ I') as [U V].
    assert (u <> a) by (intros ->; contradiction). assert (v <> a) by (intros ->; contradiction).
    rewrite N, P, (proj2 (Z.eqb_neq u a)), (proj2 (Z.eqb_neq v a)) by assumption. apply (rep_link _ _ R). exact I'.
Qed.

Lemma header_ok : forall h w a junk, rep h w -> lop_ok w (LHeader a) ->
  exists h', uecho_list_header_init (malloc h a junk) a = Ok (h', true) /\ rep h' (lstep w (LHeader a)).
Proof.
  intros h w a junk R [Ha Hn]. destruct (init_ok true h a junk Ha) as (h' & E & F & N & P). exists h'.
  split; [unfold uecho_list_header_init; rewrite (proj2 (Z.eqb_neq a 0) Ha); exact E|].
  eapply new_rep; [exact R|exact Ha|exact Hn|exact F|exact N|exact P| | |].
  - cbn [lstep]. rewrite used_app. cbn [flat_map ring fst snd app]. apply Permutation_sym. apply Permutation_middle.
  - intros x. cbn [lstep]. unfold headers. cbn [seqs]. rewrite map_app, inb_app. cbn [map fst inb existsb]. rewrite orb_false_r.
    destruct (Z.eqb_spec x a); [apply orb_true_r|apply orb_false_r].
  - intros u v I. cbn [lstep] in I. unfold links in *. cbn [seqs loose] in I. rewrite flat_map_app in I. rewrite !in_app_iff in *.
    cbn in I. destruct I as [[I|[I|[]]]|I]; auto.
Qed.
Lemma node_ok : forall h w a junk, rep h w -> lop_ok w (LNode a) ->
  exists h', uecho_list_node_init (malloc h a junk) a = Ok (h', true) /\ rep h' (lstep w (LNode a)).
Proof.
  intros h w a junk R [Ha Hn]. destruct (init_ok false h a junk Ha) as (h' & E & F & N & P). exists h'.
  split; [unfold uecho_list_node_init; rewrite (proj2 (Z.eqb_neq a 0) Ha); exact E|].
  eapply new_rep; [exact R|exact Ha|exact Hn|exact F|exact N|exact P| | |].
  - cbn [lstep]. unfold used. cbn [seqs loose]. rewrite app_assoc. apply Permutation_sym. apply Permutation_cons_append.
  - intros x. cbn [lstep]. change (headers (mkLists (seqs w) (loose w ++ [a]))) with (headers w).
    destruct (Z.eqb_spec x a) as [->|]; [|reflexivity]. apply not_true_iff_false. rewrite inb_iff. intros I. apply Hn.
    unfold used. apply in_or_app. left. apply in_map_iff in I. destruct I as (e & <- & I). apply in_flat_map. exists e. split; [exact I|left; reflexivity].
  - intros u v I. cbn [lstep] in I. unfold links in *. cbn [seqs loose] in I. rewrite map_app in I. rewrite !in_app_iff in *. cbn in I.
    destruct I as [I|[I|[I|[]]]]; auto.
Qed.

Lemma mfree_rep : forall h w w' x, rep h w -> In (x, x) (links w) ->
  Permutation (used w) (x :: used w') -> (forall a, a <> x -> inb a (headers w') = inb a (headers w)) ->
  (forall u v, In (u, v) (links w') -> In (u, v) (links w)) ->
  exists h', mfree h x = Ok h' /\ rep h' w'.
Proof.
  intros h w w' x R Lx Hu Hh Hl. destruct (link_used _ _ _ Lx) as [Ux _]. destruct (rep_alive _ _ R _ Ux) as [Nx Fx].
  unfold mfree, deref. rewrite (proj2 (Z.eqb_neq x 0) Nx). unfold fh in Fx. destruct (h x) as [c|]; [|discriminate]. cbn [bind].
  eexists. split; [reflexivity|]. pose proof (rep_nodup _ _ R) as N. apply (Permutation_NoDup Hu) in N.
  inversion N as [|? ? N1 N2]; subst. constructor.
  - exact N2.
  - intros I. apply (rep_null _ _ R). apply (Permutation_in _ (Permutation_sym Hu)). right. exact I.
  - intros a. unfold fh, upd. destruct (Z.eqb_spec a x) as [->|Ha].
    + destruct (inb x (used w')) eqn:E; [apply inb_iff in E; contradiction|reflexivity].
    + fold (fh h a). rewrite (rep_flag _ _ R), Hh by exact Ha.
      replace (inb a (used w)) with (inb a (used w')); [reflexivity|]. apply eq_true_iff_eq. rewrite !inb_iff. split; intros I.
      * apply (Permutation_in _ (Permutation_sym Hu)). right. exact I.
      * apply (Permutation_in _ Hu) in I. destruct I as [I|I]; [congruence|exact I].
  - intros u v I. destruct (link_used _ _ _ I) as [U V].
    assert (Hx : u <> x) by (intros ->; contradiction). assert (Hy : v <> x) by (intros ->; contradiction).
    unfold nf, pf, upd. rewrite (proj2 (Z.eqb_neq u x) Hx), (proj2 (Z.eqb_neq v x) Hy). apply (rep_link _ _ R). apply Hl. exact I.
Qed.

Lemma filter_headers : forall x (s : list (Z * list Z)), ~ In x (map fst s) -> filter (fun e => negb (fst e =? x)) s = s.
Proof.
  intros x s. induction s as [|e s IH]; intros H; [reflexivity|]. cbn [filter map] in *.
  destruct (Z.eqb_spec (fst e) x) as [E|E]; [exfalso; apply H; left; exact E|]. cbn [negb]. f_equal. apply IH. intros X. apply H. right. exact X.
Qed.
Lemma header_used : forall w a, In a (headers w) -> In a (flat_map ring (seqs w)).
Proof. intros w a I. apply in_map_iff in I. destruct I as (e & <- & I). apply in_flat_map. exists e. split; [exact I|left; reflexivity]. Qed.
Lemma loose_not_header : forall w x, NoDup (used w) -> In x (loose w) -> ~ In x (headers w).
Proof. intros w x N I J. apply (nodup_app_disj _ _ _ N x); [apply header_used; exact J|exact I]. Qed.

Lemma free_ok : forall h w x, rep h w -> lop_ok w (LFree x) -> exists h', mfree h x = Ok h' /\ rep h' (lstep w (LFree x)).
Proof.
  intros h w x R H. pose proof (rep_nodup _ _ R) as N. destruct H as [Ix|Hx].
  - destruct (in_split _ _ Ix) as (L1 & L2 & El). cbn [lstep].
    rewrite (filter_headers x (seqs w)) by (apply loose_not_header; assumption).
    rewrite El, drop_split by (rewrite <- El; apply loose_nodup; exact N).
    apply (mfree_rep h w _ x R (proj1 (loose_link w x Ix))).
    + unfold used. cbn [seqs loose]. rewrite El, !app_assoc. apply Permutation_sym, Permutation_middle.
    + reflexivity.
    + intros u v I. unfold links in *. cbn [seqs loose] in *. rewrite El, map_app. rewrite map_app in I. rewrite !in_app_iff in *. cbn. tauto.
  - pose proof Hx as Hin. destruct (seq_split _ _ _ Hx) as (s1 & s2 & Es). cbn [lstep].
    assert (Nh : NoDup (map fst (s1 ++ (x, []) :: s2))) by (rewrite <- Es; apply headers_nodup; exact N).
    rewrite map_app in Nh. cbn [map fst] in Nh. apply NoDup_remove in Nh. destruct Nh as [_ Nh].
    rewrite Es, filter_app. cbn [filter fst]. rewrite Z.eqb_refl. cbn [negb].
    rewrite !filter_headers by (intros X; apply Nh; apply in_or_app; auto).
    assert (Nl : ~ In x (loose w)).
    { intros Y. apply (loose_not_header w x N Y). unfold headers. rewrite Es, map_app. apply in_or_app. right. left. reflexivity. }
    rewrite drop_id by exact Nl.
    assert (Ew : w = mkLists (s1 ++ (x, []) :: s2) (loose w)) by (destruct w; cbn in *; congruence).
    apply (mfree_rep h w _ x R).
    + rewrite Ew. apply links_in. left. left. reflexivity.
    + rewrite Ew at 1. rewrite !used_app. cbn [flat_map ring fst snd app]. apply Permutation_sym, Permutation_middle.
    + intros a Ha. rewrite Ew. unfold headers. cbn [seqs]. rewrite !map_app, !inb_app. cbn [map fst inb existsb].
      rewrite (proj2 (Z.eqb_neq a x) Ha). reflexivity.
    + intros u v I. rewrite Ew. apply links_in. unfold links in I. cbn [seqs loose] in I. rewrite flat_map_app, !in_app_iff in I.
      destruct I as [[I|I]|I]; [auto|auto|]. right. right. right. apply in_map_iff in I. destruct I as (z & E & I). injection E as <- <-. auto.
Qed.

(* ---- walking ---- *)
Definition first (l : list Z) : Z := match l with [] => 0 | x :: _ => x end.
Definition final (l : list Z) : Z := first (rev l).

Lemma element_not_header : forall w hd l x, NoDup (used w) -> has w hd l -> In x l -> inb x (headers w) = false.
Proof.
  intros w hd l x N H I. apply not_true_iff_false. rewrite inb_iff. intros J.
  destruct (seq_split _ _ _ H) as (s1 & s2 & Es).
  assert (Ew : w = mkLists (s1 ++ (hd, l) :: s2) (loose w)) by (destruct w; cbn in *; congruence).
  rewrite Ew in N, J. unfold headers in J. cbn [seqs] in J. rewrite map_app in J. cbn [map fst] in J.
  apply in_app_or in J. destruct J as [J|[J|J]].
  - apply in_map_iff in J. destruct J as (e & E & J).
    destruct (others _ _ _ _ _ x N (or_intror I) e) as [O _]; [apply in_or_app; auto|]. contradiction.
  - apply ring_nodup in N. inversion N. congruence.
  - apply in_map_iff in J. destruct J as (e & E & J).
    destruct (others _ _ _ _ _ x N (or_intror I) e) as [O _]; [apply in_or_app; auto|]. contradiction.
Qed.

Section Walk.
Variable h : heap.
Variable w : lists.
Hypothesis R : rep h w.
Variables (hd : Z) (l : list Z).
Hypothesis Hl : has w hd l.

Lemma has_used : forall x, In x (hd :: l) -> In x (used w).
Proof. intros x I. unfold used. apply in_or_app. left. apply in_flat_map. exists (hd, l). auto. Qed.
Lemma hd_flag : fh h hd = Some true /\ hd <> 0.
Proof.
  destruct (rep_alive _ _ R hd) as [A B]; [apply has_used; left; reflexivity|]. split; [|exact A]. rewrite B. f_equal.
  apply inb_iff. apply in_map_iff. exists (hd, l). auto.
Qed.
Lemma el_flag : forall x, In x l -> fh h x = Some false /\ x <> 0.
Proof.
  intros x I. destruct (rep_alive _ _ R x) as [A B]; [apply has_used; right; exact I|]. split; [|exact A]. rewrite B. f_equal.
  eapply element_not_header; [apply R|exact Hl|exact I].
Qed.
Lemma ring_link : forall A' p q B', hd :: l ++ [hd] = A' ++ p :: q :: B' -> nf h p = Some q /\ pf h q = Some p.
Proof.
  intros A' p q B' E. apply (rep_link _ _ R). unfold links. apply in_or_app. left. apply in_flat_map. exists (hd, l).
  split; [exact Hl|]. rewrite (ring_links _ _ _ _ _ _ E). apply in_or_app. right. left. reflexivity.
Qed.

(* the element after [p], where [p] is followed by [B] *)
Lemma next_at : forall A' p B, hd :: l = A' ++ p :: B -> uecho_list_next h p = Ok (first B).
Proof.
  intros A' p B E. unfold uecho_list_next.
  assert (Up : In p (hd :: l)) by (rewrite E; apply in_or_app; right; left; reflexivity).
  destruct (rep_alive _ _ R p (has_used p Up)) as [Np _]. rewrite (proj2 (Z.eqb_neq p 0) Np).
  destruct (first_of B hd) as (q & B' & Eb).
  assert (Ep : hd :: l ++ [hd] = A' ++ p :: q :: B').
  { change (hd :: l ++ [hd]) with ((hd :: l) ++ [hd]). rewrite E, <- app_assoc. cbn [app]. rewrite Eb. reflexivity. }
  destruct (ring_link _ _ _ _ Ep) as [Nq _]. rewrite (get_next_ok h p q Np Nq). cbn [bind].
  destruct B as [|b B]; cbn [app] in Eb; injection Eb as <- <-.
  - destruct hd_flag as [F Nh]. rewrite (proj2 (Z.eqb_neq hd 0) Nh), (get_head_ok h hd true Nh F). reflexivity.
  - assert (Ib : In b l).
    { destruct A' as [|z A']; cbn [app] in E; injection E as _ ->; [left; reflexivity|]. apply in_or_app. right. right. left. reflexivity. }
    destruct (el_flag b Ib) as [F Nb]. rewrite (proj2 (Z.eqb_neq b 0) Nb), (get_head_ok h b false Nb F). reflexivity.
Qed.
Lemma prev_at : forall A x B, l = A ++ x :: B -> uecho_list_prev h x = Ok (final A).
Proof.
  intros A x B E. unfold uecho_list_prev, final.
  assert (Ix : In x l) by (rewrite E; apply in_or_app; right; left; reflexivity).
  destruct (el_flag x Ix) as [_ Nx]. rewrite (proj2 (Z.eqb_neq x 0) Nx).
  destruct (last_of hd A) as (A' & p & Ea).
  assert (Ep : hd :: l ++ [hd] = A' ++ p :: x :: (B ++ [hd])).
  { rewrite E, <- app_assoc. cbn [app]. change (hd :: A ++ x :: B ++ [hd]) with ((hd :: A) ++ x :: B ++ [hd]).
    rewrite Ea, <- app_assoc. reflexivity. }
  destruct (ring_link _ _ _ _ Ep) as [_ Pp]. rewrite (get_prev_ok h x p Nx Pp). cbn [bind].
  destruct (@exists_last Z (hd :: A)) as (A2 & p2 & E2); [discriminate|].
  destruct A as [|a0 A0] using rev_ind.
  - destruct A' as [|z [|z2 A']]; cbn [app] in Ea; [injection Ea as <-| |]; try discriminate.
    destruct hd_flag as [F Nh]. rewrite (proj2 (Z.eqb_neq hd 0) Nh), (get_head_ok h hd true Nh F). reflexivity.
  - change (hd :: A0 ++ [a0]) with ((hd :: A0) ++ [a0]) in Ea. apply app_inj_tail in Ea. destruct Ea as [_ <-].
    rewrite rev_app_distr. cbn [rev app first].
    assert (Ia : In a0 l) by (rewrite E; apply in_or_app; left; apply in_or_app; right; left; reflexivity).
    destruct (el_flag a0 Ia) as [F Na]. rewrite (proj2 (Z.eqb_neq a0 0) Na), (get_head_ok h a0 false Na F). reflexivity.
Qed.

Lemma nth_first : forall (B : list Z) k, nth k B 0 = first (skipn k B).
Proof. induction B as [|b B IH]; intros [|k]; try reflexivity. cbn [nth skipn]. apply IH. Qed.

Lemma size_walk : forall B A' p cnt turns, hd :: l = A' ++ p :: B -> (length B <= turns)%nat ->
  INT_MIN <= cnt -> cnt + Z.of_nat (length B) <= INT_MAX ->
  size_loop turns h (first B) cnt = Some (Ok (cnt + Z.of_nat (length B))).
Proof.
  induction B as [|b B IH]; intros A' p cnt turns E Ht H1 H2.
  - cbn [first length]. destruct turns; cbn [size_loop Z.eqb]; rewrite Z.add_0_r; reflexivity.
  - cbn [first length] in *. destruct turns as [|t]; [lia|].
    assert (Ib : In b l).
    { destruct A' as [|z A']; cbn [app] in E; injection E as _ ->; [left; reflexivity|]. apply in_or_app. right. right. left. reflexivity. }
    destruct (el_flag b Ib) as [_ Nb].
    assert (E' : hd :: l = (A' ++ [p]) ++ b :: B) by (rewrite <- app_assoc; exact E).
    cbn [size_loop]. rewrite (proj2 (Z.eqb_neq b 0) Nb). rewrite (next_at _ _ _ E').
    unfold int_chk. replace ((INT_MIN <=? cnt + 1) && (cnt + 1 <=? INT_MAX)) with true
      by (symmetry; apply andb_true_intro; split; apply Z.leb_le; lia).
    cbn [bind]. rewrite (IH _ _ (cnt + 1) t E'); [f_equal; f_equal; lia|lia|lia|lia].
Qed.

Lemma size_ok : forall turns, (length l <= turns)%nat -> Z.of_nat (length l) <= INT_MAX ->
  uecho_list_size turns h hd = Some (Ok (Z.of_nat (length l))).
Proof.
  intros turns Ht Hm. unfold uecho_list_size. destruct hd_flag as [_ Nh]. rewrite (proj2 (Z.eqb_neq hd 0) Nh).
  rewrite (next_at [] hd l eq_refl). rewrite (size_walk l [] hd 0 turns eq_refl Ht); [reflexivity|unfold INT_MIN; lia|lia].
Qed.

Lemma get_walk : forall k B A' p, hd :: l = A' ++ p :: B -> get_loop k h (first B) = Ok (nth k B 0).
Proof.
  induction k as [|k IH]; intros B A' p E; cbn [get_loop].
  - destruct B; reflexivity.
  - destruct B as [|b B]; [reflexivity|]. cbn [first nth].
    assert (Ib : In b l).
    { destruct A' as [|z A']; cbn [app] in E; injection E as _ ->; [left; reflexivity|]. apply in_or_app. right. right. left. reflexivity. }
    destruct (el_flag b Ib) as [_ Nb].
    assert (E' : hd :: l = (A' ++ [p]) ++ b :: B) by (rewrite <- app_assoc; exact E).
    rewrite (proj2 (Z.eqb_neq b 0) Nb), (next_at _ _ _ E'). cbn [bind]. apply (IH _ _ _ E').
Qed.
Lemma get_ok : forall i, uecho_list_get h hd i = Ok (nth (Z.to_nat i) l 0).
Proof.
  intros i. unfold uecho_list_get. destruct hd_flag as [_ Nh]. rewrite (proj2 (Z.eqb_neq hd 0) Nh).
  rewrite (next_at [] hd l eq_refl). cbn [bind]. apply (get_walk _ _ [] hd eq_refl).
Qed.
Lemma gets_ok : uecho_list_gets h hd = Ok (first l).
Proof. unfold uecho_list_gets. destruct hd_flag as [_ Nh]. rewrite (proj2 (Z.eqb_neq hd 0) Nh). apply (next_at [] hd l eq_refl). Qed.

Lemma in_ring : forall A' p B, hd :: l = A' ++ p :: B -> p <> 0.
Proof.
  intros A' p B E. apply (rep_alive _ _ R p). apply has_used. rewrite E. apply in_or_app. right. left. reflexivity.
Qed.
Lemma head_next : nf h hd = Some (match l with x :: _ => x | [] => hd end).
Proof.
  destruct (first_of l hd) as (q & B' & Eb). destruct (ring_link [] hd q B') as [X _]; [rewrite Eb; reflexivity|]. rewrite X. f_equal.
  destruct l; cbn [app] in Eb; injection Eb as -> _; reflexivity.
Qed.
Lemma head_prev : forall A' p, hd :: l = A' ++ [p] -> pf h hd = Some p.
Proof.
  intros A' p E. destruct (ring_link A' p hd []) as [_ X]; [|exact X].
  change (hd :: l ++ [hd]) with ((hd :: l) ++ [hd]). rewrite E, <- app_assoc. reflexivity.
Qed.

Lemma next_circular_at : forall A' p B, hd :: l = A' ++ p :: B ->
  uecho_list_next_circular h p = Ok (match B with b :: _ => b | [] => match l with x :: _ => x | [] => hd end end).
Proof.
  intros A' p B E. unfold uecho_list_next_circular. pose proof (in_ring _ _ _ E) as Np. rewrite (proj2 (Z.eqb_neq p 0) Np).
  destruct (first_of B hd) as (q & B' & Eb).
  assert (Ep : hd :: l ++ [hd] = A' ++ p :: q :: B').
  { change (hd :: l ++ [hd]) with ((hd :: l) ++ [hd]). rewrite E, <- app_assoc. cbn [app]. rewrite Eb. reflexivity. }
  destruct (ring_link _ _ _ _ Ep) as [Nq _]. rewrite (get_next_ok h p q Np Nq). cbn [bind].
  destruct B as [|b B]; cbn [app] in Eb; injection Eb as <- <-.
  - destruct hd_flag as [F Nh]. rewrite (proj2 (Z.eqb_neq hd 0) Nh), (get_head_ok h hd true Nh F). cbn [bind].
    apply get_next_ok; [exact Nh|exact head_next].
  - assert (Ib : In b l).
    { destruct A' as [|z A']; cbn [app] in E; injection E as _ ->; [left; reflexivity|]. apply in_or_app. right. right. left. reflexivity. }
    destruct (el_flag b Ib) as [F Nb]. rewrite (proj2 (Z.eqb_neq b 0) Nb), (get_head_ok h b false Nb F). cbn [bind].
    apply get_next_ok; assumption.
Qed.

Lemma last_split : forall (a : Z) A, exists A', a :: A = A' ++ [last A a].
Proof.
  intros a A. destruct (last_of a A) as (A' & p & E). exists A'. rewrite E. f_equal. f_equal.
  assert (X : last (a :: A) a = p) by (rewrite E; apply last_last). destruct A as [|y A]; [cbn in *; congruence|]. exact (eq_sym X).
Qed.

Lemma prev_circular_at : forall A x B, l = A ++ x :: B ->
  uecho_list_prev_circular h x = Ok (match A with [] => last l hd | _ => last A hd end).
Proof.
  intros A x B E. unfold uecho_list_prev_circular.
  assert (Ix : In x l) by (rewrite E; apply in_or_app; right; left; reflexivity).
  destruct (el_flag x Ix) as [_ Nx]. rewrite (proj2 (Z.eqb_neq x 0) Nx).
  destruct (last_split hd A) as (A' & Ea).
  assert (Ep : hd :: l ++ [hd] = A' ++ last A hd :: x :: (B ++ [hd])).
  { rewrite E, <- app_assoc. cbn [app]. change (hd :: A ++ x :: B ++ [hd]) with ((hd :: A) ++ x :: B ++ [hd]).
    rewrite Ea at 1. rewrite <- app_assoc. reflexivity. }
  destruct (ring_link _ _ _ _ Ep) as [_ Pp]. rewrite (get_prev_ok h x _ Nx Pp). cbn [bind].
  destruct A as [|a0 A0].
  - cbn [last] in *. destruct hd_flag as [F Nh]. rewrite (proj2 (Z.eqb_neq hd 0) Nh), (get_head_ok h hd true Nh F). cbn [bind].
    destruct (last_split hd l) as (A2 & E2). apply get_prev_ok; [exact Nh|]. apply (head_prev A2). exact E2.
  - assert (Ia : In (last (a0 :: A0) hd) l).
    { rewrite E. apply in_or_app. left. destruct (last_split a0 A0) as (A2 & E2).
      assert (X : last (a0 :: A0) hd = last A0 a0) by (rewrite E2 at 1; apply last_last).
      rewrite X, E2. apply in_or_app. right. left. reflexivity. }
    destruct (el_flag _ Ia) as [F Na]. rewrite (proj2 (Z.eqb_neq _ 0) Na), (get_head_ok h _ false Na F). cbn [bind].
    apply get_prev_ok; assumption.
Qed.
End Walk.

Lemma loose_next : forall h w x, rep h w -> In x (loose w) -> uecho_list_next h x = Ok x /\ uecho_list_prev h x = Ok x.
Proof.
  intros h w x R Ix. destruct (loose_link w x Ix) as [Lx Ux]. destruct (rep_alive _ _ R _ Ux) as [Nx Fx].
  destruct (rep_link _ _ R _ _ Lx) as [X1 X2]. unfold uecho_list_next, uecho_list_prev.
  assert (F : fh h x = Some false).
  { rewrite Fx. f_equal. apply not_true_iff_false. rewrite inb_iff. apply loose_not_header; [apply R|exact Ix]. }
  rewrite (proj2 (Z.eqb_neq x 0) Nx), (get_next_ok h x x Nx X1), (get_prev_ok h x x Nx X2). cbn [bind].
  rewrite (proj2 (Z.eqb_neq x 0) Nx), (get_head_ok h x false Nx F). auto.
Qed.

(* ---- clearing ---- *)
Definition destroys (d : heap -> Z -> res heap) : Prop :=
  forall h w x, rep h w -> In x (loose w) -> exists h', d h x = Ok h' /\ rep h' (lstep w (LFree x)).

Lemma mfree_destroys : destroys mfree.
Proof. intros h w x R Ix. apply free_ok; [exact R|left; exact Ix]. Qed.

Lemma drop_drop : forall x l, drop x (drop x l ++ [x]) = drop x l.
Proof.
  intros x l. unfold drop. rewrite filter_app. cbn [filter]. rewrite Z.eqb_refl. cbn [negb]. rewrite app_nil_r.
  induction l as [|y l IH]; [reflexivity|]. cbn [filter]. destruct (negb (y =? x)) eqn:E; [|exact IH]. cbn [filter]. rewrite E, IH. reflexivity.
Qed.

Lemma remove_and_free_destroys : destroys remove_and_free.
Proof.
  intros h w x R Ix. pose proof (rep_nodup _ _ R) as N. destruct (remove_ok h w x R (or_intror Ix)) as (h1 & E & R1).
  unfold remove_and_free. rewrite E. cbn [bind fst].
  destruct (free_ok h1 _ x R1) as (h2 & E2 & R2); [left; cbn [lstep loose]; apply in_or_app; right; left; reflexivity|].
  exists h2. split; [exact E2|]. replace (lstep w (LFree x)) with (lstep (lstep w (LRemove x)) (LFree x)); [exact R2|].
  cbn [lstep seqs loose]. rewrite drop_drop. f_equal. f_equal. apply (remove_loose_seqs (seqs w) (loose w)); [destruct w; exact N|exact Ix].
Qed.

Lemma clear_walk : forall d, (match d with Some f => destroys f | None => True end) ->
  forall l s1 s2 hd L h turns, rep h (mkLists (s1 ++ (hd, l) :: s2) L) -> (length l <= turns)%nat ->
  exists h', clear_loop turns d h (first l) = Some (Ok h') /\ rep h' (mkLists (s1 ++ (hd, []) :: s2) L).
Proof.
  intros d Hd. induction l as [|x l IH]; intros s1 s2 hd L h turns R Ht.
  - exists h. split; [destruct turns; reflexivity|exact R].
  - destruct turns as [|t]; [cbn in Ht; lia|]. cbn [first clear_loop].
    set (w := mkLists (s1 ++ (hd, x :: l) :: s2) L) in *.
    assert (Hh : has w hd (x :: l)) by (unfold has, w; cbn [seqs]; apply in_or_app; right; left; reflexivity).
    destruct (el_flag h w R hd (x :: l) Hh x (or_introl eq_refl)) as [_ Nx]. rewrite (proj2 (Z.eqb_neq x 0) Nx).
    rewrite (next_at h w R hd (x :: l) Hh [hd] x l eq_refl). cbn [bind].
    assert (Ix : In x (elements w)) by (apply in_flat_map; exists (hd, x :: l); split; [exact Hh|left; reflexivity]).
    destruct (remove_ok h w x R (or_introl Ix)) as (h1 & E1 & R1). rewrite E1. cbn [bind fst].
    pose proof (rep_nodup _ _ R) as N.
    assert (Nr : NoDup (hd :: x :: l)) by (exact (ring_nodup _ _ _ _ _ N)).
    assert (Nl : ~ In x L).
    { intros Y. apply (nodup_app_disj _ _ _ N x); [|exact Y]. apply in_flat_map. exists (hd, x :: l). split; [exact Hh|right; left; reflexivity]. }
    assert (E2 : exists h2, match d with Some d0 => d0 h1 x | None => mfree h1 x end = Ok h2 /\ rep h2 (lstep (lstep w (LRemove x)) (LFree x))).
    { assert (Iw : In x (loose (lstep w (LRemove x)))) by (cbn [lstep loose]; apply in_or_app; right; left; reflexivity).
      destruct d as [f|]; [apply Hd|apply mfree_destroys]; assumption. }
    destruct E2 as (h2 & E2 & R2). rewrite E2. cbn [bind].
    assert (Ew : lstep (lstep w (LRemove x)) (LFree x) = mkLists (s1 ++ (hd, l) :: s2) L).
    { cbn [lstep seqs loose]. rewrite drop_drop. unfold w. cbn [seqs loose].
      rewrite (remove_seqs s1 hd (x :: l) s2 L x N (or_intror (or_introl eq_refl))).
      rewrite (drop_id x L Nl). f_equal. inversion Nr as [|? ? N1 N2]; subst.
      change (x :: l) with ([] ++ x :: l). rewrite drop_split by exact N2. cbn [app]. apply filter_headers.
      intros Y. apply (element_not_header w hd (x :: l) x N Hh (or_introl eq_refl)) || idtac.
      pose proof (element_not_header w hd (x :: l) x N Hh (or_introl eq_refl)) as Z0. apply not_true_iff_false in Z0. apply Z0.
      apply inb_iff. unfold headers, w. cbn [seqs]. rewrite map_app in *. exact Y. }
    rewrite Ew in R2. apply (IH _ _ _ _ _ t R2). cbn in Ht. lia.
Qed.

Lemma clear_ok : forall d h w hd turns, (match d with Some f => destroys f | None => True end) -> rep h w -> In hd (headers w) ->
  (length (used w) <= turns)%nat ->
  exists h', uecho_list_clear turns d h hd = Some (Ok (h', true)) /\ rep h' (lstep w (LClear hd)).
Proof.
  intros d h w hd turns Hd R Ih Ht. pose proof (rep_nodup _ _ R) as N.
  destruct (header_has _ _ Ih) as (l & Hl). destruct (seq_split _ _ _ Hl) as (s1 & s2 & Es).
  assert (Ew : w = mkLists (s1 ++ (hd, l) :: s2) (loose w)) by (destruct w; cbn in *; congruence).
  unfold uecho_list_clear. destruct (hd_flag h w R hd l Hl) as [_ Nh]. rewrite (proj2 (Z.eqb_neq hd 0) Nh).
  rewrite (next_at h w R hd l Hl [] hd l eq_refl). rewrite Ew in R.
  assert (Hlen : (length l <= turns)%nat).
  { rewrite Ew, used_app in Ht. change (flat_map ring ((hd, l) :: s2)) with ((hd :: l) ++ flat_map ring s2) in Ht.
    rewrite !app_length in Ht. cbn [length] in Ht. lia. }
  destruct (clear_walk d Hd l s1 s2 hd (loose w) h turns R Hlen) as (h' & E & R'). rewrite E. cbn [option_map rmap].
  exists h'. split; [reflexivity|]. cbn [lstep]. rewrite Es, put_seq_split; [exact R'|]. rewrite <- Es. apply headers_nodup. exact N.
Qed.
