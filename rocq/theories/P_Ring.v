(* Circular lists in the heap. *)
From Coq Require Import ZArith List Bool Lia Permutation.
From Verif Require Import CSem P_Base M_Mem P_Mem P_MemProp M_ObjMem.
Import ListNotations.
Open Scope Z_scope.

(* ---- loops ---- *)

Lemma heap_small : forall h L, heap_is h L -> (length L <= Z.to_nat (h_next h))%nat.
Proof.
  intros h L (H0 & H1 & H2 & _).
  assert (ND : NoDup (map Z.to_nat (map fst L))).
  { revert H1 H2. generalize (map fst L). intro l. induction l as [|a l IH]; intros N H; [constructor|].
    apply NoDup_cons_iff in N. destruct N as [N1 N2]. cbn [map]. constructor.
    - intro I. apply in_map_iff in I. destruct I as (b & E & I). apply N1.
      assert (a = b); [|subst; exact I]. pose proof (H a (or_introl eq_refl)). pose proof (H b (or_intror I)). lia.
    - apply IH; [exact N2|]. intros b I. apply H. right. exact I. }
  assert (IN : incl (map Z.to_nat (map fst L)) (seq 0 (Z.to_nat (h_next h)))).
  { intros n I. apply in_map_iff in I. destruct I as (a & <- & I). specialize (H2 _ I). apply in_seq. lia. }
  pose proof (NoDup_incl_length ND IN) as X. rewrite !map_length, seq_length in X. exact X.
Qed.
Lemma wp_walk : forall A (f : nat -> mm A) L Q, (forall n, (length L <= n)%nat -> wp (f n) L Q) -> wp (walk f) L Q.
Proof. intros A f L Q H h I. unfold walk. apply (H (Z.to_nat (h_next h))); [apply heap_small; exact I|exact I]. Qed.

(* ---- links ---- *)

Definition flag (b : blk) : option bool := match links b with Some (f, _, _) => Some f | None => None end.
Lemma links_set : forall b f p n, flag b = Some f -> links (set_links p n b) = Some (f, p, n).
Proof. intros [| |q| | | |x y|q|q| |x y u v|] f p n E; cbn in E; try discriminate; injection E as <-; reflexivity. Qed.
Lemma set_set : forall b p n p' n', set_links p n (set_links p' n' b) = set_links p n b.
Proof. intros [| |q| | | |x y|q|q| |x y u v|] p n p' n'; reflexivity. Qed.
Lemma flag_set : forall b p n, flag (set_links p n b) = flag b.
Proof. intros [| |q| | | |x y|q|q| |x y u v|] p n; reflexivity. Qed.
Lemma set_same : forall b f p n, links b = Some (f, p, n) -> set_links p n b = b.
Proof.
  intros [| |q| | | |x y|q|q| |x y u v|] f p n E; cbn in E; try discriminate; injection E as <- <- <-; [destruct q| |destruct q|destruct q|]; reflexivity.
Qed.
Lemma flag_links : forall b f, flag b = Some f -> exists p n, links b = Some (f, p, n).
Proof. intros b f E. unfold flag in E. destruct (links b) as [[[g p] n]|]; [|discriminate]. injection E as ->. eauto. Qed.

Definition fst_of (e : Z) (l : heaplet) : Z := match l with [] => e | (a, _) :: _ => a end.
Fixpoint lst_of (e : Z) (l : heaplet) : Z := match l with [] => e | (a, _) :: r => lst_of a r end.
(* the blocks of [l] linked to each other, the first to [pv], the last to [e] *)
Fixpoint chain (pv : Z) (l : heaplet) (e : Z) : heaplet :=
  match l with
  | [] => []
  | (a, k) :: r => (a, set_links pv (fst_of e r) k) :: chain a r e
  end.
Definition ring (l : heaplet) : heaplet := chain (lst_of 0 l) l (fst_of 0 l).

Lemma fst_of_app : forall e a b, fst_of e (a ++ b) = fst_of (fst_of e b) a.
Proof. intros e [|[x k] a] b; reflexivity. Qed.
Lemma lst_of_app : forall a e b, lst_of e (a ++ b) = lst_of (lst_of e a) b.
Proof. induction a as [|[x k] a IH]; intros e b; [reflexivity|]. cbn. apply IH. Qed.
Lemma chain_app : forall a pv b e, chain pv (a ++ b) e = chain pv a (fst_of e b) ++ chain (lst_of pv a) b e.
Proof.
  induction a as [|[x k] a IH]; intros pv b e; [reflexivity|]. cbn [app chain lst_of]. rewrite fst_of_app, IH. reflexivity.
Qed.
Lemma fst_of_cons : forall e e' x l, fst_of e (x :: l) = fst_of e' (x :: l).
Proof. intros e e' [x k] l. reflexivity. Qed.
Lemma lst_of_cons : forall e e' x l, lst_of e (x :: l) = lst_of e' (x :: l).
Proof. intros e e' [x k] l. reflexivity. Qed.

Lemma ring_rotate : forall a b, Permutation (ring (a ++ b)) (ring (b ++ a)).
Proof.
  intros [|x a] [|y b]; [apply Permutation_refl|rewrite app_nil_r; apply Permutation_refl|rewrite app_nil_r; apply Permutation_refl|].
  unfold ring. rewrite !chain_app, !lst_of_app, !fst_of_app.
  rewrite (lst_of_cons (lst_of 0 (x :: a)) 0 y b), (lst_of_cons (lst_of 0 (y :: b)) 0 x a).
  rewrite (fst_of_cons (fst_of 0 (y :: b)) 0 x a), (fst_of_cons (fst_of 0 (x :: a)) 0 y b).
  apply Permutation_app_comm.
Qed.
Lemma snoc_cases : forall A (l : list A), l = [] \/ exists m x, l = m ++ [x].
Proof.
  intros A l. induction l as [|y l IH]; [left; reflexivity|right]. destruct IH as [->|(m & x & ->)].
  - exists [], y. reflexivity.
  - exists (y :: m), x. reflexivity.
Qed.

Lemma chain_keys : forall l pv e, map fst (chain pv l e) = map fst l.
Proof. induction l as [|[a k] l IH]; intros pv e; [reflexivity|]. cbn [chain map fst]. rewrite IH. reflexivity. Qed.
Lemma chain_length : forall l pv e, length (chain pv l e) = length l.
Proof. intros l pv e. rewrite <- (map_length fst), chain_keys, map_length. reflexivity. Qed.

(* one element of a ring *)
Lemma ring_at : forall l1 a k l2,
  Permutation (ring (l1 ++ (a, k) :: l2)) ((a, set_links (lst_of a (l2 ++ l1)) (fst_of a (l2 ++ l1)) k) :: chain a (l2 ++ l1) a).
Proof. intros l1 a k l2. eapply perm_trans; [apply ring_rotate|]. cbn [app]. apply Permutation_refl. Qed.

(* the first element leaves the ring *)
Lemma wp_remove_first : forall x kx fx r L F (Q : unit -> heaplet -> Prop), r <> [] ->
  flag kx = Some fx -> Forall (fun e => exists f, flag (snd e) = Some f) r ->
  Permutation L (ring ((x, kx) :: r) ++ F) -> Q tt ((x, set_links x x kx) :: ring r ++ F) -> wp (uecho_list_remove x) L Q.
Proof.
  intros x kx fx r L F Q NE FX FR P H. eapply wp_perm; [exact P|]. clear L P.
  destruct (snoc_cases _ r) as [->|(m & [p kp] & ->)]; [congruence|].
  apply Forall_app in FR. destruct FR as [FM FP]. apply Forall_inv in FP. destruct FP as [fp FP]. cbn [snd] in FP.
  destruct m as [|[n kn] m].
  - cbn [app] in *. cbn [ring chain lst_of fst_of app]. unfold ring. cbn [chain lst_of fst_of app].
    unfold uecho_list_remove. nz x. nz p.
    apply wp_bind. eapply wp_load_links; [left; reflexivity|apply links_set; exact FX|]. cbv beta iota.
    rewrite (pos_nz p) by assumption. cbn [orb].
    apply wp_bind. eapply wp_set_next; [eapply pf_cons; apply pf_here|apply links_set; exact FP|]. rewrite set_set.
    apply wp_bind. eapply wp_load_links; [inl|apply links_set; exact FX|]. cbv beta iota.
    apply wp_bind. eapply wp_set_prev; [apply pf_here|apply links_set; exact FP|]. rewrite set_set.
    apply wp_bind. eapply wp_set_next; [eapply pf_cons; apply pf_here|apply links_set; exact FX|]. rewrite set_set.
    apply wp_post. eapply wp_set_prev; [apply pf_here|apply links_set; exact FX|]. rewrite set_set.
    eexists. split; [|exact H]. unfold ring. cbn [chain lst_of fst_of app]. apply Permutation_refl.
  - apply Forall_inv in FM. destruct FM as [fn FN]. cbn [snd] in FN.
    cbn [app]. unfold ring. cbn [chain lst_of fst_of app]. rewrite chain_app, lst_of_app, !fst_of_app. cbn [chain lst_of fst_of app].
    unfold uecho_list_remove. nz x. nz p. nz n.
    apply wp_bind. eapply wp_load_links; [left; reflexivity|apply links_set; exact FX|]. cbv beta iota.
    rewrite (pos_nz p), (pos_nz n) by assumption. cbn [orb].
    apply wp_bind. eapply wp_set_next; [find_x|apply links_set; exact FP|]. rewrite set_set.
    apply wp_bind. eapply wp_load_links; [inl|apply links_set; exact FX|]. cbv beta iota.
    apply wp_bind. eapply (wp_set_prev n); [find_x|apply links_set; exact FN|]. rewrite set_set.
    apply wp_bind. eapply (wp_set_next x); [find_x|apply links_set; exact FX|]. rewrite set_set.
    apply wp_post. eapply wp_set_prev; [apply pf_here|apply links_set; exact FX|]. rewrite set_set.
    eexists. split; [|exact H]. unfold ring. cbn [chain lst_of fst_of app]. rewrite chain_app, lst_of_app, !fst_of_app.
    cbn [chain lst_of fst_of app]. perm.
Qed.

Lemma wp_list_remove : forall l1 x kx fx l2 L F (Q : unit -> heaplet -> Prop), l1 ++ l2 <> [] ->
  flag kx = Some fx -> Forall (fun e => exists f, flag (snd e) = Some f) (l1 ++ l2) ->
  Permutation L (ring (l1 ++ (x, kx) :: l2) ++ F) -> Q tt ((x, set_links x x kx) :: ring (l1 ++ l2) ++ F) -> wp (uecho_list_remove x) L Q.
Proof.
  intros l1 x kx fx l2 L F Q NE FX FR P H. apply wp_post. eapply (wp_remove_first x kx fx (l2 ++ l1)).
  - intro X. apply app_eq_nil in X. destruct X; subst. apply NE. reflexivity.
  - exact FX.
  - apply Forall_app in FR. apply Forall_app. tauto.
  - eapply perm_trans; [exact P|]. apply Permutation_app_tail. eapply perm_trans; [apply ring_rotate|]. apply Permutation_refl.
  - eexists. split; [|exact H]. apply perm_skip, Permutation_app_tail, ring_rotate.
Qed.

Lemma wp_list_add : forall h kh fh ns x bx fx L F (Q : bool -> heaplet -> Prop),
  flag kh = Some fh -> flag bx = Some fx -> Forall (fun e => exists f, flag (snd e) = Some f) ns ->
  Permutation L ((x, bx) :: ring ((h, kh) :: ns) ++ F) ->
  Q true (ring ((h, kh) :: ns ++ [(x, bx)]) ++ F) -> wp (uecho_list_add h x) L Q.
Proof.
  intros h kh fh ns x bx fx L F Q FH FX FN P H. eapply wp_perm; [exact P|]. clear L P.
  destruct (flag_links _ _ FX) as (p0 & n0 & EX).
  destruct (snoc_cases _ ns) as [->|(m & [y ky] & ->)].
  - unfold ring. cbn [chain lst_of fst_of app]. unfold uecho_list_add. nz x. nz h. cbn [orb].
    apply wp_bind. eapply wp_load_links; [inl|apply links_set; exact FH|]. cbv beta iota.
    rewrite (pos_nz h) by assumption. apply wp_bind. unfold uecho_list_insert.
    rewrite (pos_nz h), (pos_nz x) by assumption. cbn [orb].
    apply wp_bind. eapply wp_set_prev; [apply pf_here|exact EX|].
    apply wp_bind. eapply wp_load_links; [inl|apply links_set; exact FH|]. cbn [snd].
    apply wp_bind. eapply wp_set_next; [apply pf_here|apply links_set; exact FX|]. rewrite set_set.
    apply wp_bind. eapply wp_load_links; [inl|apply links_set; exact FH|]. cbn [snd].
    apply wp_bind. eapply wp_set_prev; [eapply pf_cons; apply pf_here|apply links_set; exact FH|]. rewrite set_set.
    apply wp_bind. eapply wp_set_next; [apply pf_here|apply links_set; exact FH|]. rewrite set_set.
    apply wp_ret. apply wp_post, wp_ret. eexists. split; [|exact H]. unfold ring. cbn [chain lst_of fst_of app]. apply Permutation_refl.
  - apply Forall_app in FN. destruct FN as [FM FY]. apply Forall_inv in FY. destruct FY as [fy FY]. cbn [snd] in FY.
    unfold ring. cbn [chain lst_of fst_of app]. rewrite chain_app, lst_of_app, !fst_of_app. cbn [chain lst_of fst_of app].
    unfold uecho_list_add. nz x. nz h. nz y. cbn [orb].
    apply wp_bind. eapply wp_load_links; [inl|apply links_set; exact FH|]. cbv beta iota.
    rewrite (pos_nz y) by assumption. apply wp_bind. unfold uecho_list_insert.
    rewrite (pos_nz y), (pos_nz x) by assumption. cbn [orb].
    apply wp_bind. eapply wp_set_prev; [apply pf_here|exact EX|].
    apply wp_bind. eapply wp_load_links; [inl|apply links_set; exact FY|]. cbn [snd].
    apply wp_bind. eapply wp_set_next; [apply pf_here|apply links_set; exact FX|]. rewrite set_set.
    apply wp_bind. eapply wp_load_links; [inl|apply links_set; exact FY|]. cbn [snd].
    apply wp_bind. eapply (wp_set_prev h); [find_x|apply links_set; exact FH|]. rewrite set_set.
    apply wp_bind. eapply (wp_set_next y); [find_x|apply links_set; exact FY|]. rewrite set_set.
    apply wp_ret. apply wp_post, wp_ret. eexists. split; [|exact H]. unfold ring. cbn [chain lst_of fst_of app].
    rewrite !chain_app, !lst_of_app, !fst_of_app. cbn [chain lst_of fst_of app]. perm.
Qed.

(* the next element after the elements [l1] *)
Definition nodes (l : heaplet) : Prop := Forall (fun e => flag (snd e) = Some false) l.
Lemma nodes_flags : forall l, nodes l -> Forall (fun e => exists f, flag (snd e) = Some f) l.
Proof. intros l H. eapply Forall_impl; [|exact H]. intros e E. exists false. exact E. Qed.
Lemma ring_in : forall l1 a k l2, exists p, In (a, set_links p (fst_of (fst_of a l1) l2) k) (ring (l1 ++ (a, k) :: l2)).
Proof.
  intros l1 a k l2. eexists. unfold ring. rewrite chain_app. apply in_or_app. right. cbn [chain]. left.
  rewrite fst_of_app. reflexivity.
Qed.
Lemma wp_list_next : forall h kh l1 l2 L F (Q : Z -> heaplet -> Prop), flag kh = Some true -> nodes (l1 ++ l2) ->
  Permutation L (ring ((h, kh) :: l1 ++ l2) ++ F) -> Q (fst_of 0 l2) L ->
  wp (uecho_list_next (lst_of h l1)) L Q.
Proof.
  intros h kh l1 l2 L F Q FH FN P H.
  assert (E : exists a k p fa, lst_of h l1 = a /\ flag k = Some fa /\ In (a, set_links p (fst_of h l2) k) L).
  { destruct (snoc_cases _ l1) as [->|(m & [a k] & ->)].
    - destruct (ring_in [] h kh l2) as [p I]. exists h, kh, p, true. split; [reflexivity|]. split; [exact FH|].
      eapply Permutation_in; [apply Permutation_sym; exact P|]. apply in_or_app. left. exact I.
    - destruct (ring_in ((h, kh) :: m) a k l2) as [p I]. exists a, k, p, false. split; [rewrite lst_of_app; reflexivity|].
      apply Forall_app in FN. destruct FN as [FN _]. apply Forall_app in FN. destruct FN as [_ FN]. apply Forall_inv in FN.
      split; [exact FN|]. eapply Permutation_in; [apply Permutation_sym; exact P|]. apply in_or_app. left.
      rewrite <- app_assoc. exact I. }
  destruct E as (a & k & p & fa & -> & FK & I). unfold uecho_list_next. nz a.
  apply wp_bind. eapply wp_load_links; [exact I|apply links_set; exact FK|]. cbv beta iota.
  destruct l2 as [|[b kb] l2].
  - cbn [fst_of] in *. rewrite app_nil_r in P. assert (IH : exists p n, In (h, set_links p n kh) L).
    { destruct (ring_in [] h kh l1) as [q J]. exists q. eexists. eapply Permutation_in; [apply Permutation_sym; exact P|].
      apply in_or_app. left. exact J. }
    destruct IH as (q & n & IH). eapply (wp_pos _ _ _ _ h); [exact IH|intro PH]. rewrite (pos_nz h) by exact PH.
    apply wp_bind. eapply wp_load_links; [exact IH|apply links_set; exact FH|]. cbv beta iota. apply wp_ret. exact H.
  - cbn [fst_of] in *. assert (IH : exists p n, In (b, set_links p n kb) L).
    { destruct (ring_in ((h, kh) :: l1) b kb l2) as [q J]. exists q. eexists. eapply Permutation_in; [apply Permutation_sym; exact P|].
      apply in_or_app. left. exact J. }
    assert (FB : flag kb = Some false).
    { apply Forall_app in FN. destruct FN as [_ FN]. apply Forall_inv in FN. exact FN. }
    destruct IH as (q & n & IH). eapply (wp_pos _ _ _ _ b); [exact IH|intro PH]. rewrite (pos_nz b) by exact PH.
    apply wp_bind. eapply wp_load_links; [exact IH|apply links_set; exact FB|]. cbv beta iota. apply wp_ret. exact H.
Qed.

Lemma ring_length : forall l, length (ring l) = length l.
Proof. intro l. apply chain_length. Qed.
Lemma ring_one : forall h, ring [(h, BHead 0 0)] = [(h, BHead h h)].
Proof. reflexivity. Qed.
Ltac rperm := repeat match goal with |- context [ring ?x] => generalize (ring x); intro end; perm.

(* ---- a list of elements that own further blocks ---- *)

Section Lists.
Variable V : Type.
(* the element at [a] with struct [k] is the value [v] and owns the blocks of the heaplet, whatever its links *)
Variable B : Z -> blk -> V -> heaplet -> Prop.

Inductive items : heaplet -> list V -> heaplet -> Prop :=
| items_nil : items [] [] []
| items_cons : forall a k v Lx ns vs L, flag k = Some false -> B a k v Lx -> items ns vs L -> items ((a, k) :: ns) (v :: vs) (Lx ++ L).

Lemma items_nodes : forall ns vs L, items ns vs L -> nodes ns.
Proof. intros ns vs L H. induction H; constructor; assumption. Qed.
Lemma items_app : forall n1 v1 L1 n2 v2 L2, items n1 v1 L1 -> items n2 v2 L2 -> items (n1 ++ n2) (v1 ++ v2) (L1 ++ L2).
Proof.
  intros n1 v1 L1 n2 v2 L2 H1 H2. induction H1 as [|a k v Lx ns vs L E X H1 IH]; [exact H2|].
  cbn [app]. rewrite <- app_assoc. constructor; assumption.
Qed.
Lemma items_one : forall a k v Lx, flag k = Some false -> B a k v Lx -> items [(a, k)] [v] Lx.
Proof. intros a k v Lx E X. rewrite <- (app_nil_r Lx). constructor; [exact E|exact X|constructor]. Qed.
Lemma items_split : forall v1 v v2 ns L, items ns (v1 ++ v :: v2) L ->
  exists n1 a k n2 L1 Lx L2, ns = n1 ++ (a, k) :: n2 /\ L = L1 ++ Lx ++ L2 /\ items n1 v1 L1 /\ flag k = Some false /\ B a k v Lx /\ items n2 v2 L2.
Proof.
  induction v1 as [|w v1 IH]; intros v v2 ns L H; cbn [app] in H; inversion H as [|a k v' Lx ns' vs' L' E X Y]; subst.
  - exists [], a, k, ns', [], Lx, L'. cbn [app]. repeat split; auto. constructor.
  - destruct (IH v v2 ns' L' Y) as (n1 & a' & k' & n2 & L1 & Lx' & L2 & -> & -> & I1 & E' & X' & I2).
    exists ((a, k) :: n1), a', k', n2, (Lx ++ L1), Lx', L2. cbn [app]. rewrite <- app_assoc. repeat split; auto. constructor; assumption.
Qed.

Definition hblk : blk := BHead 0 0.
(* the list with header [h] *)
Definition rlist (h : Z) (vs : list V) (L : heaplet) : Prop :=
  exists ns Lx, items ns vs Lx /\ Permutation L (ring ((h, hblk) :: ns) ++ Lx).
(* the same, the element [v] between [v1] and [v2] is at [a] *)
Definition rl_at (h : Z) (v1 : list V) (a : Z) (v : V) (v2 : list V) (L : heaplet) : Prop :=
  exists n1 k n2 L1 Lx L2, items n1 v1 L1 /\ flag k = Some false /\ B a k v Lx /\ items n2 v2 L2
    /\ Permutation L (ring ((h, hblk) :: n1 ++ (a, k) :: n2) ++ L1 ++ Lx ++ L2).

Lemma rl_at_list : forall h v1 a v v2 L, rl_at h v1 a v v2 L -> rlist h (v1 ++ v :: v2) L.
Proof.
  intros h v1 a v v2 L (n1 & k & n2 & L1 & Lx & L2 & I1 & E & X & I2 & P).
  exists (n1 ++ (a, k) :: n2), (L1 ++ Lx ++ L2). split; [|exact P]. apply items_app; [exact I1|].
  constructor; assumption.
Qed.
Lemma rlist_perm : forall h vs L L', rlist h vs L -> Permutation L L' -> rlist h vs L'.
Proof. intros h vs L L' (ns & Lx & I & P) Q. exists ns, Lx. split; [exact I|]. eapply perm_trans; [apply Permutation_sym; exact Q|exact P]. Qed.
Lemma rl_at_perm : forall h v1 a v v2 L L', rl_at h v1 a v v2 L -> Permutation L L' -> rl_at h v1 a v v2 L'.
Proof.
  intros h v1 a v v2 L L' (n1 & k & n2 & L1 & Lx & L2 & I1 & E & X & I2 & P) Q. exists n1, k, n2, L1, Lx, L2. repeat split; auto.
  eapply perm_trans; [apply Permutation_sym; exact Q|exact P].
Qed.
Lemma rlist_head : forall h vs L, rlist h vs L -> exists p n, In (h, BHead p n) L.
Proof.
  intros h vs L (ns & Lx & I & P). destruct (ring_in [] h hblk ns) as [q J]. exists q. eexists.
  eapply Permutation_in; [apply Permutation_sym; exact P|]. apply in_or_app. left. exact J.
Qed.
Lemma rlist_new : forall h, rlist h [] [(h, BHead h h)].
Proof. intro h. exists [], []. split; [constructor|]. unfold hblk. rewrite ring_one. apply Permutation_refl. Qed.
Lemma rlist_nil : forall h L, rlist h [] L -> L = [(h, BHead h h)].
Proof.
  intros h L (ns & Lx & I & P). inversion I; subst. unfold hblk in P. rewrite ring_one in P. cbn [app] in P. apply Permutation_sym, Permutation_length_1_inv in P. exact P.
Qed.

(* change one element *)
Lemma rl_focus : forall h v1 a v v2 L, rl_at h v1 a v v2 L ->
  exists p n k Lx R, flag k = Some false /\ B a k v Lx /\ Permutation L ((a, set_links p n k) :: Lx ++ R)
   /\ forall k' v' Lx', flag k' = Some false -> B a k' v' Lx' -> rl_at h v1 a v' v2 ((a, set_links p n k') :: Lx' ++ R).
Proof.
  intros h v1 a v v2 L (n1 & k & n2 & L1 & Lx & L2 & I1 & E & X & I2 & P).
  exists (lst_of a (n2 ++ (h, hblk) :: n1)), (fst_of a (n2 ++ (h, hblk) :: n1)), k, Lx, (chain a (n2 ++ (h, hblk) :: n1) a ++ L1 ++ L2).
  split; [exact E|]. split; [exact X|]. split.
  - eapply perm_trans; [exact P|].
    eapply perm_trans; [apply Permutation_app_tail, (ring_at ((h, hblk) :: n1) a k n2)|]. rperm.
  - intros k' v' Lx' E' X'. exists n1, k', n2, L1, Lx', L2. split; [exact I1|]. split; [exact E'|]. split; [exact X'|]. split; [exact I2|].
    apply Permutation_sym.
    eapply perm_trans; [apply Permutation_app_tail, (ring_at ((h, hblk) :: n1) a k' n2)|]. rperm.
Qed.

Lemma wp_rl_add : forall h vs Lr x k v Lx L F (Q : bool -> heaplet -> Prop), rlist h vs Lr -> flag k = Some false -> B x k v Lx ->
  Permutation L ((x, k) :: Lx ++ Lr ++ F) ->
  (forall Lr', rl_at h vs x v [] Lr' -> Q true (Lr' ++ F)) -> wp (uecho_list_add h x) L Q.
Proof.
  intros h vs Lr x k v Lx L F Q (ns & Ln & I & P) E X PL H. apply wp_post.
  eapply (wp_list_add h hblk true ns x k false _ (Ln ++ Lx ++ F)); [reflexivity|exact E|apply nodes_flags; eapply items_nodes; exact I| |].
  - eapply perm_trans; [exact PL|]. apply perm_skip.
    eapply perm_trans; [apply Permutation_app_head, Permutation_app_tail; exact P|]. rperm.
  - exists ((ring ((h, hblk) :: ns ++ [(x, k)]) ++ Ln ++ Lx) ++ F). split; [rperm|]. apply H.
    exists ns, k, [], Ln, Lx, []. rewrite app_nil_r. repeat split; auto. constructor.
Qed.

Lemma wp_rl_remove : forall h v1 x v v2 Lr L F (Q : unit -> heaplet -> Prop), rl_at h v1 x v v2 Lr -> Permutation L (Lr ++ F) ->
  (forall k Lx R, flag k = Some false -> B x k v Lx -> rlist h (v1 ++ v2) R -> Q tt ((x, set_links x x k) :: Lx ++ R ++ F)) ->
  wp (uecho_list_remove x) L Q.
Proof.
  intros h v1 x v v2 Lr L F Q (n1 & k & n2 & L1 & Lx & L2 & I1 & E & X & I2 & P) PL H. apply wp_post.
  pose proof (items_nodes _ _ _ (items_app _ _ _ _ _ _ I1 I2)) as N.
  eapply (wp_list_remove ((h, hblk) :: n1) x k false n2 _ (L1 ++ Lx ++ L2 ++ F)); [discriminate|exact E| | |].
  - cbn [app]. constructor; [exists true; reflexivity|]. apply nodes_flags. exact N.
  - cbn [app]. eapply perm_trans; [exact PL|]. eapply perm_trans; [apply Permutation_app_tail; exact P|]. rperm.
  - cbn [app]. exists ((x, set_links x x k) :: Lx ++ (ring ((h, hblk) :: n1 ++ n2) ++ L1 ++ L2) ++ F). split; [rperm|].
    apply H; [exact E|exact X|]. exists (n1 ++ n2), (L1 ++ L2). split; [apply items_app; assumption|apply Permutation_refl].
Qed.

(* the loop that looks for an element *)
Lemma wp_find : forall (hit : Z -> mm bool) (t : V -> bool) h vs Lr L F (Q : Z -> heaplet -> Prop), rlist h vs Lr -> Permutation L (Lr ++ F) ->
  (forall a k v Lx p n (R : bool -> heaplet -> Prop), B a k v Lx -> flag k = Some false -> In v vs ->
     In (a, set_links p n k) L -> incl Lx L -> R (t v) L -> wp (hit a) L R) ->
  (Forall (fun v => t v = false) vs -> Q 0 L) ->
  (forall v1 a v v2, vs = v1 ++ v :: v2 -> Forall (fun v => t v = false) v1 -> t v = true -> 0 < a -> rl_at h v1 a v v2 Lr -> Q a L) ->
  wp (find_in h hit) L Q.
Proof.
  intros hit t h vs Lr L F Q (ns & Ln & I & P) PL HH H0 H1. unfold find_in.
  assert (PL' : Permutation L (ring ((h, hblk) :: ns) ++ Ln ++ F)).
  { eapply perm_trans; [exact PL|]. eapply perm_trans; [apply Permutation_app_tail; exact P|]. rperm. }
  assert (N := items_nodes _ _ _ I).
  apply wp_bind. change h with (lst_of h []). eapply (wp_list_next h hblk [] ns); [reflexivity|exact N|exact PL'|].
  apply wp_walk. intros n LN.
  assert (LE : (length ns <= n)%nat).
  { pose proof (Permutation_length PL') as X. rewrite app_length in X. rewrite ring_length in X. cbn [length] in X. lia. }
  clear LN.
  assert (G : forall n2 n1 v1 v2 L1 L2 n, ns = n1 ++ n2 -> vs = v1 ++ v2 -> items n1 v1 L1 -> items n2 v2 L2 -> Ln = L1 ++ L2 ->
     Forall (fun v => t v = false) v1 -> (length n2 <= n)%nat -> wp (find_loop hit n (fst_of 0 n2)) L Q).
  { induction n2 as [|[a k] n2 IH]; intros n1 v1 v2 L1 L2 m En Ev I1 I2 EL FA LM.
    - inversion I2; subst v2 L2. destruct m; cbn [find_loop fst_of Z.eqb]; apply wp_ret; apply H0; rewrite Ev, app_nil_r; exact FA.
    - inversion I2 as [|a' k' v Lx ns' vs' L' E X Y]; subst a' k' ns' v2 L2. cbn [fst_of].
      assert (IA : exists p, In (a, set_links p (fst_of h n2) k) L).
      { destruct (ring_in ((h, hblk) :: n1) a k n2) as [p J]. exists p. eapply Permutation_in; [apply Permutation_sym; exact PL'|].
        apply in_or_app. left. rewrite En. exact J. }
      destruct IA as [p IA]. destruct m as [|m]; [cbn [length] in LM; lia|]. cbn [find_loop].
      eapply (wp_pos _ _ _ _ a); [exact IA|intro PA]. rewrite (pos_nz a) by exact PA.
      apply wp_bind. eapply HH; [exact X|exact E|rewrite Ev; apply in_or_app; right; left; reflexivity|exact IA| |].
      { intros z J. eapply Permutation_in; [apply Permutation_sym; exact PL'|]. apply in_or_app. right. apply in_or_app. left.
        rewrite EL. apply in_or_app. right. apply in_or_app. left. exact J. }
      destruct (t v) eqn:ET.
      + apply wp_ret. eapply (H1 v1 a v vs'); [exact Ev|exact FA|exact ET|exact PA|].
        exists n1, k, n2, L1, Lx, L'. split; [exact I1|]. split; [exact E|]. split; [exact X|]. split; [exact Y|].
        rewrite <- En, <- EL. exact P.
      + apply wp_bind. assert (EN2 : ns = (n1 ++ [(a, k)]) ++ n2) by (rewrite <- app_assoc; exact En).
        replace a with (lst_of h (n1 ++ [(a, k)])) by (rewrite lst_of_app; reflexivity).
        eapply (wp_list_next h hblk (n1 ++ [(a, k)]) n2); [reflexivity|rewrite <- EN2; exact N|rewrite <- EN2; exact PL'|].
        eapply (IH (n1 ++ [(a, k)]) (v1 ++ [v]) vs' (L1 ++ Lx) L').
        * exact EN2.
        * rewrite <- app_assoc. exact Ev.
        * apply items_app; [exact I1|]. apply items_one; assumption.
        * exact Y.
        * rewrite <- app_assoc. exact EL.
        * apply Forall_app. split; [exact FA|]. constructor; [exact ET|constructor].
        * cbn [length] in LM. lia. }
  eapply (G ns [] [] vs [] Ln); try reflexivity; [constructor|exact I|constructor|exact LE].
Qed.

(* deleting every element *)
Lemma wp_clear : forall (del : Z -> mm unit) h vs Lr L F (Q : bool -> heaplet -> Prop), rlist h vs Lr -> Permutation L (Lr ++ F) ->
  (forall a k v Lx L' F' (R : unit -> heaplet -> Prop), B a k v Lx -> flag k = Some false -> In v vs ->
     Permutation L' ((a, set_links a a k) :: Lx ++ F') -> incl F F' -> R tt F' -> wp (del a) L' R) ->
  Q true ((h, BHead h h) :: F) -> wp (uecho_list_clear h del) L Q.
Proof.
  intros del h vs Lr L F Q (ns & Ln & I & P) PL HD H. unfold uecho_list_clear.
  assert (PL' : Permutation L (ring ((h, hblk) :: ns) ++ Ln ++ F)).
  { eapply perm_trans; [exact PL|]. eapply perm_trans; [apply Permutation_app_tail; exact P|]. rperm. }
  assert (N := items_nodes _ _ _ I).
  destruct (ring_in [] h hblk ns) as [q J]. cbn [app] in J.
  eapply (wp_pos _ _ _ _ h); [eapply Permutation_in; [apply Permutation_sym; exact PL'|]; apply in_or_app; left; exact J|intro PH].
  rewrite (pos_nz h) by exact PH. clear q J.
  apply wp_bind. change h with (lst_of h []) at 1. eapply (wp_list_next h hblk [] ns); [reflexivity|exact N|exact PL'|].
  apply wp_bind, wp_walk. intros n LN.
  assert (LE : (length ns <= n)%nat).
  { pose proof (Permutation_length PL') as X. rewrite app_length in X. rewrite ring_length in X. cbn [length] in X. lia. }
  clear LN P PL.
  assert (G : forall ns us Ln n L, items ns us Ln -> incl us vs -> (length ns <= n)%nat -> Permutation L (ring ((h, hblk) :: ns) ++ Ln ++ F) ->
     wp (clear_loop del n (fst_of 0 ns)) L (fun _ L' => wp (ret true) L' Q)).
  { clear ns Ln I N n LE L PL'. induction ns as [|[a k] ns IH]; intros us Ln m L I IU LM PL.
    - inversion I; subst us Ln. destruct m; cbn [clear_loop fst_of Z.eqb]; apply wp_ret; apply wp_post, wp_ret;
        (eexists; split; [|exact H]); eapply perm_trans; [exact PL| |exact PL|]; unfold hblk; rewrite ring_one; apply Permutation_refl.
    - inversion I as [|a' k' v Lx ns' vs' L' E X Y]; subst a' k' ns' us Ln. cbn [fst_of].
      destruct m as [|m]; [cbn [length] in LM; lia|]. cbn [clear_loop].
      assert (IA : exists p, In (a, set_links p (fst_of h ns) k) L).
      { destruct (ring_in [(h, hblk)] a k ns) as [p J]. exists p. eapply Permutation_in; [apply Permutation_sym; exact PL|].
        apply in_or_app. left. exact J. }
      destruct IA as [p IA]. eapply (wp_pos _ _ _ _ a); [exact IA|intro PA]. rewrite (pos_nz a) by exact PA.
      pose proof (items_nodes _ _ _ I) as N. pose proof (items_nodes _ _ _ Y) as N'.
      apply wp_bind. change a with (lst_of h [(a, k)]) at 1.
      eapply (wp_list_next h hblk [(a, k)] ns); [reflexivity|exact N|exact PL|].
      apply wp_bind. eapply (wp_list_remove [(h, hblk)] a k false ns); [discriminate|exact E| |exact PL|].
      { constructor; [exists true; reflexivity|]. apply nodes_flags. exact N'. }
      apply wp_bind. eapply (HD a k v Lx _ (ring ((h, hblk) :: ns) ++ L' ++ F)); [exact X|exact E|apply IU; left; reflexivity| | |].
      + cbn [app]. rperm.
      + intros z J. apply in_or_app. right. apply in_or_app. right. exact J.
      + eapply (IH vs' L'); [exact Y|intros z J; apply IU; right; exact J|cbn [length] in LM; lia|apply Permutation_refl]. }
  eapply G; [exact I|intros z J; exact J|exact LE|exact PL'].
Qed.
End Lists.
Arguments rlist {V}. Arguments rl_at {V}. Arguments items {V}.
