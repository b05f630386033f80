(* The nodes of a controller in the heap. *)
From Coq Require Import String Ascii ZArith List Bool Lia Permutation.
From Coq Require Import ZifyBool ZifyNat.
Ltac Zify.zify_post_hook ::= Z.div_mod_to_equations.
From Verif Require Import CSem P_Base M_Const M_Misc M_String M_Property M_PropertyList P_PropertyList M_Log M_Message M_Object M_Node M_NodeListener M_Controller
  M_Mem M_MemUse M_ObjMem M_Life M_NodeMem M_NodeLife M_CtrlMem Spec_Message P_Mem P_MemMsg P_MemParse P_MemProp P_MemBytes P_MemCopy P_MemPkt P_MemRun P_Ring P_ObjProp P_ObjCache P_ObjMem P_ObjUse P_ObjStd
  P_Object P_ObjectRun P_ObjectReach P_ObjRun P_Life P_LifeRun P_NodeMem P_NodeRecv P_NodeLife P_NodeBuild P_NodeAlive P_NodeWhole P_CtrlProp P_CtrlUpdate.
From Verif Require P_MemRecv Spec_Mem P_MsgApi.
Import ListNotations.
Open Scope Z_scope.

(* ---- texts ---- *)

Lemma cstr_inj : forall s t, cstr s = cstr t -> s = t.
Proof. intros s t E. rewrite <- (text_string_cstr s), <- (text_string_cstr t), E. reflexivity. Qed.
Lemma cstr_eqb : forall s t, bytes_eqb (cstr s) (cstr t) = String.eqb s t.
Proof.
  intros s t. destruct (String.eqb s t) eqn:E.
  - apply String.eqb_eq in E. subst t. apply P_MsgApi.bytes_eqb_iff. reflexivity.
  - destruct (bytes_eqb (cstr s) (cstr t)) eqn:E2; [|reflexivity]. apply P_MsgApi.bytes_eqb_iff in E2. apply cstr_inj in E2. subst t.
    rewrite String.eqb_refl in E. discriminate.
Qed.
Lemma wp_text : forall p t L (Q : _ -> heaplet -> Prop), In (p, BBytes (map Some t ++ [Some 0])) L -> plain t -> Q t L -> wp (text_at p) L Q.
Proof. intros p t L Q I T H. unfold text_at. apply wp_bind. eapply wp_load_bytes; [exact I|]. eapply wp_lift; [apply cells_text_plain; exact T|exact H]. Qed.
Lemma wp_streq : forall p a q b L (Q : bool -> heaplet -> Prop), addr_arg p a L -> addr_arg q b L ->
  Q (match a, b with Some x, Some y => String.eqb x y | _, _ => false end) L -> wp (uecho_streq p q) L Q.
Proof.
  intros p a q b L Q A B H. unfold uecho_streq. destruct a as [x|]; cbn [addr_arg] in A.
  - destruct A as (IA & PA & _). nz p. cbn [orb]. destruct b as [y|]; cbn [addr_arg] in B.
    + destruct B as (IB & PB & _). nz q. apply wp_bind. eapply wp_text; [exact IA|exact PA|]. apply wp_bind. eapply wp_text; [exact IB|exact PB|].
      rewrite cstr_eqb. apply wp_ret. exact H.
    + subst q. cbn [Z.eqb]. apply wp_ret. exact H.
  - subst p. cbn [Z.eqb orb]. apply wp_ret. exact H.
Qed.
Lemma wp_read_text : forall p o L (Q : _ -> heaplet -> Prop), addr_arg p o L -> Q (option_map cstr o) L -> wp (read_text p) L Q.
Proof.
  intros p [s|] L Q A H; cbn [addr_arg option_map] in *; unfold read_text.
  - destruct A as (I & T & _). nz p. apply wp_bind. eapply wp_text; [exact I|exact T|]. apply wp_ret. exact H.
  - subst p. cbn [Z.eqb]. apply wp_ret. exact H.
Qed.

(* ---- one node ---- *)

Lemma node_block : forall w nd n N, node_in w nd n N -> exists ps, In (nd, nblk (at_prev w) (at_next w) ps (n_tid n)) N /\ (nd =? 0) = false /\ (node_server ps =? 0) = false
  /\ length ps = 7%nat /\ nth 6 ps 0 = at_ctrl w /\ n_listener n = negb (node_msglistener ps =? 0)
  /\ exists La, str_rep (node_address ps) (option_map cstr (n_addr n)) La /\ incl La N.
Proof.
  intros w nd n N (ps & Lr & Lc & Lx & L7 & HE & (Ls & La & SA & ST & LI & KK & PX) & P). exists ps. pose proof HE as (ND & SV & _).
  assert (I : forall x, In x ((nd, nblk (at_prev w) (at_next w) ps (n_tid n)) :: Lr ++ Lc ++ Lx) -> In x N) by (intros x X; eapply Permutation_in; [apply Permutation_sym; exact P|exact X]).
  split; [apply I; left; reflexivity|]. split; [exact ND|]. split; [exact SV|]. split; [exact L7|]. split; [exact KK|]. split; [exact LI|].
  exists La. split; [exact ST|]. intros x X. apply I. right. apply in_or_app. right. apply in_or_app. right.
  eapply Permutation_in; [apply Permutation_sym; exact PX|]. right. apply in_or_app. right. exact X.
Qed.

Lemma wp_node_getaddress : forall w nd n N L (Q : Z -> heaplet -> Prop), node_in w nd n N -> incl N L ->
  (forall p, addr_arg p (n_addr n) N -> Q p L) -> wp (uecho_node_getaddress nd) L Q.
Proof.
  intros w nd n N L Q NR I H. destruct (node_block _ _ _ _ NR) as (ps & IB & ND & SV & L7 & KK & LI & La & ST & IA).
  unfold uecho_node_getaddress. rewrite ND. apply wp_bind. eapply wp_load_elem; [apply I; exact IB|]. cbn [snd].
  eapply (wp_getvalue_arg _ (n_addr n) La); [exact ST|intros x X; apply I, IA, X|]. intros p A. apply H. eapply addr_arg_incl; [exact A|exact IA].
Qed.
Lemma wp_node_isaddress : forall w nd n N p a L (Q : bool -> heaplet -> Prop), node_in w nd n N -> incl N L -> addr_arg p a L ->
  Q (M_Controller.uecho_node_isaddress n a) L -> wp (uecho_node_isaddress nd p) L Q.
Proof.
  intros w nd n N p a L Q NR I A H. destruct (node_block _ _ _ _ NR) as (ps & IB & ND & SV & L7 & KK & LI & La & ST & IA).
  unfold uecho_node_isaddress. rewrite ND. apply wp_bind. eapply wp_load_elem; [apply I; exact IB|]. cbn [snd].
  assert (IS : exists b, In (node_address ps, b) L).
  { destruct (n_addr n) as [s|]; cbn [option_map str_rep] in ST.
    - destruct ST as (_ & _ & v & ->). eexists. apply I, IA. left. reflexivity.
    - subst La. eexists. apply I, IA. left. reflexivity. }
  destruct IS as (b & IS). nz (node_address ps). apply wp_bind.
  eapply (wp_getvalue_arg _ (n_addr n) La); [exact ST|intros x X; apply I, IA, X|]. intros q AQ.
  eapply (wp_streq q (n_addr n) p a); [eapply addr_arg_incl; [exact AQ|intros x X; apply I, IA, X]|exact A|exact H].
Qed.
Lemma wp_shown : forall w nd n N s L (Q : _ -> heaplet -> Prop), node_in w nd n N -> incl N L -> Q (ToldStatus (n_addr n) s) L -> wp (M_CtrlMem.shown nd s) L Q.
Proof.
  intros w nd n N s L Q NR I H. unfold M_CtrlMem.shown. apply wp_bind. eapply wp_node_getaddress; [exact NR|exact I|]. intros p A.
  apply wp_bind. eapply wp_read_text; [eapply addr_arg_incl; [exact A|exact I]|]. apply wp_ret.
  replace (option_map M_NodeMem.text_string (option_map cstr (n_addr n))) with (n_addr n); [exact H|].
  destruct (n_addr n) as [t|]; [|reflexivity]. cbn [option_map]. rewrite text_string_cstr. reflexivity.
Qed.
Lemma wp_tell : forall (b : bool) w nd n N s L (Q : list ctold -> heaplet -> Prop), node_in w nd n N -> incl N L -> Q (if b then [ToldStatus (n_addr n) s] else []) L -> wp (M_CtrlMem.tell b nd s) L Q.
Proof.
  intros [|] w nd n N s L Q NR I H; unfold M_CtrlMem.tell; [|apply wp_ret; exact H].
  apply wp_bind. eapply wp_shown; [exact NR|exact I|]. apply wp_ret. exact H.
Qed.

Lemma wp_set_ptr : forall a k v p n c l L F (Q : unit -> heaplet -> Prop), Permutation L ((a, BElem p n c l) :: F) ->
  Q tt ((a, BElem p n c (put_ptr k v l)) :: F) -> wp (set_ptr a k v) L Q.
Proof.
  intros a k v p n c l L F Q P H. eapply wp_perm; [exact P|]. unfold set_ptr. apply wp_bind. eapply wp_load; [left; reflexivity|].
  eapply wp_store; [apply Permutation_refl|]. exact H.
Qed.
Lemma wp_setcontroller : forall ob c0 p q nd n N c L F (Q : unit -> heaplet -> Prop), node_in (mkPlace ob c0 p q) nd n N -> Permutation L (N ++ F) ->
  (forall N', node_in (mkPlace ob c p q) nd n N' -> Q tt (N' ++ F)) -> wp (uecho_node_setcontroller nd c) L Q.
Proof.
  intros ob c0 p q nd n N c L F Q NR P H. destruct (node_open _ _ _ _ _ _ NR P) as (ps & Lr & Lc & Lx & L7 & HE & EX & P'). cbn [at_prev at_next] in *.
  destruct ps as [|m [|cl [|ol [|s [|a [|wl [|k [|]]]]]]]]; try discriminate L7.
  pose proof HE as (ND & _). unfold uecho_node_setcontroller. rewrite ND. unfold nblk in P'. apply wp_post. eapply wp_set_ptr; [exact P'|]. cbn [put_ptr].
  set (ps' := [m; cl; ol; s; a; wl; c]).
  eexists. split; [|apply (H ((nd, nblk p q ps' (n_tid n)) :: Lr ++ Lc ++ Lx))].
  - unfold nblk. cbn [app]. perm.
  - exists ps', Lr, Lc, Lx. split; [reflexivity|]. cbn [at_prev at_next]. split.
    { destruct HE as (A & B & C & D). split; [exact A|]. split; [exact B|]. split; [exact C|exact D]. }
    split; [|apply Permutation_refl]. destruct EX as (Ls & La & A & B & C & C2 & D). exists Ls, La. split; [exact A|]. split; [exact B|]. split; [exact C|]. split; [reflexivity|exact D].
Qed.

(* ---- the list ---- *)

(* the node of a list at [a], with its controller *)
Definition sbody (a : Z) (k : blk) (v : node * Z) (Lx : heaplet) : Prop :=
  forall p q, node_in (mkPlace [a] (snd v) p q) a (fst v) ((a, set_links p q k) :: Lx).
Definition shadows (ct : Z) (l : list node) : list (node * Z) := map (fun n => (n, ct)) l.

Lemma shadow_close : forall a c p q n N, node_in (mkPlace [a] c p q) a n N -> exists t ps Lx, Permutation N ((a, BElem p q t ps) :: Lx) /\ sbody a (BElem p q t ps) (n, c) Lx.
Proof.
  intros a c p q n N (ps & Lr & Lc & Lx & L7 & HE & EX & P). cbn [at_prev at_next] in *. exists (n_tid n), ps, (Lr ++ Lc ++ Lx). split; [exact P|].
  intros p' q'. cbn [fst snd set_links]. exists ps, Lr, Lc, Lx. split; [exact L7|]. cbn [at_prev at_next]. split; [exact HE|]. split; [|apply Permutation_refl]. exact EX.
Qed.
Lemma shadow_focus : forall h v1 a n c v2 L, rl_at sbody h v1 a (n, c) v2 L -> exists p q N R, node_in (mkPlace [a] c p q) a n N /\ Permutation L (N ++ R)
  /\ forall n' c' N', node_in (mkPlace [a] c' p q) a n' N' -> rl_at sbody h v1 a (n', c') v2 (N' ++ R).
Proof.
  intros h v1 a n c v2 L RA. destruct (rl_focus _ _ _ _ _ _ _ _ RA) as (p & q & k & Lx & R & FB & B & P & G).
  exists p, q, ((a, set_links p q k) :: Lx), R. split; [exact (B p q)|]. split; [exact P|]. intros n' c' N' NR.
  destruct (shadow_close _ _ _ _ _ _ NR) as (t & ps & Ly & PN & SB). eapply rl_at_perm; [exact (G (BElem p q t ps) (n', c') Ly eq_refl SB)|].
  cbn [set_links]. apply Permutation_sym. exact (Permutation_app_tail R PN).
Qed.

Lemma shadows_split : forall ct l v1 v v2, shadows ct l = v1 ++ v :: v2 -> exists l1 n l2, l = l1 ++ n :: l2 /\ v1 = shadows ct l1 /\ v = (n, ct) /\ v2 = shadows ct l2.
Proof.
  intros ct l. induction l as [|m l IH]; intros [|x v1] v v2 E; try discriminate E; cbn in E; injection E as E1 E2.
  - exists [], m, l. subst. auto.
  - destruct (IH _ _ _ E2) as (l1 & n & l2 & -> & -> & -> & ->). exists (m :: l1), n, l2. subst. auto.
Qed.

Lemma byaddr_none : forall a l, Forall (fun n => M_Controller.uecho_node_isaddress n a = false) l -> node_byaddress l a = None.
Proof. intros a l H. induction H as [|n l E _ IH]; [reflexivity|]. cbn [node_byaddress]. rewrite E. exact IH. Qed.
Lemma byaddr_mid : forall a l1 n l2, Forall (fun n => M_Controller.uecho_node_isaddress n a = false) l1 -> M_Controller.uecho_node_isaddress n a = true ->
  node_byaddress (l1 ++ n :: l2) a = Some n /\ forall n', put_node a n' (l1 ++ n :: l2) = l1 ++ n' :: l2.
Proof.
  intros a l1 n l2 H T. induction H as [|m l E _ IH]; cbn [app node_byaddress put_node]; [rewrite T; auto|]. rewrite E. destruct IH as [-> G].
  split; [reflexivity|]. intro n'. rewrite G. reflexivity.
Qed.
Lemma forall_shadows : forall ct (t : node -> bool) l, Forall (fun v => t (fst v) = false) (shadows ct l) -> Forall (fun n => t n = false) l.
Proof. intros ct t l. induction l as [|n l IH]; intro H; constructor; inversion H; subst; auto. Qed.

Lemma wp_nodes_find : forall ct h nodes Ls p a L F (Q : Z -> heaplet -> Prop), rlist sbody h (shadows ct nodes) Ls -> Permutation L (Ls ++ F) -> addr_arg p a L ->
  (node_byaddress nodes a = None -> Q 0 L) ->
  (forall l1 nd n l2, nodes = l1 ++ n :: l2 -> node_byaddress nodes a = Some n -> (forall n', put_node a n' nodes = l1 ++ n' :: l2) -> M_Controller.uecho_node_isaddress n a = true -> 0 < nd ->
     rl_at sbody h (shadows ct l1) nd (n, ct) (shadows ct l2) Ls -> Q nd L) ->
  wp (find_in h (fun nd => uecho_node_isaddress nd p)) L Q.
Proof.
  intros ct h nodes Ls p a L F Q RL P A H0 H1.
  eapply (wp_find _ sbody _ (fun v => M_Controller.uecho_node_isaddress (fst v) a) h _ Ls L F); [exact RL|exact P| | |].
  - intros x k v Lx pv nx R B FB _ I IX HR. eapply wp_node_isaddress; [exact (B pv nx)| |exact A|exact HR].
    intros y [<-|Y]; [exact I|exact (IX y Y)].
  - intro FA. apply H0, byaddr_none. exact (forall_shadows ct (fun n => M_Controller.uecho_node_isaddress n a) nodes FA).
  - intros v1 x v v2 E FA T X RA. destruct (shadows_split _ _ _ _ _ E) as (l1 & n & l2 & -> & -> & -> & ->). cbn [fst] in T.
    pose proof (forall_shadows ct (fun n => M_Controller.uecho_node_isaddress n a) l1 FA) as FA'. destruct (byaddr_mid a l1 n l2 FA' T) as [E1 E2].
    eapply H1; [reflexivity|exact E1|exact E2|exact T|exact X|exact RA].
Qed.

Lemma wp_nodes_clear : forall ct h nodes Ls L F (Q : bool -> heaplet -> Prop), rlist sbody h (shadows ct nodes) Ls -> Permutation L (Ls ++ F) ->
  (rlist sbody h (shadows ct []) [(h, BHead h h)] -> Q true ((h, BHead h h) :: F)) -> wp (uecho_nodelist_clear h) L Q.
Proof.
  intros ct h nodes Ls L F Q RL P H. unfold uecho_nodelist_clear.
  eapply (P_Ring.wp_clear _ sbody node_destructor h _ Ls L F); [exact RL|exact P| |apply H; apply rlist_new].
  intros a k v Lx L' F' R B FB _ P' _ HR. unfold node_destructor. apply wp_bind.
  eapply (wp_node_delete _ _ _ _ L' F'); [| |exact (B a a)|exact P'|apply wp_ret; exact HR]; reflexivity.
Qed.
Lemma wp_nodes_delete : forall ct h nodes Ls L F (Q : unit -> heaplet -> Prop), rlist sbody h (shadows ct nodes) Ls -> Permutation L (Ls ++ F) -> Q tt F -> wp (uecho_nodelist_delete h) L Q.
Proof.
  intros ct h nodes Ls L F Q RL P H. unfold uecho_nodelist_delete. destruct (rlist_head _ _ _ _ _ RL) as (p & q & I).
  assert (I' : In (h, BHead p q) L) by (eapply Permutation_in; [apply Permutation_sym; exact P|apply in_or_app; left; exact I]). nz h.
  apply wp_bind. eapply wp_nodes_clear; [exact RL|exact P|]. intros _. eapply wp_free; [apply Permutation_refl|exact H].
Qed.
Lemma wp_nodes_count : forall ct h nodes Ls L F (Q : Z -> heaplet -> Prop), rlist sbody h (shadows ct nodes) Ls -> Permutation L (Ls ++ F) -> Q (len nodes) L ->
  wp (let! a := uecho_list_next h in walk (fun n => size_loop n a 0)) L Q.
Proof.
  intros ct h nodes Ls L F Q RL P H. eapply wp_perm; [exact P|]. apply wp_post.
  eapply (wp_gather (fun _ => true) (fun _ => eq_refl) (fun _ => 0) _ sbody Z size_loop (fun done s Lb => s = len done /\ Lb = []) h (shadows ct nodes) Ls F); [exact RL|intros [|n] s; reflexivity| | |apply (Permutation_refl ([] ++ Ls ++ F))|].
  - intros k a kb v Lv done s Lb p nx L' R B FB I IL (-> & ->) P' G. eapply wp_perm; [exact P'|]. cbn [app size_loop].
    assert (Ia : In (a, set_links p nx kb) (Ls ++ F)) by (apply in_or_app; left; exact I). nz a.
    apply (G (len done + 1) []). split; [rewrite len_app; reflexivity|reflexivity].
  - split; reflexivity.
  - intros s' Lb' (-> & ->). cbn [app]. eexists. split; [apply Permutation_sym; exact P|]. unfold shadows. rewrite len_map. exact H.
Qed.

(* a node alone joins the list *)
Lemma wp_nodes_add : forall ct h nodes Ls nd n N L F (Q : bool -> heaplet -> Prop), rlist sbody h (shadows ct nodes) Ls -> node_rep nd n N -> Permutation L (N ++ Ls ++ F) ->
  (forall Ls', rl_at sbody h (shadows ct nodes) nd (n, 0) [] Ls' -> Q true (Ls' ++ F)) -> wp (uecho_list_add h nd) L Q.
Proof.
  intros ct h nodes Ls nd n N L F Q RL NR P H. destruct (shadow_close _ _ _ _ _ _ NR) as (t & ps & Lx & PN & SB).
  eapply (wp_rl_add _ sbody h _ Ls nd (BElem nd nd t ps) (n, 0) Lx L F); [exact RL|reflexivity|exact SB| |exact H].
  eapply perm_trans; [exact P|]. eapply perm_trans; [exact (Permutation_app_tail (Ls ++ F) PN)|]. cbn [app]. perm.
Qed.
Lemma wp_join : forall h v1 nd n c0 v2 Ls c L F (Q : unit -> heaplet -> Prop), rl_at sbody h v1 nd (n, c0) v2 Ls -> Permutation L (Ls ++ F) ->
  (forall Ls', rl_at sbody h v1 nd (n, c) v2 Ls' -> Q tt (Ls' ++ F)) -> wp (uecho_node_setcontroller nd c) L Q.
Proof.
  intros h v1 nd n c0 v2 Ls c L F Q RA P H. destruct (shadow_focus _ _ _ _ _ _ _ RA) as (p & q & N & R & NR & PL & G).
  apply wp_post. eapply (wp_setcontroller _ _ _ _ _ _ N c L (R ++ F)); [exact NR| |].
  - eapply perm_trans; [exact P|]. eapply perm_trans; [exact (Permutation_app_tail F PL)|]. perm.
  - intros N' NR'. eexists. split; [|apply (H _ (G _ _ _ NR'))]. perm.
Qed.
