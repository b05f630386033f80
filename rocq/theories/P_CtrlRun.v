(* Every call on a controller in the heap. *)
From Coq Require Import String Ascii ZArith List Bool Lia Permutation.
From Coq Require Import ZifyBool ZifyNat.
Ltac Zify.zify_post_hook ::= Z.div_mod_to_equations.
From Verif Require Import CSem P_Base M_Const M_Misc P_Misc M_String M_Property M_PropertyList P_PropertyList M_Log M_Message M_Object M_Node M_NodeListener M_Controller
  M_Mem M_MemUse M_ObjMem M_Life M_ObjUse M_NodeMem M_NodeLife M_CtrlMem M_CtrlUse Spec_Message P_Mem P_MemMsg P_MemParse P_MemProp P_MemBytes P_MemCopy P_MemPkt P_MemRun P_Ring P_ObjProp P_ObjCache P_ObjMem P_ObjUse P_ObjStd
  P_Object P_ObjectRun P_ObjectReach P_ObjRun P_Life P_LifeRun P_NodeMem P_NodeRecv P_NodeLife P_NodeBuild P_NodeAlive P_NodeWhole P_NodeProg P_CtrlProp P_CtrlUpdate P_CtrlNodes P_CtrlMsg P_CtrlWhole.
From Verif Require P_MemRecv Spec_Mem P_MsgApi P_Message M_Server Spec_CtrlLife.
Import ListNotations.
Open Scope Z_scope.

(* ---- the whole controller ---- *)

Definition ctrl_in (ct : Z) (c : ctrl) (ps : list Z) (N Ls Lp : heaplet) : Prop :=
  length ps = 8%nat /\ node_here (ctrl_node ps) (c_node c) N /\ rlist sbody (ctrl_nodes ps) (shadows ct (c_nodes c)) Ls
  /\ c_msglistener c = negb (ctrl_msglistener ps =? 0) /\ c_nodelistener c = negb (ctrl_nodelistener ps =? 0)
  /\ post_rep (c_req c) (c_res c) (ctrl_req ps) (ctrl_res ps) Lp.
Definition ctrl_rep (ct : Z) (c : ctrl) (pq pr : Z) (L : heaplet) : Prop :=
  exists ps N Ls Lp, ctrl_in ct c ps N Ls Lp /\ ctrl_req ps = pq /\ ctrl_res ps = pr
  /\ Permutation L ((ct, BElem 0 0 (c_option c) ps) :: (ctrl_mutex ps, BRec []) :: (ctrl_cond ps, BRec []) :: N ++ Ls ++ Lp).

Lemma ctrl_open : forall ct c pq pr C L F, ctrl_rep ct c pq pr C -> Permutation L (C ++ F) -> exists ps N Ls Lp,
  ctrl_in ct c ps N Ls Lp /\ ctrl_req ps = pq /\ ctrl_res ps = pr
  /\ Permutation L ((ct, BElem 0 0 (c_option c) ps) :: (ctrl_mutex ps, BRec []) :: (ctrl_cond ps, BRec []) :: N ++ Ls ++ Lp ++ F).
Proof.
  intros ct c pq pr C L F (ps & N & Ls & Lp & CI & A & B & PC) P. exists ps, N, Ls, Lp. split; [exact CI|]. split; [exact A|]. split; [exact B|].
  eapply perm_trans; [exact P|]. eapply perm_trans; [apply Permutation_app_tail; exact PC|]. perm.
Qed.
Lemma ctrl_close : forall ct c ps N Ls Lp, ctrl_in ct c ps N Ls Lp ->
  ctrl_rep ct c (ctrl_req ps) (ctrl_res ps) ((ct, BElem 0 0 (c_option c) ps) :: (ctrl_mutex ps, BRec []) :: (ctrl_cond ps, BRec []) :: N ++ Ls ++ Lp).
Proof. intros ct c ps N Ls Lp CI. exists ps, N, Ls, Lp. split; [exact CI|]. split; [reflexivity|]. split; [reflexivity|apply Permutation_refl]. Qed.

Lemma here_nz : forall a n N, node_here a n N -> (a =? 0) = false.
Proof. intros a n N (w & _ & _ & H). destruct (node_block _ _ _ _ H) as (ps & _ & E & _). exact E. Qed.

Lemma sendmsg_keeps : forall le net n dst m s, M_Node.uecho_node_sendmessage le net n dst m = Ok s -> keeps n (s_node s) /\ n_objs (s_node s) = n_objs n.
Proof.
  intros le net n dst m s E. unfold M_Node.uecho_node_sendmessage in E. unfold M_Node.uecho_node_getnexttid in E.
  match type of E with match ?x with Some _ => _ | None => _ end = _ => destruct x end.
  - do 4 (apply bind_ok in E; destruct E as (? & _ & E)). injection E as <-. split; [split; [reflexivity|split; reflexivity]|reflexivity].
  - injection E as <-. split; [split; [reflexivity|split; reflexivity]|reflexivity].
Qed.

(* ---- the loop over the nodes that looks for an object ---- *)

Lemma wp_objectfind : forall ct h nodes Ls code L F (Q : Z -> heaplet -> Prop), rlist sbody h (shadows ct nodes) Ls -> Permutation L (Ls ++ F) ->
  (nodes_getobject nodes code = None -> Q 0 L) ->
  (forall a o Lo R pv nx, nodes_getobject nodes code = Some o -> 0 < a -> obj_at pv nx a o Lo -> Permutation L (Lo ++ R) -> Q a L) ->
  wp (let! nd := uecho_list_next h in walk (fun n => object_loop n nd code)) L Q.
Proof.
  intros ct h nodes Ls code L F Q RL PL H0 H1. destruct RL as (ns & Ln & I & P).
  assert (PL' : Permutation L (ring ((h, hblk) :: ns) ++ Ln ++ F)).
  { eapply perm_trans; [exact PL|]. eapply perm_trans; [apply Permutation_app_tail; exact P|]. rperm. }
  assert (NN := items_nodes _ _ _ _ _ I).
  apply wp_bind. change h with (lst_of h []). eapply (wp_list_next h hblk [] ns); [reflexivity|exact NN|exact PL'|].
  apply wp_walk. intros n LN.
  assert (LE : (length ns <= n)%nat).
  { pose proof (Permutation_length PL') as X. rewrite app_length in X. rewrite ring_length in X. cbn [length] in X. lia. }
  clear LN.
  assert (G : forall n2 n1 v1 v2 L1 L2 n, ns = n1 ++ n2 -> nodes = v1 ++ v2 -> items sbody n1 (shadows ct v1) L1 -> items sbody n2 (shadows ct v2) L2 -> Ln = L1 ++ L2 ->
     nodes_getobject nodes code = nodes_getobject v2 code -> (length n2 <= n)%nat -> wp (object_loop n (fst_of 0 n2) code) L Q).
  { induction n2 as [|[a k] n2 IH]; intros n1 v1 v2 L1 L2 m En Ev I1 I2 EL FA LM.
    - destruct v2 as [|x v2]; [|inversion I2]. destruct m; cbn [object_loop fst_of Z.eqb]; apply wp_ret; apply H0; rewrite FA; reflexivity.
    - destruct v2 as [|x v2]; [inversion I2|]. cbn [shadows map] in I2. inversion I2 as [|a' k' v Lx ns' vs' L' E X Y]; subst a' k' ns' v vs' L2. cbn [fst_of].
      destruct (ring_in ((h, hblk) :: n1) a k n2) as [p J].
      assert (IA : In (a, set_links p (fst_of h n2) k) L).
      { eapply Permutation_in; [apply Permutation_sym; exact PL'|]. apply in_or_app. left. rewrite En. exact J. }
      destruct m as [|m]; [cbn [length] in LM; lia|]. cbn [object_loop].
      eapply (wp_pos _ _ _ _ a); [exact IA|intro PA]. rewrite (pos_nz a) by exact PA.
      assert (FO : exists R, Permutation L (((a, set_links p (fst_of h n2) k) :: Lx) ++ R)).
      { assert (IR : In (a, set_links p (fst_of h n2) k) (ring ((h, hblk) :: ns))) by (rewrite En; exact J).
        apply in_split in IR. destruct IR as (R1 & R2 & ER). exists (R1 ++ R2 ++ L1 ++ L' ++ F). eapply perm_trans; [exact PL'|]. rewrite ER, EL. cbn [app]. perm. }
      destruct FO as [R PR].
      apply wp_bind. eapply (wp_node_find (mkPlace [a] ct p (fst_of h n2)) a x _ code L R); [exact (X p (fst_of h n2))|exact PR| |].
      + intro NO. cbn [Z.eqb].
        apply wp_bind. assert (EN2 : ns = (n1 ++ [(a, k)]) ++ n2) by (rewrite <- app_assoc; exact En).
        replace a with (lst_of h (n1 ++ [(a, k)])) by (rewrite lst_of_app; reflexivity).
        eapply (wp_list_next h hblk (n1 ++ [(a, k)]) n2); [reflexivity|rewrite <- EN2; exact NN|rewrite <- EN2; exact PL'|].
        eapply (IH (n1 ++ [(a, k)]) (v1 ++ [x]) v2 (L1 ++ Lx) L').
        * exact EN2.
        * rewrite <- app_assoc. exact Ev.
        * rewrite shadows_app. apply items_app; [exact I1|]. apply items_one; assumption.
        * exact Y.
        * rewrite <- app_assoc. exact EL.
        * rewrite FA. cbn [nodes_getobject]. rewrite NO. reflexivity.
        * cbn [length] in LM. lia.
      + intros ps v0 b o v3 Lr Lc Lx0 L7 HE EX EO DF HIT PB RB FD P'. rewrite (pos_nz b) by exact PB. apply wp_ret.
        destruct (rl_obj _ _ _ _ _ _ _ RB) as (p0 & n0 & Lo & R0 & OA & PLo & _).
        eapply (H1 b o Lo); [rewrite FA; cbn [nodes_getobject]; rewrite FD; reflexivity|exact PB|exact OA|].
        eapply perm_trans; [exact P'|]. eapply perm_trans; [apply perm_skip, Permutation_app_tail; exact PLo|].
        instantiate (1 := (a, nblk p (fst_of h n2) ps (n_tid x)) :: R0 ++ Lc ++ Lx0 ++ R). cbn [at_prev at_next]. perm. }
  eapply (G ns [] [] nodes [] Ln); try reflexivity; [constructor|exact I|exact LE].
Qed.

Section Room.
Variable room : Z -> bool.
Hypothesis Room : forall n, room n = true.
Variable le : bool.
Variable net snet : post -> bool.
Variable dec : list (hcall * bool) -> hcall -> bool.
Variable db : Z.

(* ---- new, start and delete ---- *)

Lemma wp_ctrl_new : forall wild fr ds Ld c posts L F (Q : _ -> heaplet -> Prop), dlist db ds Ld -> Forall einv ds -> Permutation L (Ld ++ F) ->
  M_Controller.uecho_controller_new le net ds fr (negb (wild =? 0)) = Ok (c, posts) ->
  (forall ct C, ctrl_rep ct c wild 0 C -> Q (ct, posts) (C ++ Ld ++ F)) -> wp (uecho_controller_new room le net db wild fr) L Q.
Proof.
  intros wild fr ds Ld c posts L F Q D EI P E H. unfold M_Controller.uecho_controller_new in E. apply bind_ok in E. destruct E as ([n posts0] & EN & E). injection E as <- <-. cbn [fst snd] in H.
  eapply wp_perm; [exact P|]. unfold uecho_controller_new. apply wp_bind, wp_malloc; [exact Room|]. intros ct C0 _. rewrite (pos_nz ct) by exact C0. unfold box_new.
  apply wp_bind, wp_malloc; [exact Room|]. intros m M0 _. apply wp_bind, wp_malloc; [exact Room|]. intros k K0 _.
  apply wp_bind. eapply (wp_node_new room Room (fr_junk fr) le net db ds Ld _ _ _ n posts0 _ ((k, BRec []) :: (m, BRec []) :: (ct, BElem 0 0 0 []) :: F)); [exact D|exact EI|perm|exact EN|].
  intros nd N NR. cbn [fst snd]. unfold uecho_nodelist_new, list_new. apply wp_bind, wp_malloc; [exact Room|]. intros l L0 _.
  destruct (node_open _ _ _ _ _ _ NR (Permutation_refl (N ++ []))) as (ps & Lr & Lc & Lx & L7 & HE & EX & PN). rewrite !app_nil_r in PN.
  pose proof HE as (ND & _). rewrite ND. apply wp_bind. apply wp_bind. eapply wp_load_elem.
  { right. apply in_or_app. left. eapply Permutation_in; [apply Permutation_sym; exact PN|left; reflexivity]. }
  cbn [snd]. apply wp_ret. destruct EX as (Lv & La & SA & ST & LI & KK & PX).
  apply wp_bind. eapply (wp_server_observe room Room (node_server ps) [nd] ct Lv _
    ((l, BHead l l) :: (nd, nblk nd nd ps (n_tid n)) :: Lr ++ Lc ++ (node_mutex ps, BRec []) :: La ++ Ld ++ (k, BRec []) :: (m, BRec []) :: (ct, BElem 0 0 0 []) :: F)); [exact SA| |].
  { eapply perm_trans; [apply perm_skip, Permutation_app_tail; exact PN|]. cbn [at_prev at_next alone app].
    eapply perm_trans; [apply perm_skip, perm_skip, Permutation_app_tail, Permutation_app_head, Permutation_app_head; exact PX|]. cbn [app]. perm. }
  clear Lv SA PX. intros Lv SA. cbn [app] in SA.
  apply wp_bind. eapply wp_store; [find_x|]. apply wp_post, wp_ret.
  eexists. split; [|apply (H ct ((ct, BElem 0 0 0 [m; k; nd; l; 0; 0; wild; 0]) :: (m, BRec []) :: (k, BRec [])
       :: ((nd, nblk nd nd ps (n_tid n)) :: Lr ++ Lc ++ (node_mutex ps, BRec []) :: Lv ++ La) ++ [(l, BHead l l)] ++ []))].
  - cbn [app]. perm.
  - apply (ctrl_close ct (mkCtrl n [] false false 0 (MWild (negb (wild =? 0))) MNull) [m; k; nd; l; 0; 0; wild; 0]
      ((nd, nblk nd nd ps (n_tid n)) :: Lr ++ Lc ++ (node_mutex ps, BRec []) :: Lv ++ La) [(l, BHead l l)] []).
    split; [reflexivity|]. split.
    { exists (mkPlace [nd; ct] 0 nd nd). split; [reflexivity|]. split; [reflexivity|].
      exists ps, Lr, Lc, ((node_mutex ps, BRec []) :: Lv ++ La). split; [exact L7|]. split; [exact HE|]. split; [|apply Permutation_refl].
      exists Lv, La. split; [exact SA|]. split; [exact ST|]. split; [exact LI|]. split; [exact KK|apply Permutation_refl]. }
    split; [apply rlist_new|]. split; [reflexivity|]. split; [reflexivity|]. split; [reflexivity|]. split; reflexivity.
Qed.

Lemma post_empty : forall q r pq pr L, post_rep q r pq pr L -> (forall a, q <> MMsg a) -> L = [].
Proof.
  intros q r pq pr L H NO. destruct q as [|b|a], r as [|d|e]; cbn [post_rep] in H; try contradiction; try apply H. exfalso. exact (NO a eq_refl).
Qed.

Lemma wp_ctrl_delete : forall ct c pq pr C L F (Q : bool -> heaplet -> Prop), ctrl_rep ct c pq pr C -> (forall a, c_req c <> MMsg a) -> Permutation L (C ++ F) -> Q true F ->
  wp (uecho_controller_delete ct) L Q.
Proof.
  intros ct c pq pr C L F Q CR NO P H. destruct (ctrl_open _ _ _ _ _ _ _ CR P) as (ps & N & Ls & Lp & (L8 & (w & W1 & W2 & NR) & RL & _ & _ & PR) & _ & _ & P').
  apply post_empty in PR; [|exact NO]. subst Lp. cbn [app] in P'. eapply wp_perm; [exact P'|].
  unfold uecho_controller_delete. nz ct. apply wp_bind. eapply wp_load_elem; [left; reflexivity|]. cbn [snd].
  apply wp_bind. unfold box_delete. nz (ctrl_mutex ps). eapply wp_free; [find_x|].
  apply wp_bind. nz (ctrl_cond ps). eapply wp_free; [find_x|].
  apply wp_bind. eapply (wp_node_delete w _ _ N _ ((ct, BElem 0 0 (c_option c) ps) :: Ls ++ F)); [exact W1|exact W2|exact NR|perm|].
  apply wp_bind. eapply (wp_nodes_delete ct _ _ Ls _ ((ct, BElem 0 0 (c_option c) ps) :: F)); [exact RL|perm|].
  apply wp_bind. eapply wp_free; [apply Permutation_refl|]. apply wp_ret. exact H.
Qed.

Lemma wp_ctrl_start : forall ct c pq pr C up c' posts b L F (Q : _ -> heaplet -> Prop), ctrl_rep ct c pq pr C -> Permutation L (C ++ F) ->
  M_Controller.uecho_controller_start le net up c = Ok (c', posts, b) ->
  (forall C', ctrl_rep ct c' pq pr C' -> Q (b, posts) (C' ++ F)) -> wp (uecho_controller_start room le net ct up) L Q.
Proof.
  intros ct c pq pr C up c' posts b L F Q CR P E H. destruct (ctrl_open _ _ _ _ _ _ _ CR P) as (ps & N & Ls & Lp & (L8 & (w & W1 & W2 & NR) & RL & ML & NL & PR) & <- & <- & P').
  unfold M_Controller.uecho_controller_start, M_Node.uecho_node_start in E. apply bind_ok in E. destruct E as ([[n1 p1] b1] & E1 & E). injection E as <- <- <-.
  apply bind_ok in E1. destruct E1 as ([[n2 p2] b2] & EA & E1). injection E1 as <- <- <-.
  eapply wp_perm; [exact P'|]. unfold uecho_controller_start. nz ct. apply wp_bind. eapply wp_load_elem; [left; reflexivity|]. cbn [snd].
  apply wp_bind. eapply (wp_nodes_clear ct _ _ Ls _ ((ct, BElem 0 0 (c_option c) ps) :: (ctrl_mutex ps, BRec []) :: (ctrl_cond ps, BRec []) :: N ++ Lp ++ F)); [exact RL|perm|].
  intro RL'. apply wp_bind. eapply wp_load_elem; [right; left; reflexivity|]. cbn [snd].
  apply wp_bind. eapply (wp_node_announce room Room le net w _ _ N n2 p2 b2 _
    ((ctrl_nodes ps, BHead (ctrl_nodes ps) (ctrl_nodes ps)) :: (ct, BElem 0 0 (c_option c) ps) :: (ctrl_mutex ps, BRec []) :: (ctrl_cond ps, BRec []) :: Lp ++ F)); [exact NR|perm|exact EA|].
  intros N' NR'. apply wp_post, wp_ret. cbn [fst snd andb].
  eexists. split; [|apply H, (ctrl_close ct (c_with_node n2 (c_with_nodes [] c)) ps N' [(ctrl_nodes ps, BHead (ctrl_nodes ps) (ctrl_nodes ps))] Lp)].
  - cbn [app c_with_node c_with_nodes c_option]. perm.
  - split; [exact L8|]. split; [exists w; auto|]. split; [exact RL'|]. split; [exact ML|]. split; [exact NL|exact PR].
Qed.

(* ---- listeners and options ---- *)

Ltac eight ps := destruct ps as [|p0 [|p1 [|p2 [|p3 [|p4 [|p5 [|p6 [|p7 [|]]]]]]]]]; try discriminate.

Lemma wp_ctrl_listen : forall ct c pq pr C b L F (Q : unit -> heaplet -> Prop), ctrl_rep ct c pq pr C -> Permutation L (C ++ F) ->
  (forall C', ctrl_rep ct (M_Controller.uecho_controller_setmessagelistener b c) pq pr C' -> Q tt (C' ++ F)) -> wp (uecho_controller_setmessagelistener ct b) L Q.
Proof.
  intros ct c pq pr C b L F Q CR P H. destruct (ctrl_open _ _ _ _ _ _ _ CR P) as (ps & N & Ls & Lp & (L8 & NR & RL & ML & NL & PR) & <- & <- & P'). eight ps.
  eapply wp_perm; [exact P'|]. unfold uecho_controller_setmessagelistener. nz ct. apply wp_post. eapply wp_set_ptr; [apply Permutation_refl|]. cbn [put_ptr].
  eexists. split; [|apply H, (ctrl_close ct (M_Controller.uecho_controller_setmessagelistener b c) [p0; p1; p2; p3; if b then 1 else 0; p5; p6; p7] N Ls Lp)].
  - cbn [app M_Controller.uecho_controller_setmessagelistener c_option ctrl_mutex ctrl_cond nth]. perm.
  - split; [reflexivity|]. split; [exact NR|]. split; [exact RL|]. split; [destruct b; reflexivity|]. split; [exact NL|exact PR].
Qed.
Lemma wp_ctrl_watch : forall ct c pq pr C b L F (Q : unit -> heaplet -> Prop), ctrl_rep ct c pq pr C -> Permutation L (C ++ F) ->
  (forall C', ctrl_rep ct (M_Controller.uecho_controller_setnodelistener b c) pq pr C' -> Q tt (C' ++ F)) -> wp (uecho_controller_setnodelistener ct b) L Q.
Proof.
  intros ct c pq pr C b L F Q CR P H. destruct (ctrl_open _ _ _ _ _ _ _ CR P) as (ps & N & Ls & Lp & (L8 & NR & RL & ML & NL & PR) & <- & <- & P'). eight ps.
  eapply wp_perm; [exact P'|]. unfold uecho_controller_setnodelistener. nz ct. apply wp_post. eapply wp_set_ptr; [apply Permutation_refl|]. cbn [put_ptr].
  eexists. split; [|apply H, (ctrl_close ct (M_Controller.uecho_controller_setnodelistener b c) [p0; p1; p2; p3; p4; if b then 1 else 0; p6; p7] N Ls Lp)].
  - cbn [app M_Controller.uecho_controller_setnodelistener c_option ctrl_mutex ctrl_cond nth]. perm.
  - split; [reflexivity|]. split; [exact NR|]. split; [exact RL|]. split; [exact ML|]. split; [destruct b; reflexivity|exact PR].
Qed.

Lemma wp_ctrl_option : forall f ct c pq pr C L F (Q : bool -> heaplet -> Prop), ctrl_rep ct c pq pr C -> Permutation L (C ++ F) ->
  (forall C', ctrl_rep ct (c_with_option (f (c_option c)) c) pq pr C' -> Q true (C' ++ F)) ->
  wp (if ct =? 0 then ret false else let! e := load_elem ct in let! _ := set_code ct (f (fst e)) in ret true) L Q.
Proof.
  intros f ct c pq pr C L F Q CR P H. destruct (ctrl_open _ _ _ _ _ _ _ CR P) as (ps & N & Ls & Lp & CI & <- & <- & P').
  eapply wp_perm; [exact P'|]. nz ct. apply wp_bind. eapply wp_load_elem; [left; reflexivity|]. cbn [fst].
  apply wp_bind. eapply P_NodeMem.wp_set_code; [apply Permutation_refl|]. apply wp_post, wp_ret.
  eexists. split; [|apply H, (ctrl_close ct (c_with_option (f (c_option c)) c) ps N Ls Lp)].
  - cbn [app c_with_option c_option]. perm.
  - exact CI.
Qed.
Lemma wp_ctrl_enabled : forall ct c pq pr C p L F (Q : bool -> heaplet -> Prop), ctrl_rep ct c pq pr C -> Permutation L (C ++ F) ->
  Q (M_Controller.uecho_controller_isoptionenabled c p) L -> wp (uecho_controller_isoptionenabled ct p) L Q.
Proof.
  intros ct c pq pr C p L F Q CR P H. destruct (ctrl_open _ _ _ _ _ _ _ CR P) as (ps & N & Ls & Lp & CI & <- & <- & P').
  assert (I : In (ct, BElem 0 0 (c_option c) ps) L) by (eapply Permutation_in; [apply Permutation_sym; exact P'|left; reflexivity]).
  unfold uecho_controller_isoptionenabled. eapply (wp_pos _ _ _ _ ct); [exact I|intro C0]. rewrite (pos_nz ct) by exact C0.
  apply wp_bind. eapply wp_load_elem; [exact I|]. cbn [fst]. apply wp_ret. exact H.
Qed.

(* ---- sending ---- *)

Lemma ctrl_with_node : forall ct c ps N Ls Lp n N', ctrl_in ct c ps N Ls Lp -> node_here (ctrl_node ps) n N' -> ctrl_in ct (c_with_node n c) ps N' Ls Lp.
Proof. intros ct c ps N Ls Lp n N' (A & _ & B) H. split; [exact A|]. split; [exact H|exact B]. Qed.

Lemma wp_ctrl_annmsg : forall ct c pq pr C a m cm Lm s L F (Q : _ -> heaplet -> Prop), ctrl_rep ct c pq pr C -> msg_rep a m cm Lm -> Permutation L (C ++ Lm ++ F) ->
  M_Controller.uecho_controller_announcemessage le net c m = Ok s ->
  (forall C' c' Lm', ctrl_rep ct (c_with_node (s_node s) c) pq pr C' -> msg_rep a (s_msg s) c' Lm' -> Q (s_ret s, s_posts s) (C' ++ Lm' ++ F)) ->
  wp (uecho_controller_announcemessage room le net ct a) L Q.
Proof.
  intros ct c pq pr C a m cm Lm s L F Q CR RM P E H. destruct (ctrl_open _ _ _ _ _ _ _ CR P) as (ps & N & Ls & Lp & CI & <- & <- & P').
  pose proof CI as (_ & (w & W1 & W2 & NR) & _). destruct (msg_in _ _ _ _ RM) as [g IG].
  eapply wp_perm; [exact P'|]. unfold uecho_controller_announcemessage. nz ct.
  eapply (wp_pos _ _ _ _ a); [do 3 right; do 3 (apply in_or_app; right); apply in_or_app; left; exact IG|intro PA]. rewrite (pos_nz a) by exact PA. cbn [orb].
  apply wp_bind. eapply wp_load_elem; [left; reflexivity|]. cbn [snd]. apply wp_post.
  eapply (wp_node_annmsg room Room le net w _ _ N a m cm Lm s _ ((ct, BElem 0 0 (c_option c) ps) :: (ctrl_mutex ps, BRec []) :: (ctrl_cond ps, BRec []) :: Ls ++ Lp ++ F)); [exact NR|exact RM|perm|exact E|].
  intros N' c' Lm' NR' RM'. eexists. split; [|eapply H; [|exact RM']; apply (ctrl_close ct (c_with_node (s_node s) c) ps N' Ls Lp)].
  - cbn [app c_with_node c_option]. perm.
  - eapply ctrl_with_node; [exact CI|exists w; auto].
Qed.

Lemma wp_ctrl_search : forall ct c pq pr C esv s L F (Q : _ -> heaplet -> Prop), ctrl_rep ct c pq pr C -> Permutation L (C ++ F) ->
  M_Controller.uecho_controller_searchwithesv le net c esv = Ok s ->
  (forall C', ctrl_rep ct (c_with_node (s_node s) c) pq pr C' -> Q (s_ret s, s_posts s) (C' ++ F)) ->
  wp (uecho_controller_searchwithesv room le net ct esv) L Q.
Proof.
  intros ct c pq pr C esv s L F Q CR P E H. unfold M_Controller.uecho_controller_searchwithesv in E. apply bind_ok in E. destruct E as (m & E1 & E2).
  eapply wp_perm; [exact P|]. unfold uecho_controller_searchwithesv. apply wp_bind. eapply (wp_search_new room Room); [exact E1|]. intros a Lm A RM. rewrite (pos_nz a) by exact A.
  apply wp_bind. eapply wp_setesv; [exact RM|apply Permutation_refl|]. clear Lm RM. intros Lm RM.
  apply wp_bind. eapply (wp_ctrl_annmsg ct c pq pr C a _ None Lm s _ F); [exact CR|exact RM|perm|exact E2|].
  intros C' c' Lm' CR' RM'. apply wp_bind. eapply (wp_message_delete room Room a _ c' Lm' _ (C' ++ F)); [exact RM'|perm|]. apply wp_ret. apply H. exact CR'.
Qed.
Lemma wp_ctrl_searchobject : forall ct c pq pr C code esv s L F (Q : _ -> heaplet -> Prop), ctrl_rep ct c pq pr C -> Permutation L (C ++ F) ->
  M_Controller.uecho_controller_searchobjectwithesv le net c code esv = Ok s ->
  (forall C', ctrl_rep ct (c_with_node (s_node s) c) pq pr C' -> Q (s_ret s, s_posts s) (C' ++ F)) ->
  wp (uecho_controller_searchobjectwithesv room le net ct code esv) L Q.
Proof.
  intros ct c pq pr C code esv s L F Q CR P E H. unfold M_Controller.uecho_controller_searchobjectwithesv in E. apply bind_ok in E. destruct E as (m & E1 & E).
  apply bind_ok in E. destruct E as (m1 & E2 & E3). unfold M_Message.uecho_message_setdestinationobjectcode in E2. apply bind_ok in E2. destruct E2 as (e & E4 & E2). injection E2 as <-.
  destruct (ctrl_open _ _ _ _ _ _ _ CR P) as (ps & N & Ls & Lp & CI & _ & _ & P').
  eapply wp_perm; [exact P'|]. unfold uecho_controller_searchobjectwithesv. nz ct. eapply wp_perm; [eapply perm_trans; [apply Permutation_sym; exact P'|exact P]|].
  apply wp_bind. eapply (wp_search_new room Room); [exact E1|]. intros a Lm A RM. rewrite (pos_nz a) by exact A.
  apply wp_bind. eapply wp_setesv; [exact RM|apply Permutation_refl|]. clear Lm RM. intros Lm RM.
  apply wp_bind. eapply wp_setdestination; [exact RM|apply Permutation_refl|exact E4|]. clear Lm RM. intros Lm RM.
  apply wp_bind. eapply (wp_ctrl_annmsg ct c pq pr C a _ None Lm s _ F); [exact CR|exact RM|perm|exact E3|].
  intros C' c' Lm' CR' RM'. apply wp_bind. eapply (wp_message_delete room Room a _ c' Lm' _ (C' ++ F)); [exact RM'|perm|]. apply wp_ret. apply H. exact CR'.
Qed.

Lemma wp_node_sendmsg : forall w nd n N w2 d dst D a m c Lm s L F (Q : _ -> heaplet -> Prop), node_in w nd n N -> node_in w2 d dst D -> incl D F -> msg_rep a m c Lm ->
  Permutation L (N ++ Lm ++ F) -> M_Node.uecho_node_sendmessage le net n dst m = Ok s ->
  (forall N' c' Lm', node_in w nd (s_node s) N' -> msg_rep a (s_msg s) c' Lm' -> Q (s_ret s, s_posts s) (N' ++ Lm' ++ F)) ->
  wp (uecho_node_sendmessage room le net nd d a) L Q.
Proof.
  intros w nd n N w2 d dst D a m c Lm s L F Q NR NR2 ID RM P E H. destruct (node_open _ _ _ _ _ _ NR P) as (ps & Lr & Lc & Lx & L7 & HE & EX & P').
  pose proof HE as (ND & SV & RL & _). pose proof (sendmsg_keeps _ _ _ _ _ _ E) as [KP KO].
  assert (H' : forall c' Lm', msg_rep a (s_msg s) c' Lm' -> exists L', Permutation ((nd, nblk (at_prev w) (at_next w) ps (n_tid (s_node s))) :: Lm' ++ Lr ++ Lc ++ Lx ++ F) L' /\ Q (s_ret s, s_posts s) L').
  { intros c' Lm' RM'. eexists. split; [|apply (H ((nd, nblk (at_prev w) (at_next w) ps (n_tid (s_node s))) :: Lr ++ Lc ++ Lx) c' Lm'); [|exact RM']].
    - cbn [app]. perm.
    - eapply node_close; [exact L7| |exact EX|apply keeps_apart; exact KP]. eapply same_held; [exact HE|rewrite KO; exact RL|apply KP]. }
  clear H. rename H' into H. eapply wp_perm; [exact P'|]. unfold uecho_node_sendmessage.
  destruct (msg_in _ _ _ _ RM) as [g IG]. destruct (node_block _ _ _ _ NR2) as (_ & _ & D0 & _). rewrite ND, D0.
  eapply (wp_pos _ _ _ _ a); [right; do 3 (apply in_or_app; right); apply in_or_app; left; exact IG|intro PA]. rewrite (pos_nz a) by exact PA. cbn [orb].
  apply wp_bind. eapply (wp_nexttid nd _ _ ps n); [apply Permutation_refl|].
  unfold M_Node.uecho_node_sendmessage in E. destruct (M_Node.uecho_node_getnexttid n) as [n1 t] eqn:EN. cbn [fst snd].
  assert (EO : n_objs n1 = n_objs n) by (unfold M_Node.uecho_node_getnexttid in EN; injection EN as <- _; reflexivity).
  apply wp_bind. eapply (wp_settid le t a m c Lm _ ((nd, nblk (at_prev w) (at_next w) ps (n_tid n1)) :: Lr ++ Lc ++ Lx ++ F)); [exact RM|perm|]. intros Lm1 RM1.
  apply wp_bind. unfold M_NodeMem.uecho_node_getobjectbycode. apply wp_bind. eapply wp_load_elem; [apply in_or_app; right; left; reflexivity|]. cbn [snd].
  unfold M_Node.uecho_node_getobjectbycode in E. rewrite EO in E.
  eapply (wp_objs_find nd _ (n_objs n) _ Lr _ (Lm1 ++ (nd, nblk (at_prev w) (at_next w) ps (n_tid n1)) :: Lc ++ Lx ++ F)); [exact RL|perm| |].
  - intro DF. rewrite (value_none _ _ DF) in E. injection E as <-. cbn [Z.eqb]. apply wp_post, wp_ret. cbn [s_ret s_posts s_node s_msg] in H.
    destruct (H _ _ RM1) as (L' & PL' & HQ). exists L'. split; [|exact HQ]. eapply perm_trans; [|exact PL']. perm.
  - intros v1 x o v2 EO2 DF EC PX RX. rewrite EO2, (value_find _ _ _ _ DF EC) in E. rewrite (pos_nz x) by exact PX.
    apply bind_ok in E. destruct E as (m2 & E2 & E). apply bind_ok in E. destruct E as (bs & E3 & E). apply bind_ok in E. destruct E as (k & E4 & E).
    apply bind_ok in E. destruct E as (r & E5 & E). injection E as <-. cbn [s_ret s_posts s_node s_msg] in H.
    destruct (rl_focus _ _ _ _ _ _ _ _ RX) as (p0 & n0 & k0 & Lx0 & R0 & FK & NB & PL & _).
    destruct (body_code _ _ _ _ _ NB) as (c0 & -> & _ & EC0 & _). cbn [set_links] in PL.
    assert (IX := Permutation_in _ (Permutation_sym PL) (or_introl eq_refl)).
    apply wp_bind. eapply wp_getcode; [apply in_or_app; right; right; apply in_or_app; left; exact IX|].
    change (M_NodeMem.code_of _) with (M_NodeMem.code_of c0). rewrite EC0.
    unfold M_Message.uecho_message_setsourceobjectcode in E2. apply bind_ok in E2. destruct E2 as (e & E6 & E2). injection E2 as <-.
    apply wp_bind. eapply wp_setsource; [exact RM1|apply Permutation_refl|exact E6|]. intros Lm2 RM2.
    apply wp_bind. eapply (wp_node_getaddress w2 d dst D); [exact NR2| |].
    { intros z Z0. apply in_or_app. right. right. do 3 (apply in_or_app; right). apply ID. exact Z0. }
    intros ad AA.
    unfold M_Message.uecho_message_getbytes in E3. apply bind_ok in E3. destruct E3 as (buf & E7 & E8).
    apply wp_bind. eapply wp_getbytes; [exact Room|exact RM2|apply Permutation_refl|exact E7|]. intros b Lm3 RM3 IB.
    apply wp_bind. destruct (msg_view _ _ _ _ RM3) as [g3 V3].
    eapply (wp_size a g3); [eapply view_incl; [exact V3|apply incl_appl, incl_refl]|exact E4|].
    eapply wp_post. eapply (wp_sendbytes net nd _ _ ps); [apply in_or_app; right; left; reflexivity|exact SV| |apply in_or_app; left; exact IB|exact E8|exact E5|].
    { eapply addr_arg_incl; [exact AA|]. intros z Z0. apply in_or_app. right. right. do 3 (apply in_or_app; right). apply ID. exact Z0. }
    destruct (H _ _ RM3) as (L' & PL' & HQ). exists L'. split; [|exact HQ]. eapply perm_trans; [|exact PL']. perm.
Qed.

Lemma wp_csend : forall ct op ps w n N w2 d dst D a m c Lm s L F (Q : _ -> heaplet -> Prop), In (ct, BElem 0 0 op ps) F -> node_in w (ctrl_node ps) n N ->
  node_in w2 d dst D -> incl D F -> msg_rep a m c Lm -> Permutation L (N ++ Lm ++ F) -> M_Node.uecho_node_sendmessage le net n dst m = Ok s ->
  (forall N' c' Lm', node_in w (ctrl_node ps) (s_node s) N' -> msg_rep a (s_msg s) c' Lm' -> Q (s_ret s, s_posts s) (N' ++ Lm' ++ F)) ->
  wp (uecho_controller_sendmessage room le net ct d a) L Q.
Proof.
  intros ct op ps w n N w2 d dst D a m c Lm s L F Q IC NR NR2 ID RM P E H. unfold uecho_controller_sendmessage.
  destruct (msg_in _ _ _ _ RM) as [g IG]. destruct (node_block _ _ _ _ NR2) as (_ & _ & D0 & _). destruct (node_block _ _ _ _ NR) as (_ & _ & N0 & _).
  assert (IL : forall z, In z (N ++ Lm ++ F) -> In z L) by (intros z Z0; eapply Permutation_in; [apply Permutation_sym; exact P|exact Z0]).
  assert (IC' : In (ct, BElem 0 0 op ps) L) by (apply IL; do 2 (apply in_or_app; right); exact IC).
  eapply (wp_pos _ _ _ _ ct); [exact IC'|intro PC]. rewrite (pos_nz ct) by exact PC. rewrite D0.
  eapply (wp_pos _ _ _ _ a); [apply IL; apply in_or_app; right; apply in_or_app; left; exact IG|intro PA]. rewrite (pos_nz a) by exact PA. cbn [orb].
  apply wp_bind. eapply wp_load_elem; [exact IC'|]. cbn [snd]. rewrite N0.
  eapply (wp_node_sendmsg w _ n N w2 d dst D a m c Lm s L F); eassumption.
Qed.

(* ---- looking up ---- *)

Lemma wp_node_at : forall ct op ps nodes Ls a L F (Q : Z -> heaplet -> Prop), In (ct, BElem 0 0 op ps) L -> rlist sbody (ctrl_nodes ps) (shadows ct nodes) Ls -> Permutation L (Ls ++ F) ->
  Spec_Mem.c_text (Some a) ->
  (node_byaddress nodes (Some a) = None -> Q 0 L) ->
  (forall l1 nd n l2, nodes = l1 ++ n :: l2 -> node_byaddress nodes (Some a) = Some n -> 0 < nd -> rl_at sbody (ctrl_nodes ps) (shadows ct l1) nd (n, ct) (shadows ct l2) Ls -> Q nd L) ->
  wp (node_at_address ct a) L Q.
Proof.
  intros ct op ps nodes Ls a L F Q IC RL P T H0 H1. unfold node_at_address. apply wp_given_text; [apply c_text_arg; exact T|]. intros p B AA.
  assert (IC' : In (ct, BElem 0 0 op ps) (B ++ L)) by (apply in_or_app; right; exact IC).
  unfold uecho_controller_getnodebyaddress. eapply (wp_pos _ _ _ _ ct); [exact IC'|intro PC]. rewrite (pos_nz ct) by exact PC.
  apply wp_bind. eapply wp_load_elem; [exact IC'|]. cbn [snd].
  eapply (wp_nodes_find ct _ nodes Ls p (Some a) _ (B ++ F)); [exact RL| |eapply addr_arg_incl; [exact AA|apply incl_appl, incl_refl]| |].
  - eapply perm_trans; [apply Permutation_app_head; exact P|]. perm.
  - intro NO. exists L. split; [apply Permutation_refl|apply H0; exact NO].
  - intros l1 nd n l2 E1 E2 _ _ PN RA. exists L. split; [apply Permutation_refl|eapply H1; eassumption].
Qed.

Lemma wp_object_at : forall ct op ps c Ls a code L F (Q : Z -> heaplet -> Prop), In (ct, BElem 0 0 op ps) L -> rlist sbody (ctrl_nodes ps) (shadows ct (c_nodes c)) Ls -> Permutation L (Ls ++ F) ->
  Spec_Mem.c_text (Some a) ->
  (Spec_CtrlLife.seen_at c a code = None -> Q 0 L) ->
  (forall nd n w D x o k pv nx Lo R, Spec_CtrlLife.seen_at c a code = Some (n, o) -> node_in w nd n D -> at_ctrl w = ct -> incl D Ls -> 0 < x -> In (x, BObj k) L -> j_node k = nd ->
     M_NodeMem.code_of k = M_Object.uecho_object_getcode o -> obj_at pv nx x o Lo -> Permutation L (Lo ++ R) -> Q x L) ->
  wp (object_at_address ct a code) L Q.
Proof.
  intros ct op ps c Ls a code L F Q IC RL P T H0 H1. unfold object_at_address, Spec_CtrlLife.seen_at, M_Controller.uecho_controller_getnodebyaddress in *. apply wp_bind.
  eapply (wp_node_at ct op ps (c_nodes c) Ls a L F); [exact IC|exact RL|exact P|exact T| |].
  - intro NO. rewrite NO in H0. cbn [Z.eqb]. apply wp_ret. apply H0. reflexivity.
  - intros l1 nd n l2 EN EF PN RA. rewrite EF in H0, H1. rewrite (pos_nz nd) by exact PN.
    destruct (shadow_focus _ _ _ _ _ _ _ RA) as (p & q & D & R & NR & PD & _).
    eapply (wp_node_find _ nd n D code L (R ++ F)); [exact NR| | |].
    + eapply perm_trans; [exact P|]. eapply perm_trans; [apply Permutation_app_tail; exact PD|]. perm.
    + intro NO. rewrite NO in H0. apply H0. reflexivity.
    + intros ps0 v1 x o v2 Lr Lc Lx L7 HE EX EO DF HIT PX RX FD P'. rewrite FD in H1.
      destruct (rl_focus _ _ _ _ _ _ _ _ RX) as (p1 & n1 & k0 & Ly & R1 & FK & NB & PL & _). pose proof (nbody_at _ _ _ _ _ p1 n1 NB) as OA.
      destruct (body_code _ _ _ _ _ NB) as (k & -> & JN & JC & _). cbn [set_links] in PL.
      eapply H1; [reflexivity|exact NR|reflexivity| |exact PX| | | |exact OA|].
      * intros z Z0. eapply Permutation_in; [apply Permutation_sym; exact PD|]. apply in_or_app. left. exact Z0.
      * eapply Permutation_in; [apply Permutation_sym; exact P'|]. right. apply in_or_app. left. eapply Permutation_in; [apply Permutation_sym; exact PL|left; reflexivity].
      * cbn [set_links j_node]. exact JN.
      * exact JC.
      * eapply perm_trans; [exact P'|]. eapply perm_trans; [apply perm_skip, Permutation_app_tail; exact PL|].
        instantiate (1 := (nd, nblk p q ps0 (n_tid n)) :: R1 ++ Lc ++ Lx ++ R ++ F). cbn [at_prev at_next set_links]. perm.
Qed.

Lemma wp_ctrl_count : forall ct c pq pr C L F (Q : Z -> heaplet -> Prop), ctrl_rep ct c pq pr C -> Permutation L (C ++ F) ->
  Q (M_Controller.uecho_controller_getnodecount c) L -> wp (uecho_controller_getnodecount ct) L Q.
Proof.
  intros ct c pq pr C L F Q CR P H. destruct (ctrl_open _ _ _ _ _ _ _ CR P) as (ps & N & Ls & Lp & CI & <- & <- & P'). pose proof CI as (_ & _ & RL & _).
  unfold uecho_controller_getnodecount. apply wp_bind. eapply wp_load_elem; [eapply Permutation_in; [apply Permutation_sym; exact P'|left; reflexivity]|]. cbn [snd].
  eapply (wp_nodes_count ct _ (c_nodes c) Ls L ((ct, BElem 0 0 (c_option c) ps) :: (ctrl_mutex ps, BRec []) :: (ctrl_cond ps, BRec []) :: N ++ Lp ++ F)); [exact RL| |exact H].
  eapply perm_trans; [exact P'|]. perm.
Qed.

Lemma wp_ctrl_read : forall ct c pq pr C a code B (f : option oseen -> B) L F (Q : _ -> heaplet -> Prop), ctrl_rep ct c pq pr C -> Permutation L (C ++ F) -> Spec_Mem.c_text (Some a) ->
  Q (f (option_map (fun x => Spec_ObjMem.look (snd x)) (Spec_CtrlLife.seen_at c a code))) L ->
  wp (let! o := object_at_address ct a code in if o =? 0 then ret (f None) else let! s := read_object o in ret (f (Some s))) L Q.
Proof.
  intros ct c pq pr C a code B f L F Q CR P T H. destruct (ctrl_open _ _ _ _ _ _ _ CR P) as (ps & N & Ls & Lp & CI & <- & <- & P'). pose proof CI as (_ & _ & RL & _).
  apply wp_bind. eapply (wp_object_at ct _ ps c Ls a code L ((ct, BElem 0 0 (c_option c) ps) :: (ctrl_mutex ps, BRec []) :: (ctrl_cond ps, BRec []) :: N ++ Lp ++ F));
    [eapply Permutation_in; [apply Permutation_sym; exact P'|left; reflexivity]|exact RL|eapply perm_trans; [exact P'|]; perm|exact T| |].
  - intro NO. rewrite NO in H. cbn [Z.eqb]. apply wp_ret. exact H.
  - intros nd n w D x o k pv nx Lo R SE NR AC ID PX IX JN JC OA PL. rewrite SE in H. rewrite (pos_nz x) by exact PX.
    apply wp_bind. eapply wp_read_object; [exact OA|exact PL|]. apply wp_ret. exact H.
Qed.

Lemma wp_ctrl_find : forall ct c pq pr C code B (f : option oseen -> B) L F (Q : _ -> heaplet -> Prop), ctrl_rep ct c pq pr C -> Permutation L (C ++ F) ->
  Q (f (option_map Spec_ObjMem.look (M_Controller.uecho_controller_getobjectbycode c code))) L ->
  wp (let! o := uecho_controller_getobjectbycode ct code in if o =? 0 then ret (f None) else let! s := read_object o in ret (f (Some s))) L Q.
Proof.
  intros ct c pq pr C code B f L F Q CR P H. destruct (ctrl_open _ _ _ _ _ _ _ CR P) as (ps & N & Ls & Lp & CI & <- & <- & P'). pose proof CI as (_ & _ & RL & _).
  assert (IC : In (ct, BElem 0 0 (c_option c) ps) L) by (eapply Permutation_in; [apply Permutation_sym; exact P'|left; reflexivity]).
  apply wp_bind. unfold uecho_controller_getobjectbycode. eapply (wp_pos _ _ _ _ ct); [exact IC|intro PC]. rewrite (pos_nz ct) by exact PC.
  apply wp_bind. eapply wp_load_elem; [exact IC|]. cbn [snd]. unfold M_Controller.uecho_controller_getobjectbycode in H.
  eapply (wp_objectfind ct _ (c_nodes c) Ls code L ((ct, BElem 0 0 (c_option c) ps) :: (ctrl_mutex ps, BRec []) :: (ctrl_cond ps, BRec []) :: N ++ Lp ++ F)); [exact RL|eapply perm_trans; [exact P'|]; perm| |].
  - intro NO. rewrite NO in H. cbn [Z.eqb]. apply wp_ret. exact H.
  - intros x o Lo R pv nx SE PX OA PL. rewrite SE in H. rewrite (pos_nz x) by exact PX. apply wp_bind. eapply wp_read_object; [exact OA|exact PL|]. apply wp_ret. exact H.
Qed.

Lemma wp_ctrl_send : forall ct c pq pr C a code q m cm Lm L F (Q : _ -> heaplet -> Prop), ctrl_rep ct c pq pr C -> msg_rep q m cm Lm -> Permutation L (C ++ Lm ++ F) -> Spec_Mem.c_text (Some a) ->
  match Spec_CtrlLife.seen_at c a code with
  | None => Q (false, []) L
  | Some (n, o) => exists s, M_Controller.uecho_object_sendmessage le net c n o m = Ok s /\
      forall C' c' Lm', ctrl_rep ct (c_with_node (s_node s) c) pq pr C' -> msg_rep q (s_msg s) c' Lm' -> Q (s_ret s, s_posts s) (C' ++ Lm' ++ F)
  end ->
  wp (let! o := object_at_address ct a code in uecho_object_sendmessage room le net o q) L Q.
Proof.
  intros ct c pq pr C a code q m cm Lm L F Q CR RM P T H. destruct (ctrl_open _ _ _ _ _ _ _ CR P) as (ps & N & Ls & Lp & CI & <- & <- & P').
  pose proof CI as (_ & (w0 & W1 & W2 & NR0) & RL & _). destruct (msg_in _ _ _ _ RM) as [g IG].
  assert (IC : In (ct, BElem 0 0 (c_option c) ps) L) by (eapply Permutation_in; [apply Permutation_sym; exact P'|left; reflexivity]).
  assert (IQ : In (q, BMsg g) L) by (eapply Permutation_in; [apply Permutation_sym; exact P|apply in_or_app; right; apply in_or_app; left; exact IG]).
  apply wp_bind. eapply (wp_object_at ct _ ps c Ls a code L ((ct, BElem 0 0 (c_option c) ps) :: (ctrl_mutex ps, BRec []) :: (ctrl_cond ps, BRec []) :: N ++ Lp ++ Lm ++ F));
    [exact IC|exact RL|eapply perm_trans; [exact P'|]; perm|exact T| |].
  - intro NO. rewrite NO in H. unfold uecho_object_sendmessage. cbn [Z.eqb orb]. apply wp_ret. exact H.
  - intros nd n w D x o k pv nx Lo R SE NR AC ID PX IX JN JC _ _. rewrite SE in H. destruct H as (s & E & H).
    unfold M_Controller.uecho_object_sendmessage in E. apply bind_ok in E. destruct E as (m1 & E1 & E). unfold M_Message.uecho_message_setdestinationobjectcode in E1.
    apply bind_ok in E1. destruct E1 as (e & E2 & E1). injection E1 as <-. unfold M_Controller.uecho_controller_sendmessage in E.
    unfold uecho_object_sendmessage. rewrite (pos_nz x) by exact PX. eapply (wp_pos _ _ _ _ q); [exact IQ|intro PQ]. rewrite (pos_nz q) by exact PQ. cbn [orb].
    apply wp_bind. unfold M_NodeMem.uecho_object_getparentnode. rewrite (pos_nz x) by exact PX. apply wp_bind. eapply wp_load_obj; [exact IX|]. apply wp_ret. rewrite JN.
    destruct (node_block _ _ _ _ NR) as (ps2 & IN & D0 & SV & L7 & N6 & _). rewrite D0.
    assert (INL : In (nd, nblk (at_prev w) (at_next w) ps2 (n_tid n)) L).
    { eapply Permutation_in; [apply Permutation_sym; exact P'|]. do 3 right. apply in_or_app. right. apply in_or_app. left. apply ID. exact IN. }
    apply wp_bind. unfold uecho_node_getcontroller. rewrite D0. apply wp_bind. eapply wp_load_elem; [exact INL|]. cbn [snd]. apply wp_ret. rewrite N6, AC.
    eapply (wp_pos _ _ _ _ ct); [exact IC|intro PC]. rewrite (pos_nz ct) by exact PC.
    apply wp_bind. eapply wp_getcode; [exact IX|]. rewrite JC.
    apply wp_bind. eapply (wp_setdestination _ e q m cm Lm _ ((ct, BElem 0 0 (c_option c) ps) :: (ctrl_mutex ps, BRec []) :: (ctrl_cond ps, BRec []) :: N ++ Ls ++ Lp ++ F)); [exact RM|eapply perm_trans; [exact P'|]; perm|exact E2|].
    clear IQ IG. intros Lm1 RM1. apply wp_post.
    eapply (wp_csend ct (c_option c) ps w0 _ N w nd n D q _ _ Lm1 s _ ((ct, BElem 0 0 (c_option c) ps) :: (ctrl_mutex ps, BRec []) :: (ctrl_cond ps, BRec []) :: Ls ++ Lp ++ F));
      [left; reflexivity|exact NR0|exact NR| |exact RM1|perm|exact E|].
    { intros z Z0. do 3 right. apply in_or_app. left. apply ID. exact Z0. }
    intros N' c' Lm' NR' RM'. eexists. split; [|eapply H; [|exact RM']; apply (ctrl_close ct (c_with_node (s_node s) c) ps N' Ls Lp)].
    + cbn [app c_with_node c_option]. perm.
    + eapply ctrl_with_node; [exact CI|exists w0; auto].
Qed.

(* ---- a request and its answer ---- *)

Lemma wp_ctrl_post : forall ct c pq pr C a q m cm Lm p m2 cm2 Lp2 L F (Q : _ -> heaplet -> Prop), ctrl_rep ct c pq pr C -> (forall a, c_req c <> MMsg a) ->
  msg_rep q m cm Lm -> msg_rep p m2 cm2 Lp2 -> Permutation L (C ++ Lm ++ Lp2 ++ F) -> Spec_Mem.c_text (Some a) ->
  match M_Controller.uecho_controller_getnodebyaddress c (Some a) with
  | None => forall C', ctrl_rep ct (c_with_post (MWild true) (MWild true) c) q p C' -> Q (false, []) (C' ++ Lm ++ Lp2 ++ F)
  | Some n => exists s, M_Controller.uecho_controller_sendmessage le net c n m = Ok s /\
      forall C' c' Lm', msg_rep q (s_msg s) c' Lm' ->
        (if s_ret s then ctrl_rep ct (c_with_post (MMsg (s_msg s)) (MMsg m2) (c_with_node (s_node s) c)) q p C' -> Q (true, s_posts s) (C' ++ F)
         else ctrl_rep ct (c_with_post (MWild true) (MWild true) (c_with_node (s_node s) c)) q p C' -> Q (false, s_posts s) (C' ++ Lm' ++ Lp2 ++ F))
  end ->
  wp (let! nd := node_at_address ct a in postmessage_begin room le net ct nd q p) L Q.
Proof.
  intros ct c pq pr C a q m cm Lm p m2 cm2 Lp2 L F Q CR NO RM RM2 P T H. destruct (ctrl_open _ _ _ _ _ _ _ CR P) as (ps & N & Ls & Lp & (L8 & (w0 & W1 & W2 & NR0) & RL & ML & NL & PR) & <- & <- & P').
  apply post_empty in PR; [|exact NO]. subst Lp. cbn [app] in P'. destruct (msg_in _ _ _ _ RM) as [g IG]. destruct (msg_in _ _ _ _ RM2) as [g2 IG2].
  assert (IC : In (ct, BElem 0 0 (c_option c) ps) L) by (eapply Permutation_in; [apply Permutation_sym; exact P'|left; reflexivity]).
  assert (IQ : In (q, BMsg g) L) by (eapply Permutation_in; [apply Permutation_sym; exact P|apply in_or_app; right; apply in_or_app; left; exact IG]).
  assert (IP : In (p, BMsg g2) L) by (eapply Permutation_in; [apply Permutation_sym; exact P|do 2 (apply in_or_app; right); apply in_or_app; left; exact IG2]).
  eapply (wp_pos _ _ _ _ q); [exact IQ|intro PQ]. eapply (wp_pos _ _ _ _ p); [exact IP|intro PP]. eapply (wp_pos _ _ _ _ ct); [exact IC|intro PC].
  unfold M_Controller.uecho_controller_getnodebyaddress in H.
  assert (CW : forall n N', node_here (ctrl_node ps) n N' -> ctrl_rep ct (c_with_post (MWild true) (MWild true) (c_with_node n c)) q p
     ((ct, BElem 0 0 (c_option c) (put_ptr 7 p (put_ptr 6 q ps))) :: (ctrl_mutex ps, BRec []) :: (ctrl_cond ps, BRec []) :: N' ++ Ls ++ [])).
  { intros n N' NH. eight ps. apply (ctrl_close ct (c_with_post (MWild true) (MWild true) (c_with_node n c)) [p0; p1; p2; p3; p4; p5; q; p] N' Ls []).
    split; [reflexivity|]. split; [exact NH|]. split; [exact RL|]. split; [exact ML|]. split; [exact NL|]. cbn [c_with_post c_req c_res post_rep ctrl_req ctrl_res nth]. rewrite (pos_nz q), (pos_nz p) by assumption. auto. }
  apply wp_bind. eapply (wp_node_at ct _ ps (c_nodes c) Ls a L ((ct, BElem 0 0 (c_option c) ps) :: (ctrl_mutex ps, BRec []) :: (ctrl_cond ps, BRec []) :: N ++ Lm ++ Lp2 ++ F));
    [exact IC|exact RL|eapply perm_trans; [exact P'|]; perm|exact T| |].
  - intro NF. rewrite NF in H. eapply wp_perm; [exact P'|]. unfold postmessage_begin. rewrite (pos_nz ct) by exact PC.
    apply wp_bind. eapply wp_set_ptr; [apply Permutation_refl|]. apply wp_bind. eapply wp_set_ptr; [apply Permutation_refl|].
    unfold uecho_controller_sendmessage. rewrite (pos_nz ct) by exact PC. cbn [Z.eqb orb]. apply wp_post, wp_ret.
    eexists. split; [|eapply H]. 2:{ destruct c as [cn cs cl cnl co cq cr]. apply (CW cn N). exists w0. split; [exact W1|]. split; [exact W2|exact NR0]. }
    cbn [app]. rewrite app_nil_r. perm.
  - intros l1 nd n l2 EN EF PN RA. rewrite EF in H. destruct H as (s & E & H). unfold M_Controller.uecho_controller_sendmessage in E.
    destruct (shadow_focus _ _ _ _ _ _ _ RA) as (p9 & q9 & D & R & NR & PD & _).
    eapply wp_perm; [exact P'|]. unfold postmessage_begin. rewrite (pos_nz ct) by exact PC.
    apply wp_bind. eapply wp_set_ptr; [apply Permutation_refl|]. apply wp_bind. eapply wp_set_ptr; [apply Permutation_refl|].
    apply wp_post.
    assert (NE : ctrl_node (put_ptr 7 p (put_ptr 6 q ps)) = ctrl_node ps) by (eight ps; reflexivity).
    eapply (wp_csend ct (c_option c) (put_ptr 7 p (put_ptr 6 q ps)) w0 (c_node c) N _ nd n D q m cm Lm s _
       ((ct, BElem 0 0 (c_option c) (put_ptr 7 p (put_ptr 6 q ps))) :: (ctrl_mutex ps, BRec []) :: (ctrl_cond ps, BRec []) :: Ls ++ Lp2 ++ F));
      [left; reflexivity|rewrite NE; exact NR0|exact NR| |exact RM|perm|exact E|].
    { intros z Z0. do 3 right. apply in_or_app. left. eapply Permutation_in; [apply Permutation_sym; exact PD|apply in_or_app; left; exact Z0]. }
    rewrite NE. intros N' c' Lm' NR' RM'. pose proof (fun C' => H C' c' Lm' RM') as H'. clear H. destruct (s_ret s).
    + exists (((ct, BElem 0 0 (c_option c) (put_ptr 7 p (put_ptr 6 q ps))) :: (ctrl_mutex ps, BRec []) :: (ctrl_cond ps, BRec []) :: N' ++ Ls ++ Lm' ++ Lp2) ++ F).
      split; [cbn [app]; perm|]. apply H'. clear H' CW. eight ps.
      apply (ctrl_close ct (c_with_post (MMsg (s_msg s)) (MMsg m2) (c_with_node (s_node s) c)) [p0; p1; p2; p3; p4; p5; q; p] N' Ls (Lm' ++ Lp2)).
      split; [reflexivity|]. split; [exists w0; split; [exact W1|]; split; [exact W2|exact NR']|]. split; [exact RL|]. split; [exact ML|]. split; [exact NL|].
      exists c', cm2, Lm', Lp2. split; [exact RM'|]. split; [exact RM2|apply Permutation_refl].
    + eexists. split; [|eapply H'; apply (CW (s_node s) N'); exists w0; split; [exact W1|]; split; [exact W2|exact NR']].
      cbn [app]. rewrite app_nil_r. perm.
Qed.

Lemma wp_ctrl_wait : forall ct c pq pr C m m2 L F (Q : unit -> heaplet -> Prop), ctrl_rep ct c pq pr C -> c_req c = MMsg m -> c_res c = MMsg m2 -> Permutation L (C ++ F) ->
  (forall C' cm cm2 Lm Lp2, ctrl_rep ct (c_with_post MNull MNull c) 0 0 C' -> msg_rep pq m cm Lm -> msg_rep pr m2 cm2 Lp2 -> Q tt (C' ++ Lm ++ Lp2 ++ F)) ->
  wp (postmessage_end ct) L Q.
Proof.
  intros ct c pq pr C m m2 L F Q CR Q1 Q2 P H. destruct (ctrl_open _ _ _ _ _ _ _ CR P) as (ps & N & Ls & Lp & (L8 & NH & RL & ML & NL & PR) & <- & <- & P').
  rewrite Q1, Q2 in PR. destruct PR as (cq & cr & Lq & Lr & RM & RM2 & PL).
  eapply wp_perm; [exact P'|]. unfold postmessage_end. apply wp_bind. eapply wp_set_ptr; [apply Permutation_refl|]. apply wp_post. eapply wp_set_ptr; [apply Permutation_refl|].
  eexists. split; [|eapply (H ((ct, BElem 0 0 (c_option c) (put_ptr 7 0 (put_ptr 6 0 ps))) :: (ctrl_mutex ps, BRec []) :: (ctrl_cond ps, BRec []) :: N ++ Ls ++ [])); [|exact RM|exact RM2]].
  - cbn [app]. rewrite app_nil_r. do 3 apply perm_skip. eapply perm_trans; [do 2 apply Permutation_app_head; apply Permutation_app_tail; exact PL|]. perm.
  - clear RM RM2. eight ps. apply (ctrl_close ct (c_with_post MNull MNull c) [p0; p1; p2; p3; p4; p5; 0; 0] N Ls []).
    split; [reflexivity|]. split; [exact NH|]. split; [exact RL|]. split; [exact ML|]. split; [exact NL|]. split; [reflexivity|]. split; reflexivity.
Qed.

(* ---- a datagram ---- *)

Lemma wp_ctrl_receive : forall fr ct c pq pr C d from local y ds Ld L F (Q : _ -> heaplet -> Prop), ctrl_rep ct c pq pr C -> Permutation L (C ++ Ld ++ F) ->
  dlist db ds Ld -> Forall einv ds -> buffer d -> Spec_Mem.c_text (Some from) -> Spec_Mem.c_text local ->
  Forall (fun n => Forall small_obj (n_objs n)) (c_nodes c) ->
  M_Controller.ctrl_receive le net snet ds dec fr c (firstn M_Server.RECV_BUFSIZE d) local (Some from) = Ok y ->
  (forall C', ctrl_rep ct (cr_ctrl (snd y)) pq pr C' -> Q (Spec_CtrlLife.heard (fst y), (cr_told (snd y), cr_signal (snd y))) (C' ++ Ld ++ F)) ->
  wp (creceive room le net snet dec db fr ct d from local) L Q.
Proof.
  intros fr ct c pq pr C d from local y ds Ld L F Q CR P DL EI B T1 T2 SM E H. eapply wp_perm; [exact P|].
  unfold M_Controller.ctrl_receive in E. apply bind_ok in E. destruct E as ([ok m'] & EP & E).
  unfold creceive. apply wp_bind. apply (wp_pkt_new room Room). intros k Lk K Rk. rewrite (pos_nz k) by exact K.
  apply wp_bind. eapply (P_MemRecv.wp_recv_data room Room k d from local Lk _ (C ++ Ld ++ F)); [exact B|exact T1|exact T2|exact Rk|apply Permutation_refl|]. clear Lk Rk. intros Lk Rk.
  apply wp_bind. apply (wp_message_new room Room). intros a La A Ra. rewrite (pos_nz a) by exact A.
  apply wp_bind. eapply (wp_parsepacket room Room a _ None La k _ local (Some from) Lk ok m' _ (C ++ Ld ++ F)); [exact Ra|exact Rk|apply Permutation_refl|apply P_MemRecv.buffer_firstn; exact B|exact EP|].
  clear La Ra. intros La Ra.
  assert (REST : forall r0 C', r0 = (Spec_CtrlLife.heard (fst y), (cr_told (snd y), cr_signal (snd y))) -> ctrl_rep ct (cr_ctrl (snd y)) pq pr C' ->
    wp (let! _ := uecho_socket_datagram_packet_delete k in let! _ := M_Mem.uecho_message_delete a in ret r0) (La ++ Lk ++ C' ++ Ld ++ F) Q).
  { intros r0 C' -> CR'. apply wp_bind. eapply (wp_pkt_delete k _ local (Some from) Lk _ (La ++ C' ++ Ld ++ F)); [exact Rk|perm|].
    apply wp_bind. eapply (wp_message_delete room Room); [exact Ra|apply Permutation_refl|]. apply wp_ret. apply H. exact CR'. }
  apply wp_bind. destruct ok.
  - apply bind_ok in E. destruct E as (r & E1 & E). apply bind_ok in E. destruct E as (z & E2 & E). injection E as <-.
    destruct (ctrl_open ct c pq pr C (La ++ Lk ++ C ++ Ld ++ F) (La ++ Lk ++ Ld ++ F) CR) as (ps & N & Ls & Lp & (L8 & (w & W1 & W2 & NR) & RL & ML & NL & PR) & <- & <- & P'); [perm|].
    eapply wp_perm; [exact P'|]. apply wp_bind. eapply wp_load_elem; [left; reflexivity|]. cbn [snd].
    apply wp_bind. eapply (wp_node_listener room Room le net dec w _ _ N a m' None La r _ ((ct, BElem 0 0 (c_option c) ps) :: (ctrl_mutex ps, BRec []) :: (ctrl_cond ps, BRec []) :: Ls ++ Lp ++ Lk ++ Ld ++ F));
      [exact NR|exact Ra|perm|exact E1|].
    intros N' NR'.
    assert (MK : P_Message.msg_ok m').
    { destruct (P_MemRecv.new_api le (firstn M_Server.RECV_BUFSIZE d) local (Some from)) as (ok2 & m2 & EP2 & AP); [apply P_MemRecv.buffer_firstn; exact B|].
      rewrite EP in EP2. injection EP2 as <- <-. apply (P_MsgApi.api_inv_holds le m' AP). }
    apply wp_bind. eapply (wp_ctrl_listener room Room le snet db fr ct (c_option c) ps (c_with_node (r_node r) c) Ls Lp w N' a m' None La ds Ld z _
       ((ct, BElem 0 0 (c_option c) ps) :: (ctrl_mutex ps, BRec []) :: (ctrl_cond ps, BRec []) :: Lk ++ F));
      [exact RL|exact PR|exact NR'|exact DL|exact EI|exact Ra|exact MK|exact SM|left; reflexivity|exact ML|exact NL|perm|exact E2|].
    intros Ls' Lp' RL' PR' (S1 & S2 & S3 & S4). cbn [fst snd] in *. apply wp_ret. cbn [c_with_node c_node c_msglistener c_nodelistener c_option] in *.
    eapply (wp_perm _ _ _ (La ++ Lk ++ ((ct, BElem 0 0 (c_option (cr_ctrl z)) ps) :: (ctrl_mutex ps, BRec []) :: (ctrl_cond ps, BRec []) :: N' ++ Ls' ++ Lp') ++ Ld ++ F)); [rewrite S4; cbn [app]; perm|].
    apply REST; [reflexivity|]. apply (ctrl_close ct (cr_ctrl z) ps N' Ls' Lp').
    split; [exact L8|]. split; [rewrite S1; exists w; auto|]. split; [exact RL'|]. split; [rewrite S2; exact ML|]. split; [rewrite S3; exact NL|exact PR'].
  - injection E as <-. apply wp_ret. apply REST; [reflexivity|exact CR].
Qed.
End Room.
