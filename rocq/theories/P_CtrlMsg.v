(* Reading a received message, and what it does to one node. *)
From Coq Require Import String Ascii ZArith List Bool Lia Permutation.
From Coq Require Import ZifyBool ZifyNat.
Ltac Zify.zify_post_hook ::= Z.div_mod_to_equations.
From Verif Require Import CSem P_Base M_Const M_Misc P_Misc M_String M_Property M_PropertyList P_PropertyList M_Log M_Message M_Object M_Node M_NodeListener M_Controller
  M_Mem M_MemUse M_ObjMem M_Life M_NodeMem M_NodeLife M_CtrlMem Spec_Message P_Mem P_MemMsg P_MemParse P_MemProp P_MemBytes P_MemCopy P_MemPkt P_MemRun P_Ring P_ObjProp P_ObjCache P_ObjMem P_ObjUse P_ObjStd
  P_Object P_ObjectRun P_ObjectReach P_ObjRun P_Life P_LifeRun P_NodeMem P_NodeRecv P_NodeLife P_NodeBuild P_NodeAlive P_NodeWhole P_CtrlProp P_CtrlUpdate P_CtrlNodes.
From Verif Require P_MemRecv Spec_Mem P_MsgApi P_Message.
Import ListNotations.
Open Scope Z_scope.

(* ---- reading ---- *)

Lemma wp_msg_bycode : forall q g m code Lm L (Q : Z -> heaplet -> Prop), view q g m Lm -> incl Lm L ->
  (M_Message.uecho_message_getpropertybycode m code = Ok None -> Q 0 L) ->
  (forall x p Lx, M_Message.uecho_message_getpropertybycode m code = Ok (Some p) -> prop_rep x p Lx -> incl Lx Lm -> Q x L) ->
  wp (M_Mem.uecho_message_getpropertybycode PPlain q code) L Q.
Proof.
  intros q g m code Lm L Q V IM H0 H1. pose proof V as (IG0 & SH & VV). destruct (VV PPlain) as (Lw & VW & IW). cbn [g_array mpart] in VW.
  assert (IG := IM _ IG0).
  destruct (vec_items _ _ _ VW) as (l & ads & Lp & EI & RP & LA & IA & IP & EP).
  unfold M_Mem.uecho_message_getpropertybycode. nz q. apply wp_bind. eapply wp_load_msg; [exact IG|].
  rewrite (same_count PPlain g m SH). cbn [mpart g_array]. rewrite <- LA.
  assert (EG : M_Message.uecho_message_getpropertybycode m code = Ok (List.find (fun p => p_code p =? code) l)).
  { unfold M_Message.uecho_message_getpropertybycode, uecho_property_getbycode. rewrite EI. reflexivity. }
  eapply (wp_getbycode_loop l ads (g_ep g) [] code Lp); [exact RP| |intros y Y; apply IM, IW, IP; exact Y| |].
  - destruct IA as [IA|IA]; [left; exact IA|right; apply IM, IW; exact IA].
  - intro FN. apply H0. rewrite EG, P_MemParse.find_no by exact FN. reflexivity.
  - intros b (ps1 & p & ps2 & ads1 & ads2 & L1 & L2 & L3 & -> & Ec & Fn & -> & -> & R1 & R2 & R3).
    eapply H1; [rewrite EG, P_MemParse.find_mid by assumption; reflexivity|exact R2|].
    intros y Y. apply IW, IP. apply in_or_app; right; apply in_or_app; left; exact Y.
Qed.

Lemma wp_issearch : forall q g m b L (Q : bool -> heaplet -> Prop), view q g m L -> M_Message.uecho_message_issearchresponse m = Ok b -> Q b L ->
  wp (uecho_message_issearchresponse q) L Q.
Proof.
  intros q g m b L Q V E H. pose proof V as (IG & SH & VV). destruct SH as (_ & _ & _ & _ & _ & E6 & E7 & _).
  unfold uecho_message_issearchresponse. unfold M_Message.uecho_message_issearchresponse in E. apply wp_bind. eapply wp_load_msg; [exact IG|].
  rewrite E6, E7. destruct (negb (_ || _ || _)); [injection E as <-; apply wp_ret; exact H|].
  destruct (negb (pv_opc (m_p m) =? 1)) eqn:E1; [injection E as <-; apply wp_ret; exact H|].
  apply negb_false_iff, Z.eqb_eq in E1. unfold first_code_is, M_Message.uecho_message_getproperty, uecho_property_get in E.
  destruct (VV PPlain) as (Lw & VW & IW). cbn [g_array mpart] in VW.
  destruct (vec_items _ _ _ VW) as (l & ads & Lp & EI & RP & LA & IA & IP & EP).
  rewrite E1 in LA. pose proof (props_rep_len _ _ _ RP) as LL. destruct ads as [|x [|]]; try discriminate LA. destruct l as [|p [|]]; try discriminate LL.
  destruct EP as [[_ EP]|EP]; [discriminate EP|]. rewrite EP, E1 in E. cbn in E.
  destruct IA as [IA|IA]; [discriminate IA|].
  apply props_rep_cons_inv in RP. destruct RP as (x' & ads' & L1 & L2 & EX & -> & R1 & R2). injection EX as <- <-.
  destruct (prop_rep_in x p L1 R1) as (pq & Iq & Ec & _).
  assert (Iq' : In (x, BProp pq) L) by (apply IW, IP; apply in_or_app; left; exact Iq). assert (IA' := IW _ IA).
  apply wp_bind. unfold M_Mem.uecho_message_getproperty. nz q. apply wp_bind. eapply wp_load_msg; [exact IG|]. cbn [g_array g_count]. nz (g_ep g).
  apply wp_bind. eapply wp_ptr_at; [exact IA'|reflexivity|]. nz x. rewrite E7, E1. change (sz (1 - 1) <? 0) with false. cbv iota.
  eapply wp_ptr_at; [exact IA'|reflexivity|]. nz x. apply wp_bind. apply wp_bind. eapply wp_load_prop; [exact Iq'|]. apply wp_ret. rewrite Ec.
  apply wp_ret. injection E as <-. exact H.
Qed.

Lemma wp_isresponse : forall le q g m q' g' m' L (Q : bool -> heaplet -> Prop), view q g m L -> view q' g' m' L ->
  Q (M_Message.uecho_message_isresponsemessage le m m') L -> wp (uecho_message_isresponsemessage le q q') L Q.
Proof.
  intros le q g m q' g' m' L Q (IG & SH & _) (IG' & SH' & _) H. unfold uecho_message_isresponsemessage. nz q. nz q'. cbn [orb].
  apply wp_bind. eapply wp_load_msg; [exact IG|]. apply wp_bind. eapply wp_load_msg; [exact IG'|].
  destruct SH as (_ & _ & E3 & _ & _ & E6 & _), SH' as (_ & _ & F3 & _ & _ & F6 & _). unfold M_Message.uecho_message_isresponsemessage in H.
  unfold tid_of. rewrite E3, F3, E6, F6.
  change (M_Message.uecho_message_gettid le (with_tid (m_tid m) M_Message.uecho_message_new)) with (M_Message.uecho_message_gettid le m).
  change (M_Message.uecho_message_gettid le (with_tid (m_tid m') M_Message.uecho_message_new)) with (M_Message.uecho_message_gettid le m').
  destruct (negb (_ =? _)); [apply wp_ret; exact H|]. apply wp_ret. destruct (m_esv m =? m_esv m'); exact H.
Qed.

(* ---- one node ---- *)

Section Room.
Variable room : Z -> bool.
Hypothesis Room : forall n, room n = true.
Variable le : bool.
Variable net snet : post -> bool.
Variable dec : list (hcall * bool) -> hcall -> bool.
Variable db : Z.

Lemma wp_node_setaddr : forall w nd n N p s L F (Q : unit -> heaplet -> Prop), node_in w nd n N -> Permutation L (N ++ F) -> addr_arg p (Some s) F ->
  (forall N', node_in w nd (M_Node.uecho_node_setaddress (Some s) n) N' -> Q tt (N' ++ F)) -> wp (uecho_node_setaddress room nd p) L Q.
Proof.
  intros w nd n N p s L F Q NR P AA H. destruct (node_open _ _ _ _ _ _ NR P) as (ps & Lr & Lc & Lx & L7 & HE & (Ls & La & SA & ST & LI & KK & PX) & P'). eapply wp_perm; [exact P'|].
  pose proof HE as (ND & _). unfold uecho_node_setaddress. rewrite ND.
  apply wp_bind. eapply (wp_load_elem nd (at_prev w) (at_next w) (n_tid n) ps); [left; reflexivity|]. cbn [snd].
  apply wp_post. eapply (wp_setvalue_arg room Room _ (n_addr n) La p (Some s) _ ((nd, nblk (at_prev w) (at_next w) ps (n_tid n)) :: Lr ++ Lc ++ (node_mutex ps, BRec []) :: Ls ++ F)); [exact ST| | |].
  - eapply perm_trans; [apply perm_skip; do 2 apply Permutation_app_head; apply Permutation_app_tail; exact PX|]. perm.
  - eapply addr_arg_incl; [exact AA|]. intros x X. right. apply in_or_app; right. apply in_or_app; right. right. apply in_or_app; right. exact X.
  - intros La' ST'. exists (((nd, nblk (at_prev w) (at_next w) ps (n_tid n)) :: Lr ++ Lc ++ (node_mutex ps, BRec []) :: Ls ++ La') ++ F). split; [cbn [app]; perm|].
    apply H. exists ps, Lr, Lc, ((node_mutex ps, BRec []) :: Ls ++ La'). split; [exact L7|]. split; [exact HE|].
    split; [|apply Permutation_refl]. exists Ls, La'. split; [exact SA|]. split; [exact ST'|]. split; [exact LI|]. split; [exact KK|apply Permutation_refl].
Qed.

Lemma code3 : forall bs c, bytes_ok bs -> len bs = 3 -> uecho_byte2integer bs = Ok c -> 0 <= c <= 16777215.
Proof.
  intros bs c B LN E. assert (LB : length bs = 3%nat) by (unfold len in LN; lia). destruct bs as [|x [|y [|z [|]]]]; try discriminate LB. inversion B as [|? ? B1 B']; subst. inversion B' as [|? ? B2 B'']; subst. inversion B'' as [|? ? B3 _]; subst.
  rewrite byte2integer_3 in E by assumption. injection E as <-. unfold is_byte in *. lia.
Qed.
Lemma range_bytes : forall l i k x, bytes_ok l -> rd_range l i k = Ok x -> bytes_ok x.
Proof.
  intros l i k x H E. unfold rd_range in E. destruct (k =? 0); [injection E as <-; constructor|].
  destruct (_ && _); [|discriminate]. injection E as <-. unfold bytes_ok in *. rewrite Forall_forall in *.
  intros y I. apply H. rewrite <- (firstn_skipn (Z.to_nat i) l). apply in_or_app. right.
  rewrite <- (firstn_skipn (Z.to_nat k)). apply in_or_app. left. exact I.
Qed.

Lemma wp_search_loop : forall fr ds Ld data d F, dlist db ds Ld -> Forall einv ds -> bytes_ok d -> In (data, BBytes (map Some d)) F ->
  forall fuel idx j w nd n N u r L (Q : bool -> heaplet -> Prop), node_in w nd n N -> Permutation L (N ++ Ld ++ F) ->
  M_Controller.search_loop le snet ds fuel fr d idx j n u = Ok r ->
  (forall N', node_in w nd (fst r) N' -> n_addr (fst r) = n_addr n -> Q (snd r) (N' ++ Ld ++ F)) ->
  wp (search_loop room le snet db fuel fr nd data (len d) idx j u) L Q.
Proof.
  intros fr ds Ld data d F DL EI BD ID. induction fuel as [|fuel IH]; intros idx j w nd n N u r L Q NR P E H; cbn [search_loop M_Controller.search_loop] in *.
  - destruct (idx + 2 <? len d); [discriminate|]. injection E as <-. eapply wp_perm; [exact P|]. apply wp_ret. apply H; [exact NR|reflexivity].
  - destruct (idx + 2 <? len d); [|injection E as <-; eapply wp_perm; [exact P|]; apply wp_ret; apply H; [exact NR|reflexivity]].
    apply bind_ok in E. destruct E as (bs & E1 & E). apply bind_ok in E. destruct E as (code & E2 & E).
    destruct (rd_range_map _ _ Some _ _ _ _ E1) as [E1' LB].
    eapply wp_perm; [exact P|]. apply wp_bind. eapply wp_load_bytes; [apply in_or_app; right; apply in_or_app; right; exact ID|].
    apply wp_bind. eapply wp_lift; [exact E1'|]. apply wp_bind. eapply wp_lift; [apply init_bytes_map_Some|]. apply wp_bind. eapply wp_lift; [exact E2|].
    assert (CO : 0 <= code <= 16777215) by (eapply code3; [eapply range_bytes; [exact BD|exact E1]|exact LB|exact E2]).
    apply wp_bind. eapply (wp_node_find w nd n N code _ (Ld ++ F)); [exact NR|apply Permutation_refl| |].
    + intro NO. rewrite NO in E. cbn [Z.eqb negb]. apply bind_ok in E. destruct E as ([[n' posts] ok] & E3 & E).
      apply wp_bind. eapply (wp_node_set room Room (fr_more fr j) le snet db w nd n N ds Ld code n' posts ok _ F); [exact NR|exact DL|exact EI|exact CO|apply Permutation_refl|exact E3|].
      intros N' NR'. eapply IH; [exact NR'|apply Permutation_refl|exact E|]. intros N2 NR2 AD. apply H; [exact NR2|]. rewrite AD.
      apply (set_apart _ _ _ _ _ _ _ _ _ E3).
    + intros ps v1 a o v2 Lr Lc Lx L7 HE EX EO D1 D2 A RA FD P'. rewrite FD in E. rewrite (pos_nz a) by exact A. cbn [negb].
      eapply IH; [exact NR|apply Permutation_refl|exact E|exact H].
Qed.

Lemma wp_updatenode : forall fr w nd n N q g m Lm r L F (Q : bool -> heaplet -> Prop), node_in w nd n N -> Forall small_obj (n_objs n) -> view q g m Lm -> incl Lm F ->
  Permutation L (N ++ F) -> M_Controller.uecho_controller_updatenodebyresponsemessage le snet fr n m = Ok r ->
  (forall N', node_in w nd (fst r) N' -> n_addr (fst r) = n_addr n -> Q (snd r) (N' ++ F)) ->
  wp (uecho_controller_updatenodebyresponsemessage room le snet fr nd q) L Q.
Proof.
  intros fr w nd n N q g m Lm r L F Q NR SM V0 IM P E H. assert (V : view q g m F) by (eapply view_incl; [exact V0|exact IM]). clear Lm V0 IM.
  eapply wp_perm; [exact P|]. pose proof V as (IG & SH & VV). destruct SH as (_ & _ & _ & E4 & _ & E6 & _).
  unfold uecho_controller_updatenodebyresponsemessage. apply wp_bind. eapply wp_load_msg; [apply in_or_app; right; exact IG|].
  unfold M_Controller.uecho_controller_updatenodebyresponsemessage in E. apply bind_ok in E. destruct E as (sc & E1 & E).
  unfold M_Message.uecho_message_getsourceobjectcode in E1. rewrite <- E4 in E1.
  apply wp_bind. eapply wp_lift; [exact E1|]. apply wp_bind.
  eapply (wp_node_find w nd n N sc _ F); [exact NR|apply Permutation_refl| |].
  - intro NO. rewrite NO in E. cbn [Z.eqb]. injection E as <-. apply wp_ret. apply H; [exact NR|reflexivity].
  - intros ps v1 a o v2 Lr Lc Lx L7 HE EX EO D1 D2 A RA FD P'. rewrite FD in E. rewrite (pos_nz a) by exact A.
    rewrite (view_rw _ _ _ _ V). unfold M_Controller.uecho_controller_updateopcpropertydata in E. apply bind_ok in E. destruct E as (l & E2 & E).
    set (w' := if uecho_message_isreadwritemessage m then PGet else PPlain).
    assert (EM : (if uecho_message_isreadwritemessage m then m_pget m else m_p m) = mpart w' m) by (unfold w'; destruct (uecho_message_isreadwritemessage m); reflexivity).
    rewrite EM in E2. destruct (VV w') as (Lw & VW & IW). destruct (vec_items _ _ _ VW) as (l' & ads & Lp & EI & RP & LA & IA & IP & EP).
    rewrite EI in E2. injection E2 as <-. rewrite (same_count w' g m (proj1 (proj2 V))), <- LA, (props_rep_len _ _ _ RP).
    eapply wp_perm; [exact P'|]. pose proof HE as (ND & SV & _).
    assert (SO : small_obj o) by (eapply (proj1 (Forall_forall _ _) SM); rewrite EO; apply in_or_app; right; left; reflexivity).
    destruct l' as [|p0 l'].
    + cbn [length update_loop]. cbn in E. injection E as <-. apply wp_post, wp_ret. eexists. split; [|apply (H N); [exact NR|reflexivity]].
      eapply perm_trans; [apply Permutation_sym; exact P'|apply Permutation_refl].
    + destruct IA as [->|IA]; [pose proof (props_rep_len _ _ _ RP) as X; discriminate X|].
      apply wp_post. change 0 with (len (@nil prop)) at 1.
      eapply (wp_update_loop room Room le snet fr sc nd (at_prev w) (at_next w) ps v1 a v2 (g_array w' g) ads (p0 :: l') Lp (Lc ++ Lx ++ F) ND SV) with (pre := []);
        [|exact RP| |reflexivity|exact RA| | | |apply Permutation_refl|exact E|].
      * apply in_or_app; right. apply in_or_app; right. apply IW. exact IA.
      * intros y Y. apply in_or_app; right. apply in_or_app; right. apply IW, IP. exact Y.
      * split; [exact EO|]. split; [exact D1|exact D2].
      * apply sized_small. exact SO.
      * destruct VW as (VC & _). unfold len. rewrite <- (props_rep_len _ _ _ RP), LA. lia.
      * intros o' Lr' RA' (AC & _ & _) K. eexists. split; [|apply (H ((nd, nblk (at_prev w) (at_next w) ps (n_tid (fst r))) :: Lr' ++ Lc ++ Lx)); [|apply K]].
        -- cbn [app]. perm.
        -- eapply node_close; [exact L7| |exact EX|apply keeps_apart; exact K]. eapply same_held; [exact HE|rewrite AC; eapply rl_at_list; exact RA'|apply K].
Qed.

Lemma wp_node_listener : forall w nd n N q req c Lq r L F (Q : _ -> heaplet -> Prop), node_in w nd n N -> msg_rep q req c Lq -> Permutation L (N ++ Lq ++ F) ->
  M_NodeListener.uecho_node_servermessagelistener le net dec n req = Ok r ->
  (forall N', node_in w nd (r_node r) N' -> Q (r_anns r ++ r_answer r, r_calls r, r_told r) (N' ++ Lq ++ F)) ->
  wp (M_NodeMem.uecho_node_servermessagelistener room le net dec nd q) L Q.
Proof.
  intros w nd n N q req c Lq r L F Q NR RQ P E H. destruct (node_open _ _ _ _ _ _ NR P) as (ps & Lr & Lc & Lx & L7 & HE & EX & P').
  pose proof HE as (ND & SV & RO & _). pose proof EX as (_ & _ & _ & _ & LI & _ & _). apply wp_post.
  eapply (wp_listener room Room le net dec nd (at_prev w) (at_next w) ps n Lr q req c Lq r _ (Lc ++ Lx ++ F)); [exact RO|exact SV|exact LI|exact RQ| |exact E|].
  - eapply perm_trans; [exact P'|]. perm.
  - intros Lr' RO'. pose proof (listener_keeps _ _ _ _ _ _ E) as K.
    eexists. split; [|apply (H ((nd, nblk (at_prev w) (at_next w) ps (n_tid (r_node r))) :: Lr' ++ Lc ++ Lx))].
    + cbn [app]. perm.
    + eapply node_close; [exact L7| |exact EX|apply keeps_apart; exact K]. eapply same_held; [exact HE|exact RO'|apply K].
Qed.

Lemma wp_node_annmsg : forall w nd n N a m c Lm s L F (Q : _ -> heaplet -> Prop), node_in w nd n N -> msg_rep a m c Lm -> Permutation L (N ++ Lm ++ F) ->
  M_Node.uecho_node_announcemessage le net n m = Ok s ->
  (forall N' c' Lm', node_in w nd (s_node s) N' -> msg_rep a (s_msg s) c' Lm' -> Q (s_ret s, s_posts s) (N' ++ Lm' ++ F)) ->
  wp (M_NodeMem.uecho_node_announcemessage room le net nd a) L Q.
Proof.
  intros w nd n N a m c Lm s L F Q NR RM P E H. destruct (node_open _ _ _ _ _ _ NR P) as (ps & Lr & Lc & Lx & L7 & HE & EX & P').
  pose proof HE as (ND & SV & RO & _). apply wp_post.
  eapply (wp_annmsg room Room le net nd (at_prev w) (at_next w) ps n Lr a m c Lm s _ (Lc ++ Lx ++ F)); [exact RO|exact SV|exact RM| |exact E|].
  - eapply perm_trans; [exact P'|]. perm.
  - intros c' Lm' RM'. pose proof (annmsg_keeps _ _ _ _ _ E) as [K EO].
    eexists. split; [|apply (H ((nd, nblk (at_prev w) (at_next w) ps (n_tid (s_node s))) :: Lr ++ Lc ++ Lx) c' Lm'); [|exact RM']].
    + cbn [app]. perm.
    + eapply node_close; [exact L7| |exact EX|apply keeps_apart; exact K]. eapply same_held; [exact HE|rewrite EO; exact RO|apply K].
Qed.
End Room.
