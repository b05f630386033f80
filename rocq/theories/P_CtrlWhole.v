(* A controller in the heap as one assertion, and every call on it. *)
From Coq Require Import String Ascii ZArith List Bool Lia Permutation.
From Coq Require Import ZifyBool ZifyNat.
Ltac Zify.zify_post_hook ::= Z.div_mod_to_equations.
From Verif Require Import CSem P_Base M_Const M_Misc P_Misc M_String M_Property M_PropertyList P_PropertyList M_Log M_Message M_Object M_Node M_NodeListener M_Controller
  M_Mem M_MemUse M_ObjMem M_Life M_NodeMem M_NodeLife M_CtrlMem Spec_Message P_Mem P_MemMsg P_MemParse P_MemProp P_MemBytes P_MemCopy P_MemPkt P_MemRun P_Ring P_ObjProp P_ObjCache P_ObjMem P_ObjUse P_ObjStd
  P_Object P_ObjectRun P_ObjectReach P_ObjRun P_Life P_LifeRun P_NodeMem P_NodeRecv P_NodeLife P_NodeBuild P_NodeAlive P_NodeWhole P_CtrlProp P_CtrlUpdate P_CtrlNodes P_CtrlMsg.
From Verif Require P_MemRecv Spec_Mem P_MsgApi P_Message M_Server.
Import ListNotations.
Open Scope Z_scope.

Lemma isaddr_some : forall n a, M_Controller.uecho_node_isaddress n (Some a) = true -> n_addr n = Some a.
Proof. intros n a E. unfold M_Controller.uecho_node_isaddress in E. destruct (n_addr n) as [x|]; [|discriminate]. apply String.eqb_eq in E. congruence. Qed.
Lemma isaddr_any : forall n a, M_Controller.uecho_node_isaddress n a = true -> n_addr n = a.
Proof. intros n [a|] E; [apply isaddr_some; exact E|]. unfold M_Controller.uecho_node_isaddress in E. destruct (n_addr n); discriminate. Qed.
Lemma shadows_app : forall ct a b, shadows ct (a ++ b) = shadows ct a ++ shadows ct b.
Proof. intros. apply map_app. Qed.

Lemma bycode_bytes : forall m code p, P_Message.msg_ok m -> M_Message.uecho_message_getpropertybycode m code = Ok (Some p) -> bytes_ok (p_data p).
Proof.
  intros m code p MO E. destruct MO as (_ & _ & _ & _ & _ & _ & _ & VO & _). unfold M_Message.uecho_message_getpropertybycode, uecho_property_getbycode in E.
  rewrite (P_Message.pv_items_ok _ VO) in E. cbn [bind] in E. injection E as E. apply List.find_some in E. destruct E as [I _].
  exact (proj1 (proj2 (proj1 (Forall_forall _ _) (P_Message.pv_list_ok _ VO) _ I))).
Qed.

Definition same_ctrl (c c' : ctrl) : Prop :=
  c_node c' = c_node c /\ c_msglistener c' = c_msglistener c /\ c_nodelistener c' = c_nodelistener c /\ c_option c' = c_option c.
Lemma search_same : forall le snet ds fr c m c' told, M_Controller.uecho_controller_handlesearchmessage le snet ds fr c m = Ok (c', told) ->
  c_req c' = c_req c /\ c_res c' = c_res c /\ same_ctrl c c'.
Proof.
  intros le snet ds fr c m c' told E. unfold M_Controller.uecho_controller_handlesearchmessage in E. apply bind_ok in E. destruct E as (o & _ & E).
  assert (SC : c_req c = c_req c /\ c_res c = c_res c /\ same_ctrl c c) by (repeat split).
  destruct o as [p|]; [|injection E as <- _; exact SC]. destruct (_ <? _); [injection E as <- _; exact SC|]. destruct (m_from m) as [a|]; [|injection E as <- _; exact SC].
  destruct (M_Controller.uecho_controller_getnodebyaddress c (Some a)).
  - apply bind_ok in E. destruct E as ([n' u] & _ & E). injection E as <- _. repeat split.
  - apply bind_ok in E. destruct E as (x & _ & E). apply bind_ok in E. destruct E as ([n' u] & _ & E). injection E as <- _. repeat split.
Qed.
Lemma nodemsg_same : forall le snet fr c a n m c' told, M_Controller.uecho_controller_handlenodemessage le snet fr c a n m = Ok (c', told) ->
  c_req c' = c_req c /\ c_res c' = c_res c /\ same_ctrl c c'.
Proof.
  intros le snet fr c a n m c' told E. unfold M_Controller.uecho_controller_handlenodemessage in E. cbv zeta in E. apply bind_ok in E. destruct E as ([n' u] & _ & E).
  injection E as <- _. repeat split.
Qed.

Section Room.
Variable room : Z -> bool.
Hypothesis Room : forall n, room n = true.
Variable le : bool.
Variable net snet : post -> bool.
Variable dec : list (hcall * bool) -> hcall -> bool.
Variable db : Z.

(* ---- search responses ---- *)

Lemma wp_handlesearch : forall fr ct op ps c Ls q g m ds Ld c' told L F (Q : list ctold -> heaplet -> Prop),
  rlist sbody (ctrl_nodes ps) (shadows ct (c_nodes c)) Ls -> dlist db ds Ld -> Forall einv ds -> P_Message.msg_ok m ->
  In (ct, BElem 0 0 op ps) F -> c_nodelistener c = negb (ctrl_nodelistener ps =? 0) -> view q g m F -> addr_arg (g_from g) (m_from m) F ->
  Permutation L (Ls ++ Ld ++ F) -> M_Controller.uecho_controller_handlesearchmessage le snet ds fr c m = Ok (c', told) ->
  (forall Ls', rlist sbody (ctrl_nodes ps) (shadows ct (c_nodes c')) Ls' -> Q told (Ls' ++ Ld ++ F)) ->
  wp (uecho_controller_handlesearchmessage room le snet db fr ct q) L Q.
Proof.
  intros fr ct op ps c Ls q g m ds Ld c' told L F Q RL DL EI MO IC NL V AF P E H. eapply wp_perm; [exact P|]. clear L P.
  assert (INF : forall x X, In x F -> In x (X ++ Ld ++ F)) by (intros x X I; apply in_or_app; right; apply in_or_app; right; exact I).
  assert (VI : forall X, view q g m (X ++ Ld ++ F)) by (intro X; eapply view_incl; [exact V|intros x I; apply INF; exact I]).
  unfold M_Controller.uecho_controller_handlesearchmessage in E. apply bind_ok in E. destruct E as (o & E1 & E).
  unfold uecho_controller_handlesearchmessage. apply wp_bind. eapply (wp_msg_bycode q g m _ F); [exact V|intros x I; apply INF; exact I| |].
  - intro EN. rewrite E1 in EN. injection EN as ->. cbn [Z.eqb]. injection E as <- <-. apply wp_ret. apply H. exact RL.
  - intros x p Lx ES RX IX. rewrite E1 in ES. injection ES as ->.
    assert (BP : bytes_ok (p_data p)) by (eapply bycode_bytes; [exact MO|exact E1]).
    destruct RX as (sn & so & da & Ln & Ld0 & EL & _ & RD & _ & SZ).
    assert (Iq : In (x, BProp (mkCprop x x sn (p_code p) (p_attr p) da (len (p_data p)) 0)) F) by (apply IX; rewrite EL; left; reflexivity).
    assert (ID : p_data p <> [] -> In (da, BBytes (map Some (p_data p))) F).
    { intro NE. apply IX. rewrite EL. right. apply in_or_app. right. unfold data_rep in RD. destruct (p_data p); [congruence|]. subst Ld0. left. reflexivity. }
    clear EL RD Lx IX. eapply (wp_pos _ _ _ _ x); [apply INF; exact Iq|intro X0]. rewrite (pos_nz x) by exact X0.
    apply wp_bind. eapply wp_load_prop; [apply INF; exact Iq|]. cbn [q_size]. unfold uecho_property_getdatasize in E.
    destruct (len (p_data p) <? 1) eqn:E2; [injection E as <- <-; apply wp_ret; apply H; exact RL|].
    assert (NE : p_data p <> []) by (intro X; rewrite X in E2; discriminate E2). specialize (ID NE).
    pose proof V as (IG & _ & _). apply wp_bind. eapply wp_load_msg; [apply INF; exact IG|].
    destruct (m_from m) as [a|]; cbn [addr_arg] in AF.
    2:{ rewrite AF. cbn [Z.eqb]. injection E as <- <-. apply wp_ret. apply H. exact RL. }
    assert (AI : forall X, addr_arg (g_from g) (Some a) (X ++ Ld ++ F)) by (intro X; eapply (addr_arg_incl _ _ F); [exact AF|intros y Y; apply INF; exact Y]).
    eapply (wp_pos _ _ _ _ (g_from g)); [apply (proj1 (AI Ls))|intro G0]. rewrite (pos_nz (g_from g)) by exact G0.
    apply wp_bind. unfold uecho_controller_getnodebyaddress. eapply (wp_pos _ _ _ _ ct); [apply INF; exact IC|intro C0]. rewrite (pos_nz ct) by exact C0.
    apply wp_bind. eapply wp_load_elem; [apply INF; exact IC|]. cbn [snd].
    assert (LAST : forall nd (added : bool) l1 l2 n n' u Ls', rl_at sbody (ctrl_nodes ps) l1 nd (n, ct) l2 Ls' -> n_addr n = Some a ->
        M_Controller.search_loop le snet ds (length (p_data p)) fr (p_data p) 1 0 n false = Ok (n', u) ->
        told = (if c_nodelistener c && (added || u) then [ToldStatus (Some a) (if added then StAdded else StUpdated)] else []) ->
        (forall Ls2, rl_at sbody (ctrl_nodes ps) l1 nd (n', ct) l2 Ls2 -> rlist sbody (ctrl_nodes ps) (shadows ct (c_nodes c')) Ls2) ->
        wp (let! q0 := load_prop x in
            let! updated := search_loop room le snet db (Z.to_nat (q_size q0)) fr nd (q_data q0) (q_size q0) 1 0 false in
            let! e := load_elem ct in
            if ctrl_nodelistener (snd e) =? 0 then ret []
            else if added then let! s := M_CtrlMem.shown nd StAdded in ret [s]
            else if updated then let! s := M_CtrlMem.shown nd StUpdated in ret [s] else ret []) (Ls' ++ Ld ++ F) Q).
    { intros nd added l1 l2 n n' u Ls' RA AN ESL ET RC. destruct (shadow_focus _ _ _ _ _ _ _ RA) as (pv & nx & N & R & NR & PL & G).
      apply wp_bind. eapply wp_load_prop; [apply INF; exact Iq|]. cbn [q_size q_data].
      apply wp_bind. replace (Z.to_nat (len (p_data p))) with (length (p_data p)) by (unfold len; lia).
      eapply (wp_search_loop room Room le snet db fr ds Ld da (p_data p) (R ++ F) DL EI BP) with (N := N); [apply in_or_app; right; exact ID|exact NR| |exact ESL|].
      { eapply perm_trans; [exact (Permutation_app_tail (Ld ++ F) PL)|]. perm. }
      cbn [fst snd]. intros N' NR' AN'. apply wp_bind. eapply wp_load_elem; [apply in_or_app; right; apply in_or_app; right; apply in_or_app; right; exact IC|]. cbn [snd].
      assert (PE : Permutation (N' ++ Ld ++ R ++ F) ((N' ++ R) ++ Ld ++ F)) by perm. rewrite NL in ET.
      assert (I1 : incl N' (N' ++ Ld ++ R ++ F)) by (intros y Y; apply in_or_app; left; exact Y).
      destruct (ctrl_nodelistener ps =? 0); cbn [negb andb] in ET.
      - apply wp_post, wp_ret. eexists. split; [exact PE|]. rewrite <- ET. apply H, RC, G, NR'.
      - destruct added; cbn [orb] in ET.
        + apply wp_bind. eapply wp_shown; [exact NR'|exact I1|]. apply wp_post, wp_ret. eexists. split; [exact PE|]. rewrite AN', AN, <- ET. apply H, RC, G, NR'.
        + destruct u.
          * apply wp_bind. eapply wp_shown; [exact NR'|exact I1|]. apply wp_post, wp_ret. eexists. split; [exact PE|]. rewrite AN', AN, <- ET. apply H, RC, G, NR'.
          * apply wp_post, wp_ret. eexists. split; [exact PE|]. rewrite <- ET. apply H, RC, G, NR'. }
    eapply (wp_nodes_find ct (ctrl_nodes ps) (c_nodes c) Ls (g_from g) (Some a) _ (Ld ++ F)); [exact RL|apply Permutation_refl|apply AI| |].
    + intro NO. unfold M_Controller.uecho_controller_getnodebyaddress in E. rewrite NO in E.
      apply bind_ok in E. destruct E as ([n0 posts0] & E3 & E). cbn [fst] in E. apply bind_ok in E. destruct E as ([n' u] & E4 & E). injection E as <- <-.
      cbn [Z.eqb]. apply wp_bind. apply wp_bind.
      eapply (wp_node_new room Room (fr_junk fr) le snet db ds Ld _ _ _ n0 posts0 _ (Ls ++ F)); [exact DL|exact EI|perm|exact E3|].
      intros nd N NR. cbn [fst]. destruct (node_block _ _ _ _ NR) as (_ & _ & ND & _). rewrite ND.
      apply wp_bind. eapply wp_load_msg; [apply in_or_app; right; apply in_or_app; right; apply in_or_app; right; exact IG|].
      apply wp_bind. eapply (wp_node_setaddr room Room _ nd n0 N (g_from g) a _ (Ld ++ Ls ++ F)); [exact NR|apply Permutation_refl| |].
      { eapply (addr_arg_incl _ _ F); [exact AF|]. intros y Y. apply in_or_app; right. apply in_or_app; right. exact Y. }
      intros N1 NR1. set (n1 := M_Node.uecho_node_setaddress (Some a) n0) in *.
      apply wp_bind. unfold uecho_controller_addnode. apply wp_bind. eapply wp_load_elem; [apply in_or_app; right; apply in_or_app; right; apply in_or_app; right; exact IC|]. cbn [snd].
      apply wp_bind. eapply (wp_nodes_add ct (ctrl_nodes ps) (c_nodes c) Ls nd n1 N1 _ (Ld ++ F)); [exact RL|exact NR1|perm|].
      intros Ls1 RA1. cbn [negb]. apply wp_bind. eapply (wp_join _ _ _ _ _ _ Ls1 ct _ (Ld ++ F)); [exact RA1|apply Permutation_refl|].
      intros Ls2 RA2. apply wp_ret. apply wp_ret. rewrite ND.
      eapply (LAST nd true _ _ n1 n' u Ls2); [exact RA2|reflexivity|exact E4| |].
      * rewrite orb_true_l, andb_true_r. reflexivity.
      * intros Ls3 RA3. cbn [M_Controller.uecho_controller_addnode c_with_nodes c_nodes]. rewrite shadows_app. exact (rl_at_list _ _ _ _ _ _ _ _ RA3).
    + intros l1 nd n l2 EN BA PN IS N0 RA. unfold M_Controller.uecho_controller_getnodebyaddress in E. rewrite BA in E.
      apply bind_ok in E. destruct E as ([n' u] & E4 & E). injection E as <- <-. rewrite (pos_nz nd) by exact N0.
      apply wp_bind. apply wp_ret. rewrite (pos_nz nd) by exact N0.
      eapply (LAST nd false _ _ n n' u Ls); [exact RA|apply isaddr_some; exact IS|exact E4|reflexivity|].
      intros Ls3 RA3. cbn [c_with_nodes c_nodes]. rewrite PN, shadows_app. exact (rl_at_list _ _ _ _ _ _ _ _ RA3).
Qed.

(* ---- responses and notifications ---- *)

Lemma wp_handlenode : forall fr ct op ps c l1 nd n l2 Ls q g m a c' told L F (Q : list ctold -> heaplet -> Prop),
  rl_at sbody (ctrl_nodes ps) (shadows ct l1) nd (n, ct) (shadows ct l2) Ls -> Forall small_obj (n_objs n) -> n_addr n = a ->
  (forall n', put_node a n' (c_nodes c) = l1 ++ n' :: l2) ->
  In (ct, BElem 0 0 op ps) F -> c_nodelistener c = negb (ctrl_nodelistener ps =? 0) -> view q g m F ->
  Permutation L (Ls ++ F) -> M_Controller.uecho_controller_handlenodemessage le snet fr c a n m = Ok (c', told) ->
  (forall Ls', rlist sbody (ctrl_nodes ps) (shadows ct (c_nodes c')) Ls' -> Q told (Ls' ++ F)) ->
  wp (uecho_controller_handlenodemessage room le snet fr ct nd q) L Q.
Proof.
  intros fr ct op ps c l1 nd n l2 Ls q g m a c' told L F Q RA SM AN PN IC NL V P E H. destruct (shadow_focus _ _ _ _ _ _ _ RA) as (pv & nx & N & R & NR & PL & G).
  eapply wp_perm; [eapply perm_trans; [exact P|exact (Permutation_app_tail F PL)]|]. clear L P.
  pose proof V as (IG & SH & _). destruct SH as (_ & _ & _ & _ & _ & E6 & _).
  assert (INF : forall x X, In x F -> In x ((X ++ R) ++ F)) by (intros x X I; apply in_or_app; right; exact I).
  unfold uecho_controller_handlenodemessage. apply wp_bind. eapply wp_load_msg; [apply INF; exact IG|]. rewrite E6.
  unfold M_Controller.uecho_controller_handlenodemessage in E. cbv zeta in E. change (M_Message.uecho_message_getesv m) with (m_esv m) in E.
  apply bind_ok in E. destruct E as ([n' updated] & E1 & E). injection E as <- <-. cbn [c_with_nodes c_nodes] in H. rewrite PN, NL in H. cbv zeta.
  assert (LAST : forall N', node_in (mkPlace [nd] ct pv nx) nd n' N' -> n_addr n' = n_addr n ->
     wp (let! e := load_elem ct in
         if ctrl_nodelistener (snd e) =? 0 then ret []
         else
           let! a := M_CtrlMem.tell (uecho_esv_isnotification (m_esv m)) nd StAnnounced in
           let! b := M_CtrlMem.tell (uecho_esv_isresponse (m_esv m)) nd StResponded in
           let! c := M_CtrlMem.tell updated nd StUpdated in
           ret (a ++ b ++ c)) ((N' ++ R) ++ F) Q).
  { intros N' NR' AN'. apply wp_bind. eapply wp_load_elem; [apply INF; exact IC|]. cbn [snd].
    assert (HR : rlist sbody (ctrl_nodes ps) (shadows ct (l1 ++ n' :: l2)) (N' ++ R)) by (rewrite shadows_app; exact (rl_at_list _ _ _ _ _ _ _ _ (G _ _ _ NR'))).
    assert (I1 : incl N' ((N' ++ R) ++ F)) by (intros y Y; apply in_or_app; left; apply in_or_app; left; exact Y).
    destruct (ctrl_nodelistener ps =? 0); cbn [negb] in H; [apply wp_ret; apply H; exact HR|].
    apply wp_bind. eapply wp_tell; [exact NR'|exact I1|]. apply wp_bind. eapply wp_tell; [exact NR'|exact I1|]. apply wp_bind. eapply wp_tell; [exact NR'|exact I1|].
    apply wp_ret. rewrite AN', AN. apply H. exact HR. }
  apply wp_bind. destruct (uecho_esv_isnotification (m_esv m) || uecho_esv_isreadresponse (m_esv m) || uecho_esv_isnotifyresponse (m_esv m)).
  - apply wp_post. eapply (wp_updatenode room Room le snet fr _ nd n N q g m F (n', updated) _ (R ++ F)); [exact NR|exact SM|exact V|intros y Y; apply in_or_app; right; exact Y|perm|exact E1|].
    cbn [fst snd]. intros N' NR' AN'. eexists. split; [|apply LAST; [exact NR'|exact AN']]. perm.
  - injection E1 as <- <-. apply wp_ret. apply LAST; [exact NR|reflexivity].
Qed.

(* ---- the posted request ---- *)

(* the two messages of a request that waits for its response, or none *)
Definition post_rep (q r : mptr) (pq pr : Z) (L : heaplet) : Prop :=
  match q, r with
  | MMsg a, MMsg b => exists cq cr Lq Lr, msg_rep pq a cq Lq /\ msg_rep pr b cr Lr /\ Permutation L (Lq ++ Lr)
  | MWild b, MNull => b = negb (pq =? 0) /\ pr = 0 /\ L = []
  | MWild b, MWild d => b = negb (pq =? 0) /\ d = negb (pr =? 0) /\ L = []
  | MNull, MNull => pq = 0 /\ pr = 0 /\ L = []
  | _, _ => False
  end.


Lemma wp_handlepost : forall ct op ps c Lp q m cm Lq c' sg L F (Q : bool -> heaplet -> Prop),
  post_rep (c_req c) (c_res c) (ctrl_req ps) (ctrl_res ps) Lp -> msg_rep q m cm Lq -> In (ct, BElem 0 0 op ps) F -> Permutation L (Lp ++ Lq ++ F) ->
  (if uecho_controller_ispostresponsewaiting c then M_Controller.uecho_controller_handlepostresponse le c m else Ok (c, false)) = Ok (c', sg) ->
  (forall Lp', post_rep (c_req c') (c_res c') (ctrl_req ps) (ctrl_res ps) Lp' -> c_nodes c' = c_nodes c -> same_ctrl c c' -> Q sg (Lp' ++ Lq ++ F)) ->
  wp (if (ctrl_req ps =? 0) || (ctrl_res ps =? 0) then ret false else uecho_controller_handlepostresponse room le ct q) L Q.
Proof.
  intros ct op ps c Lp q m cm Lq c' sg L F Q PR RQ IC P E H. eapply wp_perm; [exact P|]. clear L P.
  assert (SC : same_ctrl c c) by (repeat split).
  unfold uecho_controller_ispostresponsewaiting in E. destruct (c_req c) as [|b|a] eqn:ER, (c_res c) as [|b2|r] eqn:ES; try contradiction PR; cbn [mptr_set andb] in E.
  - destruct PR as (PA & PB & ->). rewrite PA. cbn [Z.eqb orb]. injection E as <- <-. apply wp_ret. apply H; [rewrite ER, ES|reflexivity|exact SC].
    split; [exact PA|]. split; [exact PB|reflexivity].
  - destruct PR as (-> & P0 & ->). rewrite P0. cbn [Z.eqb]. rewrite orb_true_r. rewrite andb_false_r in E. injection E as <- <-.
    apply wp_ret. apply H; [rewrite ER, ES|reflexivity|exact SC]. split; [reflexivity|]. split; [exact P0|reflexivity].
  - destruct PR as (EB & ED & ->). assert (W : b && b2 = negb ((ctrl_req ps =? 0) || (ctrl_res ps =? 0))) by (rewrite EB, ED, negb_orb; reflexivity).
    rewrite W in E. destruct ((ctrl_req ps =? 0) || (ctrl_res ps =? 0)) eqn:ZQ; cbn [negb] in E.
    + injection E as <- <-. apply wp_ret. apply H; [rewrite ER, ES|reflexivity|exact SC]. split; [exact EB|]. split; [exact ED|reflexivity].
    + apply orb_false_iff in ZQ. destruct ZQ as [ZQ _]. unfold M_Controller.uecho_controller_handlepostresponse, uecho_controller_ispostresponsemessage in E. rewrite ER, EB, ZQ in E. discriminate E.
  - destruct PR as (ca & cr & La & Lr & RA & RR & PP).
    destruct (full_view _ _ _ _ RA) as (ga & VA & _). destruct (full_view _ _ _ _ RR) as (gr & VR & _). destruct (full_view _ _ _ _ RQ) as (gq & VQ & _).
    eapply wp_perm; [exact (Permutation_app_tail (Lq ++ F) PP)|].
    eapply (wp_pos _ _ _ _ (ctrl_req ps)); [do 2 (apply in_or_app; left); exact (proj1 VA)|intro P1].
    eapply (wp_pos _ _ _ _ (ctrl_res ps)); [apply in_or_app; left; apply in_or_app; right; exact (proj1 VR)|intro P2].
    rewrite (pos_nz _ P1), (pos_nz _ P2). cbn [orb]. unfold uecho_controller_handlepostresponse.
    assert (IC' : In (ct, BElem 0 0 op ps) ((La ++ Lr) ++ Lq ++ F)) by (apply in_or_app; right; apply in_or_app; right; exact IC).
    apply wp_bind. eapply wp_load_elem; [exact IC'|]. cbn [snd]. rewrite (pos_nz _ P1).
    apply wp_bind. eapply (wp_isresponse le _ ga a q gq m).
    { eapply view_incl; [exact VA|]. intros y Y. do 2 (apply in_or_app; left). exact Y. }
    { eapply view_incl; [exact VQ|]. intros y Y. apply in_or_app; right. apply in_or_app; left. exact Y. }
    unfold M_Controller.uecho_controller_handlepostresponse, uecho_controller_ispostresponsemessage in E. rewrite ER, ES in E. cbn [bind] in E.
    destruct (M_Message.uecho_message_isresponsemessage le a m); cbn [negb] in *.
    + apply bind_ok in E. destruct E as (r' & E1 & E). injection E as <- <-.
      apply wp_bind. eapply wp_load_elem; [exact IC'|]. cbn [snd].
      apply wp_bind. eapply (wp_set room Room le _ r cr Lr q m cm Lq r' _ (La ++ F)); [exact RR|exact RQ|perm|exact E1|].
      intros Lr' RR'. apply wp_post, wp_ret. eexists. split; [|apply (H (La ++ Lr')); [|reflexivity|repeat split]]; [perm|].
      cbn [c_with_post c_req c_res post_rep]. exists ca, None, La, Lr'. split; [exact RA|]. split; [exact RR'|apply Permutation_refl].
    + injection E as <- <-. apply wp_ret. apply H; [rewrite ER, ES|reflexivity|exact SC]. exists ca, cr, La, Lr. split; [exact RA|]. split; [exact RR|apply Permutation_refl].
Qed.

(* ---- the listener of the controller ---- *)

Lemma wp_ctrl_listener : forall fr ct op ps c Ls Lp w N q m cm Lq ds Ld y L F (Q : _ -> heaplet -> Prop),
  rlist sbody (ctrl_nodes ps) (shadows ct (c_nodes c)) Ls -> post_rep (c_req c) (c_res c) (ctrl_req ps) (ctrl_res ps) Lp ->
  node_in w (ctrl_node ps) (c_node c) N -> dlist db ds Ld -> Forall einv ds -> msg_rep q m cm Lq -> P_Message.msg_ok m ->
  Forall (fun n => Forall small_obj (n_objs n)) (c_nodes c) ->
  In (ct, BElem 0 0 op ps) F -> c_msglistener c = negb (ctrl_msglistener ps =? 0) -> c_nodelistener c = negb (ctrl_nodelistener ps =? 0) ->
  Permutation L (Ls ++ Lp ++ N ++ Ld ++ Lq ++ F) -> M_Controller.uecho_controller_servermessagelistener le snet ds fr c m = Ok y ->
  (forall Ls' Lp', rlist sbody (ctrl_nodes ps) (shadows ct (c_nodes (cr_ctrl y))) Ls' -> post_rep (c_req (cr_ctrl y)) (c_res (cr_ctrl y)) (ctrl_req ps) (ctrl_res ps) Lp' ->
     same_ctrl c (cr_ctrl y) -> Q (cr_told y, cr_signal y) (Ls' ++ Lp' ++ N ++ Ld ++ Lq ++ F)) ->
  wp (uecho_controller_servermessagelistener room le snet db fr ct q) L Q.
Proof.
  intros fr ct op ps c Ls Lp w N q m cm Lq ds Ld y L F Q RL PR NR DL EI RQ MO SM IC ML NL P E H. eapply wp_perm; [exact P|]. clear L P.
  destruct (full_view _ _ _ _ RQ) as (g & V0 & AF0 & _).
  unfold uecho_controller_servermessagelistener.
  assert (CF : forall X Y, In (ct, BElem 0 0 op ps) (X ++ Y ++ N ++ Ld ++ Lq ++ F)) by (intros X Y; do 5 (apply in_or_app; right); exact IC).
  assert (LQ : forall X Y, incl Lq (X ++ Y ++ N ++ Ld ++ Lq ++ F)) by (intros X Y x Hx; do 4 (apply in_or_app; right); apply in_or_app; left; exact Hx).
  eapply (wp_pos _ _ _ _ ct); [apply CF|intro C0]. eapply (wp_pos _ _ _ _ q); [apply LQ; exact (proj1 V0)|intro Q0].
  rewrite (pos_nz _ C0), (pos_nz _ Q0). cbn [orb]. apply wp_bind. eapply wp_load_elem; [apply CF|]. cbn [snd]. cbv zeta.
  unfold M_Controller.uecho_controller_servermessagelistener in E. cbv zeta in E. apply bind_ok in E. destruct E as ([c1 sg] & E1 & E).
  assert (T0 : (if ctrl_msglistener ps =? 0 then [] else [ToldMsg]) = (if c_msglistener c then [ToldMsg] else [])) by (rewrite ML; destruct (ctrl_msglistener ps =? 0); reflexivity).
  rewrite T0. set (told0 := if c_msglistener c then [ToldMsg] else []) in *. clear T0.
  apply wp_bind. eapply (wp_handlepost ct op ps c Lp q m cm Lq c1 sg _ (Ls ++ N ++ Ld ++ F)); [exact PR|exact RQ| |perm|exact E1|].
  { do 3 (apply in_or_app; right). exact IC. }
  intros Lp1 PR1 EN1 SC1. eapply (wp_perm _ _ _ (Ls ++ Lp1 ++ N ++ Ld ++ Lq ++ F)); [perm|].
  apply bind_ok in E. destruct E as (sr & E2 & E).
  apply wp_bind. eapply wp_issearch; [eapply view_incl; [exact V0|apply LQ]|exact E2|].
  pose proof SC1 as (SC1a & SC1b & SC1c & SC1d).
  destruct sr.
  - apply bind_ok in E. destruct E as ([c2 told] & E3 & E). injection E as <-. cbn [fst snd cr_ctrl cr_told cr_signal] in H.
    apply wp_bind. eapply (wp_handlesearch fr ct op ps c1 Ls q g m ds Ld c2 told _ (Lp1 ++ N ++ Lq ++ F)).
    + rewrite EN1. exact RL.
    + exact DL.
    + exact EI.
    + exact MO.
    + do 3 (apply in_or_app; right). exact IC.
    + rewrite SC1c. exact NL.
    + eapply view_incl; [exact V0|]. intros x Hx. do 2 (apply in_or_app; right). apply in_or_app; left. exact Hx.
    + eapply addr_arg_incl; [exact AF0|]. intros x Hx. do 2 (apply in_or_app; right). apply in_or_app; left. exact Hx.
    + perm.
    + exact E3.
    + intros Ls2 RL2. apply wp_post, wp_ret. destruct (search_same _ _ _ _ _ _ _ _ E3) as (S1 & S2 & S3).
      eexists. split; [|apply (H Ls2 Lp1)]; [perm|exact RL2|rewrite S1, S2; exact PR1|].
      destruct S3 as (S3a & S3b & S3c & S3d). repeat split; congruence.
  - apply bind_ok in E. destruct E as (dc & E3 & E). pose proof V0 as (IG & SH & _). destruct SH as (_ & _ & _ & _ & E5 & _).
    unfold M_Message.uecho_message_getdestinationobjectcode in E3. rewrite <- E5 in E3.
    apply wp_bind. eapply wp_load_msg; [apply LQ; exact IG|]. apply wp_bind. eapply wp_lift; [exact E3|].
    apply wp_bind. eapply wp_load_elem; [apply CF|]. cbn [snd]. rewrite SC1a in E.
    apply wp_bind. eapply (wp_node_find w (ctrl_node ps) (c_node c) N dc _ (Ls ++ Lp1 ++ Ld ++ Lq ++ F)); [exact NR|perm| |].
    + intro NO. rewrite NO in E. injection E as <-. cbn [cr_ctrl cr_told cr_signal] in H. cbn [Z.eqb]. apply wp_ret. apply (H Ls Lp1); [rewrite EN1; exact RL|exact PR1|exact SC1].
    + intros ps0 v1 a o v2 Lr Lc Lx _ _ _ _ _ _ A _ FD _. rewrite FD in E. rewrite (pos_nz a) by exact A.
      apply wp_bind. eapply wp_load_msg; [apply LQ; exact IG|].
      apply wp_bind. unfold uecho_controller_getnodebyaddress. rewrite (pos_nz _ C0). apply wp_bind. eapply wp_load_elem; [apply CF|]. cbn [snd].
      eapply (wp_nodes_find ct (ctrl_nodes ps) (c_nodes c) Ls (g_from g) (m_from m) _ (Lp1 ++ N ++ Ld ++ Lq ++ F)); [exact RL|apply Permutation_refl|eapply addr_arg_incl; [exact AF0|apply LQ]| |].
      * intro NO. unfold M_Controller.uecho_controller_getnodebyaddress in E. rewrite EN1, NO in E. injection E as <-. cbn [cr_ctrl cr_told cr_signal] in H.
        cbn [Z.eqb]. apply wp_ret. apply (H Ls Lp1); [rewrite EN1; exact RL|exact PR1|exact SC1].
      * intros l1 nd n l2 EN BA PN IS N0 RA. unfold M_Controller.uecho_controller_getnodebyaddress in E. rewrite EN1, BA in E.
        apply bind_ok in E. destruct E as ([c2 told] & E4 & E). injection E as <-. cbn [fst snd cr_ctrl cr_told cr_signal] in H. rewrite (pos_nz nd) by exact N0.
        apply wp_bind. eapply (wp_handlenode fr ct op ps c1 l1 nd n l2 Ls q g m (m_from m) c2 told _ (Lp1 ++ N ++ Ld ++ Lq ++ F)).
        -- exact RA.
        -- eapply (proj1 (Forall_forall _ _) SM). rewrite EN. apply in_or_app; right; left; reflexivity.
        -- apply isaddr_any. exact IS.
        -- rewrite EN1. exact PN.
        -- do 4 (apply in_or_app; right). exact IC.
        -- rewrite SC1c. exact NL.
        -- eapply view_incl; [exact V0|]. intros x Hx. do 3 (apply in_or_app; right). apply in_or_app; left. exact Hx.
        -- apply Permutation_refl.
        -- exact E4.
        -- intros Ls2 RL2. apply wp_ret. destruct (nodemsg_same _ _ _ _ _ _ _ _ _ E4) as (S1 & S2 & S3).
           apply (H Ls2 Lp1); [exact RL2|rewrite S1, S2; exact PR1|]. destruct S3 as (S3a & S3b & S3c & S3d). repeat split; congruence.
Qed.
End Room.
