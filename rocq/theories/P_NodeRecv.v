(* What a received message does to the blocks of a node. *)
From Coq Require Import String Ascii ZArith List Bool Lia Permutation.
From Verif Require Import CSem P_Base M_Const M_Misc M_String M_Property M_PropertyList P_PropertyList M_Log M_Message M_Object M_Node M_NodeListener
  M_Mem M_MemUse M_ObjMem M_Life M_NodeMem P_Mem P_MemMsg P_MemParse P_MemProp P_MemBytes P_MemCopy P_MemRun P_Ring P_ObjProp P_ObjCache P_ObjMem P_ObjUse P_ObjRun P_Life
  P_NodeMem.
Import ListNotations.
Open Scope Z_scope.

Section Room.
Variable room : Z -> bool.
Hypothesis Room : forall n, room n = true.
Variable le : bool.
Variable net : post -> bool.
Variable dec : list (hcall * bool) -> hcall -> bool.

(* ---- the data of another property ---- *)

Lemma prop_at_data : forall pv nx q a p L, prop_at pv nx q a p L -> exists c, In (a, BProp c) L /\ q_code c = p_code p /\ q_parent c = q
  /\ q_size c = len (p_data p) /\ len (p_data p) < SIZE_MOD /\ p_parent p = negb (q =? 0) /\ given_at (q_data c) (p_data p) L.
Proof.
  intros pv nx q a p L (s & o & d & Ls & Ld & -> & Rs & Rd & NP & LS). eexists. split; [left; reflexivity|]. cbn [q_code q_parent q_size q_data].
  repeat split; auto. intro D. exists (map Some (p_data p)). split.
  - right. apply in_or_app. right. unfold data_rep in Rd. destruct (p_data p); [congruence|]. subst Ld. left. reflexivity.
  - apply rd_range_whole. apply len_map.
Qed.

Lemma wp_take_free : forall pv nx q src p Ls dst r Lr L F (Q : _ -> heaplet -> Prop), prop_at pv nx q src p Ls -> incl Ls F -> prop_rep dst r Lr ->
  Permutation L (Lr ++ F) -> (forall Lr', prop_rep dst (pdata (p_data p) r) Lr' -> Q [] (Lr' ++ F)) -> wp (take_data room le net dst src) L Q.
Proof.
  intros pv nx q src p Ls dst r Lr L F Q PA IN RR P H. destruct (prop_at_data _ _ _ _ _ _ PA) as (c & IC & _ & _ & E1 & E2 & _ & GD).
  unfold take_data. apply wp_bind. eapply wp_load_prop; [eapply Permutation_in; [apply Permutation_sym; exact P|]; apply in_or_app; right; apply IN; exact IC|].
  rewrite E1. apply wp_bind. eapply (wp_free_setdata room Room); [exact RR|exact P|exact E2|eapply given_incl; [exact GD|exact IN]|].
  intros Lr' RR'. apply wp_ret. cbn [snd]. apply H. exact RR'.
Qed.

(* ---- the handlers of a request ---- *)

Lemma wp_handler_call : forall h a c x p pvx nxx qx Lx y m pvy nxy qy Ly esv L (Q : _ -> heaplet -> Prop), In (a, BObj c) L ->
  prop_at pvx nxx qx x p Lx -> incl Lx L -> prop_at pvy nxy qy y m Ly -> incl Ly L ->
  Q (mkCall h (code_of c) p esv (p_data m)) L -> wp (handler_call h a x esv y) L Q.
Proof.
  intros h a c x p pvx nxx qx Lx y m pvy nxy qy Ly esv L Q IA PX IX PY IY H. unfold handler_call.
  apply wp_bind. eapply wp_getcode; [exact IA|]. apply wp_bind. eapply wp_read_at; [exact PX|exact IX|].
  destruct (prop_at_data _ _ _ _ _ _ PX) as (cx & IC & _ & EP & _ & _ & NP & _).
  apply wp_bind. eapply wp_load_prop; [apply IX; exact IC|]. apply wp_bind. eapply wp_read_at; [exact PY|exact IY|]. cbn [snd]. apply wp_ret.
  rewrite EP, <- NP. destruct p. exact H.
Qed.

Lemma wp_notify_loop : forall a c o x p pvx nxx qx Lx y m pvy nxy qy Ly esv ol ns ws Ln L F, items obsbody ns ws Ln ->
  Permutation L (ring ((ol, hblk) :: ns) ++ Ln ++ F) -> In (a, BObj c) L -> code_of c = M_Object.uecho_object_getcode o ->
  prop_at pvx nxx qx x p Lx -> incl Lx L -> prop_at pvy nxy qy y m Ly -> incl Ly L ->
  forall n2 n1 v1 v2 L1 L2 k acc calls r (Q : _ -> heaplet -> Prop), ns = n1 ++ n2 -> ws = v1 ++ v2 -> items obsbody n1 v1 L1 -> items obsbody n2 v2 L2 ->
  Ln = L1 ++ L2 -> (length n2 <= k)%nat -> M_NodeListener.notify_loop dec v2 o p esv m acc calls = Ok r -> Q r L ->
  wp (notify_loop dec k (fst_of 0 n2) a x esv y acc calls) L Q.
Proof.
  intros a c o x p pvx nxx qx Lx y m pvy nxy qy Ly esv ol ns ws Ln L F I PL IA CC PX IX PY IY. assert (N := items_nodes _ _ _ _ _ I).
  induction n2 as [|[b kb] n2 IH]; intros n1 v1 v2 L1 L2 k acc calls r Q En Ev I1 I2 EL LM E H.
  - inversion I2; subst v2 L2. cbn [M_NodeListener.notify_loop] in E. injection E as <-. destruct k; cbn [notify_loop fst_of Z.eqb]; apply wp_ret; exact H.
  - inversion I2 as [|b' kb' v Lb ns' vs' L' FB X Y]; subst b' kb' ns' v2 L2. cbn [fst_of].
    pose proof (ring_at ((ol, hblk) :: n1) b kb n2) as RA. cbn [app] in RA. rewrite <- En in RA.
    set (pb := lst_of b (n2 ++ (ol, hblk) :: n1)) in *. set (nb := fst_of b (n2 ++ (ol, hblk) :: n1)) in *.
    assert (X0 := X). destruct X0 as (pv0 & nx0 & -> & ->). cbn [set_links] in RA.
    assert (IB : In (b, BObs (mkCobs pb nb (ob_esv v) (ob_code v) (ob_handler v))) L).
    { eapply Permutation_in; [apply Permutation_sym; exact PL|]. apply in_or_app. left. eapply Permutation_in; [apply Permutation_sym; exact RA|]. left. reflexivity. }
    destruct k as [|k]; [cbn [length] in LM; lia|]. cbn [notify_loop].
    eapply (wp_pos _ _ _ _ b); [exact IB|intro PB]. rewrite (pos_nz b) by exact PB.
    unfold load_obs. apply wp_bind. apply wp_bind. eapply wp_load; [exact IB|]. apply wp_ret. cbn [w_esv w_code w_handler].
    destruct (prop_at_data _ _ _ _ _ _ PY) as (cy & ICy & ECy & _).
    apply wp_bind. eapply wp_load_prop; [apply IY; exact ICy|]. rewrite ECy. cbn [M_NodeListener.notify_loop] in E.
    assert (EN2 : forall kk, ns = (n1 ++ [(b, kk)]) ++ n2 -> ns = (n1 ++ [(b, kk)]) ++ n2) by auto.
    assert (NEXT : forall (Q' : Z -> heaplet -> Prop), Q' (fst_of 0 n2) L -> wp (uecho_list_next b) L Q').
    { intros Q' HQ. replace b with (lst_of ol (n1 ++ [(b, BObs (mkCobs pv0 nx0 (ob_esv v) (ob_code v) (ob_handler v)))])) at 1 by (rewrite lst_of_app; reflexivity).
      eapply (wp_list_next ol hblk (n1 ++ [(b, BObs (mkCobs pv0 nx0 (ob_esv v) (ob_code v) (ob_handler v)))]) n2 _ (Ln ++ F)); [reflexivity| | |exact HQ];
        rewrite <- app_assoc; cbn [app]; rewrite <- En; [exact N|exact PL]. }
    assert (STEP : forall acc' calls', M_NodeListener.notify_loop dec vs' o p esv m acc' calls' = Ok r -> wp (notify_loop dec k (fst_of 0 n2) a x esv y acc' calls') L Q).
    { intros acc' calls' E'. eapply (IH (n1 ++ [(b, _)]) (v1 ++ [v]) vs' (L1 ++ []) L' k); [rewrite <- app_assoc; exact En|rewrite <- app_assoc; exact Ev| |exact Y| | |exact E'|exact H].
      - apply items_app; [exact I1|]. apply items_one; [exact FB|exact X].
      - rewrite <- app_assoc. exact EL.
      - cbn [length] in LM. lia. }
    destruct (negb (esv =? ob_esv v)); cbn [orb].
    { apply wp_bind. apply NEXT. apply STEP. exact E. }
    destruct (negb (p_code m =? ob_code v)).
    { apply wp_bind. apply NEXT. apply STEP. exact E. }
    destruct (ob_handler v) as [h|]; [|discriminate].
    apply wp_bind. eapply wp_handler_call; [exact IA|exact PX|exact IX|exact PY|exact IY|].
    apply wp_bind. apply NEXT. rewrite CC. apply STEP. exact E.
Qed.

Lemma wp_notify : forall pv nx a o x p pvx nxx qx Lx y m pvy nxy qy Ly esv calls r Lo L F (Q : _ -> heaplet -> Prop), obj_at pv nx a o Lo ->
  Permutation L (Lo ++ F) -> prop_at pvx nxx qx x p Lx -> incl Lx L -> prop_at pvy nxy qy y m Ly -> incl Ly L ->
  M_NodeListener.uecho_object_notifyrequestproperty dec o p esv m calls = Ok r -> Q r L ->
  wp (uecho_object_notifyrequestproperty dec a x esv y calls) L Q.
Proof.
  intros pv nx a o x p pvx nxx qx Lx y m pvy nxy qy Ly esv calls r Lo L F Q OA P PX IX PY IY E H.
  destruct (obj_open _ _ _ _ _ OA) as (c & Lp & R & PO & PL & OR & _ & _).
  destruct OR as (K & La & Ls & Lg & PR & OK & _). assert (CC := code_of_rep _ _ _ OK).
  destruct OK as (on & Lnm & ol & Lol & PK & _ & (ns & Ln & I & PN) & _).
  assert (PT : Permutation L (ring ((ol, hblk) :: ns) ++ Ln ++ (a, BObj c) :: (j_mgr c, BMgr ol) :: Lp ++ Lnm ++ La ++ Ls ++ Lg ++ F)).
  { eapply perm_trans; [exact P|]. eapply (perm_trans (l' := (Lp ++ (a, BObj c) :: (Lnm ++ (j_mgr c, BMgr ol) :: ring ((ol, hblk) :: ns) ++ Ln) ++ La ++ Ls ++ Lg) ++ F)).
    - apply Permutation_app_tail. eapply perm_trans; [exact PO|]. apply Permutation_app_head, perm_skip. eapply perm_trans; [exact PR|]. apply Permutation_app_tail.
      eapply perm_trans; [exact PK|]. apply Permutation_app_head, perm_skip. exact PN.
    - rperm. }
  assert (IA : In (a, BObj c) L).
  { eapply Permutation_in; [apply Permutation_sym; exact PT|]. apply in_or_app; right; apply in_or_app; right. left. reflexivity. }
  assert (IM : In (j_mgr c, BMgr ol) L).
  { eapply Permutation_in; [apply Permutation_sym; exact PT|]. apply in_or_app; right; apply in_or_app; right. right. left. reflexivity. }
  destruct (prop_at_data _ _ _ _ _ _ PY) as (cy & ICy & _).
  unfold uecho_object_notifyrequestproperty. eapply (wp_pos _ _ _ _ a); [exact IA|]. intro PA. rewrite (pos_nz a) by exact PA.
  eapply (wp_pos _ _ _ _ y); [apply IY; exact ICy|]. intro PYy. rewrite (pos_nz y) by exact PYy. cbn [orb].
  apply wp_bind. eapply wp_load_obj; [exact IA|]. unfold load_mgr. apply wp_bind. apply wp_bind. eapply wp_load; [exact IM|]. apply wp_ret.
  assert (N := items_nodes _ _ _ _ _ I).
  apply wp_walk. intros n LN. apply wp_bind. change ol with (lst_of ol []). eapply (wp_list_next ol hblk [] ns); [reflexivity|exact N|exact PT|].
  eapply (wp_notify_loop a c o x p pvx nxx qx Lx y m pvy nxy qy Ly esv ol ns (o_obs o) Ln L); [exact I|exact PT|exact IA|exact CC|exact PX|exact IX|exact PY|exact IY| | | | | | |exact E|exact H].
  - instantiate (1 := []). reflexivity.
  - instantiate (1 := []). reflexivity.
  - constructor.
  - exact I.
  - reflexivity.
  - pose proof (Permutation_length PT) as X. rewrite app_length, ring_length in X. cbn [length] in X. lia.
Qed.

(* ---- one property of a request ---- *)

(* the function that adds a property to the answer *)
Definition adds (w : part) : prop -> msg -> res msg := match w with
  | PPlain => M_Message.uecho_message_addproperty | PSet => M_Message.uecho_message_addpropertyset | PGet => M_Message.uecho_message_addpropertyget end.
Lemma adds_inv : forall w p m m', adds w p m = Ok m' -> exists v, uecho_property_add (mpart w m) p = Ok v /\ m' = with_mpart w v m.
Proof. intros [] p m m' E; apply bind_ok in E; destruct E as (v & E1 & E); injection E as <-; exists v; auto. Qed.

Lemma wp_adds : forall w a m c Lm b p m' Lp L F (Q : bool -> heaplet -> Prop), msg_rep a m c Lm -> prop_rep b p Lp -> Permutation L (Lm ++ Lp ++ F) ->
  adds w p m = Ok m' -> (forall Lm', msg_rep a m' c Lm' -> Q true (Lm' ++ F)) -> wp (M_Mem.uecho_message_addproperty room w a b) L Q.
Proof.
  intros w a m c Lm b p m' Lp L F Q RM RP P E H. destruct (adds_inv _ _ _ _ E) as (v & EV & ->).
  eapply wp_addproperty; [exact Room|exact RM|exact RP|exact P|exact EV|]. intros Lm' R' _. apply H. exact R'.
Qed.

Lemma wp_handle_one : forall w nd pv nx ps v1 a v2 esv y mp pvy nxy qy Ly res h h' n n' posts posts' more Lr Lm L F (Q : _ -> heaplet -> Prop),
  (node_server ps =? 0) = false -> rl_at (nbody nd) (node_objects ps) v1 a (h_obj h) v2 Lr -> msg_rep res (h_msg h) None Lm ->
  prop_at pvy nxy qy y mp Ly -> incl Ly F ->
  Permutation L ((nd, nblk pv nx ps (n_tid n)) :: Lr ++ Lm ++ F) ->
  M_NodeListener.handle_one dec (adds w) esv mp h = Ok h' -> profiled (n_objs n) = profiled (v1 ++ h_obj h :: v2) ->
  h_anns h' = h_anns h ++ more -> node_emit le net n (M_Object.uecho_object_getcode (h_obj h)) more = Ok (n', posts') ->
  (forall Lr' Lm', rl_at (nbody nd) (node_objects ps) v1 a (h_obj h') v2 Lr' -> msg_rep res (h_msg h') None Lm' ->
     Q (h_cnt h', h_calls h', posts ++ posts') ((nd, nblk pv nx ps (n_tid n')) :: Lr' ++ Lm' ++ F)) ->
  wp (handle_one room le net dec w a esv y res (h_cnt h, h_calls h, posts)) L Q.
Proof.
  intros w nd pv nx ps v1 a v2 esv y mp pvy nxy qy Ly res h h' n n' posts posts' more Lr Lm L F Q SV RA RM PY IY P E PF EA EM H.
  eapply wp_perm; [exact P|]. clear L P. set (B := (nd, nblk pv nx ps (n_tid n))) in *.
  destruct (prop_at_data _ _ _ _ _ _ PY) as (cy & ICy & ECy & _ & ESy & LDy & _ & GDy).
  unfold handle_one. eapply (wp_pos _ _ _ _ y); [right; apply in_or_app; right; apply in_or_app; right; apply IY; exact ICy|]. intro P0. rewrite (pos_nz y) by exact P0.
  apply wp_bind. eapply wp_load_prop; [right; apply in_or_app; right; apply in_or_app; right; apply IY; exact ICy|]. rewrite ECy.
  apply wp_bind. eapply (wp_prop_new room Room). intros r Lp PR RR. rewrite (pos_nz r) by exact PR.
  apply wp_bind. eapply wp_setcode; [exact RR|apply Permutation_refl|]. clear Lp RR. intros Lp RR.
  destruct (rl_obj _ _ _ _ _ _ _ RA) as (p0 & n0 & Lo & R0 & OA & PLo & BK).
  unfold M_NodeListener.handle_one in E. set (res0 := M_Property.uecho_property_setcode (p_code mp) M_Property.uecho_property_new) in *.
  (* the rest when nothing is stored in the object *)
  assert (TAIL : forall Lp' rp (calls' : list (hcall * bool)) m' cnt', prop_rep r rp Lp' -> adds w rp (h_msg h) = Ok m' ->
     h' = mkHs (h_obj h) (h_anns h) calls' m' cnt' ->
     wp (let! _ := M_Mem.uecho_message_addproperty room w res r in ret (cnt', calls', posts)) (Lp' ++ B :: Lr ++ Lm ++ F) Q).
  { intros Lp' rp calls' m' cnt' RP EW Eh. subst h'. cbn [h_obj h_anns h_calls h_msg h_cnt] in *.
    assert (more = []) by (apply (app_inv_head (h_anns h)); rewrite app_nil_r; symmetry; exact EA). subst more. cbn [node_emit] in EM. injection EM as <- <-.
    rewrite app_nil_r in H. apply wp_bind. eapply (wp_adds w res (h_msg h) None Lm r rp m' Lp' _ (B :: Lr ++ F)); [exact RM|exact RP|perm|exact EW|].
    intros Lm' RM'. apply wp_post, wp_ret. eexists. split; [|apply H; [exact RA|exact RM']]. unfold B. perm. }
  (* the answer echoes the data of a refused SetC *)
  assert (ECHO : forall (calls' : list (hcall * bool)) m', adds w (if esv =? ESV_SetC then fst (M_Property.uecho_property_setdata (p_data mp) res0) else res0) (h_msg h) = Ok m' ->
     h' = mkHs (h_obj h) (h_anns h) calls' m' (h_cnt h) ->
     wp (let! a0 := (if esv =? ESV_SetC then take_data room le net r y else ret []) in ret (h_cnt h, calls', posts ++ a0)) (Lp ++ B :: Lr ++ Lm ++ F)
       (fun s' L' => wp (let! _ := M_Mem.uecho_message_addproperty room w res r in ret s') L' Q)).
  { intros calls' m' EW Eh. apply wp_bind. destruct (esv =? ESV_SetC).
    - eapply (wp_take_free _ _ _ _ _ _ _ _ Lp _ (B :: Lr ++ Lm ++ F)); [exact PY|intros z Z0; right; apply in_or_app; right; apply in_or_app; right; apply IY; exact Z0|exact RR|apply Permutation_refl|].
      intros Lp' RP'. apply wp_ret. rewrite app_nil_r. eapply TAIL; [exact RP'|exact EW|exact Eh].
    - apply wp_ret, wp_ret. rewrite app_nil_r. eapply TAIL; [exact RR|exact EW|exact Eh]. }
  apply wp_bind.
  eapply (wp_obj_find (p0, nd) n0 a (h_obj h) (p_code mp) Lo _ (Lp ++ B :: R0 ++ Lm ++ F)); [exact OA| | |].
  { eapply (perm_trans (l' := Lp ++ B :: (Lo ++ R0) ++ Lm ++ F)); [|perm]. apply Permutation_app_head, perm_skip, Permutation_app_tail. exact PLo. }
  - intro OT. unfold M_Object.uecho_object_getproperty in E. rewrite (find_others _ _ OT) in E. cbn [Z.eqb].
    apply bind_ok in E. destruct E as (m' & EW & E). injection E as <-. apply wp_bind. apply ECHO with (m' := m'); [exact EW|reflexivity].
  - intros hd w1 x p w2 Lpl G EP OT EB PX AT PG T CL. rewrite (pos_nz x) by exact PX. unfold M_Object.uecho_object_getproperty in E. rewrite EP, find_split in E by assumption.
    apply bind_ok in E. destruct E as ((ok, calls') & EN & E).
    destruct (pl_focus _ _ _ _ _ _ _ AT) as (pvx & nxx & qx & Lx & Rx & PAx & OW & PPx & PBx).
    assert (IX : incl Lx (Lp ++ B :: Lr ++ Lm ++ F)).
    { intros z Z0. eapply Permutation_in; [apply Permutation_sym; exact PG|]. apply in_or_app; left. eapply Permutation_in; [apply Permutation_sym; exact PPx|]. apply in_or_app; left. exact Z0. }
    assert (IYL : incl Ly (Lp ++ B :: Lr ++ Lm ++ F)).
    { intros z Z0. apply in_or_app; right. right. apply in_or_app; right. apply in_or_app; right. apply IY. exact Z0. }
    apply wp_bind. apply wp_bind. eapply wp_notify; [exact OA| |exact PAx|exact IX|exact PY|exact IYL|exact EN|].
    { instantiate (1 := Lp ++ B :: R0 ++ Lm ++ F). eapply (perm_trans (l' := Lp ++ B :: (Lo ++ R0) ++ Lm ++ F)); [|perm]. apply Permutation_app_head, perm_skip, Permutation_app_tail. exact PLo. }
    cbn [fst snd]. destruct ok.
    2:{ apply bind_ok in E. destruct E as (m' & EW & E). injection E as <-. 
        exact (ECHO calls' m' EW eq_refl). }
    unfold M_Object.object_property_setdata, M_Object.uecho_object_getproperty in E. rewrite EP, find_split in E by assumption.
    rewrite (surjective_pairing (M_Property.uecho_property_setdata (p_data mp) p)) in E. rewrite upd_split in E by assumption. rewrite setdata_fst in E.
    destruct ((esv =? ESV_SetI) || (esv =? ESV_SetC)) eqn:ES.
    + assert (EG : (esv =? ESV_Get) || (esv =? ESV_INF_REQ) || (esv =? ESV_INFC) = false).
      { apply orb_true_iff in ES. destruct ES as [ES|ES]; apply Z.eqb_eq in ES; subst esv; reflexivity. }
      rewrite EG in E. apply bind_ok in E. destruct E as (m' & EW & E). injection E as <-. cbn [h_obj h_anns h_calls h_msg h_cnt] in *.
      apply app_inv_head in EA. subst more.
      unfold take_data. apply wp_bind, wp_bind. eapply wp_load_prop; [apply IYL; exact ICy|]. rewrite ESy. apply wp_bind.
      eapply (wp_node_setdata room Room le net nd pv nx ps v1 a (h_obj h) v2 hd w1 x p w2 _ (p_data mp) Lpl (G ++ R0) n n' posts' _ (Lp ++ Lm ++ F));
        [exact SV|exact AT| | |exact LDy| |exact PF|exact EM|].
      * intros ps' Lr' PL'. rewrite app_assoc. apply BK. apply CL. exact PL'.
      * eapply perm_trans; [exact PG|]. fold B. perm.
      * eapply given_incl; [exact GDy|]. intros z Z0. apply in_or_app; right. apply in_or_app; right. apply IY. exact Z0.
      * intros Lpl' AT'. apply wp_ret. rewrite EG. apply wp_bind, wp_ret, wp_ret. cbn [snd]. rewrite app_nil_r. apply wp_bind.
        pose proof (BK _ _ (CL _ _ (rl_at_list _ _ _ _ _ _ _ _ AT'))) as RA'.
        eapply (wp_adds w res (h_msg h) None Lm r res0 m' Lp _ ((nd, nblk pv nx ps (n_tid n')) :: (Lpl' ++ G) ++ R0 ++ F)); [exact RM|exact RR|perm|exact EW|].
        intros Lm' RM'. apply wp_post, wp_ret. eexists. split; [|apply H; [exact RA'|exact RM']]. perm.
    + apply wp_bind, wp_ret. cbn [bind] in E. destruct ((esv =? ESV_Get) || (esv =? ESV_INF_REQ) || (esv =? ESV_INFC)).
      * apply bind_ok in E. destruct E as (m' & EW & E). injection E as <-. rewrite app_nil_r in *.
        apply wp_bind. eapply (wp_take_free _ _ _ _ _ _ _ _ Lp _ (B :: Lr ++ Lm ++ F)); [exact PAx| |exact RR|apply Permutation_refl|].
        { intros z Z0. assert (X : In z (Lr ++ Lm ++ F)); [|right; exact X]. apply in_or_app; left.
          assert (PZ : Permutation Lr (Lpl ++ G ++ R0)).
          { apply (Permutation_app_inv_l (Lp ++ B :: Lm ++ F)). eapply (perm_trans (l' := Lp ++ B :: Lr ++ Lm ++ F)); [perm|]. eapply perm_trans; [exact PG|]. perm. }
          eapply Permutation_in; [apply Permutation_sym; exact PZ|]. apply in_or_app; left. eapply Permutation_in; [apply Permutation_sym; exact PPx|]. apply in_or_app; left. exact Z0. }
        intros Lp' RP'. apply wp_ret. cbn [app]. rewrite app_nil_r. eapply TAIL; [exact RP'|exact EW|reflexivity].
      * apply bind_ok in E. destruct E as (m' & EW & E). injection E as <-. rewrite app_nil_r in *.
        apply wp_bind, wp_ret, wp_ret. cbn [app]. rewrite app_nil_r. eapply TAIL; [exact RR|exact EW|reflexivity].
Qed.

(* the announcements only grow, the code stays *)
Lemma handle_one_grows : forall addf esv mp h h', M_NodeListener.handle_one dec addf esv mp h = Ok h' ->
  M_Object.uecho_object_getcode (h_obj h') = M_Object.uecho_object_getcode (h_obj h) /\ o_attached (h_obj h') = o_attached (h_obj h)
  /\ exists more, h_anns h' = h_anns h ++ more.
Proof.
  intros addf esv mp h h' E. unfold M_NodeListener.handle_one in E. destruct (M_Object.uecho_object_getproperty (h_obj h) (p_code mp)) as [p|] eqn:EP.
  - apply bind_ok in E. destruct E as ((ok, calls) & _ & E). destruct ok.
    + destruct ((esv =? ESV_SetI) || (esv =? ESV_SetC)).
      * unfold M_Object.object_property_setdata in E. rewrite EP in E. destruct (M_Property.uecho_property_setdata (p_data mp) p) as [p1 ann].
        apply bind_ok in E. destruct E as (m' & _ & E). injection E as <-. repeat split. exists ann. reflexivity.
      * apply bind_ok in E. destruct E as (m' & _ & E). injection E as <-. repeat split. exists []. reflexivity.
    + apply bind_ok in E. destruct E as (m' & _ & E). injection E as <-. repeat split. exists []. symmetry. apply app_nil_r.
  - apply bind_ok in E. destruct E as (m' & _ & E). injection E as <-. repeat split. exists []. symmetry. apply app_nil_r.
Qed.
Lemma handle_loop_grows : forall addf esv l h h', M_NodeListener.handle_loop dec addf esv l h = Ok h' ->
  M_Object.uecho_object_getcode (h_obj h') = M_Object.uecho_object_getcode (h_obj h) /\ o_attached (h_obj h') = o_attached (h_obj h)
  /\ exists more, h_anns h' = h_anns h ++ more.
Proof.
  induction l as [|p l IH]; intros h h' E; cbn [M_NodeListener.handle_loop] in E.
  - injection E as <-. repeat split. exists []. symmetry. apply app_nil_r.
  - apply bind_ok in E. destruct E as (h1 & E1 & E). destruct (handle_one_grows _ _ _ _ _ E1) as (A1 & A2 & m1 & A3). destruct (IH _ _ E) as (B1 & B2 & m2 & B3).
    split; [congruence|]. split; [congruence|]. exists (m1 ++ m2). rewrite B3, A3, app_assoc. reflexivity.
Qed.

Lemma wp_handle_loop : forall w nd pv nx ps v1 a v2 esv ep res ads ps0 Lp0 F, (node_server ps =? 0) = false ->
  In (ep, BPtrs (map Some ads)) F -> forall l, 
  forall k pre h h' n n' posts posts' more Lr Lm L (Q : _ -> heaplet -> Prop),
  rl_at (nbody nd) (node_objects ps) v1 a (h_obj h) v2 Lr -> msg_rep res (h_msg h) None Lm ->
  props_rep ads ps0 Lp0 -> incl Lp0 F -> ps0 = pre ++ l -> k = length l ->
  Permutation L ((nd, nblk pv nx ps (n_tid n)) :: Lr ++ Lm ++ F) ->
  M_NodeListener.handle_loop dec (adds w) esv l h = Ok h' -> profiled (n_objs n) = profiled (v1 ++ h_obj h :: v2) ->
  h_anns h' = h_anns h ++ more -> node_emit le net n (M_Object.uecho_object_getcode (h_obj h)) more = Ok (n', posts') ->
  (forall Lr' Lm', rl_at (nbody nd) (node_objects ps) v1 a (h_obj h') v2 Lr' -> msg_rep res (h_msg h') None Lm' ->
     Q (h_cnt h', h_calls h', posts ++ posts') ((nd, nblk pv nx ps (n_tid n')) :: Lr' ++ Lm' ++ F)) ->
  wp (handle_loop room le net dec w a esv ep (len pre) k res (h_cnt h, h_calls h, posts)) L Q.
Proof.
  intros w nd pv nx ps v1 a v2 esv ep res ads ps0 Lp0 F SV IE.
  induction l as [|mp l IH]; intros k pre h h' n n' posts posts' more Lr Lm L Q RA RM RP IP EP EK P E PF EA EM H; subst k; cbn [length handle_loop M_NodeListener.handle_loop] in *.
  - injection E as <-. assert (more = []) by (apply (app_inv_head (h_anns h)); rewrite app_nil_r; symmetry; exact EA). subst more.
    cbn [node_emit] in EM. injection EM as <- <-. rewrite app_nil_r in H. apply wp_post, wp_ret. eexists. split; [exact P|]. apply H; assumption.
  - apply bind_ok in E. destruct E as (h1 & E1 & E). destruct (handle_one_grows _ _ _ _ _ E1) as (A1 & A2 & m1 & A3). destruct (handle_loop_grows _ _ _ _ _ E) as (B1 & B2 & m2 & B3).
    assert (more = m1 ++ m2) by (apply (app_inv_head (h_anns h)); rewrite <- EA, B3, A3, app_assoc; reflexivity). subst more.
    destruct (emit_app le net _ _ _ _ _ _ EM) as (n1 & q1 & q2 & M1 & M2 & ->).
    assert (X : exists y Ly, rd (map Some ads) (len pre) = Ok (Some y) /\ prop_rep y mp Ly /\ incl Ly Lp0).
    { rewrite EP in RP. destruct (props_rep_split _ _ _ _ RP) as (ads1 & ads2 & L1 & L2 & Ea & EL & R1 & R2).
      destruct (props_rep_cons_inv _ _ _ _ R2) as (y & ads' & L3 & L4 & Ey & EL2 & R3 & R4). exists y, L3. subst ads ads2 Lp0 L2.
      split; [|split; [exact R3|intros z Z0; apply in_or_app; right; apply in_or_app; left; exact Z0]].
      rewrite map_app. apply rd_app_cons. unfold len. rewrite map_length, (props_rep_len _ _ _ R1). reflexivity. }
    destruct X as (y & Ly & RD & PY & IY).
    apply wp_bind. eapply wp_ptr_at; [eapply Permutation_in; [apply Permutation_sym; exact P|]; right; apply in_or_app; right; apply in_or_app; right; exact IE|exact RD|].
    apply wp_bind. eapply (wp_handle_one w nd pv nx ps v1 a v2 esv y mp y y 0 Ly res h h1 n n1 posts q1 m1 Lr Lm L F); [exact SV|exact RA|exact RM|exact PY|
      intros z Z0; apply IP, IY; exact Z0|exact P|exact E1|exact PF|exact A3|exact M1|].
    intros Lr' Lm' RA' RM'. replace (len pre + 1) with (len (pre ++ [mp])) by (rewrite len_app; reflexivity).
    eapply (IH (length l) (pre ++ [mp]) h1 h' n1 n' (posts ++ q1) q2 m2 Lr' Lm'); [exact RA'|exact RM'|exact RP|exact IP| |reflexivity|apply Permutation_refl|exact E| |exact B3| |].
    + rewrite <- app_assoc. exact EP.
    + rewrite (emit_objs le net _ _ _ _ _ M1), PF. apply profiled_mid. symmetry. exact A1.
    + rewrite A1. exact M2.
    + intros Lr2 Lm2 RA2 RM2. rewrite <- app_assoc. apply H; assumption.
Qed.

Lemma handlereq_grows : forall addf esv v h h', M_NodeListener.uecho_node_handlerequestmessage dec addf esv v h = Ok h' ->
  M_Object.uecho_object_getcode (h_obj h') = M_Object.uecho_object_getcode (h_obj h) /\ o_attached (h_obj h') = o_attached (h_obj h)
  /\ exists more, h_anns h' = h_anns h ++ more.
Proof.
  intros addf esv v h h' E. apply bind_ok in E. destruct E as (l & _ & E). apply bind_ok in E. destruct E as (h1 & E1 & E). injection E as <-.
  exact (handle_loop_grows _ _ _ _ _ E1).
Qed.

Lemma wp_handlereq : forall w nd pv nx ps v1 a v2 esv g v Lv res h h' n n' posts posts' more Lr Lm L F (Q : _ -> heaplet -> Prop), (node_server ps =? 0) = false ->
  vec_rep (g_array w g) v Lv -> g_count w g = pv_opc v -> incl Lv F ->
  rl_at (nbody nd) (node_objects ps) v1 a (h_obj h) v2 Lr -> msg_rep res (h_msg h) None Lm ->
  Permutation L ((nd, nblk pv nx ps (n_tid n)) :: Lr ++ Lm ++ F) ->
  M_NodeListener.uecho_node_handlerequestmessage dec (adds w) esv v h = Ok h' -> profiled (n_objs n) = profiled (v1 ++ h_obj h :: v2) ->
  h_anns h' = h_anns h ++ more -> node_emit le net n (M_Object.uecho_object_getcode (h_obj h)) more = Ok (n', posts') ->
  (forall Lr' Lm', rl_at (nbody nd) (node_objects ps) v1 a (h_obj h') v2 Lr' -> msg_rep res (h_msg h') None Lm' ->
     Q (h_cnt h', h_calls h', posts ++ posts') ((nd, nblk pv nx ps (n_tid n')) :: Lr' ++ Lm' ++ F)) ->
  wp (uecho_node_handlerequestmessage room le net dec w a esv g res (h_cnt h, h_calls h, posts)) L Q.
Proof.
  intros w nd pv nx ps v1 a v2 esv g v Lv res h h' n n' posts posts' more Lr Lm L F Q SV RV EC IV RA RM P E PF EA EM H.
  unfold uecho_node_handlerequestmessage. apply bind_ok in E. destruct E as (l & EI & E). apply bind_ok in E. destruct E as (h1 & E1 & E). injection E as <-.
  cbn [h_obj h_anns h_calls h_msg h_cnt] in *. apply wp_bind. set (h0 := mkHs (h_obj h) (h_anns h) (h_calls h) (h_msg h) 0) in *.
  change (0, h_calls h, posts) with (h_cnt h0, h_calls h0, posts).
  destruct (vec_items _ _ _ RV) as (l' & ads & Lp & EI' & RP & LA & IE & IP & _). rewrite EI' in EI. injection EI as ->.
  rewrite EC, <- LA. destruct IE as [->|IE].
  - pose proof (props_rep_len _ _ _ RP) as X. destruct l; [|discriminate]. cbn [length handle_loop]. cbn [M_NodeListener.handle_loop] in E1. injection E1 as <-.
    subst h0. cbn [h_obj h_anns h_calls h_msg h_cnt] in *.
    assert (more = []) by (apply (app_inv_head (h_anns h)); rewrite app_nil_r; symmetry; exact EA). subst more.
    cbn [node_emit] in EM. injection EM as <- <-. rewrite app_nil_r in H. apply wp_ret, wp_post, wp_ret. eexists. split; [exact P|]. apply H; assumption.
  - change 0 with (@len prop []) at 1. rewrite (props_rep_len _ _ _ RP).
    eapply (wp_handle_loop w nd pv nx ps v1 a v2 esv _ res ads l Lp F SV (IV _ IE) l (length l) [] h0 h1 n n' posts posts' more Lr Lm L);
      [exact RA|exact RM|exact RP|intros z Z0; apply IV, IP; exact Z0|reflexivity|reflexivity|exact P|exact E1|exact PF|exact EA|exact EM|].
    intros Lr' Lm' RA' RM'. apply wp_ret. apply H; assumption.
Qed.

(* ---- a message ---- *)

Lemma wp_listener : forall nd pv nx ps n Lr q req c Lq r L F (Q : _ -> heaplet -> Prop),
  rlist (nbody nd) (node_objects ps) (n_objs n) Lr -> (node_server ps =? 0) = false -> n_listener n = negb (node_msglistener ps =? 0) ->
  msg_rep q req c Lq -> Permutation L ((nd, nblk pv nx ps (n_tid n)) :: Lr ++ Lq ++ F) ->
  M_NodeListener.uecho_node_servermessagelistener le net dec n req = Ok r ->
  (forall Lr', rlist (nbody nd) (node_objects ps) (n_objs (r_node r)) Lr' ->
     Q (r_anns r ++ r_answer r, r_calls r, r_told r) ((nd, nblk pv nx ps (n_tid (r_node r))) :: Lr' ++ Lq ++ F)) ->
  wp (uecho_node_servermessagelistener room le net dec nd q) L Q.
Proof.
  intros nd pv nx ps n Lr q req c Lq r L F Q RL SV NL RQ P E H. eapply wp_perm; [exact P|]. clear L P.
  assert (RQ0 := RQ). destruct RQ0 as (ep & eps & epg & b & f & t & Lp & Ls & Lg & Lb & Lf & Lt & PQ & V1 & V2 & V3 & _ & AF & _).
  set (g := mkCmsg (m_ehd1 req) (m_ehd2 req) (m_tid req) (m_seoj req) (m_deoj req) (m_esv req) (pv_opc (m_p req)) (pv_opc (m_pset req)) (pv_opc (m_pget req)) ep eps epg b f t) in *.
  assert (IQ : In (q, BMsg g) Lq) by (eapply Permutation_in; [apply Permutation_sym; exact PQ|left; reflexivity]).
  assert (VEC : forall w, exists Lv, vec_rep (g_array w g) (mpart w req) Lv /\ incl Lv Lq /\ g_count w g = pv_opc (mpart w req)).
  { intros []; cbn [g_array g_count mpart g g_ep g_epset g_epget g_opc g_opcset g_opcget]; [exists Lp|exists Ls|exists Lg]; (split; [assumption|split; [|reflexivity]]);
      intros z Z0; (eapply Permutation_in; [apply Permutation_sym; exact PQ|]); right;
      [|apply in_or_app; right|apply in_or_app; right; apply in_or_app; right]; apply in_or_app; left; exact Z0. }
  assert (ADR : addr_arg f (m_from req) Lq).
  { eapply addr_rep_arg; [exact AF|]. intros z Z0. eapply Permutation_in; [apply Permutation_sym; exact PQ|]. right.
    do 4 (apply in_or_app; right). apply in_or_app; left. exact Z0. }
  unfold uecho_node_servermessagelistener. nz nd. eapply (wp_pos _ _ _ _ q); [right; apply in_or_app; right; apply in_or_app; left; exact IQ|]. intro P1. rewrite (pos_nz q) by exact P1. cbn [orb].
  apply wp_bind. eapply wp_load_elem; [left; reflexivity|]. cbn [snd].
  apply wp_bind. eapply wp_load_msg; [right; apply in_or_app; right; apply in_or_app; left; exact IQ|].
  unfold M_NodeListener.uecho_node_servermessagelistener in E. apply bind_ok in E. destruct E as (dcode & ED & E).
  apply wp_bind. eapply wp_lift; [exact ED|]. rewrite NL in E.
  assert (T0 : (if negb (node_msglistener ps =? 0) then [ToldNode] else []) = (if node_msglistener ps =? 0 then [] else [ToldNode])) by (destruct (node_msglistener ps =? 0); reflexivity).
  rewrite T0 in E. clear T0.
  set (told0 := if node_msglistener ps =? 0 then [] else [ToldNode]) in *.
  apply wp_bind. unfold uecho_node_getobjectbycode. apply wp_bind. eapply wp_load_elem; [left; reflexivity|]. cbn [snd].
  unfold M_Node.uecho_node_getobjectbycode in E.
  eapply (wp_objs_find nd _ (n_objs n) _ Lr _ ((nd, nblk pv nx ps (n_tid n)) :: Lq ++ F)); [exact RL|perm| |].
  { intro D. rewrite (value_none _ _ D) in E. injection E as <-. cbn [Z.eqb]. apply wp_ret. apply H. exact RL. }
  intros v1 a o v2 EO D EC PA RA. rewrite (pos_nz a) by exact PA. rewrite EO, (value_find _ _ _ _ D EC) in E.
  destruct (rl_in _ _ _ _ _ _ _ RA) as (c0 & IC & JN & CC & JL & OAT).
  apply wp_bind. eapply wp_load_obj; [right; apply in_or_app; left; exact IC|].
  rewrite JL, CC. rewrite (proj1 (Z.eqb_eq _ _) EC).
  set (told1 := told0 ++ (if o_listener o then [ToldObject dcode] else [])) in *.
  change (g_esv g) with (uecho_message_getesv req). destruct (negb (uecho_esv_isrequest (uecho_message_getesv req))).
  { injection E as <-. apply wp_ret. apply H. exact RL. }
  set (B := (nd, nblk pv nx ps (n_tid n))).
  apply wp_bind. eapply (wp_message_new room Room). intros res Lm PR RM. rewrite (pos_nz res) by exact PR.
  apply wp_bind. eapply wp_settid; [exact RM|apply Permutation_refl|]. clear Lm RM. intros Lm RM.
  change (M_Message.uecho_message_gettid le (with_tid (g_tid g) M_Message.uecho_message_new)) with (M_Message.uecho_message_gettid le req) in RM.
  apply bind_ok in E. destruct E as (m1 & E1 & E). unfold M_Message.uecho_message_setsourceobjectcode in E1. apply bind_ok in E1. destruct E1 as (e1 & X1 & E1). injection E1 as <-.
  apply wp_bind. eapply wp_setsource; [exact RM|apply Permutation_refl|exact X1|]. clear Lm RM. intros Lm RM.
  apply bind_ok in E. destruct E as (scode & ES & E). apply wp_bind. eapply wp_lift; [exact ES|].
  apply bind_ok in E. destruct E as (m2 & E2 & E). unfold M_Message.uecho_message_setdestinationobjectcode in E2. apply bind_ok in E2. destruct E2 as (e2 & X2 & E2). injection E2 as <-.
  apply wp_bind. eapply wp_setdestination; [exact RM|apply Permutation_refl|exact X2|]. clear Lm RM. intros Lm RM.
  set (m2 := with_deoj e2 _) in *. set (h0 := mkHs o [] [] m2 0) in *.
  apply bind_ok in E. destruct E as (h & EH & E). apply bind_ok in E. destruct E as ((n1, anns) & EM & E).
  rewrite (value_put _ _ _ _ _ D EC) in EM. rewrite OAT, (pos_nz nd) in EM by assumption. cbn [negb] in EM.
  assert (HH : M_Object.uecho_object_getcode (h_obj h) = M_Object.uecho_object_getcode o /\ o_attached (h_obj h) = o_attached o).
  { destruct (uecho_message_isreadwritemessage req).
    - apply bind_ok in EH. destruct EH as (h1 & EH1 & EH2). destruct (handlereq_grows _ _ _ _ _ EH1) as (A1 & A2 & _), (handlereq_grows _ _ _ _ _ EH2) as (B1 & B2 & _).
      split; [rewrite B1; exact A1|rewrite B2; exact A2].
    - destruct (handlereq_grows _ _ _ _ _ EH) as (A1 & A2 & _). split; assumption. }
  destruct HH as [HC HA].
  set (nb := n_with_objs (v1 ++ h_obj h :: v2) n) in *.
  assert (PF : profiled (n_objs nb) = profiled (v1 ++ o :: v2)) by (apply profiled_mid; exact HC).
  (* after the properties *)
  apply wp_bind.
  match goal with |- wp _ _ ?K => assert (REST : forall Lr' Lm', rl_at (nbody nd) (node_objects ps) v1 a (h_obj h) v2 Lr' -> msg_rep res (h_msg h) None Lm' ->
     K (h_cnt h, h_calls h, anns) ((nd, nblk pv nx ps (n_tid n1)) :: Lr' ++ Lm' ++ Lq ++ F)) end.
  { intros Lr' Lm' RA' RM'. cbv beta iota. destruct (rl_in _ _ _ _ _ _ _ RA') as (c1 & IC1 & JN1 & _).
    apply wp_bind. unfold uecho_object_getparentnode. rewrite (pos_nz a) by exact PA. apply wp_bind. eapply wp_load_obj; [right; apply in_or_app; left; exact IC1|]. apply wp_ret. rewrite JN1.
    rewrite HA, OAT, (pos_nz nd) in E by assumption. cbn [negb] in E.
    change (g_opc g + g_opcset g + g_opcget g) with (uecho_message_getopc req + uecho_message_getopcset req + uecho_message_getopcget req).
    assert (EN1 : n_objs n1 = v1 ++ h_obj h :: v2) by (rewrite (emit_objs le net _ _ _ _ _ EM); reflexivity).
    assert (RL1 : rlist (nbody nd) (node_objects ps) (n_objs n1) Lr') by (rewrite EN1; exact (rl_at_list _ _ _ _ _ _ _ _ RA')).
    destruct (answer_esv (uecho_message_getesv req) _) as [esv|].
    - rewrite (pos_nz nd) by assumption.
      apply bind_ok in E. destruct E as (bs & EB & E). apply bind_ok in E. destruct E as (k & EK & E). apply bind_ok in E. destruct E as (pst & EP & E). injection E as <-.
      cbn [r_anns r_answer r_calls r_told r_node] in H.
      apply wp_bind. apply wp_bind. eapply (wp_setesv esv res (h_msg h) None Lm' _ ((nd, nblk pv nx ps (n_tid n1)) :: Lr' ++ Lq ++ F)); [exact RM'|perm|]. intros Lm1 RM1.
      change (with_esv esv (h_msg h)) with (M_Message.uecho_message_setesv esv (h_msg h)) in RM1.
      unfold M_Message.uecho_message_getbytes in EB. apply bind_ok in EB. destruct EB as (buf & EB1 & EB2).
      apply wp_bind. eapply wp_getbytes; [exact Room|exact RM1|apply Permutation_refl|exact EB1|]. intros b0 Lm2 RM2 IB.
      apply wp_bind. destruct (msg_view _ _ _ _ RM2) as [g2 V2g].
      eapply (wp_size res g2); [eapply view_incl; [exact V2g|apply incl_appl, incl_refl]|exact EK|].
      apply wp_bind. eapply wp_load_msg; [apply in_or_app; left; exact (proj1 V2g)|].
      assert (EG2 : g_esv g2 = uecho_message_getesv (M_Message.uecho_message_setesv esv (h_msg h))).
      { destruct V2g as (_ & SH & _). unfold same_head in SH. decompose [and] SH. assumption. }
      rewrite EG2.
      assert (FIN : wp (let! _ := M_Mem.uecho_message_delete res in ret (anns ++ fst pst, h_calls h, told1)) (Lm2 ++ (nd, nblk pv nx ps (n_tid n1)) :: Lr' ++ Lq ++ F) Q).
      { apply wp_bind. eapply wp_message_delete; [exact Room|exact RM2|apply Permutation_refl|]. apply wp_ret. apply H. exact RL1. }
      destruct (_ =? ESV_INF).
      + eapply (wp_annbytes net nd pv nx ps (n_tid n1)); [apply in_or_app; right; left; reflexivity|exact SV|apply in_or_app; left; exact IB|exact EB2|exact EP|]. exact FIN.
      + apply wp_bind. eapply wp_load_msg; [apply in_or_app; right; right; apply in_or_app; right; apply in_or_app; left; exact IQ|].
        eapply (wp_sendbytes net nd pv nx ps (n_tid n1)); [apply in_or_app; right; left; reflexivity|exact SV| |apply in_or_app; left; exact IB|exact EB2|exact EP|exact FIN].
        eapply addr_arg_incl; [exact ADR|]. intros z Z0. apply in_or_app; right; right; apply in_or_app; right; apply in_or_app; left. exact Z0.
    - injection E as <-. cbn [r_anns r_answer r_calls r_told r_node] in H. apply wp_bind, wp_ret. cbn [snd].
      apply wp_bind. eapply (wp_message_delete room Room); [exact RM'| |]; [instantiate (1 := (nd, nblk pv nx ps (n_tid n1)) :: Lr' ++ Lq ++ F); perm|]. apply wp_ret. apply H. exact RL1. }
  change (is_readwrite g) with (uecho_message_isreadwritemessage req).
  assert (P2 : Permutation (Lm ++ B :: Lr ++ Lq ++ F) ((nd, nblk pv nx ps (n_tid nb)) :: Lr ++ Lm ++ Lq ++ F)) by (unfold B; cbn [nb n_with_objs n_tid]; perm).
  destruct (uecho_message_isreadwritemessage req).
  - apply bind_ok in EH. destruct EH as (h1 & EH1 & EH2). destruct (handlereq_grows _ _ _ _ _ EH1) as (A1 & A2 & k1 & A3), (handlereq_grows _ _ _ _ _ EH2) as (B1 & B2 & k2 & B3).
    cbn [h0 h_anns h_obj app] in A1, A2, A3. rewrite HC, B3, A3 in EM. destruct (emit_app le net _ _ _ _ _ _ EM) as (n2 & q1 & q2 & M1 & M2 & ->).
    destruct (VEC PSet) as (Lv & VR & IV & CV). destruct (VEC PGet) as (Lw & WR & IW & CW). change (0, [], []) with (h_cnt h0, h_calls h0, @nil post). apply wp_bind.
    eapply (wp_handlereq PSet nd pv nx ps v1 a v2 _ g (m_pset req) Lv res h0 h1 nb n2 [] q1 k1 Lr Lm _ (Lq ++ F)); [exact SV|exact VR|exact CV| |exact RA|exact RM|exact P2|exact EH1|exact PF|exact A3|exact M1|].
    { intros z Z0. apply in_or_app; left. apply IV. exact Z0. }
    intros Lr1 Lm1 RA1 RM1. cbn [app].
    eapply (wp_handlereq PGet nd pv nx ps v1 a v2 _ g (m_pget req) Lw res h1 h n2 n1 q1 q2 k2 Lr1 Lm1 _ (Lq ++ F)); [exact SV|exact WR|exact CW| |exact RA1|exact RM1|apply Permutation_refl|exact EH2| |exact B3| |].
    + intros z Z0. apply in_or_app; left. apply IW. exact Z0.
    + rewrite (emit_objs le net _ _ _ _ _ M1), PF. apply profiled_mid. symmetry. exact A1.
    + rewrite A1. exact M2.
    + intros Lr' Lm' RA' RM'. apply REST; assumption.
  - destruct (VEC PPlain) as (Lv & VR & IV & CV). change (0, [], []) with (h_cnt h0, h_calls h0, @nil post).
    eapply (wp_handlereq PPlain nd pv nx ps v1 a v2 _ g (m_p req) Lv res h0 h nb n1 [] anns (h_anns h) Lr Lm _ (Lq ++ F)); [exact SV|exact VR|exact CV| |exact RA|exact RM|exact P2|exact EH|exact PF|reflexivity| |].
    + intros z Z0. apply in_or_app; left. apply IV. exact Z0.
    + rewrite HC in EM. exact EM.
    + intros Lr' Lm' RA' RM'. apply REST; assumption.
Qed.
End Room.
