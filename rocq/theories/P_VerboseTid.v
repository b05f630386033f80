(* The transaction ids of the requests of uechosearch -v. *)
From Coq Require Import String ZArith List Bool Lia ZifyBool ZifyNat.
From Verif Require Import CSem M_Const M_Misc M_Property M_Message M_PropertyList M_Object M_Node M_NodeListener M_Controller M_Query M_PostTool M_ShowTool M_Verbose
  StdDB_Data M_Std Spec_Frame Spec_Message Spec_Map Spec_Object Spec_Node Spec_Request Spec_Controller Spec_ShowTool Spec_Verbose Run_Object Run_Node
  Run_Controller P_Base P_Misc P_Message P_Encode P_MsgApi P_PropertyList P_Object P_ObjectRun P_ObjectReach P_Std P_Node
  P_Request Properties_Object P_NodeReach P_NodeProfile P_NodeInv P_NodeRun P_NodeProps P_RequestProps P_RequestApi P_NodeSafe
  P_Shadow P_Controller P_ControllerProps Properties_Message Properties_Node Properties_Request Properties_Controller P_EndToEnd
  Properties_EndToEnd Properties_System Properties_Query Spec_CtrlBound P_CtrlSafe P_CtrlBound Properties_CtrlBound P_Owned P_ShowTool P_Verbose P_VerboseRun.
From Verif Require P_Lookup.
Import ListNotations.
Open Scope Z_scope.
Ltac Zify.zify_post_hook ::= Z.div_mod_to_equations.

Section T.
Variable le : bool.
Variable net snet : post -> bool.
Hypothesis up : forall a b, net (PSend a b) = true.
Local Notation vinv := (vinv le net snet).
Local Notation vstep := (vstep le net snet std_db).
Local Notation vrun := (vrun le net snet std_db).

Lemma receive_node : forall c x o y, vinv c -> arrival_ok x -> asks_nothing x ->
  ctrl_receive le net snet std_db (ar_dec x) (ar_fr x) c (ar_data x) (ar_local x) (Some (ar_from x)) = Ok (o, y) -> c_node (cr_ctrl y) = c_node c.
Proof.
  intros c x o y (A & W & P & O) Hx Q E0. pose proof W as (Hc & _ & _ & _). pose proof (winv_mem _ W) as M. destruct Hx as (Hb & Hfr & _).
  pose proof E0 as E. apply ctrl_receive_spec in E; [|exact Hc|apply M|exact Hb|exact Hfr].
  destruct (dec_frame (ar_data x)) as [[f rest]|] eqn:D.
  - destruct E as (x1 & y' & E & Hf & Ed & R & _ & L). injection E as -> ->.
    assert (H : hears le net snet std_db (ar_dec x) (ar_fr x) c f rest (ar_local x) (ar_from x) x1 y').
    { split; [exact A|]. split; [exact Hf|]. rewrite <- Ed. split; [exact Hb|]. split; [exact Hfr|exact E0]. }
    destruct (hears_spec _ _ _ _ std_db_ok _ _ _ _ _ _ _ _ _ H) as (_ & _ & R1 & N1 & Eo & Ec & Hh & Hc').
    rewrite <- Ed in R1.
    destruct (receive_ignored le net (ar_dec x) (c_node c) (ar_data x) (ar_local x) (Some (ar_from x)) (proj1 Hc) (proj1 M) Hb) as (told & E2).
    { intros g rest2 D2. rewrite D in D2. injection D2 as <- <-. left. exact (Q f rest Hf Ed). }
    rewrite E2 in R1. injection R1 as <-. rewrite Ec. reflexivity.
  - injection E as -> ->. reflexivity.
Qed.

Lemma wait_node : forall w c c' sg, vinv c -> Forall arrival_ok w -> Forall asks_nothing w -> vwait le net snet std_db c w = Ok (c', sg) ->
  c_node c' = c_node c.
Proof.
  induction w as [|x w IH]; intros c c' sg V A Q E; cbn [vwait] in E; [injection E as <- <-; reflexivity|].
  inversion A as [|? ? A1 A2]; subst. inversion Q as [|? ? Q1 Q2]; subst.
  apply bind_ok in E. destruct E as ([o y] & E1 & E). apply bind_ok in E. destruct E as ([c2 s2] & E2 & E). injection E as <- _. cbn [fst snd] in *.
  assert (V1 : vinv (cr_ctrl y)).
  { apply (vinv_receive le net snet c x (mkOut (cr_ctrl y) (match o with Some r => r_anns r | None => [] end)
      (match o with Some r => r_answer r | None => [] end) (cr_told y))); [exact V|exact A1|]. cbn [arrives cstep]. rewrite E1. reflexivity. }
  rewrite (IH _ _ _ V1 A2 Q2 E2). exact (receive_node _ _ _ _ V A1 Q1 E1).
Qed.

Lemma post_tid : forall c n a e epc w c' ps r, vinv c -> n_addr n = Some a -> eoj_ok e -> is_byte epc -> Forall arrival_ok w -> Forall asks_nothing w ->
  vpost le net snet std_db c n (eoj_code e) epc w = Ok (c', ps, r) ->
  ps = [PSend a (enc_frame (get_frame (tid_wire le (next_tid (n_tid (c_node c)))) e epc))] /\ n_tid (c_node c') = next_tid (n_tid (c_node c)).
Proof.
  intros c n a e epc w c' ps r V Ha He Bp A Q E. destruct (read_message le e epc He Bp) as (q & Eq & P & Ev). unfold vpost in E. rewrite Eq in E. cbn [bind] in E.
  pose proof V as (Ac & _ & Pr & _).
  destruct (C43_request le net snet c q _ n a Ac Pr P Ha) as (s & Es & Ps & Rs & Ns & Sh & Fs). cbv zeta in *.
  apply bind_ok in E. destruct E as ([[c1 ps1] b] & Eb & E). pose proof Eb as Eb0.
  unfold postmessage_begin in Eb. change (uecho_controller_sendmessage le net (c_with_post (MMsg q) (MMsg uecho_message_new) c) n q)
      with (uecho_controller_sendmessage le net c n q) in Eb. rewrite Es in Eb. cbn [bind] in Eb. rewrite Ps, Rs, up in Eb. injection Eb as <- <- <-.
  assert (V1 : vinv (c_with_post (MMsg (s_msg s)) (MMsg uecho_message_new) (c_with_node (s_node s) c))).
  { eapply vinv_post; [exact V|apply P|apply P|apply am_new|exact Eb0| |reflexivity]. cbn [c_with_post c_with_node c_node]. rewrite Ns. exact Pr. }
  apply bind_ok in E. destruct E as ([c2 sg] & Ew & E). cbn [fst snd] in E.
  destruct (c_res c2) as [| |m]; try discriminate. injection E as <- <- <-. split; [reflexivity|].
  change (n_tid (c_node c2) = next_tid (n_tid (c_node c))). rewrite (wait_node _ _ _ _ V1 A Q Ew). cbn [c_with_post c_with_node c_node]. rewrite Ns. reflexivity.
Qed.

(* what a step does to the counter *)
Definition counts (c : ctrl) (c' : ctrl) (s : list post) : Prop :=
  (s = [] /\ n_tid (c_node c') = n_tid (c_node c))
  \/ exists a e epc, s = [PSend a (enc_frame (get_frame (tid_wire le (next_tid (n_tid (c_node c)))) e epc))] /\ n_tid (c_node c') = next_tid (n_tid (c_node c)).
Lemma wait_counts : forall c w x, vinv c -> Forall arrival_ok w -> Forall asks_nothing w -> vwait le net snet std_db c w = Ok x -> counts c (fst x) [].
Proof. intros c w [c' sg] V A Q E. left. split; [reflexivity|]. cbn [fst]. rewrite (wait_node _ _ _ _ V A Q E). reflexivity. Qed.
Lemma step_counts : forall c p w c' p' s t, vinv c -> Forall arrival_ok w -> Forall asks_nothing w -> vstep c p w = Ok (c', p', s, t) -> counts c c' s.
Proof.
  intros c p w c' p' s t V A Q E. destruct p as [i|i j|i j k|]; cbn [M_Verbose.vstep] in E.
  - destruct (nth_error (c_nodes c) i) as [n|] eqn:En.
    + destruct (listed_node le net snet c n V (nth_error_In _ _ En)) as (Nn & a & Ea).
      apply bind_ok in E. destruct E as ([[c1 ps] r] & E1 & E). apply bind_ok in E. destruct E as (man & _ & E). injection E as <- <- <- <-.
      change 978945 with (eoj_code node_profile_eoj) in E1. destruct (post_tid _ _ _ _ _ _ _ _ _ V Ea np_ok np_epc A Q E1) as [-> T].
      right. exists a, node_profile_eoj, 138. auto.
    + apply bind_ok in E. destruct E as (x & E1 & E). injection E as <- <- <- <-. exact (wait_counts _ _ _ V A Q E1).
  - apply bind_ok in E. destruct E as (x & E1 & E). pose proof (wait_counts _ _ _ V A Q E1) as K.
    destruct (nth_error (c_nodes (fst x)) i) as [n|]; [|discriminate]. destruct (nth_error (n_objs n) j); injection E as <- <- <- <-; exact K.
  - destruct (nth_error (c_nodes c) i) as [n|] eqn:En; [|discriminate]. destruct (nth_error (n_objs n) j) as [o|] eqn:Go; [|discriminate].
    destruct (nth_error (o_props o) k) as [q|] eqn:Gq; [destruct (uecho_property_isreadrequired q) eqn:Rq|].
    + destruct (listed_node le net snet c n V (nth_error_In _ _ En)) as (Nn & a & Ea).
      destruct (object_eoj n o Nn (nth_error_In _ _ Go)) as (e & He & Ee & Hp).
      assert (Pq : p_parent q = true).
      { pose proof V as (_ & _ & _ & O). unfold cowned in O. rewrite Forall_forall in O. specialize (O _ (nth_error_In _ _ En)).
        unfold nowned in O. rewrite Forall_forall in O. specialize (O _ (nth_error_In _ _ Go)). unfold oowned in O. rewrite Forall_forall in O.
        exact (O _ (nth_error_In _ _ Gq) Rq). }
      rewrite Pq, Ee in E. apply bind_ok in E. destruct E as ([[c1 ps] r] & E1 & E). apply bind_ok in E. destruct E as (ds & _ & E). injection E as <- <- <- <-.
      destruct (post_tid _ _ _ _ _ _ _ _ _ V Ea He (Hp _ (nth_error_In _ _ Gq)) A Q E1) as [-> T]. right. exists a, e, (p_code q). auto.
    + apply bind_ok in E. destruct E as (x & E1 & E). injection E as <- <- <- <-. exact (wait_counts _ _ _ V A Q E1).
    + apply bind_ok in E. destruct E as (x & E1 & E). injection E as <- <- <- <-. exact (wait_counts _ _ _ V A Q E1).
  - apply bind_ok in E. destruct E as (x & E1 & E). injection E as <- <- <- <-. exact (wait_counts _ _ _ V A Q E1).
Qed.

Lemma counts_numbered : forall c c' s1 s2, counts c c' s1 -> numbered le (n_tid (c_node c')) s2 -> numbered le (n_tid (c_node c)) (s1 ++ s2).
Proof. intros c c' s1 s2 [[-> E]|(a & e & epc & -> & E)] N; rewrite E in N; cbn [app]; [exact N|constructor; exact N]. Qed.

Lemma run_numbered : forall ws c p c' p' s t, vinv c -> valid (seen c) p -> Forall (Forall arrival_ok) ws -> Forall (Forall (quiet (seen c))) ws ->
  Forall (Forall asks_nothing) ws -> vrun c p ws = Ok (c', p', s, t) -> numbered le (n_tid (c_node c)) s.
Proof.
  induction ws as [|w ws IH]; intros c p c' p' s t V Vp A Q N E; cbn [M_Verbose.vrun] in E; [injection E as <- <- <- <-; constructor|].
  inversion A as [|? ? A1 A2]; subst. inversion Q as [|? ? Q1 Q2]; subst. inversion N as [|? ? N1 N2]; subst.
  apply bind_ok in E. destruct E as ([[[c1 p1] s1] t1] & E1 & E). apply bind_ok in E. destruct E as ([[[c2 p2] s2] t2] & E2 & E). injection E as <- <- <- <-.
  destruct (step_ok le net snet up c p w V Vp A1 Q1) as [K _]. destruct (K _ E1) as (V1 & S1 & Vp1 & _).
  apply (counts_numbered _ _ _ _ (step_counts _ _ _ _ _ _ _ V A1 N1 E1)).
  apply (IH _ _ _ _ _ _ V1 ltac:(rewrite S1; exact Vp1) A2 ltac:(rewrite S1; exact Q2) N2 E2).
Qed.
End T.
