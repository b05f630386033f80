(* C91, continued: a network of just the program and devices of this library. *)
From Coq Require Import String ZArith List Bool Lia ZifyBool ZifyNat.
From Verif Require Import CSem M_Const M_Misc M_Property M_Message M_PropertyList M_Object M_Node M_NodeListener M_Controller M_Query M_PostTool M_ShowTool M_Verbose
  StdDB_Data M_Std Spec_Frame Spec_Message Spec_Map Spec_Object Spec_Node Spec_Request Spec_Controller Spec_ShowTool Spec_Verbose Run_Object Run_Node
  Run_Controller P_Base P_Misc P_Message P_Encode P_MsgApi P_PropertyList P_Object P_ObjectRun P_ObjectReach P_Std P_Node
  P_Request Properties_Object P_NodeReach P_NodeProfile P_NodeInv P_NodeRun P_NodeProps P_RequestProps P_RequestApi P_NodeSafe
  P_Shadow P_Controller P_ControllerProps Properties_Message Properties_Node Properties_Request Properties_Controller P_EndToEnd
  Properties_EndToEnd Properties_System Properties_Query Spec_CtrlBound P_CtrlSafe P_CtrlBound Properties_CtrlBound P_Owned P_ShowTool Properties_ShowTool P_Verbose P_VerboseRun P_VerboseTid M_Bench Spec_Bench Properties_Verbose Properties_Bench Spec_Told Properties_Told P_Maker.
From Verif Require P_Lookup.
Import ListNotations.
Open Scope Z_scope.
Ltac Zify.zify_post_hook ::= Z.div_mod_to_equations.

(* besides [heard_of]: the program knows that these devices have a manufacturer, which is so after a search *)
Definition heard_all (sh : list device_seen) (d : devices_at) : Prop :=
  forall a os, In (Some a, os) sh ->
  (forall code z r e, holds (d a) code 214 = Some [z :: r] -> In e (listed (z :: r)) -> In (eoj_code e) (map fst os))
  /\ (forall ps, In (978945, ps) os -> In 138 (map fst ps))
  /\ (forall v, holds (d a) 978945 138 = Some [v] -> (length v <= 4)%nat /\ number_of v <= 2147483647).

(* ---- what is asked is known ---- *)
Definition item_of (sh : list device_seen) (i : item) : Prop :=
  match i with
  | IDevice a => exists os, In (a, os) sh
  | IObject _ _ => True
  | IValue a j k code epc => exists os ps, In (a, os) sh /\ In (code, ps) os /\ In epc (map fst ps)
  end.
Lemma props_items : forall sh a os j code ps0 ps k, In (a, os) sh -> In (code, ps0) os -> incl ps ps0 -> Forall (item_of sh) (ask_props a j code k ps).
Proof.
  intros sh a os j code ps0 ps. induction ps as [|[epc must] ps IH]; intros k Ia Io H; cbn [ask_props]; [constructor|].
  assert (T : Forall (item_of sh) (ask_props a j code (S k) ps)) by (apply IH; [exact Ia|exact Io|intros x Ix; apply H; right; exact Ix]).
  destruct must; cbn [app]; [constructor; [|exact T]|exact T]. exists os, ps0. split; [exact Ia|]. split; [exact Io|].
  apply in_map_iff. exists (epc, true). split; [reflexivity|]. apply H. left. reflexivity.
Qed.
Lemma objects_items : forall sh a os0 os j, In (a, os0) sh -> incl os os0 -> Forall (item_of sh) (ask_objects a j os).
Proof.
  intros sh a os0 os. induction os as [|[code ps] os IH]; intros j Ia H; cbn [ask_objects]; [constructor|].
  constructor; [exact I|]. apply Forall_app. split; [|apply IH; [exact Ia|intros x Ix; apply H; right; exact Ix]].
  apply (props_items sh a os0 j code ps ps 0 Ia); [apply H; left; reflexivity|intros x Ix; exact Ix].
Qed.
Lemma agenda_items : forall sh sh', incl sh' sh -> Forall (item_of sh) (agenda sh').
Proof.
  intros sh sh'. induction sh' as [|[a os] sh' IH]; intros H; [constructor|]. unfold agenda. cbn [flat_map fst snd app].
  assert (Ia : In (a, os) sh) by (apply H; left; reflexivity).
  constructor; [exists os; exact Ia|]. apply Forall_app. split; [apply (objects_items sh a os os 0 Ia); intros x Ix; exact Ix|].
  apply IH. intros x Ix. apply H. right. exact Ix.
Qed.
Lemma skip_incl : forall (A : Type) n (l : list A), incl (skipn n l) l.
Proof. intros A n. induction n as [|n IH]; intros [|x l]; cbn [skipn]; intros y Iy; auto. right. apply IH. exact Iy. Qed.
Lemma plan_items : forall sh p, Forall (item_of sh) (plan sh p).
Proof.
  intros sh [i|i j|i j k|]; cbn [plan].
  - apply agenda_items. apply skip_incl.
  - destruct (nth_error sh i) as [[a os]|] eqn:E; [|constructor]. apply Forall_app. split; [|apply agenda_items; apply skip_incl].
    apply (objects_items sh a os); [exact (nth_error_In _ _ E)|apply skip_incl].
  - destruct (nth_error sh i) as [[a os]|] eqn:E; [|constructor]. cbn [fst snd]. destruct (nth_error os j) as [[code ps]|] eqn:E2; [|constructor]. cbn [fst snd].
    apply Forall_app. split; [|apply Forall_app; split; [|apply agenda_items; apply skip_incl]].
    + apply (props_items sh a os j code ps); [exact (nth_error_In _ _ E)|exact (nth_error_In _ _ E2)|apply skip_incl].
    + apply (objects_items sh a os); [exact (nth_error_In _ _ E)|apply skip_incl].
  - constructor.
Qed.

(* ---- one answer ---- *)
Lemma answer_frame_is : forall le net dec d t e epc la from r, api_node le net std_db d ->
  (forall code epc v, holds d code epc = Some [v] -> (length v <= 255)%nat) -> frame_ok (get_frame t e epc) ->
  node_receive le net dec d (enc_frame (get_frame t e epc)) la (Some from) = Ok r -> agreed r ->
  forall b, In b (map data_of (r_answer r)) -> exists v esv, holds d (eoj_code e) epc = Some [v]
  /\ b = enc_frame (mkFrame t e node_profile_eoj esv (Plain [(epc, v)])) /\ frame_ok (mkFrame t e node_profile_eoj esv (Plain [(epc, v)])) /\ (esv = 114 \/ esv = 82).
Proof.
  intros le net dec d t e epc la from r Hn Sh Hf R Ag b Ib.
  pose proof (device_says le net dec d t e epc la from r Hn Sh Hf R Ag) as S.
  destruct (holds d (eoj_code e) epc) as [vs|] eqn:Eh; [|rewrite S in Ib; destruct Ib].
  destruct S as (g & A & Hg & Tg & Eg & Vg & Sg & Dg & Bg & Vs). rewrite A in Ib. destruct Ib as [<-|[]]. cbn [data_of].
  destruct (holds_one _ _ _ _ Eh) as [v ->]. exists v, (f_esv g). split; [reflexivity|].
  assert (g = mkFrame t e node_profile_eoj (f_esv g) (Plain [(epc, v)])).
  { destruct g as [tg sg dg eg bg]. cbn [f_tid f_seoj f_deoj f_esv f_body values] in *. subst. destruct Bg as (v0 & ->). cbn [values map snd f_body] in Vg. injection Vg as ->. reflexivity. }
  split; [congruence|]. split; [congruence|exact Vs].
Qed.

Section C.
Variable le : bool.
Variable net snet : post -> bool.
Hypothesis up : forall a b, net (PSend a b) = true.
Local Notation vinv := (vinv le net snet).
Local Notation vstep := (vstep le net snet std_db).

Lemma seen_once : forall c a os os', vinv c -> In (Some a, os) (seen c) -> In (Some a, os') (seen c) -> os = os'.
Proof.
  intros c a os os' (_ & ((_ & Sh & Nd & _) & _) & _) I1 I2. unfold seen in *. apply in_map_iff in I1. apply in_map_iff in I2.
  destruct I1 as (n & E1 & J1), I2 as (n' & E2 & J2). injection E1 as A1 B1. injection E2 as A2 B2.
  pose proof (Properties_ShowTool.byaddress_in _ n _ Nd J1 A1) as G1. pose proof (Properties_ShowTool.byaddress_in _ n' _ Nd J2 A2) as G2.
  rewrite G1 in G2. injection G2 as <-. congruence.
Qed.
Lemma in_once : forall (A B : Type) (l : list (A * B)) x y y', NoDup (map fst l) -> In (x, y) l -> In (x, y') l -> y = y'.
Proof.
  intros A B l x y y'. induction l as [|[a b] l IH]; intros N I1 I2; [destruct I1|]. cbn [map fst] in N. inversion N as [|? ? Na N']; subst.
  assert (K : forall z, In (a, z) l -> False) by (intros z J; apply Na; apply in_map_iff; exists (a, z); auto).
  destruct I1 as [E1|I1], I2 as [E2|I2].
  - congruence.
  - injection E1 as -> ->. destruct (K _ I2).
  - injection E2 as -> ->. destruct (K _ I1).
  - exact (IH N' I1 I2).
Qed.
Lemma codes_once : forall c a os code ps ps', vinv c -> In (a, os) (seen c) -> In (code, ps) os -> In (code, ps') os -> ps = ps'.
Proof.
  intros c a os code ps ps' (_ & ((_ & Sh & Nd & _) & _) & _) I1 J1 J2. unfold seen in I1. apply in_map_iff in I1. destruct I1 as (n & E & In1). injection E as _ E.
  rewrite Forall_forall in Sh. destruct (Sh _ In1) as ((_ & _ & Nc & _) & _). eapply in_once; [|exact J1|exact J2]. rewrite <- E, map_map. exact Nc.
Qed.

Lemma heard_made : forall c d, vinv c -> Forall made (c_nodes c) -> heard_of (seen c) d -> heard_all (seen c) d.
Proof.
  intros c d V M H a os Ia. destruct (H a os Ia) as [H1 H2]. split; [exact H1|]. split; [|exact H2]. intros ps Ip.
  pose proof Ia as Ja. unfold seen in Ja. apply in_map_iff in Ja. destruct Ja as (n & E & In1). injection E as _ E.
  rewrite Forall_forall in M. specialize (M _ In1). unfold made, node_data in M.
  destruct (uecho_node_getobjectbycode n 978945) as [o|] eqn:G; [|contradiction]. apply P_Node.getbycode_in in G. destruct G as [Gc Gi].
  destruct (uecho_object_getproperty o 138) as [q|] eqn:Gp; [|contradiction].
  assert (Jo : In (978945, map (fun p => (p_code p, uecho_property_isreadrequired p)) (o_props o)) os).
  { rewrite <- E. apply in_map_iff. exists o. rewrite Gc. split; [reflexivity|exact Gi]. }
  rewrite (codes_once c (Some a) os 978945 _ _ V Ia Ip Jo). rewrite map_map. cbn [fst].
  apply P_PropertyList.find_code in Gp. destruct Gp as [Gp Gq]. apply in_map_iff. exists q. split; assumption.
Qed.

Lemma arrivals_quiet : forall c a e epc t w d os, vinv c -> heard_all (seen c) d -> frame_ok (get_frame t e epc) ->
  only_answers d [PSend a (enc_frame (get_frame t e epc))] w -> In (Some a, os) (seen c) ->
  (forall ps, In (eoj_code e, ps) os -> In epc (map fst ps)) -> Forall (quiet (seen c)) w.
Proof.
  intros c a e epc t w d os V Hh Hf (le' & net' & dec & la & from & r & Hn & Sh & R & Ag & Ew & Fr) Io Kn.
  apply Forall_forall. intros x Ix f rest Hfx Dx. rewrite Forall_forall in Fr. specialize (Fr _ Ix).
  assert (Ib : In (ar_data x) (map data_of (r_answer r))) by (rewrite <- Ew; apply in_map; exact Ix).
  destruct (answer_frame_is le' net' dec (d a) t e epc la from r Hn Sh Hf R Ag _ Ib) as (v & esv & Eh & Eb & Hg & _).
  rewrite Dx in Eb. symmetry in Eb. apply enc_inj in Eb; [|exact Hg|exact Hfx]. subst f. rewrite Fr. destruct (Hh _ _ Io) as (H1 & _ & _). split.
  - intros z r0 [_ B]. cbn [f_body] in B. injection B as -> ->. exists os. split; [exact Io|]. intros e0 Ie. exact (H1 _ _ _ _ Eh Ie).
  - intros _ os' ps e0 Io' Ip Ie. cbn [f_seoj reported f_body] in *. rewrite <- (seen_once _ _ _ _ V Io Io') in Ip.
    destruct Ie as [<-|[]]. exact (Kn _ Ip).
Qed.
Lemma answers_serve : forall d a e epc t w, frame_ok (get_frame t e epc) ->
  only_answers d [PSend a (enc_frame (get_frame t e epc))] w -> serves (d a) (enc_frame (get_frame t e epc)) w.
Proof.
  intros d a e epc t w Hf (le' & net' & dec & la & from & r & Hn & Sh & R & Ag & Ew & Fr).
  exists le', net', dec, la, from, r. split; [exact Hn|]. split; [exact Sh|]. split; [exact R|]. split; [exact Ag|]. rewrite <- Ew. split.
  - intros b Ib. apply in_map_iff in Ib. destruct Ib as (x & E & Ix). eauto.
  - intros q x f rest _ Ix _ _ _ _. apply in_map. exact Ix.
Qed.

Lemma vpost_same : forall c n o epc w w' x x', vpost le net snet std_db c n o epc w = Ok x -> vpost le net snet std_db c n o epc w' = Ok x' -> snd (fst x) = snd (fst x').
Proof.
  intros c n o epc w w' x x' E E'. unfold vpost in *. apply bind_ok in E. destruct E as (q & Eq & E). rewrite Eq in E'. cbn [bind] in E'.
  apply bind_ok in E. destruct E as ([[c1 ps] b] & Eb & E). rewrite Eb in E'. cbn [bind] in E'. destruct b.
  - apply bind_ok in E. destruct E as (y & _ & E). apply bind_ok in E'. destruct E' as (y' & _ & E').
    destruct (c_res (fst y)); try discriminate. destruct (c_res (fst y')); try discriminate. injection E as <-. injection E' as <-. reflexivity.
  - apply bind_ok in E. destruct E as (y & _ & E). apply bind_ok in E'. destruct E' as (y' & _ & E'). injection E as <-. injection E' as <-. reflexivity.
Qed.
Lemma posts_same : forall c p w w' c1 p1 s t c2 p2 s' t', vstep c p w = Ok (c1, p1, s, t) -> vstep c p w' = Ok (c2, p2, s', t') -> s = s'.
Proof.
  intros c p w w' c1 p1 s t c2 p2 s' t' E E'. destruct p as [i|i j|i j k|]; cbn [M_Verbose.vstep] in *.
  - destruct (nth_error (c_nodes c) i) as [n|].
    + apply bind_ok in E. destruct E as ([[a1 ps] r] & E1 & E). apply bind_ok in E. destruct E as (m & _ & E). injection E as <- <- <- <-.
      apply bind_ok in E'. destruct E' as ([[a2 ps'] r'] & E2 & E'). apply bind_ok in E'. destruct E' as (m' & _ & E'). injection E' as <- <- <- <-.
      exact (vpost_same _ _ _ _ _ _ _ _ E1 E2).
    + apply bind_ok in E. destruct E as (y & _ & E). apply bind_ok in E'. destruct E' as (y' & _ & E'). congruence.
  - apply bind_ok in E. destruct E as (y & _ & E). apply bind_ok in E'. destruct E' as (y' & _ & E').
    destruct (nth_error (c_nodes (fst y)) i) as [n|]; [|discriminate]. destruct (nth_error (c_nodes (fst y')) i) as [n'|]; [|discriminate].
    destruct (nth_error (n_objs n) j), (nth_error (n_objs n') j); congruence.
  - destruct (nth_error (c_nodes c) i) as [n|]; [|discriminate]. destruct (nth_error (n_objs n) j) as [o|]; [|discriminate].
    destruct (nth_error (o_props o) k) as [q|]; [destruct (uecho_property_isreadrequired q)|].
    + apply bind_ok in E. destruct E as ([[a1 ps] r] & E1 & E). apply bind_ok in E. destruct E as (m & _ & E). injection E as <- <- <- <-.
      apply bind_ok in E'. destruct E' as ([[a2 ps'] r'] & E2 & E'). apply bind_ok in E'. destruct E' as (m' & _ & E'). injection E' as <- <- <- <-.
      exact (vpost_same _ _ _ _ _ _ _ _ E1 E2).
    + apply bind_ok in E. destruct E as (y & _ & E). apply bind_ok in E'. destruct E' as (y' & _ & E'). congruence.
    + apply bind_ok in E. destruct E as (y & _ & E). apply bind_ok in E'. destruct E' as (y' & _ & E'). congruence.
  - apply bind_ok in E. destruct E as (y & _ & E). apply bind_ok in E'. destruct E' as (y' & _ & E'). congruence.
Qed.

Lemma closed_step : forall c p w d, vinv c -> valid (seen c) p -> heard_all (seen c) d ->
  (forall c0 p0 s t, vstep c p [] = Ok (c0, p0, s, t) -> only_answers d s w) ->
  Forall (quiet (seen c)) w /\ (forall i, p = AtNode i -> Forall fits_int w)
  /\ (forall c1 p1 s t, vstep c p w = Ok (c1, p1, s, t) -> forall a bytes, s = [PSend a bytes] -> serves (d a) bytes w).
Proof.
  intros c p w d V Vp Hh Cl.
  destruct (step_ok le net snet up c p [] V Vp ltac:(constructor) ltac:(constructor)) as [K1 K2].
  destruct K2 as ([[[c0 p0] s0] t0] & E0); [intros; constructor|]. specialize (Cl _ _ _ _ E0).
  destruct (K1 _ E0) as (_ & _ & _ & _ & dn & P & O).
  pose proof (plan_items (seen c) p) as It. rewrite P in It. apply Forall_app in It. destruct It as [It _].
  assert (Sv : (Forall (quiet (seen c)) w /\ (forall i, p = AtNode i -> Forall fits_int w)) /\ forall a bytes, s0 = [PSend a bytes] -> serves (d a) bytes w).
  { destruct O as [|j code|a tt man Fk Mb|a j k e epc tt dt Fk Pr].
    - cbn [only_answers] in Cl. subst w. split; [split; [constructor|intros; constructor]|discriminate].
    - cbn [only_answers] in Cl. subst w. split; [split; [constructor|intros; constructor]|discriminate].
    - inversion It as [|? ? I1 _]; subst. destruct I1 as (os & Io). destruct (Hh _ _ Io) as (_ & H2 & H3). split.
      + split; [apply (arrivals_quiet c a node_profile_eoj 138 tt w d os V Hh Fk Cl Io H2)|]. intros i _.
        destruct Cl as (le' & net' & dec & la & from & r & Hn & Sh & R & Ag & Ew & Fr).
        apply Forall_forall. intros x Ix f rest v Hfx Dx Vf.
        assert (Ib : In (ar_data x) (map data_of (r_answer r))) by (rewrite <- Ew; apply in_map; exact Ix).
        destruct (answer_frame_is le' net' dec (d a) tt node_profile_eoj 138 la from r Hn Sh Fk R Ag _ Ib) as (v' & esv & Eh & Eb & Hg & _).
        rewrite Dx in Eb. symmetry in Eb. apply enc_inj in Eb; [|exact Hg|exact Hfx]. subst f. cbn [values f_body map snd] in Vf. injection Vf as <-. exact (H3 _ Eh).
      + intros a' bytes E. injection E as <- <-. exact (answers_serve _ _ _ _ _ _ Fk Cl).
    - inversion It as [|? ? I1 _]; subst. destruct I1 as (os & ps & Io & Ip & Ie). split.
      + split.
        * apply (arrivals_quiet c a e epc tt w d os V Hh Fk Cl Io). intros ps' Ip'. rewrite <- (codes_once _ _ _ _ _ _ V Io Ip Ip'). exact Ie.
        * intros i ->. exfalso. cbn [plan] in P. destruct (skipn i (seen c)) as [|d0 sk]; discriminate P.
      + intros a' bytes E. injection E as <- <-. exact (answers_serve _ _ _ _ _ _ Fk Cl). }
  destruct Sv as [[S1 S2] S3]. split; [exact S1|]. split; [exact S2|].
  intros c1 p1 s t E a bytes Es. rewrite (posts_same _ _ _ _ _ _ _ _ _ _ _ _ E E0) in Es. exact (S3 _ _ Es).
Qed.

Lemma closed_run : forall ws c p d, vinv c -> valid (seen c) p -> heard_all (seen c) d -> Forall (Forall arrival_ok) ws -> closed vstep d c p ws ->
  Forall (Forall (quiet (seen c))) ws /\ served vstep c p (repeat d (length ws)) ws
  /\ exists c' p' s t, vrun le net snet std_db c p ws = Ok (c', p', s, t).
Proof.
  induction ws as [|w ws IH]; intros c p d V Vp Hh A Cl.
  - split; [constructor|]. split; [exact I|]. eexists _, _, _, _. reflexivity.
  - inversion A as [|? ? A1 A2]; subst. destruct Cl as [Cl1 Cl2]. destruct (closed_step c p w d V Vp Hh Cl1) as (Q & Ft & Sv).
    destruct (step_ok le net snet up c p w V Vp A1 Q) as [K1 K2]. destruct (K2 Ft) as ([[[c1 p1] s1] t1] & E1). destruct (K1 _ E1) as (V1 & S1 & Vp1 & _).
    destruct (IH c1 p1 d V1 ltac:(rewrite S1; exact Vp1) ltac:(rewrite S1; exact Hh) A2 (Cl2 _ _ _ _ E1)) as (Q2 & Sv2 & c2 & p2 & s2 & t2 & E2).
    rewrite S1 in Q2. split; [constructor; assumption|]. split.
    + cbn [length repeat served]. intros c3 p3 s3 t3 E3. rewrite E1 in E3. injection E3 as <- <- <- <-. split; [exact (Sv _ _ _ _ E1)|exact Sv2].
    + cbn [M_Verbose.vrun]. rewrite E1. cbn [bind]. rewrite E2. eexists _, _, _, _. reflexivity.
Qed.
Lemma bstep_inner : forall c k q w, (forall i, q <> AtNode i) -> forall x, bstep le net snet std_db c (k, q) w = Ok x
  <-> exists c1 q1 s t, vstep c q w = Ok (c1, q1, s, t) /\ x = (c1, (k, q1), s, t).
Proof.
  intros c k q w N x. unfold bstep. cbn [fst snd]. destruct q as [i|i j|i j k'|]; [destruct (N i eq_refl)|..];
    (split; [intros E; apply bind_ok in E; destruct E as ([[[c1 q1] s] t] & E1 & E2); injection E2 as <-; eauto 8
            |intros (c1 & q1 & s & t & E1 & ->); rewrite E1; reflexivity]).
Qed.
Lemma bclosed_step : forall c p w d, vinv c -> bvalid (seen c) p -> heard_all (seen c) d ->
  (forall c0 p0 s t, bstep le net snet std_db c p [] = Ok (c0, p0, s, t) -> only_answers d s w) ->
  Forall (quiet (seen c)) w
  /\ (forall c1 p1 s t, bstep le net snet std_db c p w = Ok (c1, p1, s, t) -> forall a bytes, s = [PSend a bytes] -> serves (d a) bytes w).
Proof.
  intros c [k q] w d V Vp Hh Cl.
  destruct (bstep_ok le net snet up c (k, q) [] V Vp ltac:(constructor) ltac:(constructor)) as (c0 & p0 & s0 & t0 & E0 & _).
  destruct Vp as (_ & Vp & _). cbn [snd] in Vp.
  assert (C : (exists i, q = AtNode i) \/ forall i, q <> AtNode i) by (destruct q; [left; eauto|right; discriminate..]).
  destruct C as [[i ->]|N].
  - assert (W : w = []).
    { pose proof (Cl _ _ _ _ E0) as W. unfold bstep in E0. cbn [fst snd] in E0. apply bind_ok in E0. destruct E0 as (y & _ & E0).
      destruct (nth_error (c_nodes (fst y)) i); injection E0 as <- <- <- <-; exact W. }
    subst w. split; [constructor|]. intros c1 p1 s t E a bytes ->. unfold bstep in E. cbn [fst snd] in E. apply bind_ok in E. destruct E as (y & _ & E).
    destruct (nth_error (c_nodes (fst y)) i); discriminate E.
  - pose proof (fun w' => bstep_inner c k q w' N) as Eq.
    destruct (closed_step c q w d V Vp Hh) as (Q & _ & Sv).
    { intros c2 q2 s2 t2 E2. apply (Cl c2 (k, q2) s2 t2). apply Eq. eauto 8. }
    split; [exact Q|]. intros c1 p1 s t E. apply Eq in E. destruct E as (c2 & q2 & s2 & t2 & E2 & X). injection X as -> -> -> ->. exact (Sv _ _ _ _ E2).
Qed.
Lemma bclosed_run : forall ws c p d, vinv c -> bvalid (seen c) p -> heard_all (seen c) d -> Forall (Forall arrival_ok) ws ->
  closed (bstep le net snet std_db) d c p ws ->
  Forall (Forall (quiet (seen c))) ws /\ served (bstep le net snet std_db) c p (repeat d (length ws)) ws.
Proof.
  induction ws as [|w ws IH]; intros c p d V Vp Hh A Cl.
  - split; [constructor|exact I].
  - inversion A as [|? ? A1 A2]; subst. destruct Cl as [Cl1 Cl2]. destruct (bclosed_step c p w d V Vp Hh Cl1) as (Q & Sv).
    destruct (bstep_ok le net snet up c p w V Vp A1 Q) as (c1 & p1 & s1 & t1 & E1 & V1 & S1 & Vp1 & _).
    destruct (IH c1 p1 d V1 ltac:(rewrite S1; exact Vp1) ltac:(rewrite S1; exact Hh) A2 (Cl2 _ _ _ _ E1)) as (Q2 & Sv2).
    rewrite S1 in Q2. split; [constructor; assumption|].
    cbn [length repeat served]. intros c3 p3 s3 t3 E3. rewrite E1 in E3. injection E3 as <- <- <- <-. split; [exact (Sv _ _ _ _ E1)|exact Sv2].
Qed.
End C.

(* When only these devices are there and they stay as they are, every step is defined and the whole list is the truth. *)
Theorem C91_closed : forall le net snet c0 arr c d ws,
  (forall a b, net (PSend a b) = true) -> new_ctrl le net std_db c0 -> Forall arrival_ok arr ->
  crun le net snet std_db c0 (uechosearch_calls arr) c ->
  heard_of (seen c) d -> Forall (Forall arrival_ok) ws -> closed (vstep le net snet std_db) d c (AtNode 0) ws ->
  (steps_of (seen c) <= length ws)%nat ->
  exists c' s, vrun le net snet std_db c (AtNode 0) ws = Ok (c', AtEnd, s, map (truth true d) (agenda (seen c))).
Proof.
  intros le net snet c0 arr c d ws up H0 F R Hh A Cl L. pose proof (search_vinv le net snet c0 arr c H0 F R) as V.
  destruct (closed_run le net snet up ws c (AtNode 0) d V I (heard_made _ _ _ _ _ V (search_made _ _ _ _ _ _ H0 R) Hh) A Cl) as (Q & Sv & c' & p & s & t & E).
  destruct (C89_asks le net snet c0 arr c ws c' p s t up H0 F R A Q E) as (_ & _ & _ & _ & _ & Ep). apply Ep in L as ->.
  exists c', s. rewrite E. rewrite <- (C91_true le net snet c0 arr c d ws c' AtEnd s t up H0 F R A Q Sv E); [reflexivity|].
  apply Ep. reflexivity.
Qed.
Print Assumptions C91_closed.

(* So it is for the benchmark: every round is the whole list, and it is the truth. *)
Theorem C91_bench_closed : forall le net snet c0 arr c n d ws,
  (forall a b, net (PSend a b) = true) -> new_ctrl le net std_db c0 -> Forall arrival_ok arr ->
  crun le net snet std_db c0 (uechosearch_calls arr) c -> seen c <> [] ->
  heard_of (seen c) d -> Forall (Forall arrival_ok) ws -> closed (bstep le net snet std_db) d c (bench_start c n) ws ->
  n mod 18446744073709551616 * Z.of_nat (steps_of (seen c)) <= Z.of_nat (length ws) ->
  exists c' p s, brun le net snet std_db c (bench_start c n) ws
    = Ok (c', p, s, map (truth false d) (rounds (n mod 18446744073709551616) (agenda (seen c)))).
Proof.
  intros le net snet c0 arr c n d ws up H0 F R Ne Hh A Cl L. pose proof (search_vinv le net snet c0 arr c H0 F R) as V.
  assert (Vb : bvalid (seen c) (bench_start c n)).
  { assert (St : bench_start c n = next_round (n mod 18446744073709551616, AtEnd)).
    { unfold bench_start. destruct (c_nodes c) eqn:En; [unfold seen in Ne; rewrite En in Ne; destruct (Ne eq_refl)|reflexivity]. }
    rewrite St. apply next_ok. apply Z.mod_pos_bound. reflexivity. }
  destruct (bclosed_run le net snet up ws c _ d V Vb (heard_made _ _ _ _ _ V (search_made _ _ _ _ _ _ H0 R) Hh) A Cl) as (Q & Sv).
  exact (C91_bench le net snet c0 arr c n d ws up H0 F R Ne A Q Sv L).
Qed.
Print Assumptions C91_bench_closed.

(* ---- an example: the device of Properties_Node alone, with what it has announced ---- *)
Section E.
Context {P : Type}.
Variable step : ctrl -> P -> list arrival -> res (ctrl * P * list post * list vline).
Fixpoint closedb (d : node) (c : ctrl) (p : P) (ws : list (list arrival)) : bool :=
  match ws with
  | [] => true
  | w :: ws' =>
      match step c p [] with
      | Ok (_, _, [PSend a b], _) =>
          match node_receive true net_up yes d b here (Some "192.168.1.2"%string) with
          | Ok r => forallb snd (r_calls r) && (if list_eq_dec (list_eq_dec Z.eq_dec) (map ar_data w) (map data_of (r_answer r)) then true else false)
                    && forallb (fun x => (ar_from x =? a)%string) w
          | Undef _ => false end
      | Ok _ => match w with [] => true | _ => false end
      | Undef _ => false
      end
      && match step c p w with Ok (c1, p1, _, _) => closedb d c1 p1 ws' | Undef _ => false end
  end.
Lemma closed_is : forall d ws c p, api_node true net_up std_db d -> (forall code epc v, holds d code epc = Some [v] -> (length v <= 255)%nat) ->
  closedb d c p ws = true -> closed step (fun _ => d) c p ws.
Proof.
  intros d ws. induction ws as [|w ws IH]; intros c p Hn Sh B; cbn [closed]; [exact I|]. cbn [closedb] in B. apply andb_prop in B. destruct B as [B1 B2]. split.
  - intros c0 p0 s t E. rewrite E in B1. destruct s as [|[b|a b] [|q s]]; cbn [only_answers]; try (destruct w; [reflexivity|discriminate]).
    destruct (node_receive true net_up yes d b here (Some "192.168.1.2"%string)) as [r|] eqn:R; [|discriminate].
    apply andb_prop in B1. destruct B1 as [B1 B4]. apply andb_prop in B1. destruct B1 as [B1 B3].
    destruct (list_eq_dec (list_eq_dec Z.eq_dec) (map ar_data w) (map data_of (r_answer r))) as [Eq|]; [|discriminate].
    exists true, net_up, yes, here, "192.168.1.2"%string, r. split; [exact Hn|]. split; [exact Sh|]. split; [exact R|]. split.
    { apply Forall_forall. apply forallb_forall. exact B1. }
    split; [exact Eq|]. apply Forall_forall. rewrite forallb_forall in B4. intros x Ix. apply String.eqb_eq. exact (B4 _ Ix).
  - intros c1 p1 s t E. rewrite E in B2. exact (IH c1 p1 Hn Sh B2).
Qed.
End E.
Definition heardb (sh : list device_seen) (d : node) : bool :=
  forallb (fun x =>
    forallb (fun o => match uecho_object_getproperty o 214 with
                      | Some p => match p_data p with
                                  | z :: r => forallb (fun e => existsb (Z.eqb (eoj_code e)) (map fst (snd x))) (listed (z :: r))
                                  | [] => true end
                      | None => true end) (n_objs d)) sh
  && match holds d 978945 138 with Some [v] => (length v <=? 4)%nat && (number_of v <=? 2147483647) | _ => true end.
Lemma existsb_in : forall x l, existsb (Z.eqb x) l = true -> In x l.
Proof. intros x l B. apply existsb_exists in B. destruct B as (y & I & E). apply Z.eqb_eq in E. subst y. exact I. Qed.
Lemma heard_is : forall sh d, heardb sh d = true -> heard_of sh (fun _ => d).
Proof.
  intros sh d B a os Io. unfold heardb in B. apply andb_prop in B. destruct B as [B1 B2]. rewrite forallb_forall in B1. specialize (B1 _ Io). cbn [snd] in B1.
  rewrite forallb_forall in B1. split.
  - intros code z r e E Ie. unfold holds in E. destruct (uecho_node_getobjectbycode d code) as [o|] eqn:G; [|discriminate].
    apply P_Node.getbycode_in in G. destruct G as [_ Ib]. specialize (B1 _ Ib). destruct (uecho_object_getproperty o 214) as [p|]; [|discriminate].
    injection E as E. rewrite E in B1. rewrite forallb_forall in B1. apply existsb_in. exact (B1 _ Ie).
  - intros v E. rewrite E in B2. apply andb_prop in B2. destruct B2 as [B4 B5]. split; [apply Nat.leb_le; exact B4|apply Z.leb_le; exact B5].
Qed.
Example C91_closed_example : crun true net_up net_down std_db ctrl0 (uechosearch_calls [got two_listed]) (cafter search_one)
  /\ heard_of (seen (cafter search_one)) (fun _ => node2) /\ Forall (Forall arrival_ok) told_waits
  /\ closed (vstep true net_up net_down std_db) (fun _ => node2) (cafter search_one) (AtNode 0) told_waits
  /\ (steps_of (seen (cafter search_one)) <= length told_waits)%nat
  /\ length (concat told_waits) = 31%nat.
Proof.
  split; [exact search_one_run|]. split; [apply heard_is; vm_compute; reflexivity|]. split; [exact told_ok|]. split.
  { assert (B : closedb (vstep true net_up net_down std_db) node2 (cafter search_one) (AtNode 0) told_waits = true) by (vm_compute; reflexivity).
    revert B. generalize told_waits (cafter search_one) (AtNode 0). intros ws c p B. apply closed_is; [exact node2_api|exact node2_short|exact B]. }
  split; [apply Nat.leb_le; vm_compute; reflexivity|vm_compute; reflexivity].
Qed.
Example C91_bench_closed_example : seen (cafter search_one) <> [] /\ heard_of (seen (cafter search_one)) (fun _ => node2)
  /\ Forall (Forall arrival_ok) told_rounds
  /\ closed (bstep true net_up net_down std_db) (fun _ => node2) (cafter search_one) (bench_start (cafter search_one) 2) told_rounds
  /\ 2 mod 18446744073709551616 * Z.of_nat (steps_of (seen (cafter search_one))) = Z.of_nat (length told_rounds)
  /\ length (concat told_rounds) = 60%nat.
Proof.
  split; [intros E; apply (f_equal (@length _)) in E; vm_compute in E; discriminate E|]. split; [apply heard_is; vm_compute; reflexivity|]. split; [exact rounds_ok|]. split.
  { assert (B : closedb (bstep true net_up net_down std_db) node2 (cafter search_one) (bench_start (cafter search_one) 2) told_rounds = true) by (vm_compute; reflexivity).
    revert B. generalize told_rounds (cafter search_one) (bench_start (cafter search_one) 2). intros ws c p B. apply closed_is; [exact node2_api|exact node2_short|exact B]. }
  split; vm_compute; reflexivity.
Qed.
