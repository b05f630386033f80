(* uechosearch -v, step by step. *)
From Coq Require Import String ZArith List Bool Lia ZifyBool ZifyNat.
From Verif Require Import CSem M_Const M_Misc M_Property M_Message M_PropertyList M_Object M_Node M_NodeListener M_Controller M_Query M_PostTool M_ShowTool M_Verbose
  StdDB_Data M_Std Spec_Frame Spec_Message Spec_Map Spec_Object Spec_Node Spec_Request Spec_Controller Spec_ShowTool Spec_Verbose Run_Object Run_Node
  Run_Controller P_Base P_Misc P_Message P_Encode P_MsgApi P_PropertyList P_Object P_ObjectRun P_ObjectReach P_Std P_Node
  P_Request Properties_Object P_NodeReach P_NodeProfile P_NodeInv P_NodeRun P_NodeProps P_RequestProps P_RequestApi P_NodeSafe
  P_Shadow P_Controller P_ControllerProps Properties_Message Properties_Node Properties_Request Properties_Controller P_EndToEnd
  Properties_EndToEnd Properties_System Properties_Query Spec_CtrlBound P_CtrlSafe P_CtrlBound Properties_CtrlBound P_Owned P_ShowTool P_Verbose.
From Verif Require P_Lookup.
Import ListNotations.
Open Scope Z_scope.
Ltac Zify.zify_post_hook ::= Z.div_mod_to_equations.


(* ---- the values of a response ---- *)
Lemma response_data_ok : forall m (ps qs : list (Z * list Z)), shows_props (uecho_message_getproperty m) (qs ++ ps) -> len (qs ++ ps) <= 255 ->
  response_data m (length ps) (len qs) = Ok (map snd ps).
Proof.
  intros m. induction ps as [|[c d] ps IH]; intros qs Sh Ln; unfold epair in *; [reflexivity|].
  cbn [length response_data map snd].
  assert (Lq : len (qs ++ (c, d) :: ps) = len qs + (1 + len ps)) by (unfold len; rewrite app_length; cbn [length]; lia).
  pose proof (len_nonneg _ qs). pose proof (len_nonneg _ ps).
  assert (G := Sh (len qs) ltac:(unfold SIZE_MOD; lia)).
  replace (Z.to_nat (len qs)) with (length qs) in G by (unfold len; lia).
  rewrite nth_error_app2, Nat.sub_diag in G by lia. cbn [nth_error] in G. destruct G as (p & G & Gc & Gd). rewrite G. cbn [bind]. rewrite Gd.
  replace (len qs + 1) with (len (qs ++ [(c, d)])) by (rewrite len_app; reflexivity).
  rewrite IH; [reflexivity| |].
  - rewrite <- app_assoc. exact Sh.
  - rewrite <- app_assoc. exact Ln.
Qed.

Lemma body_short : forall f ps, frame_ok f -> f_body f = Plain ps -> Forall epair_ok ps /\ (length ps <= 255)%nat.
Proof. intros f ps (_ & _ & _ & _ & _ & B) E. rewrite E in B. apply B. Qed.

Lemma values_ok : forall m f, frame_ok f -> filled m f -> values_of (Some m) = Ok (Some (values f)).
Proof.
  intros m f Hf F. unfold values_of, filled, values in *. destruct (f_body f) as [ps|ss gs] eqn:Eb.
  - destruct F as [Fo Fp]. destruct (body_short f ps Hf Eb) as [_ L]. rewrite Fo, Nat2Z.id. unfold epair in *.
    pose proof (response_data_ok m ps [] Fp ltac:(unfold len; cbn [app]; lia)) as R. change (len (@nil (Z * list Z))) with 0 in R. rewrite R. reflexivity.
  - rewrite F. reflexivity.
Qed.

Lemma number_be : forall d, number_of d = be_val d.
Proof.
  intros d. unfold number_of, be_val. induction d as [|x d IH] using rev_ind; [reflexivity|].
  rewrite fold_left_app, rev_app_distr. cbn [fold_left rev app le_val]. rewrite IH. lia.
Qed.

Lemma man_ok : forall m f, frame_ok f -> filled m f ->
  (forall v, manufacturer_of (Some m) = Ok v ->
     match v with Some x => exists d, values f = [d] /\ x = number_of d | None => length (values f) <> 1%nat end)
  /\ ((forall d, values f = [d] -> (length d <= 4)%nat /\ number_of d <= 2147483647) -> exists v, manufacturer_of (Some m) = Ok v).
Proof.
  intros m f Hf F. unfold manufacturer_of, filled, values in *. destruct (f_body f) as [ps|ss gs] eqn:Eb.
  - destruct F as [Fo Fp]. rewrite Fo. destruct (body_short f ps Hf Eb) as [B L].
    destruct (Z.eqb_spec (Z.of_nat (length ps)) 1) as [L1|L1].
    + destruct ps as [|[c d] [|? ?]]; cbn [length] in L1; try lia.
      assert (G := Fp 0 ltac:(unfold SIZE_MOD; lia)). cbn [Z.to_nat nth_error] in G. destruct G as (p & G & Gc & Gd). rewrite G. cbn [bind map snd]. rewrite Gd.
      inversion B as [|? ? (B1 & B2' & B3) _]; subst. cbn [fst snd] in *.
      assert (B2 : bytes_ok (p_data p)) by (eapply Forall_impl; [|exact B2']; intros z Hz; unfold byte_val, is_byte in *; lia). clear B2'. split.
      * intros v E. apply bind_ok in E. destruct E as (x & E & E2). injection E2 as <-. apply byte2integer_iff in E; [|exact B2].
        exists (p_data p). split; [reflexivity|]. rewrite number_be. apply E.
      * intros H. exists (Some (be_val (p_data p))).
        assert (E : uecho_byte2integer (p_data p) = Ok (be_val (p_data p))).
        { apply byte2integer_iff; [exact B2|]. destruct (H (p_data p) eq_refl) as [H1 H2]. rewrite number_be in H2. split; [exact H1|]. split; [exact H2|reflexivity]. }
        rewrite E. reflexivity.
    + split.
      * intros v E. injection E as <-. rewrite map_length. unfold epair in *. lia.
      * intros _. eexists. reflexivity.
  - rewrite F. cbn [Z.eqb]. split.
    + intros v E. injection E as <-. cbn [length]. lia.
    + intros _. eexists. reflexivity.
Qed.

(* ---- what remains to be done ---- *)
Definition plan (sh : list device_seen) (p : vpos) : list item :=
  match p with
  | AtEnd => []
  | AtNode i => agenda (skipn i sh)
  | AtObj i j => match nth_error sh i with Some d => ask_objects (fst d) j (skipn j (snd d)) ++ agenda (skipn (S i) sh) | None => [] end
  | AtProp i j k => match nth_error sh i with
      | Some d => match nth_error (snd d) j with
                  | Some o => ask_props (fst d) j (fst o) k (skipn k (snd o)) ++ ask_objects (fst d) (S j) (skipn (S j) (snd d)) ++ agenda (skipn (S i) sh)
                  | None => []
                  end
      | None => []
      end
  end.
Definition valid (sh : list device_seen) (p : vpos) : Prop :=
  match p with
  | AtEnd | AtNode _ => True
  | AtObj i j => exists d, nth_error sh i = Some d
  | AtProp i j k => exists d o, nth_error sh i = Some d /\ nth_error (snd d) j = Some o
  end.
Definition tobj (os : list (Z * list (Z * bool))) (k : nat) : nat := fold_right (fun (o : Z * list (Z * bool)) m => S (S (length (snd o)) + m)) k os.
Definition left_to_do (sh : list device_seen) (p : vpos) : nat :=
  match p with
  | AtEnd => 0
  | AtNode i => steps_of (skipn i sh)
  | AtObj i j => match nth_error sh i with Some d => S (tobj (skipn j (snd d)) (steps_of (skipn (S i) sh))) | None => 0 end
  | AtProp i j k => match nth_error sh i with
      | Some d => match nth_error (snd d) j with
                  | Some o => S (length (skipn k (snd o)) + S (tobj (skipn (S j) (snd d)) (steps_of (skipn (S i) sh))))
                  | None => 0
                  end
      | None => 0
      end
  end.

Lemma skipn_some : forall (A : Type) (l : list A) i x, nth_error l i = Some x -> skipn i l = x :: skipn (S i) l.
Proof. induction l as [|a l IH]; intros [|i] x E; cbn in E; try discriminate; [injection E as ->; reflexivity|]. cbn [skipn]. rewrite (IH _ _ E). reflexivity. Qed.
Lemma skipn_none : forall (A : Type) (l : list A) i, nth_error l i = None -> skipn i l = [].
Proof. intros A l i E. apply nth_error_None in E. apply skipn_all2. exact E. Qed.

Definition osum (o : obj) : Z * list (Z * bool) := (uecho_object_getcode o, map (fun p => (p_code p, uecho_property_isreadrequired p)) (o_props o)).
Lemma seen_nth : forall c i, nth_error (seen c) i = option_map (fun n => (n_addr n, map osum (n_objs n))) (nth_error (c_nodes c) i).
Proof. intros c i. unfold seen. apply nth_error_map. Qed.

Section R.
Variable le : bool.
Variable net snet : post -> bool.
Hypothesis up : forall a b, net (PSend a b) = true.
Local Notation vinv := (vinv le net snet).
Local Notation vstep := (vstep le net snet std_db).
Local Notation vrun := (vrun le net snet std_db).

Lemma listed_node : forall c n, vinv c -> In n (c_nodes c) -> ninv n /\ exists a, n_addr n = Some a.
Proof.
  intros c n (_ & ((_ & Sh & _) & _) & _) I. rewrite Forall_forall in Sh. destruct (Sh _ I) as (A & _ & B). split; [exact A|].
  destruct (n_addr n) as [a|]; [eauto|contradiction].
Qed.
Lemma object_eoj : forall n o, ninv n -> In o (n_objs n) -> exists e, eoj_ok e /\ uecho_object_getcode o = eoj_code e
  /\ forall p, In p (o_props o) -> is_byte (p_code p).
Proof.
  intros n o (_ & Fo & _) I. rewrite Forall_forall in Fo. destruct (Fo _ I) as (((_ & W) & _) & (A & B & C) & _).
  exists (eoj_of o). split; [unfold is_byte in *; cbn [eoj_of]; unfold eoj_ok, eoj_of, byte_val; split; [lia|split; lia]|]. split; [apply P_Lookup.ocode; split; [exact A|split; [exact B|exact C]]|].
  intros p Ip. unfold plist_ok in W. rewrite Forall_forall in W. apply (W _ Ip).
Qed.

Lemma np_ok : eoj_ok node_profile_eoj.
Proof. unfold eoj_ok, node_profile_eoj, byte_val. lia. Qed.
Lemma np_epc : is_byte 138.
Proof. unfold is_byte. lia. Qed.

Definition next_of (sh : list device_seen) (p p' : vpos) : Prop := (p = AtEnd /\ p' = AtEnd) \/ left_to_do sh p = S (left_to_do sh p').
(* one step: what it does of the list, sends and prints *)
Inductive one (w : list arrival) : list item -> list post -> list vline -> Prop :=
| one_skip : one w [] [] []
| one_object : forall j code, one w [IObject j code] [] [VObject j code]
| one_device : forall a t man, frame_ok (get_frame t node_profile_eoj 138) -> made_by w t man -> one w [IDevice (Some a)] [PSend a (enc_frame (get_frame t node_profile_eoj 138))] [VDevice (Some a) man]
| one_value : forall a j k e epc t ds, frame_ok (get_frame t e epc) -> printed w t ds ->
    one w [IValue (Some a) j k (eoj_code e) epc] [PSend a (enc_frame (get_frame t e epc))] [VValue j k epc ds].
Lemma one_did : forall w dn s t, one w dn s t -> forall ws l s' t', did ws l s' t' -> did (w :: ws) (dn ++ l) (s ++ s') (t ++ t').
Proof. intros w dn s t O ws l s' t' D. destruct O; cbn [app]; constructor; assumption. Qed.
Definition moves (c : ctrl) (p : vpos) (w : list arrival) (r : ctrl * vpos * list post * list vline) : Prop :=
  let '(c', p', s, t) := r in
  vinv c' /\ seen c' = seen c /\ valid (seen c) p' /\ next_of (seen c) p p'
  /\ exists dn, plan (seen c) p = dn ++ plan (seen c) p'
  /\ one w dn s t.

Lemma step_ok : forall c p w, vinv c -> valid (seen c) p -> Forall arrival_ok w -> Forall (quiet (seen c)) w ->
  (forall r, vstep c p w = Ok r -> moves c p w r)
  /\ ((forall i, p = AtNode i -> Forall fits_int w) -> exists r, vstep c p w = Ok r).
Proof.
  intros c p w V Vp A Q.
  destruct (wait_quiet le net snet w c V A Q) as (c1 & sg & Ew & V1 & S1 & _).
  assert (Ns : forall i, nth_error (seen c1) i = nth_error (seen c) i) by (intros; rewrite S1; reflexivity).
  destruct p as [i|i j|i j k|]; cbn [M_Verbose.vstep].
  - destruct (nth_error (c_nodes c) i) as [n|] eqn:En.
    + pose proof (seen_nth c i) as Es. rewrite En in Es. cbn [option_map] in Es.
      destruct (listed_node c n V (nth_error_In _ _ En)) as (Nn & a & Ea).
      destruct (post_quiet le net snet up c n a node_profile_eoj 138 w V Ea np_ok np_epc A Q) as (c2 & t & r & Ep & V2 & S2 & Fk & K).
      change (eoj_code node_profile_eoj) with 978945 in Ep. rewrite Ep. cbn [bind].
      assert (M : (forall man, manufacturer_of r = Ok man -> made_by w t man) /\ (Forall fits_int w -> exists man, manufacturer_of r = Ok man)).
      { destruct r as [m|].
        - destruct K as (f & Af & Ff). assert (Hf : frame_ok f) by (destruct Af as (x & rest & _ & _ & Hf & _); exact Hf).
          destruct (man_ok m f Hf Ff) as [K1 K2]. split.
          + intros man E. apply K1 in E. destruct man as [v|]; cbn [made_by].
            * destruct E as (d & Ed & Ev). exists f, d. auto.
            * right. exists f. auto.
          + intros Ft. apply K2. intros d Ed. destruct Af as (x & rest & Ix & Dx & _). rewrite Forall_forall in Ft. exact (Ft _ Ix f rest d Hf Dx Ed).
        - split; [|intros _; eexists; reflexivity]. intros man E. injection E as <-. left. exact K. }
      destruct M as [M1 M2]. split.
      * intros [[[c' p'] s] tt] E. apply bind_ok in E. destruct E as (man & Em & E). injection E as <- <- <- <-. apply M1 in Em.
        split; [exact V2|]. split; [exact S2|]. split; [eexists; exact Es|]. split.
        { right. cbn [left_to_do]. rewrite (skipn_some _ _ _ _ Es), Es. reflexivity. }
        exists [IDevice (Some a)]. split.
        { cbn [plan]. rewrite (skipn_some _ _ _ _ Es), Es, Ea. reflexivity. }
        rewrite Ea. apply one_device; assumption.
      * intros Ft. destruct (M2 (Ft i eq_refl)) as (man & Em). rewrite Em. eexists. reflexivity.
    + pose proof (seen_nth c i) as Es. rewrite En in Es. cbn [option_map] in Es. rewrite Ew. cbn [bind fst].
      split; [|intros _; eexists; reflexivity]. intros r E. injection E as <-. split; [exact V1|]. split; [exact S1|]. split; [exact I|]. split.
      * right. cbn [left_to_do]. rewrite (skipn_none _ _ _ Es). reflexivity.
      * exists []. split; [cbn [plan]; rewrite (skipn_none _ _ _ Es); reflexivity|]. apply one_skip.
  - destruct Vp as (d & Ed). rewrite Ew. cbn [bind fst]. pose proof (seen_nth c1 i) as Es. rewrite Ns, Ed in Es.
    destruct (nth_error (c_nodes c1) i) as [n|] eqn:En; [|discriminate]. cbn [option_map] in Es. injection Es as ->.
    pose proof (nth_error_map osum j (n_objs n)) as Eo. destruct (nth_error (n_objs n) j) as [o|] eqn:Go; cbn [option_map] in Eo.
    + split; [|intros _; eexists; reflexivity]. intros r E. injection E as <-. split; [exact V1|]. split; [exact S1|].
      split; [eexists _, _; split; [exact Ed|exact Eo]|]. split.
      * right. cbn [left_to_do]. rewrite Ed. cbn [snd]. rewrite Eo, (skipn_some _ _ _ _ Eo). cbn [tobj fold_right skipn]. unfold tobj. lia.
      * exists [IObject j (uecho_object_getcode o)]. split.
        { cbn [plan]. rewrite Ed. cbn [fst snd]. rewrite Eo, (skipn_some _ _ _ _ Eo). cbn [ask_objects osum fst snd skipn app]. rewrite <- app_assoc. reflexivity. }
        apply one_object.
    + split; [|intros _; eexists; reflexivity]. intros r E. injection E as <-. split; [exact V1|]. split; [exact S1|]. split; [exact I|]. split.
      * right. cbn [left_to_do]. rewrite Ed. cbn [snd]. rewrite (skipn_none _ _ _ Eo). reflexivity.
      * exists []. split; [cbn [plan]; rewrite Ed; cbn [fst snd]; rewrite (skipn_none _ _ _ Eo); reflexivity|]. apply one_skip.
  - destruct Vp as (d & o' & Ed & Eo). pose proof (seen_nth c i) as Es. rewrite Ed in Es.
    destruct (nth_error (c_nodes c) i) as [n|] eqn:En; [|discriminate]. cbn [option_map] in Es. injection Es as ->. cbn [snd] in Eo.
    pose proof Eo as Eo0. rewrite nth_error_map in Eo. destruct (nth_error (n_objs n) j) as [o|] eqn:Go; [|discriminate]. cbn [option_map] in Eo. injection Eo as <-.
    destruct (listed_node c n V (nth_error_In _ _ En)) as (Nn & a & Ea).
    destruct (object_eoj n o Nn (nth_error_In _ _ Go)) as (e & He & Ee & Hp).
    pose proof (nth_error_map (fun p => (p_code p, uecho_property_isreadrequired p)) k (o_props o)) as Eq.
    destruct (nth_error (o_props o) k) as [q|] eqn:Gq; cbn [option_map] in Eq.
    + destruct (uecho_property_isreadrequired q) eqn:Rq.
      * assert (Pq : p_parent q = true).
        { pose proof V as (_ & _ & _ & O). unfold cowned in O. rewrite Forall_forall in O. specialize (O _ (nth_error_In _ _ En)).
          unfold nowned in O. rewrite Forall_forall in O. specialize (O _ (nth_error_In _ _ Go)). unfold oowned in O. rewrite Forall_forall in O.
          exact (O _ (nth_error_In _ _ Gq) Rq). }
        rewrite Pq, Ee.
        destruct (post_quiet le net snet up c n a e (p_code q) w V Ea He (Hp _ (nth_error_In _ _ Gq)) A Q) as (c2 & t & r & Ep & V2 & S2 & Fk & K).
        rewrite Ep. cbn [bind].
        assert (M : exists ds, values_of r = Ok ds /\ printed w t ds).
        { destruct r as [m|].
          - destruct K as (f & Af & Ff). assert (Hf : frame_ok f) by (destruct Af as (x & rest & _ & _ & Hf & _); exact Hf).
            eexists. split; [apply (values_ok m f Hf Ff)|]. exists f. auto.
          - exists None. split; [reflexivity|exact K]. }
        destruct M as (ds & Eds & Pds). rewrite Eds. cbn [bind].
        split; [|intros _; eexists; reflexivity]. intros r' E. injection E as <-. split; [exact V2|]. split; [exact S2|].
        split; [eexists _, _; split; [exact Ed|exact Eo0]|]. split.
        { right. cbn [left_to_do]. rewrite Ed. cbn [snd]. rewrite Eo0. cbn [osum snd]. rewrite (skipn_some _ _ _ _ Eq). reflexivity. }
        exists [IValue (Some a) j k (eoj_code e) (p_code q)]. split.
        { cbn [plan]. rewrite Ed. cbn [fst snd]. rewrite Eo0. cbn [osum fst snd]. rewrite (skipn_some _ _ _ _ Eq), Ee, Ea. reflexivity. }
        apply one_value; assumption.
      * rewrite Ew. cbn [bind fst]. split; [|intros _; eexists; reflexivity]. intros r' E. injection E as <-. split; [exact V1|]. split; [exact S1|].
        split; [eexists _, _; split; [exact Ed|exact Eo0]|]. split.
        { right. cbn [left_to_do]. rewrite Ed. cbn [snd]. rewrite Eo0. cbn [osum snd]. rewrite (skipn_some _ _ _ _ Eq). reflexivity. }
        exists []. split.
        { cbn [plan]. rewrite Ed. cbn [fst snd]. rewrite Eo0. cbn [osum fst snd]. rewrite (skipn_some _ _ _ _ Eq). reflexivity. }
        apply one_skip.
    + rewrite Ew. cbn [bind fst]. split; [|intros _; eexists; reflexivity]. intros r' E. injection E as <-. split; [exact V1|]. split; [exact S1|].
      split; [eexists; exact Ed|]. split.
      * right. cbn [left_to_do]. rewrite Ed. cbn [snd]. rewrite Eo0. cbn [osum snd]. rewrite (skipn_none _ _ _ Eq). reflexivity.
      * exists []. split.
        { cbn [plan]. rewrite Ed. cbn [fst snd]. rewrite Eo0. cbn [osum fst snd]. rewrite (skipn_none _ _ _ Eq). reflexivity. }
        apply one_skip.
  - rewrite Ew. cbn [bind fst]. split; [|intros _; eexists; reflexivity]. intros r E. injection E as <-. split; [exact V1|]. split; [exact S1|]. split; [exact I|].
    split; [left; split; reflexivity|]. exists []. split; [reflexivity|]. apply one_skip.
Qed.

Lemma run_ok : forall ws c p c' p' s t, vinv c -> valid (seen c) p -> Forall (Forall arrival_ok) ws -> Forall (Forall (quiet (seen c))) ws ->
  vrun c p ws = Ok (c', p', s, t) ->
  vinv c' /\ seen c' = seen c /\ valid (seen c) p'
  /\ (exists dn, plan (seen c) p = dn ++ plan (seen c) p' /\ did ws dn s t)
  /\ left_to_do (seen c) p' = (left_to_do (seen c) p - length ws)%nat.
Proof.
  induction ws as [|w ws IH]; intros c p c' p' s t V Vp A Q E; cbn [M_Verbose.vrun] in E.
  - injection E as <- <- <- <-. split; [exact V|]. split; [reflexivity|]. split; [exact Vp|]. split; [exists []; split; [reflexivity|constructor]|cbn [length]; lia].
  - inversion A as [|? ? A1 A2]; subst. inversion Q as [|? ? Q1 Q2]; subst. apply bind_ok in E. destruct E as ([[[c1 p1] s1] t1] & E1 & E).
    apply bind_ok in E. destruct E as ([[[c2 p2] s2] t2] & E2 & E). injection E as <- <- <- <-.
    destruct (step_ok c p w V Vp A1 Q1) as [K _]. destruct (K _ E1) as (V1 & S1 & Vp1 & N1 & dn & P1 & D1).
    destruct (IH _ _ _ _ _ _ V1 ltac:(rewrite S1; exact Vp1) A2 ltac:(rewrite S1; exact Q2) E2) as (V2 & S2 & Vp2 & (dn2 & P2 & D2) & L2).
    rewrite S1 in *. split; [exact V2|]. split; [exact S2|]. split; [exact Vp2|]. split.
    + exists (dn ++ dn2). split; [rewrite P1, P2, app_assoc; reflexivity|]. apply (one_did _ _ _ _ D1). exact D2.
    + rewrite L2. cbn [length]. destruct N1 as [[-> ->]|N1]; [reflexivity|lia].
Qed.

(* ---- from the start ---- *)
Lemma vinv_receive : forall c x out, vinv c -> arrival_ok x -> cstep le net snet std_db c (arrives x) = Ok out -> vinv (co_ctrl out).
Proof.
  intros c x out (A & W & P & O) Hx E0.
  destruct (watch_step le net snet c (arrives x) W ltac:(destruct Hx as (X1 & X2 & X3 & X4); cbn; auto)) as (Ok1 & out' & E & W').
  rewrite E0 in E. injection E as <-.
  pose proof (capi_step le net snet std_db c _ out A (winv_mem _ W) (winv_mem _ W') Ok1 E0) as A'.
  cbn [arrives cstep] in E0. apply bind_ok in E0. destruct E0 as ([o y] & E & Eo). injection Eo as <-. cbn [co_ctrl] in *.
  pose proof W as (Hc & _ & _ & _). pose proof (winv_mem _ W) as M. destruct Hx as (Hb & Hfr & _).
  split; [exact A'|]. split; [exact W'|].
  assert (O' : cowned (cr_ctrl y)) by (eapply owned_ctrl_receive; [exact Hc|apply M|exact Hb|exact Hfr|exact E|exact O]). split; [|exact O'].
  pose proof E as E0. apply ctrl_receive_spec in E; [|exact Hc|apply M|exact Hb|exact Hfr].
  destruct (dec_frame (ar_data x)) as [[f rest]|] eqn:D.
  - destruct E as (x1 & y' & E & Hf & Ed & R & _ & L). injection E as -> ->.
    assert (H : hears le net snet std_db (ar_dec x) (ar_fr x) c f rest (ar_local x) (ar_from x) x1 y').
    { split; [exact A|]. split; [exact Hf|]. rewrite <- Ed. split; [exact Hb|]. split; [exact Hfr|exact E0]. }
    destruct (hears_spec _ _ _ _ std_db_ok _ _ _ _ _ _ _ _ _ H) as (_ & _ & _ & N1 & Eo & Ec & Hh & Hc').
    rewrite Ec. unfold has_object in *. intros X. apply P. apply Eo. exact X.
  - injection E as -> ->. exact P.
Qed.
Lemma vinv_receives : forall arr c c', vinv c -> Forall arrival_ok arr -> crun le net snet std_db c (map arrives arr) c' -> vinv c'.
Proof.
  induction arr as [|x arr IH]; intros c c' V F R; cbn [map] in R; inversion R as [|? ? out ? ? X _ E R1]; subst; [exact V|].
  inversion F; subst. eapply IH; [|eassumption|exact R1]. eapply vinv_receive; [exact V|eassumption|exact E].
Qed.

Lemma search_vinv : forall c0 arr c, new_ctrl le net std_db c0 -> Forall arrival_ok arr ->
  crun le net snet std_db c0 (uechosearch_calls arr) c -> vinv c.
Proof.
  intros c0 arr c H0 F R. unfold uechosearch_calls in R. pose proof (winv_new _ _ _ H0) as W0.
  assert (A0 : api_ctrl le net snet std_db c0) by (exists c0, []; split; [exact H0|constructor; exact (winv_mem _ W0)]).
  destruct (new_ctrl_ok le net std_db std_db_ok c0 H0) as (Hc0 & N0 & Nw).
  destruct (new_node_ok _ _ _ _ std_db_ok Nw) as (Nn & Nx).
  inversion R as [|? ? o1 ? ? X1 _ E1 R1]; subst. assert (M1 : cmem_ok (co_ctrl o1)) by (inversion R1; assumption).
  pose proof (capi_step _ _ _ _ _ _ _ A0 (winv_mem _ W0) M1 X1 E1) as A1.
  destruct (watch_step le net snet c0 (CStart true) W0 I) as (_ & o1' & E1' & W1). rewrite E1 in E1'. injection E1' as <-.
  inversion R1 as [|? ? o2 ? ? X2 _ E2 R2]; subst. assert (M2 : cmem_ok (co_ctrl o2)) by (inversion R2; assumption).
  pose proof (capi_step _ _ _ _ _ _ _ A1 M1 M2 X2 E2) as A2.
  destruct (watch_step le net snet (co_ctrl o1) CSearch W1 I) as (_ & o2' & E2' & W2). rewrite E2 in E2'. injection E2' as <-.
  assert (P0 : has_object (c_node c0) 978945).
  { destruct (new_eojs le net std_db std_db_ok _ Nw) as (Ej & _). unfold has_object, uecho_node_getobjectbycode. unfold eojs in Ej.
    destruct (n_objs (c_node c0)) as [|o os]; [discriminate|]. cbn [map] in Ej. injection Ej as Ea Eb Ec _. cbn [uecho_objectlist_getbycode].
    unfold uecho_object_getcode. rewrite Ea, Eb, Ec. discriminate. }
  assert (P1 : has_object (c_node (co_ctrl o1)) 978945 /\ c_nodes (co_ctrl o1) = []).
  { cbn [cstep] in E1. apply bind_ok in E1. destruct E1 as ([[c1 ps] b] & E1 & Q). injection Q as <-. unfold uecho_controller_start, uecho_node_start in E1.
    apply bind_ok in E1. destruct E1 as ([[n ps1] b1] & E1 & Q). apply bind_ok in E1. destruct E1 as ([[n2 ps2] b2] & E1 & Q2). injection Q2 as <- <- <-. injection Q as <- _ _.
    destruct (node_announce_ninv le std_db std_db_ok _ _ _ _ _ Nn (proj1 (winv_mem _ W0)) E1) as [_ On]. cbn [co_ctrl]. split; [|reflexivity].
    unfold has_object, uecho_node_getobjectbycode in *. cbn. rewrite On. exact P0. }
  assert (P2 : has_object (c_node (co_ctrl o2)) 978945 /\ c_nodes (co_ctrl o2) = []).
  { cbn [cstep] in E2. apply bind_ok in E2. destruct E2 as (s & E2 & Q). injection Q as <-. destruct P1 as [P1 N1].
    destruct (C42_search le net snet _ A1 P1) as (s' & E & _ & _ & Sn & _). rewrite E2 in E. injection E as <-. cbn [co_ctrl c_with_node c_node c_nodes].
    split; [rewrite Sn; exact P1|exact N1]. }
  eapply vinv_receives; [|exact F|exact R2]. destruct P2 as [P2 N2].
  split; [exact A2|]. split; [exact W2|]. split; [exact P2|]. unfold cowned. rewrite N2. constructor.
Qed.
End R.
