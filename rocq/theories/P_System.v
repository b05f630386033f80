(* The values a controller holds for a device: lemmas. *)
From Coq Require Import String ZArith List Bool Lia ZifyBool ZifyNat.
From Verif Require Import CSem M_Const M_Misc M_Property M_Message M_PropertyList M_Object StdDB_Data M_Std M_Node M_NodeListener
  M_Controller Spec_Frame Spec_Message Spec_Object Spec_Std Spec_Node Spec_Request Spec_Controller Spec_Map
  Run_Object Run_Node Run_Controller Run_System P_Base P_Misc P_Message P_Encode P_MsgApi P_Map P_PropertyList P_Object P_ObjectRun
  P_ObjectReach P_Std Properties_Object P_Node P_Request P_NodeReach P_NodeProfile P_NodeInv P_NodeRun P_NodeProps
  P_RequestProps P_RequestApi P_NodeSafe P_Shadow P_Controller P_ControllerProps.
Import ListNotations.
Open Scope Z_scope.
Ltac Zify.zify_post_hook ::= Z.div_mod_to_equations.

Lemma short_mem : forall n, short n -> mem_ok n.
Proof.
  intros n H. unfold mem_ok. eapply Forall_impl; [|exact H]. intros o Ho. cbv beta in *.
  eapply Forall_impl; [|exact Ho]. intros p Hp. cbv beta in *. lia.
Qed.

Lemma getbycode_in : forall l c o, uecho_objectlist_getbycode l c = Some o -> In o l /\ uecho_object_getcode o = c.
Proof.
  induction l as [|x l IH]; intros c o H; cbn [uecho_objectlist_getbycode] in H; [discriminate|].
  destruct (Z.eqb_spec (uecho_object_getcode x) c) as [E|E].
  - injection H as <-. split; [left; reflexivity|exact E].
  - destruct (IH _ _ H) as [A B]. split; [right; exact A|exact B].
Qed.

Lemma find_in : forall l c p, find l c = Some p -> In p l.
Proof.
  induction l as [|x l IH]; intros c p H; cbn [uecho_propertylist_findbycode] in H; [discriminate|].
  match type of H with (if ?b then _ else _) = _ => destruct b end; [injection H as <-; left; reflexivity|right; eauto].
Qed.

Lemma short_data_ok : forall n oc c d, short n -> node_data n oc c = Some d -> len d <= 255.
Proof.
  intros n oc c d H E. unfold node_data in E. destruct (uecho_node_getobjectbycode n oc) as [o|] eqn:G; [|discriminate].
  apply getbycode_in in G. destruct G as [G _].
  destruct (uecho_object_getproperty o c) as [p|] eqn:P; [|discriminate]. injection E as <-.
  unfold short in H. rewrite Forall_forall in H. specialize (H _ G). cbv beta in H. rewrite Forall_forall in H. apply H.
  apply find_in with c. exact P.
Qed.

Lemma api_step : forall le net db n x n' own ans, api_node le net db n -> mem_ok n -> mem_ok n' -> nop_ok le db x ->
  nstep le net db n x = Ok (n', own, ans) -> api_node le net db n'.
Proof.
  intros le net db n x n' own ans (n0 & h & ow & an & Hn & R) M M' Hx E.
  exists n0, (h ++ [x]). 
  assert (A : exists ow' an', nrun le net db n0 (h ++ [x]) n' ow' an').
  { clear Hn. induction R as [n Hm|n y n1 p1 a1 h n2 own2 ans2 Hy Hm Ey R IH].
    - eexists _, _. cbn [app]. econstructor; [exact Hx|exact M|exact E|]. constructor. exact M'.
    - destruct (IH M E) as (o' & a' & R'). eexists _, _. cbn [app]. econstructor; [exact Hy|exact Hm|exact Ey|exact R']. }
  destruct A as (o' & a' & A). exists o', a'. split; assumption.
Qed.

(* ---- frames the device originates ---- *)
Lemma stamped_in : forall le t ps k t' p, stamped le t ps k t' -> In p ps ->
  exists h a b rest, post_bytes p = h ++ [a; b; 14; 240; 1] ++ rest /\ length h = 2%nat.
Proof.
  intros le t ps k t' p H. induction H as [|t q ps k t' C H IH|t ps k t' H IH]; intros I.
  - destruct I.
  - destruct I as [<-|I]; [|auto]. destruct C as (h & r & E & L). exists h. eexists _, _, r. split; [exact E|exact L].
  - auto.
Qed.

Lemma own_source : forall b h x y rest f r, b = h ++ [x; y; 14; 240; 1] ++ rest -> length h = 2%nat ->
  b = enc_frame f ++ r -> f_seoj f = node_profile_eoj.
Proof.
  intros b h x y rest f r E L E'. rewrite E in E'. clear E b.
  destruct h as [|h0 [|h1 [|? ?]]]; try discriminate. cbn [app] in E'.
  unfold enc_frame in E'. destruct (f_tid f) as [t0 t1]. destruct (f_seoj f) as [[s0 s1] s2]. cbn in E'.
  injection E' as _ _ _ _ <- <- <- _. reflexivity.
Qed.

(* ---- answers of the device ---- *)
Definition told_by (past : list node) (f : frame) : Prop :=
  update_esv (f_esv f) -> f_seoj f <> node_profile_eoj -> forall e, In e (reported f) ->
  snd e = [] \/ exists n, In n past /\ node_data n (eoj_code (f_seoj f)) (fst e) = Some (snd e).

Definition sound (past : list node) (b : list Z) : Prop :=
  forall f rest, frame_ok f -> b = enc_frame f ++ rest -> told_by past f.

Lemma sound_more : forall past past' b, incl past past' -> sound past b -> sound past' b.
Proof.
  intros past past' b I H f rest Hf E U S e He. destruct (H f rest Hf E U S e He) as [D|(n & A & B)]; [left; exact D|].
  right. exists n. split; [apply I; exact A|exact B].
Qed.

Lemma enc_inj : forall f g rest, frame_ok f -> frame_ok g -> enc_frame f = enc_frame g ++ rest -> f = g.
Proof.
  intros f g rest Hf Hg E. pose proof (enc_frame_bytes _ Hf) as B.
  assert (A : dec_frame (enc_frame f) = Some (f, [])) by (apply dec_frame_iff; [exact B|]; rewrite app_nil_r; auto).
  assert (A' : dec_frame (enc_frame f) = Some (g, rest)) by (apply dec_frame_iff; [exact B|]; auto).
  rewrite A in A'. injection A' as -> _. reflexivity.
Qed.

Lemma sound_frame : forall past f, frame_ok f -> told_by past f -> sound past (enc_frame f).
Proof. intros past f Hf T g rest Hg E. rewrite <- (enc_inj _ _ _ Hf Hg E). exact T. Qed.

Lemma sound_cut : forall past b k, sound past b -> sound past (firstn k b).
Proof.
  intros past b k H f rest Hf E. apply (H f (rest ++ skipn k b) Hf). rewrite app_assoc, <- E. symmetry. apply firstn_skipn.
Qed.

Lemma reply_in : forall e from b p, In p (reply_posts e from b) -> frame_bytes p = b.
Proof.
  intros e from b p. unfold reply_posts. destruct (e =? 115).
  - intros [<-|[]]. reflexivity.
  - destruct from; [|intros []]. intros [<-|[]]. reflexivity.
Qed.

Lemma answer_in : forall esv m ps vs e, In e (answer_all esv m ps vs) -> esv <> 97 ->
  snd e = [] \/ m (fst e) = Some (snd e).
Proof.
  intros esv m ps vs e H N. unfold answer_all in H. apply in_map_iff in H. destruct H as ([q v] & <- & _).
  unfold answer_pair. cbn [fst snd]. destruct v.
  - destruct (read_esv esv); [|left; reflexivity]. destruct (m (fst q)) as [d|] eqn:E; [right; reflexivity|left; reflexivity].
  - destruct (Z.eqb_spec esv 97); [contradiction|left; reflexivity].
Qed.

Lemma receive_sound : forall le net dec n data la ra r, api_node le net std_db n -> short n -> buffer data ->
  node_receive le net dec n data la ra = Ok r ->
  forall p, In p (r_answer r) -> sound [r_node r; n] (frame_bytes p).
Proof.
  intros le net dec n data la ra r Hn Sh Hb H p Hp. destruct (api_node_ok _ _ _ _ std_db_ok Hn) as [N M].
  destruct (dec_frame data) as [[f rest]|] eqn:E.
  2: { destruct (receive_ignored le net dec n data la ra N M Hb) as [t T]; [intros f rest X; congruence|].
       rewrite H in T. injection T as ->. destruct Hp. }
  assert (E' : dec_frame data = Some (f, rest)) by exact E.
  apply dec_frame_iff in E'; [|apply Hb]. destruct E' as [Hf E'].
  destruct (uecho_node_getobjectbycode n (dest f)) as [o|] eqn:G.
  2: { destruct (receive_ignored le net dec n data la ra N M Hb) as [t T]; [intros g rest' X|].
       - rewrite E in X. injection X as <- <-. right. exact G.
       - rewrite H in T. injection T as ->. destruct Hp. }
  destruct (uecho_esv_isrequest (f_esv f)) eqn:Q.
  2: { destruct (receive_ignored le net dec n data la ra N M Hb) as [t T]; [intros g rest' X|].
       - rewrite E in X. injection X as <- <-. left. rewrite <- request_isrequest. congruence.
       - rewrite H in T. injection T as ->. destruct Hp. }
  apply request_isrequest in Q.
  assert (R : receives le net dec n f rest la ra r).
  { subst data. repeat (split; [assumption|]). exact H. }
  assert (Hs : forall oc c d, node_data n oc c = Some d -> len d <= 255) by (intros; eapply short_data_ok; eauto).
  destruct (f_body f) as [ps|s g] eqn:B.
  - destruct (plain_answer _ _ _ _ _ _ _ _ _ _ _ R G Q B) as (segs & _ & F2 & _ & Hok & A); [intros; eapply Hs; eauto|].
    cbv zeta in *. set (vs := verdicts o ps segs) in *. rewrite A in Hp.
    destruct (answer_esv (f_esv f) (one vs =? len ps)) as [e|] eqn:Ea; [|destruct Hp].
    rewrite (reply_in _ _ _ _ Hp). 
    assert (Lv : length (answer_all (f_esv f) (node_data n (dest f)) ps vs) = length ps).
    { apply answer_all_len. eapply verdicts_len; eauto. }
    apply sound_frame.
    + change (frame_ok (reply f e (Plain (answer_all (f_esv f) (node_data n (dest f)) ps vs)))).
      eapply answer_frame_ok; [exact Hf|exact Ea|]. rewrite B. split; assumption.
    + intros U _ x Hx. cbn [f_esv f_seoj f_body reported] in *.
      assert (N97 : f_esv f <> 97).
      { intros X. rewrite X in Ea. destruct (one vs =? len ps); vm_compute in Ea; injection Ea as <-; unfold update_esv in U; lia. }
      destruct (answer_in _ _ _ _ _ Hx N97) as [D|D]; [left; exact D|]. right. exists n. split; [right; left; reflexivity|exact D].
  - assert (Q1 : f_esv f = 110).
    { apply isreq_two; [apply request_isrequest; exact Q|]. destruct Hf as (_ & _ & _ & _ & _ & Hbd). rewrite B in Hbd.
      apply (body_two _ _ Hbd). }
    destruct (setget_answer _ _ _ _ _ _ _ _ _ _ _ _ R G Q1 B) as (s1 & s2 & _ & _ & _ & _ & Fok & A); [intros; eapply Hs; eauto|].
    cbv zeta in *. rewrite A in Hp. rewrite (reply_in _ _ _ _ Hp). apply sound_frame; [exact Fok|].
    intros U _ x Hx. cbn [f_esv f_seoj f_body reported] in *.
    destruct (answer_in _ _ _ _ _ Hx) as [D|D]; [lia|left; exact D|]. right. exists (r_node r). split; [left; reflexivity|exact D].
Qed.

(* ---- the device's side of the system ---- *)
Definition dev_inv (dle : bool) (dnet : post -> bool) (s : system) : Prop :=
  api_node dle dnet std_db (sy_dev s) /\ short (sy_dev s) /\ In (sy_dev s) (sy_past s)
  /\ Forall (sound (sy_past s)) (sy_sent s).

Lemma frame_post : forall p, frame_bytes p = post_bytes p.
Proof. intros []; reflexivity. Qed.

Lemma dev_step : forall dle dnet n past sent c x n' own ans,
  dev_inv dle dnet (mkSystem n past sent c) ->
  nop_ok dle std_db x -> nstep dle dnet std_db n x = Ok (n', own, ans) -> short n' ->
  dev_inv dle dnet (mkSystem n' (n' :: past) (sent ++ map frame_bytes (own ++ ans)) c).
Proof.
  intros dle dnet n past sent c x n' own ans (A & Sh & I & F) Hx E Sh'. cbn [sy_dev sy_past sy_sent] in *.
  pose proof (short_mem _ Sh) as M. pose proof (short_mem _ Sh') as M'.
  destruct (api_node_ok _ _ _ _ std_db_ok A) as [N _].
  split; [eapply api_step; eauto|]. split; [exact Sh'|]. split; [left; reflexivity|]. cbn [sy_past sy_sent].
  apply Forall_app. split.
  - eapply Forall_impl; [|exact F]. intros b. apply sound_more. intros y Hy. right. exact Hy.
  - rewrite map_app. apply Forall_app. split.
    + destruct (nstep_ok dle dnet std_db n x n' own ans std_db_ok N M M' Hx E) as (_ & (k & St & _) & _).
      apply Forall_forall. intros b Hb. apply in_map_iff in Hb. destruct Hb as (p & <- & Hp). rewrite frame_post.
      destruct (stamped_in _ _ _ _ _ _ St Hp) as (h & u & v & r & E1 & L). intros f rest Hf E2 _ S.
      elim S. eapply own_source; eauto.
    + apply Forall_forall. intros b Hb. apply in_map_iff in Hb. destruct Hb as (p & <- & Hp).
      destruct x; cbn [nstep] in E;
        try (apply bind_ok in E; destruct E as (y & E0 & E); try destruct y as [[? ?] ?]; injection E as _ _ <-; destruct Hp; fail);
        try (injection E as _ _ <-; destruct Hp; fail).
      apply bind_ok in E. destruct E as (y & E0 & E). injection E as <- _ <-.
      apply sound_more with [r_node y; n]; [|eapply receive_sound; eauto].
      intros z [<-|[<-|[]]]; [left; reflexivity|right; exact I].
Qed.

(* ---- what the controller holds ---- *)
Section H.
(* what it held at the start *)
Variable old : Z -> Z -> option (list Z).

Definition held (past : list node) (n : node) : Prop :=
  forall oc epc d, oc <> 978945 -> ~ map_epc epc -> node_data n oc epc = Some d ->
  d = [] \/ old oc epc = Some d \/ exists m, In m past /\ node_data m oc epc = Some d.

Lemma setcode_empty : forall junk v o ann c d, junk_ok junk -> uecho_object_setcode std_db junk uecho_object_new v = Ok (o, ann) ->
  ~ map_epc c -> option_map p_data (uecho_object_getproperty (uecho_object_attach o) c) = Some d -> d = [].
Proof.
  intros junk v o ann c d Hj E Hc H. pose proof (C45_standard_properties_partial _ _ _ _ _ c (ao_new std_db) Hj E Hc) as V.
  change (uecho_object_getproperty (uecho_object_attach o) c) with (uecho_object_getproperty o c) in H.
  change (view uecho_object_new c) with (@None (Z * list Z)) in V. cbv beta iota in V.
  unfold view in V.
  destruct (Spec_Std.listed 0 0 c) as [[[g s] a]|].
  - destruct V as (p & G & D & _). rewrite G in H. cbn [option_map] in H. congruence.
  - destruct (Spec_Std.listed _ _ c) as [[[g s] a]|].
    + destruct V as (p & G & D & _). rewrite G in H. cbn [option_map] in H. congruence.
    + destruct (uecho_object_getproperty o c); [discriminate|discriminate].
Qed.

Lemma searched_held : forall past n n' l, held past n -> searched std_db n n' l -> held past n'.
Proof.
  intros past n n' l H S oc epc d Ho He E. unfold node_data in E.
  destruct (uecho_node_getobjectbycode n' oc) as [o'|] eqn:G'; [|discriminate].
  destruct (uecho_node_getobjectbycode n oc) as [o|] eqn:G.
  - rewrite (sr_objects _ _ _ _ S oc Ho) in G' by congruence. apply (H oc epc d Ho He). unfold node_data. rewrite G'. exact E.
  - destruct (sr_new _ _ _ _ S oc o' G G') as (junk & o0 & ann & Hj & C & ->). left. eapply setcode_empty; eauto.
Qed.

Lemma last_in : forall ps c d, last_data ps c = Some d -> In (c, d) ps.
Proof.
  induction ps as [|[x y] ps IH]; intros c d H; cbn [last_data fst snd] in H; [discriminate|].
  destruct (last_data ps c) eqn:E; [injection H as <-; right; auto|].
  destruct (Z.eqb_spec x c) as [->|]; [injection H as <-; left; reflexivity|discriminate].
Qed.

Lemma took_held : forall past f n n' o o', held past n -> told_by past f -> update_esv (f_esv f) -> eoj_ok (f_seoj f) ->
  uecho_node_getobjectbycode n (eoj_code (f_seoj f)) = Some o ->
  took n n' (eoj_code (f_seoj f)) o o' (overwrite (odata o) (reported f)) -> held past n'.
Proof.
  intros past f n n' o o' H T U Hs G K oc epc d Ho He E.
  assert (G' : uecho_node_getobjectbycode n' oc
     = if oc =? eoj_code (f_seoj f) then Some o' else uecho_node_getobjectbycode n oc).
  { rewrite (tk_node _ _ _ _ _ _ K). unfold uecho_node_getobjectbycode in *. cbn [n_objs n_with_objs n_with_tid].
    rewrite put_obj_get.
    - rewrite G. reflexivity.
    - rewrite (keeps_code _ _ (tk_keeps _ _ _ _ _ _ K)). apply getbycode_in in G. apply G. }
  unfold node_data in E. rewrite G' in E. destruct (Z.eqb_spec oc (eoj_code (f_seoj f))) as [->|Ne].
  - change (option_map p_data (uecho_object_getproperty o' epc)) with (odata o' epc) in E.
    rewrite (tk_data _ _ _ _ _ _ K epc He) in E. unfold overwrite in E.
    destruct (last_data (reported f) epc) as [d'|] eqn:L.
    + injection E as <-. apply last_in in L. apply (T U) in L; [destruct L as [L|L]; [left; exact L|right; right; exact L]|].
      intros X. apply Ho. rewrite X. reflexivity.
    + apply (H _ _ _ Ho He). unfold node_data. rewrite G. exact E.
  - apply (H oc epc d Ho He). exact E.
Qed.

Lemma new_held : forall le net past n a, new_node le net std_db n -> held past (uecho_node_setaddress a n).
Proof.
  intros le net past n a Hn oc epc d Ho He E. destruct (new_eojs le net std_db std_db_ok n Hn) as (A & _).
  unfold node_data in E. change (uecho_node_getobjectbycode (uecho_node_setaddress a n) oc) with (uecho_node_getobjectbycode n oc) in E.
  destruct (uecho_node_getobjectbycode n oc) as [o|] eqn:G; [|discriminate]. exfalso. apply getbycode_in in G. destruct G as [G C].
  apply Ho. rewrite <- C. assert (X : In (o_grp o, o_cls o, o_ins o) (eojs n)) by (unfold eojs; apply in_map_iff; eauto).
  rewrite A in X. destruct X as [X|[]]. unfold node_profile_eoj in X. injection X as X1 X2 X3.
  unfold uecho_object_getcode. rewrite <- X1, <- X2, <- X3. reflexivity.
Qed.

Section C.
Variable cle : bool.
Variable cnet csnet : post -> bool.
Variable home : string.

Definition holds (past : list node) (c : ctrl) : Prop :=
  forall n, node_byaddress (c_nodes c) (Some home) = Some n -> held past n.

Lemma heard_holds : forall past c f from l told, holds past c -> frame_ok f -> cinv c ->
  (from = Some home -> told_by past f) ->
  heard cle csnet std_db c f from l told -> forall n, node_byaddress l (Some home) = Some n -> held past n.
Proof.
  intros past c f from l told H Hf Ci T Hd n Hn. inversion Hd; subst.
  - auto.
  - (* new *)
    destruct (string_dec a home) as [->|Ne].
    + rewrite byaddress_app_new in Hn; [injection Hn as <-|rewrite (sr_addr _ _ _ _ H4); reflexivity|assumption].
      eapply searched_held; [|eassumption]. eapply new_held; eauto.
    + rewrite byaddress_app in Hn; [auto|]. rewrite (sr_addr _ _ _ _ H4). cbn. congruence.
  - rewrite put_node_get in Hn.
    + destruct (String.eqb_spec home a) as [<-|Ne]; [|auto]. rewrite H2 in Hn. injection Hn as <-.
      eapply searched_held; [|eassumption]. apply H. exact H2.
    + rewrite (sr_addr _ _ _ _ H3). apply byaddress_some in H2. apply H2.
  - auto.
  - rewrite put_node_get in Hn.
    + destruct (String.eqb_spec home a) as [<-|Ne]; [|auto]. rewrite H3 in Hn. injection Hn as <-.
      eapply took_held; [apply H; exact H3|apply T; reflexivity|eassumption|apply Hf|eassumption|eassumption].
    + rewrite (tk_node _ _ _ _ _ _ H6). apply byaddress_some in H3. apply H3.
Qed.

Lemma ctrl_step : forall past sent c x out, holds past c -> Forall (sound past) sent -> cinv c -> cmem_ok c -> cmem_ok (co_ctrl out) ->
  cop_ok cle std_db x -> genuine home sent x -> cstep cle cnet csnet std_db c x = Ok out -> holds past (co_ctrl out).
Proof.
  intros past sent c x out H F Ci M M' Hx Hg E. destruct x; cbn [cstep] in E.
  - apply bind_ok in E. destruct E as ([o y] & E0 & E). injection E as <-. cbn [co_ctrl]. destruct Hx as [Hb Hfr].
    pose proof (ctrl_receive_spec cle cnet csnet std_db dec fr c data local remote _ Ci (proj1 M) Hb Hfr E0) as R.
    destruct (dec_frame data) as [[f rest]|] eqn:D.
    2: { injection R as _ ->. exact H. }
    destruct R as (x & y' & R & Hf & Ed & R1 & R2 & R3). injection R as -> <-.
    assert (Nx : ninv (r_node x)).
    { destruct (receive_frame_ok cle cnet dec (c_node c) f _ x (proj1 Ci) Hf R1) as [[X _] _]. exact X. }
    pose proof (c_with_node_inv c _ Ci Nx) as Ci'.
    destruct (listener_spec cle csnet std_db std_db_ok fr _ f local remote y Ci' Hf Hfr R3) as (_ & _ & Hh).
    intros n Hn. eapply heard_holds; [|exact Hf|exact Ci'| |exact Hh|exact Hn]; [exact H|].
    intros Hm. cbn [genuine] in Hg. destruct (Hg Hm) as (b & k & Ib & Eb).
    rewrite Forall_forall in F. pose proof (sound_cut _ _ k (F _ Ib)) as Sc. rewrite <- Eb in Sc.
    apply (Sc f rest Hf Ed).
  - apply bind_ok in E. destruct E as ([[n ow] an] & E0 & E). injection E as <-. exact H.
  - cbn [genuine] in Hg.
    destruct (uecho_controller_getnodebyaddress c (Some a)) as [n|] eqn:G; [|injection E as <-; exact H].
    apply bind_ok in E. destruct E as ([[n' ow] an] & E0 & E). injection E as <-. cbn [co_ctrl].
    unfold uecho_controller_getnodebyaddress in G.
    assert (Sn : shadow n).
    { destruct Ci as (_ & X & _). rewrite Forall_forall in X. apply X. apply byaddress_some in G. apply G. }
    assert (Mn : mem_ok n).
    { destruct M as [_ X]. rewrite Forall_forall in X. apply X. apply byaddress_some in G. apply G. }
    assert (Ad : n_addr n = Some a) by (apply byaddress_some in G; apply G).
    assert (Mn' : mem_ok n').
    { destruct M' as [_ X]. cbn [co_ctrl c_with_nodes c_nodes] in X. rewrite Forall_forall in X. apply X. revert G. clear.
      generalize (c_nodes c). induction l as [|y l IH]; cbn [node_byaddress put_node]; [discriminate|].
      destruct (uecho_node_isaddress y (Some a)); [left; reflexivity|]. intros. right. auto. }
    destruct Hx as [Hx1 Hx2].
    destruct (shadow_step cle csnet std_db std_db_ok n x n' ow an Sn Mn Mn' Hx1 Hx2 E0) as [_ Ad'].
    intros m Hm. cbn [c_nodes c_with_nodes] in Hm. rewrite put_node_get in Hm by congruence.
    destruct (String.eqb_spec home a); [congruence|]. apply H. exact Hm.
  - apply bind_ok in E. destruct E as (s & E0 & E). injection E as <-. exact H.
  - apply bind_ok in E. destruct E as (s & E0 & E). injection E as <-. exact H.
  - injection E as <-. exact H.
  - injection E as <-. exact H.
  - injection E as <-. exact H.
  - injection E as <-. exact H.
  - apply bind_ok in E. destruct E as ([[c' ps] b] & E0 & E). injection E as <-. cbn [co_ctrl].
    unfold uecho_controller_start in E0. apply bind_ok in E0. destruct E0 as ([[n q] w] & _ & E0). injection E0 as <- _ _.
    intros n0 X. discriminate X.
  - apply bind_ok in E. destruct E as ([[c' ps] b] & E0 & E). injection E as <-. cbn [co_ctrl].
    unfold postmessage_begin in E0. apply bind_ok in E0. destruct E0 as (s & _ & E0). injection E0 as <- _ _. exact H.
  - injection E as <-. exact H.
  - injection E as <-. exact H.
Qed.
End C.
End H.
