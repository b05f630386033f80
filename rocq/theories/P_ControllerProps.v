(* Lemmas used by the controller properties. *)
From Coq Require Import String ZArith List Bool Lia ZifyBool ZifyNat.
From Verif Require Import CSem M_Const M_Misc M_Property M_Message M_PropertyList M_Object M_Std M_Node M_NodeListener
  M_Controller Spec_Frame Spec_Message Spec_Object Spec_Std Spec_Node Spec_Request Spec_Controller Spec_Map
  Run_Object Run_Node Run_Controller P_Base P_Misc P_Message P_Encode P_MsgApi P_Map P_PropertyList P_Object P_ObjectRun
  P_ObjectReach P_Std Properties_Object P_Node P_Request P_NodeReach P_NodeProfile P_NodeInv P_NodeRun P_NodeProps
  P_RequestProps P_RequestApi P_NodeSafe P_Shadow P_Controller.
Import ListNotations.
Open Scope Z_scope.
Ltac Zify.zify_post_hook ::= Z.div_mod_to_equations.

(* ---- lists of objects ---- *)
Lemma eoj_code_inj : forall e e', eoj_ok e -> eoj_ok e' -> eoj_code e = eoj_code e' -> e = e'.
Proof.
  intros [[a b] c] [[a' b'] c'] (A1 & A2 & A3) (B1 & B2 & B3) H. unfold byte_val in *. cbn [eoj_code] in H.
  assert (a = a' /\ b = b' /\ c = c') as (-> & -> & ->) by lia. reflexivity.
Qed.

Lemma existsb_eoj : forall e l, eoj_ok e -> Forall eoj_ok l -> existsb (eoj_eqb e) l = true <-> In e l.
Proof.
  intros e l He Hl. rewrite existsb_exists. split.
  - intros (x & I & E). unfold eoj_eqb in E. rewrite Forall_forall in Hl. apply Z.eqb_eq in E.
    apply eoj_code_inj in E; [subst x; exact I|exact He|apply Hl; exact I].
  - intros I. exists e. split; [exact I|]. unfold eoj_eqb. lia.
Qed.

Lemma learn_ok : forall l k, Forall eoj_ok k -> Forall eoj_ok l ->
  Forall eoj_ok (learn k l)
  /\ (forall e, In e (learn k l) <-> In e k \/ In e l)
  /\ ((forall e, In e l -> In e k) -> learn k l = k)
  /\ ((exists e, In e l /\ ~ In e k) -> length (learn k l) <> length k).
Proof.
  induction l as [|x l IH]; intros k Hk Hl.
  - cbn. split; [exact Hk|]. split; [tauto|]. split; [reflexivity|]. intros (e & [] & _).
  - inversion Hl as [|? ? L1 L2]; subst. rewrite learn_cons. unfold add_eoj. pose proof (existsb_eoj x k L1 Hk) as X.
    destruct (existsb (eoj_eqb x) k) eqn:E.
    + assert (I : In x k) by (apply X; reflexivity). destruct (IH k Hk L2) as (A & B & C & D). split; [exact A|].
      split; [intros e; rewrite B; cbn; intuition (subst; auto)|]. split; [intros H; apply C; intros e Ie; apply H; right; exact Ie|].
      intros (e & [<-|Ie] & Ne); [contradiction|]. apply D. exists e. auto.
    + assert (I : ~ In x k) by (rewrite <- X; discriminate).
      assert (Hk' : Forall eoj_ok (k ++ [x])) by (apply Forall_app; split; [exact Hk|constructor; [exact L1|constructor]]).
      destruct (IH _ Hk' L2) as (A & B & C & D). split; [exact A|].
      split; [intros e; rewrite B, in_app_iff; cbn; intuition|]. split; [intros H; exfalso; apply I, H; left; reflexivity|].
      intros _. pose proof (learn_len l (k ++ [x])) as L. rewrite app_length in L. cbn [length] in L. lia.
Qed.

Lemma triples_ok : forall n l, (length l <= n)%nat -> bytes_ok l -> Forall eoj_ok (triples l).
Proof.
  induction n as [|n IH]; intros l L H; [destruct l; [constructor|cbn [length] in L; lia]|].
  destruct l as [|a [|b [|c r]]]; cbn [triples]; try constructor.
  - inversion H as [|? ? A H1]; subst. inversion H1 as [|? ? B H2]; subst. inversion H2 as [|? ? C H3]; subst.
    apply is_byte_val in A, B, C. exact (conj A (conj B C)).
  - apply IH; [cbn [length] in L; lia|]. inversion H as [|? ? A H1]; subst. inversion H1 as [|? ? B H2]; subst. inversion H2; assumption.
Qed.

Lemma eojs_ok : forall n, ninv n -> Forall eoj_ok (eojs n).
Proof.
  intros n (_ & H & _). rewrite eojs_eq. apply Forall_forall. intros e I. apply in_map_iff in I. destruct I as (o & <- & I).
  rewrite Forall_forall in H. destruct (H o I) as (_ & (B1 & B2 & B3) & _).
  apply is_byte_val in B1, B2, B3. exact (conj B1 (conj B2 B3)).
Qed.

Lemma eojs_nodup : forall n, ninv n -> NoDup (eojs n).
Proof.
  intros n (_ & A & B & _).
  assert (E : map uecho_object_getcode (n_objs n) = map eoj_code (eojs n)).
  { unfold eojs. rewrite map_map. apply map_ext_in. intros o I. rewrite Forall_forall in A. apply A in I.
    destruct I as (_ & Hb & _). rewrite (getcode_eq _ Hb). reflexivity. }
  rewrite E in B. eapply NoDup_map_inv. exact B.
Qed.

Lemma eojs_get : forall n e, ninv n -> In e (eojs n) ->
  exists o, uecho_node_getobjectbycode n (eoj_code e) = Some o /\ (o_grp o, o_cls o, o_ins o) = e.
Proof.
  intros n e N I. pose proof (known_iff n e N) as K. pose proof (eojs_ok _ N) as Ho.
  assert (He : eoj_ok e) by (rewrite Forall_forall in Ho; apply Ho; exact I).
  rewrite (proj2 (existsb_eoj e (eojs n) He Ho) I) in K.
  destruct (uecho_node_getobjectbycode n (eoj_code e)) as [o|] eqn:G; [|discriminate]. exists o. split; [reflexivity|].
  destruct (ninv_get _ _ _ N G) as [(_ & Hb & _) Hc]. rewrite (getcode_eq _ Hb) in Hc.
  destruct Hb as (B1 & B2 & B3). apply is_byte_val in B1, B2, B3.
  apply eoj_code_inj; [exact (conj B1 (conj B2 B3))|exact He|exact Hc].
Qed.

(* receiving a frame keeps the objects a node has *)
Lemma receive_eojs : forall le net dec n f from r, ninv n -> frame_ok f ->
  receive_frame le net dec n f from = Ok r ->
  eojs (r_node r) = eojs n /\ n_addr (r_node r) = n_addr n
  /\ (forall c, uecho_node_getobjectbycode (r_node r) c = None <-> uecho_node_getobjectbycode n c = None).
Proof.
  intros le net dec n f from r Hn Hf H. unfold receive_frame in H.
  destruct (uecho_node_getobjectbycode n (eoj_code (f_deoj f))) as [o|] eqn:G.
  - destruct (uecho_esv_isrequest (f_esv f)); cbn [negb] in H; [|injection H as <-; cbn [r_node]; repeat split; auto].
    apply bind_ok in H. destruct H as ([[[[o1 anns] calls] b] all] & W & H).
    apply bind_ok in H. destruct H as ([n1 ps] & E & H). injection H as <-. cbn [r_node fst snd].
    destruct (ninv_get _ _ _ Hn G) as [Ho Hc].
    destruct (wbody_ok _ _ _ _ _ _ _ _ _ (proj1 Ho) (proj2 (proj2 (proj2 (proj2 (proj2 Hf))))) W) as (He & Ha & Sh).
    apply same_keeps in Sh. apply node_emit_shape in E. rewrite E.
    split; [|split; [reflexivity|]].
    + rewrite !eojs_eq. cbn [n_with_tid n_with_objs n_objs]. eapply eojs_put; [exact G|].
      destruct Sh as (K1 & K2 & K3 & _). unfold eoj_of. congruence.
    + intros c. unfold uecho_node_getobjectbycode. cbn [n_with_tid n_with_objs n_objs].
      rewrite put_obj_get by (rewrite (keeps_code _ _ Sh); exact Hc). unfold uecho_node_getobjectbycode in G. rewrite G.
      destruct (Z.eqb_spec c (eoj_code (f_deoj f))) as [->|]; [rewrite G; split; discriminate|tauto].
  - injection H as <-. cbn [r_node]. repeat split; auto.
Qed.

Lemma byaddress_app : forall l n b, n_addr n <> Some b -> node_byaddress (l ++ [n]) (Some b) = node_byaddress l (Some b).
Proof.
  intros l n b H. induction l as [|x l IH]; cbn [app node_byaddress].
  - assert (uecho_node_isaddress n (Some b) = false) as -> by (apply not_true_iff_false; rewrite isaddress_iff; exact H). reflexivity.
  - rewrite IH. reflexivity.
Qed.

Lemma byaddress_app_new : forall l n a, n_addr n = Some a -> node_byaddress l (Some a) = None -> node_byaddress (l ++ [n]) (Some a) = Some n.
Proof.
  intros l n a H. induction l as [|x l IH]; cbn [app node_byaddress]; intros B.
  - assert (uecho_node_isaddress n (Some a) = true) as -> by (apply isaddress_iff; exact H). reflexivity.
  - destruct (uecho_node_isaddress x (Some a)); [discriminate|]. apply IH. exact B.
Qed.

Section D.
Variable le : bool.
Variable net snet : post -> bool.
Variable db : list obj.
Hypothesis Hdb : db_ok db.

Lemma hears_spec : forall dec fr c f rest la a x y, hears le net snet db dec fr c f rest la a x y ->
  cinv c /\ cmem_ok c
  /\ node_receive le net dec (c_node c) (enc_frame f ++ rest) la (Some a) = Ok x
  /\ ninv (r_node x)
  /\ (forall code, uecho_node_getobjectbycode (r_node x) code = None <-> uecho_node_getobjectbycode (c_node c) code = None)
  /\ cr_ctrl y = c_with_nodes (c_nodes (cr_ctrl y)) (c_with_post (c_req c) (c_res (cr_ctrl y)) (c_with_node (r_node x) c))
  /\ heard le snet db (c_with_node (r_node x) c) f (Some a) (c_nodes (cr_ctrl y)) (cr_told y)
  /\ cinv (cr_ctrl y).
Proof.
  intros dec fr c f rest la a x y (Ha & Hf & Hb & Hfr & H). destruct (api_ctrl_ok _ _ _ _ Hdb _ Ha) as [Hc M].
  split; [exact Hc|]. split; [exact M|].
  apply ctrl_receive_spec in H; [|exact Hc|apply M|exact Hb|exact Hfr].
  rewrite dec_enc in H by (exact Hf || exact Hb). destruct H as (x' & y' & E & _ & _ & R & NR & L).
  apply (f_equal (fun z => match z with (Some u, v) => (u, v) | (None, v) => (x, v) end)) in E. cbv iota in E. injection E as <- <-.
  split; [exact NR|].
  pose proof Hc as (N & Sh & Nd & Hq & Hr).
  destruct (receive_eojs _ _ _ _ _ _ _ N Hf R) as (_ & _ & Eo).
  apply receive_frame_ok in R; [|exact N|exact Hf]. destruct R as [[N1 _] _].
  pose proof (c_with_node_inv c (r_node x) Hc N1) as Hc1.
  destruct (listener_spec le snet db Hdb _ _ _ _ _ _ Hc1 Hf Hfr L) as (E & Hr' & Hh).
  destruct (heard_ok le snet db Hdb _ _ _ _ _ Hc1 Hh) as [A B].
  split; [exact N1|]. split; [exact Eo|]. split; [exact E|]. split; [exact Hh|].
  unfold cinv, addresses. split; [rewrite E; exact N1|]. split; [exact A|]. split; [exact B|]. split; [rewrite E; exact Hq|exact Hr'].
Qed.

(* what the controller knows of the sender before the frame *)
Definition known_eojs (c : ctrl) (a : string) : list (Z * Z * Z) :=
  match uecho_controller_getnodebyaddress c (Some a) with Some n => eojs n | None => [node_profile_eoj] end.

Lemma search_effect : forall dec fr c f rest la a x y z r, hears le net snet db dec fr c f rest la a x y ->
  is_search_response f (z :: r) ->
  exists n', uecho_controller_getnodebyaddress (cr_ctrl y) (Some a) = Some n'
  /\ ninv n'
  /\ eojs n' = learn (known_eojs c a) (triples r)
  /\ (forall b, b <> a -> uecho_controller_getnodebyaddress (cr_ctrl y) (Some b) = uecho_controller_getnodebyaddress c (Some b))
  /\ match uecho_controller_getnodebyaddress c (Some a) with
     | None => addresses (cr_ctrl y) = addresses c ++ [Some a]
         /\ cr_told y = told0 c ++ (if c_nodelistener c then [ToldStatus (Some a) StAdded] else [])
         /\ describes n'
     | Some n => addresses (cr_ctrl y) = addresses c
         /\ cr_told y = told0 c ++ (if c_nodelistener c && negb (length (eojs n') =? length (eojs n))%nat
                                    then [ToldStatus (Some a) StUpdated] else [])
         /\ ninv n /\ searched db n n' (triples r)
     end.
Proof.
  intros dec fr c f rest la a x y z r H Hs. apply search_data_iff in Hs.
  destruct (hears_spec _ _ _ _ _ _ _ _ _ H) as (Hc & M & _ & N1 & _ & E & Hh & _).
  unfold uecho_controller_getnodebyaddress, known_eojs, addresses. pose proof Hc as (_ & Sh & _).
  inversion Hh as [I1 I2 El Et|z' r' a' n0 n' Sd Ef B Nn S El Et|z' r' a' n n' Sd Ef B S El Et
                  |a' n Sd Ef G B U El Et|a' n n' o o' u Sd Ef G B U Go T Hk1 Hk Hu El Et];
    rewrite Hs in *; try discriminate.
  - exfalso. apply (I1 _ z r a eq_refl eq_refl). reflexivity.
  - injection Sd as <- <-. injection Ef as <-. cbn [c_with_node c_nodes c_nodelistener] in *.
    unfold uecho_controller_getnodebyaddress. rewrite B.
    destruct (new_node_ok _ _ _ _ Hdb Nn) as (A1 & A2 & A3). destruct (new_eojs le snet db Hdb _ Nn) as (A4 & A5 & _ & _).
    pose proof S as [S1 S2 S3 S4 S5 S6 S7 S8 S9]. cbn [uecho_node_setaddress n_addr] in S4.
    exists n'. split; [apply byaddress_app_new; assumption|]. split; [exact S1|]. split.
    { rewrite S3. change (eojs (uecho_node_setaddress (Some a) n0)) with (eojs n0). rewrite A4. reflexivity. }
    split; [intros b Nb; apply byaddress_app; congruence|]. split; [rewrite map_app; cbn [map]; rewrite S4; reflexivity|].
    split; [reflexivity|].
    destruct (list_eq_dec (fun p q : Z * Z * Z => ltac:(repeat decide equality)) (eojs n') (eojs (uecho_node_setaddress (Some a) n0))) as [D|D].
    + rewrite (S8 D). exact A5.
    + apply S9. exact D.
  - injection Sd as <- <-. injection Ef as <-. cbn [c_with_node c_nodes c_nodelistener] in *.
    unfold uecho_controller_getnodebyaddress. rewrite B.
    assert (Sn : shadow n) by (rewrite Forall_forall in Sh; apply Sh; apply byaddress_some in B; apply B).
    pose proof (byaddress_some _ _ _ B) as [_ Ea].
    assert (Ea' : n_addr n' = Some a) by (rewrite (sr_addr _ _ _ _ S); exact Ea).
    exists n'. split; [rewrite put_node_get by exact Ea'; rewrite String.eqb_refl, B; reflexivity|].
    split; [apply S|]. split; [apply S|].
    split; [intros b Nb; rewrite put_node_get by exact Ea'; apply String.eqb_neq in Nb; rewrite Nb; reflexivity|].
    split; [apply put_node_addr; exact Ea'|]. split; [reflexivity|]. split; [apply Sn|exact S].
Qed.

(* any other frame *)
Definition no_search (f : frame) : Prop := forall z r, ~ is_search_response f (z :: r).

Lemma other_effect : forall dec fr c f rest la a x y, hears le net snet db dec fr c f rest la a x y -> no_search f ->
  addresses (cr_ctrl y) = addresses c /\ map eojs (c_nodes (cr_ctrl y)) = map eojs (c_nodes c)
  /\ (forall b, b <> a -> uecho_controller_getnodebyaddress (cr_ctrl y) (Some b) = uecho_controller_getnodebyaddress c (Some b)).
Proof.
  intros dec fr c f rest la a x y H Hs. destruct (hears_spec _ _ _ _ _ _ _ _ _ H) as (Hc & M & _ & N1 & _ & E & Hh & _).
  pose proof Hc as (_ & Sh & _). unfold addresses, uecho_controller_getnodebyaddress.
  inversion Hh as [I1 I2 El Et|z' r' a' n0 n' Sd Ef B Nn S El Et|z' r' a' n n' Sd Ef B S El Et
                  |a' n Sd Ef G B U El Et|a' n n' o o' u Sd Ef G B U Go T Hk1 Hk Hu El Et]; cbn [c_with_node c_nodes] in *.
  - auto.
  - apply search_data_iff in Sd. destruct (Hs _ _ Sd).
  - apply search_data_iff in Sd. destruct (Hs _ _ Sd).
  - auto.
  - assert (Sn : shadow n) by (rewrite Forall_forall in Sh; apply Sh; apply byaddress_some in B; apply B).
    destruct (took_shadow _ _ _ _ _ _ Sn Go T) as (_ & K2 & K3). pose proof (byaddress_some _ _ _ B) as [_ Ea].
    split; [apply put_node_addr; congruence|]. split; [eapply put_node_map; eauto|].
    intros b Nb. rewrite put_node_get by congruence. apply String.eqb_neq in Nb. rewrite Nb. reflexivity.
Qed.

Lemma told_isresponse : forall e, uecho_esv_isresponse e = told_esv e.
Proof.
  intros e. unfold uecho_esv_isresponse, uecho_esv_iswriteresponse, uecho_esv_isreadresponse, uecho_esv_isnotifyresponse,
    told_esv, ESV_Set_Res, ESV_Get_Res, ESV_INF, ESV_INFC_Res, ESV_SetGet_Res, ESV_SetI_SNA, ESV_Get_SNA, ESV_INF_SNA,
    ESV_SetGet_SNA. cbn [existsb]. lia.
Qed.

(* what the controller holds for a property of an object of the node at [a] *)
Definition value (c : ctrl) (a : string) (oc epc : Z) : option (list Z) :=
  match uecho_controller_getnodebyaddress c (Some a) with Some n => node_data n oc epc | None => None end.
(* it knows the object *)
Definition knows (c : ctrl) (a : string) (oc : Z) : Prop :=
  exists n, uecho_controller_getnodebyaddress c (Some a) = Some n /\ uecho_node_getobjectbycode n oc <> None.

Lemma unheard : forall dec fr c f rest la a x y, hears le net snet db dec fr c f rest la a x y -> no_search f ->
  ~ (update_esv (f_esv f) /\ knows c a (eoj_code (f_seoj f)) /\ uecho_node_getobjectbycode (c_node c) (eoj_code (f_deoj f)) <> None) ->
  c_nodes (cr_ctrl y) = c_nodes c.
Proof.
  intros dec fr c f rest la a x y H Hs Hn. destruct (hears_spec _ _ _ _ _ _ _ _ _ H) as (Hc & M & _ & N1 & Eo & E & Hh & _).
  inversion Hh as [I1 I2 El Et|z' r' a' n0 n' Sd Ef B Nn S El Et|z' r' a' n n' Sd Ef B S El Et
                  |a' n Sd Ef G B U El Et|a' n n' o o' u Sd Ef G B U Go T Hk1 Hk Hu El Et]; cbn [c_with_node c_nodes] in *.
  - reflexivity.
  - apply search_data_iff in Sd. destruct (Hs _ _ Sd).
  - apply search_data_iff in Sd. destruct (Hs _ _ Sd).
  - reflexivity.
  - destruct Hn. split; [exact U|]. split; [exists n; split; [exact B|congruence]|]. intros X. apply G. apply Eo. exact X.
Qed.

Lemma update_effect : forall dec fr c f rest la a x y, hears le net snet db dec fr c f rest la a x y ->
  (forall d, ~ is_search_response f d) ->
  update_esv (f_esv f) -> knows c a (eoj_code (f_seoj f)) -> uecho_node_getobjectbycode (c_node c) (eoj_code (f_deoj f)) <> None ->
  exists n n' o o' u,
    uecho_controller_getnodebyaddress c (Some a) = Some n /\ uecho_controller_getnodebyaddress (cr_ctrl y) (Some a) = Some n'
    /\ uecho_node_getobjectbycode n (eoj_code (f_seoj f)) = Some o /\ uecho_node_getobjectbycode n' (eoj_code (f_seoj f)) = Some o'
    /\ took n n' (eoj_code (f_seoj f)) o o' (overwrite (odata o) (reported f))
    /\ (forall e, In e (reported f) -> odata o' (fst e) <> None)
    /\ ((forall e, In e (reported f) -> odata o (fst e) <> None) ->
          (forall x, odata o' x = overwrite (odata o) (reported f) x) /\ same_shape o o')
    /\ ((forall e, In e (reported f) -> ~ map_epc (fst e)) \/ (forall e, In e (reported f) -> odata o (fst e) <> None) ->
          u = differs (odata o) (reported f))
    /\ cr_told y = told0 c ++ (if c_nodelistener c then
         (if f_esv f =? 115 then [ToldStatus (Some a) StAnnounced] else [])
         ++ (if told_esv (f_esv f) then [ToldStatus (Some a) StResponded] else [])
         ++ (if u then [ToldStatus (Some a) StUpdated] else []) else []).
Proof.
  intros dec fr c f rest la a x y H Hs Hu (n & B & Go) Hl.
  destruct (hears_spec _ _ _ _ _ _ _ _ _ H) as (Hc & M & _ & N1 & Eo & E & Hh & _).
  pose proof Hc as (_ & Sh & _). unfold uecho_controller_getnodebyaddress in *.
  assert (Nsd : forall d, search_data f = Some d -> False).
  { intros d Sd. apply search_data_iff in Sd. exact (Hs _ Sd). }
  inversion Hh as [I1 I2 El Et|z' r' a' n0 n' Sd Ef B1 Nn S El Et|z' r' a' n1 n' Sd Ef B1 S El Et
                  |a' n1 Sd Ef G B1 U El Et|a' n1 n' o o' u Sd Ef G B1 U Go1 T Hk1 Hk Hu1 El Et]; cbn [c_with_node c_nodes c_node] in *.
  - exfalso. destruct (search_data f) as [d|] eqn:Sd; [apply (Nsd d); reflexivity|]. destruct (I2 eq_refl) as [K|K]; [|congruence].
    apply Hl. apply Eo. exact K.
  - destruct (Nsd _ Sd).
  - destruct (Nsd _ Sd).
  - exfalso. destruct U as [U|U]; [tauto|]. congruence.
  - injection Ef as <-. assert (n1 = n) by congruence. subst n1.
    assert (Sn : shadow n) by (rewrite Forall_forall in Sh; apply Sh; apply byaddress_some in B; apply B).
    destruct (took_shadow _ _ _ _ _ _ Sn Go1 T) as (K1 & K2 & K3). pose proof (byaddress_some _ _ _ B) as [_ Ea].
    exists n, n', o, o', u. split; [exact B|].
    split; [rewrite put_node_get by congruence; rewrite String.eqb_refl, B; reflexivity|]. split; [exact Go1|].
    split.
    { rewrite (tk_node _ _ _ _ _ _ T). unfold uecho_node_getobjectbycode. cbn [n_with_tid n_with_objs n_objs].
      rewrite (put_obj_get (n_objs n) (eoj_code (f_seoj f)) o').
      - rewrite Z.eqb_refl. unfold uecho_node_getobjectbycode in Go1. rewrite Go1. reflexivity.
      - destruct (ninv_get _ _ _ (proj1 Sn) Go1) as [_ Hco]. rewrite (keeps_code _ _ (tk_keeps _ _ _ _ _ _ T)). exact Hco. }
    split; [exact T|]. split; [exact Hk1|]. split; [exact Hk|]. split; [exact Hu1|]. rewrite told_isresponse. reflexivity.
Qed.

(* ---- histories ---- *)
Definition added (l : list ctold) : list (option string) :=
  flat_map (fun t => match t with ToldStatus a StAdded => [a] | _ => [] end) l.
Lemma added_app : forall l l', added (l ++ l') = added l ++ added l'.
Proof. intros. unfold added. apply flat_map_app. Qed.
Lemma added_told0 : forall c, added (told0 c) = [].
Proof. intros c. unfold told0. destruct (c_msglistener c); reflexivity. Qed.

Definition no_start (x : cop) : Prop := match x with CStart _ => False | _ => True end.

Lemma step_added : forall c x out, cinv c -> cmem_ok c -> cmem_ok (co_ctrl out) -> cop_ok le db x -> no_start x ->
  cstep le net snet db c x = Ok out ->
  (addresses (co_ctrl out) = addresses c /\ added (co_told out) = [])
  \/ (exists a, addresses (co_ctrl out) = addresses c ++ [a] /\ ~ In a (addresses c)
               /\ added (co_told out) = if c_nodelistener c then [a] else []).
Proof.
  intros c x out Hc M M' Hx Ns H. pose proof Hc as (N & Sh & Nd & Hq & Hr).
  destruct x as [data la ra dec fr|x|a x| |code|p|p|b|b|up|d q r| |]; cbn [cstep cop_ok no_start] in *.
  - apply bind_ok in H. destruct H as ([o y] & E & H). injection H as <-. cbn [co_ctrl co_told] in *. destruct Hx as [Hb Hfr].
    apply ctrl_receive_spec in E; [|exact Hc|apply M|exact Hb|exact Hfr]. destruct (dec_frame data) as [[f rest]|].
    + destruct E as (r & y' & E & Hf & _ & R & _ & L). injection E as -> ->.
      apply receive_frame_ok in R; [|exact N|exact Hf]. destruct R as [[N1 _] _].
      pose proof (c_with_node_inv c (r_node r) Hc N1) as Hc1.
      destruct (listener_spec le snet db Hdb _ _ _ _ _ _ Hc1 Hf Hfr L) as (E & Hr' & Hh). unfold addresses.
      inversion Hh as [I1 I2 El Et|z' r' a' n0 n' Sd Ef B Nn S El Et|z' r' a' n n' Sd Ef B S El Et
                  |a' n Sd Ef G B U El Et|a' n n' o1 o' u Sd Ef G B U Go T Hk1 Hk Hu El Et]; cbn [c_with_node c_nodes c_nodelistener] in *.
      * left. split; [reflexivity|]. apply added_told0.
      * right. exists (Some a'). pose proof (sr_addr _ _ _ _ S) as Sa. cbn [uecho_node_setaddress n_addr] in Sa.
        rewrite Ef in B. apply byaddress_none in B.
        split; [rewrite map_app; cbn [map]; rewrite Sa; reflexivity|]. split; [exact B|].
        rewrite added_app, added_told0. destruct (c_nodelistener c); reflexivity.
      * left. rewrite Ef in *. split; [apply put_node_addr; rewrite (sr_addr _ _ _ _ S); apply byaddress_some in B; apply B|].
        rewrite added_app, added_told0. destruct (c_nodelistener c && _); reflexivity.
      * left. split; [reflexivity|]. rewrite added_app, added_told0.
        destruct (c_nodelistener c); [|reflexivity]. destruct (f_esv f =? 115), (uecho_esv_isresponse (f_esv f)); reflexivity.
      * left. rewrite Ef in *.
        assert (Sn : shadow n) by (rewrite Forall_forall in Sh; apply Sh; apply byaddress_some in B; apply B).
        destruct (took_shadow _ _ _ _ _ _ Sn Go T) as (_ & K2 & _). pose proof (byaddress_some _ _ _ B) as [_ Ea].
        split; [apply put_node_addr; congruence|]. rewrite added_app, added_told0.
        destruct (c_nodelistener c); [|reflexivity]. destruct (f_esv f =? 115), (uecho_esv_isresponse (f_esv f)), u; reflexivity.
    + injection E as -> ->. left. split; reflexivity.
  - apply bind_ok in H. destruct H as ([[n own] ans] & E & H). injection H as <-. left. split; reflexivity.
  - destruct (uecho_controller_getnodebyaddress c (Some a)) as [n|] eqn:B; [|injection H as <-; left; split; reflexivity].
    apply bind_ok in H. destruct H as ([[n' own] ans] & E & H). injection H as <-. cbn [co_ctrl co_told] in *. left.
    unfold uecho_controller_getnodebyaddress in B. pose proof (byaddress_some _ _ _ B) as [I Ea].
    destruct M as [M Ms]. destruct M' as [M' Ms'].
    assert (Sn : shadow n) by (rewrite Forall_forall in Sh; apply Sh; exact I).
    assert (Mn : mem_ok n) by (rewrite Forall_forall in Ms; apply Ms; exact I).
    assert (Mn' : mem_ok n').
    { cbn [c_nodes c_with_nodes] in Ms'. rewrite Forall_forall in Ms'. apply Ms'. clear -B. revert B.
      generalize (c_nodes c). induction l as [|y l IH]; cbn [node_byaddress put_node]; [discriminate|].
      destruct (uecho_node_isaddress y (Some a)); [left; reflexivity|]. intros B. right. apply IH. exact B. }
    destruct (shadow_step le snet db Hdb _ _ _ _ _ Sn Mn Mn' (proj1 Hx) (proj2 Hx) E) as [S1 S2].
    split; [|reflexivity]. unfold addresses. cbn [c_with_nodes c_nodes]. apply put_node_addr. congruence.
  - apply bind_ok in H. destruct H as (s & E & H). injection H as <-. left. split; reflexivity.
  - apply bind_ok in H. destruct H as (s & E & H). injection H as <-. left. split; reflexivity.
  - injection H as <-. left. split; reflexivity.
  - injection H as <-. left. split; reflexivity.
  - injection H as <-. left. split; reflexivity.
  - injection H as <-. left. split; reflexivity.
  - contradiction.
  - apply bind_ok in H. destruct H as ([[c' ps] b] & E & H). injection H as <-. cbn [co_ctrl co_told].
    unfold postmessage_begin in E. apply bind_ok in E. destruct E as (s & E & E1).
    apply (f_equal (fun x => match x with Ok y => fst (fst y) | _ => c end)) in E1. cbv iota in E1. cbn [fst] in E1. rewrite <- E1.
    left. split; reflexivity.
  - injection H as <-. left. split; reflexivity.
  - injection H as <-. left. split; reflexivity.
Qed.

Lemma trace_added : forall c h c' told, ctrace le net snet db c h c' told -> cinv c -> Forall no_start h ->
  NoDup (added told) /\ (forall a, In a (added told) -> ~ In a (addresses c)) /\ incl (added told) (addresses c')
  /\ exists l, addresses c' = addresses c ++ l.
Proof.
  intros c h c' told H. induction H as [c M|c x out h c' told Hx M S R IH]; intros Hc Hn.
  - split; [constructor|]. split; [intros a []|]. split; [intros a []|]. exists []. symmetry. apply app_nil_r.
  - inversion Hn as [|? ? N1 N2]; subst. assert (M' : cmem_ok (co_ctrl out)) by (inversion R; assumption).
    pose proof (cstep_ok le net snet db Hdb _ _ _ Hc M M' Hx S) as Hc'. destruct (IH Hc' N2) as (I1 & I2 & I3 & l & I4).
    rewrite added_app.
    destruct (step_added _ _ _ Hc M M' Hx N1 S) as [[E1 E2]|(a & E1 & E2 & E3)].
    + rewrite E2. cbn [app]. rewrite E1 in *. split; [exact I1|]. split; [exact I2|]. split; [exact I3|]. exists l. exact I4.
    + assert (Na : ~ In a (added told)) by (intros K; apply I2 in K; apply K; rewrite E1; apply in_or_app; right; left; reflexivity).
      assert (Old : forall b, In b (added told) -> ~ In b (addresses c))
        by (intros b K K1; apply (I2 b K); rewrite E1; apply in_or_app; left; exact K1).
      split; [|split; [|split]].
      * rewrite E3. destruct (c_nodelistener c); [constructor; assumption|exact I1].
      * intros b K. apply in_app_or in K. destruct K as [K|K]; [|apply Old; exact K].
        rewrite E3 in K. destruct (c_nodelistener c); [|destruct K]. destruct K as [<-|[]]. exact E2.
      * intros b K. apply in_app_or in K. destruct K as [K|K]; [|apply I3; exact K].
        rewrite E3 in K. destruct (c_nodelistener c); [|destruct K]. destruct K as [<-|[]].
        rewrite I4, E1. apply in_or_app. left. apply in_or_app. right. left. reflexivity.
      * exists ([a] ++ l). rewrite I4, E1, <- app_assoc. reflexivity.
Qed.
End D.
