(* C87: the example programs uechosearch and uechodump (examples/controller). *)
From Coq Require Import String Ascii ZArith List Bool Lia ZifyBool ZifyNat.
From Verif Require Import CSem M_Const M_Misc M_Property M_Message M_PropertyList M_Object M_Node M_NodeListener M_Controller M_Query M_PostTool M_ShowTool
  StdDB_Data M_Std Spec_Frame Spec_Message Spec_Map Spec_Object Spec_Node Spec_Request Spec_Controller Spec_PostTool Spec_ShowTool Run_Object Run_Node
  Run_Controller P_Base P_Misc P_Message P_Encode P_MsgApi P_PropertyList P_Object P_ObjectRun P_ObjectReach P_Std P_Node
  P_Request Properties_Object P_NodeReach P_NodeProfile P_NodeInv P_NodeRun P_NodeProps P_RequestProps P_RequestApi P_NodeSafe
  P_Shadow P_Controller P_ControllerProps Properties_Message Properties_Node Properties_Request Properties_Controller P_EndToEnd
  Properties_EndToEnd Properties_System Properties_Query Spec_CtrlBound Properties_CtrlBound P_ShowTool.
Import ListNotations.
Open Scope Z_scope.
Ltac Zify.zify_post_hook ::= Z.div_mod_to_equations.

(* ---- the list of devices ---- *)

(* the controller knows just what is in the table *)
Definition matches (c : ctrl) (tb : table) : Prop :=
  addresses c = map (fun x => Some (fst x)) tb
  /\ forall a es, In (a, es) tb -> exists n, uecho_controller_getnodebyaddress c (Some a) = Some n /\ eojs n = es.

Lemma byaddress_in : forall l n a, NoDup (map n_addr l) -> In n l -> n_addr n = Some a -> node_byaddress l (Some a) = Some n.
Proof.
  induction l as [|x l IH]; intros n a N I A; [destruct I|]. cbn [node_byaddress map] in *. inversion N as [|? ? N1 N2]; subst.
  destruct I as [->|I].
  - rewrite (proj2 (isaddress_iff n a) A). reflexivity.
  - destruct (uecho_node_isaddress x (Some a)) eqn:E; [|apply IH; assumption].
    apply isaddress_iff in E. exfalso. apply N1. rewrite E, <- A. apply in_map. exact I.
Qed.

Lemma matches_pairs : forall c tb, NoDup (addresses c) -> matches c tb ->
  Forall2 (fun n x => n_addr n = Some (fst x) /\ eojs n = snd x) (c_nodes c) tb.
Proof.
  intros c tb N [A G]. unfold addresses, uecho_controller_getnodebyaddress in *.
  assert (H : forall l tb', incl l (c_nodes c) -> incl tb' tb -> map n_addr l = map (fun x => Some (fst x)) tb' ->
    Forall2 (fun n x => n_addr n = Some (fst x) /\ eojs n = snd x) l tb').
  { induction l as [|n l IH]; intros [|[a es] tb'] I J E; try discriminate; constructor; cbn [map fst snd] in *.
    - injection E as E _. split; [exact E|]. destruct (G a es) as (n' & Gn & Ee); [apply J; left; reflexivity|].
      rewrite (byaddress_in _ n a N) in Gn; [congruence|apply I; left; reflexivity|exact E].
    - apply IH; [intros y Y; apply I; right; exact Y|intros y Y; apply J; right; exact Y|congruence]. }
  apply H; [intros y Y; exact Y|intros y Y; exact Y|exact A].
Qed.

Lemma few_eojs : forall l : list (Z * Z * Z), NoDup l -> Forall eoj_ok l -> Z.of_nat (length l) < 10 ^ 20.
Proof.
  intros l N F. set (all := list_prod (list_prod all_bytes all_bytes) all_bytes).
  assert (I : incl l all).
  { intros [[a b] c] H. rewrite Forall_forall in F. apply F in H. destruct H as (A & B & C).
    apply in_prod; [apply in_prod|]; apply all_bytes_in; unfold byte_val in *; unfold is_byte; lia. }
  apply NoDup_incl_length in I; [|exact N]. unfold all in I. rewrite !prod_length in I.
  assert (L : Z.of_nat (length all_bytes) = 256) by (unfold all_bytes; rewrite map_length, seq_length; reflexivity).
  apply Nat2Z.inj_le in I. rewrite !Nat2Z.inj_mul, L in I. change (256 * 256 * 256) with 16777216 in I. change (10 ^ 20) with 100000000000000000000. lia.
Qed.

Lemma prints : forall c tb, cinv c -> matches c tb -> exists t, print_founddevices c = Ok t /\ listing tb t.
Proof.
  intros c tb Hc M. pose proof Hc as (_ & Sh & Nd & _). pose proof (matches_pairs c tb Nd M) as F.
  assert (P : exists t, print_nodes (c_nodes c) = Ok t /\ listing tb t).
  { revert Sh. generalize dependent (c_nodes c). clear. intros l F Sh. induction F as [|n [a es] l tb [A E] F IH]; [exists []; split; [reflexivity|constructor]|].
    inversion Sh as [|? ? Hn Sh']; subst. destruct (IH Sh') as (u & Eu & Lu). cbn [fst snd] in *. subst es.
    cbn [print_nodes]. unfold print_node. rewrite A. cbn [bind]. rewrite Eu. cbn [bind]. eexists. split; [reflexivity|]. constructor; [|exact Lu].
    exists (print_objects (n_objs n) 0). cbn [fst snd]. split; [|unfold fmt_s15; rewrite <- !app_assoc; reflexivity].
    destruct Hn as (Ni & _). pose proof Ni as (_ & O & _).
    apply print_objects_items.
    - lia.
    - pose proof (few_eojs (eojs n) (eojs_nodup _ Ni) (eojs_ok _ Ni)) as X. unfold eojs in X. rewrite map_length in X. lia.
    - eapply Forall_impl; [|exact O]. intros o (_ & (B1 & B2 & B3) & _). unfold is_byte in *. unfold byte_val. lia.
    - intros o I. rewrite Forall_forall in O. apply O in I. destruct I as (_ & B & _). apply getcode_eq. exact B. }
  destruct P as (t & E & L). unfold print_founddevices. destruct (Z.ltb_spec 0 (len (c_nodes c))) as [Z0|Z0]; [eauto|].
  destruct (c_nodes c) eqn:X; [|unfold len in Z0; cbn [length] in Z0; lia]. cbn [print_nodes] in E. injection E as <-. eauto.
Qed.

Lemma note_addr : forall a l tb, map fst (note a l tb) = if existsb (fun x => String.eqb (fst x) a) tb then map fst tb else map fst tb ++ [a].
Proof.
  intros a l. induction tb as [|[b es] tb IH]; [reflexivity|]. cbn [note existsb map fst]. destruct (String.eqb b a); [reflexivity|].
  cbn [map fst orb]. rewrite IH. destruct (existsb _ tb); reflexivity.
Qed.

Lemma note_in : forall a l tb b es, NoDup (map fst tb) -> In (b, es) (note a l tb) ->
  (b <> a /\ In (b, es) tb) \/ (b = a /\ ((exists es0, In (a, es0) tb /\ es = learn es0 l) \/ (~ In a (map fst tb) /\ es = learn [node_profile_eoj] l))).
Proof.
  intros a l. induction tb as [|[b0 es0] tb IH]; intros b es N I; cbn [note map fst] in *.
  - destruct I as [I|[]]. injection I as <- <-. right. split; [reflexivity|]. right. split; [intros []|reflexivity].
  - inversion N as [|? ? N1 N2]; subst. destruct (String.eqb_spec b0 a) as [->|Ne].
    + destruct I as [I|I].
      * injection I as <- <-. right. split; [reflexivity|]. left. exists es0. split; [left; reflexivity|reflexivity].
      * left. split; [|right; exact I]. intros ->. apply N1. apply (in_map fst) in I. exact I.
    + destruct I as [I|I].
      * injection I as <- <-. left. split; [exact Ne|left; reflexivity].
      * destruct (IH b es N2 I) as [[H1 H2]|[-> [(es1 & H1 & H2)|[H1 H2]]]].
        -- left. split; [exact H1|right; exact H2].
        -- right. split; [reflexivity|]. left. exists es1. split; [right; exact H1|exact H2].
        -- right. split; [reflexivity|]. right. split; [|exact H2]. intros [->|X]; [apply Ne; reflexivity|apply H1; exact X].
Qed.

Lemma known_run : forall le net snet arr c c', api_ctrl le net snet std_db c -> crun le net snet std_db c (map arrives arr) c' ->
  forall tb, matches c tb -> exists tb', known_after tb (map (fun x => (ar_data x, ar_from x)) arr) tb' /\ matches c' tb'.
Proof.
  intros le net snet. induction arr as [|x arr IH]; intros c c' A R tb M.
  - inversion R; subst. exists tb. split; [constructor|exact M].
  - cbn [map] in R. inversion R as [|? ? out ? ? Hx Hm E R']; subst.
    assert (Mo : cmem_ok (co_ctrl out)) by (inversion R'; assumption).
    pose proof (capi_step _ _ _ _ _ _ _ A Hm Mo Hx E) as A'.
    destruct (api_ctrl_ok _ _ _ _ std_db_ok _ A) as [Hc _]. pose proof Hc as (_ & _ & Nd & _).
    unfold arrives in E, Hx. cbn [cstep cop_ok] in E, Hx. destruct Hx as [Hb Hfr]. apply bind_ok in E. destruct E as ([o y] & E & E1). injection E1 as <-.
    cbn [co_ctrl] in *. pose proof E as E0. apply (ctrl_receive_spec le net snet std_db) in E0; [|exact Hc|apply Hm|exact Hb|exact Hfr].
    cbn [map]. destruct (dec_frame (ar_data x)) as [[f rest]|] eqn:Ed.
    + destruct E0 as (x' & y' & Ey & Ff & Ef & _). injection Ey as -> ->.
      assert (Hh : hears le net snet std_db (ar_dec x) (ar_fr x) c f rest (ar_local x) (ar_from x) x' y').
      { split; [exact A|]. split; [exact Ff|]. rewrite <- Ef. split; [exact Hb|]. split; [exact Hfr|exact E]. }
      assert (D : (exists z l, is_search_response f (z :: l)) \/ no_search f).
      { unfold no_search, is_search_response, search_esv. destruct (f_body f) as [[|[epc [|z l]] [|]]|]; try (right; intros z' l' [_ X]; discriminate).
        destruct (Z.eq_dec epc 214) as [->|Ne]; [|right; intros z' l' [_ X]; injection X; intros; contradiction].
        destruct (Z.eq_dec (f_esv f) 114); [left; exists z, l; auto|]. destruct (Z.eq_dec (f_esv f) 115); [left; exists z, l; auto|].
        destruct (Z.eq_dec (f_esv f) 122); [left; exists z, l; auto|]. right. intros z' l' [X _]. tauto. }
      destruct D as [(z & l & Hs)|Hs].
      * destruct (search_effect le net snet std_db std_db_ok _ _ _ _ _ _ _ _ _ _ _ Hh Hs) as (n' & G & _ & Ee & Ho & Ea).
        assert (Nt : NoDup (map fst tb)).
        { destruct M as [M1 _]. rewrite M1 in Nd. rewrite <- (map_map fst Some) in Nd. apply NoDup_map_inv in Nd. exact Nd. }
        destruct (IH _ _ A' R' (note (ar_from x) (triples l) tb)) as (tb' & K & M').
        { destruct M as [M1 M2]. split.
          - rewrite <- (map_map fst Some), note_addr.
            assert (X : existsb (fun y => String.eqb (fst y) (ar_from x)) tb = true <-> In (ar_from x) (map fst tb)).
            { rewrite existsb_exists, in_map_iff. split; intros (y & Y1 & Y2); exists y; [apply String.eqb_eq in Y2; auto|]. split; [exact Y2|]. apply String.eqb_eq. exact Y1. }
            assert (Y : uecho_controller_getnodebyaddress c (Some (ar_from x)) = None <-> ~ In (ar_from x) (map fst tb)).
            { unfold uecho_controller_getnodebyaddress. rewrite byaddress_none. fold (addresses c). rewrite M1, <- (map_map fst Some).
              split; intros Q I; apply Q; [apply in_map; exact I|]. apply in_map_iff in I. destruct I as (s & Es & I). injection Es as ->. exact I. }
            destruct (uecho_controller_getnodebyaddress c (Some (ar_from x))) as [n|] eqn:Gc; destruct Ea as [Ea _]; rewrite Ea, M1, <- (map_map fst Some).
            + destruct (existsb _ tb) eqn:Ex; [reflexivity|]. exfalso. destruct (in_dec string_dec (ar_from x) (map fst tb)) as [I|I].
              * apply X in I. discriminate. * apply Y in I. discriminate.
            + destruct (existsb _ tb) eqn:Ex; [|rewrite map_app; reflexivity]. exfalso. apply (proj1 Y eq_refl). apply X. reflexivity.
          - intros b es I. destruct (note_in _ _ _ _ _ Nt I) as [[N1 N2]|[-> [(es0 & N1 & ->)|[N1 ->]]]].
            + rewrite Ho by exact N1. apply M2. exact N2.
            + exists n'. split; [exact G|]. rewrite Ee. destruct (M2 _ _ N1) as (n & Gn & <-). unfold known_eojs. rewrite Gn. reflexivity.
            + exists n'. split; [exact G|]. rewrite Ee. unfold known_eojs.
              destruct (uecho_controller_getnodebyaddress c (Some (ar_from x))) as [n|] eqn:Gc; [|reflexivity]. exfalso. apply N1.
              unfold uecho_controller_getnodebyaddress in Gc. apply byaddress_some in Gc. destruct Gc as [In0 Ad]. apply (in_map n_addr) in In0. rewrite Ad in In0.
              fold (addresses c) in In0. rewrite M1, <- (map_map fst Some) in In0. apply in_map_iff in In0. destruct In0 as (s & Es & In0). injection Es as ->. exact In0. }
        exists tb'. split; [|exact M']. rewrite Ef. eapply ka_list; [exact Ff|exact Hs|exact K].
      * destruct (other_effect le net snet std_db std_db_ok _ _ _ _ _ _ _ _ _ Hh Hs) as (O1 & O2 & O3).
        destruct (IH _ _ A' R' tb) as (tb' & K & M').
        { pose proof (matches_pairs c tb Nd M) as F. destruct (hears_spec le net snet std_db std_db_ok _ _ _ _ _ _ _ _ _ Hh) as (_ & _ & _ & _ & _ & _ & _ & Hc').
          split; [rewrite O1; apply M|]. intros a es I. unfold uecho_controller_getnodebyaddress.
          assert (F' : Forall2 (fun n x => n_addr n = Some (fst x) /\ eojs n = snd x) (c_nodes (cr_ctrl y')) tb).
          { unfold addresses in O1. clear - F O1 O2. revert O1 O2. generalize (c_nodes (cr_ctrl y')). induction F as [|n x l tb [F1 F2] F IH]; intros [|m k] O1 O2; try discriminate; constructor; cbn [map] in *.
            - injection O1 as O1 _. injection O2 as O2 _. split; congruence. - apply IH; congruence. }
          destruct Hc' as (_ & _ & Nd' & _). unfold addresses in Nd'. clear - F' I Nd'.
          assert (X : exists n, In n (c_nodes (cr_ctrl y')) /\ n_addr n = Some a /\ eojs n = es).
          { induction F' as [|n x l tb [F1 F2] F IH]; [destruct I|]. destruct I as [->|I].
            - exists n. split; [left; reflexivity|]. auto.
            - destruct IH as (m & M1 & M2); [inversion Nd'; assumption|exact I|]. exists m. split; [right; exact M1|exact M2]. }
          destruct X as (n & I1 & I2 & I3). exists n. split; [apply byaddress_in; assumption|exact I3]. }
        exists tb'. split; [|exact M']. apply ka_other; [|exact K]. intros f' rest' z l Ff' Ef' Hs'.
        assert (Q : dec_frame (ar_data x) = Some (f', rest')) by (apply dec_frame_iff; [apply Hb|auto]). rewrite Ed in Q. injection Q as <- <-. exact (Hs _ _ Hs').
    + injection E0 as -> ->. cbn [cr_ctrl] in *. destruct (IH _ _ A' R' tb M) as (tb' & K & M'). exists tb'. split; [|exact M'].
      apply ka_other; [|exact K]. intros f' rest' z l Ff' Ef' _.
      assert (Q : dec_frame (ar_data x) = Some (f', rest')) by (apply dec_frame_iff; [apply Hb|auto]). rewrite Ed in Q. discriminate.
Qed.

Lemma search_prints : forall le net snet c0 arr c, new_ctrl le net std_db c0 ->
  crun le net snet std_db c0 (uechosearch_calls arr) c ->
  exists tb t, known_after [] (map (fun x => (ar_data x, ar_from x)) arr) tb
  /\ print_founddevices c = Ok t /\ listing tb t.
Proof.
  intros le net snet c0 arr c H0 R. unfold uechosearch_calls in R.
  assert (M0 : cmem_ok c0) by (inversion R; assumption).
  assert (A0 : api_ctrl le net snet std_db c0) by (exists c0, []; split; [exact H0|constructor; exact M0]).
  inversion R as [|? ? o1 ? ? X1 _ E1 R1]; subst. assert (M1 : cmem_ok (co_ctrl o1)) by (inversion R1; assumption).
  pose proof (capi_step _ _ _ _ _ _ _ A0 M0 M1 X1 E1) as A1.
  inversion R1 as [|? ? o2 ? ? X2 _ E2 R2]; subst. assert (M2 : cmem_ok (co_ctrl o2)) by (inversion R2; assumption).
  pose proof (capi_step _ _ _ _ _ _ _ A1 M1 M2 X2 E2) as A2.
  assert (N : c_nodes (co_ctrl o2) = []).
  { cbn [cstep] in E1, E2. apply bind_ok in E1. destruct E1 as ([[c1 ps] b] & E1 & Q). injection Q as <-. unfold uecho_controller_start in E1.
    apply bind_ok in E1. destruct E1 as ([[n ps'] b'] & _ & Q). injection Q as <- _ _. apply bind_ok in E2. destruct E2 as (s & _ & Q). injection Q as <-. reflexivity. }
  destruct (known_run le net snet arr _ _ A2 R2 []) as (tb & K & M).
  { split; [unfold addresses; rewrite N; reflexivity|]. intros a es []. }
  assert (A : api_ctrl le net snet std_db c) by (exists c0, (uechosearch_calls arr); split; assumption).
  destruct (api_ctrl_ok _ _ _ _ std_db_ok _ A) as [Hc _]. destruct (prints c tb Hc M) as (t & E & L). exists tb, t. auto.
Qed.
Lemma arrives_watching : forall le x, arrival_ok x -> watching le (arrives x).
Proof. intros le x (B & F & G). exact (conj B (conj F G)). Qed.

(* uechosearch prints one line for each device it has heard of, in that order, with its address and all its objects:
   the node profile and those of its instance lists, each once.  Nothing else is printed.  Nothing that arrives leads to
   undefined behaviour. *)
Theorem C87_search : forall le net snet c0 arr, new_ctrl le net std_db c0 -> Forall arrival_ok arr ->
  exists c tb t, crun le net snet std_db c0 (uechosearch_calls arr) c
  /\ known_after [] (map (fun x => (ar_data x, ar_from x)) arr) tb
  /\ print_founddevices c = Ok t /\ listing tb t.
Proof.
  intros le net snet c0 arr H0 F.
  assert (W : Forall (watching le) (uechosearch_calls arr)).
  { constructor; [exact I|]. constructor; [exact I|]. apply Forall_forall. intros x J. apply in_map_iff in J. destruct J as (y & <- & J).
    apply arrives_watching. rewrite Forall_forall in F. apply F. exact J. }
  destruct (C88_watching le net snet c0 _ H0 W) as (c & R & _). destruct (search_prints le net snet c0 arr c H0 R) as (tb & t & Q1 & Q2 & Q3).
  exists c, tb, t. auto.
Qed.
Print Assumptions C87_search.

(* The list can be read back: it says which devices there are and which objects each has. *)
Theorem C87_unambiguous : forall tb t tb', listing tb t -> listing tb' t ->
  Forall (fun x => plain (fst x) /\ Forall eoj_ok (snd x)) tb -> Forall (fun x => plain (fst x) /\ Forall eoj_ok (snd x)) tb' -> tb = tb'.
Proof. intros tb t tb' L L' F F'. eapply listing_read; [exact L|exact L'|exact F|exact F'|reflexivity]. Qed.
Print Assumptions C87_unambiguous.

(* ---- frames ---- *)

Lemma print_codes_ok : forall m (ps qs : list (Z * list Z)), shows_props (uecho_message_getproperty m) (qs ++ ps) ->
  Forall (fun e => is_byte (fst e)) ps -> len (qs ++ ps) <= 255 ->
  exists cs, print_codes m (length ps) (len qs) = Ok (concat cs) /\ Forall2 (fun c h => number 16 2 h c) (map fst ps) cs.
Proof.
  intros m. induction ps as [|[c d] ps IH]; intros qs Sh Ok_ Ln; unfold epair in *.
  - exists []. split; [reflexivity|constructor].
  - inversion Ok_ as [|? ? K1 Ok']; subst. cbn [fst] in K1. cbn [length print_codes map fst].
    assert (Lq : len (qs ++ (c, d) :: ps) = len qs + (1 + len ps)) by (unfold len; rewrite app_length; cbn [length]; lia).
    pose proof (len_nonneg _ qs). pose proof (len_nonneg _ ps).
    assert (G := Sh (len qs) ltac:(unfold SIZE_MOD; lia)).
    replace (Z.to_nat (len qs)) with (length qs) in G by (unfold len; lia).
    rewrite nth_error_app2, Nat.sub_diag in G by lia. cbn [nth_error] in G. destruct G as (p & G & Gc & Gd). rewrite G. cbn [bind]. rewrite Gc.
    destruct (IH (qs ++ [(c, d)])) as (cs & E & F).
    { rewrite <- app_assoc. exact Sh. } { exact Ok'. } { rewrite <- app_assoc. exact Ln. }
    replace (len qs + 1) with (len (qs ++ [(c, d)])) by (rewrite len_app; reflexivity). rewrite E. cbn [bind].
    exists (fmt_X 2 c :: cs). split; [reflexivity|]. constructor; [|exact F]. apply fmt_X_number; [lia|]. unfold is_byte in K1. lia.
Qed.

Lemma setget_opc : forall le m f rest la ra ss gs, came le m f rest la ra -> (exists m0, uecho_message_parsepacket uecho_message_new (enc_frame f ++ rest) la ra = Ok (true, m0) /\ m0 = m) ->
  f_body f = SetGetBody ss gs -> uecho_message_getopc m = 0.
Proof.
  intros le m f rest la ra ss gs (F & B & _) (m0 & E & ->) Eb.
  pose proof (parse_spec uecho_message_new _ (proj1 (api_inv_holds le uecho_message_new (am_new le))) (proj1 B) (proj2 B)) as P.
  rewrite dec_enc in P by assumption. unfold uecho_message_parsepacket in E. rewrite P in E. cbn [bind negb] in E. injection E as <-.
  unfold msg_of_frame. rewrite Eb. destruct la, ra; reflexivity.
Qed.

(* the line for a message says what its datagram says *)
Lemma line_ok : forall le f rest la a, frame_ok f -> buffer (enc_frame f ++ rest) ->
  exists m t, uecho_message_parsepacket uecho_message_new (enc_frame f ++ rest) la (Some a) = Ok (true, m)
  /\ uecho_print_multicastmessages le m = Ok t /\ frame_line le a f t.
Proof.
  intros le f rest la a F B.
  destruct (C02_parse_iff_frame le uecho_message_new _ (am_new le) B) as [_ P]. destruct (P f rest F eq_refl) as (m' & P1 & P2).
  set (m := uecho_message_setsourceaddress (Some a) (uecho_message_setsourceaddress la m')).
  assert (E : uecho_message_parsepacket uecho_message_new (enc_frame f ++ rest) la (Some a) = Ok (true, m)).
  { unfold uecho_message_parsepacket. rewrite P1. reflexivity. }
  exists m. assert (C : came le m f rest la (Some a)) by (split; [exact F|]; split; [exact B|]; exists uecho_message_new; split; [constructor|exact E]).
  destruct (came_shows _ _ _ _ _ _ C) as (S1 & S2 & S3 & S4 & S5). destruct (came_from _ _ _ _ _ _ C) as (H1 & H2 & Hf & _).
  pose proof (shown_bytes f F) as Sb. pose proof F as (T1 & T2 & X1 & X2 & Es & Hb). clearbody m.
  assert (Q : exists cs, print_codes m (Z.to_nat (uecho_message_getopc m)) 0 = Ok (concat cs)
    /\ Forall2 (fun c h => number 16 2 h c) (shown_codes f) cs /\ uecho_message_getopc m = Z.of_nat (length (shown_codes f)) /\ (length (shown_codes f) <= 255)%nat).
  { unfold shown_codes in *. destruct (f_body f) as [ps|ss gs] eqn:Eb.
    - destruct S5 as [S5 S6]. destruct Hb as [_ [Hb Hl]]. rewrite S5, Nat2Z.id, map_length. unfold epair in *.
      destruct (print_codes_ok m ps [] S6) as (cs & Ec & Fc).
      + eapply Forall_impl; [|exact Hb]. intros x (X & _). unfold byte_val in X. unfold is_byte. lia.
      + cbn [app]. unfold len. unfold epair in *. lia.
      + exists cs. split; [exact Ec|]. split; [exact Fc|]. split; [reflexivity|lia].
    - rewrite (setget_opc _ _ _ _ _ _ _ _ C (ex_intro _ m (conj E eq_refl)) Eb). exists []. split; [reflexivity|]. split; [constructor|]. split; [reflexivity|cbn; lia]. }
  destruct Q as (cs & Ec & Fc & Eo & Lo).
  unfold uecho_print_multicastmessages. rewrite Hf, S2, S3, Ec. cbn [from_of bind]. eexists. split; [exact E|]. split; [reflexivity|].
  unfold uecho_message_getehd1, uecho_message_getehd2. rewrite H1, H2, S4, Eo.
  unfold byte_val in *.
  assert (Ti : uecho_message_gettid le m = tid_number le (f_tid f)).
  { rewrite gettid_bytes; rewrite S1; [reflexivity|unfold is_byte; lia..]. }
  rewrite Ti. exists (fmt_X 2 (tid_number le (f_tid f))), (fmt_X 3 (eoj_code (f_seoj f))), (fmt_X 3 (eoj_code (f_deoj f))), (fmt_X 2 (f_esv f)), (fmt_d (Z.of_nat (length (shown_codes f)))), cs.
  assert (Ej : forall e, eoj_ok e -> 0 <= eoj_code e < 4294967296) by (intros [[x y] z] (? & ? & ?); unfold byte_val, eoj_code in *; lia).
  split; [apply fmt_X_number; [lia|]; unfold tid_number; destruct le; lia|].
  split; [apply fmt_X_number; [lia|apply Ej; exact X1]|]. split; [apply fmt_X_number; [lia|apply Ej; exact X2]|].
  split; [apply fmt_X_number; lia|]. split; [apply fmt_d_number; change (10 ^ 20) with 100000000000000000000; lia|]. split; [exact Fc|]. reflexivity.
Qed.

Lemma told_once : forall le snet db fr c m y, uecho_controller_servermessagelistener le snet db fr c m = Ok y -> c_msglistener c = true ->
  (exists r, cr_told y = ToldMsg :: r /\ Forall (fun t => t <> ToldMsg) r) /\ c_msglistener (cr_ctrl y) = true.
Proof.
  intros le snet db fr c m y E L. unfold uecho_controller_servermessagelistener in E. rewrite L in E. cbv zeta in E.
  apply bind_ok in E. destruct E as ([c1 sg] & E1 & E). assert (L1 : c_msglistener c1 = true).
  { destruct (uecho_controller_ispostresponsewaiting c); [|injection E1 as <- _; exact L]. unfold uecho_controller_handlepostresponse in E1.
    apply bind_ok in E1. destruct E1 as (b & _ & E1). destruct (negb b); [injection E1 as <- _; exact L|].
    destruct (c_res c) as [|w|r]; [injection E1 as <- _; exact L|destruct w; [discriminate|injection E1 as <- _; exact L]|].
    apply bind_ok in E1. destruct E1 as (r' & _ & E1). injection E1 as <- _. exact L. }
  apply bind_ok in E. destruct E as (s & _ & E). destruct s.
  - apply bind_ok in E. destruct E as ([c2 t] & E2 & E). injection E as <-. cbn [cr_told cr_ctrl fst snd app].
    unfold uecho_controller_handlesearchmessage in E2. apply bind_ok in E2. destruct E2 as (o & _ & E2).
    assert (N : forall b a st, Forall (fun t => t <> ToldMsg) (if b : bool then [ToldStatus a st] else [])) by (intros [|] a st; [constructor; [discriminate|constructor]|constructor]).
    destruct o as [p|]; [|injection E2 as <- <-; eauto]. destruct (uecho_property_getdatasize p <? 1); [injection E2 as <- <-; eauto|].
    destruct (m_from m) as [a|]; [|injection E2 as <- <-; eauto]. destruct (uecho_controller_getnodebyaddress c1 (Some a)) as [n|].
    + apply bind_ok in E2. destruct E2 as ([n' u] & _ & E2). injection E2 as <- <-. split; [eexists; split; [reflexivity|apply N]|exact L1].
    + apply bind_ok in E2. destruct E2 as (x & _ & E2). cbv zeta in E2. apply bind_ok in E2. destruct E2 as ([n' u] & _ & E2). injection E2 as <- <-.
      split; [eexists; split; [reflexivity|apply N]|exact L1].
  - apply bind_ok in E. destruct E as (dc & _ & E). destruct (uecho_node_getobjectbycode (c_node c1) dc); [|injection E as <-; cbn [cr_told cr_ctrl]; eauto].
    destruct (uecho_controller_getnodebyaddress c1 (m_from m)) as [n|]; [|injection E as <-; cbn [cr_told cr_ctrl]; eauto].
    apply bind_ok in E. destruct E as ([c2 t] & E2 & E). injection E as <-. cbn [cr_told cr_ctrl fst snd app].
    unfold uecho_controller_handlenodemessage in E2. cbv zeta in E2. apply bind_ok in E2. destruct E2 as ([n' u] & _ & E2). injection E2 as <- <-.
    split; [|exact L1]. eexists. split; [reflexivity|]. destruct (c_nodelistener c1); [|constructor].
    repeat (apply Forall_app; split); match goal with |- Forall _ (if ?b then _ else _) => destruct b end; repeat constructor; discriminate.
Qed.

Lemma dump_told_once : forall le r m t, Forall (fun x => x <> ToldMsg) r -> uecho_print_multicastmessages le m = Ok t -> dump_told le (ToldMsg :: r) m = Ok [ShLine t].
Proof.
  intros le r m t F E. cbn [dump_told]. rewrite E. cbn [bind]. replace (dump_told le r m) with (@Ok (list shown) []); [reflexivity|].
  induction F as [|x r Nx F IH]; [reflexivity|]. cbn [dump_told]. destruct x; [contradiction|exact IH].
Qed.

Lemma dump_shows : forall le net snet es c c' s ps q, c_msglistener c = true -> Forall meets_ok es ->
  uechodump le net snet std_db c es = Ok (c', s, ps, q) -> dumped le es s q.
Proof.
  intros le net snet. induction es as [|[k|x] es IH]; intros c c' s ps q L F E; cbn [uechodump] in E.
  - injection E as _ <- _ <-. constructor.
  - inversion F as [|? ? _ F']; subst. apply bind_ok in E. destruct E as ([[c1 s1] p1] & E1 & E). unfold dump_key in E1.
    destruct (Z.eqb_spec k 113) as [->|Nq].
    { cbn in E1. injection E1 as <- <- <-. injection E as _ <- _ <-. constructor. }
    apply bind_ok in E. destruct E as ([[[c2 s2] p2] q2] & E2 & E). injection E as <- <- <- <-.
    destruct (Z.ltb_spec k 0) as [Kn|Kn].
    { injection E1 as <- <- <-. apply du_none; [exact Kn|]. eapply IH; eauto. }
    destruct ((k =? 115) || (k =? 83)) eqn:Ks.
    { apply bind_ok in E1. destruct E1 as (r & _ & E1). injection E1 as <- <- <-. apply du_search; [lia|]. eapply IH; [|exact F'|exact E2]. exact L. }
    injection E1 as <- <- <-. apply du_keys; [exact Kn|exact Nq|lia|lia|]. eapply IH; eauto.
  - inversion F as [|? ? B F']; subst. cbn [meets_ok] in B. destruct B as [B _]. apply bind_ok in E. destruct E as ([[c1 s1] p1] & E1 & E).
    apply bind_ok in E. destruct E as ([[[c2 s2] p2] q2] & E2 & E). injection E as <- <- <- <-.
    unfold dump_got in E1. apply bind_ok in E1. destruct E1 as ([o y] & Er & E1). apply bind_ok in E1. destruct E1 as ([ok m] & Ep & E1).
    apply bind_ok in E1. destruct E1 as (sh & Es & E1). cbn [fst snd] in *. injection E1 as <- <- <-.
    unfold ctrl_receive in Er. rewrite Ep in Er. cbn [bind] in Er.
    destruct (dec_frame (ar_data x)) as [[f rest]|] eqn:Ed.
    + apply dec_frame_iff in Ed; [|apply B]. destruct Ed as [Ff Ef]. rewrite Ef in B, Ep.
      destruct (line_ok le f rest (ar_local x) (ar_from x) Ff B) as (m' & t & P & Pt & Lt). rewrite P in Ep. injection Ep as <- <-.
      apply bind_ok in Er. destruct Er as (r & _ & Er). apply bind_ok in Er. destruct Er as (y' & Ey & Er). injection Er as <- <-.
      destruct (told_once _ _ _ _ _ _ _ Ey L) as [(tr & Et & Nt) L']. rewrite Et in Es. rewrite (dump_told_once _ _ _ _ Nt Pt) in Es. injection Es as <-.
      cbn [app]. eapply du_frame; [exact Ff|exact Ef|exact Lt|]. eapply IH; eauto.
    + assert (Ng : forall f rest, frame_ok f -> ar_data x <> enc_frame f ++ rest).
      { intros f rest Ff Ef. assert (Q : dec_frame (ar_data x) = Some (f, rest)) by (apply dec_frame_iff; [apply B|auto]). rewrite Ed in Q. discriminate. }
      assert (K : ok = false).
      { destruct ok; [|reflexivity]. exfalso. unfold uecho_message_parsepacket in Ep.
        pose proof (parse_spec uecho_message_new _ (proj1 (api_inv_holds le uecho_message_new (am_new le))) (proj1 B) (proj2 B)) as P. rewrite Ed in P.
        destruct P as (m0 & P & _). rewrite P in Ep. cbn [bind negb] in Ep. discriminate. }
      subst ok. injection Er as <- <-. cbn [cr_told cr_ctrl] in *. cbn [dump_told] in Es. injection Es as <-. cbn [app]. apply du_garbage; [exact Ng|]. eapply IH; eauto.
Qed.

Lemma dump_total : forall le net snet es c, winv c -> Forall meets_ok es -> exists c' s ps q, uechodump le net snet std_db c es = Ok (c', s, ps, q).
Proof.
  intros le net snet. induction es as [|e es IH]; intros c W F; [eexists _, _, _, _; reflexivity|]. inversion F as [|? ? Fe F']; subst. cbn [uechodump]. destruct e as [k|x].
  - assert (D : exists c1 s p, dump_key le net c k = Ok (c1, s, p) /\ winv c1).
    { unfold dump_key. destruct (k <? 0); [eauto 6|]. destruct ((k =? 115) || (k =? 83)); [|eauto 6].
      destruct (watch_step le net snet c CSearch W I) as (_ & out & E & W'). cbn [cstep] in E. apply bind_ok in E. destruct E as (s & E & E1). injection E1 as <-.
      rewrite E. cbn [bind]. eexists _, _, _. split; [reflexivity|exact W']. }
    destruct D as (c1 & s & p & -> & W1). cbn [bind]. destruct (k =? 113); [eauto 6|].
    destruct (IH c1 W1 F') as (c2 & s2 & p2 & q2 & ->). cbn [bind]. eauto 6.
  - cbn [meets_ok] in Fe. destruct (watch_step le net snet c (arrives x) W (arrives_watching le x Fe)) as (_ & out & E & W').
    unfold arrives in E. cbn [cstep] in E. apply bind_ok in E. destruct E as ([o y] & E & E1). injection E1 as <-. cbn [co_ctrl] in W'.
    unfold dump_got. rewrite E. cbn [bind fst snd].
    assert (P : exists ok m, uecho_message_parsepacket uecho_message_new (ar_data x) (ar_local x) (Some (ar_from x)) = Ok (ok, m)
              /\ exists s, dump_told le (cr_told y) m = Ok s).
    { destruct Fe as (B & _). unfold ctrl_receive in E.
      destruct (dec_frame (ar_data x)) as [[f rest]|] eqn:Ed.
      - apply dec_frame_iff in Ed; [|apply B]. destruct Ed as [Ff Ef]. rewrite Ef in B, E |- *.
        destruct (line_ok le f rest (ar_local x) (ar_from x) Ff B) as (m' & t & P & Pt & Lt). exists true, m'. split; [exact P|].
        generalize (cr_told y). intros l. induction l as [|[|a st] l IHl]; cbn [dump_told]; [eauto| |exact IHl].
        rewrite Pt. cbn [bind]. destruct IHl as (u & ->). cbn [bind]. eauto.
      - unfold uecho_message_parsepacket in *.
        pose proof (parse_spec uecho_message_new _ (proj1 (api_inv_holds le uecho_message_new (am_new le))) (proj1 B) (proj2 B)) as P. rewrite Ed in P.
        destruct P as (m0 & P & _). rewrite P in E |- *. cbn [bind negb] in E |- *. injection E as <- <-. cbn [cr_told dump_told]. eauto 6. }
    destruct P as (ok & m & -> & s & Es). cbn [bind snd]. rewrite Es. cbn [bind].
    destruct (IH _ W' F') as (c2 & s2 & p2 & q2 & ->). cbn [bind]. eauto 6.
Qed.

Lemma start_listens : forall le net snet c c', crun le net snet std_db c uechodump_calls c' -> c_msglistener c' = true.
Proof.
  intros le net snet c c' R. inversion R as [|? ? out ? ? _ _ E R1]; subst. cbn [cstep] in E. injection E as <-. cbn [co_ctrl] in R1.
  inversion R1 as [|? ? out1 ? ? _ _ E R2]; subst. inversion R2; subst. cbn [cstep] in E. apply bind_ok in E. destruct E as ([[c1 ps] b] & E & E1). injection E1 as <-.
  cbn [co_ctrl]. unfold uecho_controller_start, uecho_node_start in E. apply bind_ok in E. destruct E as ([[n ps1] b1] & _ & E1). injection E1 as <- _ _. reflexivity.
Qed.

(* uechodump shows every frame it receives, whatever else happens, on one line with its header, its objects, its service
   and the codes of its properties; for other datagrams it shows nothing.  Nothing that arrives leads to undefined
   behaviour. *)
Theorem C87_dump : forall le net snet c0, new_ctrl le net std_db c0 ->
  exists c, crun le net snet std_db c0 uechodump_calls c
  /\ forall es, Forall meets_ok es -> exists c' s ps q, uechodump le net snet std_db c es = Ok (c', s, ps, q) /\ dumped le es s q.
Proof.
  intros le net snet c0 H0. destruct (watch_run le net snet uechodump_calls c0 (winv_new _ _ _ H0)) as (c & R & W).
  { constructor; [exact I|]. constructor; [exact I|constructor]. }
  exists c. split; [exact R|]. intros es F. destruct (dump_total le net snet es c W F) as (c' & s & ps & q & E). exists c', s, ps, q. split; [exact E|].
  eapply dump_shows; [exact (start_listens _ _ _ _ _ R)|exact F|exact E].
Qed.
Print Assumptions C87_dump.

(* A line tells the sender, the transaction id, the objects, the service and the codes of the properties. *)
Theorem C87_dump_unambiguous : forall le a f a' f' t, frame_ok f -> frame_ok f' -> plain a -> plain a' ->
  frame_line le a f t -> frame_line le a' f' t ->
  a = a' /\ f_tid f = f_tid f' /\ f_seoj f = f_seoj f' /\ f_deoj f = f_deoj f' /\ f_esv f = f_esv f' /\ shown_codes f = shown_codes f'.
Proof. intros le a f a' f' t F F' P P' L L'. eapply (proj1 (frame_line_read le a f a' f' t [] [] F F' P P' L t L' eq_refl)). Qed.
Print Assumptions C87_dump_unambiguous.

(* The keys s and S send one search to all, and no other key sends anything. *)
Theorem C87_keys : forall le net snet c k, api_ctrl le net snet std_db c -> has_object (c_node c) 978945 ->
  exists c' s, dump_key le net c k
    = Ok (c', s, if (k =? 115) || (k =? 83) then [PAnnounce (enc_frame (search_frame (tid_next le c) node_profile_eoj))] else [])
  /\ c_nodes c' = c_nodes c
  /\ c_node c' = (if (k =? 115) || (k =? 83) then n_with_tid (next_tid (n_tid (c_node c))) (c_node c) else c_node c).
Proof.
  intros le net snet c k A H. unfold dump_key. destruct ((k =? 115) || (k =? 83)) eqn:K.
  - destruct (Z.ltb_spec k 0); [lia|]. destruct (C42_search le net snet c A H) as (s & E & P & _ & N & _). rewrite E. cbn [bind]. rewrite P.
    eexists _, _. split; [reflexivity|]. split; [reflexivity|exact N].
  - destruct (k <? 0); (eexists _, _; split; [reflexivity|]; split; reflexivity).
Qed.
Print Assumptions C87_keys.

(* ---- examples ---- *)

Definition got (f : frame) : arrival := mkArr (enc_frame f) here there yes fr0.
Definition noise : arrival := mkArr [16; 129; 0] here there yes fr0.
Definition some_arrivals : list arrival := [got two_listed; noise; got (on_report 115 [48]); got more_listed].
Lemma arrival_is : forall x, ar_fr x = fr0 -> forallb (fun b => (0 <=? b) && (b <? 256)) (ar_data x) && (len (ar_data x) <=? 1000) = true -> arrival_ok x.
Proof.
  intros x E H. unfold arrival_ok. rewrite E. apply andb_prop in H. destruct H as [H L]. split.
  - split; [|unfold OBJ_MAX, PTRDIFF_MAX in *; lia]. apply Forall_forall. intros b Ib. rewrite forallb_forall in H. apply H in Ib. unfold is_byte. lia.
  - split; [apply fr0_ok|]. split; vm_compute; repeat constructor.
Qed.
Lemma arrivals_ok : Forall arrival_ok some_arrivals.
Proof. unfold some_arrivals. repeat (constructor; [apply arrival_is; [reflexivity|vm_compute; reflexivity]|]). constructor. Qed.

(* what is printed: 10.0.0.2        [0] 0EF001 [1] 013001 [2] 029101 [3] 029102 *)
Example C87_search_example : new_ctrl true net_up std_db ctrl0 /\ Forall arrival_ok some_arrivals
  /\ crun true net_up net_down std_db ctrl0 (uechosearch_calls some_arrivals) (cafter (uechosearch_calls some_arrivals))
  /\ print_founddevices (cafter (uechosearch_calls some_arrivals))
     = Ok (chars "10.0.0.2        [0] 0EF001 [1] 013001 [2] 029101 [3] 029102 " ++ [10]).
Proof.
  split; [exact ctrl0_new|]. split; [exact arrivals_ok|]. split; [|vm_compute; reflexivity].
  assert (M : cexec_mem ctrl0 (uechosearch_calls some_arrivals) = true) by (vm_compute; reflexivity).
  assert (O : Forall (cop_ok true std_db) (uechosearch_calls some_arrivals)).
  { constructor; [exact I|]. constructor; [exact I|]. apply Forall_forall. intros x J. apply in_map_iff in J. destruct J as (y & <- & J).
    pose proof arrivals_ok as F. rewrite Forall_forall in F. destruct (F y J) as (B & G & _). exact (conj B G). }
  unfold cafter. revert M O. generalize (uechosearch_calls some_arrivals) ctrl0. intros h c M O.
  destruct (cexec_trace h c O M) as (c' & told & E & _ & R). rewrite E. exact R.
Qed.

(* listed, something that is no frame, a write, the keys s, x and q *)
Definition some_events : list devent := [DGot (got two_listed); DKey 115; DGot noise; DGot (got (Properties_Request.ask 97 (Plain [(128, [49]); (176, [66])]))); DKey 120; DKey 113; DKey 115].
Example C87_dump_example : new_ctrl true net_up std_db ctrl0 /\ Forall meets_ok some_events
  /\ exists c ps, uechodump true net_up net_down std_db (cafter uechodump_calls) some_events
     = Ok (c, [ShLine (chars "10.0.0.2 10 81 809 EF001 EF001 72 1 D6" ++ [10]);
               ShLine (chars "10.0.0.2 10 81 809 5FF01 13001 61 2 80B0" ++ [10]); ShKeys; ShKeys], ps, true).
Proof.
  split; [exact ctrl0_new|]. split.
  { unfold some_events. repeat (constructor; [first [exact I | cbn [meets_ok]; apply arrival_is; [reflexivity|vm_compute; reflexivity]]|]). constructor. }
  match goal with |- exists c ps, ?u = _ => assert (X : match u with Ok (c, s, ps, q) => Some (s, q) | _ => None end
    = Some ([ShLine (chars "10.0.0.2 10 81 809 EF001 EF001 72 1 D6" ++ [10]);
             ShLine (chars "10.0.0.2 10 81 809 5FF01 13001 61 2 80B0" ++ [10]); ShKeys; ShKeys], true)) by (vm_compute; reflexivity); destruct u as [[[[c s] ps] q]|]; [|discriminate] end.
  injection X as -> ->. eauto.
Qed.
Example C87_keys_example : api_ctrl true net_up net_down std_db ctrl1 /\ has_object (c_node ctrl1) 978945.
Proof. split; [exact ctrl1_api|]. vm_compute. discriminate. Qed.

(* ---- what a user could expect and does not get ---- *)

(* The transaction id is not shown in the order of the frame: 09 08 is shown as 809 on a little-endian host. *)
Theorem C87_tid_refuted : exists x f ti rest c ps, frame_ok f /\ ar_data x = enc_frame f /\ f_tid f = (9, 8)
  /\ dump_got true net_up net_down std_db ctrl1 x
     = Ok (c, [ShLine (chars (ar_from x) ++ [32; 49; 48; 32; 56; 49; 32] ++ ti ++ [32] ++ rest)], ps)
  /\ Forall (fun c => c <> 32) ti /\ text_value 16 ti <> 9 * 256 + 8.
Proof.
  set (f := Properties_Request.ask 97 (Plain [(128, [49])])).
  assert (F : frame_ok f) by (apply dec_frame_iff with (data := enc_frame f) (rest := []);
    [apply Forall_forall; intros b Ib; assert (Q : forallb (fun b => (0 <=? b) && (b <? 256)) (enc_frame f) = true) by (vm_compute; reflexivity);
     rewrite forallb_forall in Q; apply Q in Ib; unfold is_byte; lia|vm_compute; reflexivity]).
  assert (X : match dump_got true net_up net_down std_db ctrl1 (got f) with Ok (c, s, _) => Some s | _ => None end
    = Some [ShLine (chars there ++ [32; 49; 48; 32; 56; 49; 32] ++ chars "809" ++ [32] ++ chars "5FF01 13001 61 1 80" ++ [10])]) by (vm_compute; reflexivity).
  destruct (dump_got true net_up net_down std_db ctrl1 (got f)) as [[[c s] ps]|] eqn:E; [|discriminate]. injection X as ->.
  exists (got f), f, (chars "809"), (chars "5FF01 13001 61 1 80" ++ [10]), c, ps.
  split; [exact F|]. split; [reflexivity|]. split; [reflexivity|]. split; [exact E|].
  split; [repeat constructor; discriminate|vm_compute; discriminate].
Qed.
Print Assumptions C87_tid_refuted.

(* Frames that differ in their properties look the same when they are SetGet frames: none of the properties is shown. *)
Theorem C87_setget_refuted : exists x y f g l, frame_ok f /\ frame_ok g /\ ar_data x = enc_frame f /\ ar_data y = enc_frame g
  /\ f_body f = SetGetBody [(128, [48])] [(176, [])] /\ f_body g = SetGetBody [(176, [65])] [(128, [])]
  /\ (exists c ps, dump_got true net_up net_down std_db ctrl1 x = Ok (c, [ShLine l], ps))
  /\ (exists c ps, dump_got true net_up net_down std_db ctrl1 y = Ok (c, [ShLine l], ps))
  /\ l = chars "10.0.0.2 10 81 809 5FF01 13001 6E 0 " ++ [10].
Proof.
  set (f := Properties_Request.ask 110 (SetGetBody [(128, [48])] [(176, [])])).
  set (g := Properties_Request.ask 110 (SetGetBody [(176, [65])] [(128, [])])).
  assert (F : forall h, dec_frame (enc_frame h) = Some (h, []) -> forallb (fun b => (0 <=? b) && (b <? 256)) (enc_frame h) = true -> frame_ok h).
  { intros h D Q. apply dec_frame_iff with (data := enc_frame h) (rest := []); [|exact D].
    apply Forall_forall. intros b Ib. rewrite forallb_forall in Q. apply Q in Ib. unfold is_byte. lia. }
  assert (X : forall h, match dump_got true net_up net_down std_db ctrl1 (got h) with Ok (c, s, _) => Some s | _ => None end
    = Some [ShLine (chars "10.0.0.2 10 81 809 5FF01 13001 6E 0 " ++ [10])] ->
    exists c ps, dump_got true net_up net_down std_db ctrl1 (got h) = Ok (c, [ShLine (chars "10.0.0.2 10 81 809 5FF01 13001 6E 0 " ++ [10])], ps)).
  { intros h Q. destruct (dump_got true net_up net_down std_db ctrl1 (got h)) as [[[c s] ps]|]; [|discriminate]. injection Q as ->. eauto. }
  exists (got f), (got g), f, g, (chars "10.0.0.2 10 81 809 5FF01 13001 6E 0 " ++ [10]).
  split; [apply F; vm_compute; reflexivity|]. split; [apply F; vm_compute; reflexivity|]. split; [reflexivity|]. split; [reflexivity|].
  split; [reflexivity|]. split; [reflexivity|]. split; [apply X; vm_compute; reflexivity|]. split; [apply X; vm_compute; reflexivity|]. reflexivity.
Qed.
Print Assumptions C87_setget_refuted.

(* The program does not end when its input ends, nor with the key Q: it goes on reading for ever. *)
Theorem C87_end_refuted : forall le net snet db c k n, k < 0 ->
  exists s, uechodump le net snet db c (DKey 81 :: repeat (DKey k) n) = Ok (c, s, [], false).
Proof.
  intros le net snet db c k n K. exists [ShKeys]. cbn [uechodump]. change (dump_key le net c 81) with (Ok (c, [ShKeys], @nil post)). cbn [bind].
  change (81 =? 113) with false. cbv iota.
  assert (R : uechodump le net snet db c (repeat (DKey k) n) = Ok (c, [], [], false)).
  { induction n as [|n IH]; [reflexivity|]. cbn [repeat uechodump]. unfold dump_key. destruct (Z.ltb_spec k 0); [|lia]. cbn [bind].
    destruct (Z.eqb_spec k 113); [lia|]. rewrite IH. reflexivity. }
  rewrite R. reflexivity.
Qed.
Print Assumptions C87_end_refuted.
