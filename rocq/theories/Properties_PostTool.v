(* C86: the example program uechopost (examples/controller/uechopost). *)
From Coq Require Import String Ascii ZArith List Bool Lia ZifyBool ZifyNat.
From Verif Require P_System.
From Verif Require Import CSem M_Const M_Misc M_Property M_Message M_PropertyList M_Object M_Node M_NodeListener M_Controller M_Query M_PostTool
  StdDB_Data M_Std Spec_Frame Spec_Message Spec_Map Spec_Object Spec_Node Spec_Request Spec_Controller Spec_PostTool Run_Object Run_Node
  Run_Controller P_Base P_Misc P_Message P_Encode P_MsgApi P_PropertyList P_Object P_ObjectRun P_ObjectReach P_Std P_Node
  P_Request Properties_Object P_NodeReach P_NodeProfile P_NodeInv P_NodeRun P_NodeProps P_RequestProps P_RequestApi P_NodeSafe
  P_Shadow P_Controller P_ControllerProps Properties_Message Properties_Node Properties_Request Properties_Controller P_EndToEnd
  Properties_EndToEnd P_PostTool.
Import ListNotations.
Open Scope Z_scope.
Ltac Zify.zify_post_hook ::= Z.div_mod_to_equations.

(* ---- from properties to the message ---- *)
Lemma reads_ok : forall bs ps, reads bs ps -> bytes_ok bs -> Forall (fun e => is_byte (fst e) /\ bytes_ok (snd e) /\ len (snd e) <= 255) ps.
Proof.
  intros bs ps R. induction R as [bs L|c n r L|c d r ps R IH]; intros B; [constructor|constructor|].
  inversion B as [|? ? Bc B1]; subst. inversion B1 as [|? ? Bn B2]; subst. apply Forall_app in B2. destruct B2 as [Bd Br].
  constructor; [|apply IH; exact Br]. cbn [fst snd]. unfold is_byte in *. split; [exact Bc|]. split; [exact Bd|]. lia.
Qed.

Lemma last_write_in : forall kvs c d, last_write kvs c = Some d -> In (c, d) kvs.
Proof.
  induction kvs as [|[c' d'] kvs IH]; intros c d H; [discriminate|]. cbn [last_write] in H. destruct (last_write kvs c) as [x|] eqn:E.
  - injection H as ->. right. apply IH. exact E.
  - destruct (Z.eqb_spec c' c) as [->|]; [|discriminate]. injection H as ->. left. reflexivity.
Qed.
Lemma last_write_some : forall kvs c, In c (map fst kvs) -> last_write kvs c <> None.
Proof.
  induction kvs as [|[c' d'] kvs IH]; intros c H; [destruct H|]. cbn [last_write]. destruct H as [H|H].
  - cbn [fst] in H. subst c'. destruct (last_write kvs c); [discriminate|]. rewrite Z.eqb_refl. discriminate.
  - specialize (IH c H). destruct (last_write kvs c); [discriminate|contradiction].
Qed.
Lemma fold_add_in : forall cs l c, In c (fold_left add_code cs l) <-> In c cs \/ In c l.
Proof.
  induction cs as [|x cs IH]; intros l c; cbn [fold_left]; [cbn [In]; tauto|]. rewrite IH. unfold add_code.
  destruct (existsb (Z.eqb x) l) eqn:E.
  - apply existsb_exists in E. destruct E as (y & I & E). apply Z.eqb_eq in E. subst y. cbn [In]. split; [tauto|]. intros [[<-|H]|H]; tauto.
  - rewrite in_app_iff. cbn [In]. tauto.
Qed.

Lemma props_of_codes : forall l, NoDup (codes_of l) -> map ep_of l = map (fun c => (c, match lookup l c with Some d => d | None => [] end)) (codes_of l).
Proof.
  induction l as [|p l IH]; intros N; [reflexivity|]. cbn [codes_of map] in *. inversion N as [|? ? N1 N2]; subst.
  assert (L0 : lookup (p :: l) (p_code p) = Some (p_data p)) by (unfold lookup; cbn [List.find]; rewrite Z.eqb_refl; reflexivity).
  rewrite L0. f_equal. fold (codes_of l) in *. rewrite (IH N2).
  apply map_ext_in. intros c I. f_equal. unfold lookup. cbn [List.find]. destruct (Z.eqb_spec (p_code p) c) as [Ec|]; [rewrite Ec in N1; contradiction|reflexivity].
Qed.

Lemma total_small : forall l n, Forall (fun p => len (p_data p) <= 255) l -> (length l <= n)%nat -> total_data l <= 255 * Z.of_nat n.
Proof.
  induction l as [|p l IH]; intros n F L; [unfold total_data; cbn [fold_right]; lia|]. destruct n; [cbn [length] in L; lia|]. inversion F; subst. cbn [total_data fold_right].
  specialize (IH n ltac:(assumption) ltac:(cbn [length] in L; lia)). unfold total_data in IH. lia.
Qed.

Lemma eoj_bytes : forall a b c, eoj_ok (a, b, c) -> let v := eoj_code (a, b, c) in [byte_of v 2; byte_of v 1; byte_of v 0] = [a; b; c].
Proof.
  intros a b c (A & B & C) v. unfold byte_val in *. unfold v, eoj_code, byte_of. cbn.
  repeat (f_equal; try lia).
Qed.

Lemma set_all_api : forall le kvs m m', Forall (fun e => is_byte (fst e) /\ bytes_ok (snd e) /\ len (snd e) <= 255) kvs -> api_msg le m ->
  set_all kvs m = Ok m' -> api_msg le m'.
Proof.
  intros le. induction kvs as [|[c d] kvs IH]; intros m m' F A E; cbn [set_all] in E; [injection E as <-; exact A|].
  apply bind_ok in E. destruct E as (m1 & E1 & E). inversion F as [|? ? (F1 & F2 & _) F']; subst. eapply IH; [exact F'| |exact E].
  eapply am_setprop; [exact A|exact F1|exact F2|exact E1].
Qed.

(* The arguments <obj> <esv> <properties>, numbers and bytes in hexadecimal digits of either
   case: the message built is a request to that object with that service and exactly the
   complete properties of the text, in order.  A property cut off at the end, or half a
   byte, is left out.  Missing for the full statement: SetGet (C86_setget_refuted), objects
   the node does not have (C86_object_refuted), more than 255 properties
   (C86_many_refuted), texts that are not hexadecimal (C86_text_refuted). *)
Theorem C86_message_partial : forall le u dst obj esv t tail bs ps eoj e,
  numeral obj (eoj_code eoj) -> eoj_ok eoj -> has_object dst (eoj_code eoj) ->
  numeral esv e -> 0 <= e < 256 -> ~ two_lists e ->
  spells t bs -> (length tail <= 1)%nat -> reads bs ps -> (length (first_writes ps) <= 255)%nat -> len (t ++ tail) <= OBJ_MAX ->
  exists m, post_message u dst obj esv (t ++ tail) = Ok m
  /\ prepared le m (mkFrame (0, 0) (0, 0, 0) eoj e (Plain (merged ps))).
Proof.
  intros le u dst obj esv t tail bs ps [[a b] c] e No Ho Hob Ne Be Nt Sp Tl Rd Fw Sz. unfold post_message.
  pose proof Ho as (Ba & Bb & Bc). unfold byte_val in Ba, Bb, Bc.
  rewrite (scan_number obj (eoj_code (a, b, c)) (u_obj u) No) by (unfold eoj_code, INT_MAX; lia). cbn [bind].
  unfold has_object in Hob. destruct (uecho_node_getobjectbycode dst (eoj_code (a, b, c))) as [o|] eqn:G; [|contradiction].
  apply P_System.getbycode_in in G. destruct G as [_ G]. rewrite G.
  rewrite (scan_number esv e (u_esv u) Ne) by (unfold INT_MAX; lia). cbn [bind]. rewrite setdst_eq. cbn [bind].
  pose proof (eoj_bytes a b c Ho) as Eb. cbv zeta in Eb. rewrite Eb. clear Eb. unfold to_byte. rewrite (Z.mod_small e) by lia.
  set (m0 := with_deoj [a; b; c] (uecho_message_setesv e uecho_message_new)).
  pose proof (spells_bytes _ _ Sp) as By. pose proof (reads_ok _ _ Rd By) as Po.
  rewrite (prop_loop_ok bs ps Rd t tail) by
    (first [exact Sp | exact Tl | rewrite app_length; lia | rewrite len_app; lia | lia | unfold OBJ_MAX in Sz; lia]).
  assert (A0 : api_msg le m0).
  { apply (am_setdst le (uecho_message_setesv e uecho_message_new) (eoj_code (a, b, c))).
    - apply am_setesv; [apply am_new|unfold is_byte; lia].
    - rewrite setdst_eq. pose proof (eoj_bytes a b c Ho) as Eb. cbv zeta in Eb. rewrite Eb. reflexivity. }
  pose proof (api_inv_holds _ _ A0) as [M0 _].
  assert (Pk : Forall (fun kv => is_byte (fst kv) /\ bytes_ok (snd kv)) ps).
  { eapply Forall_impl; [|exact Po]. intros x (X1 & X2 & _). split; assumption. }
  destruct (set_all_spec ps m0 M0 Pk) as (m & E & Mm & Em & Cm & Lm); [exact Fw|].
  rewrite E. exists m. split; [reflexivity|].
  assert (Am : api_msg le m) by (eapply set_all_api; [exact Po|exact A0|exact E]).
  change (codes_of (stored (m_p m0))) with (@nil Z) in Cm. change (fold_left add_code (map fst ps) []) with (first_writes ps) in Cm.
  assert (Nd : NoDup (codes_of (stored (m_p m)))) by (rewrite Cm; apply fold_add_code_nodup; constructor).
  assert (Lm' : forall x, lookup (stored (m_p m)) x = last_write ps x).
  { intros x. rewrite Lm. change (lookup (stored (m_p m0)) x) with (@None (list Z)). destruct (last_write ps x); reflexivity. }
  assert (Mp : map ep_of (stored (m_p m)) = merged ps).
  { rewrite (props_of_codes _ Nd), Cm. unfold merged. apply map_ext. intros x. rewrite Lm'. reflexivity. }
  assert (Sh : Forall (fun p => len (p_data p) <= 255) (stored (m_p m))).
  { apply Forall_forall. intros p Ip. assert (I : In (ep_of p) (merged ps)) by (rewrite <- Mp; apply in_map; exact Ip).
    unfold merged in I. apply in_map_iff in I. destruct I as (x & Ex & Ix). unfold ep_of in Ex. injection Ex as E1 E2. rewrite <- E2.
    destruct (last_write ps x) as [d|] eqn:Lw; [|unfold len; cbn [length]; lia]. apply last_write_in in Lw.
    rewrite Forall_forall in Po. apply (Po _ Lw). }
  assert (Fm : frame_of m = mkFrame (0, 0) (0, 0, 0) (a, b, c) e (Plain (merged ps))).
  { unfold frame_of. rewrite Em. cbn [m_tid m_seoj m_deoj m_esv with_p m0 with_deoj uecho_message_setesv with_esv uecho_message_new].
    assert (Tl2 : two_listsb e = false). { apply not_true_iff_false. rewrite two_listsb_iff. exact Nt. }
    rewrite Tl2. cbn [triple m_p with_p]. change (pv_list (m_p m)) with (stored (m_p m)). rewrite Mp. reflexivity. }
  assert (Ee : m_esv m = e) by (rewrite Em; reflexivity).
  assert (Ps : m_pset m = mkPvec 0 None) by (rewrite Em; reflexivity). assert (Pg : m_pget m = mkPvec 0 None) by (rewrite Em; reflexivity).
  split; [exact Am|]. split.
  { unfold in_memory. rewrite Ps, Pg. cbn [stored pv_ep total_data fold_right].
    assert (Ln : (length (stored (m_p m)) <= 255)%nat). { rewrite <- (map_length p_code). change (map p_code (stored (m_p m))) with (codes_of (stored (m_p m))). rewrite Cm. exact Fw. }
    pose proof (total_small _ _ Sh Ln). lia. }
  split. { unfold pdc_fits. rewrite Ps, Pg. cbn [stored pv_ep app]. rewrite !app_nil_r. exact Sh. }
  rewrite <- Fm. split; [apply shows_frame_of; exact Mm|]. apply frame_of_ok; [exact Mm|].
  unfold short_msg. rewrite Ee. assert (Tl2 : two_listsb e = false). { apply not_true_iff_false. rewrite two_listsb_iff. exact Nt. }
  rewrite Tl2. unfold short_props. eapply Forall_impl; [|exact Sh]. intros p L. unfold len in L. lia.
Qed.
Print Assumptions C86_message_partial.

(* The message is sent as one datagram to the address of the node; it is waited for a
   response exactly when the service has one. *)
Definition awaits (e : Z) : bool := existsb (Z.eqb e) [97; 98; 99; 116].

Theorem C86_sent_partial : forall le net snet u c dst na obj esv t tail bs ps eoj e,
  api_ctrl le net snet std_db c -> has_object (c_node c) 978945 -> n_addr dst = Some na ->
  numeral obj (eoj_code eoj) -> eoj_ok eoj -> has_object dst (eoj_code eoj) ->
  numeral esv e -> 0 <= e < 256 -> ~ two_lists e ->
  spells t bs -> (length tail <= 1)%nat -> reads bs ps -> (length (first_writes ps) <= 255)%nat -> len (t ++ tail) <= OBJ_MAX ->
  let f := mkFrame (tid_next le c) node_profile_eoj eoj e (Plain (merged ps)) in
  exists c', uechopost le net u c dst obj esv (t ++ tail)
    = Ok (c', [PSend na (enc_frame f)], awaits e && net (PSend na (enc_frame f)))
  /\ frame_ok f /\ c_nodes c' = c_nodes c
  (* of the local node only the TID changes *)
  /\ c_node c' = n_with_tid (next_tid (n_tid (c_node c))) (c_node c).
Proof.
  intros le net snet u c dst na obj esv t tail bs ps eoj e Hc Hp Ha No Ho Hob Ne Be Nt Sp Tl Rd Fw Sz f.
  destruct (C86_message_partial le u dst obj esv t tail bs ps eoj e No Ho Hob Ne Be Nt Sp Tl Rd Fw Sz) as (m & E & P).
  destruct (C43_request le net snet c m _ dst na Hc Hp P Ha) as (s & Es & Ps & Rs & Ns & _ & Fs). cbv zeta in *.
  unfold uechopost. rewrite E. cbn [bind].
  assert (Em : m_esv m = e) by (destruct P as (_ & _ & _ & (_ & _ & _ & X & _) & _); exact X).
  assert (W : uecho_message_isresponserequired m = awaits e).
  { unfold uecho_message_isresponserequired. rewrite Em. unfold uecho_message_requestesv2responseesv, awaits. cbn [existsb].
    unfold ESV_SetC, ESV_Get, ESV_INF_REQ, ESV_SetGet, ESV_INFC in *. unfold two_lists in Nt. 
    destruct (Z.eqb_spec e 97); [reflexivity|]. destruct (Z.eqb_spec e 98); [reflexivity|]. destruct (Z.eqb_spec e 99); [reflexivity|].
    destruct (Z.eqb_spec e 110); [exfalso; lia|]. destruct (Z.eqb_spec e 116); reflexivity. }
  rewrite W. destruct (awaits e).
  - unfold postmessage_begin. change (uecho_controller_sendmessage le net (c_with_post (MMsg m) (MMsg uecho_message_new) c) dst m)
      with (uecho_controller_sendmessage le net c dst m). rewrite Es. cbn [bind]. rewrite Ps, Rs. eexists. split; [reflexivity|]. split; [exact Fs|]. split; [reflexivity|exact Ns].
  - rewrite Es. cbn [bind]. rewrite Ps. eexists. split; [reflexivity|]. split; [exact Fs|]. split; [reflexivity|exact Ns].
Qed.
Print Assumptions C86_sent_partial.

(* The response: the line printed holds the address, the object, the service and every
   property of the response with its data. *)
Theorem C86_printed : forall le m f a ps,
  shows le m f -> frame_ok f -> f_body f = Plain ps -> m_from m = Some a ->
  exists text, uechopost_print_objectresponse m = Ok text /\ response_line (chars a) (f_seoj f) (f_esv f) ps text.
Proof.
  intros le m f a ps (_ & S1 & _ & S3 & S4) Hf Eb Hm. rewrite Eb in S4. destruct S4 as [S4 S5].
  destruct Hf as (_ & _ & Hs & _ & He & Hb). rewrite Eb in Hb. cbn [body_ok] in Hb. destruct Hb as [_ [Hb Hl]].
  unfold uechopost_print_objectresponse. rewrite Hm, S1. cbn [bind]. rewrite S3, S4, Nat2Z.id. unfold epair in *.
  destruct (print_props_ok m ps [] S5) as (ts & E & F & Cp).
  - eapply Forall_impl; [|exact Hb]. intros x (X1 & X2 & X3). unfold byte_val in X1. unfold is_byte. split; [lia|]. split; [|unfold len; lia].
    eapply Forall_impl; [|exact X2]. intros y Y. unfold byte_val in Y. unfold is_byte. lia.
  - cbn [app]. unfold len. unfold epair in *. lia.
  - change (len []) with 0 in E. rewrite E. cbn [bind]. eexists. split; [reflexivity|].
    destruct (f_seoj f) as [[x y] z]. destruct Hs as (X1 & X2 & X3). unfold byte_val in *. exists (fmt_X 6 (eoj_code (x, y, z))), (fmt_X 2 (f_esv f)), ts.
    split; [apply fmt_6; unfold is_byte; lia|]. split; [apply fmt_2; unfold is_byte; lia|].
    split; [apply fmt_capital; unfold eoj_code; lia|]. split; [apply fmt_capital; lia|]. split; [exact Cp|]. split; [exact F|]. reflexivity.
Qed.
Print Assumptions C86_printed.

(* The properties printed, written after each other, are an argument with which uechopost
   would send the same properties. *)
Theorem C86_again : forall ts ps, Forall2 (fun t e => spells t (fst e :: len (snd e) :: snd e)) ts ps ->
  exists bs, spells (concat ts) bs /\ reads bs ps.
Proof.
  intros ts ps F. induction F as [|t [c d] ts ps S F (bs & S' & R)].
  - exists []. split; [constructor|]. apply rd_end. cbn [length]. lia.
  - exists (c :: len d :: d ++ bs). split; [|apply rd_prop; exact R]. cbn [concat]. cbn [fst snd] in S.
    change (c :: len d :: d ++ bs) with ((c :: len d :: d) ++ bs). apply spells_app; assumption.
Qed.
Print Assumptions C86_again.

(* Reading one property of a device at another address, the whole way: uechopost
   sends one datagram; if it reaches the device, whose handlers agree, the response is
   copied into the message that is printed, and the line has the value of the property. *)
Theorem C86_get : forall le net snet u c dst na obj esv t eoj epc,
  api_ctrl le net snet std_db c -> has_object (c_node c) 978945 -> n_addr dst = Some na ->
  numeral obj (eoj_code eoj) -> eoj_ok eoj -> has_object dst (eoj_code eoj) -> numeral esv 98 -> spells t [epc; 0] ->
  exists c1 bytes sent, uechopost le net u c dst obj esv t = Ok (c1, [PSend na bytes], sent)
  /\ forall le' net' dec n la ca r d,
     api_node le' net' std_db n -> node_data n (eoj_code eoj) epc = Some d -> len d <= 255 ->
     node_receive le' net' dec n bytes la (Some ca) = Ok r -> agreed r ->
     exists ans, r_answer r = [PSend ca ans]
     /\ forall dec2 fr c2 r2 la2 x y, api_ctrl le net snet std_db c2 -> fresh_ok fr ->
          c_req c2 = c_req c1 -> c_res c2 = MMsg r2 ->
          ctrl_receive le net snet std_db dec2 fr c2 ans la2 (Some na) = Ok (x, y) ->
          cr_signal y = true
          /\ exists m text, c_res (cr_ctrl y) = MMsg m /\ uechopost_print_objectresponse m = Ok text
             /\ response_line (chars na) eoj 114 [(epc, d)] text.
Proof.
  intros le net snet u c dst na obj esv t eoj epc Hc Hp Ha No Ho Hob Ne Sp.
  assert (Rd : reads [epc; 0] [(epc, [])]) by (apply (rd_prop epc [] [] []); apply rd_end; cbn [length]; lia).
  assert (Fw : (length (first_writes [(epc, [])]) <= 255)%nat) by (cbn; lia).
  assert (Lt : len (t ++ []) <= OBJ_MAX) by (rewrite app_nil_r; unfold len; rewrite (spells_len _ _ Sp); cbn [length]; unfold OBJ_MAX; lia).
  assert (Nt : ~ two_lists 98) by (unfold two_lists; lia).
  destruct (C86_message_partial le u dst obj esv t [] [epc; 0] [(epc, [])] eoj 98 No Ho Hob Ne ltac:(lia) Nt Sp ltac:(cbn [length]; lia) Rd Fw Lt) as (m & E & P).
  rewrite app_nil_r in E.
  assert (Mg : merged [(epc, [])] = [(epc, [])]) by (unfold merged; cbn; rewrite Z.eqb_refl; reflexivity). rewrite Mg in P.
  destruct (C43_posted le net snet c m _ epc [] dst na uecho_message_new Hc Hp P eq_refl eq_refl Ha) as (c1 & bytes & sent & E1 & _ & K).
  exists c1, bytes, sent. split.
  { unfold uechopost. rewrite E. cbn [bind]. assert (Em : m_esv m = 98) by (destruct P as (_ & _ & _ & (_ & _ & _ & X & _) & _); exact X).
    unfold uecho_message_isresponserequired. rewrite Em. cbn. rewrite E1. reflexivity. }
  intros le' net' dec n la ca r d Hn Hd Hl Hr Hag. cbn [f_deoj] in K. destruct (K le' net' dec n la ca r d Hn Hd Hl Hr Hag) as (ans & Ean & K2).
  exists ans. split; [exact Ean|]. intros dec2 fr c2 r2 la2 x y H2 Hfr Hq Hres Hrec. destruct (K2 dec2 fr c2 r2 la2 x y H2 Hfr Hq Hres Hrec) as (Sg & mm & Em & Sh & Fr).
  split; [exact Sg|]. exists mm.
  destruct (C86_printed le mm _ na [(epc, d)] Sh) as (text & Et & Lt2); [|reflexivity|exact Fr|].
  2: { exists text. split; [exact Em|]. split; [exact Et|exact Lt2]. }
  apply (answer_frame_ok le net snet c _ 114 (epc, d) Hc); [|unfold byte_val; lia|unfold two_lists; lia|].
  - destruct P as (_ & _ & _ & _ & P). exact P.
  - pose proof (spells_bytes _ _ Sp) as By. inversion By as [|? ? Bc _]; subst. unfold is_byte in Bc. split; [unfold byte_val; cbn [fst]; lia|].
    cbn [snd]. split; [exact (node_data_bytes _ _ _ _ _ _ Hn Hd)|unfold len in Hl; lia].
Qed.
Print Assumptions C86_get.

(* ---- examples and what fails ---- *)
Definition txt (s : string) : list Z := chars s.
Definition garbage : uninit := mkUninit 1 2 128 0 7.
Definition garbage2 : uninit := mkUninit 1 2 129 0 7.

(* the frame uechopost sends to the air conditioner's node, and whether it waits *)
Definition posted (u : uninit) (obj esv props : string) : option (string * option (frame * list Z) * bool) :=
  match uechopost true net_up u ctrl2 dev_there (txt obj) (txt esv) (txt props) with
  | Ok (_, [PSend a b], w) => Some (a, dec_frame b, w)
  | _ => None
  end.

Lemma digit_check : forall c, match hexval c with Some d => digit_of c d | None => True end.
Proof.
  intros c. unfold hexval, digit_of. destruct ((48 <=? c) && (c <=? 57)) eqn:A; [lia|]. destruct ((65 <=? c) && (c <=? 70)) eqn:B; [lia|].
  destruct ((97 <=? c) && (c <=? 102)) eqn:C; [lia|exact Logic.I].
Qed.
Fixpoint unspell (t : list Z) : option (list Z) :=
  match t with
  | [] => Some []
  | c1 :: c2 :: r => match hexval c1, hexval c2, unspell r with Some h, Some l, Some bs => Some (16 * h + l :: bs) | _, _, _ => None end
  | _ => None
  end.
Lemma unspell_ok : forall n t bs, (length t <= n)%nat -> unspell t = Some bs -> spells t bs.
Proof.
  induction n as [|n IH]; intros t bs L E.
  - destruct t; [injection E as <-; constructor|cbn [length] in L; lia].
  - destruct t as [|c1 [|c2 r]]; [injection E as <-; constructor|discriminate|]. cbn [unspell] in E.
    pose proof (digit_check c1) as D1. pose proof (digit_check c2) as D2. destruct (hexval c1) as [h|]; [|discriminate]. destruct (hexval c2) as [l|]; [|discriminate].
    destruct (unspell r) as [x|] eqn:Er; [|discriminate]. injection E as <-. constructor; [exact D1|exact D2|]. apply (IH r x); [cbn [length] in L; lia|exact Er].
Qed.
Lemma numeral_more : forall t v, horner t v = None \/ exists w, horner t v = Some w.
Proof. intros t v. destruct (horner t v); eauto. Qed.
Lemma numeral_ok : forall t t0 v0 v, numeral t0 v0 -> horner t v0 = Some v -> numeral (t0 ++ t) v.
Proof.
  induction t as [|c t IH]; intros t0 v0 v N E; cbn [horner] in E.
  - injection E as <-. rewrite app_nil_r. exact N.
  - pose proof (digit_check c) as D. destruct (hexval c) as [d|]; [|discriminate]. replace (t0 ++ c :: t) with ((t0 ++ [c]) ++ t) by (rewrite <- app_assoc; reflexivity).
    apply (IH _ (16 * v0 + d)); [constructor; assumption|]. replace (16 * v0 + d) with (v0 * 16 + d) by lia. exact E.
Qed.
Lemma numeral_check : forall c t d v, hexval c = Some d -> horner t d = Some v -> numeral (c :: t) v.
Proof.
  intros c t d v H E. change (c :: t) with ([c] ++ t). eapply numeral_ok; [|exact E]. apply num_digit.
  pose proof (digit_check c) as D. rewrite H in D. exact D.
Qed.

(* "80" is written twice and the last property is cut off *)
Example C86_example :
  api_ctrl true net_up net_down std_db ctrl2 /\ has_object (c_node ctrl2) 978945 /\ n_addr dev_there = Some there
  /\ numeral (txt "013001") (eoj_code (1, 48, 1)) /\ eoj_ok (1, 48, 1) /\ has_object dev_there (eoj_code (1, 48, 1))
  /\ numeral (txt "61") 97
  /\ spells (txt "800130B302aBcD800131B0030102") [128; 1; 48; 179; 2; 171; 205; 128; 1; 49; 176; 3; 1; 2]
  /\ reads [128; 1; 48; 179; 2; 171; 205; 128; 1; 49; 176; 3; 1; 2] [(128, [48]); (179, [171; 205]); (128, [49])]
  /\ posted garbage "013001" "61" "800130B302aBcD800131B0030102x"
     = Some (there, Some (mkFrame (tid_next true ctrl2) node_profile_eoj (1, 48, 1) 97 (Plain [(128, [49]); (179, [171; 205])]), []), true).
Proof.
  split; [exact ctrl2_api|]. split; [vm_compute; discriminate|]. split; [vm_compute; reflexivity|].
  split; [eapply numeral_check; vm_compute; reflexivity|]. split; [unfold eoj_ok, byte_val; lia|]. split; [vm_compute; discriminate|].
  split; [eapply numeral_check; vm_compute; reflexivity|].
  split; [apply (unspell_ok 28); [vm_compute; lia|vm_compute; reflexivity]|].
  split.
  { apply (rd_prop 128 [48] [179; 2; 171; 205; 128; 1; 49; 176; 3; 1; 2]). apply (rd_prop 179 [171; 205] [128; 1; 49; 176; 3; 1; 2]).
    apply (rd_prop 128 [49] [176; 3; 1; 2]). apply rd_cut. vm_compute. reflexivity. }
  vm_compute. reflexivity.
Qed.

(* the response of the air conditioner *)
Definition an_answer : msg := with_from (Some there) (asked (mkFrame (9, 8) (1, 48, 1) (14, 240, 1) 114 (Plain [(128, [48]); (130, [0; 0; 65; 0])]))).
Example C86_printed_example :
  uechopost_print_objectresponse an_answer = Ok (txt "10.0.0.2 013001 72 800130 820400004100 " ++ [10])
  /\ shows true an_answer (mkFrame (9, 8) (1, 48, 1) (14, 240, 1) 114 (Plain [(128, [48]); (130, [0; 0; 65; 0])])).
Proof.
  split; [vm_compute; reflexivity|].
  assert (P : prepared true (asked (mkFrame (9, 8) (1, 48, 1) (14, 240, 1) 114 (Plain [(128, [48]); (130, [0; 0; 65; 0])])))
    (mkFrame (9, 8) (1, 48, 1) (14, 240, 1) 114 (Plain [(128, [48]); (130, [0; 0; 65; 0])]))) by (apply asked_prepared; vm_compute; reflexivity).
  destruct P as (_ & _ & _ & P & _). exact P.
Qed.

(* reading the operation status of the device, as in C43_example *)
Example C86_get_example :
  posted garbage "013001" "62" "8000" = Some (there, Some (request_frame true ctrl2 get80, []), true)
  /\ spells (txt "8000") [128; 0] /\ api_node true net_up std_db node3
  /\ node_data node3 (eoj_code (1, 48, 1)) 128 = Some [48].
Proof.
  split; [vm_compute; reflexivity|]. split; [apply (unspell_ok 4); [vm_compute; lia|vm_compute; reflexivity]|]. split; [exact node3_api|]. vm_compute. reflexivity.
Qed.

(* An object the node does not have is not reported: the request goes to the object 0x000000. *)
Theorem C86_object_refuted : uecho_node_getobjectbycode dev_there (eoj_code (1, 48, 2)) = None
  /\ exists f, posted garbage "013002" "61" "800131" = Some (there, Some (f, []), true) /\ f_deoj f = (0, 0, 0) /\ f_body f = Plain [(128, [49])].
Proof. split; [vm_compute; reflexivity|]. eexists. split; [vm_compute; reflexivity|]. split; reflexivity. Qed.
Print Assumptions C86_object_refuted.

(* A SetGet request is sent without its properties. *)
Theorem C86_setget_refuted : exists f, posted garbage "013001" "6E" "800131" = Some (there, Some (f, []), true)
  /\ f_esv f = 110 /\ f_body f = SetGetBody [] [].
Proof. eexists. split; [vm_compute; reflexivity|]. split; reflexivity. Qed.
Print Assumptions C86_setget_refuted.

(* 256 different properties: a write outside the message. *)
Definition all_codes : list Z := map Z.of_nat (seq 0 256).
Definition all_text : list Z := concat (map (fun c => fmt_X 2 c ++ [48; 48]) all_codes).
Theorem C86_many_refuted : spells all_text (concat (map (fun c => [c; 0]) all_codes))
  /\ uechopost true net_up garbage ctrl2 dev_there (txt "013001") (txt "61") all_text = Undef UB_write.
Proof. split; [apply (unspell_ok 1024); [vm_compute; lia|vm_compute; reflexivity]|vm_compute; reflexivity]. Qed.
Print Assumptions C86_many_refuted.

(* A text that is not hexadecimal is not rejected: what is sent is left to chance. *)
Theorem C86_text_refuted : exists f g,
  posted garbage "013001" "62" "zzzz" = Some (there, Some (f, []), true)
  /\ posted garbage2 "013001" "62" "zzzz" = Some (there, Some (g, []), true)
  /\ f_body f = Plain [(128, [])] /\ f_body g = Plain [(129, [])].
Proof. eexists _, _. split; [vm_compute; reflexivity|]. split; [vm_compute; reflexivity|]. split; reflexivity. Qed.
Print Assumptions C86_text_refuted.
