(* C93: writing a property of a device at another address, the whole way. *)
From Coq Require Import String Ascii ZArith List Bool Lia ZifyBool ZifyNat.
From Verif Require P_System.
From Verif Require Import CSem M_Const M_Misc M_Property M_Message M_PropertyList M_Object M_Node M_NodeListener M_Controller M_Query M_PostTool P_Bound
  StdDB_Data M_Std Spec_Frame Spec_Message Spec_Map Spec_Object Spec_Node Spec_Request Spec_Controller Spec_PostTool Run_Object Run_Node
  Run_Controller P_Base P_Misc P_Message P_Encode P_MsgApi P_PropertyList P_Object P_ObjectRun P_ObjectReach P_Std P_Node
  P_Request Properties_Object P_NodeReach P_NodeProfile P_NodeInv P_NodeRun P_NodeProps P_RequestProps P_RequestApi P_NodeSafe
  P_Shadow P_Controller P_ControllerProps Properties_Message Properties_Node Properties_Request Properties_Controller P_EndToEnd
  Properties_EndToEnd P_PostTool Properties_PostTool.
Import ListNotations.
Open Scope Z_scope.
Ltac Zify.zify_post_hook ::= Z.div_mod_to_equations.

(* the device has the value now, and everything else as before *)
Definition wrote (n n' : node) (code epc : Z) (v : list Z) : Prop :=
  node_data n' code epc = Some v /\ forall code' c, code' <> code \/ c <> epc -> node_data n' code' c = node_data n code' c.

Lemma write_effect : forall le net dec n g la ca r epc v, receives le net dec n g [] la (Some ca) r -> f_esv g = 96 \/ f_esv g = 97 ->
  f_body g = Plain [(epc, v)] -> node_data n (dest g) epc <> None -> agreed r ->
  wrote n (r_node r) (dest g) epc v
  /\ r_answer r = if f_esv g =? 96 then [] else [PSend ca (enc_frame (mkFrame (f_tid g) (f_deoj g) (f_seoj g) 113 (Plain [(epc, [])])))].
Proof.
  intros le net dec n g la ca r epc v R He Hb Hd Ag.
  assert (W : write_esv (f_esv g) = true) by (unfold write_esv; lia).
  assert (O : has_object n (dest g)).
  { unfold has_object. unfold node_data in Hd. destruct (uecho_node_getobjectbycode n (dest g)); [discriminate|contradiction]. }
  assert (Ex : Forall (fun e : epair => node_data n (dest g) (fst e) <> None) [(epc, v)]) by (constructor; [exact Hd|constructor]).
  destruct (C26_stored _ _ _ _ _ _ _ _ _ _ R W Hb O Ex Ag) as [S1 S2].
  pose proof (C26_answer_partial _ _ _ _ _ _ _ _ _ _ R W Hb O Ex Ag ltac:(cbn [length]; lia)) as A. cbn [map fst] in A. split; [|exact A].
  split.
  - rewrite S1. cbn [last_data fst snd]. rewrite Z.eqb_refl. reflexivity.
  - intros code' c Hc. destruct (Z.eq_dec code' (dest g)) as [->|Nc]; [|apply S2; exact Nc]. destruct Hc as [Hc|Hc]; [destruct (Hc eq_refl)|].
    rewrite S1. cbn [last_data fst snd]. destruct (Z.eqb_spec epc c); [congruence|reflexivity].
Qed.

(* A request that writes one property and wants a response (0x61), posted to a device that has the property and whose handlers
   agree: the device has the value and nothing else of it has changed; its answer is the response of the call. *)
Theorem C93_posted : forall le net snet c q f epc v dst na r0,
  api_ctrl le net snet std_db c -> has_object (c_node c) 978945 -> prepared le q f ->
  f_esv f = 97 -> f_body f = Plain [(epc, v)] -> n_addr dst = Some na ->
  exists c1 bytes sent, postmessage_begin le net c dst q r0 = Ok (c1, [PSend na bytes], sent)
  /\ c_res c1 = MMsg r0 /\ buffer bytes
  /\ forall le' net' dec n la ca r,
     api_node le' net' std_db n -> node_data n (eoj_code (f_deoj f)) epc <> None ->
     node_receive le' net' dec n bytes la (Some ca) = Ok r -> agreed r ->
     wrote n (r_node r) (eoj_code (f_deoj f)) epc v
     /\ exists ans, r_answer r = [PSend ca ans]
     /\ forall dec2 fr c2 r2 la2 x y, api_ctrl le net snet std_db c2 -> fresh_ok fr ->
          c_req c2 = c_req c1 -> c_res c2 = MMsg r2 ->
          ctrl_receive le net snet std_db dec2 fr c2 ans la2 (Some na) = Ok (x, y) ->
          cr_signal y = true
          /\ exists m, c_res (cr_ctrl y) = MMsg m
             /\ shows le m (answer_frame le c f 113 [(epc, [])]) /\ m_from m = Some na.
Proof.
  intros le net snet c q f epc v dst na r0 Hc Hp Q He Hbd Ha.
  destruct (C43_request le net snet c q f dst na Hc Hp Q Ha) as (s & E & P & _ & _ & S & G).
  exists (c_with_post (MMsg (s_msg s)) (MMsg r0) (c_with_node (s_node s) c)), (enc_frame (request_frame le c f)), (s_ret s).
  split; [|split; [reflexivity|split; [apply frame_buffer; exact G|]]].
  { unfold postmessage_begin. change (uecho_controller_sendmessage le net (c_with_post (MMsg q) (MMsg r0) c) dst q)
      with (uecho_controller_sendmessage le net c dst q). rewrite E. cbn [bind]. rewrite P. reflexivity. }
  intros le' net' dec n la ca r Hn Hd R Ag. set (g := request_frame le c f) in *.
  assert (Rv : receives le' net' dec n g [] la (Some ca) r).
  { split; [exact Hn|]. split; [exact G|]. rewrite app_nil_r. split; [apply frame_buffer; exact G|exact R]. }
  destruct (write_effect _ _ _ _ _ _ _ _ epc v Rv (or_intror He) Hbd Hd Ag) as [W A]. split; [exact W|].
  assert (Eg : f_esv g = 97) by exact He. rewrite Eg in A. change (97 =? 96) with false in A. cbv iota in A.
  eexists. split; [exact A|]. intros dec2 fr c2 r2 la2 x y H2 Hfr Eq Er H.
  change (mkFrame (f_tid g) (f_deoj g) (f_seoj g) 113 (Plain [(epc, [])])) with (answer_frame le c f 113 [(epc, [])]) in H.
  assert (Ga : frame_ok (answer_frame le c f 113 [(epc, [])])).
  { eapply answer_frame_ok; [exact Hc|apply Q|unfold byte_val; lia|unfold two_lists; lia|].
    destruct Q as (_ & _ & _ & _ & Gb). destruct Gb as (_ & _ & _ & _ & _ & Gb). rewrite Hbd in Gb. destruct Gb as (_ & Gb & _).
    inversion Gb as [|? ? Gc _]; subst. split; [apply Gc|]. cbn [snd]. split; [constructor|cbn [length]; lia]. }
  destruct (heard_some _ _ _ _ _ _ _ _ _ _ _ H2 Hfr Ga H) as (x' & -> & Hh).
  destruct (hears_post le net snet std_db std_db_ok _ _ _ _ _ _ _ _ _ (s_msg s) r2 (request_frame le c f) Hh) as (B1 & _ & B2);
    [rewrite Eq; reflexivity|exact Er|exact G|exact S|eexists; reflexivity|reflexivity|cbn [request_frame answer_frame f_esv]; rewrite He; lia|].
  auto.
Qed.
Print Assumptions C93_posted.

(* ---- with uechopost ---- *)
Theorem C93_tool : forall le net snet u c dst na obj esv t eoj epc v,
  api_ctrl le net snet std_db c -> has_object (c_node c) 978945 -> n_addr dst = Some na ->
  numeral obj (eoj_code eoj) -> eoj_ok eoj -> has_object dst (eoj_code eoj) -> numeral esv 97 -> spells t (epc :: len v :: v) ->
  exists c1 bytes sent, uechopost le net u c dst obj esv t = Ok (c1, [PSend na bytes], sent) /\ buffer bytes
  /\ forall le' net' dec n la ca r,
     api_node le' net' std_db n -> node_data n (eoj_code eoj) epc <> None ->
     node_receive le' net' dec n bytes la (Some ca) = Ok r -> agreed r ->
     wrote n (r_node r) (eoj_code eoj) epc v
     /\ exists ans, r_answer r = [PSend ca ans]
     /\ forall dec2 fr c2 r2 la2 x y, api_ctrl le net snet std_db c2 -> fresh_ok fr ->
          c_req c2 = c_req c1 -> c_res c2 = MMsg r2 ->
          ctrl_receive le net snet std_db dec2 fr c2 ans la2 (Some na) = Ok (x, y) ->
          cr_signal y = true
          /\ exists m text, c_res (cr_ctrl y) = MMsg m /\ uechopost_print_objectresponse m = Ok text
             /\ response_line (chars na) eoj 113 [(epc, [])] text.
Proof.
  intros le net snet u c dst na obj esv t eoj epc v Hc Hp Ha No Ho Hob Ne Sp.
  pose proof (spells_bytes _ _ Sp) as By. inversion By as [|? ? Bc By1]; subst. inversion By1 as [|? ? Bl Bv]; subst. unfold is_byte in Bc, Bl.
  assert (Rd : reads (epc :: len v :: v) [(epc, v)]).
  { pose proof (rd_prop epc v [] []) as X. rewrite app_nil_r in X. apply X. apply rd_end. cbn [length]. lia. }
  assert (Fw : (length (first_writes [(epc, v)]) <= 255)%nat) by (cbn; lia).
  assert (Lt : len (t ++ []) <= OBJ_MAX).
  { rewrite app_nil_r. unfold len in *. rewrite (spells_len _ _ Sp). cbn [length]. unfold OBJ_MAX. lia. }
  assert (Nt : ~ two_lists 97) by (unfold two_lists; lia).
  destruct (C86_message_partial le u dst obj esv t [] (epc :: len v :: v) [(epc, v)] eoj 97 No Ho Hob Ne ltac:(lia) Nt Sp ltac:(cbn [length]; lia) Rd Fw Lt) as (m & E & P).
  rewrite app_nil_r in E.
  assert (Mg : merged [(epc, v)] = [(epc, v)]) by (unfold merged; cbn; rewrite Z.eqb_refl; reflexivity). rewrite Mg in P.
  destruct (C93_posted le net snet c m _ epc v dst na uecho_message_new Hc Hp P eq_refl eq_refl Ha) as (c1 & bytes & sent & E1 & _ & Bf & K).
  exists c1, bytes, sent. split; [|split; [exact Bf|]].
  { unfold uechopost. rewrite E. cbn [bind]. assert (Em : m_esv m = 97) by (destruct P as (_ & _ & _ & (_ & _ & _ & X & _) & _); exact X).
    unfold uecho_message_isresponserequired. rewrite Em. cbn. rewrite E1. reflexivity. }
  intros le' net' dec n la ca r Hn Hd Hr Hag. cbn [f_deoj] in K. destruct (K le' net' dec n la ca r Hn Hd Hr Hag) as (W & ans & Ean & K2).
  split; [exact W|]. exists ans. split; [exact Ean|]. intros dec2 fr c2 r2 la2 x y H2 Hfr Hq Hres Hrec.
  destruct (K2 dec2 fr c2 r2 la2 x y H2 Hfr Hq Hres Hrec) as (Sg & mm & Em & Sh & Fr).
  split; [exact Sg|]. exists mm.
  destruct (C86_printed le mm _ na [(epc, [])] Sh) as (text & Et & Lt2); [|reflexivity|exact Fr|].
  2: { exists text. split; [exact Em|]. split; [exact Et|exact Lt2]. }
  apply (answer_frame_ok le net snet c _ 113 (epc, []) Hc); [|unfold byte_val; lia|unfold two_lists; lia|].
  - destruct P as (_ & _ & _ & _ & P). exact P.
  - split; [unfold byte_val; cbn [fst]; lia|]. cbn [snd]. split; [constructor|cbn [length]; lia].
Qed.
Print Assumptions C93_tool.

(* Without a response (0x60): the value is stored, there is no answer, and the program does not wait for one. *)
Theorem C93_tool_oneway : forall le net snet u c dst na obj esv t eoj epc v,
  api_ctrl le net snet std_db c -> has_object (c_node c) 978945 -> n_addr dst = Some na ->
  numeral obj (eoj_code eoj) -> eoj_ok eoj -> has_object dst (eoj_code eoj) -> numeral esv 96 -> spells t (epc :: len v :: v) ->
  exists c1 bytes, uechopost le net u c dst obj esv t = Ok (c1, [PSend na bytes], false) /\ c_req c1 = c_req c /\ c_res c1 = c_res c
  /\ forall le' net' dec n la ca r,
     api_node le' net' std_db n -> node_data n (eoj_code eoj) epc <> None ->
     node_receive le' net' dec n bytes la (Some ca) = Ok r -> agreed r ->
     wrote n (r_node r) (eoj_code eoj) epc v /\ r_answer r = [].
Proof.
  intros le net snet u c dst na obj esv t eoj epc v Hc Hp Ha No Ho Hob Ne Sp.
  pose proof (spells_bytes _ _ Sp) as By. inversion By as [|? ? Bc By1]; subst. inversion By1 as [|? ? Bl Bv]; subst. unfold is_byte in Bc, Bl.
  assert (Rd : reads (epc :: len v :: v) [(epc, v)]).
  { pose proof (rd_prop epc v [] []) as X. rewrite app_nil_r in X. apply X. apply rd_end. cbn [length]. lia. }
  assert (Fw : (length (first_writes [(epc, v)]) <= 255)%nat) by (cbn; lia).
  assert (Lt : len (t ++ []) <= OBJ_MAX).
  { rewrite app_nil_r. unfold len in *. rewrite (spells_len _ _ Sp). cbn [length]. unfold OBJ_MAX. lia. }
  assert (Nt : ~ two_lists 96) by (unfold two_lists; lia).
  destruct (C86_message_partial le u dst obj esv t [] (epc :: len v :: v) [(epc, v)] eoj 96 No Ho Hob Ne ltac:(lia) Nt Sp ltac:(cbn [length]; lia) Rd Fw Lt) as (m & E & P).
  rewrite app_nil_r in E.
  assert (Mg : merged [(epc, v)] = [(epc, v)]) by (unfold merged; cbn; rewrite Z.eqb_refl; reflexivity). rewrite Mg in P.
  destruct (C51_write le net snet c m _ epc v dst na Hc Hp P eq_refl eq_refl Ha) as (s & bytes & E1 & Ps & K).
  exists (c_with_node (s_node s) c), bytes. split; [|split; [reflexivity|split; [reflexivity|]]].
  { unfold uechopost. rewrite E. cbn [bind]. assert (Em : m_esv m = 96) by (destruct P as (_ & _ & _ & (_ & _ & _ & X & _) & _); exact X).
    assert (Rq : uecho_message_isresponserequired m = false) by (unfold uecho_message_isresponserequired; rewrite Em; reflexivity).
    rewrite Rq, E1. cbn [bind]. rewrite Ps. reflexivity. }
  intros le' net' dec n la ca r Hn Hd Hr Hag. cbn [f_deoj f_esv] in K. destruct (K le' net' dec n la ca r Hn Hd Hr Hag) as (W1 & W2 & A & _).
  split; [|exact (A eq_refl)]. split; [exact W1|]. intros code' e He. apply W2. intro X. injection X as -> ->. destruct He; congruence.
Qed.
Print Assumptions C93_tool_oneway.

(* After that, reading the property with uechopost, from the same controller or another, shows the value that was written. *)
Theorem C93_read_back : forall le net snet u c dst na obj esv t eoj epc v c1 bytes sent le' net' dec n la ca r,
  api_ctrl le net snet std_db c -> has_object (c_node c) 978945 -> n_addr dst = Some na ->
  numeral obj (eoj_code eoj) -> eoj_ok eoj -> has_object dst (eoj_code eoj) -> numeral esv 97 -> spells t (epc :: len v :: v) ->
  uechopost le net u c dst obj esv t = Ok (c1, [PSend na bytes], sent) ->
  api_node le' net' std_db n -> node_data n (eoj_code eoj) epc <> None ->
  node_receive le' net' dec n bytes la (Some ca) = Ok r -> agreed r ->
  forall ge gnet gsnet gu gc gdst gobj gesv gt, api_ctrl ge gnet gsnet std_db gc -> has_object (c_node gc) 978945 -> n_addr gdst = Some na ->
  numeral gobj (eoj_code eoj) -> has_object gdst (eoj_code eoj) -> numeral gesv 98 -> spells gt [epc; 0] ->
  exists gc1 gbytes gsent, uechopost ge gnet gu gc gdst gobj gesv gt = Ok (gc1, [PSend na gbytes], gsent)
  /\ forall gdec gla gca gr, node_receive le' net' gdec (r_node r) gbytes gla (Some gca) = Ok gr -> agreed gr ->
     exists ans, r_answer gr = [PSend gca ans]
     /\ forall dec2 fr c2 r2 la2 x y, api_ctrl ge gnet gsnet std_db c2 -> fresh_ok fr ->
          c_req c2 = c_req gc1 -> c_res c2 = MMsg r2 ->
          ctrl_receive ge gnet gsnet std_db dec2 fr c2 ans la2 (Some na) = Ok (x, y) ->
          cr_signal y = true
          /\ exists m text, c_res (cr_ctrl y) = MMsg m /\ uechopost_print_objectresponse m = Ok text
             /\ response_line (chars na) eoj 114 [(epc, v)] text.
Proof.
  intros le net snet u c dst na obj esv t eoj epc v c1 bytes sent le' net' dec n la ca r Hc Hp Ha No Ho Hob Ne Sp E Hn Hd R Ag.
  intros ge gnet gsnet gu gc gdst gobj gesv gt Gc Gp Ga Go Gob Ge Gs.
  pose proof (spells_bytes _ _ Sp) as By. inversion By as [|? ? Bc By1]; subst. inversion By1 as [|? ? Bl Bv]; subst. unfold is_byte in Bc, Bl.
  destruct (C93_tool le net snet u c dst na obj esv t eoj epc v Hc Hp Ha No Ho Hob Ne Sp) as (c1' & bytes' & sent' & E' & Hb & K).
  rewrite E in E'. injection E' as <- <- <-. destruct (K le' net' dec n la ca r Hn Hd R Ag) as ((W & _) & _).
  destruct (C86_get ge gnet gsnet gu gc gdst na gobj gesv gt eoj epc Gc Gp Ga Go Ho Gob Ge Gs) as (gc1 & gbytes & gsent & Eg & Kg).
  exists gc1, gbytes, gsent. split; [exact Eg|]. intros gdec gla gca gr Rg Agr.
  assert (A' : api_node le' net' std_db (r_node r)).
  { destruct (api_node_ok _ _ _ _ std_db_ok Hn) as [Ni M].
    pose proof (bound_receive 1099511627776 ltac:(lia) _ _ _ _ _ _ _ _ Ni M Hb R M) as Mr.
    eapply P_System.api_step with (x := NReceive bytes la (Some ca) dec); [exact Hn|exact M|exact Mr|exact Hb|]. cbn [nstep]. rewrite R. reflexivity. }
  exact (Kg le' net' gdec (r_node r) gla gca gr v A' W ltac:(lia) Rg Agr).
Qed.
Print Assumptions C93_read_back.

(* switching the device on: 0x80 was 0x30 and is 0x31 *)
Example C93_example :
  posted garbage "013001" "61" "800131" = Some (there, Some (request_frame true ctrl2 set80, []), true)
  /\ spells (txt "800131") [128; len [49]; 49] /\ numeral (txt "61") 97 /\ api_node true net_up std_db node3
  /\ node_data node3 (eoj_code (1, 48, 1)) 128 = Some [48]
  /\ node_receive true net_up yes node3 (enc_frame (request_frame true ctrl2 set80)) here (Some there) = Ok (react_to ctrl2 set80)
  /\ agreed (react_to ctrl2 set80)
  /\ r_answer (react_to ctrl2 set80) = [PSend there (enc_frame (answer_frame true ctrl2 set80 113 [(128, [])]))].
Proof.
  split; [vm_compute; reflexivity|]. split; [apply (unspell_ok 6); [vm_compute; lia|vm_compute; reflexivity]|].
  split; [eapply numeral_check; vm_compute; reflexivity|]. split; [exact node3_api|]. split; [vm_compute; reflexivity|].
  split; [apply react_to_ok; vm_compute; reflexivity|]. split; [apply agreed_check; vm_compute; reflexivity|]. vm_compute. reflexivity.
Qed.
