(* C93: what uechopost shows when a device refuses. *)
From Coq Require Import String Ascii ZArith List Bool Lia ZifyBool ZifyNat.
From Verif Require P_System.
From Verif Require Import CSem M_Const M_Misc M_Property M_Message M_PropertyList M_Object M_Node M_NodeListener M_Controller M_Query M_PostTool P_Bound
  StdDB_Data M_Std Spec_Frame Spec_Message Spec_Map Spec_Object Spec_Node Spec_Request Spec_Controller Spec_PostTool Run_Object Run_Node
  Run_Controller P_Base P_Misc P_Message P_Encode P_MsgApi P_PropertyList P_Object P_ObjectRun P_ObjectReach P_Std P_Node
  P_Request Properties_Object P_NodeReach P_NodeProfile P_NodeInv P_NodeRun P_NodeProps P_RequestProps P_RequestApi P_NodeSafe
  P_Shadow P_Controller P_ControllerProps Properties_Message Properties_Node Properties_Request Properties_Controller P_EndToEnd
  Properties_EndToEnd P_PostTool Properties_PostTool Properties_PostSet Properties_PostMany Properties_ReadMany.
Import ListNotations.
Open Scope Z_scope.
Ltac Zify.zify_post_hook ::= Z.div_mod_to_equations.

(* A write with uechopost that the device refuses: nothing of the device has changed, and the line shows 0x50 and the value sent. *)
Theorem C93_tool_refused : forall le net snet u c dst na obj esv t eoj epc v,
  api_ctrl le net snet std_db c -> has_object (c_node c) 978945 -> n_addr dst = Some na ->
  numeral obj (eoj_code eoj) -> eoj_ok eoj -> has_object dst (eoj_code eoj) -> numeral esv 97 -> spells t (epc :: len v :: v) ->
  exists c1 bytes sent, uechopost le net u c dst obj esv t = Ok (c1, [PSend na bytes], sent) /\ buffer bytes
  /\ forall le' net' dec n la ca r,
     api_node le' net' std_db n -> has_object n (eoj_code eoj) ->
     node_receive le' net' dec n bytes la (Some ca) = Ok r ->
     node_data n (eoj_code eoj) epc = None \/ (exists x, In x (r_calls r) /\ snd x = false) ->
     (forall code e, node_data (r_node r) code e = node_data n code e)
     /\ exists ans, r_answer r = [PSend ca ans]
     /\ forall dec2 fr c2 r2 la2 x y, api_ctrl le net snet std_db c2 -> fresh_ok fr ->
          c_req c2 = c_req c1 -> c_res c2 = MMsg r2 ->
          ctrl_receive le net snet std_db dec2 fr c2 ans la2 (Some na) = Ok (x, y) ->
          cr_signal y = true
          /\ exists m text, c_res (cr_ctrl y) = MMsg m /\ uechopost_print_objectresponse m = Ok text
             /\ response_line (chars na) eoj 80 [(epc, v)] text.
Proof.
  intros le net snet u c dst na obj esv t eoj epc v Hc Hp Ha No Ho Hob Ne Sp.
  pose proof (spells_bytes _ _ Sp) as By. inversion By as [|? ? Bc By1]; subst. inversion By1 as [|? ? Bl Bv]; subst. unfold is_byte in Bc, Bl.
  assert (Rd : reads (epc :: len v :: v) [(epc, v)]).
  { pose proof (rd_prop epc v [] []) as X. rewrite app_nil_r in X. apply X. apply rd_end. cbn [length]. lia. }
  assert (Fw : (length (first_writes [(epc, v)]) <= 255)%nat) by (cbn; lia).
  assert (Lt : len (t ++ []) <= OBJ_MAX).
  { rewrite app_nil_r. unfold len in *. rewrite (spells_len _ _ Sp). cbn [length]. unfold OBJ_MAX. lia. }
  assert (Nt : ~ two_lists 97) by (unfold two_lists; lia).
  destruct (C86_message_partial le u dst obj esv t [] (epc :: len v :: v) [(epc, v)] eoj 97 No Ho Hob Ne ltac:(lia) Nt Sp ltac:(cbn [length]; lia) Rd Fw Lt) as (m & E & P).
  rewrite app_nil_r in E.
  assert (Mg : merged [(epc, v)] = [(epc, v)]) by (unfold merged; cbn; rewrite Z.eqb_refl; reflexivity). rewrite Mg in P.
  destruct (C93_refused le net snet c m _ epc v dst na uecho_message_new Hc Hp P eq_refl eq_refl Ha) as (c1 & bytes & sent & E1 & _ & Bf & K).
  exists c1, bytes, sent. split; [|split; [exact Bf|]].
  { unfold uechopost. rewrite E. cbn [bind]. assert (Em : m_esv m = 97) by (destruct P as (_ & _ & _ & (_ & _ & _ & X & _) & _); exact X).
    unfold uecho_message_isresponserequired. rewrite Em. cbn. rewrite E1. reflexivity. }
  intros le' net' dec n la ca r Hn Hd Hr Hag. cbn [f_deoj] in K. destruct (K le' net' dec n la ca r Hn Hd Hr Hag) as (W & ans & Ean & K2).
  split; [exact W|]. exists ans. split; [exact Ean|]. intros dec2 fr c2 r2 la2 x y H2 Hfr Hq Hres Hrec.
  destruct (K2 dec2 fr c2 r2 la2 x y H2 Hfr Hq Hres Hrec) as (Sg & mm & Em & Sh & Fr).
  split; [exact Sg|]. exists mm.
  destruct (C86_printed le mm _ na [(epc, v)] Sh) as (text & Et & Lt2); [|reflexivity|exact Fr|].
  2: { exists text. split; [exact Em|]. split; [exact Et|exact Lt2]. }
  apply (answer_frame_ok le net snet c _ 80 (epc, v) Hc); [|unfold byte_val; lia|unfold two_lists; lia|].
  - destruct P as (_ & _ & _ & _ & P). exact P.
  - destruct P as (_ & _ & _ & _ & P). destruct P as (_ & _ & _ & _ & _ & P). destruct P as (_ & P & _). inversion P; subst. assumption.
Qed.
Print Assumptions C93_tool_refused.

(* A read with uechopost that the device refuses: the line shows 0x52 and no value. *)
Theorem C93_tool_unread : forall le net snet u c dst na obj esv t eoj epc,
  api_ctrl le net snet std_db c -> has_object (c_node c) 978945 -> n_addr dst = Some na ->
  numeral obj (eoj_code eoj) -> eoj_ok eoj -> has_object dst (eoj_code eoj) -> numeral esv 98 -> spells t ([epc; 0]) ->
  exists c1 bytes sent, uechopost le net u c dst obj esv t = Ok (c1, [PSend na bytes], sent) /\ buffer bytes
  /\ forall le' net' dec n la ca r,
     api_node le' net' std_db n -> has_object n (eoj_code eoj) ->
     (forall d, node_data n (eoj_code eoj) epc = Some d -> len d <= 255) ->
     node_receive le' net' dec n bytes la (Some ca) = Ok r ->
     node_data n (eoj_code eoj) epc = None \/ (exists x, In x (r_calls r) /\ snd x = false) ->
     (forall code e, node_data (r_node r) code e = node_data n code e)
     /\ exists ans, r_answer r = [PSend ca ans]
     /\ forall dec2 fr c2 r2 la2 x y, api_ctrl le net snet std_db c2 -> fresh_ok fr ->
          c_req c2 = c_req c1 -> c_res c2 = MMsg r2 ->
          ctrl_receive le net snet std_db dec2 fr c2 ans la2 (Some na) = Ok (x, y) ->
          cr_signal y = true
          /\ exists m text, c_res (cr_ctrl y) = MMsg m /\ uechopost_print_objectresponse m = Ok text
             /\ response_line (chars na) eoj 82 [(epc, [])] text.
Proof.
  intros le net snet u c dst na obj esv t eoj epc Hc Hp Ha No Ho Hob Ne Sp.
  pose proof (spells_bytes _ _ Sp) as By. inversion By as [|? ? Bc By1]; subst. inversion By1 as [|? ? Bl Bv]; subst. unfold is_byte in Bc, Bl.
  assert (Rd : reads ([epc; 0]) [(epc, [])]).
  { pose proof (rd_prop epc [] [] []) as X. rewrite app_nil_r in X. apply X. apply rd_end. cbn [length]. lia. }
  assert (Fw : (length (first_writes [(epc, [])]) <= 255)%nat) by (cbn; lia).
  assert (Lt : len (t ++ []) <= OBJ_MAX).
  { rewrite app_nil_r. unfold len in *. rewrite (spells_len _ _ Sp). cbn [length]. unfold OBJ_MAX. lia. }
  assert (Nt : ~ two_lists 98) by (unfold two_lists; lia).
  destruct (C86_message_partial le u dst obj esv t [] ([epc; 0]) [(epc, [])] eoj 98 No Ho Hob Ne ltac:(lia) Nt Sp ltac:(cbn [length]; lia) Rd Fw Lt) as (m & E & P).
  rewrite app_nil_r in E.
  assert (Mg : merged [(epc, [])] = [(epc, [])]) by (unfold merged; cbn; rewrite Z.eqb_refl; reflexivity). rewrite Mg in P.
  destruct (C43_refused le net snet c m _ epc [] dst na uecho_message_new Hc Hp P eq_refl eq_refl Ha) as (c1 & bytes & sent & E1 & _ & Bf & K).
  exists c1, bytes, sent. split; [|split; [exact Bf|]].
  { unfold uechopost. rewrite E. cbn [bind]. assert (Em : m_esv m = 98) by (destruct P as (_ & _ & _ & (_ & _ & _ & X & _) & _); exact X).
    unfold uecho_message_isresponserequired. rewrite Em. cbn. rewrite E1. reflexivity. }
  intros le' net' dec n la ca r Hn Hd Hs Hr Hag. cbn [f_deoj] in K. destruct (K le' net' dec n la ca r Hn Hd Hs Hr Hag) as (W & ans & Ean & K2).
  split; [exact W|]. exists ans. split; [exact Ean|]. intros dec2 fr c2 r2 la2 x y H2 Hfr Hq Hres Hrec.
  destruct (K2 dec2 fr c2 r2 la2 x y H2 Hfr Hq Hres Hrec) as (Sg & mm & Em & Sh & Fr).
  split; [exact Sg|]. exists mm.
  destruct (C86_printed le mm _ na [(epc, [])] Sh) as (text & Et & Lt2); [|reflexivity|exact Fr|].
  2: { exists text. split; [exact Em|]. split; [exact Et|exact Lt2]. }
  apply (answer_frame_ok le net snet c _ 82 (epc, []) Hc); [|unfold byte_val; lia|unfold two_lists; lia|].
  - destruct P as (_ & _ & _ & _ & P). exact P.
  - split; [unfold byte_val; cbn [fst]; lia|]. cbn [snd]. split; [constructor|cbn [length]; lia].
Qed.
Print Assumptions C93_tool_unread.

(* the air conditioner refuses to be switched on, and has no property 0xF0 *)
Example C93_tool_refused_example :
  posted garbage "013001" "61" "800131" = Some (there, Some (request_frame true ctrl2 set80, []), true)
  /\ (exists x, In x (r_calls refused_react) /\ snd x = false)
  /\ posted garbage "013001" "62" "F000" = Some (there, Some (request_frame true ctrl2 get_missing, []), true)
  /\ node_data node3 (eoj_code (1, 48, 1)) 240 = None.
Proof.
  split; [vm_compute; reflexivity|]. split; [eexists; split; [vm_compute; left; reflexivity|reflexivity]|]. split; vm_compute; reflexivity.
Qed.
