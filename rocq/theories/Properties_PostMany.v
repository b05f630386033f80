(* C93: posted requests that write several properties. *)
From Coq Require Import String Ascii ZArith List Bool Lia ZifyBool ZifyNat.
From Verif Require P_System.
From Verif Require Import CSem M_Const M_Misc M_Property M_Message M_PropertyList M_Object M_Node M_NodeListener M_Controller M_Query M_PostTool P_Bound
  StdDB_Data M_Std Spec_Frame Spec_Message Spec_Map Spec_Object Spec_Node Spec_Request Spec_Controller Spec_PostTool Run_Object Run_Node
  Run_Controller P_Base P_Misc P_Message P_Encode P_MsgApi P_PropertyList P_Object P_ObjectRun P_ObjectReach P_Std P_Node
  P_Request Properties_Object P_NodeReach P_NodeProfile P_NodeInv P_NodeRun P_NodeProps P_RequestProps P_RequestApi P_NodeSafe
  P_Shadow P_Controller P_ControllerProps Properties_Message Properties_Node Properties_Request Properties_Controller P_EndToEnd
  Properties_EndToEnd P_PostTool Properties_PostTool Properties_PostSet.
Import ListNotations.
Open Scope Z_scope.
Ltac Zify.zify_post_hook ::= Z.div_mod_to_equations.

(* the device has the last value written to each property of the list, and everything else as before *)
Definition all_written (n n' : node) (code : Z) (ps : list epair) : Prop :=
  (forall c, node_data n' code c = match last_data ps c with Some d => Some d | None => node_data n code c end)
  /\ forall code' c, code' <> code -> node_data n' code' c = node_data n code' c.

Definition codes_only (ps : list epair) : list epair := map (fun e => (fst e, [])) ps.

Lemma many_answer : forall le net dec n f rest la a r ps,
  receives le net dec n f rest la (Some a) r -> f_esv f = 97 -> f_body f = Plain ps ->
  has_object n (dest f) -> Forall (fun e : epair => node_data n (dest f) (fst e) <> None) ps -> agreed r -> (2 <= length ps)%nat ->
  r_answer r = [PSend a (enc_frame (mkFrame (f_tid f) (f_deoj f) (f_seoj f) 80 (Plain (codes_only ps))))].
Proof.
  intros le net dec n f rest la a r ps R W Eb O Ex Ag L. destruct (has_object_some _ _ O) as [o G].
  assert (Q : request_esv (f_esv f)) by (rewrite W; unfold request_esv; cbn [In]; lia).
  assert (Nr : read_esv (f_esv f) = false) by (rewrite W; reflexivity).
  destruct (plain_answer _ _ _ _ _ _ _ _ _ ps _ R G Q Eb) as (segs & E1 & F2 & _ & _ & A); [congruence|].
  assert (V : verdicts o ps segs = map (fun _ => true) ps).
  { apply (verdicts_all _ _ _ _ F2). rewrite <- E1. split; [|exact Ag]. eapply Forall_impl; [|exact Ex].
    cbv beta. intros e. rewrite (odata_node _ _ _ G). tauto. }
  cbv zeta in A. pose proof (one_range (verdicts o ps segs)) as Hr.
  assert (E : (one (verdicts o ps segs) =? len ps) = false) by (unfold len; lia).
  rewrite E in A. rewrite V in A.
  assert (M : answer_all (f_esv f) (node_data n (dest f)) ps (map (fun _ => true) ps) = codes_only ps).
  { unfold answer_all, answer_pair, codes_only. rewrite Nr. clear. induction ps as [|e ps IH]; [reflexivity|]. cbn [map combine fst snd]. rewrite IH. reflexivity. }
  rewrite M in A. rewrite A, W. reflexivity.
Qed.

(* A posted request that writes two or more properties the device has, all accepted: every value is stored, and nothing else has
   changed, but what the waiting call gets is the refusal 0x50. *)
Theorem C93_many : forall le net snet c q f ps dst na r0,
  api_ctrl le net snet std_db c -> has_object (c_node c) 978945 -> prepared le q f ->
  f_esv f = 97 -> f_body f = Plain ps -> (2 <= length ps)%nat -> n_addr dst = Some na ->
  exists c1 bytes sent, postmessage_begin le net c dst q r0 = Ok (c1, [PSend na bytes], sent)
  /\ c_res c1 = MMsg r0 /\ buffer bytes
  /\ forall le' net' dec n la ca r,
     api_node le' net' std_db n -> Forall (fun e : epair => node_data n (eoj_code (f_deoj f)) (fst e) <> None) ps ->
     node_receive le' net' dec n bytes la (Some ca) = Ok r -> agreed r ->
     all_written n (r_node r) (eoj_code (f_deoj f)) ps
     /\ exists ans, r_answer r = [PSend ca ans]
     /\ forall dec2 fr c2 r2 la2 x y, api_ctrl le net snet std_db c2 -> fresh_ok fr ->
          c_req c2 = c_req c1 -> c_res c2 = MMsg r2 ->
          ctrl_receive le net snet std_db dec2 fr c2 ans la2 (Some na) = Ok (x, y) ->
          cr_signal y = true
          /\ exists m, c_res (cr_ctrl y) = MMsg m
             /\ shows le m (answer_frame le c f 80 (codes_only ps)) /\ m_from m = Some na.
Proof.
  intros le net snet c q f ps dst na r0 Hc Hp Q He Hbd L Ha.
  destruct (C43_request le net snet c q f dst na Hc Hp Q Ha) as (s & E & P & _ & _ & S & G).
  exists (c_with_post (MMsg (s_msg s)) (MMsg r0) (c_with_node (s_node s) c)), (enc_frame (request_frame le c f)), (s_ret s).
  split; [|split; [reflexivity|split; [apply frame_buffer; exact G|]]].
  { unfold postmessage_begin. change (uecho_controller_sendmessage le net (c_with_post (MMsg q) (MMsg r0) c) dst q)
      with (uecho_controller_sendmessage le net c dst q). rewrite E. cbn [bind]. rewrite P. reflexivity. }
  intros le' net' dec n la ca r Hn Hd R Ag. set (g := request_frame le c f) in *.
  assert (Rv : receives le' net' dec n g [] la (Some ca) r).
  { split; [exact Hn|]. split; [exact G|]. rewrite app_nil_r. split; [apply frame_buffer; exact G|exact R]. }
  assert (Eg : f_esv g = 97) by exact He. assert (Bg : f_body g = Plain ps) by exact Hbd.
  assert (Dg : Forall (fun e : epair => node_data n (dest g) (fst e) <> None) ps) by exact Hd.
  assert (O : has_object n (dest g)).
  { destruct ps as [|e ps']; [cbn [length] in L; lia|]. inversion Dg as [|? ? D1 _]; subst.
    unfold has_object. unfold node_data in D1. destruct (uecho_node_getobjectbycode n (dest g)); [discriminate|contradiction]. }
  assert (W : write_esv (f_esv g) = true) by (rewrite Eg; reflexivity).
  split; [exact (C26_stored _ _ _ _ _ _ _ _ _ _ Rv W Bg O Dg Ag)|].
  pose proof (many_answer _ _ _ _ _ _ _ _ _ _ Rv Eg Bg O Dg Ag L) as A.
  eexists. split; [exact A|]. intros dec2 fr c2 r2 la2 x y H2 Hfr Eq Er H.
  change (mkFrame (f_tid g) (f_deoj g) (f_seoj g) 80 (Plain (codes_only ps))) with (answer_frame le c f 80 (codes_only ps)) in H.
  assert (Ga : frame_ok (answer_frame le c f 80 (codes_only ps))).
  { destruct Q as (_ & _ & _ & _ & Gb). destruct Gb as (_ & _ & _ & De & _ & Gb). rewrite Hbd in Gb. destruct Gb as (_ & Gb & Gl).
    destruct (tid_next_ok _ _ _ _ Hc) as [T0 T1].
    split; [exact T0|]. split; [exact T1|]. split; [exact De|]. split; [cbn; unfold byte_val; lia|]. split; [cbn; unfold byte_val; lia|].
    split; [cbn; unfold two_lists; lia|]. split; [|unfold codes_only; rewrite map_length; exact Gl].
    unfold codes_only. apply Forall_map. eapply Forall_impl; [|exact Gb]. intros e He2. split; [apply He2|]. cbn [snd]. split; [constructor|cbn [length]; lia]. }
  destruct (heard_some _ _ _ _ _ _ _ _ _ _ _ H2 Hfr Ga H) as (x' & -> & Hh).
  destruct (hears_post le net snet std_db std_db_ok _ _ _ _ _ _ _ _ _ (s_msg s) r2 (request_frame le c f) Hh) as (B1 & _ & B2);
    [rewrite Eq; reflexivity|exact Er|exact G|exact S|eexists; reflexivity|reflexivity|cbn [request_frame answer_frame f_esv]; rewrite He; lia|].
  auto.
Qed.
Print Assumptions C93_many.

(* A posted request that writes one property, refused because the object does not have it or a handler does not agree: nothing of
   the device has changed, and the waiting call gets the refusal with the value that was sent. *)
Theorem C93_refused : forall le net snet c q f epc v dst na r0,
  api_ctrl le net snet std_db c -> has_object (c_node c) 978945 -> prepared le q f ->
  f_esv f = 97 -> f_body f = Plain [(epc, v)] -> n_addr dst = Some na ->
  exists c1 bytes sent, postmessage_begin le net c dst q r0 = Ok (c1, [PSend na bytes], sent)
  /\ c_res c1 = MMsg r0 /\ buffer bytes
  /\ forall le' net' dec n la ca r,
     api_node le' net' std_db n -> has_object n (eoj_code (f_deoj f)) ->
     node_receive le' net' dec n bytes la (Some ca) = Ok r ->
     node_data n (eoj_code (f_deoj f)) epc = None \/ (exists x, In x (r_calls r) /\ snd x = false) ->
     (forall code e, node_data (r_node r) code e = node_data n code e)
     /\ exists ans, r_answer r = [PSend ca ans]
     /\ forall dec2 fr c2 r2 la2 x y, api_ctrl le net snet std_db c2 -> fresh_ok fr ->
          c_req c2 = c_req c1 -> c_res c2 = MMsg r2 ->
          ctrl_receive le net snet std_db dec2 fr c2 ans la2 (Some na) = Ok (x, y) ->
          cr_signal y = true
          /\ exists m, c_res (cr_ctrl y) = MMsg m
             /\ shows le m (answer_frame le c f 80 [(epc, v)]) /\ m_from m = Some na.
Proof.
  intros le net snet c q f epc v dst na r0 Hc Hp Q He Hbd Ha.
  destruct (C43_request le net snet c q f dst na Hc Hp Q Ha) as (s & E & P & _ & _ & S & G).
  exists (c_with_post (MMsg (s_msg s)) (MMsg r0) (c_with_node (s_node s) c)), (enc_frame (request_frame le c f)), (s_ret s).
  split; [|split; [reflexivity|split; [apply frame_buffer; exact G|]]].
  { unfold postmessage_begin. change (uecho_controller_sendmessage le net (c_with_post (MMsg q) (MMsg r0) c) dst q)
      with (uecho_controller_sendmessage le net c dst q). rewrite E. cbn [bind]. rewrite P. reflexivity. }
  intros le' net' dec n la ca r Hn Ob R Rf. set (g := request_frame le c f) in *.
  assert (Rv : receives le' net' dec n g [] la (Some ca) r).
  { split; [exact Hn|]. split; [exact G|]. rewrite app_nil_r. split; [apply frame_buffer; exact G|exact R]. }
  assert (Eg : f_esv g = 97) by exact He. assert (Bg : f_body g = Plain [(epc, v)]) by exact Hbd.
  assert (O : has_object n (dest g)) by exact Ob. destruct (has_object_some _ _ O) as [o Go].
  assert (Rq : request_esv (f_esv g)) by (rewrite Eg; unfold request_esv; cbn [In]; lia).
  assert (Nr : read_esv (f_esv g) = false) by (rewrite Eg; reflexivity).
  destruct (plain_answer _ _ _ _ _ _ _ _ _ [(epc, v)] _ Rv Go Rq Bg) as (segs & E1 & F2 & D & Fo & A); [congruence|].
  assert (V : verdicts o [(epc, v)] segs = [false]).
  { assert (I : In false (verdicts o [(epc, v)] segs)).
    { eapply rejected_in; [exact F2|]. rewrite <- E1. destruct Rf as [Rf|Rf]; [left|right; exact Rf].
      exists (epc, v). split; [left; reflexivity|]. cbn [fst]. rewrite <- (odata_node _ _ _ Go). exact Rf. }
    inversion F2 as [|? seg ? ? _ F3]; subst. inversion F3; subst. unfold verdicts in *. cbn [combine map] in *. destruct I as [->|[]]. reflexivity. }
  rewrite V in D, A, Fo. unfold answer_all, answer_pair in A, Fo. rewrite Eg in D, A, Fo. cbn [combine map fst snd] in A, Fo.
  change (97 =? 97) with true in A, Fo. cbv iota in A, Fo.
  split.
  { intros code e. destruct (Z.eq_dec code (dest g)) as [->|Nc]; [rewrite D; reflexivity|].
    destruct (request_effects _ _ _ _ _ _ _ _ _ _ Rv Go Rq) as (_ & ns & b & all & EF & _). apply (ef_others _ _ _ _ _ _ _ _ _ _ EF). exact Nc. }
  change (r_answer r = [PSend ca (enc_frame (answer_frame le c f 80 [(epc, v)]))]) in A.
  eexists. split; [exact A|]. intros dec2 fr c2 r2 la2 x y H2 Hfr Eq Er H.
  assert (Ga : frame_ok (answer_frame le c f 80 [(epc, v)])).
  { eapply answer_frame_ok; [exact Hc|apply Q|unfold byte_val; lia|unfold two_lists; lia|]. inversion Fo; subst. assumption. }
  destruct (heard_some _ _ _ _ _ _ _ _ _ _ _ H2 Hfr Ga H) as (x' & -> & Hh).
  destruct (hears_post le net snet std_db std_db_ok _ _ _ _ _ _ _ _ _ (s_msg s) r2 (request_frame le c f) Hh) as (B1 & _ & B2);
    [rewrite Eq; reflexivity|exact Er|exact G|exact S|eexists; reflexivity|reflexivity|cbn [request_frame answer_frame f_esv]; rewrite He; lia|].
  auto.
Qed.
Print Assumptions C93_refused.

Example C93_many_example :
  prepared true (asked set2) set2 /\ f_esv set2 = 97 /\ f_body set2 = Plain [(128, [49]); (129, [16])]
  /\ node_data node3 (eoj_code (f_deoj set2)) 128 = Some [48] /\ node_data node3 (eoj_code (f_deoj set2)) 129 <> None
  /\ node_receive true net_up yes node3 (enc_frame (request_frame true ctrl2 set2)) here (Some there) = Ok (react_to ctrl2 set2)
  /\ agreed (react_to ctrl2 set2)
  /\ r_answer (react_to ctrl2 set2) = [PSend there (enc_frame (answer_frame true ctrl2 set2 80 [(128, []); (129, [])]))].
Proof.
  split; [apply asked_prepared; vm_compute; reflexivity|]. split; [reflexivity|]. split; [reflexivity|].
  split; [vm_compute; reflexivity|]. split; [vm_compute; discriminate|].
  split; [apply react_to_ok; vm_compute; reflexivity|]. split; [apply agreed_check; vm_compute; reflexivity|]. vm_compute. reflexivity.
Qed.

(* a handler of the device does not agree *)
Definition refused_react : reaction :=
  match node_receive true net_up no node3 (enc_frame (request_frame true ctrl2 set80)) here (Some there) with
  | Ok r => r | _ => mkReaction node3 [] [] [] [] end.
Example C93_refused_example :
  has_object node3 (eoj_code (f_deoj set80))
  /\ node_receive true net_up no node3 (enc_frame (request_frame true ctrl2 set80)) here (Some there) = Ok refused_react
  /\ (exists x, In x (r_calls refused_react) /\ snd x = false)
  /\ node_data (r_node refused_react) (eoj_code (f_deoj set80)) 128 = Some [48]
  /\ r_answer refused_react = [PSend there (enc_frame (answer_frame true ctrl2 set80 80 [(128, [49])]))].
Proof.
  split; [vm_compute; discriminate|]. split.
  { assert (X : is_ok (node_receive true net_up no node3 (enc_frame (request_frame true ctrl2 set80)) here (Some there)) = true) by (vm_compute; reflexivity).
    unfold refused_react. destruct (node_receive true net_up no node3 (enc_frame (request_frame true ctrl2 set80)) here (Some there)); [reflexivity|discriminate..]. }
  split; [eexists; split; [vm_compute; left; reflexivity|reflexivity]|]. split; vm_compute; reflexivity.
Qed.
