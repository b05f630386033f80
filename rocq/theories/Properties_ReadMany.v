(* C43: posted requests that read several properties, or are refused. *)
From Coq Require Import String Ascii ZArith List Bool Lia ZifyBool ZifyNat.
From Verif Require P_System.
From Verif Require Import CSem M_Const M_Misc M_Property M_Message M_PropertyList M_Object M_Node M_NodeListener M_Controller M_Query M_PostTool P_Bound
  StdDB_Data M_Std Spec_Frame Spec_Message Spec_Map Spec_Object Spec_Node Spec_Request Spec_Controller Spec_PostTool Run_Object Run_Node
  Run_Controller P_Base P_Misc P_Message P_Encode P_MsgApi P_PropertyList P_Object P_ObjectRun P_ObjectReach P_Std P_Node
  P_Request Properties_Object P_NodeReach P_NodeProfile P_NodeInv P_NodeRun P_NodeProps P_RequestProps P_RequestApi P_NodeSafe
  P_Shadow P_Controller P_ControllerProps Properties_Message Properties_Node Properties_Request Properties_Controller P_EndToEnd
  Properties_EndToEnd P_PostTool Properties_PostTool Properties_PostSet Properties_PostMany.
Import ListNotations.
Open Scope Z_scope.
Ltac Zify.zify_post_hook ::= Z.div_mod_to_equations.

(* a read changes no data *)
Lemma read_unchanged : forall le net dec n g la ca r o ps, receives le net dec n g [] la (Some ca) r ->
  uecho_node_getobjectbycode n (dest g) = Some o -> request_esv (f_esv g) -> write_esv (f_esv g) = false -> f_body g = Plain ps ->
  forall code e, node_data (r_node r) code e = node_data n code e.
Proof.
  intros le net dec n g la ca r o ps R Go Rq W Bg code e.
  destruct (request_effects _ _ _ _ _ _ _ _ _ _ R Go Rq) as (_ & ns & b & all & EF & _ & X). rewrite Bg in X. destruct X as (segs & _ & _ & E3 & _).
  destruct (Z.eq_dec code (dest g)) as [->|Nc]; [rewrite E3, W; reflexivity|]. apply (ef_others _ _ _ _ _ _ _ _ _ _ EF). exact Nc.
Qed.

(* A posted request that reads two or more properties the device has and agrees to show: the waiting call gets all the values, but
   in a refusal (0x52). *)
Theorem C43_many : forall le net snet c q f ps dst na r0,
  api_ctrl le net snet std_db c -> has_object (c_node c) 978945 -> prepared le q f ->
  f_esv f = 98 -> f_body f = Plain ps -> (2 <= length ps)%nat -> n_addr dst = Some na ->
  exists c1 bytes sent, postmessage_begin le net c dst q r0 = Ok (c1, [PSend na bytes], sent)
  /\ c_res c1 = MMsg r0 /\ buffer bytes
  /\ forall le' net' dec n la ca r vs,
     api_node le' net' std_db n ->
     Forall2 (fun (e : epair) d => node_data n (eoj_code (f_deoj f)) (fst e) = Some d /\ len d <= 255) ps vs ->
     node_receive le' net' dec n bytes la (Some ca) = Ok r -> agreed r ->
     (forall code e, node_data (r_node r) code e = node_data n code e)
     /\ exists ans, r_answer r = [PSend ca ans]
     /\ forall dec2 fr c2 r2 la2 x y, api_ctrl le net snet std_db c2 -> fresh_ok fr ->
          c_req c2 = c_req c1 -> c_res c2 = MMsg r2 ->
          ctrl_receive le net snet std_db dec2 fr c2 ans la2 (Some na) = Ok (x, y) ->
          cr_signal y = true
          /\ exists m, c_res (cr_ctrl y) = MMsg m
             /\ shows le m (answer_frame le c f 82 (combine (map fst ps) vs)) /\ m_from m = Some na.
Proof.
  intros le net snet c q f ps dst na r0 Hc Hp Q He Hbd L Ha.
  destruct (C43_request le net snet c q f dst na Hc Hp Q Ha) as (s & E & P & _ & _ & S & G).
  exists (c_with_post (MMsg (s_msg s)) (MMsg r0) (c_with_node (s_node s) c)), (enc_frame (request_frame le c f)), (s_ret s).
  split; [|split; [reflexivity|split; [apply frame_buffer; exact G|]]].
  { unfold postmessage_begin. change (uecho_controller_sendmessage le net (c_with_post (MMsg q) (MMsg r0) c) dst q)
      with (uecho_controller_sendmessage le net c dst q). rewrite E. cbn [bind]. rewrite P. reflexivity. }
  intros le' net' dec n la ca r vs Hn Hd R Ag. set (g := request_frame le c f) in *.
  assert (Rv : receives le' net' dec n g [] la (Some ca) r).
  { split; [exact Hn|]. split; [exact G|]. rewrite app_nil_r. split; [apply frame_buffer; exact G|exact R]. }
  assert (Eg : f_esv g = 98) by exact He.
  assert (Rq : request_esv (f_esv g)) by (rewrite Eg; unfold request_esv; cbn [In]; lia).
  assert (Bg : f_body g = Plain ps) by exact Hbd.
  assert (Fd : Forall2 (fun (e : epair) d => node_data n (dest g) (fst e) = Some d /\ len d <= 255) ps vs) by exact Hd.
  assert (Dg : Forall (fun e : epair => node_data n (dest g) (fst e) <> None) ps).
  { clear - Fd. induction Fd as [|e d ps vs [X _] F IH]; constructor; [rewrite X; discriminate|exact IH]. }
  assert (Sh : forall e d, In e ps -> node_data n (dest g) (fst e) = Some d -> len d <= 255).
  { clear - Fd. intros e d I X. induction Fd as [|e' d' ps vs [Y Y'] F IH]; [destruct I|]. destruct I as [->|I]; [congruence|apply IH; exact I]. }
  assert (Cu : current n (dest g) ps = combine (map fst ps) vs).
  { clear - Fd. unfold current. induction Fd as [|e d ps vs [X _] F IH]; [reflexivity|]. cbn [map combine]. rewrite X, IH. reflexivity. }
  assert (O : has_object n (dest g)).
  { destruct ps as [|e ps']; [cbn [length] in L; lia|]. inversion Dg as [|? ? D1 _]; subst.
    unfold has_object. unfold node_data in D1. destruct (uecho_node_getobjectbycode n (dest g)); [discriminate|contradiction]. }
  destruct (has_object_some _ _ O) as [o Go].
  assert (W : write_esv (f_esv g) = false) by (rewrite Eg; reflexivity).
  split; [exact (read_unchanged _ _ _ _ _ _ _ _ _ _ Rv Go Rq W Bg)|].
  assert (Rd : read_esv (f_esv g) = true) by (rewrite Eg; reflexivity).
  pose proof (C27_many_error _ _ _ _ _ _ _ _ _ _ Rv Rd Bg O Dg Ag Sh L) as A. cbv zeta in A. rewrite Eg, Cu in A.
  change (r_answer r = [PSend ca (enc_frame (answer_frame le c f 82 (combine (map fst ps) vs)))]) in A.
  eexists. split; [exact A|]. intros dec2 fr c2 r2 la2 x y H2 Hfr Eq Er H.
  assert (Ga : frame_ok (answer_frame le c f 82 (combine (map fst ps) vs))).
  { destruct Q as (_ & _ & _ & _ & Gb). destruct Gb as (_ & _ & _ & De & _ & Gb). rewrite Hbd in Gb. destruct Gb as (_ & Gb & Gl).
    destruct (tid_next_ok _ _ _ _ Hc) as [T0 T1].
    split; [exact T0|]. split; [exact T1|]. split; [exact De|]. split; [cbn; unfold byte_val; lia|]. split; [cbn; unfold byte_val; lia|].
    split; [cbn; unfold two_lists; lia|]. rewrite <- Cu. split; [|unfold current; rewrite map_length; exact Gl].
    unfold current. apply Forall_map. rewrite Forall_forall in *. intros e Ie. split; [apply (Gb e Ie)|]. cbn [snd fst].
    destruct (node_data n (dest g) (fst e)) as [d|] eqn:Ed; [|split; [constructor|cbn [length]; lia]].
    pose proof (Sh e d Ie Ed) as Sd. split; [exact (node_data_bytes _ _ _ _ _ _ Hn Ed)|unfold len in Sd; lia]. }
  destruct (heard_some _ _ _ _ _ _ _ _ _ _ _ H2 Hfr Ga H) as (x' & -> & Hh).
  destruct (hears_post le net snet std_db std_db_ok _ _ _ _ _ _ _ _ _ (s_msg s) r2 (request_frame le c f) Hh) as (B1 & _ & B2);
    [rewrite Eq; reflexivity|exact Er|exact G|exact S|eexists; reflexivity|reflexivity|cbn [request_frame answer_frame f_esv]; rewrite He; lia|].
  auto.
Qed.
Print Assumptions C43_many.

(* A posted request that reads one property, refused because the object does not have it or a handler does not agree: the waiting
   call gets the refusal (0x52), without data. *)
Theorem C43_refused : forall le net snet c q f epc d0 dst na r0,
  api_ctrl le net snet std_db c -> has_object (c_node c) 978945 -> prepared le q f ->
  f_esv f = 98 -> f_body f = Plain [(epc, d0)] -> n_addr dst = Some na ->
  exists c1 bytes sent, postmessage_begin le net c dst q r0 = Ok (c1, [PSend na bytes], sent)
  /\ c_res c1 = MMsg r0 /\ buffer bytes
  /\ forall le' net' dec n la ca r,
     api_node le' net' std_db n -> has_object n (eoj_code (f_deoj f)) ->
     (forall d, node_data n (eoj_code (f_deoj f)) epc = Some d -> len d <= 255) ->
     node_receive le' net' dec n bytes la (Some ca) = Ok r ->
     node_data n (eoj_code (f_deoj f)) epc = None \/ (exists x, In x (r_calls r) /\ snd x = false) ->
     (forall code e, node_data (r_node r) code e = node_data n code e)
     /\ exists ans, r_answer r = [PSend ca ans]
     /\ forall dec2 fr c2 r2 la2 x y, api_ctrl le net snet std_db c2 -> fresh_ok fr ->
          c_req c2 = c_req c1 -> c_res c2 = MMsg r2 ->
          ctrl_receive le net snet std_db dec2 fr c2 ans la2 (Some na) = Ok (x, y) ->
          cr_signal y = true
          /\ exists m, c_res (cr_ctrl y) = MMsg m
             /\ shows le m (answer_frame le c f 82 [(epc, [])]) /\ m_from m = Some na.
Proof.
  intros le net snet c q f epc d0 dst na r0 Hc Hp Q He Hbd Ha.
  destruct (C43_request le net snet c q f dst na Hc Hp Q Ha) as (s & E & P & _ & _ & S & G).
  exists (c_with_post (MMsg (s_msg s)) (MMsg r0) (c_with_node (s_node s) c)), (enc_frame (request_frame le c f)), (s_ret s).
  split; [|split; [reflexivity|split; [apply frame_buffer; exact G|]]].
  { unfold postmessage_begin. change (uecho_controller_sendmessage le net (c_with_post (MMsg q) (MMsg r0) c) dst q)
      with (uecho_controller_sendmessage le net c dst q). rewrite E. cbn [bind]. rewrite P. reflexivity. }
  intros le' net' dec n la ca r Hn Ob Sd R Rf. set (g := request_frame le c f) in *.
  assert (Rv : receives le' net' dec n g [] la (Some ca) r).
  { split; [exact Hn|]. split; [exact G|]. rewrite app_nil_r. split; [apply frame_buffer; exact G|exact R]. }
  assert (Eg : f_esv g = 98) by exact He.
  assert (Rq : request_esv (f_esv g)) by (rewrite Eg; unfold request_esv; cbn [In]; lia).
  assert (Bg : f_body g = Plain [(epc, d0)]) by exact Hbd.
  assert (O : has_object n (dest g)) by exact Ob. destruct (has_object_some _ _ O) as [o Go].
  destruct (plain_answer _ _ _ _ _ _ _ _ _ [(epc, d0)] _ Rv Go Rq Bg) as (segs & E1 & F2 & _ & Fo & A).
  { intros _ e d [<-|[]] X. apply Sd. exact X. }
  assert (V : verdicts o [(epc, d0)] segs = [false]).
  { assert (I : In false (verdicts o [(epc, d0)] segs)).
    { eapply rejected_in; [exact F2|]. rewrite <- E1. destruct Rf as [Rf|Rf]; [left|right; exact Rf].
      exists (epc, d0). split; [left; reflexivity|]. cbn [fst]. rewrite <- (odata_node _ _ _ Go). exact Rf. }
    inversion F2 as [|? seg ? ? _ F3]; subst. inversion F3; subst. unfold verdicts in *. cbn [combine map] in *. destruct I as [->|[]]. reflexivity. }
  rewrite V in A, Fo. unfold answer_all, answer_pair in A, Fo. rewrite Eg in A, Fo. cbn [combine map fst snd] in A, Fo.
  change (98 =? 97) with false in A, Fo. cbv iota in A, Fo.
  assert (W : write_esv (f_esv g) = false) by (rewrite Eg; reflexivity).
  split; [exact (read_unchanged _ _ _ _ _ _ _ _ _ _ Rv Go Rq W Bg)|].
  change (r_answer r = [PSend ca (enc_frame (answer_frame le c f 82 [(epc, [])]))]) in A.
  eexists. split; [exact A|]. intros dec2 fr c2 r2 la2 x y H2 Hfr Eq Er H.
  assert (Ga : frame_ok (answer_frame le c f 82 [(epc, [])])).
  { eapply answer_frame_ok; [exact Hc|apply Q|unfold byte_val; lia|unfold two_lists; lia|]. inversion Fo; subst. assumption. }
  destruct (heard_some _ _ _ _ _ _ _ _ _ _ _ H2 Hfr Ga H) as (x' & -> & Hh).
  destruct (hears_post le net snet std_db std_db_ok _ _ _ _ _ _ _ _ _ (s_msg s) r2 (request_frame le c f) Hh) as (B1 & _ & B2);
    [rewrite Eq; reflexivity|exact Er|exact G|exact S|eexists; reflexivity|reflexivity|cbn [request_frame answer_frame f_esv]; rewrite He; lia|].
  auto.
Qed.
Print Assumptions C43_refused.

Example C43_many_example :
  prepared true (asked get2) get2 /\ f_body get2 = Plain [(128, []); (129, [])]
  /\ node_data node3 (eoj_code (f_deoj get2)) 128 = Some [48] /\ node_data node3 (eoj_code (f_deoj get2)) 129 = Some [8]
  /\ node_receive true net_up yes node3 (enc_frame (request_frame true ctrl2 get2)) here (Some there) = Ok (react_to ctrl2 get2)
  /\ agreed (react_to ctrl2 get2)
  /\ r_answer (react_to ctrl2 get2) = [PSend there (enc_frame (answer_frame true ctrl2 get2 82 [(128, [48]); (129, [8])]))].
Proof.
  split; [apply asked_prepared; vm_compute; reflexivity|]. split; [reflexivity|]. split; [vm_compute; reflexivity|]. split; [vm_compute; reflexivity|].
  split; [apply react_to_ok; vm_compute; reflexivity|]. split; [apply agreed_check; vm_compute; reflexivity|]. vm_compute. reflexivity.
Qed.

(* a property the air conditioner does not have *)
Example C43_refused_example :
  prepared true (asked get_missing) get_missing /\ has_object node3 (eoj_code (f_deoj get_missing))
  /\ node_data node3 (eoj_code (f_deoj get_missing)) 240 = None
  /\ node_receive true net_up yes node3 (enc_frame (request_frame true ctrl2 get_missing)) here (Some there) = Ok (react_to ctrl2 get_missing)
  /\ r_answer (react_to ctrl2 get_missing) = [PSend there (enc_frame (answer_frame true ctrl2 get_missing 82 [(240, [])]))].
Proof.
  split; [apply asked_prepared; vm_compute; reflexivity|]. split; [vm_compute; discriminate|]. split; [vm_compute; reflexivity|].
  split; [apply react_to_ok; vm_compute; reflexivity|]. vm_compute. reflexivity.
Qed.
