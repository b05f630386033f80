(* C30-C32, C33 (requests), C44: SetGet requests, what a request leaves alone, the frames
   it leads to, and the handlers it consults.  See Properties_Request.v. *)
From Coq Require Import String ZArith List Bool Lia ZifyBool ZifyNat.
From Verif Require Import CSem M_Const M_Misc M_Property M_Message M_PropertyList M_Object M_Node M_NodeListener
  StdDB_Data M_Std Spec_Frame Spec_Message Spec_Map Spec_Object Spec_Node Spec_Request Run_Object Run_Node P_Base P_Misc
  P_Message P_Encode P_MsgApi P_PropertyList P_Object P_ObjectRun P_ObjectReach P_Std P_Node P_Request Properties_Object
  P_NodeReach P_NodeProfile P_NodeInv P_NodeRun P_NodeProps P_RequestProps P_RequestApi Properties_Node Properties_Request.
Import ListNotations.
Open Scope Z_scope.
Ltac Zify.zify_post_hook ::= Z.div_mod_to_equations.

(* what a datagram that is no request for an object of the node does *)
Lemma request_or_nothing : forall le net dec n f rest la ra r, receives le net dec n f rest la ra r ->
  (request_esv (f_esv f) /\ exists o, uecho_node_getobjectbycode n (dest f) = Some o)
  \/ (r_node r = n /\ r_anns r = [] /\ r_answer r = [] /\ r_calls r = []).
Proof.
  intros le net dec n f rest la ra r (Hn & Hf & Hb & H).
  destruct (uecho_node_getobjectbycode n (dest f)) as [o|] eqn:G; [destruct (uecho_esv_isrequest (f_esv f)) eqn:Q|].
  - left. split; [apply request_isrequest; exact Q|eauto].
  - right. destruct (C25_ignored le net dec n _ la ra Hn Hb) as (r' & E & A).
    + intros f' rest' E. rewrite dec_enc in E by assumption. injection E as <- <-. left. rewrite <- request_isrequest, Q. discriminate.
    + rewrite H in E. injection E as ->. exact A.
  - right. destruct (C25_ignored le net dec n _ la ra Hn Hb) as (r' & E & A).
    + intros f' rest' E. rewrite dec_enc in E by assumption. injection E as <- <-. right. unfold has_object. rewrite G. tauto.
    + rewrite H in E. injection E as ->. exact A.
Qed.

Lemma body_setget : forall f, frame_ok f -> request_esv (f_esv f) ->
  match f_body f with Plain _ => f_esv f <> 110 | SetGetBody _ _ => f_esv f = 110 end.
Proof.
  intros f (_ & _ & _ & _ & _ & Hb) Q. pose proof (body_two _ _ Hb) as B. destruct (f_body f).
  - intros E. rewrite E in B. discriminate.
  - apply isreq_two; [apply request_isrequest; exact Q|exact B].
Qed.

(* ---------- C30: SetGet ---------- *)

(* All properties exist and all handlers agree: the values are stored, and the answer
   carries the values after the writes.  Its ESV is 0x7E only when there is at most one
   property in each list, otherwise it is the error 0x5E.  Missing for the full statement:
   0x7E for longer lists, see C30_many_refuted; values above 255 bytes, see C32_refuted. *)
Theorem C30_setget_partial : forall le net dec n f rest la a r s g,
  receives le net dec n f rest la (Some a) r -> f_esv f = 110 -> f_body f = SetGetBody s g ->
  has_object n (dest f) -> Forall (fun e => node_data n (dest f) (fst e) <> None) (s ++ g) -> agreed r ->
  (forall e d, In e g -> node_data n (dest f) (fst e) = Some d -> len d <= 255) ->
  (forall c, node_data (r_node r) (dest f) c
             = match last_data s c with Some d => Some d | None => node_data n (dest f) c end)
  /\ (forall code c, code <> dest f -> node_data (r_node r) code c = node_data n code c)
  /\ r_answer r = [PSend a (enc_frame (mkFrame (f_tid f) (f_deoj f) (f_seoj f)
        (if (length s <=? 1)%nat && (length g <=? 1)%nat then 126 else 94)
        (SetGetBody (map (fun e => (fst e, [])) s) (current (r_node r) (dest f) g))))].
Proof.
  intros le net dec n f rest la a r s g R E110 Eb O Ex Ag Sh. destruct (has_object_some _ _ O) as [o G].
  assert (Q : request_esv (f_esv f)) by (rewrite E110; cbn; tauto).
  destruct (setget_answer _ _ _ _ _ _ _ _ _ s g _ R G E110 Eb Sh) as (s1 & s2 & E1 & F1 & F2 & E4 & _ & A).
  apply Forall_app in Ex. destruct Ex as [X1 X2]. unfold agreed in Ag. rewrite E1 in Ag. apply Forall_app in Ag. destruct Ag as [A1 A2].
  assert (V : verdicts o s s1 = map (fun _ => true) s).
  { apply (verdicts_all _ _ _ _ F1). split; [|exact A1]. eapply Forall_impl; [|exact X1]. cbv beta. intros e. rewrite (odata_node _ _ _ G). tauto. }
  assert (V2 : verdicts o g s2 = map (fun _ => true) g).
  { apply (verdicts_all _ _ _ _ F2). split; [|exact A2]. eapply Forall_impl; [|exact X2]. cbv beta. intros e. rewrite (odata_node _ _ _ G). tauto. }
  cbv zeta in *. rewrite V, V2 in A. rewrite V in E4.
  split; [intros c; rewrite E4; apply write_all_true|].
  destruct (request_effects _ _ _ _ _ _ _ _ _ _ R G Q) as (_ & ns & b & all & EF & _).
  split; [apply (ef_others _ _ _ _ _ _ _ _ _ _ EF)|].
  rewrite !one_all in A.
  assert (N : (match s with [] => 0 | _ => 1 end + match g with [] => 0 | _ => 1 end =? len s + len g)
              = (length s <=? 1)%nat && (length g <=? 1)%nat).
  { unfold len. destruct s as [|x [|y s]], g as [|z [|w g]]; cbn [length Nat.leb andb]; try reflexivity; lia. }
  rewrite N in A. rewrite A.
  assert (M1 : answer_all 97 (node_data n (dest f)) s (map (fun _ => true) s) = map (fun e => (fst e, [])) s).
  { clear. unfold answer_all, answer_pair. change (read_esv 97) with false. induction s as [|e s IH]; [reflexivity|]. cbn [map combine fst snd]. rewrite IH. reflexivity. }
  assert (M2 : answer_all 98 (node_data (r_node r) (dest f)) g (map (fun _ => true) g) = current (r_node r) (dest f) g).
  { clear. unfold answer_all, answer_pair, current. change (read_esv 98) with true. induction g as [|e g IH]; [reflexivity|]. cbn [map combine fst snd]. rewrite IH. reflexivity. }
  rewrite M1, M2. unfold reply_posts, from_of. destruct ((length s <=? 1)%nat && (length g <=? 1)%nat); reflexivity.
Qed.
Print Assumptions C30_setget_partial.

(* write 0x31 to 0x80, read 0x80 back *)
Definition setget1 : frame := ask 110 (SetGetBody [(128, [49])] [(128, [])]).
Example C30_example :
  let r := react yes node3 setget1 in
  receives true net_up yes node3 setget1 [] here (Some there) r /\ agreed r /\ length (r_calls r) = 2%nat
  /\ node_data node3 (dest setget1) 128 = Some [48]
  /\ r_answer r = [PSend there (enc_frame (mkFrame (9, 8) (1, 48, 1) (5, 255, 1) 126 (SetGetBody [(128, [])] [(128, [49])])))].
Proof.
  cbv zeta. split; [apply react_receives; [exact node3_api|vm_compute; reflexivity..]|].
  split; [apply agreed_check; vm_compute; reflexivity|]. split; [vm_compute; reflexivity|]. split; vm_compute; reflexivity.
Qed.

Definition setget2 : frame := ask 110 (SetGetBody [(128, [49]); (129, [16])] [(128, [])]).
Theorem C30_many_refuted : exists dec n f r,
  receives true net_up dec n f [] here (Some there) r /\ f_esv f = 110
  /\ f_body f = SetGetBody [(128, [49]); (129, [16])] [(128, [])] /\ agreed r
  /\ node_data (r_node r) (dest f) 128 = Some [49] /\ node_data (r_node r) (dest f) 129 = Some [16]
  /\ r_answer r = [PSend there (enc_frame (mkFrame (f_tid f) (f_deoj f) (f_seoj f) 94
       (SetGetBody [(128, []); (129, [])] [(128, [49])])))].
Proof.
  exists yes, node3, setget2, (react yes node3 setget2).
  split; [apply react_receives; [exact node3_api|vm_compute; reflexivity..]|]. split; [reflexivity|]. split; [reflexivity|].
  split; [apply agreed_check; vm_compute; reflexivity|]. split; [vm_compute; reflexivity|]. split; vm_compute; reflexivity.
Qed.
Print Assumptions C30_many_refuted.

(* A handler registered for SetGet (0x6E) itself is not consulted: the write goes through
   although every handler refuses. *)
Definition setget3 : frame := ask 110 (SetGetBody [(129, [16])] []).
Theorem C30_handler_refuted : exists n f r o,
  receives true net_up no n f [] here (Some there) r /\ f_esv f = 110 /\ f_body f = SetGetBody [(129, [16])] []
  /\ uecho_node_getobjectbycode n (dest f) = Some o /\ handlers o 110 129 = [Some 7%nat]
  /\ r_calls r = [] /\ node_data (r_node r) (dest f) 129 = Some [16]
  /\ r_answer r = [PSend there (enc_frame (mkFrame (f_tid f) (f_deoj f) (f_seoj f) 126 (SetGetBody [(129, [])] [])))].
Proof.
  exists node3, setget3, (react no node3 setget3). eexists.
  split; [apply react_receives; [exact node3_api|vm_compute; reflexivity..]|]. split; [reflexivity|]. split; [reflexivity|].
  split; [vm_compute; reflexivity|]. split; [vm_compute; reflexivity|]. split; [vm_compute; reflexivity|]. split; vm_compute; reflexivity.
Qed.
Print Assumptions C30_handler_refuted.

(* ---------- C31: nothing else changes ---------- *)

(* Receiving anything leaves the objects, their property codes, attributes and handlers,
   the address and the listener alone; data changes only in properties the request writes,
   in the object it addresses. *)
Theorem C31_frame : forall le net dec n f rest la ra r,
  receives le net dec n f rest la ra r ->
  map (fun o => (eoj_of o, o_obs o, map shape (o_props o))) (n_objs (r_node r))
  = map (fun o => (eoj_of o, o_obs o, map shape (o_props o))) (n_objs n)
  /\ n_addr (r_node r) = n_addr n /\ n_listener (r_node r) = n_listener n
  /\ (forall code c, ~ (code = dest f /\ In c (map fst (written f))) -> node_data (r_node r) code c = node_data n code c).
Proof.
  intros le net dec n f rest la ra r R.
  destruct (request_or_nothing _ _ _ _ _ _ _ _ _ R) as [[Q (o & G)]|(E & _)]; [|rewrite E; auto].
  destruct (request_effects _ _ _ _ _ _ _ _ _ _ R G Q) as (_ & ns & b & all & EF & _ & X).
  split; [apply (ef_shapes _ _ _ _ _ _ _ _ _ _ EF)|]. destruct (ef_fields _ _ _ _ _ _ _ _ _ _ EF) as (_ & A & B).
  split; [exact A|]. split; [exact B|]. intros code c N.
  destruct (Z.eq_dec code (dest f)) as [->|Nc]; [|apply (ef_others _ _ _ _ _ _ _ _ _ _ EF); exact Nc].
  assert (N' : ~ In c (map fst (written f))) by tauto. unfold written in N'.
  pose proof R as (_ & Hf & _). pose proof (body_setget _ Hf Q) as B2.
  destruct (f_body f) as [ps|s g].
  - destruct X as (segs & _ & _ & E3 & _). rewrite E3. destruct (write_esv (f_esv f)); [|reflexivity].
    apply write_all_other. exact N'.
  - destruct X as (s1 & s2 & _ & _ & _ & E4 & _). rewrite E4. rewrite B2 in N'. apply write_all_other. exact N'.
Qed.
Print Assumptions C31_frame.

Example C31_example :
  let r := react yes node3 set2 in
  receives true net_up yes node3 set2 [] here (Some there) r
  /\ map fst (written set2) = [128; 129] /\ node_data node3 (dest set2) 130 <> None
  /\ node_data (r_node r) (dest set2) 128 <> node_data node3 (dest set2) 128.
Proof.
  cbv zeta. split; [apply react_receives; [exact node3_api|vm_compute; reflexivity..]|].
  split; [reflexivity|]. split; vm_compute; discriminate.
Qed.

(* ---------- C32: every answer is a frame ---------- *)

(* Answers and notifications decode, completely, to a well-formed frame, provided that the
   values of the object fit a frame.  Missing for the full statement: longer values, see
   C32_refuted. *)
Lemma notes_ok : forall le ns t, 0 <= t -> Forall (fun e => epair_ok e) ns ->
  Forall (fun p => exists f', frame_ok f' /\ post_bytes p = enc_frame f' /\ f_esv f' = 115) (notes le t ns).
Proof.
  intros le. induction ns as [|e ns IH]; intros t Ht H; [constructor|]. inversion H as [|? ? (Hc & Hd & Hl) Hr]; subst.
  pose proof (next_tid_range t Ht) as T. cbn [notes]. constructor; [|apply IH; [lia|exact Hr]].
  eexists. split; [|split; [reflexivity|reflexivity]].
  apply notification_ok; [lia|apply node_profile_eoj_ok|apply is_byte_val; exact Hc|apply bytes_of_vals; exact Hd|unfold len; lia].
Qed.

Theorem C32_well_formed_partial : forall le net dec n f rest la ra r p,
  receives le net dec n f rest la ra r -> short_data n (dest f) -> In p (r_answer r ++ r_anns r) ->
  exists f', frame_ok f' /\ post_bytes p = enc_frame f' /\ dec_frame (post_bytes p) = Some (f', []).
Proof.
  intros le net dec n f rest la ra r p R Sh I.
  assert (X : exists f', frame_ok f' /\ post_bytes p = enc_frame f').
  { apply in_app_or in I. destruct I as [I|I].
    - destruct (C24_answer_partial _ _ _ _ _ _ _ _ _ p R Sh I) as (e & b & A & B & _). eexists. split; [exact B|exact A].
    - destruct (request_or_nothing _ _ _ _ _ _ _ _ _ R) as [[Q (o & G)]|(_ & E & _)]; [|rewrite E in I; contradiction].
      destruct (request_effects _ _ _ _ _ _ _ _ _ _ R G Q) as (_ & ns & b & all & EF & _ & X).
      rewrite (ef_anns _ _ _ _ _ _ _ _ _ _ EF) in I. destruct (profile n); [|contradiction].
      pose proof R as (Hn & Hf & _). destruct (api_node_ok _ _ _ _ std_db_ok Hn) as [N _].
      assert (Hns : Forall (fun e => epair_ok e) ns).
      { apply Forall_forall. intros e Ie. destruct (f_body f) as [ps|s g] eqn:Eb.
        - destruct X as (segs & _ & _ & _ & _ & _ & E6). rewrite E6 in Ie. destruct (write_esv (f_esv f)); [|contradiction].
          apply notices_in in Ie. pose proof (body_pairs _ _ Hf Eb) as P. rewrite Forall_forall in P. auto.
        - destruct X as (s1 & s2 & _ & _ & _ & _ & _ & _ & E6). rewrite E6 in Ie.
          apply notices_in in Ie. destruct (body_pairs2 _ _ _ Hf Eb) as [P _]. rewrite Forall_forall in P. auto. }
      pose proof (notes_ok le ns (n_tid n) (proj1 N) Hns) as P. rewrite Forall_forall in P.
      destruct (P _ I) as (f' & A & B & _). eauto. }
  destruct X as (f' & A & B). exists f'. split; [exact A|]. split; [exact B|]. rewrite B. rewrite <- (app_nil_r (enc_frame f')).
  apply dec_frame_iff; [|auto].
  rewrite app_nil_r. apply enc_frame_bytes. exact A.
Qed.
Print Assumptions C32_well_formed_partial.

(* A property holding 256 bytes: the length byte of the answer is 0, and the answer decodes
   to a frame with an empty value and 256 bytes left over. *)
Definition node5 : node := after (two_devs ++ [NObj 77825 (KStep (OSetData 240 (repeat 1 256)) zeros)]).
Lemma node5_api : api_node true net_up std_db node5.
Proof.
  apply after_api; [|vm_compute; reflexivity]. apply Forall_app. split; [apply devs_ok|]. constructor; [|constructor].
  cbn [nop_ok ocall_ok oop_ok]. split; [split; [cbn; lia|apply is_byteb_val; reflexivity]|].
  split; [intros c' E; injection E as <-; unfold epc_code; lia|exact zeros_ok].
Qed.
Theorem C32_refuted : exists n f r b f',
  receives true net_up yes n f [] here (Some there) r /\ f_body f = Plain [(240, [])] /\ f_esv f = 98
  /\ node_data n (dest f) 240 = Some (repeat 1 256)
  /\ r_answer r = [PSend there b]
  /\ dec_frame b = Some (f', repeat 1 256) /\ f_body f' = Plain [(240, [])].
Proof.
  exists node5, getF0, (react yes node5 getF0). eexists. eexists.
  split; [apply react_receives; [exact node5_api|vm_compute; reflexivity..]|]. split; [reflexivity|]. split; [reflexivity|].
  split; [vm_compute; reflexivity|]. split; [vm_compute; reflexivity|]. split; [vm_compute; reflexivity|]. vm_compute; reflexivity.
Qed.
Print Assumptions C32_refuted.

Example C32_example :
  let r := react yes node3 set80 in
  receives true net_up yes node3 set80 [] here (Some there) r /\ short_data node3 (dest set80)
  /\ length (r_answer r ++ r_anns r) = 2%nat.
Proof.
  cbv zeta. split; [apply react_receives; [exact node3_api|vm_compute; reflexivity..]|].
  split; [apply short_check; vm_compute; reflexivity|vm_compute; reflexivity].
Qed.

(* ---------- C33: a written value is announced ---------- *)

(* An accepted write to a property that announces its changes is multicast as an INF frame
   with the new value.  As in C33_announced_partial, the source of the frame is the node
   profile instead of the object. *)
Theorem C33_written_partial : forall le net dec n f rest la ra r o c d p,
  receives le net dec n f rest la ra r -> write_esv (f_esv f) = true -> f_body f = Plain [(c, d)] ->
  uecho_node_getobjectbycode n (dest f) = Some o -> uecho_object_getproperty o c = Some p ->
  uecho_property_isannounceable p = true -> p_parent p = true -> d <> [] -> agreed r ->
  has_object n 978945 ->
  r_anns r = [PAnnounce (enc_frame (notification le (next_tid (n_tid n)) node_profile_eoj c d))]
  /\ n_tid (r_node r) = next_tid (n_tid n).
Proof.
  intros le net dec n f rest la ra r o c d p R W Eb G F An Pa Hd Ag O.
  assert (Q : request_esv (f_esv f)) by (unfold write_esv in W; unfold request_esv; cbn [In]; lia).
  destruct (request_effects _ _ _ _ _ _ _ _ _ _ R G Q) as (_ & ns & b & all & EF & _ & X). rewrite Eb in X.
  destruct X as (segs & E1 & E2 & _ & _ & _ & E6). rewrite W in E6.
  assert (V : verdicts o [(c, d)] segs = [true]).
  { apply (verdicts_all o (f_esv f) [(c, d)] segs E2). rewrite <- E1. split; [|exact Ag]. constructor; [|constructor].
    unfold odata. cbn [fst]. rewrite F. discriminate. }
  rewrite V in E6. unfold notices in E6. cbn [combine filter fst snd andb] in E6. unfold notified in E6. cbn [fst snd] in E6.
  rewrite F, An, Pa in E6. destruct d as [|x d]; [contradiction|]. cbn [negb andb map fst] in E6.
  rewrite (ef_anns _ _ _ _ _ _ _ _ _ _ EF), (ef_tid _ _ _ _ _ _ _ _ _ _ EF), E6.
  unfold has_object in O. unfold profile. change uEchoNodeProfileObject with 978945.
  destruct (uecho_node_getobjectbycode n 978945); [|contradiction]. split; reflexivity.
Qed.
Print Assumptions C33_written_partial.

Example C33_written_example :
  let r := react yes node3 set80 in
  receives true net_up yes node3 set80 [] here (Some there) r /\ has_object node3 978945
  /\ (exists o p, uecho_node_getobjectbycode node3 (dest set80) = Some o /\ uecho_object_getproperty o 128 = Some p
       /\ uecho_property_isannounceable p = true /\ p_parent p = true)
  /\ agreed r /\ length (r_anns r) = 1%nat.
Proof.
  cbv zeta. split; [apply react_receives; [exact node3_api|vm_compute; reflexivity..]|].
  split; [vm_compute; discriminate|]. split.
  { eexists. eexists. split; [vm_compute; reflexivity|]. split; [vm_compute; reflexivity|]. split; reflexivity. }
  split; [apply agreed_check; vm_compute; reflexivity|vm_compute; reflexivity].
Qed.
