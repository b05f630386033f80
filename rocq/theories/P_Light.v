(* The example lamp. *)
From Coq Require Import String ZArith List Bool Lia ZifyBool ZifyNat.
From Verif Require Import CSem M_Const M_Misc M_Property M_Message M_PropertyList M_Object M_Node M_NodeListener
  StdDB_Data M_Std M_Device M_Light Spec_Frame Spec_Message Spec_Map Spec_Object Spec_Node Spec_Request Spec_Light Run_Object Run_Node P_Base P_Misc
  P_Message P_Encode P_MsgApi P_PropertyList P_Object P_ObjectRun P_ObjectReach P_Std P_Node P_Request Properties_Object
  P_NodeReach P_NodeProfile P_NodeInv P_NodeRun P_NodeProps P_RequestProps P_RequestApi Properties_Node Spec_Device Properties_Device P_Bound.
From Verif Require P_Handlers P_NodeSafe P_NodeAlive P_NodeDefined P_Controller P_System P_Lookup Properties_CtrlSafety.
Import ListNotations.
Open Scope Z_scope.
Ltac Zify.zify_post_hook ::= Z.div_mod_to_equations.

Definition lamp_obs : list observer := [mkObs 96 128 (Some lamp_handler); mkObs 97 128 (Some lamp_handler); mkObs 110 128 (Some lamp_handler)].

Lemma std_einv : Forall einv std_db.
Proof.
  assert (X : forallb (fun o => nodupb (map p_code (o_props o))) std_db = true) by (vm_compute; reflexivity).
  rewrite forallb_forall in X. pose proof std_db_ok as D. unfold db_ok in D. rewrite Forall_forall in D.
  apply Forall_forall. intros o I. specialize (X _ I). specialize (D _ I). cbv beta in D. apply nodupb_ok in X. split; [split; [exact X|]|].
  - unfold plist_ok. eapply Forall_impl; [|exact D]. intros p [P1 P2]. split; [unfold is_byte; lia|exact P2].
  - unfold epl. eapply Forall_impl; [|exact D]. intros p [P1 P2]. exact P1.
Qed.

(* ---- the object ---- *)
Lemma K766 : 766 <= 766.
Proof. lia. Qed.

Lemma device_new_facts : exists o, uecho_device_new std_db = Ok (Some o) /\ o_getsz o = 0%nat /\ o_obs o = []
  /\ forallb (fun p => len (p_data p) <=? 766) (o_props o) = true.
Proof.
  assert (X : match uecho_device_new std_db with
              | Ok (Some o) => (o_getsz o =? 0)%nat && (match o_obs o with [] => true | _ => false end) && forallb (fun p => len (p_data p) <=? 766) (o_props o)
              | _ => false end = true) by (vm_compute; reflexivity).
  destruct (uecho_device_new std_db) as [[o|]|]; try discriminate. exists o. split; [reflexivity|].
  apply andb_prop in X. destruct X as [X X3]. apply andb_prop in X. destruct X as [X1 X2].
  split; [apply Nat.eqb_eq; exact X1|]. split; [destruct (o_obs o); [reflexivity|discriminate]|exact X3].
Qed.

Lemma pl_epc : forall o, einv o -> plist_ok (o_props o).
Proof. intros o H. apply (proj1 H). Qed.

Lemma lamp_new : forall junk, (forall i, is_byte (junk i)) -> exists o, uecho_light_new std_db junk = Ok o
  /\ api_obj std_db o /\ obound 766 o /\ uecho_object_getcode o = 168193 /\ view o 128 = Some (3, [48])
  /\ o_obs o = lamp_obs /\ option_map snd (view o 138) = Some [255; 255; 240].
Proof.
  intros junk Hj. destruct device_new_facts as (o0 & E0 & G0 & O0 & B0).
  unfold uecho_light_new. rewrite E0. cbn [bind].
  assert (A0 : api_obj std_db o0).
  { eapply drun_api; [apply base_api|apply (new_calls_ok true)|]. apply device_new_run. exact E0. }
  assert (B : obound 766 o0).
  { unfold obound. apply Forall_forall. intros p I. rewrite forallb_forall in B0. specialize (B0 _ I). unfold pbound. lia. }
  clear E0 B0. unfold uecho_object_setmanufacturercode. rewrite (set_int_eq _ _ _ _ _ (int3 _)).
  destruct (uecho_object_setpropertydata o0 EPC_ManufacturerCode (be3 16777200)) as [o1 a1] eqn:E1. cbn [bind fst].
  assert (S1 : ostep junk o0 (OSetData 138 [255; 255; 240]) = Ok (o1, a1)) by (cbn [ostep]; f_equal; exact E1).
  assert (Q1 : oop_ok (OSetData 138 [255; 255; 240])).
  { split; [cbn [oop_code]; lia|]. cbv iota. unfold byte_list. repeat (apply Forall_cons; [lia|]). apply Forall_nil. }
  assert (A1 : api_obj std_db o1).
  { eapply (ao_step std_db o0 junk); [exact A0|exact Q1| |exact Hj|exact S1]. intros c E. injection E as <-. lia. }
  apply bound_osetdata with (K := 766) in E1; [|lia|cbn; lia|exact B].
  destruct (api_einv _ _ std_db_ok A0) as [I0 _]. destruct (api_einv _ _ std_db_ok A1) as [I1 _].
  destruct (step_spec junk o0 _ o1 a1 Hj (proj1 I0) Q1 S1) as [_ V1].
  assert (G1 : o_getsz o1 = 0%nat /\ o_obs o1 = []).
  { cbn [ostep] in S1. unfold uecho_object_setpropertydata in S1. rewrite pl_setdata_eq in S1. injection S1 as <- _.
    cbn [o_getsz o_obs o_with_props]. split; assumption. }
  destruct G1 as [G1 O1]. clear S1 Q1.
  set (oc := o_with_code (Z.shiftr (Z.land LIGHT_OBJECT_CODE 16711680) 16) (Z.shiftr (Z.land LIGHT_OBJECT_CODE 65280) 8) (Z.land LIGHT_OBJECT_CODE 255) o1).
  assert (T2 : exists r, uecho_object_setcode std_db junk o1 LIGHT_OBJECT_CODE = Ok r).
  { unfold uecho_object_setcode. cbv zeta. fold oc.
    assert (Ic : einv oc) by exact I1. apply update_ok_iff; [exact Hj|apply pl_epc; apply addstd_einv; [exact std_db_ok|exact Ic]|].
    left. rewrite addstd_eq. assert (M : forall src o, o_getsz (addmissing o src) = o_getsz o).
    { induction src as [|q src IH]; intros o; cbn [addmissing]; [reflexivity|]. destruct (uecho_object_hasproperty o (p_code q)); rewrite IH; reflexivity. }
    rewrite !M. exact G1. }
  destruct T2 as ([o2 a2] & E2). rewrite E2. cbn [bind fst].
  assert (A2 : api_obj std_db o2) by (eapply ao_setcode; [exact A1|exact Hj|exact E2]).
  assert (C2 : uecho_object_getcode o2 = 168193) by (eapply P_NodeAlive.setcode_code; [|exact E2]; unfold LIGHT_OBJECT_CODE; lia).
  assert (B2 : obound 766 o2) by (eapply bound_setcode; [lia|exact std_bound|exact E2|exact E1]).
  assert (O2 : o_obs o2 = []) by (apply P_Handlers.setcode_obs in E2; congruence).
  assert (V2 : view o2 138 = view o1 138).
  { rewrite (setcode_view _ _ _ _ _ _ 138 std_db_ok A1 Hj E2) by (unfold map_epc; lia).
    rewrite (V1 138) by (left; unfold map_epc; lia). reflexivity. }
  rewrite (V1 138) in V2 by (left; unfold map_epc; lia).
  assert (V2' : option_map snd (view o2 138) = Some [255; 255; 240]) by (rewrite V2; reflexivity).
  clear E2 E1 V1 V2. destruct (api_einv _ _ std_db_ok A2) as [I2 _].
  assert (Q3 : oop_ok (OSetProperty 128 3)).
  { split; [cbn [oop_code]; lia|exact Logic.I]. }
  assert (T3 : exists r, uecho_object_setproperty junk o2 LIGHT_PROPERTY_POWER_CODE AttrReadWrite = Ok r).
  { unfold uecho_object_setproperty. rewrite pl_set_eq. rewrite put_put by (intros; assumption).
    set (f := fun p => uecho_property_setparentobject true (uecho_property_setattribute AttrReadWrite (put_data [] p))).
    assert (Hf : forall p, p_code p = 128 -> p_code (f p) = 128) by (intros; assumption).
    assert (T : exists r, uecho_object_updatepropertymaps junk (o_with_props (put (o_props o2) 128 f) o2) = Ok r).
    { apply update_ok_iff; [exact Hj| |].
      - assert (X : inv (o_with_props (put (o_props o2) 128 f) o2)); [|exact (proj2 X)].
        apply put_inv; auto; [apply I2|unfold is_byte; lia|intros; constructor].
      - right. rewrite obj_props_with. exists (f (got (o_props o2) 128)). split; [|reflexivity].
        pose proof (put_find (o_props o2) 128 f 128 Hf) as F. rewrite Z.eqb_refl in F. eapply P_PropertyList.find_code. exact F. }
    change LIGHT_PROPERTY_POWER_CODE with 128. destruct T as ([o' a'] & T). rewrite T. cbn [bind]. eauto. }
  destruct T3 as ([o3 a3] & E3). rewrite E3. cbn [bind fst].
  assert (A3 : api_obj std_db o3).
  { eapply (ao_step std_db o2 junk (OSetProperty 128 3)); [exact A2|exact Q3| |exact Hj|exact E3]. intros c E. injection E as <-. lia. }
  destruct (step_spec junk o2 (OSetProperty 128 3) o3 a3 Hj (proj1 I2) Q3 E3) as [_ V3].
  assert (B3 : obound 766 o3) by (eapply bound_setproperty; [lia|exact E3|exact B2]).
  assert (C3 : uecho_object_getcode o3 = 168193 /\ o_obs o3 = []).
  { destruct (ostep_shape junk o2 (OSetProperty 128 3) o3 a3 E3) as (l & k & ->). split; [exact C2|exact O2]. }
  destruct C3 as [C3 O3]. clear E3.
  destruct (uecho_object_setpropertydata o3 LIGHT_PROPERTY_POWER_CODE [LIGHT_PROPERTY_POWER_ON]) as [o4 a4] eqn:E4. cbn [fst].
  assert (S4 : ostep junk o3 (OSetData 128 [48]) = Ok (o4, a4)) by (cbn [ostep]; f_equal; exact E4).
  assert (Q4 : oop_ok (OSetData 128 [48])).
  { split; [cbn [oop_code]; lia|]. cbv iota. unfold byte_list. repeat (apply Forall_cons; [lia|]). apply Forall_nil. }
  assert (A4 : api_obj std_db o4).
  { eapply (ao_step std_db o3 junk); [exact A3|exact Q4| |exact Hj|exact S4]. intros c E. injection E as <-. lia. }
  destruct (api_einv _ _ std_db_ok A3) as [I3 _].
  destruct (step_spec junk o3 _ o4 a4 Hj (proj1 I3) Q4 S4) as [_ V4].
  apply bound_osetdata with (K := 766) in E4; [|lia|cbn; lia|exact B3].
  destruct (ostep_shape junk o3 _ o4 a4 S4) as (l & k & E).
  assert (C4 : uecho_object_getcode o4 = 168193) by (rewrite E; exact C3).
  assert (O4 : o_obs o4 = []) by (rewrite E; exact O3). clear E S4.
  eexists. split; [reflexivity|]. unfold uecho_object_setpropertywriterequesthandler.
  split; [apply ao_handler; apply ao_handler; apply ao_handler; exact A4|].
  split; [exact E4|]. split; [exact C4|]. split; [|split].
  - change (view o4 128 = Some (3, [48])). rewrite (V4 128) by (left; unfold map_epc; lia). cbn [pm_step].
    unfold pm_set. rewrite Z.eqb_refl. unfold attr_of. rewrite (V3 128) by (left; unfold map_epc; lia). reflexivity.
  - unfold uecho_object_setpropertyrequesthandler. cbn [o_obs o_with_obs]. rewrite O4. reflexivity.
  - change (option_map snd (view o4 138) = Some [255; 255; 240]). rewrite (V4 138) by (left; unfold map_epc; lia). cbn [pm_step].
    unfold pm_set. change (138 =? 128) with false. cbv iota. rewrite (V3 138) by (left; unfold map_epc; lia). cbn [pm_step].
    unfold pm_set. change (138 =? 128) with false. cbv iota. exact V2'.
Qed.

(* ---- the node ---- *)
Section N.
Variable le : bool.
Variable net : post -> bool.

Lemma op_codes : forall f n code n' ps, (forall o o' a, f o = Ok (o', a) -> uecho_object_getcode o' = uecho_object_getcode o) ->
  node_object_op le net f n code = Ok (n', ps) -> map uecho_object_getcode (n_objs n') = map uecho_object_getcode (n_objs n).
Proof.
  intros f n code n' ps Hf H. unfold node_object_op in H. destruct (uecho_node_getobjectbycode n code) as [o|] eqn:G.
  - apply bind_ok in H. destruct H as ([o' a] & F & H). apply node_emit_shape in H. rewrite H.
    cbn [n_objs n_with_tid n_with_objs]. eapply put_obj_map; [exact G|]. eapply Hf. exact F.
  - injection H as <- _. reflexivity.
Qed.

Lemma setman_codes : forall codes n code n' ps, setmanufacturer_all le net n codes code = Ok (n', ps) ->
  map uecho_object_getcode (n_objs n') = map uecho_object_getcode (n_objs n).
Proof.
  induction codes as [|c codes IH]; intros n code n' ps H; cbn [setmanufacturer_all] in H; [injection H as <- _; reflexivity|].
  apply bind_ok in H. destruct H as ([n1 p1] & E1 & H). apply bind_ok in H. destruct H as ([n2 p2] & E2 & H).
  cbn [fst snd] in *. injection H as <- _. rewrite (IH _ _ _ _ E2). eapply op_codes; [|exact E1].
  intros o o' a F. unfold uecho_object_setmanufacturercode in F. rewrite (set_int_eq _ _ _ _ _ (int3 _)) in F. injection F as F.
  unfold uecho_object_setpropertydata in F. rewrite pl_setdata_eq in F. injection F as <- _. reflexivity.
Qed.

Lemma announce_shape : forall n n' ps b, uecho_node_announce le net n = Ok (n', ps, b) -> n_objs n' = n_objs n.
Proof.
  intros n n' ps b E. unfold uecho_node_announce in E.
  destruct (uecho_node_getobjectbycode n uEchoNodeProfileObject) as [p|]; [|injection E as <- _ _; reflexivity].
  destruct (uecho_object_getproperty p EPC_InstanceListNotification) as [q|]; [|injection E as <- _ _; reflexivity].
  apply bind_ok in E. destruct E as (s & E & E2).
  apply (f_equal (fun x => match x with Ok (a, b, _) => a | _ => n end)) in E2. cbv iota in E2. rewrite <- E2.
  rewrite (announceproperty_shape _ _ _ _ _ _ E). reflexivity.
Qed.

Lemma bound_up : forall n, nbound 766 n -> mem_ok n.
Proof.
  intros n H. unfold mem_ok. eapply Forall_impl; [|exact H]. intros o Ho. eapply Forall_impl; [|exact Ho]. unfold pbound. intros p Hp. cbv beta in *. lia.
Qed.

(* only the lamp has handlers *)
Definition lamp_only (o : obj) : Prop := o_obs o = if uecho_object_getcode o =? 168193 then lamp_obs else [].

Lemma lamp_set : forall n, Forall lamp_only (n_objs n) -> handlers_set n.
Proof.
  intros n H. unfold handlers_set. eapply Forall_impl; [|exact H]. intros o E. unfold lamp_only in E. rewrite E.
  destruct (uecho_object_getcode o =? 168193); [|constructor]. unfold lamp_obs. repeat (apply Forall_cons; [discriminate|]). apply Forall_nil.
Qed.

Lemma op_only : forall f n code n' ps, (forall o o' a, f o = Ok (o', a) -> uecho_object_getcode o' = uecho_object_getcode o /\ o_obs o' = o_obs o) ->
  node_object_op le net f n code = Ok (n', ps) -> Forall lamp_only (n_objs n) -> Forall lamp_only (n_objs n').
Proof.
  intros f n code n' ps Hf H N. unfold node_object_op in H. destruct (uecho_node_getobjectbycode n code) as [o|] eqn:G.
  - apply bind_ok in H. destruct H as ([o' a] & F & H). apply node_emit_shape in H. rewrite H.
    cbn [n_objs n_with_tid n_with_objs]. apply put_obj_Forall; [exact N|]. destruct (Hf _ _ _ F) as [F1 F2].
    unfold lamp_only. rewrite F1, F2. apply P_System.getbycode_in in G. rewrite Forall_forall in N. apply N. apply G.
  - injection H as <- _. exact N.
Qed.

Lemma setman_only : forall codes n code n' ps, setmanufacturer_all le net n codes code = Ok (n', ps) ->
  Forall lamp_only (n_objs n) -> Forall lamp_only (n_objs n').
Proof.
  induction codes as [|c codes IH]; intros n code n' ps H N; cbn [setmanufacturer_all] in H; [injection H as <- _; exact N|].
  apply bind_ok in H. destruct H as ([n1 p1] & E1 & H). apply bind_ok in H. destruct H as ([n2 p2] & E2 & H).
  cbn [fst snd] in *. injection H as <- _. eapply IH; [exact E2|]. eapply op_only; [|exact E1|exact N].
  intros o o' a F. unfold uecho_object_setmanufacturercode in F. rewrite (set_int_eq _ _ _ _ _ (int3 _)) in F. injection F as F.
  unfold uecho_object_setpropertydata in F. rewrite pl_setdata_eq in F. injection F as <- _. split; reflexivity.
Qed.

Lemma add_only : forall n o n' ps b, uecho_node_addobject le net n o = Ok (n', ps, b) -> lamp_only o ->
  Forall lamp_only (n_objs n) -> Forall lamp_only (n_objs n').
Proof.
  intros n o n' ps b H Po N. unfold uecho_node_addobject in H.
  destruct (uecho_node_getobjectbycode n (uecho_object_getcode o)); [injection H as <- _ _; exact N|].
  set (n2 := n_with_classes _ _) in H. assert (N2 : Forall lamp_only (n_objs n2)).
  { unfold n2. cbn [n_objs n_with_classes n_with_objs]. apply Forall_app. split; [exact N|]. constructor; [exact Po|constructor]. }
  clearbody n2. unfold uecho_node_updatenodeprofileclass in H.
  destruct (uecho_node_getobjectbycode n2 uEchoNodeProfileObject); [|injection H as <- _ _; exact N2].
  apply bind_ok in H. destruct H as ([n3 ps3] & E & H). cbn [fst snd] in H. injection H as <- _ _.
  eapply op_only; [|exact E|exact N2]. intros o1 o2 a F. rewrite updateinstance_eq in F. cbv zeta in F.
  injection F as <- _. split; reflexivity.
Qed.

Lemma new_only : forall db t junk man uq n ps, db_ok db -> bytes_ok man -> bytes_ok uq -> (forall i, is_byte (junk i)) ->
  uecho_node_new le net db t junk man uq = Ok (n, ps) -> Forall lamp_only (n_objs n).
Proof.
  intros db t junk man uq n ps Hd Hm Hu Hj H. unfold uecho_node_new in H. apply bind_ok in H. destruct H as (o & E1 & H).
  apply bind_ok in H. destruct H as ([[n1 p1] b1] & E2 & H). injection H as <- _.
  destruct (profile_new_ok _ _ _ _ _ Hd Hj Hm Hu E1) as (_ & _ & Hc).
  assert (X : Forall lamp_only (n_objs n1)); [|exact X].
  eapply add_only; [exact E2| |constructor]. unfold lamp_only. rewrite Hc, (P_Handlers.profile_new_obs _ _ _ _ _ E1). reflexivity.
Qed.

(* the lamp with status [s] *)
Definition lamp_node (s : Z) (n : node) : Prop :=
  api_node le net std_db n /\ nbound 766 n /\ Forall lamp_only (n_objs n)
  /\ exists o, uecho_node_getobjectbycode n 168193 = Some o /\ o_obs o = lamp_obs /\ odata o 128 = Some [s].

Lemma start_lamp : forall s up n, lamp_node s n -> exists n' ps b, uecho_node_start le net up n = Ok (n', ps, b) /\ lamp_node s n'.
Proof.
  intros s up n (A & B & H & o & G & O & D). destruct (api_node_ok _ _ _ _ std_db_ok A) as [N M].
  destruct (Properties_CtrlSafety.announce_total le net n N M) as ([[n' ps] b] & E). unfold uecho_node_start. rewrite E. cbn [bind].
  eexists _, _, _. split; [reflexivity|].
  pose proof (announce_shape _ _ _ _ E) as Eo. pose proof (bound_announce _ _ _ _ _ _ _ E B) as B'.
  split; [|split; [exact B'|split]].
  - eapply P_System.api_step with (x := NAnnounce); [exact A|exact M|apply bound_up; exact B'|exact Logic.I|].
    cbn [nstep]. rewrite E. reflexivity.
  - rewrite Eo. exact H.
  - exists o. unfold uecho_node_getobjectbycode. rewrite Eo. split; [exact G|split; [exact O|exact D]].
Qed.

(* what main may meet *)
Definition fresh_ok (fr : fresh) : Prop :=
  0 <= fl_tid fr < 4294967296 /\ (forall i, is_byte (fl_junk fr i)) /\ bytes_ok (fl_man fr) /\ bytes_ok (fl_uniq fr)
  /\ (3 <= length (fl_man fr))%nat /\ (13 <= length (fl_uniq fr))%nat.

Lemma main_lamp : forall fr verbose man up, fresh_ok fr ->
  exists n ok, light_main le net std_db fr verbose man up = Ok (n, ok) /\ lamp_node 48 n.
Proof.
  intros fr verbose man up (F1 & F2 & F3 & F4 & F5 & F6). unfold light_main.
  destruct (P_NodeDefined.new_total (fl_junk fr) F2 le net std_db (fl_tid fr) (fl_man fr) (fl_uniq fr)) as (n0 & p0 & E0 & NF);
    [exact std_einv|lia|exact F3|exact F4|exact F5|exact F6|].
  rewrite E0. cbn [bind fst].
  assert (W : new_node le net std_db n0) by (exists (fl_tid fr), (fl_junk fr), (fl_man fr), (fl_uniq fr), p0; auto 7).
  assert (B0 : nbound 766 n0) by (eapply bound_node_new; [lia|exact std_bound|exact E0]).
  assert (A0 : api_node le net std_db n0) by (exists n0, [], [], []; split; [exact W|constructor; apply bound_up; exact B0]).
  destruct (P_Controller.new_eojs le net std_db std_db_ok n0 W) as (J0 & _).
  assert (H0 : Forall lamp_only (n_objs n0)) by (exact (new_only _ _ _ _ _ _ _ std_db_ok F3 F4 F2 E0)). pose proof (proj1 NF) as N0. clear NF.
  assert (C0 : map uecho_object_getcode (n_objs n0) = [978945]) by (rewrite (P_Lookup.eojs_codes _ N0), J0; reflexivity).
  clear E0 W J0. set (n1 := if verbose then uecho_node_setmessagelistener true n0 else n0).
  assert (A1 : api_node le net std_db n1).
  { unfold n1. destruct verbose; [|exact A0].
    eapply P_System.api_step with (x := NListener true) (own := []) (ans := []); [exact A0|apply bound_up; exact B0|apply bound_up; exact B0|exact Logic.I|reflexivity]. }
  assert (O1 : n_objs n1 = n_objs n0) by (unfold n1; destruct verbose; reflexivity).
  assert (B1 : nbound 766 n1) by (unfold nbound; rewrite O1; exact B0).
  assert (H1 : Forall lamp_only (n_objs n1)) by (rewrite O1; exact H0).
  assert (C1 : map uecho_object_getcode (n_objs n1) = [978945]) by (rewrite O1; exact C0).
  clearbody n1. clear n0 p0 A0 B0 C0 O1 H0 N0.
  destruct (lamp_new (fl_junk fr) F2) as (o & Eo & Ao & Bo & Co & Vo & Oo & _). rewrite Eo. cbn [bind].
  assert (T2 : exists n2 p2, (if 0 <? man then uecho_node_setmanufacturercode le net n1 man else Ok (n1, [])) = Ok (n2, p2)
     /\ api_node le net std_db n2 /\ nbound 766 n2 /\ Forall lamp_only (n_objs n2) /\ map uecho_object_getcode (n_objs n2) = [978945]).
  { destruct (0 <? man); [|exists n1, []; split; [reflexivity|auto 6]].
    destruct (api_node_ok _ _ _ _ std_db_ok A1) as [N1 _]. unfold uecho_node_setmanufacturercode.
    destruct (P_NodeSafe.setman_total le net (map uecho_object_getcode (n_objs n1)) n1 man N1) as (n2 & p2 & E2). rewrite E2.
    pose proof (bound_setman 766 ltac:(lia) _ _ _ _ _ _ _ E2 B1) as B2.
    exists n2, p2. split; [reflexivity|]. split; [|split; [exact B2|split]].
    - eapply P_System.api_step with (x := NManufacturer man) (own := p2) (ans := []); [exact A1|apply bound_up; exact B1|apply bound_up; exact B2|exact Logic.I|].
      cbn [nstep]. unfold uecho_node_setmanufacturercode. rewrite E2. reflexivity.
    - eapply setman_only; [exact E2|exact H1].
    - rewrite (setman_codes _ _ _ _ _ E2). exact C1. }
  destruct T2 as (n2 & p2 & E2 & A2 & B2 & H2 & C2). rewrite E2. cbn [bind fst]. clear E2 C1 H1 B1 A1 n1.
  assert (G2 : uecho_node_getobjectbycode n2 978945 <> None).
  { destruct (n_objs n2) as [|x r] eqn:E; [discriminate|]. cbn [map] in C2. injection C2 as C2 _.
    unfold uecho_node_getobjectbycode. rewrite E. cbn [uecho_objectlist_getbycode]. rewrite C2. discriminate. }
  assert (L2 : uecho_node_getobjectbycode n2 (uecho_object_getcode o) = None).
  { destruct (uecho_node_getobjectbycode n2 (uecho_object_getcode o)) as [x|] eqn:E; [|reflexivity]. exfalso.
    apply P_System.getbycode_in in E. destruct E as [I E]. apply (in_map uecho_object_getcode) in I. rewrite C2, E, Co in I. destruct I as [I|[]]. lia. }
  destruct (C21_added le net n2 o A2 Ao L2 G2) as (n3 & p3 & E3 & G3 & _). rewrite E3. cbn [bind].
  pose proof (bound_addobject 766 ltac:(lia) _ _ _ _ _ _ _ E3 Bo B2) as B3.
  assert (L3 : lamp_node 48 n3).
  { split; [|split; [exact B3|split]].
    - eapply P_System.api_step with (x := NAdd o) (own := p3) (ans := []); [exact A2|apply bound_up; exact B2|apply bound_up; exact B3|exact Ao|].
      cbn [nstep]. rewrite E3. reflexivity.
    - eapply add_only; [exact E3| |exact H2]. unfold lamp_only. rewrite Co. exact Oo.
    - exists (uecho_object_attach o). rewrite Co in G3. split; [exact G3|]. split; [exact Oo|].
      change (odata o 128 = Some [48]). unfold view in Vo. unfold odata. destruct (uecho_object_getproperty o 128) as [p|]; [|discriminate].
      injection Vo as _ Vo. cbn [option_map]. rewrite Vo. reflexivity. }
  destruct (start_lamp 48 up n3 L3) as (n4 & p4 & b4 & E4 & L4). rewrite E4. cbn [bind]. eexists _, _. split; [reflexivity|exact L4].
Qed.

(* ---- requests ---- *)
Definition of_lamp (esv : Z) (ps : list epair) : list (Z * list Z) :=
  map (fun e => (esv, snd e)) (filter (fun e => fst e =? 128) ps).

Lemma lamp_handlers : forall o esv c, o_obs o = lamp_obs ->
  handlers o esv c = if ((esv =? 96) || (esv =? 97) || (esv =? 110)) && (c =? 128) then [Some lamp_handler] else [].
Proof.
  intros o esv c O. unfold handlers. rewrite O. unfold lamp_obs. cbn [filter ob_esv ob_code].
  rewrite (Z.eqb_sym 96), (Z.eqb_sym 97), (Z.eqb_sym 110), (Z.eqb_sym 128).
  destruct (Z.eqb_spec esv 96) as [->|]; destruct (Z.eqb_spec c 128) as [->|]; cbn [andb orb]; try reflexivity;
  destruct (Z.eqb_spec esv 97) as [->|]; cbn [andb orb]; try reflexivity; destruct (Z.eqb_spec esv 110) as [->|]; reflexivity.
Qed.

Definition truthful (seg : list (hcall * bool)) : Prop := Forall (fun x => snd x = lamp_dec [] (fst x)) seg.

Lemma honest_truthful : forall seg, honest lamp_dec [] seg -> truthful seg.
Proof.
  intros seg H. apply Forall_forall. intros x I. apply in_split in I. destruct I as (a & b & E). apply (H a x b E).
Qed.

Lemma truthful_app : forall a b, truthful (a ++ b) -> truthful a /\ truthful b.
Proof. intros a b H. apply Forall_app in H. exact H. Qed.

Lemma lamp_writes : forall o esv, o_obs o = lamp_obs -> (esv = 96 \/ esv = 97) -> odata o 128 <> None ->
  forall ps segs m s, Forall2 (consulted o esv) ps segs -> truthful (concat segs) -> m 128 = Some [s] ->
  lamp_prints (concat segs) = map reported (of_lamp esv ps)
  /\ write_all m ps (verdicts o ps segs) 128 = Some [status_after s (of_lamp esv ps)].
Proof.
  intros o esv O W P. induction ps as [|[c d] ps IH]; intros segs m s F T M; inversion F as [|? seg ? segs' Cs F' E1 E2]; subst.
  - split; [reflexivity|exact M].
  - cbn [concat] in *. apply truthful_app in T. destruct T as [T1 T2].
    change (verdicts o ((c, d) :: ps) (seg :: segs')) with (verdict o (c, d) seg :: verdicts o ps segs'). cbn [write_all fst snd].
    unfold lamp_prints. rewrite map_app. fold (lamp_prints seg). fold (lamp_prints (concat segs')).
    unfold of_lamp. cbn [filter fst]. fold (of_lamp esv ps). destruct (Z.eqb_spec c 128) as [->|Nc].
    + unfold consulted in Cs. cbn [fst snd] in Cs. unfold verdict. cbn [fst].
      destruct (uecho_object_getproperty o 128) as [q|] eqn:Q; [|exfalso; apply P; unfold odata; rewrite Q; reflexivity].
      destruct Cs as [C1 C2]. rewrite (lamp_handlers o esv 128 O) in C1.
      replace (((esv =? 96) || (esv =? 97) || (esv =? 110)) && (128 =? 128)) with true in C1 by lia.
      destruct seg as [|x [|y seg]]; try discriminate. inversion C2 as [|? ? (X1 & X2 & X3 & X4) _]; subst.
      inversion T1 as [|? ? T _]; subst. cbn [forallb]. rewrite T. unfold lamp_dec.
      cbn [map snd]. unfold status_after. cbn [fold_left].
      assert (Lx : lamp_prints [x] = [reported (hc_esv (fst x), hc_data (fst x))]).
      { unfold lamp_prints, reported. cbn [map fst snd]. f_equal. unfold uecho_lighting_propertyrequesthandler. rewrite X3.
        destruct (hc_data (fst x)) as [|b [|b' r]]; reflexivity. }
      rewrite Lx. cbn [app].
      set (v := fst (uecho_lighting_propertyrequesthandler (hc_prop (fst x)) (hc_esv (fst x)) (hc_data (fst x)))).
      destruct (IH segs' (if v && true then dset m 128 (hc_data (fst x)) else m) (switch s (hc_esv (fst x), hc_data (fst x))) F' T2) as [IH1 IH2].
      { unfold v, switch, uecho_lighting_propertyrequesthandler. cbn [snd]. destruct (hc_data (fst x)) as [|b [|b' r]]; cbn [fst andb]; try exact M.
        unfold dset. rewrite Z.eqb_refl. reflexivity. }
      split; [rewrite IH1; reflexivity|exact IH2].
    + assert (Sn : seg = []).
      { unfold consulted in Cs. cbn [fst snd] in Cs. destruct (uecho_object_getproperty o c); [|exact Cs]. destruct Cs as [C1 _].
        rewrite (lamp_handlers o esv c O) in C1. replace (((esv =? 96) || (esv =? 97) || (esv =? 110)) && (c =? 128)) with false in C1 by lia.
        destruct seg; [reflexivity|discriminate]. }
      subst seg. cbn [lamp_prints map app]. apply IH; [exact F'|exact T2|].
      destruct (verdict o (c, d) []); [|exact M]. unfold dset. destruct (Z.eqb_spec 128 c); [lia|exact M].
Qed.

Lemma lamp_reads : forall o esv, o_obs o = lamp_obs -> esv <> 96 -> esv <> 97 -> esv <> 110 ->
  forall ps segs, Forall2 (consulted o esv) ps segs -> concat segs = [].
Proof.
  intros o esv O W1 W2 W3. induction ps as [|[c d] ps IH]; intros segs F; inversion F as [|? seg ? segs' Cs F' E1 E2]; subst; [reflexivity|].
  cbn [concat]. rewrite (IH _ F'), app_nil_r. unfold consulted in Cs. cbn [fst snd] in Cs. destruct (uecho_object_getproperty o c); [|exact Cs].
  destruct Cs as [C1 _]. rewrite (lamp_handlers o esv c O) in C1. replace (((esv =? 96) || (esv =? 97) || (esv =? 110)) && (c =? 128)) with false in C1 by lia.
  destruct seg; [reflexivity|discriminate].
Qed.

Lemma shape_obs : forall l l' c o, map (fun o => (eoj_of o, o_obs o, map shape (o_props o))) l' = map (fun o => (eoj_of o, o_obs o, map shape (o_props o))) l ->
  uecho_objectlist_getbycode l c = Some o -> exists o', uecho_objectlist_getbycode l' c = Some o' /\ o_obs o' = o_obs o.
Proof.
  induction l as [|x l IH]; intros l' c o E G; [discriminate|]. destruct l' as [|y l']; [discriminate|]. cbn [map] in E.
  injection E as E1 E2 E3 E4 _ E5. cbn [uecho_objectlist_getbycode] in *.
  assert (X : uecho_object_getcode y = uecho_object_getcode x) by (unfold uecho_object_getcode; rewrite E1, E2, E3; reflexivity).
  rewrite X. destruct (uecho_object_getcode x =? c); [injection G as <-; exists y; split; [reflexivity|exact E4]|]. eapply IH; eassumption.
Qed.

Lemma receive_lamp : forall s n data la ra, lamp_node s n -> buffer data ->
  exists r, node_receive le net lamp_dec n data la ra = Ok r
  /\ lamp_node (status_after s (commands data)) (r_node r) /\ lamp_prints (r_calls r) = map reported (commands data).
Proof.
  intros s n data la ra (A & B & H & o & G & O & D) Hb. destruct (api_node_ok _ _ _ _ std_db_ok A) as [N M].
  destruct (receive_total le net lamp_dec n data la ra N M Hb (lamp_set _ H)) as (r & E). exists r. split; [exact E|].
  pose proof (bound_receive 766 ltac:(lia) _ _ _ _ _ _ _ _ N M Hb E B) as B'.
  assert (A' : api_node le net std_db (r_node r)).
  { eapply P_System.api_step with (x := NReceive data la ra lamp_dec); [exact A|exact M|apply bound_up; exact B'|exact Hb|].
    cbn [nstep]. rewrite E. reflexivity. }
  assert (Same : forall t, E = E -> node_receive le net lamp_dec n data la ra = Ok (mkReaction n [] [] [] t) -> commands data = [] ->
     lamp_node (status_after s (commands data)) (r_node r) /\ lamp_prints (r_calls r) = map reported (commands data)).
  { intros t _ T Cn. rewrite E in T. injection T as ->. rewrite Cn. split; [|reflexivity]. split; [exact A|]. split; [exact B|]. split; [exact H|]. exists o. auto. }
  unfold commands in *.
  destruct (dec_frame data) as [[f rest]|] eqn:Ed.
  2: { destruct (receive_ignored le net lamp_dec n data la ra N M Hb) as [t T]; [intros f rest X; congruence|]. eapply Same; [reflexivity|exact T|reflexivity]. }
  assert (E' : dec_frame data = Some (f, rest)) by exact Ed.
  apply dec_frame_iff in E'; [|apply Hb]. destruct E' as [Hf E'].
  destruct (uecho_node_getobjectbycode n (dest f)) as [o1|] eqn:G1.
  2: { destruct (receive_ignored le net lamp_dec n data la ra N M Hb) as [t T]; [intros g rest' X|].
       - rewrite Ed in X. injection X as <- <-. right. exact G1.
       - eapply Same; [reflexivity|exact T|]. destruct (Z.eqb_spec (eoj_code (f_deoj f)) 168193) as [X|]; [|reflexivity].
         unfold dest in G1. rewrite X, G in G1. discriminate. }
  destruct (uecho_esv_isrequest (f_esv f)) eqn:Q.
  2: { destruct (receive_ignored le net lamp_dec n data la ra N M Hb) as [t T]; [intros g rest' X|].
       - rewrite Ed in X. injection X as <- <-. left. rewrite <- request_isrequest. congruence.
       - eapply Same; [reflexivity|exact T|].
         assert (Wn : written f = []); [|rewrite Wn; destruct (eoj_code (f_deoj f) =? 168193); reflexivity].
         assert (Nq : ~ request_esv (f_esv f)) by (rewrite <- request_isrequest; congruence). unfold request_esv in Nq. cbn [In] in Nq.
         unfold written, write_esv. destruct (f_body f) as [ps|s0 g]; [replace ((f_esv f =? 96) || (f_esv f =? 97)) with false by lia; reflexivity|].
         replace (f_esv f =? 110) with false by lia. reflexivity. }
  pose proof Q as Qi. apply request_isrequest in Q. clear Same.
  subst data. assert (R : receives le net lamp_dec n f rest la ra r) by (split; [exact A|split; [exact Hf|split; [exact Hb|exact E]]]).
  destruct (request_effects _ _ _ _ _ _ _ _ _ _ R G1 Q) as (_ & ns & b & all & EF & Hh & X).
  apply honest_truthful in Hh.
  destruct (shape_obs _ _ _ _ (ef_shapes _ _ _ _ _ _ _ _ _ _ EF) G) as (o' & G' & O').
  assert (Fin : forall s', node_data (r_node r) 168193 128 = Some [s'] -> lamp_node s' (r_node r)).
  { intros s' D'. split; [exact A'|]. split; [exact B'|]. split.
    - clear -H EF. pose proof (ef_shapes _ _ _ _ _ _ _ _ _ _ EF) as S0.
      revert S0 H. generalize (n_objs (r_node r)) (n_objs n). induction l as [|x l IH]; intros [|y l0] S0 H; try discriminate; [constructor|].
      cbn [map] in S0. injection S0 as S1 S2 S3 S4 _ S5. inversion H as [|? ? Hy Hl]; subst. constructor; [|eapply IH; eassumption].
      unfold lamp_only in *. rewrite S4, Hy. unfold uecho_object_getcode. rewrite S1, S2, S3. reflexivity.
    - exists o'. split; [exact G'|]. split; [congruence|]. unfold odata. rewrite <- D'. unfold node_data, uecho_node_getobjectbycode. rewrite G'. reflexivity. }
  destruct (Z.eqb_spec (eoj_code (f_deoj f)) 168193) as [Ec|Nc].
  2: { split.
       - apply Fin. rewrite (ef_others _ _ _ _ _ _ _ _ _ _ EF) by (unfold dest; lia). rewrite (odata_node _ _ _ G). exact D.
       - assert (O1 : o_obs o1 = []).
         { apply P_System.getbycode_in in G1. destruct G1 as [I1 C1]. rewrite Forall_forall in H. specialize (H _ I1). unfold lamp_only in H.
           rewrite H, C1. unfold dest. destruct (Z.eqb_spec (eoj_code (f_deoj f)) 168193); [contradiction|reflexivity]. }
         assert (Z1 : forall esv ps segs, Forall2 (consulted o1 esv) ps segs -> concat segs = []).
         { intros esv. induction ps as [|e ps IH]; intros segs F; inversion F as [|? seg ? segs' Cs F' E1 E2]; subst; [reflexivity|].
           cbn [concat]. rewrite (IH _ F'), app_nil_r. unfold consulted in Cs. destruct (uecho_object_getproperty o1 (fst e)); [|exact Cs].
           destruct Cs as [Cs _]. unfold handlers in Cs. rewrite O1 in Cs. destruct seg; [reflexivity|discriminate]. }
         assert (Rc : r_calls r = []); [|rewrite Rc; reflexivity].
         destruct (f_body f) as [ps|s0 g].
         + destruct X as (segs & X1 & X2 & _). rewrite X1. eapply Z1. exact X2.
         + destruct X as (segs1 & segs2 & X1 & X2 & X3 & _). rewrite X1, (Z1 _ _ _ X2), (Z1 _ _ _ X3). reflexivity. }
  assert (o1 = o) by (unfold dest in G1; rewrite Ec, G in G1; congruence). subst o1.
  assert (M0 : node_data n (dest f) 128 = Some [s]) by (unfold dest; rewrite Ec, (odata_node _ _ _ G); exact D).
  assert (Pn : odata o 128 <> None) by (rewrite D; discriminate).
  unfold written. destruct (f_body f) as [ps|s0 g] eqn:Eb.
  - destruct X as (segs & X1 & X2 & X3 & _). specialize (X3 128). unfold dest in X3 at 1. rewrite Ec in X3. rewrite X1 in *.
    assert (N110 : f_esv f <> 110).
    { destruct Hf as (_ & _ & _ & _ & _ & Hbd). rewrite Eb in Hbd. apply body_two in Hbd. intro X110. rewrite X110 in Hbd. discriminate. }
    replace (f_esv f =? 110) with false by lia.
    destruct (write_esv (f_esv f)) eqn:We.
    + assert (Ev : f_esv f = 96 \/ f_esv f = 97) by (unfold write_esv in We; lia).
      destruct (lamp_writes o (f_esv f) O Ev Pn ps segs (node_data n (dest f)) s X2 Hh M0) as [L1 L2].
      split; [|exact L1]. apply Fin. rewrite X3. exact L2.
    + unfold write_esv in We. split; [apply Fin; rewrite X3; exact M0|].
      rewrite (lamp_reads o (f_esv f) O ltac:(lia) ltac:(lia) ltac:(lia) ps segs X2). reflexivity.
  - assert (Es : f_esv f = 110).
    { apply isreq_two; [exact Qi|]. destruct Hf as (_ & _ & _ & _ & _ & Hbd). rewrite Eb in Hbd. apply (body_two _ _ Hbd). }
    rewrite Es. cbn [Z.eqb Pos.eqb].
    destruct X as (segs1 & segs2 & X1 & X2 & X2' & X3 & _). specialize (X3 128). unfold dest in X3 at 1. rewrite Ec in X3.
    rewrite X1 in *. apply truthful_app in Hh. destruct Hh as [H1 _].
    destruct (lamp_writes o 97 O (or_intror eq_refl) Pn s0 segs1 (node_data n (dest f)) s X2 H1 M0) as [L1 L2].
    rewrite (lamp_reads o 98 O ltac:(lia) ltac:(lia) ltac:(lia) g segs2 X2'), app_nil_r.
    split; [|exact L1]. apply Fin. rewrite X3. exact L2.
Qed.

(* ---- the run ---- *)
Definition event_ok (e : event) : Prop := match e with Datagram data _ _ => buffer data | Hangup _ => True end.

Lemma run_lamp : forall es s n, lamp_node s n -> Forall event_ok es ->
  exists n' ls an, light_run le net n es = Ok (n', ls, an) /\ lamp_node (status_after s (all_commands es)) n'
  /\ ls = map reported (all_commands es).
Proof.
  induction es as [|e es IH]; intros s n L He; cbn [light_run].
  - eexists _, _, _. split; [reflexivity|]. split; [exact L|reflexivity].
  - inversion He as [|? ? H1 H2]; subst.
    assert (T : exists n1 l1 a1, light_event le net n e = Ok (n1, l1, a1) /\ lamp_node (status_after s (commands_of e)) n1 /\ l1 = map reported (commands_of e)).
    { destruct e as [data la ra|up]; cbn [light_event commands_of].
      - destruct (receive_lamp s n data la ra L H1) as (r & E & Lr & P). rewrite E. cbn [bind]. eexists _, _, _. split; [reflexivity|]. split; [exact Lr|exact P].
      - destruct (start_lamp s up n L) as (n' & ps & b & E & L'). rewrite E. cbn [bind]. eexists _, _, _. split; [reflexivity|]. split; [exact L'|reflexivity]. }
    destruct T as (n1 & l1 & a1 & E1 & L1 & P1). rewrite E1. cbn [bind].
    destruct (IH _ n1 L1 H2) as (n2 & l2 & a2 & E2 & L2 & P2). rewrite E2. cbn [bind].
    eexists _, _, _. split; [reflexivity|]. unfold all_commands in *. cbn [map concat]. rewrite map_app. subst l1 l2. split; [|reflexivity].
    unfold status_after in *. rewrite fold_left_app. exact L2.
Qed.
End N.
