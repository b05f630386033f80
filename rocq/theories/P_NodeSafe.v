(* No undefined behaviour in a node: every object keeps a readable Get property map and no
   null handler, and then every call goes through. *)
From Coq Require Import String ZArith List Bool Lia ZifyBool ZifyNat.
From Verif Require Import CSem M_Const M_Misc M_Property M_Message M_PropertyList M_Object M_Node M_NodeListener
  StdDB_Data M_Std Spec_Frame Spec_Message Spec_Map Spec_Object Spec_Node Spec_Request Run_Object Run_Node P_Base P_Misc
  P_Message P_Encode P_MsgApi P_PropertyList P_Object P_ObjectRun P_ObjectReach P_Std P_Node P_Request Properties_Object
  P_NodeReach P_NodeProfile P_NodeInv P_NodeRun P_NodeProps P_RequestProps P_Handlers.
Import ListNotations.
Open Scope Z_scope.
Ltac Zify.zify_post_hook ::= Z.div_mod_to_equations.

(* the object has a Get property map that is itself readable *)
Definition map_readable (o : obj) : Prop :=
  exists p, uecho_object_getproperty o 159 = Some p /\ uecho_property_isreadable p = true.
(* no NULL is registered as a handler *)
Definition no_null (o : obj) : Prop := Forall (fun b => ob_handler b <> None) (o_obs o).
Definition good (o : obj) : Prop := map_readable o /\ no_null o.

(* calls that leave the three property maps to the library, integer sizes of at most four
   bytes, and no NULL handlers *)
Definition safe_call (k : ocall) : Prop :=
  match k with
  | KStep op _ => no_map_op op
  | KSetInt c _ size => ~ map_epc c /\ (size <= 4)%nat
  | KGet _ => True
  | KHandler _ _ h => h <> None
  | KListener _ => True
  end.
Definition safe_nop (x : nop) : Prop :=
  match x with
  | NAdd o => good o
  | NObj _ k => safe_call k
  | _ => True
  end.

(* the data of the called object still fit in memory after the call *)
Definition room (n : node) (x : nop) : Prop :=
  match x with
  | NObj code k => forall o o' a, uecho_node_getobjectbycode n code = Some o -> odo k o = Ok (o', a) ->
                   Forall (fun p => len (p_data p) <= 1099511627776) (o_props o')
  | _ => True
  end.

Lemma put_readable : forall o c f, (forall p, p_code p = c -> p_code (f p) = c) ->
  (forall p, uecho_property_isreadable p = true -> uecho_property_isreadable (f p) = true) ->
  map_readable o -> map_readable (o_with_props (put (o_props o) c f) o).
Proof.
  intros o c f Hf Hr (p & F & R). unfold map_readable, uecho_object_getproperty in *. rewrite obj_props_with, put_find by exact Hf.
  destruct (Z.eqb_spec 159 c) as [E|E]; [|eauto]. subst c. exists (f (got (o_props o) 159)). split; [reflexivity|].
  apply Hr. rewrite (got_some _ _ _ F). exact R.
Qed.

Lemma find_readable : forall o o', find (o_props o') 159 = find (o_props o) 159 -> map_readable o -> map_readable o'.
Proof. intros o o' E H. unfold map_readable, uecho_object_getproperty in *. rewrite E. exact H. Qed.

Lemma setdata_readable : forall o c d, map_readable o -> map_readable (fst (uecho_object_setpropertydata o c d)).
Proof.
  intros. unfold uecho_object_setpropertydata. rewrite pl_setdata_eq. cbn [fst]. apply put_readable; [auto|auto|assumption].
Qed.

Lemma readable_inv : forall o, map_readable o -> forall p, find (o_props o) 159 = Some p -> uecho_property_isreadable p = true.
Proof. intros o (q & F & R) p E. unfold uecho_object_getproperty in F. congruence. Qed.

Lemma update_readable : forall junk o o' ann, junk_ok junk -> inv o ->
  (forall p, find (o_props o) 159 = Some p -> uecho_property_isreadable p = true) ->
  uecho_object_updatepropertymaps junk o = Ok (o', ann) -> map_readable o'.
Proof.
  intros junk o o' ann Hj Hi Hr E.
  destruct (update_spec _ _ _ _ Hj (proj2 Hi) E) as (gs & dg & ds & da & Eg & Eo & _). cbv zeta in Eo.
  destruct (get_map_readable (o_props o) (len gs) dg (len (wcodes (o_props o))) ds (len (acodes (o_props o))) da Hr)
    as (q & Q1 & Q2).
  exists q. split; [unfold uecho_object_getproperty; rewrite Eo; exact Q1|exact Q2].
Qed.

Lemma ostep_readable : forall junk o op, junk_ok junk -> inv o -> oop_ok op -> no_map_op op -> map_readable o ->
  exists o' ann, ostep junk o op = Ok (o', ann) /\ map_readable o'.
Proof.
  intros junk o op Hj Hi Hok Hnm Hr.
  assert (D : (exists c a, op = OSetProperty c a) \/ forall c a, op <> OSetProperty c a)
    by (destruct op; try (right; intros; discriminate); left; eauto).
  destruct (step_safe junk o op Hj Hi Hok Hnm (readable_inv _ Hr)) as (o' & ann & E & R & S); [right; exact Hr|].
  exists o', ann. split; [exact E|]. destruct D as [(c & a & ->)|D].
  - cbn [ostep] in E. unfold uecho_object_setproperty in E. rewrite pl_set_eq in E.
    match type of E with bind (uecho_object_updatepropertymaps junk ?x) _ = _ => set (o1 := x) in E end.
    apply bind_ok in E. destruct E as ([o2 a2] & E2 & E). injection E as <- _.
    destruct Hnm as [_ Hnm]. specialize (Hnm _ eq_refl). unfold map_epc in Hnm. destruct Hok as [Hc _]. cbn in Hc.
    eapply update_readable; [exact Hj| | |exact E2].
    + unfold o1. rewrite put_put by (intros; assumption). apply put_inv; auto; intros; constructor.
    + intros p F. apply (readable_inv _ Hr). rewrite <- F. unfold o1. rewrite obj_props_with, put_put by (intros; assumption).
      rewrite put_find by (intros; assumption). replace (159 =? c) with false by lia. reflexivity.
  - destruct (step_other junk o op Hnm D) as (o1 & a1 & E1 & _ & F). rewrite E in E1. injection E1 as <- _.
    eapply find_readable; eassumption.
Qed.

Lemma nonnull_set : forall l e c h, h <> None -> Forall (fun b => ob_handler b <> None) l ->
  Forall (fun b => ob_handler b <> None) (uecho_object_property_observer_manager_setobserver l e c h).
Proof.
  intros l e c h Hh H. unfold uecho_object_property_observer_manager_setobserver. rewrite Forall_forall in H.
  destruct (obs_find l e c); apply Forall_forall; intros b I; apply in_app_or in I; destruct I as [I|[<-|[]]]; auto.
  apply H. eapply obs_remove_in. exact I.
Qed.

Lemma odo_good : forall k o, oinv o -> ocall_ok k -> safe_call k -> good o ->
  exists o' a, odo k o = Ok (o', a) /\ good o'.
Proof.
  intros k o Ho Hk Hs [Hr Hz]. destruct k; cbn [odo ocall_ok safe_call] in *.
  - destruct Hk as (K1 & K2 & K3). destruct (ostep_readable junk o op K3 (proj1 (proj1 Ho)) K1 Hs Hr) as (o' & a & E & R).
    exists o', a. split; [exact E|]. split; [exact R|]. apply ostep_shape in E. destruct E as (l & m & ->). exact Hz.
  - destruct Hs as [_ Hs].
    pose proof (proj2 (integer2byte_iff v size (rev (map (fun k => byte_of v (Z.of_nat k)) (seq 0 size)))) (conj Hs eq_refl)) as B.
    rewrite (set_int_eq _ _ _ _ _ B). match goal with |- context [uecho_object_setpropertydata o c ?d] =>
      pose proof (setdata_readable o c d Hr) as R; destruct (uecho_object_setpropertydata o c d) as [o' a] eqn:E end.
    exists o', a. split; [reflexivity|]. split; [exact R|].
    unfold uecho_object_setpropertydata in E. rewrite pl_setdata_eq in E. injection E as <- _. exact Hz.
  - eexists _, _. split; [reflexivity|]. rewrite get_shape. split; [|exact Hz].
    destruct (find (o_props o) c) as [q|] eqn:F; [destruct o; exact Hr|].
    destruct Hr as (p & P1 & P2). exists p. split; [|exact P2]. unfold uecho_object_getproperty in *. rewrite obj_props_with.
    rewrite P_PropertyList.find_app, P1. reflexivity.
  - eexists _, _. split; [reflexivity|]. split; [exact Hr|]. apply nonnull_set; assumption.
  - eexists _, _. split; [reflexivity|]. split; [exact Hr|exact Hz].
Qed.

Definition db_maps (db : list obj) : Prop :=
  forall g c p, find (db_props db g c) 159 = Some p -> uecho_property_isreadable p = true.

Lemma setcode_good : forall db junk v, db_ok db -> db_maps db -> junk_ok junk ->
  exists o ann, uecho_object_setcode db junk uecho_object_new v = Ok (o, ann) /\ good o.
Proof.
  intros db junk v Hdb Hm Hj. destruct (setcode_safe db junk v Hdb Hj Hm) as (o & ann & E & _).
  exists o, ann. split; [exact E|]. split.
  - unfold uecho_object_setcode in E. eapply update_readable; [exact Hj| | |exact E].
    + apply addstd_einv; [exact Hdb|]. split; [apply inv_new|constructor].
    + intros p F. rewrite addstd_find in F. cbn [o_props o_with_code uecho_object_new uecho_propertylist_findbycode first_some] in F.
      destruct (find (db_props db 0 0) 159) as [q|] eqn:Q.
      * cbn in F. injection F as <-. apply (Hm _ _ _ Q).
      * cbn [first_some] in F. match type of F with option_map _ ?b = _ => destruct b as [q|] eqn:Q'; [|discriminate] end.
        cbn in F. injection F as <-. apply (Hm _ _ _ Q').
  - apply setcode_obs in E. unfold no_null. rewrite E. constructor.
Qed.

Section N.
Variable le : bool.
Variable net : post -> bool.

Definition ngood (n : node) : Prop := Forall good (n_objs n).

Lemma op_good : forall f n code n' ps, (forall o o' a, uecho_node_getobjectbycode n code = Some o -> f o = Ok (o', a) -> good o -> good o') ->
  node_object_op le net f n code = Ok (n', ps) -> ngood n -> ngood n'.
Proof.
  intros f n code n' ps Hf H N. unfold node_object_op in H. destruct (uecho_node_getobjectbycode n code) as [o|] eqn:G.
  - apply bind_ok in H. destruct H as ([o' a] & F & H). apply node_emit_shape in H. rewrite H.
    unfold ngood. cbn [n_objs n_with_tid n_with_objs]. apply put_obj_Forall; [exact N|]. eapply Hf; [reflexivity|exact F|].
    apply getbycode_in in G. unfold ngood in N. rewrite Forall_forall in N. apply N. apply G.
  - injection H as <- _. exact N.
Qed.

Lemma instances_good : forall classes objs o o' a,
  uecho_nodeprofile_updateinstanceproperties classes objs o = Ok (o', a) -> good o -> good o'.
Proof.
  intros classes objs o o' a F [Hr Hz]. rewrite updateinstance_eq in F. cbv zeta in F.
  apply (f_equal (fun x => match x with Ok y => fst y | _ => o end)) in F. cbn [fst] in F. rewrite <- F. split; [|exact Hz].
  eapply find_readable; [|exact Hr]. rewrite obj_props_with, put_all_find by (apply nodupb_ok; reflexivity). reflexivity.
Qed.

Lemma addobject_good : forall n o n' ps b, uecho_node_addobject le net n o = Ok (n', ps, b) -> good o -> ngood n -> ngood n'.
Proof.
  intros n o n' ps b H Po N. unfold uecho_node_addobject in H.
  destruct (uecho_node_getobjectbycode n (uecho_object_getcode o)); [injection H as <- _ _; exact N|].
  set (n2 := n_with_classes _ _) in H. assert (N2 : ngood n2).
  { unfold n2, ngood. cbn [n_objs n_with_classes n_with_objs]. apply Forall_app. split; [exact N|]. constructor; [exact Po|constructor]. }
  clearbody n2. unfold uecho_node_updatenodeprofileclass in H.
  destruct (uecho_node_getobjectbycode n2 uEchoNodeProfileObject); [|injection H as <- _ _; exact N2].
  apply bind_ok in H. destruct H as ([n3 ps3] & E & H). cbn [fst snd] in H. injection H as <- _ _.
  eapply op_good; [|exact E|exact N2]. intros o1 o2 a _ F. eapply instances_good; exact F.
Qed.

Lemma setman_good1 : forall code o o' a, uecho_object_setmanufacturercode o code = Ok (o', a) -> good o -> good o'.
Proof.
  intros code o o' a F [Hr Hz]. unfold uecho_object_setmanufacturercode in F. rewrite (set_int_eq _ _ _ _ _ (int3 _)) in F.
  injection F as F. apply (f_equal fst) in F. cbn [fst] in F. rewrite <- F. split; [apply setdata_readable; exact Hr|].
  unfold uecho_object_setpropertydata. rewrite pl_setdata_eq. exact Hz.
Qed.

Lemma setman_good : forall codes n code n' ps, setmanufacturer_all le net n codes code = Ok (n', ps) -> ngood n -> ngood n'.
Proof.
  induction codes as [|c codes IH]; intros n code n' ps H N; cbn [setmanufacturer_all] in H; [injection H as <- _; exact N|].
  apply bind_ok in H. destruct H as ([n1 p1] & E1 & H). apply bind_ok in H. destruct H as ([n2 p2] & E2 & H).
  cbn [fst snd] in *. injection H as <- _. eapply IH; [exact E2|]. eapply op_good; [|exact E1|exact N].
  intros o o' a _ F. cbv beta in F. exact (setman_good1 _ _ _ _ F).
Qed.

Lemma setman_total : forall codes n code, ninv n ->
  exists n' ps, setmanufacturer_all le net n codes code = Ok (n', ps).
Proof.
  induction codes as [|c codes IH]; intros n code Hn; cbn [setmanufacturer_all]; [eauto|].
  assert (T : forall o, uecho_node_getobjectbycode n c = Some o -> oinv o -> exists o' a,
     (fun o => uecho_object_setmanufacturercode o code) o = Ok (o', a) /\ Forall ann_ok a).
  { intros o _ Ho. cbv beta. destruct (uecho_object_setmanufacturercode o code) as [[o' a]|] eqn:E.
    - exists o', a. split; [reflexivity|]. apply (setman_ann _ _ _ _ Ho E).
    - unfold uecho_object_setmanufacturercode in E. rewrite (set_int_eq _ _ _ _ _ (int3 _)) in E. discriminate. }
  destruct (object_op_total le net _ n c Hn T) as (n1 & p1 & E1). rewrite E1. cbn [bind fst snd].
  assert (F : forall o o' a, uecho_node_getobjectbycode n c = Some o -> oinv o ->
        uecho_object_setmanufacturercode o code = Ok (o', a) -> oinv o' /\ keeps o o' /\ Forall ann_ok a)
      by (intros; eapply setman_ann; eauto).
  apply (object_op_ok le net (fun o => uecho_object_setmanufacturercode o code)) in E1; [|assumption|assumption].
  destruct E1 as [[N1 _] _]. destruct (IH n1 code N1) as (n2 & p2 & E2). rewrite E2. cbn [bind]. eauto.
Qed.

Lemma receive_good : forall dec n f from r, ninv n -> frame_ok f -> receive_frame le net dec n f from = Ok r -> ngood n -> ngood (r_node r).
Proof.
  intros dec n f from r Hn Hf H N. unfold receive_frame in H.
  destruct (uecho_node_getobjectbycode n (eoj_code (f_deoj f))) as [o|] eqn:G; [|injection H as <-; exact N].
  destruct (uecho_esv_isrequest (f_esv f)); cbn [negb] in H; [|injection H as <-; exact N].
  apply bind_ok in H. destruct H as ([[[[o1 anns] calls] b] all] & W & H).
  apply bind_ok in H. destruct H as ([n1 ps] & E & H). injection H as <-. cbn [r_node fst].
  assert (Go : good o) by (apply getbycode_in in G; unfold ngood in N; rewrite Forall_forall in N; apply N; apply G).
  pose proof (wbody_spec _ _ _ _ _ _ _ _ _ W) as S.
  apply node_emit_shape in E. rewrite E. unfold ngood. cbn [n_objs n_with_tid n_with_objs]. apply put_obj_Forall; [exact N|].
  destruct S as (_ & _ & [(_ & _ & _ & _ & Ob & _) Sh] & _). destruct Go as [(p & P1 & P2) Gz]. split.
  - pose proof (map_shape_find _ _ 159 Sh) as Fs. unfold uecho_object_getproperty in P1. rewrite P1 in Fs.
    destruct (find (o_props o1) 159) as [q|] eqn:Fq; [|discriminate]. exists q. split; [exact Fq|].
    cbn [option_map] in Fs. injection Fs as F1 F2 F3. unfold uecho_property_isreadable in *. rewrite F2. exact P2.
  - unfold no_null. rewrite Ob. exact Gz.
Qed.

Variable db : list obj.
Hypothesis Hdb : db_ok db.
Hypothesis Hmaps : db_maps db.

Lemma nstep_good : forall n x n' own ans, ninv n -> mem_ok n -> nop_ok le db x -> safe_nop x ->
  nstep le net db n x = Ok (n', own, ans) -> ngood n -> ngood n'.
Proof.
  intros n x n' own ans Hn Hm Hx Hs H N. destruct x; cbn [nstep nop_ok safe_nop] in *.
  - apply bind_ok in H. destruct H as ([[n1 ps] r] & E & H). injection H as <- _ _.
    eapply addobject_good; [exact E|exact Hs|exact N].
  - apply bind_ok in H. destruct H as ([[n1 ps] r] & E & H). injection H as <- _ _.
    unfold uecho_node_setobject in E. destruct (uecho_node_getobjectbycode n code); [injection E as <- _ _; exact N|].
    destruct (setcode_good db junk code Hdb Hmaps Hx) as (o & a & E1 & G). rewrite E1 in E. cbn [bind fst] in E.
    eapply addobject_good; [exact E|exact G|exact N].
  - apply bind_ok in H. destruct H as ([n1 ps] & E & H). cbn [fst snd] in H. injection H as <- _ _.
    eapply op_good; [|exact E|exact N]. intros o o' a G F Go. destruct (ninv_get _ _ _ Hn G) as [Ho _].
    destruct (odo_good k o Ho Hx Hs Go) as (o1 & a1 & E1 & G1). rewrite F in E1. injection E1 as -> ->. exact G1.
  - apply bind_ok in H. destruct H as ([n1 ps] & E & H). cbn [fst snd] in H. injection H as <- _ _.
    eapply setman_good; [exact E|exact N].
  - apply bind_ok in H. destruct H as ([[n1 ps] r] & E & H). injection H as <- _ _.
    unfold uecho_node_announce in E.
    destruct (uecho_node_getobjectbycode n uEchoNodeProfileObject) as [p|]; [|injection E as <- _ _; exact N].
    destruct (uecho_object_getproperty p EPC_InstanceListNotification) as [q|]; [|injection E as <- _ _; exact N].
    apply bind_ok in E. destruct E as (s & E & E2).
    apply (f_equal (fun x => match x with Ok (a, b, _) => a | _ => n end)) in E2. cbv iota in E2. rewrite <- E2.
    rewrite (announceproperty_shape _ _ _ _ _ _ E). exact N.
  - apply bind_ok in H. destruct H as (s & E & H). injection H as <- _ _. destruct Hx as [Ha Hi].
    pose proof (api_inv_holds _ _ Ha) as [Hok He].
    rewrite announcemessage_spec in E; [|assumption|apply (in_memory_fits m); assumption].
    apply (f_equal (fun x => match x with Ok y => s_node y | _ => n end)) in E. cbv iota in E.
    destruct (profile n); cbn [s_node] in E; rewrite <- E; exact N.
  - apply bind_ok in H. destruct H as (s & E & H). injection H as <- _ _. destruct Hx as [Ha Hi].
    pose proof (api_inv_holds _ _ Ha) as [Hok He].
    rewrite sendmessage_spec in E; [|assumption|apply (in_memory_fits m); assumption].
    apply (f_equal (fun x => match x with Ok y => s_node y | _ => n end)) in E. cbv iota in E.
    destruct (profile n); [destruct (n_addr d)|]; cbn [s_node] in E; rewrite <- E; exact N.
  - apply bind_ok in H. destruct H as (r & E & H). injection H as <- _ _.
    rewrite node_receive_spec in E; [|assumption|apply fine_objs; assumption].
    destruct (dec_frame data) as [[f rest]|] eqn:Ed.
    + apply dec_frame_iff in Ed; [|apply Hx]. destruct Ed as [Hf _]. eapply receive_good; eauto.
    + injection E as <-. exact N.
  - injection H as <- _ _. exact N.
  - injection H as <- _ _. exact N.
  - injection H as <- _ _. constructor.
Qed.

Lemma ngood_handlers : forall n, ngood n -> handlers_set n.
Proof. intros n H. unfold handlers_set, ngood in *. eapply Forall_impl; [|exact H]. intros o [_ Z]. exact Z. Qed.

Lemma nstep_total : forall n x, ninv n -> mem_ok n -> nop_ok le db x -> safe_nop x -> room n x -> ngood n ->
  exists r, nstep le net db n x = Ok r.
Proof.
  intros n x Hn Hm Hx Hs Hr N. destruct x; cbn [nstep nop_ok safe_nop room] in *.
  - destruct (api_winv _ _ Hdb Hx) as [He Hb]. destruct (addobject_total le net n o Hn He Hb) as (n' & ps & r & E).
    rewrite E. cbn [bind]. eauto.
  - unfold uecho_node_setobject. destruct (uecho_node_getobjectbycode n code); [cbn [bind]; eauto|].
    destruct (setcode_good db junk code Hdb Hmaps Hx) as (o & a & E1 & G). rewrite E1. cbn [bind fst].
    assert (Ho : api_obj db o) by (eapply ao_setcode; [constructor|exact Hx|exact E1]).
    destruct (api_winv _ _ Hdb Ho) as [He Hb]. destruct (addobject_total le net n o Hn He Hb) as (n' & ps & r & E).
    rewrite E. cbn [bind]. eauto.
  - assert (T : forall o, uecho_node_getobjectbycode n code = Some o -> oinv o -> exists o' a, odo k o = Ok (o', a) /\ Forall ann_ok a).
    { intros o G Ho. assert (Go : good o) by (apply getbycode_in in G; unfold ngood in N; rewrite Forall_forall in N; apply N; apply G).
      destruct (odo_good k o Ho Hx Hs Go) as (o' & a & E & _). exists o', a. split; [exact E|].
      destruct (odo_ok _ _ _ _ Ho Hx E) as (A & _ & C). pose proof (Hr _ _ _ G E) as Mo.
      eapply Forall_impl; [|exact C]. intros p Sp. eapply snap_ann_ok; [apply A|exact Mo|exact Sp]. }
    destruct (object_op_total le net _ n code Hn T) as (n1 & ps & E). rewrite E. cbn [bind]. eauto.
  - unfold uecho_node_setmanufacturercode. destruct (setman_total (map uecho_object_getcode (n_objs n)) n code Hn) as (n1 & ps & E).
    rewrite E. cbn [bind]. eauto.
  - unfold uecho_node_announce. destruct (uecho_node_getobjectbycode n uEchoNodeProfileObject) as [p|] eqn:Ep; [|cbn [bind]; eauto].
    destruct (uecho_object_getproperty p EPC_InstanceListNotification) as [q|] eqn:Eq; [|cbn [bind]; eauto].
    assert (A : ann_ok q).
    { unfold uecho_object_getproperty in Eq. pose proof (ninv_get _ _ _ Hn Ep) as [Ho _].
      apply (snap_ann_ok p); [apply Ho| |].
      - unfold mem_ok in Hm. rewrite Forall_forall in Hm. apply Hm. apply getbycode_in in Ep. tauto.
      - exists q. split; [|reflexivity]. pose proof (find_code _ _ _ Eq) as [-> _]. exact Eq. }
    destruct (announceproperty_spec le net n (uecho_object_getcode p) q A (proj1 Hn)) as (s & E & _). rewrite E. cbn [bind]. eauto.
  - destruct Hx as [Ha Hi]. pose proof (api_inv_holds _ _ Ha) as [Hok He].
    rewrite announcemessage_spec; [|assumption|apply (in_memory_fits m); assumption]. destruct (profile n); cbn [bind]; eauto.
  - destruct Hx as [Ha Hi]. pose proof (api_inv_holds _ _ Ha) as [Hok He].
    rewrite sendmessage_spec; [|assumption|apply (in_memory_fits m); assumption].
    destruct (profile n); [destruct (n_addr d)|]; cbn [bind]; eauto.
  - destruct (receive_total le net dec n data local remote Hn Hm Hx (ngood_handlers _ N)) as (r & E). rewrite E. cbn [bind]. eauto.
  - eauto.
  - eauto.
  - eauto.
Qed.

Lemma profile_good : forall junk man uq, junk_ok junk -> (3 <= length man)%nat -> (13 <= length uq)%nat ->
  exists o, uecho_nodeprofile_new db junk man uq = Ok o /\ good o.
Proof.
  intros junk man uq Hj Hm Hu. unfold uecho_nodeprofile_new.
  destruct (setcode_good db junk uEchoNodeProfileObject Hdb Hmaps Hj) as (o & a & E & [R Zn]). rewrite E. cbn [bind fst]. clear E.
  unfold uecho_nodeprofile_addmandatoryproperties.
  destruct (uecho_database_getobject db 14 240) as [sup|] eqn:Es; [|eexists; split; [reflexivity|split; assumption]].
  set (x1 := uecho_object_addmissingobjectproperties o sup).
  assert (R1 : map_readable x1 /\ no_null x1).
  { split.
    - destruct (addmissing_spec (o_props sup) o) as (F & _). destruct R as (p & P1 & P2). exists p. split; [|exact P2].
      unfold uecho_object_getproperty in *. unfold x1, uecho_object_addmissingobjectproperties. rewrite F, P1. reflexivity.
    - unfold x1, no_null, uecho_object_addmissingobjectproperties. rewrite addmissing_obs. exact Zn. }
  clearbody x1.
  assert (ST : forall o c d, good o -> good (fst (uecho_object_setpropertydata o c d))).
  { intros o1 c d [G1 G2]. split; [apply setdata_readable; exact G1|]. unfold uecho_object_setpropertydata. rewrite pl_setdata_eq. exact G2. }
  set (x2 := fst (uecho_nodeprofile_setoperatingstatus x1 true)). assert (G2 : good x2) by (apply ST; exact R1).
  set (x3 := fst (uecho_nodeprofile_setversion x2 1 13)). assert (G3 : good x3) by (apply ST; exact G2). clearbody x2 x3.
  unfold uecho_nodeprofile_setid. 
  assert (RR : forall (l : list Z) k, (k <= length l)%nat -> exists x, rd_range l 0 (Z.of_nat k) = Ok x).
  { intros l k Hk. unfold rd_range. destruct (Z.of_nat k =? 0) eqn:B0; [eauto|].
    match goal with |- context [if ?b then _ else _] => destruct b eqn:B end; [eauto|]. unfold len in B. lia. }
  destruct (RR man 3%nat Hm) as (m & M). destruct (RR uq 13%nat Hu) as (u & U).
  change (Z.of_nat 3) with 3 in M. change (Z.of_nat 13) with 13 in U. rewrite M, U. cbn [bind].
  eexists. split; [reflexivity|]. cbn [fst]. apply ST. exact G3.
Qed.

(* nodes whose history has only safe calls *)
Lemma nrun_good : forall n h n' own ans, ninv n -> ngood n -> Forall safe_nop h -> nrun le net db n h n' own ans ->
  ninv n' /\ mem_ok n' /\ ngood n'.
Proof.
  intros n h n' own ans Hn N Hs H. revert Hn N Hs. induction H as [n Hm|n x n1 p1 a1 h n' own ans Hx Hm Hst Hr IH]; intros Hn N Hs; [auto|].
  inversion Hs as [|? ? S1 S2]; subst. assert (Hm1 : mem_ok n1) by (inversion Hr; assumption).
  apply IH; [exact (proj1 (nstep_ok _ _ _ _ _ _ _ _ Hdb Hn Hm Hm1 Hx Hst))| |exact S2].
  eapply nstep_good; [exact Hn|exact Hm|exact Hx|exact S1|exact Hst|exact N].
Qed.

Lemma new_good : forall n, new_node le net db n -> ninv n /\ ngood n.
Proof.
  intros n H. split; [apply (new_node_ok _ _ _ _ Hdb H)|].
  destruct H as (tid0 & junk & man & uq & posts & _ & Hj & _ & _ & E). unfold uecho_node_new in E.
  apply bind_ok in E. destruct E as (o & E & E1). apply bind_ok in E1. destruct E1 as ([[n1 ps] r] & E1 & E2). injection E2 as <- _.
  change (ngood n1). eapply addobject_good; [exact E1| |constructor].
  assert (L : (3 <= length man)%nat /\ (13 <= length uq)%nat \/ uecho_database_getobject db 14 240 = None).
  { unfold uecho_nodeprofile_new in E. apply bind_ok in E. destruct E as (r1 & _ & E). apply bind_ok in E. destruct E as (r2 & E & _).
    unfold uecho_nodeprofile_addmandatoryproperties in E. destruct (uecho_database_getobject db 14 240); [|auto]. left.
    cbv zeta in E. apply bind_ok in E. destruct E as (r3 & E & _). unfold uecho_nodeprofile_setid in E.
    apply bind_ok in E. destruct E as (m & M & E). apply bind_ok in E. destruct E as (u & U & _).
    unfold rd_range, len in *. cbn [Z.eqb] in *.
    split; [destruct (_ && _) eqn:B in M|destruct (_ && _) eqn:B in U]; try discriminate; lia. }
  destruct L as [[L1 L2]|L].
  - destruct (profile_good junk man uq Hj L1 L2) as (o' & E' & G). rewrite E in E'. injection E' as <-. exact G.
  - unfold uecho_nodeprofile_new, uecho_nodeprofile_addmandatoryproperties in E. rewrite L in E.
    destruct (setcode_good db junk uEchoNodeProfileObject Hdb Hmaps Hj) as (o' & a & E' & G). rewrite E' in E. cbn [bind fst] in E.
    injection E as <-. exact G.
Qed.

Lemma new_total : forall tid0 junk man uq, 0 <= tid0 -> junk_ok junk -> bytes_ok man -> bytes_ok uq ->
  (3 <= length man)%nat -> (13 <= length uq)%nat ->
  exists n posts, uecho_node_new le net db tid0 junk man uq = Ok (n, posts).
Proof.
  intros tid0 junk man uq Ht Hj Hm Hu L1 L2. unfold uecho_node_new.
  destruct (profile_good junk man uq Hj L1 L2) as (o & E & _). rewrite E. cbn [bind].
  destruct (profile_new_ok _ _ _ _ _ Hdb Hj Hm Hu E) as (He & Hb & _).
  assert (N0 : ninv (mkNode tid0 [] [] None false)).
  { split; [cbn; lia|]. split; [constructor|]. split; [constructor|reflexivity]. }
  destruct (addobject_total le net _ o N0 He Hb) as (n' & ps & r & E1). rewrite E1. cbn [bind]. eauto.
Qed.
End N.
