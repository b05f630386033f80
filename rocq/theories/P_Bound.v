(* How long the data of properties get.  The library itself stores at most 766 bytes; only the
   data a caller stores or appends, and the data of a database, can be longer. *)
From Coq Require Import String ZArith List Bool Lia ZifyBool ZifyNat.
From Verif Require Import CSem M_Const M_Misc M_Property M_Message M_PropertyList M_Object M_Node M_NodeListener
  StdDB_Data M_Std Spec_Frame Spec_Message Spec_Map Spec_Object Spec_Node Spec_Request Run_Object Run_Node P_Base P_Misc
  P_Message P_Encode P_MsgApi P_PropertyList P_Object P_ObjectRun P_ObjectReach P_Std P_Node P_Request
  P_NodeReach P_NodeProfile P_NodeInv P_NodeRun P_RequestProps P_Handlers.
From Verif Require P_CtrlProp.
Import ListNotations.
Open Scope Z_scope.
Ltac Zify.zify_post_hook ::= Z.div_mod_to_equations.

Section B.
Variable K : Z.
Hypothesis HK : 766 <= K.

Definition pbound (p : prop) : Prop := len (p_data p) <= K.
Definition obound (o : obj) : Prop := Forall pbound (o_props o).
Definition nbound (n : node) : Prop := Forall obound (n_objs n).

Lemma bound_add : forall l p, Forall pbound l -> pbound p -> Forall pbound (uecho_propertylist_add l p).
Proof.
  intros l p H Hp. unfold uecho_propertylist_add.
  assert (R : forall c l, Forall pbound l -> Forall pbound (remove_first c l)).
  { intros c. induction l0 as [|q r IH]; intros Q; cbn [remove_first]; [constructor|]. inversion Q; subst.
    destruct (p_code q =? c); [assumption|]. constructor; auto. }
  destruct (uecho_propertylist_findbycode l (p_code p)); apply Forall_app; split; auto.
Qed.

Lemma bound_upd : forall c f l, (forall p, pbound p -> pbound (f p)) -> Forall pbound l -> Forall pbound (update_first c f l).
Proof.
  intros c f l Hf. induction l as [|q r IH]; intros Q; cbn [update_first]; [constructor|]. inversion Q; subst.
  destruct (p_code q =? c); constructor; auto.
Qed.

Lemma bound_get : forall l c l1 p, uecho_propertylist_getbycode l c = (l1, p) -> Forall pbound l -> Forall pbound l1 /\ pbound p.
Proof.
  intros l c l1 p E H. unfold uecho_propertylist_getbycode in E.
  destruct (uecho_propertylist_findbycode l c) as [q|] eqn:F.
  - injection E as <- <-. split; [exact H|]. rewrite Forall_forall in H. apply H.
    eapply P_PropertyList.find_code. exact F.
  - injection E as <- <-. assert (X : pbound (uecho_property_setcode c uecho_property_new)) by (unfold pbound; cbn; lia).
    split; [apply bound_add; assumption|exact X].
Qed.

Lemma bound_store : forall d p p1 ann, uecho_property_setdata d p = (p1, ann) -> len d <= K -> pbound p1.
Proof.
  intros d p p1 ann E Hd. unfold uecho_property_setdata in E. cbv zeta in E. destruct (len d =? 0) eqn:Z0.
  - injection E as <- <-. unfold pbound, uecho_property_setcount. destruct d; [|unfold len in Z0; cbn [length] in Z0; lia].
    cbn. lia.
  - injection E as <- <-. exact Hd.
Qed.

Lemma bound_setdata : forall l c d l' ann, uecho_propertylist_setdata l c d = (l', ann) -> len d <= K -> Forall pbound l -> Forall pbound l'.
Proof.
  intros l c d l' ann E Hd H. unfold uecho_propertylist_setdata in E. destruct (uecho_propertylist_getbycode l c) as [l1 p] eqn:G.
  destruct (uecho_property_setdata d p) as [p1 a1] eqn:S1. injection E as <- <-. destruct (bound_get _ _ _ _ G H) as [H1 _].
  apply bound_upd; [|exact H1]. intros _ _. eapply bound_store; eassumption.
Qed.

Lemma bound_set : forall l c a d l' ann, uecho_propertylist_set l c a d = (l', ann) -> len d <= K -> Forall pbound l -> Forall pbound l'.
Proof.
  intros l c a d l' ann E Hd H. unfold uecho_propertylist_set in E. destruct (uecho_propertylist_getbycode l c) as [l1 p] eqn:G.
  destruct (uecho_property_setdata d p) as [p1 a1] eqn:S1. injection E as <- <-. destruct (bound_get _ _ _ _ G H) as [H1 _].
  apply bound_upd; [|exact H1]. intros _ _. unfold pbound. change (len (p_data p1) <= K). eapply bound_store; eassumption.
Qed.

Lemma bound_osetdata : forall o c d o' ann, uecho_object_setpropertydata o c d = (o', ann) -> len d <= K -> obound o -> obound o'.
Proof.
  intros o c d o' ann E Hd H. unfold uecho_object_setpropertydata in E. destruct (uecho_propertylist_setdata (o_props o) c d) as [l a] eqn:S1.
  injection E as <- <-. unfold obound. rewrite obj_props_with. eapply bound_setdata; eassumption.
Qed.

Lemma bound_osetint : forall o c v size o' ann, uecho_object_setpropertyintegerdata o c v size = Ok (o', ann) -> obound o -> obound o'.
Proof.
  intros o c v size o' ann E H. unfold uecho_object_setpropertyintegerdata, uecho_propertylist_setintegerdata in E.
  destruct (uecho_propertylist_getbycode (o_props o) c) as [l1 p] eqn:G. unfold uecho_property_setintegerdata in E.
  destruct (uecho_integer2byte v size) as [bs|] eqn:I; [|discriminate]. cbn [bind] in E.
  destruct (uecho_property_setdata bs p) as [p1 a1] eqn:S1. cbn [bind] in E. injection E as <- <-.
  unfold obound. rewrite obj_props_with. destruct (bound_get _ _ _ _ G H) as [H1 _].
  apply bound_upd; [|exact H1]. intros _ _. eapply bound_store; [exact S1|].
  apply integer2byte_iff in I. destruct I as [I ->]. unfold len. rewrite rev_length, map_length, seq_length. lia.
Qed.

Lemma bound_map : forall o m cs o' ann, uecho_object_setpropertymap o m cs = Ok (o', ann) -> obound o -> obound o'.
Proof.
  intros o m cs o' ann E H. unfold uecho_object_setpropertymap in E. destruct cs as [cs|]; [|discriminate]. cbv zeta in E.
  destruct (len cs <=? MapFormat1MaxSize) eqn:L.
  - destruct (uecho_propertylist_set (o_props o) m AttrRead (to_byte (len cs) :: cs)) as [l a] eqn:S1. injection E as <- <-.
    unfold obound. rewrite obj_props_with. eapply bound_set; [exact S1| |exact H]. unfold MapFormat1MaxSize, len in *. cbn [length] in *. lia.
  - destruct (map_format2 cs (to_byte (len cs) :: repeat 0 (Z.to_nat MapFormat2MapSize))) as [d|] eqn:M; [|discriminate]. cbn [bind] in E.
    destruct (uecho_propertylist_setdata (o_props o) m d) as [l a] eqn:S1. injection E as <- <-.
    unfold obound. rewrite obj_props_with. eapply bound_setdata; [exact S1| |exact H].
    rewrite (P_CtrlProp.map2_len _ _ _ M). unfold len. cbn [length]. rewrite repeat_length. unfold MapFormat2MapSize. lia.
Qed.

Lemma bound_update : forall junk o o' ann, uecho_object_updatepropertymaps junk o = Ok (o', ann) -> obound o -> obound o'.
Proof.
  intros junk o o' ann E H. unfold uecho_object_updatepropertymaps, uecho_object_clearpropertymapcaches in E. cbv zeta in E.
  apply bind_ok in E. destruct E as ([o2 a1] & E1 & E). apply bind_ok in E. destruct E as ([o3 a2] & E2 & E).
  apply bind_ok in E. destruct E as ([o4 a3] & E3 & E). injection E as <- _.
  eapply bound_map; [exact E3|]. eapply bound_map; [exact E2|]. eapply bound_map; [exact E1|]. exact H.
Qed.

Lemma bound_setproperty : forall junk o c a o' ann, uecho_object_setproperty junk o c a = Ok (o', ann) -> obound o -> obound o'.
Proof.
  intros junk o c a o' ann E H. unfold uecho_object_setproperty in E.
  destruct (uecho_propertylist_set (o_props o) c a []) as [l a1] eqn:S1.
  apply bind_ok in E. destruct E as ([o2 a2] & E1 & E). injection E as <- _.
  eapply bound_update; [exact E1|]. unfold obound. rewrite obj_props_with. apply bound_upd; [intros p Hp; exact Hp|].
  eapply bound_set; [exact S1|cbn; lia|exact H].
Qed.

Lemma bound_copy : forall p, pbound p -> pbound (uecho_property_copy p).
Proof.
  intros p H. unfold uecho_property_copy.
  destruct (uecho_property_setdata (p_data p) (uecho_property_setattribute (p_attr p) (uecho_property_setcode (p_code p) uecho_property_new))) as [q a] eqn:E.
  eapply bound_store; [exact E|exact H].
Qed.

Lemma bound_addproperty : forall o p, obound o -> pbound p -> obound (uecho_object_addproperty o p).
Proof. intros o p H Hp. unfold uecho_object_addproperty, obound. rewrite obj_props_with. apply bound_add; [exact H|exact Hp]. Qed.

Lemma bound_addmissing : forall src o, Forall pbound src -> obound o -> obound (addmissing o src).
Proof.
  induction src as [|p src IH]; intros o Hs H; cbn [addmissing]; [exact H|]. inversion Hs; subst.
  destruct (uecho_object_hasproperty o (p_code p)); [auto|]. apply IH; [assumption|]. apply bound_addproperty; [exact H|].
  apply bound_copy. assumption.
Qed.

Lemma bound_db : forall db g c o, Forall obound db -> uecho_database_getobject db g c = Some o -> obound o.
Proof.
  induction db as [|x db IH]; intros g c o H E; cbn [uecho_database_getobject] in E; [discriminate|]. inversion H; subst.
  destruct ((o_grp x =? g) && (o_cls x =? c)); [injection E as <-; assumption|eauto].
Qed.

Lemma bound_std1 : forall db o g c, Forall obound db -> obound o -> obound (fst (uecho_object_addstandardpropertieswithcode db o g c)).
Proof.
  intros db o g c D H. unfold uecho_object_addstandardpropertieswithcode. destruct (uecho_database_getobject db g c) as [s|] eqn:E; [|exact H].
  cbn [fst]. apply bound_addmissing; [|exact H]. eapply bound_db; eassumption.
Qed.

Lemma bound_std : forall db o, Forall obound db -> obound o -> obound (fst (uecho_object_addstandardproperties db o)).
Proof.
  intros db o D H. unfold uecho_object_addstandardproperties.
  pose proof (bound_std1 db o 0 0 D H) as B. destruct (uecho_object_addstandardpropertieswithcode db o 0 0) as [o1 b1]. cbn [fst] in B.
  pose proof (bound_std1 db o1 (o_grp o1) (o_cls o1) D B) as B2.
  destruct (uecho_object_addstandardpropertieswithcode db o1 (o_grp o1) (o_cls o1)) as [o2 b2]. exact B2.
Qed.

Lemma bound_setcode : forall db junk o v o' ann, Forall obound db -> uecho_object_setcode db junk o v = Ok (o', ann) -> obound o -> obound o'.
Proof.
  intros db junk o v o' ann D E H. unfold uecho_object_setcode in E. cbv zeta in E. eapply bound_update; [exact E|].
  apply bound_std; [exact D|]. exact H.
Qed.

Lemma bound_new : obound uecho_object_new.
Proof. constructor. Qed.

(* ---- calls on an object ---- *)

(* the data the caller gives; appended data are added to what is there *)
Definition op_bound (op : oop) (o : obj) : Prop :=
  match op with
  | OSetData _ d | OAdd _ _ d | OPropData _ d => len d <= K
  | OPropAppend c d => match uecho_object_getproperty o c with Some p => len (p_data p) + len d <= K | None => True end
  | _ => True
  end.
Definition call_bound (k : ocall) (o : obj) : Prop := match k with KStep op _ => op_bound op o | _ => True end.

Lemma bound_find : forall o c p, obound o -> uecho_object_getproperty o c = Some p -> pbound p.
Proof. intros o c p H E. unfold obound in H. rewrite Forall_forall in H. apply H. eapply P_PropertyList.find_code. exact E. Qed.

Lemma bound_ostep : forall junk o op o' ann, ostep junk o op = Ok (o', ann) -> op_bound op o -> obound o -> obound o'.
Proof.
  intros junk o op o' ann E B H. destruct op; cbn [ostep op_bound] in *.
  - eapply bound_setproperty; eassumption.
  - injection E as <- _. unfold uecho_object_setpropertyattribute, uecho_propertylist_setattribute, obound. rewrite obj_props_with.
    destruct (uecho_propertylist_getbycode (o_props o) c) as [l1 p] eqn:G. destruct (bound_get _ _ _ _ G H) as [H1 H2].
    apply bound_upd; [|exact H1]. intros _ _. exact H2.
  - destruct (uecho_object_setpropertydata o c d) as [o1 a1] eqn:S1. injection E as <- _. eapply bound_osetdata; eassumption.
  - injection E as E. unfold uecho_object_setpropertybytedata, uecho_propertylist_setbytedata in E.
    destruct (uecho_propertylist_getbycode (o_props o) c) as [l1 p] eqn:G. destruct (bound_get _ _ _ _ G H) as [H1 H2].
    unfold uecho_property_setbytedata in E.
    destruct (uecho_property_setdata [to_byte b] p) as [p1 a1] eqn:S1. injection E as <- _. unfold obound. rewrite obj_props_with.
    apply bound_upd; [|exact H1]. intros _ _. eapply bound_store; [exact S1|cbn; lia].
  - injection E as <- _. apply bound_addproperty; [exact H|exact B].
  - injection E as E. unfold object_property_setdata in E. destruct (uecho_object_getproperty o c) as [p|]; [|injection E as <- _; exact H].
    destruct (uecho_property_setdata d p) as [p1 a1] eqn:S1. injection E as <- _. unfold obound. rewrite obj_props_with.
    apply bound_upd; [|exact H]. intros _ _. eapply bound_store; eassumption.
  - injection E as E. unfold object_property_adddata in E. destruct (uecho_object_getproperty o c) as [p|] eqn:G; [|injection E as <- _; exact H].
    pose proof (bound_find _ _ _ H G) as Hp.
    destruct (uecho_property_adddata d p) as [p1 a1] eqn:S1. injection E as <- _. unfold obound. rewrite obj_props_with.
    apply bound_upd; [|exact H]. intros _ _. unfold uecho_property_adddata in S1. destruct (len d =? 0); injection S1 as <- _; [exact Hp|].
    unfold pbound, put_data. cbn [p_data]. unfold len in *. rewrite app_length. lia.
  - injection E as <- _. constructor.
Qed.

Lemma bound_odo : forall k o o' ann, odo k o = Ok (o', ann) -> call_bound k o -> obound o -> obound o'.
Proof.
  intros k o o' ann E B H. destruct k; cbn [odo call_bound] in *.
  - eapply bound_ostep; eassumption.
  - eapply bound_osetint; eassumption.
  - injection E as <- _. unfold uecho_object_getpropertydata, uecho_propertylist_getdata.
    destruct (uecho_propertylist_getbycode (o_props o) c) as [l1 p] eqn:G. destruct (bound_get _ _ _ _ G H) as [H1 _].
    unfold obound. cbn [fst]. rewrite obj_props_with. exact H1.
  - injection E as <- _. exact H.
  - injection E as <- _. exact H.
Qed.

(* ---- nodes ---- *)
Variable le : bool.
Variable net : post -> bool.

Lemma bound_op : forall f n code n' ps, (forall o o' a, uecho_node_getobjectbycode n code = Some o -> f o = Ok (o', a) -> obound o -> obound o') ->
  node_object_op le net f n code = Ok (n', ps) -> nbound n -> nbound n'.
Proof.
  intros f n code n' ps Hf H N. unfold node_object_op in H. destruct (uecho_node_getobjectbycode n code) as [o|] eqn:G.
  - apply bind_ok in H. destruct H as ([o' a] & F & H). apply node_emit_shape in H. rewrite H.
    unfold nbound. cbn [n_objs n_with_tid n_with_objs]. apply put_obj_Forall; [exact N|]. eapply Hf; [reflexivity|exact F|].
    apply getbycode_in in G. unfold nbound in N. rewrite Forall_forall in N. apply N. apply G.
  - injection H as <- _. exact N.
Qed.

Lemma rd_range_len : forall (l : list Z) n x, rd_range l 0 n = Ok x -> 0 <= n -> len x <= n.
Proof.
  intros l n x H Hn. unfold rd_range in H. destruct (n =? 0) eqn:E0; [injection H as <-; unfold len; cbn; lia|].
  match type of H with context [if ?b then _ else _] => destruct b end; [|discriminate]. injection H as <-.
  unfold len. rewrite firstn_length. lia.
Qed.

Lemma len_nonneg : forall A (l : list A), 0 <= len l.
Proof. intros. unfold len. lia. Qed.

Lemma bound_instances : forall cs os o o' a, uecho_nodeprofile_updateinstanceproperties cs os o = Ok (o', a) -> obound o -> obound o'.
Proof.
  intros cs os o o' a E H. unfold uecho_nodeprofile_updateinstanceproperties in E. cbv zeta in E.
  apply bind_ok in E. destruct E as ([o1 a1] & E1 & E). apply bind_ok in E. destruct E as ([o2 a2] & E2 & E).
  apply bind_ok in E. destruct E as ([o3 a3] & E3 & E). apply bind_ok in E. destruct E as ([o4 a4] & E4 & E). injection E as <- _.
  apply bound_osetint in E1; [|exact H].
  unfold uecho_nodeprofile_setclasslist in E2. cbv zeta in E2. apply bind_ok in E2. destruct E2 as (d & R & E2). injection E2 as E2.
  apply rd_range_len in R; [|match goal with |- context [if ?b then _ else _] => destruct b end; [unfold InstanceListMax; lia|pose proof (len_nonneg _ (filter (fun c => negb (uecho_class_isprofile c)) cs)); lia]].
  apply bound_osetdata in E2; [| |exact E1].
  2: { revert R. match goal with |- context [if ?b then _ else _] => destruct b eqn:Bb end; unfold InstanceListMax in *; lia. }
  apply bound_osetint in E3; [|exact E2].
  unfold uecho_nodeprofile_setinstancelist in E4. cbv zeta in E4. apply bind_ok in E4. destruct E4 as (d4 & R4 & E4).
  assert (L4 : len d4 <= K).
  { apply rd_range_len in R4; [|match goal with |- context [if ?b then _ else _] => destruct b end; [unfold InstanceListMax; lia|pose proof (len_nonneg _ (filter (fun x => negb (uecho_object_isprofile x)) os)); lia]].
    revert R4. match goal with |- context [if ?b then _ else _] => destruct b eqn:Bb end; unfold InstanceListMax in *; lia. }
  destruct (uecho_object_setpropertydata o3 EPC_InstanceListS d4) as [o5 a5] eqn:S5.
  destruct (uecho_object_setpropertydata o5 EPC_InstanceListNotification d4) as [o6 a6] eqn:S6. injection E4 as <- _.
  eapply bound_osetdata; [exact S6|exact L4|]. eapply bound_osetdata; [exact S5|exact L4|exact E3].
Qed.

Lemma bound_addobject : forall n o n' ps b, uecho_node_addobject le net n o = Ok (n', ps, b) -> obound o -> nbound n -> nbound n'.
Proof.
  intros n o n' ps b H Po N. unfold uecho_node_addobject in H.
  destruct (uecho_node_getobjectbycode n (uecho_object_getcode o)); [injection H as <- _ _; exact N|].
  set (n2 := n_with_classes _ _) in H. assert (N2 : nbound n2).
  { unfold n2, nbound. cbn [n_objs n_with_classes n_with_objs]. apply Forall_app. split; [exact N|]. constructor; [exact Po|constructor]. }
  clearbody n2. unfold uecho_node_updatenodeprofileclass in H.
  destruct (uecho_node_getobjectbycode n2 uEchoNodeProfileObject); [|injection H as <- _ _; exact N2].
  apply bind_ok in H. destruct H as ([n3 ps3] & E & H). cbn [fst snd] in H. injection H as <- _ _.
  eapply bound_op; [|exact E|exact N2]. intros o1 o2 a _ F. eapply bound_instances; exact F.
Qed.

Lemma bound_setman : forall codes n code n' ps, setmanufacturer_all le net n codes code = Ok (n', ps) -> nbound n -> nbound n'.
Proof.
  induction codes as [|c codes IH]; intros n code n' ps H N; cbn [setmanufacturer_all] in H; [injection H as <- _; exact N|].
  apply bind_ok in H. destruct H as ([n1 p1] & E1 & H). apply bind_ok in H. destruct H as ([n2 p2] & E2 & H).
  cbn [fst snd] in *. injection H as <- _. eapply IH; [exact E2|]. eapply bound_op; [|exact E1|exact N].
  intros o o' a _ F Po. eapply bound_osetint; [exact F|exact Po].
Qed.

Lemma bound_work : forall dec esv ps o calls o1 a1 c1 rs, Forall epair_ok ps -> work dec esv ps o calls = Ok (o1, a1, c1, rs) -> obound o -> obound o1.
Proof.
  intros dec esv. induction ps as [|e ps IH]; intros o calls o1 a1 c1 rs He H B; cbn [work] in H; [injection H as <- _ _ _; exact B|].
  inversion He as [|? ? Hx Hr]; subst.
  apply bind_ok in H. destruct H as ([[[[o2 a2] c2] d] ok] & W & H). apply bind_ok in H. destruct H as ([[[o3 a3] c3] rs'] & W2 & H). injection H as <- _ _ _.
  eapply IH; [exact Hr|exact W2|]. clear W2 IH. unfold work1 in W. destruct (find (o_props o) (fst e)) as [q|] eqn:E; [|injection W as <- _ _ _ _; exact B].
  apply bind_ok in W. destruct W as ([ok' cs] & _ & W). cbn [fst snd] in W. destruct ok'; injection W as <- _ _ _ _; [|exact B].
  destruct (is_write esv); [|exact B]. unfold obound. rewrite obj_props_with. unfold put.
  assert (L : len (snd e) <= K) by (destruct Hx as (_ & _ & L); unfold len in *; lia).
  assert (U : forall l, Forall pbound l -> Forall pbound (update_first (fst e) (put_data (snd e)) l)) by (intros; apply bound_upd; [intros; exact L|assumption]).
  first [apply U; exact B | rewrite E; apply U; exact B].
Qed.

Lemma bound_receive_frame : forall dec n f from r, frame_ok f -> receive_frame le net dec n f from = Ok r -> nbound n -> nbound (r_node r).
Proof.
  intros dec n f from r Hf H N. unfold receive_frame in H.
  destruct (uecho_node_getobjectbycode n (eoj_code (f_deoj f))) as [o|] eqn:G; [|injection H as <-; exact N].
  destruct (uecho_esv_isrequest (f_esv f)); cbn [negb] in H; [|injection H as <-; exact N].
  apply bind_ok in H. destruct H as ([[[[o1 anns] calls] b] all] & W & H).
  apply bind_ok in H. destruct H as ([n1 ps] & E & H). injection H as <-. cbn [r_node fst].
  apply node_emit_shape in E. rewrite E. unfold nbound. cbn [n_objs n_with_tid n_with_objs]. apply put_obj_Forall; [exact N|].
  assert (Ho : obound o) by (apply getbycode_in in G; unfold nbound in N; rewrite Forall_forall in N; apply N; apply G).
  destruct Hf as (_ & _ & _ & _ & _ & Hb). unfold wbody in W. destruct (f_body f) as [ps'|s g]; cbn [body_ok] in Hb.
  - apply bind_ok in W. destruct W as ([[[o2 a2] c2] rs] & W & E2). injection E2 as <- _ _ _ _. eapply bound_work; [apply Hb|exact W|exact Ho].
  - apply bind_ok in W. destruct W as ([[[o2 a2] c2] rs] & W & E2). apply bind_ok in E2. destruct E2 as ([[[o3 a3] c3] rs3] & W3 & E2). injection E2 as <- _ _ _ _.
    eapply bound_work; [|exact W3|]; [apply Hb|]. eapply bound_work; [|exact W|exact Ho]. apply Hb.
Qed.

Lemma bound_receive : forall dec n data la ra r, ninv n -> mem_ok n -> buffer data -> node_receive le net dec n data la ra = Ok r -> nbound n -> nbound (r_node r).
Proof.
  intros dec n data la ra r Hn Hm Hb E N. rewrite node_receive_spec in E; [|assumption|apply fine_objs; assumption].
  destruct (dec_frame data) as [[f rest]|] eqn:Ed.
  - apply dec_frame_iff in Ed; [|apply Hb]. destruct Ed as [Hf _]. eapply bound_receive_frame; eauto.
  - injection E as <-. exact N.
Qed.

(* the data and objects the caller gives *)
Definition nop_bound (x : nop) (n : node) : Prop :=
  match x with
  | NAdd o => obound o
  | NObj code k => forall o, uecho_node_getobjectbycode n code = Some o -> call_bound k o
  | _ => True
  end.

Lemma bound_announce : forall n n' ps b, uecho_node_announce le net n = Ok (n', ps, b) -> nbound n -> nbound n'.
Proof.
  intros n n' ps b E N. unfold uecho_node_announce in E.
  destruct (uecho_node_getobjectbycode n uEchoNodeProfileObject) as [p|]; [|injection E as <- _ _; exact N].
  destruct (uecho_object_getproperty p EPC_InstanceListNotification) as [q|]; [|injection E as <- _ _; exact N].
  apply bind_ok in E. destruct E as (s & E & E2).
  apply (f_equal (fun x => match x with Ok (a, b, _) => a | _ => n end)) in E2. cbv iota in E2. rewrite <- E2.
  rewrite (announceproperty_shape _ _ _ _ _ _ E). exact N.
Qed.

Lemma bound_nstep : forall db n x n' own ans, Forall obound db -> ninv n -> mem_ok n -> nop_ok le db x -> nop_bound x n ->
  nstep le net db n x = Ok (n', own, ans) -> nbound n -> nbound n'.
Proof.
  intros db n x n' own ans D Hn Hm Hx Bx H N. destruct x; cbn [nstep nop_ok nop_bound] in *.
  - apply bind_ok in H. destruct H as ([[n1 ps] r] & E & H). injection H as <- _ _. eapply bound_addobject; eassumption.
  - apply bind_ok in H. destruct H as ([[n1 ps] r] & E & H). injection H as <- _ _.
    unfold uecho_node_setobject in E. destruct (uecho_node_getobjectbycode n code); [injection E as <- _ _; exact N|].
    apply bind_ok in E. destruct E as ([o a] & E1 & E). cbn [fst] in E. eapply bound_addobject; [exact E| |exact N].
    eapply bound_setcode; [exact D|exact E1|apply bound_new].
  - apply bind_ok in H. destruct H as ([n1 ps] & E & H). cbn [fst snd] in H. injection H as <- _ _.
    eapply bound_op; [|exact E|exact N]. intros o o' a G F. eapply bound_odo; [exact F|apply Bx; exact G].
  - apply bind_ok in H. destruct H as ([n1 ps] & E & H). cbn [fst snd] in H. injection H as <- _ _. eapply bound_setman; [exact E|exact N].
  - apply bind_ok in H. destruct H as ([[n1 ps] r] & E & H). injection H as <- _ _. eapply bound_announce; eassumption.
  - apply bind_ok in H. destruct H as (s & E & H). injection H as <- _ _. destruct Hx as [Ha Hi].
    pose proof (api_inv_holds _ _ Ha) as [Hok He].
    rewrite announcemessage_spec in E; [|assumption|apply (in_memory_fits m); assumption].
    apply (f_equal (fun x => match x with Ok y => s_node y | _ => n end)) in E. cbv iota in E.
    destruct (profile n); cbn [s_node] in E; rewrite <- E; exact N.
  - apply bind_ok in H. destruct H as (s & E & H). injection H as <- _ _. destruct Hx as [Ha Hi].
    pose proof (api_inv_holds _ _ Ha) as [Hok He].
    rewrite sendmessage_spec in E; [|assumption|apply (in_memory_fits m); assumption].
    apply (f_equal (fun x => match x with Ok y => s_node y | _ => n end)) in E. cbv iota in E.
    destruct (profile n); [destruct (n_addr d)|]; cbn [s_node] in E; rewrite <- E; exact N.
  - apply bind_ok in H. destruct H as (r & E & H). injection H as <- _ _. eapply bound_receive; eassumption.
  - injection H as <- _ _. exact N.
  - injection H as <- _ _. exact N.
  - injection H as <- _ _. constructor.
Qed.

Lemma bound_profile_new : forall db junk man uq o, Forall obound db -> uecho_nodeprofile_new db junk man uq = Ok o -> obound o.
Proof.
  intros db junk man uq o D H. unfold uecho_nodeprofile_new in H.
  apply bind_ok in H. destruct H as ([o1 a1] & E1 & H). apply bind_ok in H. destruct H as ([o2 b2] & E2 & H).
  cbn [fst] in *. injection H as <-. apply bound_setcode in E1; [|exact D|apply bound_new].
  unfold uecho_nodeprofile_addmandatoryproperties in E2.
  destruct (uecho_database_getobject db 14 240) as [sup|] eqn:Es; [|injection E2 as <- _; exact E1].
  apply bind_ok in E2. destruct E2 as ([o3 a3] & E3 & E2). cbn [fst] in E2. injection E2 as <- _.
  unfold uecho_nodeprofile_setid in E3. apply bind_ok in E3. destruct E3 as (m & Em & E3). apply bind_ok in E3. destruct E3 as (u & Eu & E3).
  assert (S0 : forall x c d, len d <= K -> obound x -> obound (fst (uecho_object_setpropertydata x c d))).
  { intros x c d L B. destruct (uecho_object_setpropertydata x c d) as [y a] eqn:E. eapply bound_osetdata; eassumption. }
  injection E3 as E3. apply (f_equal fst) in E3. cbn [fst] in E3. rewrite <- E3.
  apply rd_range_len in Em; [|lia]. apply rd_range_len in Eu; [|lia].
  apply S0; [unfold len in *; cbn [length]; rewrite app_length; lia|].
  unfold uecho_nodeprofile_setversion, uecho_nodeprofile_setoperatingstatus.
  apply S0; [cbn; lia|]. apply S0; [destruct true; cbn; lia|]. apply bound_addmissing; [|exact E1]. eapply bound_db; eassumption.
Qed.

Lemma bound_node_new : forall db t junk man uq n ps, Forall obound db -> uecho_node_new le net db t junk man uq = Ok (n, ps) -> nbound n.
Proof.
  intros db t junk man uq n ps D H. unfold uecho_node_new in H. apply bind_ok in H. destruct H as (o & E1 & H).
  apply bind_ok in H. destruct H as ([[n1 p1] b1] & E2 & H). injection H as <- _. apply bound_profile_new in E1; [|exact D].
  assert (N : nbound n1) by (eapply bound_addobject; [exact E2|exact E1|constructor]). exact N.
Qed.
End B.

Lemma bound_mem : forall n, nbound 1099511627776 n <-> mem_ok n.
Proof. intros. reflexivity. Qed.

Lemma std_bound : Forall (obound 766) std_db.
Proof.
  apply Forall_forall. intros o I. apply Forall_forall. intros p J.
  assert (X : forallb (fun o => forallb (fun p => len (p_data p) <=? 766) (o_props o)) std_db = true) by (vm_compute; reflexivity).
  rewrite forallb_forall in X. specialize (X _ I). rewrite forallb_forall in X. specialize (X _ J). unfold pbound. lia.
Qed.
