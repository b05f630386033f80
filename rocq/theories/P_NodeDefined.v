(* A program that takes care is defined on values. *)
From Coq Require Import String ZArith List Bool Lia ZifyBool ZifyNat.
From Verif Require Import CSem M_Const M_Misc M_Property M_Message M_PropertyList M_Object M_Node M_NodeListener
  Spec_Frame Spec_Message Spec_Map Spec_Object Spec_Node Spec_Request Run_Object Run_Node P_Base P_Misc
  P_Message P_Encode P_MsgApi P_PropertyList P_Object P_ObjectRun P_ObjectReach P_Std P_Node P_Request Properties_Object
  P_NodeReach P_NodeProfile P_NodeInv P_NodeRun P_NodeProps P_RequestProps P_Handlers P_NodeSafe P_Bound
  M_Server M_NodeLife Spec_Mem M_ObjUse Spec_ObjMem P_ObjRun P_ObjLegal Spec_NodeLife Spec_Careful.
Import CSem M_Property M_Message M_PropertyList M_Object M_Node M_NodeListener.
Import ListNotations.
Open Scope Z_scope.
Ltac Zify.zify_post_hook ::= Z.div_mod_to_equations.

Definition called (l : list observer) : Prop := Forall (fun b => ob_handler b <> None) l.
(* an object of the caller *)
Definition ofit (o : obj) : Prop := einv o /\ codes_byte o /\ called (o_obs o).
Definition nfit (n : node) : Prop := ninv n /\ P_Handlers.nobs called n.
Definition small (d : list Z) : Prop := len d <= 1099511627776.

(* ---- objects of the caller ---- *)
Lemma value_keeps : forall junk l op o v o', value_of junk l op o = Ok (v, o') -> args_ok op ->
  (forall i esv c h, op = UHandler i esv c h -> h <> None) -> codes_byte o -> called (o_obs o) -> codes_byte o' /\ called (o_obs o').
Proof.
  intros junk l op o v o' E A H C N.
  assert (ST : forall c (x : obj), o_grp x = o_grp o -> o_cls x = o_cls o -> o_ins x = o_ins o -> o_obs x = o_obs o -> c = x -> codes_byte c /\ called (o_obs c)).
  { intros c x E1 E2 E3 E4 ->. unfold codes_byte. rewrite E1, E2, E3, E4. split; assumption. }
  destruct op; cbn [value_of] in E; try (injection E as <- <-; split; assumption).
  - apply bind_ok in E. destruct E as ([x a] & E & X). injection X as <- <-. cbn [fst]. apply ostep_shape in E. destruct E as (p & k & ->). split; assumption.
  - apply bind_ok in E. destruct E as ([x a] & E & X). injection X as <- <-. cbn [fst]. apply setint_eq in E. destruct E as (bs & _ & _ & E).
    unfold uecho_object_setpropertydata in E. rewrite pl_setdata_eq in E. injection E as -> _. split; assumption.
  - injection E as <- <-. unfold uecho_object_getpropertydatasize, uecho_propertylist_getdatasize. rewrite getbycode_eq. split; assumption.
  - apply bind_ok in E. destruct E as ([x a] & E & X). injection X as <- <-. cbn [fst]. pose proof (setcode_obs _ _ _ _ _ _ E) as O. split; [|rewrite O; exact N].
    unfold uecho_object_setcode in E. apply P_ObjectReach.update_shape in E. destruct E as (p & ->).
    match goal with |- codes_byte (o_with_props _ (o_with_getsz _ ?x)) => change (codes_byte x) end.
    match goal with |- codes_byte (fst (uecho_object_addstandardproperties l ?x)) => destruct (addstd_code l x) as (E1 & E2 & E3) end.
    unfold codes_byte. rewrite E1, E2, E3. cbn [o_grp o_cls o_ins o_with_code]. rewrite mask16, mask8, land_byte_of0. auto using byte_of_range.
  - injection E as <- <-. destruct C as (C1 & C2 & C3). unfold uecho_object_setgroupcode. rewrite addstd_obs. split; [|exact N].
    destruct (addstd_code l (o_with_code v0 (o_cls o) (o_ins o) o)) as (E1 & E2 & E3). unfold codes_byte. rewrite E1, E2, E3. split; [exact A|split; assumption].
  - injection E as <- <-. destruct C as (C1 & C2 & C3). unfold uecho_object_setclasscode. rewrite addstd_obs. split; [|exact N].
    destruct (addstd_code l (o_with_code (o_grp o) v0 (o_ins o) o)) as (E1 & E2 & E3). unfold codes_byte. rewrite E1, E2, E3. split; [assumption|split; assumption].
  - injection E as <- <-. destruct C as (C1 & C2 & C3). split; [|exact N]. split; [assumption|split; assumption].
  - injection E as <- <-. split; [exact C|]. apply nonnull_set; [eapply H; reflexivity|exact N].
Qed.

Definition own_fit (st : ostate) : Prop := ginv st /\ forall i o, mine st i = Some o -> codes_byte o /\ called (o_obs o).

Lemma own_total : forall junk op st, junk_ok junk -> own_fit st -> args_ok op -> rules op st ->
  (forall i esv c h, op = UHandler i esv c h -> h <> None) ->
  exists v st', vstep junk op st = Some (v, st') /\ own_fit st'.
Proof.
  intros junk op st Hj [G F] A R H. destruct (legal_step junk op st Hj G A R) as (v & st' & E & G'). exists v, st'. split; [exact E|]. split; [exact G'|].
  assert (PL : forall k x l i o, mine (mkOstate (place k x (s_objs st)) l) i = Some o ->
     (forall o, x = Some o -> codes_byte o /\ called (o_obs o)) -> codes_byte o /\ called (o_obs o)).
  { intros k x l i o M Hx. apply mine_some in M. cbn [s_objs] in M. destruct (Nat.eq_dec k i) as [->|Ne].
    - apply place_same in M. apply Hx. symmetry. exact M.
    - rewrite place_other in M by exact Ne. apply (F i). apply mine_some. exact M. }
  destruct op; cbn [vstep target] in E; [injection E as <- <-|destruct (mine st _) as [o0|] eqn:M0; [|discriminate]..].
  { intros i o M. apply mine_some in M. cbn [s_objs] in M. destruct (Nat.lt_ge_cases i (length (s_objs st))) as [L|L].
    - rewrite nth_error_app1 in M by exact L. apply (F i). apply mine_some. exact M.
    - rewrite nth_error_app2 in M by exact L. destruct (i - length (s_objs st))%nat as [|[|k]]; try discriminate. injection M as <-.
      split; [|constructor]. unfold codes_byte, is_byte. cbn. lia. }
  all: try (injection E as <- <-; intros i' o' M; eapply PL; [exact M|intros; discriminate]).
  all: match type of E with match value_of ?j ?l ?op0 ?oo with _ => _ end = _ => destruct (value_of j l op0 oo) as [[v1 o1]|] eqn:V; [|discriminate] end.
  all: injection E as <- <-; pose proof (value_keeps _ _ _ _ _ _ V A H (proj1 (F _ _ M0)) (proj2 (F _ _ M0))) as K.
  all: intros i' o' M; unfold becomes in M; eapply PL; [exact M|intros ? X; injection X as <-; exact K].
Qed.

(* ---- how long values get ---- *)
Notation K40 := 1099511627776.
Lemma K40_ok : 766 <= K40.
Proof. lia. Qed.
Definition own_bound (st : ostate) : Prop := (forall i o, mine st i = Some o -> obound K40 o) /\ Forall (obound K40) (s_db st).

Lemma modest_op : forall op o, modest_data op o -> op_bound K40 op o.
Proof. intros [] o H; cbn [modest_data op_bound] in *; try exact H. destruct (uecho_object_getproperty o c) as [p|]; [apply H; reflexivity|exact Logic.I]. Qed.

Lemma value_bound : forall junk l op o v o', value_of junk l op o = Ok (v, o') -> Forall (obound K40) l ->
  (forall i p, op = UProps i p -> modest_data p o) -> obound K40 o -> obound K40 o'.
Proof.
  intros junk l op o v o' E D H B. destruct op; cbn [value_of] in E; try (injection E as <- <-; exact B).
  - apply bind_ok in E. destruct E as ([x a] & E & X). injection X as <- <-. cbn [fst]. eapply bound_ostep; [exact K40_ok|exact E| |exact B].
    apply modest_op. eapply H. reflexivity.
  - apply bind_ok in E. destruct E as ([x a] & E & X). injection X as <- <-. cbn [fst]. eapply bound_osetint; [exact K40_ok|exact E|exact B].
  - injection E as <- <-. unfold uecho_object_getpropertydatasize, uecho_propertylist_getdatasize.
    destruct (uecho_propertylist_getbycode (o_props o) c) as [l1 p] eqn:G. cbn [fst]. exact (proj1 (bound_get K40 K40_ok _ _ _ _ G B)).
  - apply bind_ok in E. destruct E as ([x a] & E & X). injection X as <- <-. cbn [fst]. eapply bound_setcode; [exact K40_ok|exact D|exact E|exact B].
  - injection E as <- <-. unfold uecho_object_setgroupcode. apply bound_std; [exact K40_ok|exact D|exact B].
  - injection E as <- <-. unfold uecho_object_setclasscode. apply bound_std; [exact K40_ok|exact D|exact B].
Qed.

Lemma own_keeps_bound : forall junk op st v st', vstep junk op st = Some (v, st') ->
  (forall i p o, op = UProps i p -> mine st i = Some o -> modest_data p o) -> own_bound st -> own_bound st'.
Proof.
  intros junk op st v st' E H [F D].
  assert (PL : forall k x l, Forall (obound K40) l -> (forall o, x = Some o -> obound K40 o) -> own_bound (mkOstate (place k x (s_objs st)) l)).
  { intros k x l Hl Hx. split; [|exact Hl]. intros i o M. apply mine_some in M. cbn [s_objs] in M. destruct (Nat.eq_dec k i) as [->|Ne].
    - apply place_same in M. apply Hx. symmetry. exact M.
    - rewrite place_other in M by exact Ne. apply (F i). apply mine_some. exact M. }
  destruct op; cbn [vstep target] in E; [injection E as <- <-|destruct (mine st _) as [o0|] eqn:M0; [|discriminate]..].
  { split; [|exact D]. intros i o M. apply mine_some in M. cbn [s_objs] in M. destruct (Nat.lt_ge_cases i (length (s_objs st))) as [L|L].
    - rewrite nth_error_app1 in M by exact L. apply (F i). apply mine_some. exact M.
    - rewrite nth_error_app2 in M by exact L. destruct (i - length (s_objs st))%nat as [|[|k]]; try discriminate. injection M as <-. apply bound_new. }
  all: try (injection E as <- <-; apply PL; [first [exact D|apply Forall_app; split; [exact D|constructor; [exact (F _ _ M0)|constructor]]]|intros; discriminate]; fail).
  all: match type of E with match value_of ?j ?l ?op0 ?oo with _ => _ end = _ => destruct (value_of j l op0 oo) as [[v1 o1]|] eqn:V; [|discriminate] end.
  all: injection E as <- <-; unfold becomes; apply PL; [exact D|]; intros ? X; injection X as <-.
  all: eapply value_bound; [exact V|exact D| |exact (F _ _ M0)].
  all: intros i' p' X; first [discriminate X|injection X as <- <-; eapply H; [reflexivity|exact M0]].
Qed.

Lemma buffer_firstn : forall n b, buffer b -> buffer (firstn n b).
Proof.
  intros n b [A B]. split.
  - apply Forall_forall. intros x X. unfold bytes_ok in A. rewrite Forall_forall in A. apply A. rewrite <- (firstn_skipn n b). apply in_or_app. left. exact X.
  - unfold len in *. rewrite firstn_length. clear - B. lia.
Qed.

(* ---- nodes ---- *)
Section N.
Variable junk : nat -> Z.
Hypothesis Hj : junk_ok junk.
Variable le : bool.
Variable net : post -> bool.
Variable dec : list (hcall * bool) -> hcall -> bool.

Lemma setcode_total : forall db v, Forall einv db -> exists o a, uecho_object_setcode db junk uecho_object_new v = Ok (o, a) /\ einv o /\ codes_byte o /\ o_obs o = [].
Proof.
  intros db v D. set (st := mkOstate [Some uecho_object_new] db).
  assert (E0 : einv uecho_object_new) by (split; [apply inv_new|constructor]).
  destruct (value_ok junk db (UCode 0 v) uecho_object_new st Hj eq_refl eq_refl ltac:(discriminate) E0 D Logic.I) as (x & o & E & Eo).
  { cbn [rules target]. exists uecho_object_new. split; [reflexivity|]. split; [unfold map_room, OBJ_MAX, PTRDIFF_MAX; cbn; lia|left; reflexivity]. }
  pose proof (value_keeps _ _ _ _ _ _ E Logic.I ltac:(discriminate)) as K. cbn [value_of] in E.
  apply bind_ok in E. destruct E as ([y a] & E & X). injection X as <- <-. cbn [fst] in *. exists y, a.
  split; [exact E|]. split; [exact Eo|]. split; [|exact (setcode_obs _ _ _ _ _ _ E)].
  apply K; [unfold codes_byte, is_byte; cbn; lia|constructor].
Qed.

Lemma call_fit : forall f n code, nfit n -> mem_ok n ->
  (forall o, uecho_node_getobjectbycode n code = Some o -> oinv o -> omem o ->
     exists o' a, f o = Ok (o', a) /\ oinv o' /\ keeps o o' /\ Forall ann_ok a) ->
  (forall o o' a, f o = Ok (o', a) -> called (o_obs o) -> called (o_obs o')) ->
  exists n' ps, node_object_op le net f n code = Ok (n', ps) /\ nfit n'.
Proof.
  intros f n code [I N] M T O.
  assert (Mo : forall o, uecho_node_getobjectbycode n code = Some o -> omem o).
  { intros o G. unfold mem_ok in M. rewrite Forall_forall in M. apply M. apply getbycode_in in G. tauto. }
  destruct (object_op_total le net f n code I) as (n' & ps & E).
  { intros o G Ho. destruct (T o G Ho (Mo o G)) as (o' & a & E & _ & _ & A). eauto. }
  exists n', ps. split; [exact E|]. split.
  - refine (proj1 (proj1 (object_op_ok le net f n code n' ps I _ E))). intros o o' a G Ho F.
    destruct (T o G Ho (Mo o G)) as (o1 & a1 & E1 & A & B & C). rewrite F in E1. injection E1 as <- <-. auto.
  - exact (op_obs called le net f n code n' ps O E N).
Qed.

Lemma step_fit : forall o op o' a, oinv o -> oop_ok op -> (forall c, oop_code op = Some c -> epc_code c) -> ostep junk o op = Ok (o', a) -> omem o' ->
  oinv o' /\ keeps o o' /\ Forall ann_ok a.
Proof.
  intros o op o' a Ho K1 K2 E M. destruct (odo_ok (KStep op junk) o o' a Ho (conj K1 (conj K2 Hj)) E) as (A & B & C).
  split; [exact A|]. split; [exact B|]. eapply Forall_impl; [|exact C]. intros p S. exact (snap_ann_ok o' p (proj1 A) M S).
Qed.

Lemma data_fit : forall o c d, oinv o -> omem o -> epc_code c -> bytes_ok d -> len d <= 1099511627776 ->
  exists o' a, uecho_object_setpropertydata o c d = (o', a) /\ oinv o' /\ keeps o o' /\ Forall ann_ok a /\ o_obs o' = o_obs o.
Proof.
  intros o c d Ho M Hc Hb Hl. destruct (uecho_object_setpropertydata o c d) as [o' a] eqn:E. exists o', a. split; [reflexivity|].
  assert (E' : o' = o_with_props (P_PropertyList.put (o_props o) c (put_data d)) o)
    by (unfold uecho_object_setpropertydata in E; rewrite pl_setdata_eq in E; injection E as <- _; reflexivity).
  destruct (step_fit o (OSetData c d) o' a Ho) as (A & B & C).
  - split; [unfold epc_code in Hc; cbn; lia|exact Hb].
  - intros c' X. injection X as <-. exact Hc.
  - cbn [ostep]. rewrite E. reflexivity.
  - rewrite E'. apply put_omem; [exact M|exact Hl].
  - split; [exact A|]. split; [exact B|]. split; [exact C|]. rewrite E'. reflexivity.
Qed.

Definition call_care (op : nop) : Prop :=
  match op with
  | NData _ _ c d => epc_code c /\ len d <= 1099511627776
  | NInt _ _ c _ _ | NAttr _ _ c _ => epc_code c
  | NHandler _ _ _ _ h => h <> None
  | _ => True
  end.

Lemma objcall_fit : forall f n code, nfit n -> mem_ok n ->
  (forall o, uecho_node_getobjectbycode n code = Some o -> oinv o -> omem o ->
     exists o' a, f o = Ok (o', a) /\ oinv o' /\ keeps o o' /\ Forall ann_ok a) ->
  (forall o o' a, f o = Ok (o', a) -> called (o_obs o) -> called (o_obs o')) ->
  exists v n', object_call le net f n code = Ok (v, n') /\ nfit n'.
Proof.
  intros f n code N M T O. destruct (call_fit f n code N M T O) as (n' & ps & E & F). unfold object_call. rewrite E. cbn [bind fst snd].
  eexists _, _. split; [reflexivity|exact F].
Qed.

Lemma call_total : forall db op n, Forall einv db -> nfit n -> mem_ok n -> nargs_ok op -> call_care op ->
  exists v n', node_call junk le net dec db op n = Ok (v, n') /\ nfit n'.
Proof.
  intros db op n D N M A C. destruct op; cbn [node_call nargs_ok call_care] in *; try (eexists _, _; split; [reflexivity|exact N]).
  - (* clear *) eexists _, _. split; [reflexivity|]. split; [|constructor]. split; [apply N|]. split; [constructor|]. split; [constructor|reflexivity].
  - (* set *)
    unfold uecho_node_setobject. destruct (uecho_node_getobjectbycode n code) eqn:G; [eexists _, _; split; [reflexivity|exact N]|].
    destruct (setcode_total db code D) as (o & a & E & Eo & Cb & Ob). rewrite E. cbn [bind fst].
    destruct (addobject_total le net n o (proj1 N) (einv_winv _ Eo) Cb) as (n' & ps & b & E2). rewrite E2. cbn [bind].
    eexists _, _. split; [reflexivity|]. split.
    + exact (proj1 (proj1 (addobject_ok le net n o n' ps b (proj1 N) (einv_winv _ Eo) Cb E2))).
    + eapply addobject_obs; [exact E2|rewrite Ob; constructor|exact (proj2 N)].
  - (* announce *)
    unfold uecho_node_announce. destruct (uecho_node_getobjectbycode n uEchoNodeProfileObject) as [p|] eqn:Ep; [|eexists _, _; split; [reflexivity|exact N]].
    destruct (uecho_object_getproperty p EPC_InstanceListNotification) as [q|] eqn:Eq; [|eexists _, _; split; [reflexivity|exact N]].
    assert (Aq : ann_ok q).
    { unfold uecho_object_getproperty in Eq. pose proof (ninv_get _ _ _ (proj1 N) Ep) as [Ho _].
      apply (snap_ann_ok p); [apply Ho| |].
      - unfold mem_ok in M. rewrite Forall_forall in M. apply M. apply getbycode_in in Ep. tauto.
      - exists q. split; [|reflexivity]. pose proof (find_code _ _ _ Eq) as [-> _]. exact Eq. }
    destruct (announceproperty_spec le net n (uecho_object_getcode p) q Aq (proj1 (proj1 N))) as (s & E & En & _). rewrite E. cbn [bind].
    eexists _, _. split; [reflexivity|]. rewrite En. split; [apply ninv_tid; [apply N|]|exact (proj2 N)].
    pose proof (next_tid_range (n_tid n) (proj1 (proj1 N))). lia.
  - (* receive *)
    pose proof (buffer_firstn RECV_BUFSIZE _ (proj1 A)) as B.
    destruct (receive_total le net dec n (firstn RECV_BUFSIZE d) local (Some from) (proj1 N) M B (proj2 N)) as (r & E). rewrite E. cbn [bind].
    eexists _, _. split; [reflexivity|]. rewrite node_receive_spec in E; [|exact B|apply fine_objs; [apply N|exact M]].
    destruct (dec_frame (firstn RECV_BUFSIZE d)) as [[f rest]|] eqn:Ed; [|injection E as <-; exact N].
    apply dec_frame_iff in Ed; [|apply B]. destruct Ed as [Hf _]. split.
    + exact (proj1 (proj1 (receive_frame_ok le net dec n f _ r (proj1 N) Hf E))).
    + exact (receive_obs called le net dec n f _ r (proj1 N) Hf E (proj2 N)).
  - (* data *)
    apply objcall_fit; [exact N|exact M| |].
    + intros o _ Ho Mo. destruct (data_fit o c d Ho Mo (proj1 C) (proj1 A) (proj2 C)) as (o' & a & E & X1 & X2 & X3 & _). exists o', a. rewrite E. auto.
    + intros o o' a E. injection E as E. unfold uecho_object_setpropertydata in E. rewrite pl_setdata_eq in E. injection E as <- _. auto.
  - (* integer *)
    pose proof (proj2 (integer2byte_iff v size (rev (map (fun k => byte_of v (Z.of_nat k)) (seq 0 size)))) (conj A eq_refl)) as B.
    apply objcall_fit; [exact N|exact M| |].
    + intros o _ Ho Mo. rewrite (set_int_eq _ _ _ _ _ B).
      assert (X : bytes_ok (rev (map (fun k => byte_of v (Z.of_nat k)) (seq 0 size))) /\ len (rev (map (fun k => byte_of v (Z.of_nat k)) (seq 0 size))) <= 1099511627776).
      { split.
        - apply Forall_rev. apply Forall_forall. intros x Hx. apply in_map_iff in Hx. destruct Hx as (i & <- & _). apply byte_of_range.
        - unfold len. rewrite rev_length, map_length, seq_length. lia. }
      destruct (data_fit o c _ Ho Mo C (proj1 X) (proj2 X)) as (o' & a & E & X1 & X2 & X3 & _). exists o', a. rewrite E. auto.
    + intros o o' a E. apply setint_obs in E. rewrite E. auto.
  - (* attribute *)
    apply objcall_fit; [exact N|exact M| |].
    + intros o _ Ho Mo. eexists _, _. split; [reflexivity|].
      destruct (odo_ok (KStep (OSetAttr c a) junk) o (uecho_object_setpropertyattribute o c a) [] Ho) as (X1 & X2 & _).
      * split; [|split; [|exact Hj]].
        -- split; [unfold epc_code in C; cbn; lia|exact Logic.I].
        -- intros c' X. injection X as <-. exact C.
      * reflexivity.
      * split; [exact X1|]. split; [exact X2|constructor].
    + intros o o' x E. injection E as <- _. auto.
  - (* handler *)
    apply objcall_fit; [exact N|exact M| |].
    + intros o _ Ho Mo. eexists _, _. split; [reflexivity|]. split; [exact Ho|]. split; [repeat split|constructor].
    + intros o o' x E. injection E as <- _. intros Q. apply nonnull_set; assumption.
  - (* listener *)
    destruct (objcall_fit (quiet (uecho_object_setmessagelistener b)) n code N M) as (v & n' & E & F).
    + intros o _ Ho Mo. eexists _, _. split; [reflexivity|]. split; [exact Ho|]. split; [repeat split|constructor].
    + intros o o' x E. injection E as <- _. auto.
    + rewrite E. cbn [bind snd]. eexists _, _. split; [reflexivity|exact F].
Qed.

Lemma profile_total : forall db man uq, Forall einv db -> (3 <= length man)%nat -> (13 <= length uq)%nat ->
  exists o, uecho_nodeprofile_new db junk man uq = Ok o.
Proof.
  intros db man uq D Hm Hu. unfold uecho_nodeprofile_new. destruct (setcode_total db uEchoNodeProfileObject D) as (o & a & E & _). rewrite E. cbn [bind fst].
  unfold uecho_nodeprofile_addmandatoryproperties. destruct (uecho_database_getobject db 14 240) as [sup|]; [|eexists; reflexivity].
  generalize (uecho_object_addmissingobjectproperties o sup). intros x1. unfold uecho_nodeprofile_setid.
  assert (RR : forall (l : list Z) k, (k <= length l)%nat -> exists x, rd_range l 0 (Z.of_nat k) = Ok x).
  { intros l k Hk. unfold rd_range. destruct (Z.of_nat k =? 0) eqn:B0; [eauto|].
    match goal with |- context [if ?b then _ else _] => destruct b eqn:B end; [eauto|]. unfold len in B. lia. }
  destruct (RR man 3%nat Hm) as (m & M). destruct (RR uq 13%nat Hu) as (u & U).
  change (Z.of_nat 3) with 3 in M. change (Z.of_nat 13) with 13 in U. rewrite M, U. cbn [bind]. eexists. reflexivity.
Qed.

Lemma new_total : forall db t man uq, Forall einv db -> 0 <= t -> bytes_ok man -> bytes_ok uq -> (3 <= length man)%nat -> (13 <= length uq)%nat ->
  exists n posts, uecho_node_new le net db t junk man uq = Ok (n, posts) /\ nfit n.
Proof.
  intros db t man uq D Ht Bm Bu Hm Hu. unfold uecho_node_new. destruct (profile_total db man uq D Hm Hu) as (o & E). rewrite E. cbn [bind].
  destruct (profile_new_ok _ _ _ _ _ (ginv_db _ D) Hj Bm Bu E) as (He & Hb & _).
  assert (N0 : ninv (mkNode t [] [] None false)).
  { split; [cbn; lia|]. split; [constructor|]. split; [constructor|reflexivity]. }
  destruct (addobject_total le net _ o N0 He Hb) as (n' & ps & r & E1). rewrite E1. cbn [bind]. eexists _, _. split; [reflexivity|].
  pose proof (proj1 (proj1 (addobject_ok le net _ o n' ps r N0 He Hb E1))) as I.
  assert (O : P_Handlers.nobs called n') by (eapply addobject_obs; [exact E1|rewrite (profile_new_obs _ _ _ _ _ E); constructor|constructor]).
  split; [apply ninv_tid; [exact I|lia]|exact O].
Qed.

(* ---- programs ---- *)
(* the values in nodes have at most 2^40 bytes each *)
Definition values_fit (st : nstate) : Prop := forall k n, node_at st k = Some n -> mem_ok n.
Definition state_fit (st : nstate) : Prop := own_fit (ns_own st) /\ forall k n, node_at st k = Some n -> nfit n.

Lemma node_put : forall k x l j n, nth_error (put_node k x l) j = Some (Some n) -> x = Some n \/ nth_error l j = Some (Some n).
Proof.
  induction k as [|k IH]; intros x [|y l] [|j] n H; cbn [put_node nth_error] in *; try discriminate; eauto. injection H as ->. auto.
Qed.

Lemma step_total : forall op st, state_fit st -> nargs_ok op -> nrules op st -> ncare op st -> values_fit st ->
  exists v st', nvalue junk le net dec op st = Some (v, st') /\ state_fit st'.
Proof.
  intros op st [O N] A R C M.
  assert (PUT : forall o k x, own_fit o -> (forall n, x = Some n -> nfit n) -> state_fit (mkNstate o (put_node k x (ns_nodes st)))).
  { intros o k x Ho Hx. split; [exact Ho|]. intros j n H. unfold node_at in H. cbn [ns_nodes] in H.
    destruct (nth_error (put_node k x (ns_nodes st)) j) as [[m|]|] eqn:E; try discriminate. injection H as ->. apply node_put in E.
    destruct E as [->|E]; [apply Hx; reflexivity|]. apply (N j). unfold node_at. rewrite E. reflexivity. }
  assert (DB : Forall einv (s_db (ns_own st))) by (apply O).
  destruct op.
  { (* own *)
    destruct (own_total junk u (ns_own st) Hj O A R) as (v & o & E & F).
    { intros i esv c h ->. exact C. }
    cbn [nvalue]. rewrite E. eexists _, _. split; [reflexivity|]. split; [exact F|]. intros k n H. apply (N k n). exact H. }
  { (* new *)
    destruct C as (C1 & C2 & C3 & C4 & C5). destruct (new_total (s_db (ns_own st)) tid0 man uniq DB (proj1 C1) C2 C3 C4 C5) as (n & ps & E & F).
    cbn [nvalue]. rewrite E. eexists _, _. split; [reflexivity|]. split; [exact O|]. intros k m H. unfold node_at in H. cbn [ns_nodes] in H.
    destruct (Nat.lt_ge_cases k (length (ns_nodes st))) as [L|L].
    + rewrite nth_error_app1 in H by exact L. apply (N k). exact H.
    + rewrite nth_error_app2 in H by exact L. destruct (k - length (ns_nodes st))%nat as [|[|q]]; try discriminate. injection H as <-. exact F. }
  { (* delete *)
    cbn [nvalue]. cbn [ncare] in C. destruct (node_at st k); [|contradiction]. eexists _, _. split; [reflexivity|]. apply PUT; [exact O|intros; discriminate]. }
  { (* clear *)
    cbn [ncare] in C. destruct (node_at st k) as [n|] eqn:Hn; [|contradiction].
    destruct (call_total (s_db (ns_own st)) (NClear k) n DB (N _ _ Hn) (M _ _ Hn) A Logic.I) as (v & n' & E & F).
    cbn [nvalue node_of]. rewrite Hn, E. eexists _, _. split; [reflexivity|]. apply PUT; [exact O|]. intros m X. injection X as <-. exact F. }
  { (* add *)
    cbn [ncare] in C. destruct C as [C1 C2]. destruct (node_at st k) as [n|] eqn:Hn; [|contradiction].
    destruct (mine (ns_own st) i) as [o|] eqn:Ho; [|contradiction].
    destruct (N _ _ Hn) as [I Ob]. destruct (proj2 O _ _ Ho) as [Cb Co]. pose proof (proj1 (proj1 O) _ _ Ho) as Eo.
    destruct (addobject_total le net n o I (einv_winv _ Eo) Cb) as (n' & ps & b & E). cbn [nvalue]. rewrite Hn, Ho, E.
    eexists _, _. split; [reflexivity|]. apply PUT.
    + destruct (has_object n (uecho_object_getcode o)); [exact O|]. split.
      * apply ginv_place; [apply O|intros; discriminate|exact DB].
      * intros j x H. apply mine_some in H. cbn [s_objs] in H. destruct (Nat.eq_dec i j) as [->|Ne].
        -- apply place_same in H. discriminate.
        -- rewrite place_other in H by exact Ne. apply (proj2 O j). apply mine_some. exact H.
    + intros m X. injection X as <-. split.
      * exact (proj1 (proj1 (addobject_ok le net n o n' ps b I (einv_winv _ Eo) Cb E))).
      * eapply addobject_obs; [exact E|exact Co|exact Ob]. }
  all: match goal with
    | |- exists v st', nvalue _ _ _ _ ?op _ = _ /\ _ =>
        assert (P : node_at st (node_of op) <> None /\ call_care op) by (cbn [ncare node_of call_care] in *; tauto);
        destruct P as [P1 P2]; destruct (node_at st (node_of op)) as [n|] eqn:Hn; [|contradiction];
        destruct (call_total (s_db (ns_own st)) op n DB (N _ _ Hn) (M _ _ Hn) A P2) as (v' & n' & E & F);
        cbn [nvalue]; rewrite Hn, E; eexists _, _; split; [reflexivity|]; apply PUT; [exact O|]; intros m X; injection X as <-; exact F
    end.
Qed.

(* values stay short *)
Definition state_bound (st : nstate) : Prop := own_bound (ns_own st) /\ forall k n, node_at st k = Some n -> nbound K40 n.
Lemma bound_values : forall st, state_bound st -> values_fit st.
Proof. intros st [_ B] k n E. apply bound_mem. exact (B k n E). Qed.

Lemma objcall_bound : forall f n code v n', object_call le net f n code = Ok (v, n') ->
  (forall o o' a, f o = Ok (o', a) -> obound K40 o -> obound K40 o') -> nbound K40 n -> nbound K40 n'.
Proof.
  intros f n code v n' E H B. unfold object_call in E. apply bind_ok in E. destruct E as ([x ps] & E & X). injection X as _ <-. cbn [fst].
  eapply bound_op; [|exact E|exact B]. intros o o' a _ Eo. eapply H. exact Eo.
Qed.

Lemma call_keeps_bound : forall db op n v n', node_call junk le net dec db op n = Ok (v, n') -> Forall (obound K40) db -> nfit n ->
  nargs_ok op -> call_care op -> nbound K40 n -> nbound K40 n'.
Proof.
  intros db op n v n' E D [I _] A C B. destruct op; cbn [node_call] in E; try (injection E as _ <-; exact B).
  - injection E as _ <-. constructor.
  - apply bind_ok in E. destruct E as ([[x ps] b] & E & X). injection X as _ <-. unfold uecho_node_setobject in E.
    destruct (uecho_node_getobjectbycode n code); [injection E as <- _ _; exact B|]. apply bind_ok in E. destruct E as ([o a] & E1 & E). cbn [fst] in E.
    eapply bound_addobject; [exact K40_ok|exact E| |exact B]. eapply bound_setcode; [exact K40_ok|exact D|exact E1|apply bound_new].
  - apply bind_ok in E. destruct E as ([[x ps] b] & E & X). injection X as _ <-. eapply bound_announce; [exact E|exact B].
  - apply bind_ok in E. destruct E as (r & E & X). injection X as _ <-. eapply bound_receive; [exact K40_ok|exact I|apply bound_mem; exact B| |exact E|exact B].
    apply buffer_firstn. apply A.
  - eapply objcall_bound; [exact E| |exact B]. intros o o' a X. injection X as X. eapply bound_osetdata; [exact K40_ok|exact X|apply C].
  - eapply objcall_bound; [exact E| |exact B]. intros o o' a X. eapply bound_osetint; [exact K40_ok|exact X].
  - eapply objcall_bound; [exact E| |exact B]. intros o o' a0 X. unfold quiet in X. injection X as <- _. intros Bo.
    apply (bound_ostep K40 K40_ok junk o (OSetAttr c a) _ []); [reflexivity|exact Logic.I|exact Bo].
  - eapply objcall_bound; [exact E| |exact B]. intros o o' a0 X. unfold quiet in X. injection X as <- _. intros Bo. exact Bo.
  - apply bind_ok in E. destruct E as ([v1 n1] & E & X). injection X as _ <-. cbn [snd]. eapply objcall_bound; [exact E| |exact B].
    intros o o' a0 X. unfold quiet in X. injection X as <- _. intros Bo. exact Bo.
Qed.

Lemma step_bound : forall op st v st', nvalue junk le net dec op st = Some (v, st') -> state_fit st -> nargs_ok op -> ncare op st ->
  state_bound st -> state_bound st'.
Proof.
  intros op st v st' E [_ N] A C [O B]. pose proof (proj2 O) as D.
  assert (PUT : forall o k x, own_bound o -> (forall n, x = Some n -> nbound K40 n) -> state_bound (mkNstate o (put_node k x (ns_nodes st)))).
  { intros o k x Ho Hx. split; [exact Ho|]. intros j n H. unfold node_at in H. cbn [ns_nodes] in H.
    destruct (nth_error (put_node k x (ns_nodes st)) j) as [[m|]|] eqn:X; try discriminate. injection H as ->. apply node_put in X.
    destruct X as [->|X]; [apply Hx; reflexivity|]. apply (B j). unfold node_at. rewrite X. reflexivity. }
  destruct op; cbn [nvalue] in E.
  { destruct (vstep junk u (ns_own st)) as [[w o]|] eqn:V; [|discriminate]. injection E as _ <-. split; [|exact B].
    eapply own_keeps_bound; [exact V| |exact O]. intros i p x -> M. exact (C x M). }
  { destruct (uecho_node_new le net (s_db (ns_own st)) tid0 junk man uniq) as [[n ps]|] eqn:V; [|discriminate]. injection E as _ <-.
    split; [exact O|]. intros k m H. unfold node_at in H. cbn [ns_nodes] in H.
    destruct (Nat.lt_ge_cases k (length (ns_nodes st))) as [L|L].
    + rewrite nth_error_app1 in H by exact L. apply (B k). exact H.
    + rewrite nth_error_app2 in H by exact L. destruct (k - length (ns_nodes st))%nat as [|[|q]]; try discriminate. injection H as <-.
      eapply bound_node_new; [exact K40_ok|exact D|exact V]. }
  { destruct (node_at st k); [|discriminate]. injection E as _ <-. apply PUT; [exact O|intros; discriminate]. }
  2:{ destruct (node_at st k) as [n|] eqn:Hn; [|discriminate]. destruct (mine (ns_own st) i) as [o|] eqn:Ho; [|discriminate].
    destruct (uecho_node_addobject le net n o) as [[[n' ps] b]|] eqn:V; [|discriminate]. injection E as _ <-. apply PUT.
    + destruct (has_object n (uecho_object_getcode o)); [exact O|]. split; [|exact D]. intros j x M. apply mine_some in M. cbn [s_objs] in M.
      destruct (Nat.eq_dec i j) as [->|Ne]; [apply place_same in M; discriminate|]. rewrite place_other in M by exact Ne. apply (proj1 O j). apply mine_some. exact M.
    + intros m X. injection X as <-. eapply bound_addobject; [exact K40_ok|exact V|exact (proj1 O _ _ Ho)|exact (B _ _ Hn)]. }
  all: match type of E with match node_at _ (node_of ?op) with _ => _ end = _ =>
         destruct (node_at st (node_of op)) as [n|] eqn:Hn; [|discriminate];
         destruct (node_call junk le net dec (s_db (ns_own st)) op n) as [[w n']|] eqn:V; [|discriminate]; injection E as _ <-;
         apply PUT; [exact O|]; intros m X; injection X as <-;
         assert (P : call_care op) by (cbn [ncare call_care] in *; tauto);
         exact (call_keeps_bound _ _ _ _ _ V D (N _ _ Hn) A P (B _ _ Hn))
       end.
Qed.

Lemma run_total : forall ops st, state_fit st -> state_bound st -> ncareful junk le net dec ops st ->
  exists vs st', nvalues junk le net dec ops st = Some (vs, st') /\ state_fit st' /\ state_bound st'.
Proof.
  induction ops as [|op ops IH]; intros st S B C; cbn [ncareful nvalues] in *; [eauto|].
  destruct C as (C1 & C2 & C3 & C5). destruct (step_total op st S C1 C2 C3 (bound_values _ B)) as (v & st1 & E & S1). rewrite E.
  destruct (IH st1 S1 (step_bound _ _ _ _ E S C1 C3 B) (C5 _ _ E)) as (vs & st2 & E2 & S2). rewrite E2. eauto.
Qed.

Lemma careful_legal : forall ops st, ncareful junk le net dec ops st -> nlegal junk le net dec ops st.
Proof.
  induction ops as [|op ops IH]; intros st C; cbn [ncareful nlegal] in *; [exact Logic.I|].
  destruct C as (C1 & C2 & C3 & C5). split; [exact C1|]. split; [exact C2|]. intros v st' E. apply IH. exact (C5 _ _ E).
Qed.
End N.

Lemma no_nodes_fit : state_fit no_nodes.
Proof. split; [split; [split; [intros [|i] o E; discriminate|constructor]|intros [|i] o E; discriminate]|intros [|k] n E; discriminate]. Qed.

Lemma no_nodes_bound : state_bound no_nodes.
Proof. split; [split; [intros [|i] o X; discriminate|constructor]|intros [|k] n X; discriminate]. Qed.
