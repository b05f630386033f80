(* C44: request handlers.  See Properties_Request.v for [receives]. *)
From Coq Require Import String ZArith List Bool Lia ZifyBool ZifyNat.
From Verif Require Import CSem M_Const M_Misc M_Property M_Message M_PropertyList M_Object M_Node M_NodeListener
  StdDB_Data M_Std Spec_Frame Spec_Message Spec_Map Spec_Object Spec_Node Spec_Request Run_Object Run_Node P_Base P_Misc
  P_Message P_Encode P_MsgApi P_PropertyList P_Object P_ObjectRun P_ObjectReach P_Std P_Node P_Request Properties_Object
  P_NodeReach P_NodeProfile P_NodeInv P_NodeRun P_NodeProps P_RequestProps P_RequestApi P_Handlers Properties_Node
  Properties_Request Properties_Request2.
Import ListNotations.
Open Scope Z_scope.
Ltac Zify.zify_post_hook ::= Z.div_mod_to_equations.

(* the handler registered for a service and a property of the object with code [code] *)
Definition registered (n : node) (code esv c : Z) : option nat :=
  match uecho_node_getobjectbycode n code with
  | Some o => uecho_object_getpropertyrequestlistener o esv c
  | None => None
  end.

(* ---------- registration ---------- *)

(* Registering a handler replaces the one for that object, service and property, and
   leaves every other registration and all data alone; nothing is sent. *)
Theorem C44_registered : forall le net n code esv c h,
  api_node le net std_db n -> has_object n code ->
  exists n', nstep le net std_db n (NObj code (KHandler esv c h)) = Ok (n', [], [])
  /\ (forall code' esv' c', registered n' code' esv' c'
        = if (code' =? code) && (esv' =? esv) && (c' =? c) then h else registered n code' esv' c')
  /\ (forall code' c', node_data n' code' c' = node_data n code' c')
  /\ n_tid n' = n_tid n /\ eojs n' = eojs n.
Proof.
  intros le net n code esv c h Hn Ho. unfold has_object in Ho.
  destruct (uecho_node_getobjectbycode n code) as [o|] eqn:G; [|congruence].
  destruct (api_node_ok _ _ _ _ std_db_ok Hn) as [N M].
  assert (U : uniq (o_obs o)).
  { pose proof (api_node_obs uniq (NoDup_nil _) setobserver_uniq _ _ _ _ std_db_ok Hn) as U. unfold nobs in U.
    rewrite Forall_forall in U. apply U. apply getbycode_in in G. apply G. }
  set (o' := uecho_object_setpropertyrequesthandler o esv c h).
  assert (Gc : uecho_object_getcode o' = code) by (change (uecho_object_getcode o = code); apply (ninv_get _ _ _ N G)).
  exists (n_with_objs (put_obj code o' (n_objs n)) n).
  assert (GG : forall code', uecho_node_getobjectbycode (n_with_objs (put_obj code o' (n_objs n)) n) code'
       = if code' =? code then Some o' else uecho_node_getobjectbycode n code').
  { intros code'. unfold uecho_node_getobjectbycode. cbn [n_objs n_with_objs]. rewrite put_obj_get by exact Gc.
    unfold uecho_node_getobjectbycode in G. destruct (Z.eqb_spec code' code) as [E|E].
    - rewrite G. reflexivity.
    - destruct (oget (n_objs n) code'); reflexivity. }
  split; [|split; [|split; [|split]]].
  - cbn [nstep]. unfold node_object_op. rewrite G. cbn [odo bind]. fold o'.
    destruct (o_attached o'); reflexivity.
  - intros code' esv' c'. unfold registered. rewrite GG. destruct (Z.eqb_spec code' code) as [E|E]; [|reflexivity].
    subst code'. rewrite G. unfold uecho_object_getpropertyrequestlistener, o', uecho_object_setpropertyrequesthandler.
    cbn [o_obs o_with_obs]. rewrite setobserver_find by exact U. rewrite (Z.eqb_sym esv), (Z.eqb_sym c).
    cbn [andb]. destruct ((esv' =? esv) && (c' =? c)); reflexivity.
  - intros code' c'. unfold node_data. rewrite GG. destruct (Z.eqb_spec code' code) as [E|E]; [|reflexivity].
    subst code'. rewrite G. reflexivity.
  - reflexivity.
  - rewrite !eojs_eq. cbn [n_objs n_with_objs]. eapply put_obj_map; [exact G|]. reflexivity.
Qed.
Print Assumptions C44_registered.

(* A write handler is registered for the three services that write, a read handler for the
   three that read, and nothing else changes.  [o] is any object of any node. *)
Theorem C44_kinds : forall le net n o c h,
  api_node le net std_db n -> In o (n_objs n) ->
  let w := uecho_object_setpropertywriterequesthandler o c h in
  let r := uecho_object_setpropertyreadhandler o c h in
  (forall esv' c', uecho_object_getpropertyrequestlistener w esv' c'
     = if existsb (Z.eqb esv') [96; 97; 110] && (c' =? c) then h else uecho_object_getpropertyrequestlistener o esv' c')
  /\ (forall esv' c', uecho_object_getpropertyrequestlistener r esv' c'
     = if existsb (Z.eqb esv') [98; 99; 110] && (c' =? c) then h else uecho_object_getpropertyrequestlistener o esv' c')
  /\ o_with_obs [] w = o_with_obs [] o /\ o_with_obs [] r = o_with_obs [] o.
Proof.
  intros le net n o c h Hn I.
  assert (U : uniq (o_obs o)).
  { pose proof (api_node_obs uniq (NoDup_nil _) setobserver_uniq _ _ _ _ std_db_ok Hn) as U. unfold nobs in U.
    rewrite Forall_forall in U. apply U. exact I. }
  assert (One : forall p e e' c', uniq (o_obs p) -> uecho_object_getpropertyrequestlistener (uecho_object_setpropertyrequesthandler p e c h) e' c'
    = if (e' =? e) && (c' =? c) then h else uecho_object_getpropertyrequestlistener p e' c').
  { intros p e e' c' Up. unfold uecho_object_getpropertyrequestlistener, uecho_object_setpropertyrequesthandler.
    cbn [o_obs o_with_obs]. rewrite setobserver_find by exact Up. rewrite (Z.eqb_sym e), (Z.eqb_sym c).
    destruct ((e' =? e) && (c' =? c)); reflexivity. }
  assert (Ok1 : forall p e, uniq (o_obs p) -> uniq (o_obs (uecho_object_setpropertyrequesthandler p e c h)))
    by (intros p e Up; apply setobserver_uniq; exact Up).
  cbv zeta. unfold uecho_object_setpropertywriterequesthandler, uecho_object_setpropertyreadhandler,
    ESV_SetI, ESV_SetC, ESV_SetGet, ESV_Get, ESV_INF_REQ. split; [|split; [|split; reflexivity]].
  - intros e' c'. rewrite !One by auto. cbn [existsb]. destruct (e' =? 96), (e' =? 97), (e' =? 110), (c' =? c); reflexivity.
  - intros e' c'. rewrite !One by auto. cbn [existsb]. destruct (e' =? 98), (e' =? 99), (e' =? 110), (c' =? c); reflexivity.
Qed.
Print Assumptions C44_kinds.

(* ---------- consultation ---------- *)

(* The calls a request makes, in order: for each of its properties that the object has, the
   handler registered for that service and property, if any, with the request's data. *)
Definition has_prop (n : node) (code c : Z) : bool := match node_data n code c with Some _ => true | None => false end.
Definition expected (n : node) (code esv : Z) (ps : list epair) : list (nat * Z * Z * epair) :=
  concat (map (fun e =>
    if has_prop n code (fst e) then
      match registered n code esv (fst e) with Some h => [(h, code, esv, e)] | None => [] end
    else []) ps).
Definition called (x : hcall * bool) : nat * Z * Z * epair :=
  (hc_handler (fst x), hc_object (fst x), hc_esv (fst x), (p_code (hc_prop (fst x)), hc_data (fst x))).

Lemma handlers_one : forall o esv c, uniq (o_obs o) ->
  handlers o esv c = match obs_find (o_obs o) esv c with Some b => [ob_handler b] | None => [] end.
Proof. intros o esv c U. unfold handlers. rewrite uniq_find by exact U. destruct (obs_find (o_obs o) esv c); reflexivity. Qed.

Lemma consulted_called : forall n code o esv e seg, uniq (o_obs o) -> uecho_node_getobjectbycode n code = Some o ->
  uecho_object_getcode o = code -> consulted o esv e seg ->
  map called seg = if has_prop n code (fst e) then
      match registered n code esv (fst e) with Some h => [(h, code, esv, e)] | None => [] end else [].
Proof.
  intros n code o esv e seg U G Gc H. unfold consulted in H. unfold has_prop, node_data, registered. rewrite G.
  unfold uecho_object_getpropertyrequestlistener.
  destruct (uecho_object_getproperty o (fst e)) as [q|] eqn:Fq; [|rewrite H; reflexivity]. cbn [option_map].
  destruct H as [H1 H2]. rewrite handlers_one in H1 by exact U.
  destruct (obs_find (o_obs o) esv (fst e)) as [b|]; [|destruct seg; [reflexivity|discriminate]].
  destruct seg as [|x [|y seg]]; [discriminate| |discriminate]. cbn [map] in *.
  apply (f_equal (fun l => match l with h :: _ => h | [] => None end)) in H1. cbv iota in H1. rewrite <- H1.
  inversion H2 as [|? ? Hx _]; subst. destruct Hx as (A & B & C & D). unfold called. rewrite A, B, C, D. destruct e; reflexivity.
Qed.

Lemma expected_calls : forall n code o esv ps segs, uniq (o_obs o) -> uecho_node_getobjectbycode n code = Some o ->
  uecho_object_getcode o = code -> Forall2 (consulted o esv) ps segs -> map called (concat segs) = expected n code esv ps.
Proof.
  intros n code o esv ps segs U G Gc H. unfold expected. induction H as [|e seg ps segs He Hr IH]; [reflexivity|].
  cbn [concat map]. rewrite map_app, IH. f_equal. eapply consulted_called; eassumption.
Qed.

(* SetGet consults the handlers for 0x61 and 0x62.  Missing for the full statement: the
   handlers registered for 0x6E, see C44_setget_refuted. *)
Theorem C44_consulted_partial : forall le net dec n f rest la ra r,
  receives le net dec n f rest la ra r -> has_object n (dest f) -> request_esv (f_esv f) ->
  map called (r_calls r) = match f_body f with
                           | Plain ps => expected n (dest f) (f_esv f) ps
                           | SetGetBody s g => expected n (dest f) 97 s ++ expected n (dest f) 98 g
                           end.
Proof.
  intros le net dec n f rest la ra r R Ho Q. pose proof R as (Hn & _). unfold has_object in Ho.
  destruct (uecho_node_getobjectbycode n (dest f)) as [o|] eqn:G; [|congruence].
  destruct (api_node_ok _ _ _ _ std_db_ok Hn) as [N M]. pose proof (proj2 (ninv_get _ _ _ N G)) as Gc.
  assert (U : uniq (o_obs o)).
  { pose proof (api_node_obs uniq (NoDup_nil _) setobserver_uniq _ _ _ _ std_db_ok Hn) as U. unfold nobs in U.
    rewrite Forall_forall in U. apply U. apply getbycode_in in G. apply G. }
  destruct (request_effects _ _ _ _ _ _ _ _ _ _ R G Q) as (_ & ns & b & all & _ & _ & X).
  destruct (f_body f) as [ps|s g].
  - destruct X as (segs & E1 & E2 & _). rewrite E1. eapply expected_calls; eassumption.
  - destruct X as (s1 & s2 & E1 & E2 & E3 & _). rewrite E1, map_app. f_equal; eapply expected_calls; eassumption.
Qed.
Print Assumptions C44_consulted_partial.

(* setting 0x80 and 0x81, of which only 0x80 has a handler *)
Example C44_consulted_example :
  receives true net_up no node3 set2 [] here (Some there) (react no node3 set2)
  /\ map called (r_calls (react no node3 set2)) = [(5%nat, 77825, 97, (128, [49]))].
Proof. split; [apply react_receives; [exact node3_api|vm_compute; reflexivity..]|vm_compute; reflexivity]. Qed.

(* The answers of the handlers are what the callbacks returned, each given the calls before
   it, and they decide which properties are written: a property that occurs once in a write
   request gets the new data exactly when the object has it and every call for it agreed. *)
Definition answers (r : reaction) (c : Z) : list bool :=
  map snd (filter (fun x => p_code (hc_prop (fst x)) =? c) (r_calls r)).

Lemma write_all_at : forall ps vs m c d v, NoDup (map fst ps) -> In ((c, d), v) (combine ps vs) ->
  write_all m ps vs c = if v then Some d else m c.
Proof.
  induction ps as [|e ps IH]; intros vs m c d v N I; [destruct I|]. destruct vs as [|w vs]; [destruct I|].
  cbn [map] in N. inversion N as [|? ? N1 N2]; subst. cbn [combine] in I. cbn [write_all]. destruct I as [I|I].
  - injection I as -> ->. cbn [fst snd] in *.
    assert (X : forall m', write_all m' ps vs c = m' c).
    { clear - N1. revert vs. induction ps as [|e ps IH]; intros vs m'; destruct vs as [|w vs]; try reflexivity.
      cbn [write_all map] in *. rewrite IH by (intros I; apply N1; right; exact I). destruct w; [|reflexivity].
      unfold dset. destruct (Z.eqb_spec c (fst e)) as [E|E]; [exfalso; apply N1; left; auto|reflexivity]. }
    rewrite X. destruct v; [unfold dset; rewrite Z.eqb_refl; reflexivity|reflexivity].
  - rewrite (IH vs _ c d v N2 I). destruct v; [reflexivity|]. destruct w; [|reflexivity].
    unfold dset. destruct (Z.eqb_spec c (fst e)) as [E|E]; [|reflexivity]. exfalso. apply N1.
    apply in_combine_l in I. apply (in_map fst) in I. cbn [fst] in I. rewrite <- E. exact I.
Qed.

Lemma answers_at : forall o esv ps segs c d, Forall2 (consulted o esv) ps segs -> NoDup (map fst ps) -> In (c, d) ps ->
  exists seg, In ((c, d), seg) (combine ps segs)
  /\ filter (fun x => p_code (hc_prop (fst x)) =? c) (concat segs) = seg.
Proof.
  intros o esv ps segs c d H. induction H as [|e seg ps segs He Hr IH]; intros N I; [destruct I|].
  cbn [map] in N. inversion N as [|? ? N1 N2]; subst.
  assert (K : forall e seg, consulted o esv e seg -> filter (fun x : hcall * bool => p_code (hc_prop (fst x)) =? c) seg
      = if fst e =? c then seg else []).
  { clear. intros e seg H. unfold consulted in H. destruct (uecho_object_getproperty o (fst e)).
    - destruct H as [_ H]. induction H as [|x seg (_ & _ & A & _) H IH]; cbn [filter]; [destruct (fst e =? c); reflexivity|].
      rewrite A. destruct (fst e =? c); rewrite IH; reflexivity.
    - subst. destruct (fst e =? c); reflexivity. }
  cbn [concat combine]. rewrite filter_app, (K _ _ He). destruct I as [I|I].
  - subst e. cbn [fst] in *. rewrite Z.eqb_refl. exists seg. split; [left; reflexivity|].
    replace (filter _ (concat segs)) with (@nil (hcall * bool)); [apply app_nil_r|]. symmetry.
    clear - Hr N1 K. induction Hr as [|e seg ps segs He Hr IH]; [reflexivity|]. cbn [map] in N1.
    cbn [concat]. rewrite filter_app, (K _ _ He), IH by (intros I; apply N1; right; exact I).
    destruct (Z.eqb_spec (fst e) c) as [E|E]; [exfalso; apply N1; left; exact E|reflexivity].
  - destruct (IH N2 I) as (sg & I1 & I2). exists sg. split; [right; exact I1|]. rewrite I2.
    destruct (Z.eqb_spec (fst e) c) as [E|E]; [|reflexivity]. exfalso. apply N1. rewrite E. apply (in_map fst) in I. exact I.
Qed.

Theorem C44_decided : forall le net dec n f rest la ra r,
  receives le net dec n f rest la ra r -> has_object n (dest f) -> request_esv (f_esv f) ->
  (forall pre x post, r_calls r = pre ++ x :: post -> snd x = dec pre (fst x))
  /\ forall ps c d, f_body f = Plain ps -> write_esv (f_esv f) = true -> NoDup (map fst ps) -> In (c, d) ps ->
     node_data (r_node r) (dest f) c
     = if has_prop n (dest f) c && forallb (fun b => b) (answers r c) then Some d else node_data n (dest f) c.
Proof.
  intros le net dec n f rest la ra r R Ho Q. pose proof R as (Hn & _). unfold has_object in Ho.
  destruct (uecho_node_getobjectbycode n (dest f)) as [o|] eqn:G; [|congruence].
  destruct (request_effects _ _ _ _ _ _ _ _ _ _ R G Q) as (_ & ns & b & all & _ & Hh & X).
  split; [intros pre x post E; exact (Hh pre x post E)|].
  intros ps c d Eb W Nd I. rewrite Eb in X. destruct X as (segs & E1 & E2 & E3 & _). rewrite W in E3. rewrite E3.
  destruct (answers_at _ _ _ _ _ _ E2 Nd I) as (seg & I1 & I2).
  rewrite (write_all_at ps (verdicts o ps segs) _ c d (verdict o (c, d) seg) Nd).
  - unfold answers. rewrite E1, I2. unfold verdict, has_prop. cbn [fst]. rewrite (odata_node _ _ _ G). unfold odata.
    destruct (uecho_object_getproperty o c) as [q|]; [|reflexivity]. cbn [option_map andb].
    replace (forallb (fun b => b) (map snd seg)) with (forallb snd seg); [reflexivity|].
    clear. induction seg as [|x seg IH]; [reflexivity|]. cbn [map forallb]. rewrite IH. reflexivity.
  - unfold verdicts. clear - I1. revert segs I1. induction ps as [|e ps IH]; intros [|s segs] I1; try destruct I1.
    + injection H as -> ->. left. reflexivity.
    + right. apply IH. exact H.
Qed.
Print Assumptions C44_decided.

(* two properties, the handler of the first refuses: only the second is written *)
Example C44_decided_example :
  receives true net_up no node3 set2 [] here (Some there) (react no node3 set2)
  /\ node_data node3 (dest set2) 128 = Some [48] /\ node_data (r_node (react no node3 set2)) (dest set2) 128 = Some [48]
  /\ node_data node3 (dest set2) 129 = Some [8] /\ node_data (r_node (react no node3 set2)) (dest set2) 129 = Some [16].
Proof.
  split; [apply react_receives; [exact node3_api|vm_compute; reflexivity..]|].
  split; [vm_compute; reflexivity|]. split; [vm_compute; reflexivity|]. split; vm_compute; reflexivity.
Qed.

(* Full statement for SetGet: the handlers registered for 0x6E are consulted.  They are not. *)
Theorem C44_setget_refuted : exists n f r h e,
  receives true net_up no n f [] here (Some there) r /\ f_esv f = 110
  /\ f_body f = SetGetBody [e] [] /\ has_prop n (dest f) (fst e) = true
  /\ registered n (dest f) 110 (fst e) = Some h /\ r_calls r = []
  /\ node_data (r_node r) (dest f) (fst e) = Some (snd e) /\ node_data n (dest f) (fst e) <> Some (snd e).
Proof.
  exists node3, setget3, (react no node3 setget3), 7%nat, (129, [16]).
  split; [apply react_receives; [exact node3_api|vm_compute; reflexivity..]|]. split; [reflexivity|]. split; [reflexivity|].
  split; [vm_compute; reflexivity|]. split; [vm_compute; reflexivity|]. split; [vm_compute; reflexivity|]. split; [vm_compute; reflexivity|].
  vm_compute. discriminate.
Qed.
Print Assumptions C44_setget_refuted.

(* Removing a handler by registering NULL makes the next request for it call a null
   pointer. *)
Definition with_null : list nop := set_up ++ [NObj 77825 (KHandler 98 128 None)].
Definition node_null : node := after with_null.
Lemma node_null_api : api_node true net_up std_db node_null.
Proof.
  apply after_api; [|vm_compute; reflexivity]. unfold with_null. apply Forall_app. split.
  - unfold set_up. apply Forall_app. split; [apply devs_ok|].
    assert (X : forall c d, 128 <= c <= 255 -> forallb (fun b => (0 <=? b) && (b <? 256)) d = true ->
       nop_ok true std_db (NObj 77825 (KStep (OSetData c d) zeros))).
    { intros c d Hc Hd. apply is_byteb_val in Hd. cbn [nop_ok ocall_ok oop_ok].
      split; [split; [cbn; lia|exact Hd]|]. split; [intros c' E; injection E as <-; unfold epc_code; lia|exact zeros_ok]. }
    constructor; [apply X; [lia|reflexivity]|]. constructor; [apply X; [lia|reflexivity]|].
    repeat (constructor; [exact I|]). constructor.
  - constructor; [exact I|constructor].
Qed.
Theorem C44_null_refuted : exists n f,
  api_node true net_up std_db n /\ frame_ok f /\ request_esv (f_esv f) /\ has_object n (dest f)
  /\ node_receive true net_up yes n (enc_frame f) here (Some there) = Undef UB_null.
Proof.
  exists node_null, get80. split; [exact node_null_api|].
  split; [apply (frame_checks get80); vm_compute; reflexivity|]. split; [right; right; left; reflexivity|].
  split; [vm_compute; discriminate|vm_compute; reflexivity].
Qed.
Print Assumptions C44_null_refuted.
