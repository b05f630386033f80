(* Lemmas for Properties_Node.v. *)
From Coq Require Import String ZArith List Bool Lia ZifyBool ZifyNat.
From Verif Require Import CSem M_Const M_Misc M_Property M_Message M_PropertyList M_Object M_Node M_NodeListener
  M_NodeThreads Spec_Frame Spec_Message Spec_Map Spec_Object Spec_Node Run_Object Run_Node P_Base P_Misc P_Message P_Encode
  P_MsgApi P_PropertyList P_Object P_ObjectRun P_ObjectReach P_Node P_Request Properties_Object P_NodeReach P_NodeProfile
  P_NodeInv P_NodeRun.
Import ListNotations.
Open Scope Z_scope.
Ltac Zify.zify_post_hook ::= Z.div_mod_to_equations.

(* ---- TIDs ---- *)

Lemma carries_tid : forall le t p, 0 <= t <= 65535 -> carries le t p -> tid_of le (post_bytes p) = Some t.
Proof.
  intros le t p Ht (h & r & E & L). rewrite E. destruct h as [|x [|y [|? ?]]]; try discriminate.
  cbn [app tid_of]. unfold tid_wire. destruct le; cbn [fst snd]; f_equal; lia.
Qed.

Lemma stamped_range : forall le t ps k t', stamped le t ps k t' -> 0 <= t ->
  Forall (fun p => exists u, tid_of le (post_bytes p) = Some u /\ 1 <= u <= 65535) ps.
Proof.
  intros le t ps k t' H. induction H as [t|t p ps k t' C S IH|t ps k t' S IH]; intros Ht; [constructor| |].
  - pose proof (next_tid_range t Ht). constructor; [|apply IH; lia]. exists (next_tid t).
    split; [apply carries_tid; [lia|assumption]|lia].
  - pose proof (next_tid_range t Ht). apply IH; lia.
Qed.

Lemma stamped_nth : forall le t ps k t', stamped le t ps k t' -> k = 0%nat -> 0 <= t ->
  forall i p, nth_error ps i = Some p -> tid_of le (post_bytes p) = Some (tid_iter (S i) t).
Proof.
  intros le t ps k t' H. induction H as [t|t p ps k t' C S IH|t ps k t' S IH]; intros Hk Ht i q E.
  - destruct i; discriminate.
  - pose proof (next_tid_range t Ht). destruct i; cbn [nth_error] in E.
    + injection E as <-. apply carries_tid; [cbn; lia|assumption].
    + rewrite tid_iter_S. apply IH; [assumption|lia|assumption].
  - discriminate.
Qed.

Lemma tid_iter_0 : forall i, tid_iter (S i) 0 = Z.of_nat i mod 65535 + 1.
Proof.
  induction i as [|i IH]; [reflexivity|].
  change (tid_iter (S (S i)) 0) with (next_tid (tid_iter (S i) 0)). rewrite IH. unfold next_tid.
  destruct (Z.leb_spec 65535 (Z.of_nat i mod 65535 + 1)); lia.
Qed.

(* one call alone *)
Lemma tid_alone : forall x, 0 <= x < 4294967295 -> 
  tid_sched x [TCheck] [0%nat;0%nat;0%nat;0%nat;0%nat] = (next_tid x, [TDone (next_tid x)]).
Proof.
  intros x Hx. cbn [tid_sched nth_error tid_step firstn skipn app]. unfold next_tid, uEchoTidMax.
  destruct (Z.leb_spec 65535 x); cbn [tid_sched nth_error tid_step firstn skipn app]; [reflexivity|].
  unfold u32. rewrite Z.mod_small by lia. reflexivity.
Qed.

(* ---- objects of a node ---- *)

(* data of a property of an object of the node, as the getters show it *)
Definition node_data (n : node) (code c : Z) : option (list Z) :=
  match uecho_node_getobjectbycode n code with
  | Some o => option_map p_data (uecho_object_getproperty o c)
  | None => None
  end.

(* the node profile shows the node's objects *)
Definition describes (n : node) : Prop :=
  node_data n 978945 211 = Some (prof_D3 (eojs n))
  /\ node_data n 978945 212 = Some (prof_D4 (eojs n))
  /\ node_data n 978945 213 = Some (prof_D6 (eojs n))
  /\ node_data n 978945 214 = Some (prof_D6 (eojs n))
  /\ node_data n 978945 215 = Some (prof_D7 (eojs n)).

Lemma eojs_put : forall l c o o', oget l c = Some o -> eoj_of o' = eoj_of o ->
  map eoj_of (put_obj c o' l) = map eoj_of l.
Proof.
  induction l as [|x l IH]; intros c o o' G E; cbn [put_obj uecho_objectlist_getbycode] in *; [discriminate|].
  destruct (uecho_object_getcode x =? c).
  - injection G as <-. cbn [map]. rewrite E. reflexivity.
  - cbn [map]. rewrite (IH _ _ _ G E). reflexivity.
Qed.

Lemma with_instances_find : forall es o c,
  uecho_object_getproperty (with_instances es o) c =
  match List.find (fun kv => fst kv =? c) (prof_kvs (node_classes es) es) with
  | Some kv => Some (put_data (snd kv) (got (o_props o) c))
  | None => uecho_object_getproperty o c
  end.
Proof.
  intros. unfold with_instances, uecho_object_getproperty. rewrite obj_props_with.
  apply put_all_find. apply nodupb_ok. reflexivity.
Qed.

Lemma with_instances_data : forall es o,
  let d c := option_map p_data (uecho_object_getproperty (with_instances es o) c) in
  d 211 = Some (prof_D3 es) /\ d 212 = Some (prof_D4 es) /\ d 213 = Some (prof_D6 es)
  /\ d 214 = Some (prof_D6 es) /\ d 215 = Some (prof_D7 es).
Proof. intros es o d. subst d. cbv beta. rewrite !with_instances_find. repeat split. Qed.

Section N.
Variable le : bool.
Variable net : post -> bool.

Lemma object_op_total : forall f n code, ninv n ->
  (forall o, uecho_node_getobjectbycode n code = Some o -> oinv o ->
     exists o' a, f o = Ok (o', a) /\ Forall ann_ok a) ->
  exists n' posts, node_object_op le net f n code = Ok (n', posts).
Proof.
  intros f n code Hn H. unfold node_object_op. destruct (uecho_node_getobjectbycode n code) as [o|] eqn:G; [|eauto].
  destruct (ninv_get _ _ _ Hn G) as [Ho _]. destruct (H o eq_refl Ho) as (o' & a & E & A). rewrite E. cbn [bind].
  rewrite node_emit_spec; [eauto| |exact (proj1 Hn)]. destruct (o_attached o'); [assumption|constructor].
Qed.

Lemma updateprofile_total : forall n, ninv n ->
  exists n' posts r, uecho_node_updatenodeprofileclass le net n = Ok (n', posts, r).
Proof.
  intros n Hn. unfold uecho_node_updatenodeprofileclass. destruct (uecho_node_getobjectbycode n uEchoNodeProfileObject); [|eauto].
  match goal with |- context [node_object_op le net ?f n ?c] => destruct (object_op_total f n c Hn) as (n' & ps & E) end.
  - intros p _ Hp. rewrite updateinstance_eq. cbv zeta. eexists _, _. split; [reflexivity|].
    apply ann_all_ok. pose proof Hn as (_ & Ho & _ & Hc). rewrite Hc, eojs_eq. pose proof (oinv_eoj _ Ho).
    apply prof_kvs_ok; [apply node_classes_ok; assumption|assumption].
  - rewrite E. cbn [bind]. eauto.
Qed.

Lemma addobject_total : forall n o, ninv n -> winv o -> codes_byte o ->
  exists n' posts r, uecho_node_addobject le net n o = Ok (n', posts, r).
Proof.
  intros n o Hn He Hb. unfold uecho_node_addobject.
  destruct (uecho_node_getobjectbycode n (uecho_object_getcode o)) eqn:G; [eauto|].
  apply updateprofile_total.
  assert (N1 : ninv (appended o n)) by (apply appended_inv; assumption).
  match goal with |- ninv ?x => replace x with (appended o n); [exact N1|] end.
  unfold appended. f_equal. cbn [n_classes n_with_objs]. rewrite (getcode_eq _ Hb).
  pose proof Hn as (_ & Ho & _ & Hc). destruct Hb as (B1 & B2 & B3).
  rewrite classlist_set_eq; [|rewrite Hc; apply node_classes_ok; apply oinv_eoj; assumption|assumption..].
  unfold eoj_of. rewrite node_classes_snoc, <- Hc. reflexivity.
Qed.

(* what an addition does *)
Lemma addobject_effect : forall n o n' posts r, ninv n -> winv o -> codes_byte o ->
  uecho_node_getobjectbycode n (uecho_object_getcode o) = None -> profile (appended o n) <> None ->
  uecho_node_addobject le net n o = Ok (n', posts, r) ->
  r = true
  /\ eojs n' = eojs n ++ [eoj_of o]
  /\ describes n'
  /\ (forall c, c <> 978945 -> uecho_node_getobjectbycode n' c =
        if c =? uecho_object_getcode o then Some (uecho_object_attach o) else uecho_node_getobjectbycode n c)
  /\ (forall c, ~ In c [211; 212; 213; 214; 215] ->
        match profile n', profile (appended o n) with
        | Some p', Some p => uecho_object_getproperty p' c = uecho_object_getproperty p c
        | _, _ => False
        end)
  /\ n_addr n' = n_addr n /\ n_listener n' = n_listener n.
Proof.
  intros n o n' posts r Hn He Hb G P H. apply addobject_ok in H; [|assumption..]. destruct H as [_ H]. rewrite G in H.
  destruct (profile (appended o n)) as [p|] eqn:Ep; [|congruence]. destruct H as (-> & E & E').
  pose proof (getbycode_in _ _ _ Ep) as [Ec _].
  assert (Eo : eojs (appended o n) = eojs n ++ [eoj_of o]).
  { rewrite !eojs_eq. cbn [appended n_objs n_with_classes n_with_objs]. rewrite map_app. reflexivity. }
  assert (En : eojs n' = eojs n ++ [eoj_of o]).
  { rewrite <- Eo, !eojs_eq, E. eapply eojs_put; [exact Ep|reflexivity]. }
  assert (Gn : forall c, uecho_node_getobjectbycode n' c =
     if c =? 978945 then Some (with_instances (eojs n') p) else uecho_node_getobjectbycode (appended o n) c).
  { intros c. unfold uecho_node_getobjectbycode at 1. rewrite E, put_obj_get.
    - rewrite Eo, <- En. destruct (c =? 978945) eqn:E2; [|reflexivity]. apply Z.eqb_eq in E2. subst c.
      unfold profile, uecho_node_getobjectbycode in Ep. change uEchoNodeProfileObject with 978945 in Ep. rewrite Ep. reflexivity.
    - exact Ec. }
  split; [reflexivity|]. split; [exact En|]. split; [|split; [|split; [|rewrite E'; auto]]].
  - unfold describes, node_data. rewrite Gn, Z.eqb_refl. apply with_instances_data.
  - intros c Hc. rewrite Gn. destruct (Z.eqb_spec c 978945); [contradiction|].
    unfold uecho_node_getobjectbycode. cbn [appended n_objs n_with_classes n_with_objs]. rewrite oget_app.
    destruct (Z.eqb_spec c (uecho_object_getcode o)) as [->|Hne].
    + unfold uecho_node_getobjectbycode in G. rewrite G. cbn [uecho_objectlist_getbycode].
      change (uecho_object_getcode (uecho_object_attach o)) with (uecho_object_getcode o). rewrite Z.eqb_refl. reflexivity.
    + destruct (oget (n_objs n) c); [reflexivity|]. cbn [uecho_objectlist_getbycode].
      change (uecho_object_getcode (uecho_object_attach o)) with (uecho_object_getcode o).
      destruct (Z.eqb_spec (uecho_object_getcode o) c); [congruence|reflexivity].
  - intros c Hc. unfold profile at 1. rewrite Gn. change (uEchoNodeProfileObject =? 978945) with true. cbv iota.
    rewrite with_instances_find. destruct (List.find _ _) as [kv|] eqn:F; [|reflexivity].
    apply find_some in F. destruct F as [I F]. exfalso. apply Hc. cbv [prof_kvs] in I. cbn [In] in *.
    repeat (destruct I as [<-|I]; [cbn [fst] in F; lia|]). destruct I.
Qed.
End N.

Lemma notification_ok : forall le t e c d, 0 <= t <= 65535 -> eoj_ok e -> is_byte c -> bytes_ok d -> len d <= 255 ->
  frame_ok (notification le t e c d).
Proof.
  intros le t e c d Ht He Hc Hb Hl. unfold frame_ok, notification. cbn [f_tid f_seoj f_deoj f_esv f_body].
  assert (B : byte_val (fst (tid_wire le t)) /\ byte_val (snd (tid_wire le t))).
  { unfold tid_wire, byte_val. destruct le; cbn [fst snd]; lia. }
  split; [apply B|]. split; [apply B|]. split; [exact He|].
  split; [unfold node_profile_eoj, eoj_ok, byte_val; lia|]. split; [unfold byte_val; lia|].
  cbn [body_ok]. split; [unfold two_lists; lia|]. split; [|cbn; lia]. constructor; [|constructor].
  split; [apply is_byte_val; exact Hc|]. cbn [fst snd]. split; [|unfold len in Hl; lia].
  eapply Forall_impl; [|exact Hb]. intros; apply is_byte_val; assumption.
Qed.

Lemma node_profile_eoj_ok : eoj_ok node_profile_eoj.
Proof. unfold node_profile_eoj, eoj_ok, byte_val; lia. Qed.

(* Storing [d] into property [c] of the node's object [code], through the object or
   through the property itself. *)
Definition stores (c : Z) (d : list Z) (k : ocall) : Prop :=
  exists junk, k = KStep (OSetData c d) junk \/ k = KStep (OPropData c d) junk.

Lemma put_with_view : forall o c d c', 
  uecho_object_getproperty (o_with_props (put (o_props o) c (put_data d)) o) c'
  = if c' =? c then Some (put_data d (got (o_props o) c)) else uecho_object_getproperty o c'.
Proof.
  intros. unfold uecho_object_getproperty. rewrite obj_props_with, put_find by (intros; assumption).
  destruct (Z.eqb_spec c' c) as [->|]; reflexivity.
Qed.

Lemma store_eq : forall k c d o p, stores c d k -> uecho_object_getproperty o c = Some p ->
  odo k o = Ok (o_with_props (put (o_props o) c (put_data d)) o, announced p d).
Proof.
  intros k c d o p (junk & [-> | ->]) F; cbn [odo ostep].
  - unfold uecho_object_setpropertydata. rewrite pl_setdata_eq. unfold uecho_object_getproperty in F. rewrite (got_some _ _ _ F). reflexivity.
  - unfold object_property_setdata. rewrite F, setdata_eq. f_equal. f_equal. f_equal. rewrite <- upd_put.
    unfold uecho_object_getproperty in F. rewrite (got_some _ _ _ F), F. reflexivity.
Qed.

Lemma node_store : forall le net n code o c p d k, ninv n -> uecho_node_getobjectbycode n code = Some o ->
  uecho_object_getproperty o c = Some p -> bytes_ok d -> len d <= DATA_MAX -> stores c d k ->
  let o' := o_with_props (put (o_props o) c (put_data d)) o in
  let anns := announced p d in
  node_object_op le net (odo k) n code
  = Ok (n_with_tid (tid_iter (length anns) (n_tid n)) (n_with_objs (put_obj code o' (n_objs n)) n),
        match profile n with None => [] | Some _ => infs le (n_tid n) anns end).
Proof.
  intros le net n code o c p d k Hn G F Hd Hl S o' anns. unfold node_object_op. rewrite G.
  rewrite (store_eq _ _ _ _ _ S F). cbn [bind]. fold o' anns.
  destruct (ninv_get _ _ _ Hn G) as [(He & Hb & At) Hc].
  change (o_attached o') with (o_attached o). rewrite At.
  assert (A : Forall ann_ok anns).
  { subst anns. unfold uecho_object_getproperty in F. rewrite <- (got_some _ _ _ F). apply Forall_forall. intros q Hq.
    apply announced_in in Hq. destruct Hq as [C D]. 
    assert (E1 : is_byte (p_code q)).
    { rewrite C. apply find_code in F. destruct F as [<- I]. destruct He as [[_ Hp] _]. apply (plist_ok_in _ _ Hp I). }
    rewrite <- D in Hd, Hl. exact (conj E1 (conj Hd Hl)). }
  rewrite node_emit_spec; [|exact A|exact (proj1 Hn)]. f_equal. f_equal.
  match goal with |- match ?x with _ => _ end = match ?y with _ => _ end => assert (X : x = None <-> y = None) end.
  { split; intros X.
    - eapply profile_put; [exact G| |exact X]. exact Hc.
    - unfold profile, uecho_node_getobjectbycode in *. cbn [n_objs n_with_objs]. apply oget_none. apply oget_none in X.
      intros I. apply X. rewrite (put_obj_map _ _ _ _ o) in I; [exact I|exact G|reflexivity]. }
  destruct (profile _); destruct (profile n); try reflexivity; exfalso; destruct X as [X1 X2];
    [specialize (X2 eq_refl)|specialize (X1 eq_refl)]; discriminate.
Qed.

Lemma node_data_store : forall n code o c d t, ninv n -> uecho_node_getobjectbycode n code = Some o ->
  let n' := n_with_tid t (n_with_objs (put_obj code (o_with_props (put (o_props o) c (put_data d)) o) (n_objs n)) n) in
  node_data n' code c = Some d
  /\ forall code' c', (code', c') <> (code, c) -> node_data n' code' c' = node_data n code' c'.
Proof.
  intros n code o c d t Hn G n'. pose proof (ninv_get _ _ _ Hn G) as [_ Hc].
  assert (E : forall x, uecho_node_getobjectbycode n' x =
    if x =? code then Some (o_with_props (put (o_props o) c (put_data d)) o) else uecho_node_getobjectbycode n x).
  { intros x. unfold uecho_node_getobjectbycode, n'. cbn [n_objs n_with_objs n_with_tid]. rewrite put_obj_get; [|exact Hc].
    unfold uecho_node_getobjectbycode in G. destruct (Z.eqb_spec x code) as [->|]; [rewrite G|]; reflexivity. }
  unfold node_data. rewrite E, Z.eqb_refl, put_with_view, Z.eqb_refl. split; [reflexivity|].
  intros code' c' Hne. rewrite E. destruct (Z.eqb_spec code' code) as [->|]; [|reflexivity].
  rewrite G, put_with_view. destruct (Z.eqb_spec c' c) as [->|]; [congruence|reflexivity].
Qed.
