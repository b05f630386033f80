(* The request law in terms of node_data, for nodes a program can have. *)
From Coq Require Import String ZArith List Bool Lia ZifyBool ZifyNat.
From Verif Require Import CSem M_Const M_Misc M_Property M_Message M_PropertyList M_Object M_Node M_NodeListener
  StdDB_Data M_Std Spec_Frame Spec_Message Spec_Map Spec_Object Spec_Node Spec_Request Run_Object Run_Node P_Base P_Misc
  P_Message P_Encode P_MsgApi P_PropertyList P_Object P_ObjectRun P_ObjectReach P_Std P_Node P_Request Properties_Object
  P_NodeReach P_NodeProfile P_NodeInv P_NodeRun P_NodeProps P_RequestProps.
Import ListNotations.
Open Scope Z_scope.
Ltac Zify.zify_post_hook ::= Z.div_mod_to_equations.

(* Node [n] receives a datagram: frame [f], perhaps followed by other bytes.  [la] and [ra]
   are the local and the remote address, [dec] gives the answers of the handlers; the
   reaction is [r]. *)
Definition receives (le : bool) (net : post -> bool) (dec : list (hcall * bool) -> hcall -> bool) (n : node) (f : frame)
  (rest : list Z) (la ra : option string) (r : reaction) : Prop :=
  api_node le net std_db n /\ frame_ok f /\ buffer (enc_frame f ++ rest)
  /\ node_receive le net dec n (enc_frame f ++ rest) la ra = Ok r.

(* the object a frame is for *)
Definition dest (f : frame) : Z := eoj_code (f_deoj f).
Definition has_object (n : node) (code : Z) : Prop := uecho_node_getobjectbycode n code <> None.

(* every handler that was called agreed *)
Definition agreed (r : reaction) : Prop := Forall (fun x => snd x = true) (r_calls r).

(* the values of the object fit the one-byte length field of a frame *)
Definition short_data (n : node) (code : Z) : Prop := forall c d, node_data n code c = Some d -> len d <= 255.

Lemma odata_node : forall n code o, uecho_node_getobjectbycode n code = Some o -> forall c, node_data n code c = odata o c.
Proof. intros n code o G c. unfold node_data. rewrite G. reflexivity. Qed.

Lemma odata_bytes : forall o c d, winv o -> odata o c = Some d -> bytes_ok d.
Proof.
  intros o c d [[_ Hp] _] E. unfold odata in E. destruct (uecho_object_getproperty o c) as [p|] eqn:F; [|discriminate].
  injection E as <-. apply find_code in F. destruct F as [_ I]. apply (plist_ok_in _ _ Hp) in I. apply I.
Qed.

(* the effects of a request in terms of the node *)
Record effects (le : bool) (n : node) (f : frame) (la ra : option string) (r : reaction) (o : obj) (ns : list epair)
  (b : body) (all : bool) : Prop := mkEffects {
  ef_others : forall code c, code <> dest f -> node_data (r_node r) code c = node_data n code c;
  ef_fields : n_classes (r_node r) = n_classes n /\ n_addr (r_node r) = n_addr n /\ n_listener (r_node r) = n_listener n;
  ef_shapes : map (fun o => (eoj_of o, o_obs o, map shape (o_props o))) (n_objs (r_node r))
              = map (fun o => (eoj_of o, o_obs o, map shape (o_props o))) (n_objs n);
  ef_tid : n_tid (r_node r) = tid_iter (length ns) (n_tid n);
  ef_anns : r_anns r = match profile n with None => [] | Some _ => notes le (n_tid n) ns end;
  ef_answer : r_answer r = match answer_esv (f_esv f) all with
                    | Some e => reply_posts e (from_of la ra) (wire_msg (rmsg (reply f e b)))
                    | None => []
                    end;
  ef_read : read_only f -> r_node r = n /\ r_anns r = []
}.

Definition plain_effect (n : node) (code esv : Z) (o : obj) (ps : list epair) (segs : list (list (hcall * bool)))
  (r : reaction) (ns : list epair) (b : body) (all : bool) : Prop :=
  let vs := verdicts o ps segs in
  r_calls r = concat segs /\ Forall2 (consulted o esv) ps segs
  /\ (forall c, node_data (r_node r) code c = (if write_esv esv then write_all (node_data n code) ps vs else node_data n code) c)
  /\ b = Plain (answer_all esv (node_data n code) ps vs)
  /\ all = (one vs =? len ps)
  /\ ns = (if write_esv esv then notices o ps vs else []).

Definition setget_effect (n : node) (code : Z) (o : obj) (s g : list epair) (segs1 segs2 : list (list (hcall * bool)))
  (r : reaction) (ns : list epair) (b : body) (all : bool) : Prop :=
  let vs := verdicts o s segs1 in let ws := verdicts o g segs2 in
  r_calls r = concat segs1 ++ concat segs2 /\ Forall2 (consulted o 97) s segs1 /\ Forall2 (consulted o 98) g segs2
  /\ (forall c, node_data (r_node r) code c = write_all (node_data n code) s vs c)
  /\ b = SetGetBody (answer_all 97 (node_data n code) s vs) (answer_all 98 (write_all (node_data n code) s vs) g ws)
  /\ all = (one vs + one ws =? len s + len g)
  /\ ns = notices o s vs.

Lemma write_all_ext : forall ps vs m m', (forall c, m c = m' c) -> forall c, write_all m ps vs c = write_all m' ps vs c.
Proof.
  induction ps as [|e ps IH]; intros [|v vs] m m' H c; cbn [write_all]; auto. apply IH.
  intros x. destruct v; [unfold dset; rewrite H|]; auto.
Qed.

Lemma request_effects : forall le net dec n f rest la ra r o,
  receives le net dec n f rest la ra r -> uecho_node_getobjectbycode n (dest f) = Some o -> request_esv (f_esv f) ->
  winv o /\ exists ns b all, effects le n f la ra r o ns b all /\ honest dec [] (r_calls r)
  /\ match f_body f with
     | Plain ps => exists segs, plain_effect n (dest f) (f_esv f) o ps segs r ns b all
     | SetGetBody s g => exists segs1 segs2, setget_effect n (dest f) o s g segs1 segs2 r ns b all
     end.
Proof.
  intros le net dec n f rest la ra r o (Hn & Hf & Hb & H) G Q. destruct (api_node_ok _ _ _ _ std_db_ok Hn) as [N M].
  unfold dest in *. destruct (receive_law _ _ _ _ _ _ _ _ _ _ N M Hf Hb G Q H)
    as (o1 & ns & b & all & BE & Hh & SS & G1 & G2 & En & Ea & Er & Ro).
  split; [apply (ninv_get _ _ _ N G)|]. exists ns, b, all. split; [|split; [exact Hh|]].
  - constructor; [|rewrite En; auto| |rewrite En; reflexivity|exact Ea|exact Er|exact Ro].
    + intros code c Nc. unfold node_data. rewrite G2 by exact Nc. reflexivity.
    + rewrite En. cbn [n_objs]. eapply put_obj_map; [exact G|].
      destruct SS as [(S1 & S2 & S3 & _ & S5 & _) S6]. unfold eoj_of. rewrite S1, S2, S3, S5, S6. reflexivity.
  - pose proof (odata_node _ _ _ G) as D. pose proof (odata_node _ _ _ G1) as D1. unfold body_effect in BE.
    destruct (f_body f) as [ps|s g].
    + destruct BE as (segs & E1 & E2 & E3 & E4 & E5 & E6). exists segs. unfold plain_effect. cbv zeta.
      split; [exact E1|]. split; [exact E2|]. split.
      { intros c. rewrite D1, E3. destruct (write_esv (f_esv f)); [apply write_all_ext; intros; symmetry; apply D|symmetry; apply D]. }
      split; [rewrite E4; f_equal; apply answer_all_ext; intros; symmetry; apply D|]. split; [exact E5|exact E6].
    + destruct BE as (segs1 & segs2 & E1 & E2 & E3 & E4 & E5 & E6 & E7). exists segs1, segs2. unfold setget_effect. cbv zeta.
      split; [exact E1|]. split; [exact E2|]. split; [exact E3|]. split.
      { intros c. rewrite D1, E4. apply write_all_ext. intros; symmetry; apply D. }
      split.
      { rewrite E5. rewrite (answer_all_ext 97 (odata o) (node_data n (eoj_code (f_deoj f))) s _ (fun c => eq_sym (D c))).
        f_equal. apply answer_all_ext. apply write_all_ext. intros; symmetry; apply D. }
      split; [exact E6|exact E7].
Qed.

(* the answer frame is well formed *)
Lemma answer_frame_ok : forall f all e b, frame_ok f -> answer_esv (f_esv f) all = Some e ->
  match f_body f, b with
  | Plain ps, Plain qs => Forall epair_ok qs /\ length qs = length ps
  | SetGetBody s g, SetGetBody s' g' => Forall epair_ok s' /\ Forall epair_ok g' /\ length s' = length s /\ length g' = length g
  | _, _ => False
  end -> frame_ok (reply f e b).
Proof.
  intros f all e b Hf Ea Hb. pose proof Hf as (T0 & T1 & S & D & He & Hbd).
  destruct (answer_esv_two _ _ _ Ea) as [A1 A2]. pose proof (body_two _ _ Hbd) as B2.
  unfold reply, frame_ok. cbn [f_tid f_seoj f_deoj f_esv f_body].
  split; [exact T0|]. split; [exact T1|]. split; [exact D|]. split; [exact S|]. split; [apply is_byte_val; exact A2|].
  destruct (f_body f) as [ps|s g], b as [qs|s' g']; try contradiction; cbn [body_ok] in *.
  - specialize (A1 B2). split; [unfold two_lists, two_listsb in *; lia|]. destruct Hb as [H1 H2]. destruct Hbd as [_ [_ Hl]].
    split; [exact H1|rewrite H2; exact Hl].
  - destruct Hb as (H1 & H2 & H3 & H4). destruct Hbd as (_ & [_ L1] & [_ L2]).
    assert (E110 : f_esv f = 110).
    { unfold answer_esv, ESV_SetI, ESV_SetC, ESV_SetGet, ESV_Get, ESV_INF_REQ, ESV_INFC in Ea. unfold two_listsb in B2.
      destruct (Z.eqb_spec (f_esv f) 110); [assumption|]. revert Ea.
      repeat (match goal with |- context [if ?b then _ else _] => destruct b eqn:? end); intros; try discriminate; lia. }
    rewrite E110 in Ea. split; [|split; (split; [assumption|lia])].
    destruct all; cbv in Ea; injection Ea as <-; unfold two_lists; lia.
Qed.

Lemma answer_bytes : forall f all e b from, frame_ok f -> answer_esv (f_esv f) all = Some e ->
  match f_body f, b with
  | Plain ps, Plain qs => Forall epair_ok qs /\ length qs = length ps
  | SetGetBody s g, SetGetBody s' g' => Forall epair_ok s' /\ Forall epair_ok g' /\ length s' = length s /\ length g' = length g
  | _, _ => False
  end ->
  reply_posts e from (wire_msg (rmsg (reply f e b))) = reply_posts e from (enc_frame (reply f e b)).
Proof. intros f all e b from Hf Ea Hb. rewrite rmsg_wire; [reflexivity|]. eapply answer_frame_ok; eauto. Qed.

Lemma body_pairs : forall f ps, frame_ok f -> f_body f = Plain ps -> Forall epair_ok ps.
Proof. intros f ps (_ & _ & _ & _ & _ & H) E. rewrite E in H. apply H. Qed.
Lemma body_pairs2 : forall f s g, frame_ok f -> f_body f = SetGetBody s g -> Forall epair_ok s /\ Forall epair_ok g.
Proof. intros f s g (_ & _ & _ & _ & _ & H) E. rewrite E in H. destruct H as (_ & [H1 _] & [H2 _]). auto. Qed.

Lemma write_all_some : forall ps vs m c d, write_all m ps vs c = Some d -> m c = Some d \/ exists e, In e ps /\ snd e = d.
Proof.
  induction ps as [|e ps IH]; intros [|v vs] m c d H; cbn [write_all] in H; auto.
  apply IH in H. destruct H as [H|(e' & I & E)]; [|right; exists e'; split; [right; exact I|exact E]].
  destruct v; [|auto]. unfold dset in H. destruct (c =? fst e); [|auto]. injection H as <-. right. exists e. split; [left; reflexivity|reflexivity].
Qed.

(* one request list *)
Lemma plain_answer : forall le net dec n f rest la ra r ps o,
  receives le net dec n f rest la ra r -> uecho_node_getobjectbycode n (dest f) = Some o -> request_esv (f_esv f) ->
  f_body f = Plain ps ->
  (read_esv (f_esv f) = true -> forall e d, In e ps -> node_data n (dest f) (fst e) = Some d -> len d <= 255) ->
  exists segs, let vs := verdicts o ps segs in
  r_calls r = concat segs /\ Forall2 (consulted o (f_esv f)) ps segs
  /\ (forall c, node_data (r_node r) (dest f) c
        = (if write_esv (f_esv f) then write_all (node_data n (dest f)) ps vs else node_data n (dest f)) c)
  /\ Forall epair_ok (answer_all (f_esv f) (node_data n (dest f)) ps vs)
  /\ r_answer r = match answer_esv (f_esv f) (one vs =? len ps) with
                  | Some e => reply_posts e (from_of la ra)
                      (enc_frame (mkFrame (f_tid f) (f_deoj f) (f_seoj f) e (Plain (answer_all (f_esv f) (node_data n (dest f)) ps vs))))
                  | None => []
                  end.
Proof.
  intros le net dec n f rest la ra r ps o R G Q Eb Sh.
  destruct (request_effects _ _ _ _ _ _ _ _ _ _ R G Q) as (He & ns & b & all & EF & _ & X). rewrite Eb in X.
  destruct X as (segs & E1 & E2 & E3 & E4 & E5 & _). exists segs. cbv zeta in *.
  assert (Hf : frame_ok f) by apply R.
  assert (Hq : Forall epair_ok (answer_all (f_esv f) (node_data n (dest f)) ps (verdicts o ps segs))).
  { apply answer_all_ok; [eapply body_pairs; eauto|]. intros Er e d I E. split; [|eapply Sh; eauto].
    rewrite (odata_node _ _ _ G) in E. eapply odata_bytes; eauto. }
  split; [exact E1|]. split; [exact E2|]. split; [exact E3|]. split; [exact Hq|].
  rewrite (ef_answer _ _ _ _ _ _ _ _ _ _ EF), E5, E4.
  destruct (answer_esv (f_esv f) _) as [e|] eqn:Ea; [|reflexivity].
  rewrite (answer_bytes f _ e _ _ Hf Ea); [reflexivity|]. rewrite Eb. split; [exact Hq|].
  apply answer_all_len. eapply verdicts_len; eauto.
Qed.

Lemma setget_answer : forall le net dec n f rest la ra r s g o,
  receives le net dec n f rest la ra r -> uecho_node_getobjectbycode n (dest f) = Some o -> f_esv f = 110 ->
  f_body f = SetGetBody s g ->
  (forall e d, In e g -> node_data n (dest f) (fst e) = Some d -> len d <= 255) ->
  exists segs1 segs2, let vs := verdicts o s segs1 in let ws := verdicts o g segs2 in
  r_calls r = concat segs1 ++ concat segs2 /\ Forall2 (consulted o 97) s segs1 /\ Forall2 (consulted o 98) g segs2
  /\ (forall c, node_data (r_node r) (dest f) c = write_all (node_data n (dest f)) s vs c)
  /\ frame_ok (mkFrame (f_tid f) (f_deoj f) (f_seoj f) (if one vs + one ws =? len s + len g then 126 else 94)
                      (SetGetBody (answer_all 97 (node_data n (dest f)) s vs) (answer_all 98 (node_data (r_node r) (dest f)) g ws)))
  /\ r_answer r = reply_posts (if one vs + one ws =? len s + len g then 126 else 94) (from_of la ra)
                   (enc_frame (mkFrame (f_tid f) (f_deoj f) (f_seoj f) (if one vs + one ws =? len s + len g then 126 else 94)
                      (SetGetBody (answer_all 97 (node_data n (dest f)) s vs) (answer_all 98 (node_data (r_node r) (dest f)) g ws)))).
Proof.
  intros le net dec n f rest la ra r s g o R G Q Eb Sh.
  assert (Q' : request_esv (f_esv f)) by (rewrite Q; cbn; tauto).
  destruct (request_effects _ _ _ _ _ _ _ _ _ _ R G Q') as (He & ns & b & all & EF & _ & X). rewrite Eb in X.
  destruct X as (segs1 & segs2 & E1 & E2 & E3 & E4 & E5 & E6 & _). exists segs1, segs2. cbv zeta in *.
  assert (Hf : frame_ok f) by apply R. destruct (body_pairs2 _ _ _ Hf Eb) as [P1 P2].
  split; [exact E1|]. split; [exact E2|]. split; [exact E3|]. split; [exact E4|].
  assert (Ea : answer_esv (f_esv f) all = Some (if one (verdicts o s segs1) + one (verdicts o g segs2) =? len s + len g then 126 else 94)).
  { rewrite Q, E6. reflexivity. }
  rewrite (answer_all_ext 98 (node_data (r_node r) (dest f)) (write_all (node_data n (dest f)) s (verdicts o s segs1)) g
             (verdicts o g segs2) E4).
  assert (Hb : match f_body f, b with
     | Plain ps, Plain qs => Forall epair_ok qs /\ length qs = length ps
     | SetGetBody s g, SetGetBody s' g' => Forall epair_ok s' /\ Forall epair_ok g' /\ length s' = length s /\ length g' = length g
     | _, _ => False end).
  { rewrite Eb, E5. split; [apply answer_all_ok; [exact P1|discriminate]|]. split.
    - apply answer_all_ok; [exact P2|]. intros _ e d I E. apply write_all_some in E. destruct E as [E|(e' & I' & <-)].
      + split; [rewrite (odata_node _ _ _ G) in E; eapply odata_bytes; eauto|eapply Sh; eauto].
      + rewrite Forall_forall in P1. apply P1 in I'. destruct I' as (_ & B & L). split; [apply bytes_of_vals; exact B|unfold len; lia].
    - split; apply answer_all_len; eapply verdicts_len; eauto. }
  pose proof (answer_frame_ok f all _ b Hf Ea Hb) as OK.
  pose proof (ef_answer _ _ _ _ _ _ _ _ _ _ EF) as RA. rewrite Ea in RA.
  rewrite (answer_bytes f all _ b _ Hf Ea Hb) in RA. unfold reply in *. rewrite E5 in OK, RA.
  split; [exact OK|exact RA].
Qed.

Lemma has_object_some : forall n code, has_object n code -> exists o, uecho_node_getobjectbycode n code = Some o.
Proof. intros n code H. unfold has_object in H. destruct (uecho_node_getobjectbycode n code); [eauto|contradiction]. Qed.

Lemma data_object : forall n code c, node_data n code c <> None -> has_object n code.
Proof. intros n code c H. unfold node_data, has_object in *. destruct (uecho_node_getobjectbycode n code); [discriminate|contradiction]. Qed.

Lemma consulted_call : forall o esv ps segs x, Forall2 (consulted o esv) ps segs -> In x (concat segs) ->
  hc_esv (fst x) = esv /\ In (p_code (hc_prop (fst x))) (map fst ps) /\ hc_object (fst x) = uecho_object_getcode o.
Proof.
  intros o esv ps segs x F. induction F as [|e seg ps segs H F IH]; cbn [concat map In]; [tauto|]. intros I.
  apply in_app_or in I. destruct I as [I|I]; [|destruct (IH I) as (A & B & C); auto].
  unfold consulted in H. destruct (uecho_object_getproperty o (fst e)); [|subst; contradiction].
  destruct H as [_ H]. rewrite Forall_forall in H. destruct (H _ I) as (A & B & C & D). rewrite C. auto.
Qed.

Lemma rejected_seg : forall o esv ps segs x, Forall2 (consulted o esv) ps segs -> NoDup (map fst ps) ->
  In x (concat segs) -> snd x = false ->
  Forall (fun y => fst (fst y) = p_code (hc_prop (fst x)) -> snd y = false) (combine ps (verdicts o ps segs)).
Proof.
  intros o esv ps segs x F. induction F as [|e seg ps segs H F IH]; cbn [concat]; [constructor|].
  intros ND I Ex. cbn [map] in ND. inversion ND as [|? ? N1 N2]; subst. unfold verdicts in *. cbn [combine map fst snd].
  apply in_app_or in I. destruct I as [I|I].
  - assert (C : p_code (hc_prop (fst x)) = fst e /\ verdict o e seg = false).
    { unfold consulted, verdict in *. destruct (uecho_object_getproperty o (fst e)); [|subst; contradiction].
      destruct H as [_ H]. rewrite Forall_forall in H. split; [apply (H _ I)|].
      destruct (forallb snd seg) eqn:E; [|reflexivity]. rewrite forallb_forall in E. rewrite (E _ I) in Ex. discriminate. }
    destruct C as [C V]. constructor; [cbn [fst snd]; intros _; exact V|].
    apply Forall_forall. intros y Iy Ey. exfalso. apply N1. rewrite <- C, <- Ey. apply in_map. eapply combine_len_in; exact Iy.
  - constructor; [|apply IH; auto]. cbn [fst snd]. intros Ec. exfalso. apply N1. rewrite Ec. apply (consulted_call _ _ _ _ _ F I).
Qed.

Lemma missing_rejected : forall o ps segs c, odata o c = None ->
  Forall (fun y => fst (fst y) = c -> snd y = false) (combine ps (verdicts o ps segs)).
Proof.
  intros o ps segs c N. revert segs. induction ps as [|e ps IH]; intros [|seg segs]; try constructor.
  - cbn [fst snd]. intros E. unfold verdict. subst c. unfold odata in N. destruct (uecho_object_getproperty o (fst e)); [discriminate|reflexivity].
  - apply IH.
Qed.

Lemma rejected_in : forall o esv ps segs, Forall2 (consulted o esv) ps segs ->
  (exists e, In e ps /\ odata o (fst e) = None) \/ (exists x, In x (concat segs) /\ snd x = false) ->
  In false (verdicts o ps segs).
Proof.
  intros o esv ps segs F H. apply (not_all_false _ ps); [eapply verdicts_len; exact F|]. intros V.
  apply (verdicts_all _ _ _ _ F) in V. destruct V as [V1 V2]. rewrite Forall_forall in V1, V2.
  destruct H as [(e & I & E)|(x & I & E)]; [apply (V1 _ I E)|rewrite (V2 _ I) in E; discriminate].
Qed.

(* all the properties of a request *)
Definition body_props (b : body) : list epair := match b with Plain ps => ps | SetGetBody s g => s ++ g end.

(* something is refused: a property the object does not have, or a handler that disagrees *)
Definition refused (n : node) (f : frame) (r : reaction) : Prop :=
  (exists e, In e (body_props (f_body f)) /\ node_data n (dest f) (fst e) = None)
  \/ (exists x, In x (r_calls r) /\ snd x = false).

Lemma refused_all : forall le net dec n f rest la ra r o ns b all,
  receives le net dec n f rest la ra r -> uecho_node_getobjectbycode n (dest f) = Some o ->
  match f_body f with
  | Plain ps => exists segs, plain_effect n (dest f) (f_esv f) o ps segs r ns b all
  | SetGetBody s g => exists segs1 segs2, setget_effect n (dest f) o s g segs1 segs2 r ns b all
  end -> refused n f r -> all = false.
Proof.
  intros le net dec n f rest la ra r o ns b all R G X H. unfold refused in H.
  destruct (f_body f) as [ps|s g] eqn:Eb; cbn [body_props] in H.
  - destruct X as (segs & E1 & E2 & _ & _ & E5 & _). rewrite E5.
    assert (I : In false (verdicts o ps segs)).
    { eapply rejected_in; [exact E2|]. rewrite E1 in H. destruct H as [(e & I & E)|H]; [left|right; exact H].
      rewrite (odata_node _ _ _ G) in E. eauto. }
    apply one_lt in I. pose proof (verdicts_len _ _ _ _ E2). unfold len in *. lia.
  - destruct X as (s1 & s2 & E1 & E2 & E3 & _ & _ & E6 & _). rewrite E6.
    pose proof (verdicts_len _ _ _ _ E2). pose proof (verdicts_len _ _ _ _ E3).
    pose proof (one_le (verdicts o s s1)). pose proof (one_le (verdicts o g s2)).
    assert (I : In false (verdicts o s s1) \/ In false (verdicts o g s2)).
    { destruct H as [(e & I & E)|(x & I & E)].
      - rewrite (odata_node _ _ _ G) in E. apply in_app_or in I. destruct I as [I|I]; [left|right]; eapply rejected_in; eauto.
      - rewrite E1 in I. apply in_app_or in I. destruct I as [I|I]; [left|right]; eapply rejected_in; eauto. }
    destruct I as [I|I]; apply one_lt in I; unfold len in *; lia.
Qed.

Lemma enc_props_bytes : forall ps, eprops_ok ps -> bytes_ok (enc_props ps).
Proof.
  intros ps [H L]. unfold enc_props. apply bytes_ok_cons. split; [unfold is_byte; lia|]. clear L.
  induction ps as [|e ps IH]; [constructor|]. inversion H as [|? ? (Hc & Hd & Hl) Hr]; subst. cbn [map concat]. unfold enc_prop at 1.
  cbn [app]. apply bytes_ok_cons. split; [apply is_byte_val; exact Hc|]. apply bytes_ok_cons. split; [unfold is_byte; lia|].
  apply bytes_ok_app. split; [apply bytes_of_vals; exact Hd|apply IH; exact Hr].
Qed.

Lemma enc_frame_bytes : forall f, frame_ok f -> bytes_ok (enc_frame f).
Proof.
  intros [[t0 t1] [[s0 s1] s2] [[d0 d1] d2] esv b] (T0 & T1 & (S0 & S1 & S2) & (D0 & D1 & D2) & He & Hb).
  rewrite <- !is_byte_val in *. unfold enc_frame. cbn [f_tid f_seoj f_deoj f_esv f_body fst snd enc_eoj app] in *.
  repeat (apply bytes_ok_cons; split; [assumption || (unfold is_byte; lia)|]).
  destruct b as [ps|s g]; cbn [body_ok enc_body] in *; [apply enc_props_bytes; tauto|].
  apply bytes_ok_app. split; apply enc_props_bytes; tauto.
Qed.
