(* C91: what uechosearch -v and uechobench -v show is what the devices have. *)
From Coq Require Import String ZArith List Bool Lia ZifyBool ZifyNat.
From Verif Require Import CSem M_Const M_Misc M_Property M_Message M_PropertyList M_Object M_Node M_NodeListener M_Controller M_Query M_PostTool M_ShowTool M_Verbose
  StdDB_Data M_Std Spec_Frame Spec_Message Spec_Map Spec_Object Spec_Node Spec_Request Spec_Controller Spec_ShowTool Spec_Verbose Run_Object Run_Node
  Run_Controller P_Base P_Misc P_Message P_Encode P_MsgApi P_PropertyList P_Object P_ObjectRun P_ObjectReach P_Std P_Node
  P_Request Properties_Object P_NodeReach P_NodeProfile P_NodeInv P_NodeRun P_NodeProps P_RequestProps P_RequestApi P_NodeSafe
  P_Shadow P_Controller P_ControllerProps Properties_Message Properties_Node Properties_Request Properties_Controller P_EndToEnd
  Properties_EndToEnd Properties_System Properties_Query Spec_CtrlBound P_CtrlSafe P_CtrlBound Properties_CtrlBound P_Owned P_ShowTool Properties_ShowTool P_Verbose P_VerboseRun P_VerboseTid M_Bench Spec_Bench Properties_Verbose Properties_Bench Spec_Told.
From Verif Require P_Lookup.
Import ListNotations.
Open Scope Z_scope.
Ltac Zify.zify_post_hook ::= Z.div_mod_to_equations.

(* ---- the answer of a device ---- *)
Lemma device_says : forall le net dec d t e epc la from r, api_node le net std_db d ->
  (forall code epc v, holds d code epc = Some [v] -> (length v <= 255)%nat) -> frame_ok (get_frame t e epc) ->
  node_receive le net dec d (enc_frame (get_frame t e epc)) la (Some from) = Ok r -> agreed r ->
  match holds d (eoj_code e) epc with
  | None => r_answer r = []
  | Some vs => exists g, r_answer r = [PSend from (enc_frame g)] /\ frame_ok g /\ f_tid g = t /\ f_esv g <> 98 /\ values g = vs
      /\ f_seoj g = e /\ f_deoj g = node_profile_eoj /\ (exists v, f_body g = Plain [(epc, v)]) /\ (f_esv g = 114 \/ f_esv g = 82)
  end.
Proof.
  intros le net dec d t e epc la from r Hn Sh Hf R Ag. set (q := get_frame t e epc) in *.
  assert (Rv : receives le net dec d q [] la (Some from) r).
  { split; [exact Hn|]. split; [exact Hf|]. rewrite app_nil_r. split; [apply frame_buffer; exact Hf|exact R]. }
  unfold holds. change (eoj_code e) with (dest q). destruct (uecho_node_getobjectbycode d (dest q)) as [o|] eqn:G.
  - assert (Q : request_esv (f_esv q)) by (cbn; tauto).
    assert (Nd : forall c, node_data d (dest q) c = odata o c) by (exact (odata_node _ _ _ G)).
    destruct (plain_answer _ _ _ _ _ _ _ _ _ [(epc, [])] o Rv G Q eq_refl) as (segs & E1 & F2 & _ & Hq & A).
    { intros _ x v _ E. unfold len. rewrite Nd in E. unfold odata in E. specialize (Sh (dest q) (fst x) v). unfold holds in Sh. rewrite G in Sh.
      destruct (uecho_object_getproperty o (fst x)); [|discriminate]. cbn [option_map] in E. injection E as <-. specialize (Sh eq_refl). lia. }
    cbv zeta in A, Hq. inversion F2 as [|? seg ? segs' Cs F2']; subst. inversion F2'; subst. cbn [concat] in E1. rewrite app_nil_r in E1.
    assert (V : verdicts o [(epc, [])] [seg] = [match uecho_object_getproperty o epc with Some _ => true | None => false end]).
    { unfold verdicts. cbn [combine map fst snd]. unfold verdict. cbn [fst]. destruct (uecho_object_getproperty o epc); [|reflexivity].
      unfold agreed in Ag. rewrite E1 in Ag. rewrite (proj2 (forallb_forall snd seg)); [reflexivity|]. rewrite Forall_forall in Ag. exact Ag. }
    rewrite V in A, Hq. unfold answer_all in A, Hq. cbn [combine map fst snd] in A, Hq. unfold answer_pair in A, Hq. cbn [fst snd] in A, Hq.
    rewrite Nd in A, Hq. unfold odata in A, Hq.
    change (read_esv (f_esv q)) with true in A, Hq. change (f_esv q =? 97) with false in A, Hq.
    assert (Hg : forall esv v, byte_val esv -> ~ two_lists esv -> epair_ok (epc, v) -> frame_ok (mkFrame (f_tid q) (f_deoj q) (f_seoj q) esv (Plain [(epc, v)]))).
    { intros esv v Be Nt Hv. destruct Hf as (H1 & H2 & H3 & H4 & H5 & H6). split; [exact H1|]. split; [exact H2|]. split; [exact H4|]. split; [exact H3|].
      split; [exact Be|]. cbn [f_body f_esv]. split; [exact Nt|]. split; [constructor; [exact Hv|constructor]|cbn; lia]. }
    inversion Hq as [|? ? Hv _]; subst.
    destruct (uecho_object_getproperty o epc) as [p|] eqn:Ev.
    + eexists. split; [exact A|]. split; [apply Hg; [unfold byte_val; vm_compute; split; congruence|unfold two_lists; vm_compute; intuition congruence|exact Hv]|].
      split; [reflexivity|]. split; [vm_compute; congruence|]. split; [reflexivity|].
      split; [reflexivity|]. split; [reflexivity|]. split; [eexists; reflexivity|vm_compute; auto].
    + eexists. split; [exact A|]. split; [apply Hg; [unfold byte_val; vm_compute; split; congruence|unfold two_lists; vm_compute; intuition congruence|exact Hv]|].
      split; [reflexivity|]. split; [vm_compute; congruence|]. split; [reflexivity|].
      split; [reflexivity|]. split; [reflexivity|]. split; [eexists; reflexivity|vm_compute; auto].
  - destruct (C25_ignored le net dec d (enc_frame q) la (Some from) Hn (frame_buffer _ Hf)) as (r' & E & _ & _ & A & _).
    + intros f rest D. rewrite <- (app_nil_r (enc_frame q)) in D. rewrite dec_enc in D; [|exact Hf|rewrite app_nil_r; apply frame_buffer; exact Hf].
      injection D as <- <-. right. unfold has_object. rewrite G. tauto.
    + rewrite R in E. injection E as <-. exact A.
Qed.

Lemma enc_inj : forall f g rest, frame_ok f -> frame_ok g -> enc_frame f = enc_frame g ++ rest -> f = g.
Proof.
  intros f g rest Hf Hg E. pose proof (frame_buffer _ Hf) as Hb.
  assert (D1 : dec_frame (enc_frame f ++ []) = Some (f, [])) by (apply dec_enc; [exact Hf|rewrite app_nil_r; exact Hb]).
  assert (D2 : dec_frame (enc_frame g ++ rest) = Some (g, rest)) by (apply dec_enc; [exact Hg|rewrite <- E; exact Hb]).
  rewrite app_nil_r, E, D2 in D1. injection D1 as <- _. reflexivity.
Qed.

(* the frames with the transaction id of the request are just the answer of the device *)
Lemma served_answer : forall d t e epc w, frame_ok (get_frame t e epc) -> serves d (enc_frame (get_frame t e epc)) w ->
  match holds d (eoj_code e) epc with
  | None => forall f, ~ answer w t f
  | Some vs => (exists f, answer w t f) /\ forall f, answer w t f -> values f = vs
  end.
Proof.
  intros d t e epc w Hf (le & net & dec & la & from & r & Hn & Sh & R & Ag & Come & Only).
  pose proof (device_says le net dec d t e epc la from r Hn Sh Hf R Ag) as S.
  destruct (holds d (eoj_code e) epc) as [vs|].
  - destruct S as (g & A & Hg & Tg & Eg & Vg & _). rewrite A in *. cbn [map data_of In] in *. split.
    + destruct (Come _ (or_introl eq_refl)) as (x & Ix & Dx). exists g, x, []. rewrite app_nil_r. auto.
    + intros f (x & rest & Ix & Dx & Hfx & Tf & Ef). destruct (Only (get_frame t e epc) x f rest eq_refl Ix Dx Hfx Tf Ef) as [E|[]].
      rewrite Dx in E. apply enc_inj in E; [subst; reflexivity|exact Hg|exact Hfx].
  - intros f (x & rest & Ix & Dx & Hfx & Tf & Ef). pose proof (Only (get_frame t e epc) x f rest eq_refl Ix Dx Hfx Tf Ef) as X.
    rewrite S in X. exact X.
Qed.
Lemma holds_one : forall d code epc vs, holds d code epc = Some vs -> exists v, vs = [v].
Proof. intros d code epc vs E. unfold holds in E. destruct (uecho_node_getobjectbycode d code); [|discriminate]. injection E as <-. eauto. Qed.

Lemma one_tells : forall m w dn s t (d : devices_at), one w dn s t -> (m = true \/ forall a, ~ In (IDevice a) dn) -> (forall a bytes, s = [PSend a bytes] -> serves (d a) bytes w) ->
  forall ds l v, tells m ds l v -> tells m (d :: ds) (dn ++ l) (t ++ v).
Proof.
  intros m w dn s t d O Hm Sv ds l v T. destruct O as [|j code|a t0 man Fk Mb|a j k e epc t0 dt Fk Pr]; cbn [app].
  - apply tells_skip. exact T.
  - apply tells_object. exact T.
  - destruct Hm as [->|Hm]; [|destruct (Hm _ (or_introl eq_refl))].
    assert (E : man = maker (d a)); [|rewrite E; apply (tells_device true d ds (Some a)); exact T].
    pose proof (served_answer _ _ _ _ _ Fk (Sv _ _ eq_refl)) as S. change (eoj_code node_profile_eoj) with 978945 in S. unfold maker.
    destruct (holds (d a) 978945 138) as [vs|] eqn:Eh.
    + destruct (holds_one _ _ _ _ Eh) as [v0 ->]. destruct S as [[f Af] Only]. destruct man as [m0|]; cbn [made_by] in Mb.
      * destruct Mb as (f' & v1 & Af' & Vf & ->). rewrite (Only _ Af') in Vf. injection Vf as <-. reflexivity.
      * destruct Mb as [No|(f' & Af' & Nl)]; [destruct (No _ Af)|]. rewrite (Only _ Af') in Nl. destruct Nl. reflexivity.
    + destruct man as [m0|]; [|reflexivity]. destruct Mb as (f' & v1 & Af' & _). destruct (S _ Af').
  - assert (E : dt = holds (d a) (eoj_code e) epc); [|rewrite E; apply tells_value; exact T].
    pose proof (served_answer _ _ _ _ _ Fk (Sv _ _ eq_refl)) as S.
    destruct (holds (d a) (eoj_code e) epc) as [vs|]; destruct dt as [vs'|]; cbn [printed] in Pr.
    + destruct S as [_ Only]. destruct Pr as (f & Af & ->). rewrite (Only _ Af). reflexivity.
    + destruct S as [[f Af] _]. destruct (Pr _ Af).
    + destruct Pr as (f & Af & _). destruct (S _ Af).
    + reflexivity.
Qed.
Lemma bone_tells : forall w dn s t (d : devices_at), bone w dn s t -> (forall a bytes, s = [PSend a bytes] -> serves (d a) bytes w) ->
  forall ds l v, tells false ds l v -> tells false (d :: ds) (dn ++ l) (t ++ v).
Proof.
  intros w dn s t d [a|dn' s' t' O N] Sv ds l v T; [exact (tells_device false d ds a l v T)|].
  exact (one_tells false w dn' s' t' d O (or_intror N) Sv ds l v T).
Qed.

Section T.
Variable le : bool.
Variable net snet : post -> bool.
Hypothesis up : forall a b, net (PSend a b) = true.
Local Notation vinv := (vinv le net snet).

Lemma run_tells : forall ws ds c p c' p' s t, vinv c -> valid (seen c) p -> Forall (Forall arrival_ok) ws -> Forall (Forall (quiet (seen c))) ws ->
  served (vstep le net snet std_db) c p ds ws -> vrun le net snet std_db c p ws = Ok (c', p', s, t) ->
  exists dn, plan (seen c) p = dn ++ plan (seen c) p' /\ tells true ds dn t.
Proof.
  induction ws as [|w ws IH]; intros [|d ds] c p c' p' s t V Vp A Q Sv E; cbn [vrun served] in *; try contradiction.
  - injection E as <- <- <- <-. exists []. split; [reflexivity|constructor].
  - inversion A as [|? ? A1 A2]; subst. inversion Q as [|? ? Q1 Q2]; subst. apply bind_ok in E. destruct E as ([[[c1 p1] s1] t1] & E1 & E).
    apply bind_ok in E. destruct E as ([[[c2 p2] s2] t2] & E2 & E). injection E as <- <- <- <-.
    destruct (step_ok le net snet up c p w V Vp A1 Q1) as [K _]. destruct (K _ E1) as (V1 & S1 & Vp1 & N1 & dn & P1 & O1).
    destruct (Sv _ _ _ _ E1) as [Sv1 Sv2].
    destruct (IH ds _ _ _ _ _ _ V1 ltac:(rewrite S1; exact Vp1) A2 ltac:(rewrite S1; exact Q2) Sv2 E2) as (dn2 & P2 & T2). rewrite S1 in P2.
    exists (dn ++ dn2). split; [rewrite P1, P2, app_assoc; reflexivity|]. exact (one_tells true _ _ _ _ d O1 (or_introl eq_refl) Sv1 _ _ _ T2).
Qed.
Lemma brun_tells : forall ws ds c p c' p' s t, vinv c -> bvalid (seen c) p -> Forall (Forall arrival_ok) ws -> Forall (Forall (quiet (seen c))) ws ->
  served (bstep le net snet std_db) c p ds ws -> brun le net snet std_db c p ws = Ok (c', p', s, t) ->
  exists dn, bplan (seen c) p = dn ++ bplan (seen c) p' /\ tells false ds dn t.
Proof.
  induction ws as [|w ws IH]; intros [|d ds] c p c' p' s t V Vp A Q Sv E; cbn [brun served] in *; try contradiction.
  - injection E as <- <- <- <-. exists []. split; [reflexivity|constructor].
  - inversion A as [|? ? A1 A2]; subst. inversion Q as [|? ? Q1 Q2]; subst. apply bind_ok in E. destruct E as ([[[c1 p1] s1] t1] & E1 & E).
    apply bind_ok in E. destruct E as ([[[c2 p2] s2] t2] & E2 & E). injection E as <- <- <- <-.
    destruct (bstep_ok le net snet up c p w V Vp A1 Q1) as (c3 & p3 & s3 & t3 & E3 & V1 & Se & Vp1 & _ & dn & P1 & O1).
    rewrite E1 in E3. injection E3 as <- <- <- <-. destruct (Sv _ _ _ _ E1) as [Sv1 Sv2].
    destruct (IH ds _ _ _ _ _ _ V1 ltac:(rewrite Se; exact Vp1) A2 ltac:(rewrite Se; exact Q2) Sv2 E2) as (dn2 & P2 & T2). rewrite Se in P2.
    exists (dn ++ dn2). split; [rewrite P1, P2, app_assoc; reflexivity|]. exact (bone_tells _ _ _ _ d O1 Sv1 _ _ _ T2).
Qed.
End T.

Lemma tells_truth : forall m d ds l v, tells m ds l v -> Forall (eq d) ds -> v = map (truth m d) l.
Proof.
  intros m d ds l v T. induction T; intros F; [reflexivity|..]; inversion F; subst; cbn [map truth]; [auto|f_equal; auto..].
Qed.
Lemma all_same : forall (A : Type) (d : A) n, Forall (eq d) (repeat d n).
Proof. intros A d n. apply Forall_forall. intros x I. apply repeat_spec in I. auto. Qed.

(* uechosearch -v: when each request is answered by the device asked, each line tells what that device has at that step. *)
Theorem C91_told : forall le net snet c0 arr c ds ws c' p s t,
  (forall a b, net (PSend a b) = true) -> new_ctrl le net std_db c0 -> Forall arrival_ok arr ->
  crun le net snet std_db c0 (uechosearch_calls arr) c ->
  Forall (Forall arrival_ok) ws -> Forall (Forall (quiet (seen c))) ws ->
  served (vstep le net snet std_db) c (AtNode 0) ds ws ->
  vrun le net snet std_db c (AtNode 0) ws = Ok (c', p, s, t) ->
  exists done rest, agenda (seen c) = done ++ rest /\ tells true ds done t
  /\ ((steps_of (seen c) <= length ws)%nat -> rest = []).
Proof.
  intros le net snet c0 arr c ds ws c' p s t up H0 F R A Q Sv E. pose proof (search_vinv le net snet c0 arr c H0 F R) as V.
  destruct (run_tells le net snet up ws ds c (AtNode 0) c' p s t V I A Q Sv E) as (dn & P & T).
  destruct (run_ok le net snet up ws c (AtNode 0) c' p s t V I A Q E) as (_ & _ & Vp & _ & L).
  exists dn, (plan (seen c) p). split; [exact P|]. split; [exact T|]. intros G. rewrite all_steps in L.
  rewrite (nothing_left (seen c) p Vp); [reflexivity|lia].
Qed.
Print Assumptions C91_told.

(* When the devices stay as they are, the whole list printed is the truth about them. *)
Theorem C91_true : forall le net snet c0 arr c d ws c' p s t,
  (forall a b, net (PSend a b) = true) -> new_ctrl le net std_db c0 -> Forall arrival_ok arr ->
  crun le net snet std_db c0 (uechosearch_calls arr) c ->
  Forall (Forall arrival_ok) ws -> Forall (Forall (quiet (seen c))) ws ->
  served (vstep le net snet std_db) c (AtNode 0) (repeat d (length ws)) ws ->
  vrun le net snet std_db c (AtNode 0) ws = Ok (c', p, s, t) -> (steps_of (seen c) <= length ws)%nat ->
  t = map (truth true d) (agenda (seen c)).
Proof.
  intros le net snet c0 arr c d ws c' p s t up H0 F R A Q Sv E L.
  destruct (C91_told le net snet c0 arr c _ ws c' p s t up H0 F R A Q Sv E) as (dn & rest & P & T & G).
  rewrite (G L), app_nil_r in P. rewrite P. exact (tells_truth _ _ _ _ _ T (all_same _ _ _)).
Qed.
Print Assumptions C91_true.

(* uechobench -v: so it is in every round. *)
Theorem C91_bench : forall le net snet c0 arr c n d ws,
  (forall a b, net (PSend a b) = true) -> new_ctrl le net std_db c0 -> Forall arrival_ok arr ->
  crun le net snet std_db c0 (uechosearch_calls arr) c -> seen c <> [] ->
  Forall (Forall arrival_ok) ws -> Forall (Forall (quiet (seen c))) ws ->
  served (bstep le net snet std_db) c (bench_start c n) (repeat d (length ws)) ws ->
  n mod 18446744073709551616 * Z.of_nat (steps_of (seen c)) <= Z.of_nat (length ws) ->
  exists c' p s, brun le net snet std_db c (bench_start c n) ws
    = Ok (c', p, s, map (truth false d) (rounds (n mod 18446744073709551616) (agenda (seen c)))).
Proof.
  intros le net snet c0 arr c n d ws up H0 F R Ne A Q Sv L. pose proof (search_vinv le net snet c0 arr c H0 F R) as V.
  destruct (C90_asks le net snet c0 arr c n ws up H0 F R Ne A Q) as (c' & p & s & t & _ & _ & E & _ & _ & _ & G). apply G in L.
  exists c', p, s. rewrite E. do 2 f_equal.
  assert (St : bench_start c n = next_round (n mod 18446744073709551616, AtEnd)).
  { unfold bench_start. destruct (c_nodes c) eqn:En; [unfold seen in Ne; rewrite En in Ne; destruct (Ne eq_refl)|reflexivity]. }
  assert (Hk : 0 <= n mod 18446744073709551616) by (apply Z.mod_pos_bound; reflexivity). rewrite St in *.
  destruct (next_ok (seen c) _ Hk) as (N1 & N2 & _).
  destruct (brun_tells le net snet up ws _ c _ c' p s t V N1 A Q Sv E) as (dn & P & T). rewrite N2 in P.
  destruct (brun_ok le net snet up ws c _ V N1 A Q) as (c2 & p2 & s2 & t2 & E2 & Vp & _). rewrite E in E2. injection E2 as <- <- <- <-.
  destruct p as [k q]. cbn [snd] in L. subst q. destruct Vp as (_ & _ & Hz). cbn [fst snd] in Hz. rewrite (Hz eq_refl) in P.
  unfold bplan in P. cbn [fst snd plan] in P. change (rounds 0 (agenda (seen c))) with (@nil item) in P. cbn [app] in P. rewrite app_nil_r in P. rewrite P.
  exact (tells_truth _ _ _ _ _ T (all_same _ _ _)).
Qed.
Print Assumptions C91_bench.

(* ---- examples ---- *)
(* the device of Properties_Node at the address [there] answers everything at once *)
Definition answers_to (d : node) (s : list post) : list arrival :=
  match s with
  | [PSend _ b] => match node_receive true net_up yes d b here (Some "192.168.1.2"%string) with
                   | Ok r => map (fun p => mkArr (data_of p) here there yes fr0) (r_answer r)
                   | Undef _ => [] end
  | _ => []
  end.
Section D.
Context {P : Type}.
Variable step : ctrl -> P -> list arrival -> res (ctrl * P * list post * list vline).
Fixpoint drive (d : node) (n : nat) (c : ctrl) (p : P) : list (list arrival) :=
  match n with
  | O => []
  | S n' =>
      match step c p [] with
      | Ok (_, _, s, _) =>
          let w := answers_to d s in
          match step c p w with Ok (c1, p1, _, _) => w :: drive d n' c1 p1 | Undef _ => [w] end
      | Undef _ => []
      end
  end.
Fixpoint servedb (d : node) (c : ctrl) (p : P) (ws : list (list arrival)) : bool :=
  match ws with
  | [] => true
  | w :: ws' =>
      match step c p w with
      | Ok (c1, p1, s, _) =>
          match s with
          | [PSend _ b] => match node_receive true net_up yes d b here (Some "192.168.1.2"%string) with
                           | Ok r => forallb snd (r_calls r) && (if list_eq_dec (list_eq_dec Z.eq_dec) (map ar_data w) (map data_of (r_answer r)) then true else false)
                           | Undef _ => false end
          | _ => true
          end && servedb d c1 p1 ws'
      | Undef _ => false
      end
  end.
Lemma served_is : forall d ws c p, api_node true net_up std_db d -> (forall code epc v, holds d code epc = Some [v] -> (length v <= 255)%nat) ->
  servedb d c p ws = true -> served step c p (repeat (fun _ => d) (length ws)) ws.
Proof.
  intros d ws. induction ws as [|w ws IH]; intros c p Hn Sh B; cbn [length repeat served]; [exact I|]. cbn [servedb] in B.
  intros c1 p1 s t E. rewrite E in B. apply andb_prop in B. destruct B as [B1 B2]. split; [|exact (IH c1 p1 Hn Sh B2)].
  intros a b ->. destruct (node_receive true net_up yes d b here (Some "192.168.1.2"%string)) as [r|] eqn:R; [|discriminate].
  apply andb_prop in B1. destruct B1 as [B1 B3]. destruct (list_eq_dec (list_eq_dec Z.eq_dec) (map ar_data w) (map data_of (r_answer r))) as [Eq|]; [|discriminate].
  exists true, net_up, yes, here, "192.168.1.2"%string, r. split; [exact Hn|]. split; [exact Sh|]. split; [exact R|]. split.
  { apply Forall_forall. apply forallb_forall. exact B1. }
  rewrite <- Eq. split.
  - intros x Ix. apply in_map_iff in Ix. destruct Ix as (y & <- & Iy). eauto.
  - intros q x f rest _ Ix _ _ _ _. apply in_map. exact Ix.
Qed.
End D.
Lemma short_is : forall d, forallb (fun o => forallb (fun p => (length (p_data p) <=? 255)%nat) (o_props o)) (n_objs d) = true ->
  forall code epc v, holds d code epc = Some [v] -> (length v <= 255)%nat.
Proof.
  intros d B code epc v E. unfold holds in E. destruct (uecho_node_getobjectbycode d code) as [o|] eqn:G; [|discriminate].
  apply P_Node.getbycode_in in G. destruct G as [_ Io]. destruct (uecho_object_getproperty o epc) as [p|] eqn:Gp; injection E as <-; [|cbn; lia].
  apply find_code in Gp. destruct Gp as [_ Ip]. rewrite forallb_forall in B. specialize (B _ Io). rewrite forallb_forall in B. specialize (B _ Ip).
  apply Nat.leb_le. exact B.
Qed.
Lemma node2_short : forall code epc v, holds node2 code epc = Some [v] -> (length v <= 255)%nat.
Proof. apply short_is. vm_compute. reflexivity. Qed.

Definition told_waits : list (list arrival) := drive (vstep true net_up net_down std_db) node2 132 (cafter search_one) (AtNode 0).
Lemma ok_all : forall ws, forallb (forallb (fun x => got_ok x)) ws = true -> (forall w x, In w ws -> In x w -> ar_fr x = fr0) -> Forall (Forall arrival_ok) ws.
Proof.
  intros ws B F. rewrite forallb_forall in B. apply Forall_forall. intros w Iw. specialize (B _ Iw). rewrite forallb_forall in B. apply Forall_forall.
  intros x Ix. apply arrival_is; [exact (F _ _ Iw Ix)|exact (B _ Ix)].
Qed.
Lemma answers_fr : forall d s x, In x (answers_to d s) -> ar_fr x = fr0.
Proof.
  intros d s x I. unfold answers_to in I. destruct s as [|[b|a b] [|q s]]; try contradiction.
  destruct (node_receive true net_up yes d b here (Some "192.168.1.2"%string)); [|contradiction].
  apply in_map_iff in I. destruct I as (p & <- & _). reflexivity.
Qed.
Lemma drive_fr : forall (P : Type) (step : ctrl -> P -> list arrival -> res (ctrl * P * list post * list vline)) d n c p w x,
  In w (drive step d n c p) -> In x w -> ar_fr x = fr0.
Proof.
  intros P step d n. induction n as [|n IH]; intros c p w x I J; cbn [drive] in I; [contradiction|].
  destruct (step c p []) as [[[[c1 p1] s] t]|]; [|contradiction]. destruct (step c p (answers_to d s)) as [[[[c2 p2] s2] t2]|].
  - destruct I as [<-|I]; [exact (answers_fr _ _ _ J)|exact (IH _ _ _ _ I J)].
  - destruct I as [<-|[]]. exact (answers_fr _ _ _ J).
Qed.
Lemma told_ok : Forall (Forall arrival_ok) told_waits.
Proof.
  apply ok_all; [vm_compute; reflexivity|]. unfold told_waits. generalize (cafter search_one) (AtNode 0). intros c p w x. apply drive_fr.
Qed.
Example C91_example : crun true net_up net_down std_db ctrl0 (uechosearch_calls [got two_listed]) (cafter search_one)
  /\ Forall (Forall arrival_ok) told_waits /\ Forall (Forall (quiet (seen (cafter search_one)))) told_waits
  /\ served (vstep true net_up net_down std_db) (cafter search_one) (AtNode 0) (repeat (fun _ => node2) (length told_waits)) told_waits
  /\ length told_waits = steps_of (seen (cafter search_one))
  /\ match vshow told_waits with
     | Ok (p, t) => p = AtEnd /\ firstn 5 t = [VDevice (Some there) (Some 0); VObject 0 978945; VValue 0 0 128 (Some [[48]]); VValue 0 1 129 (Some [[]]);
                      VValue 0 2 130 (Some [[1; 13; 0; 16]])] /\ In (VValue 0 28 214 (Some [[2; 1; 48; 1; 2; 145; 1]])) t
     | Undef _ => False
     end.
Proof.
  split; [exact search_one_run|]. split; [exact told_ok|]. split.
  { apply (all_is _ (quietb (seen (cafter search_one)))); [|exact told_ok|vm_compute; reflexivity]. intros x (B & _) Q. apply quiet_is; assumption. }
  split.
  { assert (B : servedb (vstep true net_up net_down std_db) node2 (cafter search_one) (AtNode 0) told_waits = true) by (vm_compute; reflexivity).
    revert B. generalize told_waits (cafter search_one) (AtNode 0). intros ws c p B. apply served_is; [exact node2_api|exact node2_short|exact B]. }
  split; [vm_compute; reflexivity|]. vm_compute. split; [reflexivity|]. split; [reflexivity|]. tauto.
Qed.
Definition told_rounds : list (list arrival) := drive (bstep true net_up net_down std_db) node2 264 (cafter search_one) (bench_start (cafter search_one) 2).
Lemma rounds_ok : Forall (Forall arrival_ok) told_rounds.
Proof.
  apply ok_all; [vm_compute; reflexivity|]. unfold told_rounds. generalize (cafter search_one) (bench_start (cafter search_one) 2). intros c p w x. apply drive_fr.
Qed.
Example C91_bench_example : seen (cafter search_one) <> []
  /\ Forall (Forall arrival_ok) told_rounds /\ Forall (Forall (quiet (seen (cafter search_one)))) told_rounds
  /\ served (bstep true net_up net_down std_db) (cafter search_one) (bench_start (cafter search_one) 2) (repeat (fun _ => node2) (length told_rounds)) told_rounds
  /\ 2 mod 18446744073709551616 * Z.of_nat (steps_of (seen (cafter search_one))) = Z.of_nat (length told_rounds).
Proof.
  split; [intros E; apply (f_equal (@length _)) in E; vm_compute in E; discriminate E|]. split; [exact rounds_ok|]. split.
  { apply (all_is _ (quietb (seen (cafter search_one)))); [|exact rounds_ok|vm_compute; reflexivity]. intros x (B & _) Q. apply quiet_is; assumption. }
  split; [|vm_compute; reflexivity].
  assert (B : servedb (bstep true net_up net_down std_db) node2 (cafter search_one) (bench_start (cafter search_one) 2) told_rounds = true) by (vm_compute; reflexivity).
  revert B. generalize told_rounds (cafter search_one) (bench_start (cafter search_one) 2). intros ws c p B. apply served_is; [exact node2_api|exact node2_short|exact B].
Qed.
