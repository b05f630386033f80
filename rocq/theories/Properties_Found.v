(* C92: uechosearch among devices of this library. *)
From Coq Require Import String ZArith List Bool Lia ZifyBool ZifyNat.
From Verif Require Import CSem M_Const M_Misc M_Property M_Message M_PropertyList M_Object M_Node M_NodeListener M_Controller M_Query M_PostTool M_ShowTool M_Verbose
  StdDB_Data M_Std Spec_Frame Spec_Message Spec_Map Spec_Object Spec_Node Spec_Request Spec_Controller Spec_ShowTool Spec_Verbose Run_Object Run_Node
  Run_Controller P_Base P_Misc P_Message P_Encode P_MsgApi P_PropertyList P_Object P_ObjectRun P_ObjectReach P_Std P_Node
  P_Request Properties_Object P_NodeReach P_NodeProfile P_NodeInv P_NodeRun P_NodeProps P_RequestProps P_RequestApi P_NodeSafe
  P_Shadow P_Controller P_ControllerProps Properties_Message Properties_Node Properties_Request Properties_Controller P_EndToEnd
  Properties_EndToEnd Properties_System Properties_Query Spec_CtrlBound P_CtrlSafe P_CtrlBound Properties_CtrlBound P_Owned P_ShowTool Properties_ShowTool P_Verbose P_VerboseRun P_VerboseTid M_Bench Spec_Bench Properties_Verbose Properties_Bench Spec_Told Properties_Told P_Maker Properties_Closed Spec_Found.
From Verif Require P_Lookup.
Import ListNotations.
Open Scope Z_scope.
Ltac Zify.zify_post_hook ::= Z.div_mod_to_equations.

(* ---- one answer ---- *)
Lemma holds_data : forall n code c v, holds n code c = Some [v] -> v <> [] -> node_data n code c = Some v.
Proof.
  intros n code c v H Nv. unfold holds in H. unfold node_data. destruct (uecho_node_getobjectbycode n code) as [o|]; [|discriminate]. injection H as H.
  destruct (uecho_object_getproperty o c) as [p|]; [cbn [option_map]; congruence|]. destruct (Nv (eq_sym H)).
Qed.

Lemma search_answer_is : forall d x, search_answer d x -> exists g, ar_data x = enc_frame g /\ frame_ok g
  /\ is_search_response g (prof_D6 (eojs (d (ar_from x)))).
Proof.
  intros d x (le & net & dec & la & ca & t & r & Hn & (Hd & L) & Hf & R & Ag & Hi). set (n := d (ar_from x)) in *. set (f := who_is_there t) in *.
  assert (Rv : receives le net dec n f [] la (Some ca) r).
  { split; [exact Hn|]. split; [exact Hf|]. rewrite app_nil_r. split; [apply frame_buffer; exact Hf|exact R]. }
  assert (D6 : node_data n (dest f) 214 = Some (prof_D6 (eojs n))).
  { apply holds_data; [exact Hd|discriminate]. }
  assert (O : has_object n (dest f)).
  { unfold has_object. unfold node_data in D6. destruct (uecho_node_getobjectbycode n (dest f)); discriminate. }
  assert (Ld : len (prof_D6 (eojs n)) <= 253) by (apply len_D6; exact L).
  pose proof (C27_value_partial _ _ _ _ _ _ _ _ _ [(214, [])] Rv eq_refl eq_refl O) as V. cbv zeta in V.
  rewrite V in Hi; clear V.
  2:{ constructor; [|constructor]. cbn [fst]. rewrite D6. discriminate. }
  2:{ exact Ag. }
  2:{ intros e v [<-|[]] Ed. cbn [fst] in Ed. rewrite D6 in Ed. injection Ed as <-. lia. }
  2:{ cbn. lia. }
  change (f_esv f =? 98) with true in Hi. cbv iota in Hi. unfold current in Hi. cbn [map fst data_of] in Hi. rewrite D6 in Hi.
  destruct Hi as [Hi|[]]. eexists. split; [symmetry; exact Hi|]. split; [|split; [left; reflexivity|reflexivity]].
  destruct Hf as (T0 & T1 & Sx & De & _). split; [exact T0|]. split; [exact T1|]. split; [exact De|]. split; [exact Sx|].
  split; [cbn; unfold byte_val; lia|]. split; [cbn; unfold two_lists; lia|]. split; [|cbn; lia]. constructor; [|constructor].
  split; [unfold byte_val; cbn; lia|]. cbn [snd]. split; [|unfold len in Ld; lia].
  exact (node_data_bytes _ _ _ _ _ _ Hn D6).
Qed.

(* ---- the table ---- *)
Lemma code_inj : forall x y, eoj_ok x -> eoj_ok y -> eoj_code x = eoj_code y -> x = y.
Proof.
  intros [[a b] c] [[a' b'] c'] (A & B & C) (A' & B' & C') E. unfold eoj_code, byte_val in *. cbn [fst snd] in *.
  assert (a = a') by lia. assert (b = b') by lia. assert (c = c') by lia. congruence.
Qed.
Lemma learn_new : forall l k, Forall eoj_ok (k ++ l) -> NoDup (k ++ l) -> learn k l = k ++ l.
Proof.
  induction l as [|e l IH]; intros k F N; [rewrite app_nil_r; reflexivity|]. unfold learn in *. cbn [fold_left]. unfold add_eoj at 2.
  destruct (existsb (eoj_eqb e) k) eqn:X.
  - apply existsb_exists in X. destruct X as (y & Iy & E). unfold eoj_eqb in E. apply Z.eqb_eq in E. rewrite Forall_forall in F.
    apply code_inj in E; [|apply F; apply in_or_app; right; left; reflexivity|apply F; apply in_or_app; left; exact Iy]. subst y.
    apply NoDup_remove_2 in N. exfalso. apply N. apply in_or_app. left. exact Iy.
  - rewrite IH; rewrite <- app_assoc; [reflexivity|exact F|exact N].
Qed.
Lemma learn_old : forall l k, incl l k -> learn k l = k.
Proof.
  induction l as [|e l IH]; intros k I; [reflexivity|]. unfold learn in *. cbn [fold_left]. unfold add_eoj at 2.
  assert (X : existsb (eoj_eqb e) k = true).
  { apply existsb_exists. exists e. split; [apply I; left; reflexivity|apply Z.eqb_refl]. }
  rewrite X. apply IH. intros y Y. apply I. right. exact Y.
Qed.
Definition row (d : devices_at) (a : string) : string * list (Z * Z * Z) := (a, node_profile_eoj :: devices (eojs (d a))).
Lemma note_known : forall d a known, learn [node_profile_eoj] (devices (eojs (d a))) = node_profile_eoj :: devices (eojs (d a)) ->
  note a (devices (eojs (d a))) (map (row d) known) = map (row d) (if existsb (String.eqb a) known then known else known ++ [a]).
Proof.
  intros d a known L. induction known as [|b known IH]; cbn [map note existsb app].
  - rewrite L. reflexivity.
  - unfold row at 1. rewrite (String.eqb_sym a b). destruct (String.eqb_spec b a) as [->|Ne]; cbn [orb].
    + cbn [map]. f_equal. unfold row. rewrite learn_old; [reflexivity|]. intros y Y. right. exact Y.
    + rewrite IH. destruct (existsb (String.eqb a) known); reflexivity.
Qed.
Lemma devices_learn : forall le net n, api_node le net std_db n -> learn [node_profile_eoj] (devices (eojs n)) = node_profile_eoj :: devices (eojs n).
Proof.
  intros le net n H. destruct (api_node_ok _ _ _ _ std_db_ok H) as [N _]. apply (learn_new (devices (eojs n)) [node_profile_eoj]); cbn [app].
  - constructor; [cbn; unfold byte_val; lia|]. apply Forall_forall. intros e I. apply filter_In in I. destruct I as [I _].
    pose proof (eojs_ok n N) as F. rewrite Forall_forall in F. apply F. exact I.
  - constructor.
    + intros I. apply filter_In in I. destruct I as [_ I]. discriminate.
    + apply NoDup_filter. apply eojs_nodup. exact N.
Qed.

Lemma known_found : forall d arr l, answered d arr l -> forall known tb,
  known_after (map (row d) known) (map (fun x => (ar_data x, ar_from x)) arr) tb -> tb = map (row d) (distinct String.eqb l known).
Proof.
  intros d arr l A. induction A as [|x h l Sa A IH|x h l So A IH]; intros known tb K; cbn [map distinct] in *.
  - inversion K; subst. reflexivity.
  - destruct (search_answer_is d x Sa) as (g & Eg & Hg & Sg).
    assert (Sa' := Sa). destruct Sa' as (le & net & dec & la & ca & t & r & Hn & (Hd & L) & _).
    inversion K as [|? f rest z q a ? ? Hf Sf K'|? data a ? ? Ho K']; subst.
    + match goal with E : _ = ar_data x |- _ => change (enc_frame f ++ rest = ar_data x) in E; rewrite Eg in E; pose proof (enc_inj g f rest Hg Hf (eq_sym E)) as Ef end. subst f.
      destruct Sf as [_ Bf]. destruct Sg as [_ Bg]. rewrite Bg in Bf.
      assert (Eq : prof_D6 (eojs (d (ar_from x))) = z :: q) by congruence.
      assert (Et : triples q = devices (eojs (d (ar_from x)))).
      { change (listed (z :: q) = devices (eojs (d (ar_from x)))). rewrite <- Eq. apply listed_D6. lia. }
      rewrite Et, (note_known d (ar_from x) known (devices_learn _ _ _ Hn)) in K'. exact (IH _ _ K').
    + exfalso. unfold prof_D6 in Sg. cbv zeta in Sg. refine (Ho g [] _ _ Hg _ Sg). rewrite app_nil_r. exact Eg.
  - inversion K as [|? f rest z q a ? ? Hf Sf K'|? data a ? ? Ho K']; subst.
    + exfalso. apply (So f rest z q Hf); [symmetry; assumption|exact Sf].
    + exact (IH _ _ K').
Qed.

Lemma search_matches : forall le net snet c0 arr c, new_ctrl le net std_db c0 -> crun le net snet std_db c0 (uechosearch_calls arr) c ->
  exists tb, known_after [] (map (fun x => (ar_data x, ar_from x)) arr) tb /\ matches c tb.
Proof.
  intros le net snet c0 arr c H0 R. unfold uechosearch_calls in R.
  assert (M0 : cmem_ok c0) by (inversion R; assumption).
  assert (A0 : api_ctrl le net snet std_db c0) by (exists c0, []; split; [exact H0|constructor; exact M0]).
  inversion R as [|? ? o1 ? ? X1 _ E1 R1]; subst. assert (M1 : cmem_ok (co_ctrl o1)) by (inversion R1; assumption).
  pose proof (capi_step _ _ _ _ _ _ _ A0 M0 M1 X1 E1) as A1.
  inversion R1 as [|? ? o2 ? ? X2 _ E2 R2]; subst. assert (M2 : cmem_ok (co_ctrl o2)) by (inversion R2; assumption).
  pose proof (capi_step _ _ _ _ _ _ _ A1 M1 M2 X2 E2) as A2.
  assert (N : c_nodes (co_ctrl o2) = []).
  { cbn [cstep] in E1, E2. apply bind_ok in E1. destruct E1 as ([[c1 ps] b] & E1 & Q). injection Q as <-. unfold uecho_controller_start in E1.
    apply bind_ok in E1. destruct E1 as ([[n ps'] b'] & _ & Q). injection Q as <- _ _. apply bind_ok in E2. destruct E2 as (s & _ & Q). injection Q as <-. reflexivity. }
  apply (known_run le net snet arr _ _ A2 R2 []).
  split; [unfold addresses; rewrite N; reflexivity|]. intros a es [].
Qed.

Lemma codes_eojs : forall l, Forall oinv l -> map uecho_object_getcode l = map eoj_code (map (fun o => (o_grp o, o_cls o, o_ins o)) l).
Proof.
  induction l as [|o l IH]; intros F; [reflexivity|]. inversion F as [|? ? Ho F']; subst. cbn [map]. rewrite (IH F'). f_equal.
  apply P_Lookup.ocode. apply Ho.
Qed.
Lemma seen_table : forall c tb, cinv c -> matches c tb ->
  map (fun x => (fst x, map fst (snd x))) (seen c) = map (fun x => (Some (fst x), map eoj_code (snd x))) tb.
Proof.
  intros c tb Hc M. assert (P := matches_pairs c tb ltac:(apply Hc) M). unfold seen.
  assert (F : Forall ninv (c_nodes c)) by (apply Forall_forall; intros n I; destruct Hc as (_ & Sh & _); rewrite Forall_forall in Sh; apply Sh; exact I).
  clear M. revert F. induction P as [|n x l tb' [E1 E2] P IH]; intros F; [reflexivity|]. inversion F as [|? ? N F']; subst. cbn [map fst snd].
  rewrite (IH F'). rewrite E1, <- E2. f_equal. f_equal. rewrite map_map. unfold eojs. apply codes_eojs. apply N.
Qed.

(* uechosearch lists each device of this library that has answered, once, in the order of the first answers, with the node
   profile and its devices; and that is all it knows. *)
Theorem C92_found : forall le net snet c0 arr c d l,
  new_ctrl le net std_db c0 -> crun le net snet std_db c0 (uechosearch_calls arr) c -> answered d arr l ->
  (exists t, print_founddevices c = Ok t /\ listing (found d l) t)
  /\ map (fun x => (fst x, map fst (snd x))) (seen c) = map (fun x => (Some (fst x), map eoj_code (snd x))) (found d l).
Proof.
  intros le net snet c0 arr c d l H0 R A. destruct (search_matches le net snet c0 arr c H0 R) as (tb & K & M).
  rewrite (known_found d arr l A [] tb K) in M. change (map (row d) (distinct String.eqb l [])) with (found d l) in M.
  assert (Ac : api_ctrl le net snet std_db c) by (exists c0, (uechosearch_calls arr); split; assumption).
  destruct (api_ctrl_ok _ _ _ _ std_db_ok _ Ac) as [Hc _]. split; [exact (prints c _ Hc M)|exact (seen_table c _ Hc M)].
Qed.
Print Assumptions C92_found.

(* ---- with the values ---- *)
Lemma distinct_in : forall l known a, In a (distinct String.eqb l known) -> In a known \/ In a l.
Proof.
  induction l as [|b l IH]; intros known a I; [left; exact I|]. cbn [distinct] in I. apply IH in I. destruct I as [I|I]; [|right; right; exact I].
  destruct (existsb (String.eqb b) known); [left; exact I|]. apply in_app_or in I. destruct I as [I|[<-|[]]]; [left; exact I|right; left; reflexivity].
Qed.
Lemma answered_presents : forall d arr l, answered d arr l -> forall a, In a l -> presents (d a).
Proof.
  intros d arr l A. induction A as [|x h l Sa A IH|x h l So A IH]; intros a I; [destruct I| |exact (IH _ I)].
  destruct I as [<-|I]; [|exact (IH _ I)]. destruct Sa as (le & net & dec & la & ca & t & r & Hn & P & _). exact P.
Qed.
Lemma found_heard : forall sh d l, map (fun x => (fst x, map fst (snd x))) sh = map (fun x => (Some (fst x), map eoj_code (snd x))) (found d l) ->
  (forall a, In a l -> presents (d a)) -> (forall a, In a l -> plain_device (d a)) -> heard_of sh d.
Proof.
  intros sh d l E Pr Pl a os I. unfold device_seen in *. apply (in_map (fun x : option string * list (Z * list (Z * bool)) => (fst x, map fst (snd x)))) in I. cbn [fst snd] in I.
  change (list (option string * list (Z * list (Z * bool)))) with (list device_seen) in *. rewrite E in I.
  apply in_map_iff in I. destruct I as ([a' es] & Q & I). cbn [fst snd] in Q. injection Q as -> Qs. unfold found in I. apply in_map_iff in I.
  destruct I as (b & Q & I). injection Q as -> Qe. apply distinct_in in I. destruct I as [[]|I]. destruct (Pl a I) as [P1 P2]. split; [|exact P2].
  intros code z r e Hh Ie. rewrite <- Qs, <- Qe. destruct (Z.eq_dec code 978945) as [->|Ne]; [|specialize (P1 _ _ Hh Ne); discriminate].
  destruct (Pr a I) as [P3 P4]. rewrite P3 in Hh. assert (Eq : z :: r = prof_D6 (eojs (d a))) by congruence. rewrite Eq, listed_D6 in Ie by lia.
  apply in_map. right. exact Ie.
Qed.

(* When just these devices answer the requests that follow, the list with values is the truth about them, too. *)
Theorem C92_verbose : forall le net snet c0 arr c d l ws,
  (forall a b, net (PSend a b) = true) -> new_ctrl le net std_db c0 -> Forall arrival_ok arr ->
  crun le net snet std_db c0 (uechosearch_calls arr) c -> answered d arr l -> (forall a, In a l -> plain_device (d a)) ->
  Forall (Forall arrival_ok) ws -> closed (vstep le net snet std_db) d c (AtNode 0) ws -> (steps_of (seen c) <= length ws)%nat ->
  exists c' s, vrun le net snet std_db c (AtNode 0) ws = Ok (c', AtEnd, s, map (truth true d) (agenda (seen c))).
Proof.
  intros le net snet c0 arr c d l ws up H0 F R A Pl W Cl L. apply (C91_closed le net snet c0 arr c d ws up H0 F R); [|exact W|exact Cl|exact L].
  apply (found_heard _ d l); [apply (C92_found le net snet c0 arr c d l H0 R A)|exact (answered_presents d arr l A)|exact Pl].
Qed.
Print Assumptions C92_verbose.

Theorem C92_bench : forall le net snet c0 arr c n d l ws,
  (forall a b, net (PSend a b) = true) -> new_ctrl le net std_db c0 -> Forall arrival_ok arr ->
  crun le net snet std_db c0 (uechosearch_calls arr) c -> answered d arr l -> (forall a, In a l -> plain_device (d a)) -> l <> [] ->
  Forall (Forall arrival_ok) ws -> closed (bstep le net snet std_db) d c (bench_start c n) ws ->
  n mod 18446744073709551616 * Z.of_nat (steps_of (seen c)) <= Z.of_nat (length ws) ->
  exists c' p s, brun le net snet std_db c (bench_start c n) ws
    = Ok (c', p, s, map (truth false d) (rounds (n mod 18446744073709551616) (agenda (seen c)))).
Proof.
  intros le net snet c0 arr c n d l ws up H0 F R A Pl Nl W Cl L.
  pose proof (C92_found le net snet c0 arr c d l H0 R A) as [_ Q].
  apply (C91_bench_closed le net snet c0 arr c n d ws up H0 F R); [| |exact W|exact Cl|exact L].
  - intros Es. rewrite Es in Q. cbn [map] in Q. destruct l as [|a l]; [destruct (Nl eq_refl)|]. unfold found in Q. cbn [distinct existsb app] in Q.
    assert (X : forall m known, known <> [] -> distinct String.eqb m known <> []).
    { induction m as [|b m IH]; intros known Nk; [exact Nk|]. cbn [distinct]. apply IH. destruct (existsb (String.eqb b) known); [exact Nk|]. destruct known; discriminate. }
    specialize (X l [a] ltac:(discriminate)). destruct (distinct String.eqb l [a]); [destruct (X eq_refl)|discriminate].
  - apply (found_heard _ d l); [exact Q|exact (answered_presents d arr l A)|exact Pl].
Qed.
Print Assumptions C92_bench.

(* ---- the device of Properties_Node, found and listed ---- *)
Definition plainb (n : node) : bool :=
  forallb (fun o => (uecho_object_getcode o =? 978945)
                    || match uecho_object_getproperty o 214 with Some p => match p_data p with [] => true | _ => false end | None => true end) (n_objs n)
  && match holds n 978945 138 with Some [v] => (length v <=? 4)%nat && (number_of v <=? 2147483647) | _ => true end.
Lemma plain_is : forall n, plainb n = true -> plain_device n.
Proof.
  intros n B. unfold plainb in B. apply andb_prop in B. destruct B as [B1 B2]. rewrite forallb_forall in B1. split.
  - intros code v H Ne. unfold holds in H. destruct (uecho_node_getobjectbycode n code) as [o|] eqn:G; [|discriminate]. injection H as H.
    apply P_Node.getbycode_in in G. destruct G as [Gc Gi]. specialize (B1 _ Gi). rewrite Gc in B1. destruct (Z.eqb_spec code 978945); [contradiction|].
    cbn [orb] in B1. destruct (uecho_object_getproperty o 214) as [p|]; [|congruence]. destruct (p_data p); [congruence|discriminate].
  - intros v H. rewrite H in B2. apply andb_prop in B2. destruct B2 as [B4 B5]. split; [apply Nat.leb_le; exact B4|apply Z.leb_le; exact B5].
Qed.
Definition node2_says : reaction :=
  match node_receive true net_up yes node2 (enc_frame (who_is_there (9, 8))) here (Some "192.168.1.2"%string) with Ok r => r | _ => mkReaction node2 [] [] [] [] end.
Example C92_example : crun true net_up net_down std_db ctrl0 (uechosearch_calls [got two_listed]) (cafter search_one)
  /\ answered (fun _ => node2) [got two_listed] [there] /\ plain_device node2
  /\ found (fun _ => node2) [there] = [(there, [(14, 240, 1); (1, 48, 1); (2, 145, 1)])]
  /\ Forall (Forall arrival_ok) told_waits
  /\ closed (vstep true net_up net_down std_db) (fun _ => node2) (cafter search_one) (AtNode 0) told_waits
  /\ (steps_of (seen (cafter search_one)) <= length told_waits)%nat.
Proof.
  destruct C91_closed_example as (X1 & _ & X2 & X3 & X4 & _). split; [exact X1|]. split.
  { apply (an_one _ (got two_listed)); [|constructor]. exists true, net_up, yes, here, "192.168.1.2"%string, (9, 8), node2_says.
    split; [exact node2_api|]. split; [split; [vm_compute; reflexivity|apply Nat.leb_le; vm_compute; reflexivity]|]. split.
    { split; [cbn; unfold byte_val; lia|]. split; [cbn; unfold byte_val; lia|]. split; [cbn; unfold byte_val; lia|]. split; [cbn; unfold byte_val; lia|].
      split; [cbn; unfold byte_val; lia|]. split; [cbn; unfold two_lists; lia|]. split; [|cbn; lia]. constructor; [|constructor].
      split; [unfold byte_val; cbn; lia|]. split; [constructor|cbn; lia]. }
    split; [vm_compute; reflexivity|]. split.
    { apply Forall_forall. apply forallb_forall. vm_compute. reflexivity. }
    assert (E : map data_of (r_answer node2_says) = [ar_data (got two_listed)]) by (vm_compute; reflexivity). rewrite E. left. reflexivity. }
  split; [apply plain_is; vm_compute; reflexivity|]. split; [vm_compute; reflexivity|]. split; [exact X2|]. split; [exact X3|exact X4].
Qed.
(* and for two rounds of the benchmark *)
Example C92_bench_example : answered (fun _ => node2) [got two_listed] [there] /\ plain_device node2
  /\ Forall (Forall arrival_ok) told_rounds
  /\ closed (bstep true net_up net_down std_db) (fun _ => node2) (cafter search_one) (bench_start (cafter search_one) 2) told_rounds
  /\ 2 mod 18446744073709551616 * Z.of_nat (steps_of (seen (cafter search_one))) = Z.of_nat (length told_rounds).
Proof.
  destruct C92_example as (_ & X1 & X2 & _). destruct C91_bench_closed_example as (_ & _ & Y1 & Y2 & Y3 & _).
  split; [exact X1|]. split; [exact X2|]. split; [exact Y1|]. split; [exact Y2|exact Y3].
Qed.
