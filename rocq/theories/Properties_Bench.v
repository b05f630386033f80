(* C90: what the example program uechobench asks and prints with the option -v (examples/controller). *)
From Coq Require Import String ZArith List Bool Lia ZifyBool ZifyNat.
From Verif Require Import CSem M_Const M_Misc M_Property M_Message M_PropertyList M_Object M_Node M_NodeListener M_Controller M_Query M_PostTool M_ShowTool M_Verbose
  StdDB_Data M_Std Spec_Frame Spec_Message Spec_Map Spec_Object Spec_Node Spec_Request Spec_Controller Spec_ShowTool Spec_Verbose Run_Object Run_Node
  Run_Controller P_Base P_Misc P_Message P_Encode P_MsgApi P_PropertyList P_Object P_ObjectRun P_ObjectReach P_Std P_Node
  P_Request Properties_Object P_NodeReach P_NodeProfile P_NodeInv P_NodeRun P_NodeProps P_RequestProps P_RequestApi P_NodeSafe
  P_Shadow P_Controller P_ControllerProps Properties_Message Properties_Node Properties_Request Properties_Controller P_EndToEnd
  Properties_EndToEnd Properties_System Properties_Query Spec_CtrlBound P_CtrlSafe P_CtrlBound Properties_CtrlBound P_Owned P_ShowTool Properties_ShowTool P_Verbose P_VerboseRun P_VerboseTid M_Bench Spec_Bench Properties_Verbose.
From Verif Require P_Lookup.
Import ListNotations.
Open Scope Z_scope.
Ltac Zify.zify_post_hook ::= Z.div_mod_to_equations.



Definition bplan (sh : list device_seen) (p : bpos) : list item := plan sh (snd p) ++ rounds (fst p) (agenda sh).
Definition bleft (sh : list device_seen) (p : bpos) : Z := Z.of_nat (left_to_do sh (snd p)) + fst p * Z.of_nat (steps_of sh).
Definition bvalid (sh : list device_seen) (p : bpos) : Prop := 0 <= fst p /\ valid sh (snd p) /\ (snd p = AtEnd -> fst p = 0).
Inductive bone (w : list arrival) : list item -> list post -> list vline -> Prop :=
| bone_device : forall a, bone w [IDevice a] [] [VDevice a None]
| bone_other : forall dn s t, one w dn s t -> (forall a, ~ In (IDevice a) dn) -> bone w dn s t.
Lemma bone_did : forall w dn s t, bone w dn s t -> forall ws l s' t', bench_did ws l s' t' -> bench_did (w :: ws) (dn ++ l) (s ++ s') (t ++ t').
Proof.
  intros w dn s t [a|dn' s0 t0 O N] ws l s' t' D; [cbn [app]; constructor; exact D|].
  destruct O; cbn [app]; try (constructor; assumption). destruct (N (Some a)). left. reflexivity.
Qed.

Lemma rounds_next : forall k l, 0 < k -> rounds k l = l ++ rounds (k - 1) l.
Proof. intros k l H. unfold rounds. replace (Z.to_nat k) with (S (Z.to_nat (k - 1))) by lia. reflexivity. Qed.
Lemma steps_pos : forall sh, (1 <= steps_of sh)%nat.
Proof. intros [|d sh]; cbn; lia. Qed.

Lemma next_ok : forall sh k, 0 <= k -> bvalid sh (next_round (k, AtEnd)) /\ bplan sh (next_round (k, AtEnd)) = rounds k (agenda sh)
  /\ bleft sh (next_round (k, AtEnd)) = k * Z.of_nat (steps_of sh).
Proof.
  intros sh k H. unfold next_round. destruct (Z.ltb_spec 0 k).
  - split; [split; [cbn [fst]; lia|split; [exact I|discriminate]]|]. split.
    + unfold bplan. cbn [fst snd plan skipn]. symmetry. apply rounds_next. assumption.
    + unfold bleft. cbn [fst snd left_to_do skipn]. lia.
  - assert (k = 0) by lia. subst k. split; [split; [cbn [fst]; lia|split; [exact I|reflexivity]]|]. split; [reflexivity|].
    unfold bleft. cbn [fst snd left_to_do]. lia.
Qed.

Section B.
Variable le : bool.
Variable net snet : post -> bool.
Hypothesis up : forall a b, net (PSend a b) = true.
Local Notation vinv := (vinv le net snet).

Lemma inner_step : forall c p w c1 p1 s t, vstep le net snet std_db c p w = Ok (c1, p1, s, t) -> (forall i, p <> AtNode i) ->
  (p1 = AtEnd -> p = AtEnd) /\ forall a m, ~ In (VDevice a m) t.
Proof.
  intros c p w c1 p1 s t E Np. destruct p as [i|i j|i j m|]; [destruct (Np i eq_refl)| | |]; cbn [vstep] in E.
  - apply bind_ok in E. destruct E as ([c2 b] & _ & E). destruct (nth_error (c_nodes (fst (c2, b))) i) as [n|]; [|discriminate].
    destruct (nth_error (n_objs n) j); injection E as <- <- <- <-; (split; [discriminate|]); intros a m [X|[]] || intros a m []; discriminate X.
  - destruct (nth_error (c_nodes c) i) as [n|]; [|discriminate]. destruct (nth_error (n_objs n) j) as [o|]; [|discriminate].
    destruct (nth_error (o_props o) m) as [q|]; [destruct (uecho_property_isreadrequired q)|]; apply bind_ok in E; destruct E as (y & _ & E).
    + destruct y as [[c2 ps] r]. apply bind_ok in E. destruct E as (ds & _ & E). injection E as <- <- <- <-. split; [discriminate|]. intros a m' [X|[]]. discriminate X.
    + injection E as <- <- <- <-. split; [discriminate|intros a m' []].
    + injection E as <- <- <- <-. split; [discriminate|intros a m' []].
  - apply bind_ok in E. destruct E as (y & _ & E). injection E as <- <- <- <-. split; [reflexivity|intros a m []].
Qed.

Lemma bstep_ok : forall c p w, vinv c -> bvalid (seen c) p -> Forall arrival_ok w -> Forall (quiet (seen c)) w ->
  exists c' p' s t, bstep le net snet std_db c p w = Ok (c', p', s, t)
  /\ vinv c' /\ seen c' = seen c /\ bvalid (seen c) p' /\ ((p = (0, AtEnd) /\ p' = p) \/ bleft (seen c) p = bleft (seen c) p' + 1)
  /\ exists dn, bplan (seen c) p = dn ++ bplan (seen c) p' /\ bone w dn s t.
Proof.
  intros c [k p] w V (Hk & Vp & He) A Q. cbn [fst snd] in *.
  destruct (step_ok le net snet up c p w V Vp A Q) as [S1 S2].
  assert (Other : (forall i, p <> AtNode i) -> exists c' p' s t, (do x <- vstep le net snet std_db c p w ;; let '(c1, q1, s, t) := x in Ok (c1, (k, q1), s, t)) = Ok (c', p', s, t)
    /\ vinv c' /\ seen c' = seen c /\ bvalid (seen c) p' /\ (((k, p) = (0, AtEnd) /\ p' = (k, p)) \/ bleft (seen c) (k, p) = bleft (seen c) p' + 1)
    /\ exists dn, bplan (seen c) (k, p) = dn ++ bplan (seen c) p' /\ bone w dn s t).
  { intros Np. destruct S2 as ([[[c1 p1] s] t] & E); [intros i X; destruct (Np i X)|]. rewrite E. cbn [bind].
    destruct (inner_step _ _ _ _ _ _ _ E Np) as [I1 I2].
    destruct (S1 _ E) as (V1 & Q1 & Vp1 & N1 & dn & P1 & O1). exists c1, (k, p1), s, t. split; [reflexivity|]. split; [exact V1|]. split; [exact Q1|]. split.
    { split; [exact Hk|]. split; [exact Vp1|]. cbn [fst snd]. intros X. exact (He (I1 X)). }
    split.
    { destruct N1 as [[-> ->]|N1]; [left; rewrite (He eq_refl); auto|right]. unfold bleft. cbn [fst snd]. rewrite N1. lia. }
    exists dn. split; [unfold bplan; cbn [fst snd]; rewrite P1, app_assoc; reflexivity|]. apply bone_other; [exact O1|].
    intros a Ia. destruct O1 as [|j code|a' t man Fk Mb|a' j m e epc t ds Fk Pr]; cbn [In] in Ia; try contradiction; destruct Ia as [Ia|[]]; try discriminate Ia.
    exact (I2 _ _ (or_introl eq_refl)). }
  unfold bstep. cbn [fst snd].
  destruct p as [i|i j|i j m|]; [|apply Other; intros; discriminate..]. clear Other S1 S2.
  destruct (wait_quiet le net snet w c V A Q) as (c1 & sg & Ew & V1 & Se & _). rewrite Ew. cbn [bind fst].
  pose proof (seen_nth c1 i) as Es. rewrite Se in Es. destruct (nth_error (c_nodes c1) i) as [n|] eqn:En; cbn [option_map] in Es.
  - eexists _, _, _, _. split; [reflexivity|]. split; [exact V1|]. split; [exact Se|].
    split; [split; [exact Hk|split; [eexists; exact Es|discriminate]]|]. split.
    + right. unfold bleft. cbn [fst snd left_to_do]. rewrite (skipn_some _ _ _ _ Es), Es. cbn [steps_of fold_right snd skipn]. unfold tobj, steps_of. lia.
    + exists [IDevice (n_addr n)]. split; [|apply bone_device]. unfold bplan. cbn [fst snd plan]. rewrite (skipn_some _ _ _ _ Es), Es. reflexivity.
  - destruct (next_ok (seen c) k Hk) as (N1 & N2 & N3). eexists _, _, _, _. split; [reflexivity|]. split; [exact V1|]. split; [exact Se|]. split; [exact N1|]. split.
    + right. rewrite N3. unfold bleft. cbn [fst snd left_to_do]. rewrite (skipn_none _ _ _ Es). cbn [steps_of fold_right]. lia.
    + exists []. split; [|apply bone_other; [apply one_skip|intros a []]]. rewrite N2. unfold bplan. cbn [fst snd plan]. rewrite (skipn_none _ _ _ Es). reflexivity.
Qed.

Lemma brun_ok : forall ws c p, vinv c -> bvalid (seen c) p -> Forall (Forall arrival_ok) ws -> Forall (Forall (quiet (seen c))) ws ->
  exists c' p' s t, brun le net snet std_db c p ws = Ok (c', p', s, t)
  /\ bvalid (seen c) p' /\ bleft (seen c) p' = Z.max 0 (bleft (seen c) p - len ws)
  /\ exists dn, bplan (seen c) p = dn ++ bplan (seen c) p' /\ bench_did ws dn s t.
Proof.
  induction ws as [|w ws IH]; intros c p V Vp A Q; cbn [brun].
  - exists c, p, [], []. split; [reflexivity|]. split; [exact Vp|]. split; [|exists []; split; [reflexivity|constructor]].
    unfold len. cbn [length]. assert (0 <= bleft (seen c) p) by (unfold bleft; destruct Vp; lia). lia.
  - inversion A as [|? ? A1 A2]; subst. inversion Q as [|? ? Q1 Q2]; subst.
    destruct (bstep_ok c p w V Vp A1 Q1) as (c1 & p1 & s1 & t1 & E1 & V1 & Se & Vp1 & L1 & dn & P1 & O1). rewrite E1. cbn [bind].
    destruct (IH c1 p1 V1 ltac:(rewrite Se; exact Vp1) A2 ltac:(rewrite Se; exact Q2)) as (c2 & p2 & s2 & t2 & E2 & Vp2 & L2 & dn2 & P2 & D2).
    rewrite E2. cbn [bind]. exists c2, p2, (s1 ++ s2), (t1 ++ t2). split; [reflexivity|]. rewrite Se in *. split; [exact Vp2|]. split.
    + rewrite L2. assert (Ln : len (w :: ws) = len ws + 1) by (unfold len; cbn [length]; lia). rewrite Ln. pose proof (len_nonneg _ ws).
      destruct L1 as [[-> ->]|L1]; [unfold bleft; cbn [fst snd left_to_do]; lia|]. assert (0 <= bleft (seen c) p1) by (unfold bleft; destruct Vp1; lia). lia.
    + exists (dn ++ dn2). split; [rewrite P1, P2, app_assoc; reflexivity|]. apply (bone_did _ _ _ _ O1). exact D2.
Qed.
Lemma bstep_counts : forall c p w c' p' s t, vinv c -> Forall arrival_ok w -> Forall asks_nothing w ->
  bstep le net snet std_db c p w = Ok (c', p', s, t) -> counts le c c' s.
Proof.
  intros c [k p] w c' p' s t V A N E. unfold bstep in E. cbn [fst snd] in E.
  destruct p as [i|i j|i j m|]; [|apply bind_ok in E; destruct E as ([[[c1 p1] s1] t1] & E1 & E); injection E as <- <- <- <-;
    exact (step_counts le net snet up _ _ _ _ _ _ _ V A N E1)..].
  apply bind_ok in E. destruct E as (x & E1 & E). pose proof (wait_counts le net snet _ _ _ V A N E1) as K.
  destruct (nth_error (c_nodes (fst x)) i); injection E as <- <- <- <-; exact K.
Qed.
Lemma brun_numbered : forall ws c p c' p' s t, vinv c -> bvalid (seen c) p -> Forall (Forall arrival_ok) ws -> Forall (Forall (quiet (seen c))) ws ->
  Forall (Forall asks_nothing) ws -> brun le net snet std_db c p ws = Ok (c', p', s, t) -> numbered le (n_tid (c_node c)) s.
Proof.
  induction ws as [|w ws IH]; intros c p c' p' s t V Vp A Q N E; cbn [brun] in E; [injection E as <- <- <- <-; constructor|].
  inversion A as [|? ? A1 A2]; subst. inversion Q as [|? ? Q1 Q2]; subst. inversion N as [|? ? N1 N2]; subst.
  apply bind_ok in E. destruct E as ([[[c1 p1] s1] t1] & E1 & E). apply bind_ok in E. destruct E as ([[[c2 p2] s2] t2] & E2 & E). injection E as <- <- <- <-.
  destruct (bstep_ok c p w V Vp A1 Q1) as (c3 & p3 & s3 & t3 & E3 & V1 & Se & Vp1 & _). rewrite E1 in E3. injection E3 as <- <- <- <-.
  apply (counts_numbered _ _ _ _ _ (bstep_counts _ _ _ _ _ _ _ V A1 N1 E1)).
  apply (IH _ _ _ _ _ _ V1 ltac:(rewrite Se; exact Vp1) A2 ltac:(rewrite Se; exact Q2) N2 E2).
Qed.
End B.

Lemma rounds_nil : forall k, rounds k [] = [].
Proof. intros k. unfold rounds. induction (Z.to_nat k); [reflexivity|exact IHn]. Qed.
Lemma mul_le : forall a b, 0 <= a -> 1 <= b -> 0 <= a * b. Proof. intros. apply Z.mul_nonneg_nonneg; lia. Qed.

(* In every round it lists the devices and objects, and asks for each property that must be readable.  It sends nothing else
   and prints what came back, as uechosearch does.  Every step is defined.  It is at its end after as many steps as there is
   to do in all rounds, and not before. *)
Theorem C90_asks : forall le net snet c0 arr c n ws,
  (forall a b, net (PSend a b) = true) -> new_ctrl le net std_db c0 -> Forall arrival_ok arr ->
  crun le net snet std_db c0 (uechosearch_calls arr) c -> seen c <> [] ->
  Forall (Forall arrival_ok) ws -> Forall (Forall (quiet (seen c))) ws ->
  exists c' p s t done rest, brun le net snet std_db c (bench_start c n) ws = Ok (c', p, s, t)
  /\ rounds (n mod 18446744073709551616) (agenda (seen c)) = done ++ rest /\ bench_did ws done s t
  /\ (snd p = AtEnd -> rest = [])
  /\ (snd p = AtEnd <-> n mod 18446744073709551616 * Z.of_nat (steps_of (seen c)) <= Z.of_nat (length ws)).
Proof.
  intros le net snet c0 arr c n ws up H0 F R Ne A Q. pose proof (search_vinv le net snet c0 arr c H0 F R) as V.
  assert (St : bench_start c n = next_round (n mod 18446744073709551616, AtEnd)).
  { unfold bench_start. destruct (c_nodes c) eqn:En; [unfold seen in Ne; rewrite En in Ne; destruct (Ne eq_refl)|reflexivity]. }
  assert (Hk : 0 <= n mod 18446744073709551616) by (apply Z.mod_pos_bound; reflexivity).
  rewrite St. revert Hk. generalize (n mod 18446744073709551616) as k. intros k Hk.
  destruct (next_ok (seen c) k Hk) as (N1 & N2 & N3).
  destruct (brun_ok le net snet up ws c _ V N1 A Q) as (c' & p' & s & t & E & Vp & L & dn & P & D).
  exists c', p', s, t, dn, (bplan (seen c) p'). split; [exact E|]. split; [rewrite <- N2; exact P|]. split; [exact D|].
  rewrite N3 in L. destruct p' as [k' p']. destruct Vp as (Hk' & Vp & He). cbn [fst snd] in *. unfold bleft in L. cbn [fst snd] in L.
  pose proof (steps_pos (seen c)) as Sp. pose proof (mul_le k' (Z.of_nat (steps_of (seen c))) Hk' ltac:(lia)) as Mk.
  split.
  - intros ->. unfold bplan. cbn [fst snd plan]. rewrite (He eq_refl). reflexivity.
  - unfold len in L. split.
    + intros ->. rewrite (He eq_refl) in L. cbn [left_to_do] in L. lia.
    + intros G. apply (nothing_left (seen c) p' Vp). lia.
Qed.
Print Assumptions C90_asks.

(* Without any device nothing is sent or printed. *)
Theorem C90_none : forall le net snet c0 arr c n ws,
  new_ctrl le net std_db c0 -> Forall arrival_ok arr -> crun le net snet std_db c0 (uechosearch_calls arr) c -> seen c = [] ->
  bench_start c n = (0, AtEnd)
  /\ forall c' p s t, brun le net snet std_db c (bench_start c n) ws = Ok (c', p, s, t) -> s = [] /\ t = [] /\ p = (0, AtEnd).
Proof.
  intros le net snet c0 arr c n ws H0 F R Ne. assert (St : bench_start c n = (0, AtEnd)).
  { unfold bench_start. destruct (c_nodes c) eqn:En; [reflexivity|unfold seen in Ne; rewrite En in Ne; discriminate]. }
  split; [exact St|]. rewrite St. clear. revert c. induction ws as [|w ws IH]; intros c c' p s t E; cbn [brun] in E.
  - injection E as <- <- <- <-. auto.
  - apply bind_ok in E. destruct E as ([[[c1 p1] s1] t1] & E1 & E). apply bind_ok in E. destruct E as ([[[c2 p2] s2] t2] & E2 & E). injection E as <- <- <- <-.
    unfold bstep in E1. cbn [fst snd vstep] in E1. apply bind_ok in E1. destruct E1 as (x & E1 & E3). apply bind_ok in E1. destruct E1 as (y & _ & E1).
    injection E1 as <-. injection E3 as <- <- <- <-. destruct (IH _ _ _ _ _ E2) as (-> & -> & ->). auto.
Qed.
Print Assumptions C90_none.

(* As long as nothing is asked of the program itself, the requests of all rounds carry the transaction ids that follow the
   last one used, one after the other. *)
Theorem C90_tids : forall le net snet c0 arr c n ws c' p s t,
  (forall a b, net (PSend a b) = true) -> new_ctrl le net std_db c0 -> Forall arrival_ok arr ->
  crun le net snet std_db c0 (uechosearch_calls arr) c ->
  Forall (Forall arrival_ok) ws -> Forall (Forall (quiet (seen c))) ws -> Forall (Forall asks_nothing) ws ->
  brun le net snet std_db c (bench_start c n) ws = Ok (c', p, s, t) -> numbered le (n_tid (c_node c)) s.
Proof.
  intros le net snet c0 arr c n ws c' p s t up H0 F R A Q N E. pose proof (search_vinv le net snet c0 arr c H0 F R) as V.
  refine (brun_numbered le net snet up ws c _ c' p s t V _ A Q N E).
  unfold bench_start. assert (Hk : 0 <= n mod SIZE_MOD) by (apply Z.mod_pos_bound; reflexivity).
  destruct (0 <? len (c_nodes c)); [apply (next_ok (seen c) _ Hk)|]. split; [cbn [fst]; lia|]. split; [exact I|reflexivity].
Qed.
Print Assumptions C90_tids.

(* ---- examples ---- *)
(* two rounds; the device gives its status in the second one *)
Definition bench_waits : list (list arrival) := repeat [] 134 ++ [reply (33, 0) node_profile_eoj [(128, [48])]] :: repeat [] 129.
Definition bshow (n : Z) (ws : list (list arrival)) : res (bpos * list vline) :=
  match brun true net_up net_down std_db (cafter search_one) (bench_start (cafter search_one) n) ws with Ok (_, p, _, t) => Ok (p, t) | Undef u => Undef u end.
Lemma bench_waits_ok : Forall (Forall arrival_ok) bench_waits.
Proof.
  unfold bench_waits. apply Forall_app. split; [|constructor].
  - apply Forall_forall. intros x J. apply repeat_spec in J. subst. constructor.
  - constructor; [apply arrival_is; vm_compute; reflexivity|constructor].
  - apply Forall_forall. intros x J. apply repeat_spec in J. subst. constructor.
Qed.
Example C90_example : new_ctrl true net_up std_db ctrl0 /\ (forall a b, net_up (PSend a b) = true) /\ Forall arrival_ok [got two_listed]
  /\ crun true net_up net_down std_db ctrl0 (uechosearch_calls [got two_listed]) (cafter search_one) /\ seen (cafter search_one) <> []
  /\ Forall (Forall arrival_ok) bench_waits /\ Forall (Forall (quiet (seen (cafter search_one)))) bench_waits
  /\ length bench_waits = (2 * steps_of (seen (cafter search_one)))%nat
  /\ match bshow 2 bench_waits with
     | Ok (p, t) => p = (0, AtEnd) /\ length t = 68%nat /\ firstn 3 t = [VDevice (Some there) None; VObject 0 978945; VValue 0 0 128 None]
                    /\ firstn 4 (skipn 34 t) = [VDevice (Some there) None; VObject 0 978945; VValue 0 0 128 (Some [[48]]); VValue 0 1 129 None]
     | Undef _ => False
     end.
Proof.
  split; [exact ctrl0_new|]. split; [reflexivity|]. split; [exact one_ok|]. split; [exact search_one_run|].
  split; [intros E; apply (f_equal (@length _)) in E; vm_compute in E; discriminate E|]. split; [exact bench_waits_ok|].
  split; [|split; [vm_compute; reflexivity|]].
  - apply (all_is _ (quietb (seen (cafter search_one)))); [|exact bench_waits_ok|vm_compute; reflexivity].
    intros x (B & _) Q. apply quiet_is; assumption.
  - vm_compute. auto.
Qed.
Example C90_tids_example : Forall (Forall asks_nothing) bench_waits
  /\ match brun true net_up net_down std_db (cafter search_one) (bench_start (cafter search_one) 2) bench_waits with
     | Ok (_, _, s, _) => length s = 60%nat | Undef _ => False end.
Proof.
  split; [|vm_compute; reflexivity]. apply (all_is _ (fun x => negb (asksb x))); [exact asks_is|exact bench_waits_ok|vm_compute; reflexivity].
Qed.
Example C90_none_example : crun true net_up net_down std_db ctrl0 (uechosearch_calls []) (cafter (uechosearch_calls [])) /\ seen (cafter (uechosearch_calls [])) = [].
Proof.
  split; [|vm_compute; reflexivity].
  assert (M : cexec_mem ctrl0 (uechosearch_calls []) = true) by (vm_compute; reflexivity).
  assert (O : Forall (cop_ok true std_db) (uechosearch_calls [])) by (constructor; [exact I|]; constructor; [exact I|constructor]).
  unfold cafter. revert M O. generalize (uechosearch_calls []) ctrl0. intros h c M O.
  destruct (cexec_trace h c O M) as (c' & told & E & _ & R). rewrite E. exact R.
Qed.

(* ---- what a user could expect and does not get ---- *)
(* A negative number of rounds is a very large one: with -n -1 the program has not come to its end after 10^19 steps. *)
Theorem C90_negative_refuted : forall le net snet c0 arr c ws c' p s t,
  (forall a b, net (PSend a b) = true) -> new_ctrl le net std_db c0 -> Forall arrival_ok arr ->
  crun le net snet std_db c0 (uechosearch_calls arr) c -> seen c <> [] ->
  Forall (Forall arrival_ok) ws -> Forall (Forall (quiet (seen c))) ws -> Z.of_nat (length ws) <= 10 ^ 19 ->
  brun le net snet std_db c (bench_start c (-1)) ws = Ok (c', p, s, t) -> snd p <> AtEnd.
Proof.
  intros le net snet c0 arr c ws c' p s t up H0 F R Ne A Q L E X.
  destruct (C90_asks le net snet c0 arr c (-1) ws up H0 F R Ne A Q) as (c2 & p2 & s2 & t2 & dn & rest & E2 & _ & _ & _ & G).
  rewrite E in E2. injection E2 as <- <- <- <-. apply G in X. change (-1 mod 18446744073709551616) with 18446744073709551615 in X.
  pose proof (steps_pos (seen c)). change (10 ^ 19) with 10000000000000000000 in L. lia.
Qed.
Print Assumptions C90_negative_refuted.
