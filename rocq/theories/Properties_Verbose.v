(* C89: what the example program uechosearch asks and prints with the option -v (examples/controller). *)
From Coq Require Import String ZArith List Bool Lia ZifyBool ZifyNat.
From Verif Require Import CSem M_Const M_Misc M_Property M_Message M_PropertyList M_Object M_Node M_NodeListener M_Controller M_Query M_PostTool M_ShowTool M_Verbose
  StdDB_Data M_Std Spec_Frame Spec_Message Spec_Map Spec_Object Spec_Node Spec_Request Spec_Controller Spec_ShowTool Spec_Verbose Run_Object Run_Node
  Run_Controller P_Base P_Misc P_Message P_Encode P_MsgApi P_PropertyList P_Object P_ObjectRun P_ObjectReach P_Std P_Node
  P_Request Properties_Object P_NodeReach P_NodeProfile P_NodeInv P_NodeRun P_NodeProps P_RequestProps P_RequestApi P_NodeSafe
  P_Shadow P_Controller P_ControllerProps Properties_Message Properties_Node Properties_Request Properties_Controller P_EndToEnd
  Properties_EndToEnd Properties_System Properties_Query Spec_CtrlBound P_CtrlSafe P_CtrlBound Properties_CtrlBound P_Owned P_ShowTool Properties_ShowTool P_Verbose P_VerboseRun P_VerboseTid.
From Verif Require P_Lookup.
Import ListNotations.
Open Scope Z_scope.
Ltac Zify.zify_post_hook ::= Z.div_mod_to_equations.



Lemma nothing_left : forall sh p, valid sh p -> left_to_do sh p = 0%nat -> p = AtEnd.
Proof.
  intros sh [i|i j|i j k|] V L; cbn [left_to_do valid] in *; [| | |reflexivity].
  - destruct (skipn i sh); cbn in L; discriminate.
  - destruct V as (d & E). rewrite E in L. discriminate.
  - destruct V as (d & o & E & E2). rewrite E, E2 in L. discriminate.
Qed.
Lemma all_steps : forall sh, left_to_do sh (AtNode 0) = steps_of sh.
Proof. reflexivity. Qed.

(* For the devices heard of it asks, in order, for the manufacturer code and for each property that must be readable, of each
   object.  It sends nothing else.  It prints what a frame with the transaction id of the request says, or that none came
   while it waited; after as many steps as there is to do, and not before, everything has been asked. *)
Theorem C89_asks : forall le net snet c0 arr c ws c' p s t,
  (forall a b, net (PSend a b) = true) -> new_ctrl le net std_db c0 -> Forall arrival_ok arr ->
  crun le net snet std_db c0 (uechosearch_calls arr) c ->
  Forall (Forall arrival_ok) ws -> Forall (Forall (quiet (seen c))) ws ->
  vrun le net snet std_db c (AtNode 0) ws = Ok (c', p, s, t) ->
  exists done rest, agenda (seen c) = done ++ rest /\ did ws done s t
  /\ (p = AtEnd -> rest = []) /\ (p = AtEnd <-> (steps_of (seen c) <= length ws)%nat).
Proof.
  intros le net snet c0 arr c ws c' p s t up H0 F R A Q E. pose proof (search_vinv le net snet c0 arr c H0 F R) as V.
  destruct (run_ok le net snet up ws c (AtNode 0) c' p s t V I A Q E) as (_ & _ & Vp & (dn & P & D) & L).
  exists dn, (plan (seen c) p). split; [exact P|]. split; [exact D|]. split.
  - intros ->. reflexivity.
  - rewrite all_steps in L. split.
    + intros ->. cbn [left_to_do] in L. lia.
    + intros G. apply (nothing_left (seen c) p Vp). lia.
Qed.
Print Assumptions C89_asks.

(* The next step is defined, unless it is to print the manufacturer: then the frames that arrive may not have just one value
   of more than four bytes or above the largest int. *)
Theorem C89_defined : forall le net snet c0 arr c ws c' p s t w,
  (forall a b, net (PSend a b) = true) -> new_ctrl le net std_db c0 -> Forall arrival_ok arr ->
  crun le net snet std_db c0 (uechosearch_calls arr) c ->
  Forall (Forall arrival_ok) ws -> Forall (Forall (quiet (seen c))) ws ->
  vrun le net snet std_db c (AtNode 0) ws = Ok (c', p, s, t) ->
  Forall arrival_ok w -> Forall (quiet (seen c)) w -> (forall i, p = AtNode i -> Forall fits_int w) ->
  exists r, vstep le net snet std_db c' p w = Ok r.
Proof.
  intros le net snet c0 arr c ws c' p s t w up H0 F R A Q E Aw Qw Ft. pose proof (search_vinv le net snet c0 arr c H0 F R) as V.
  destruct (run_ok le net snet up ws c (AtNode 0) c' p s t V I A Q E) as (V' & S & Vp & _). rewrite <- S in Vp, Qw.
  exact (proj2 (step_ok le net snet up c' p w V' Vp Aw Qw) Ft).
Qed.
Print Assumptions C89_defined.

(* As long as nothing is asked of the program itself, its requests carry the transaction ids that follow the last one it used,
   one after the other. *)
Theorem C89_tids : forall le net snet c0 arr c ws c' p s t,
  (forall a b, net (PSend a b) = true) -> new_ctrl le net std_db c0 -> Forall arrival_ok arr ->
  crun le net snet std_db c0 (uechosearch_calls arr) c ->
  Forall (Forall arrival_ok) ws -> Forall (Forall (quiet (seen c))) ws -> Forall (Forall asks_nothing) ws ->
  vrun le net snet std_db c (AtNode 0) ws = Ok (c', p, s, t) -> numbered le (n_tid (c_node c)) s.
Proof.
  intros le net snet c0 arr c ws c' p s t up H0 F R A Q N E. pose proof (search_vinv le net snet c0 arr c H0 F R) as V.
  exact (run_numbered le net snet up ws c (AtNode 0) c' p s t V I A Q N E).
Qed.
Print Assumptions C89_tids.

(* the devices and objects are those of the list printed without the option, see C87_search *)
Theorem C89_devices : forall le net snet c0 arr c, new_ctrl le net std_db c0 -> Forall arrival_ok arr ->
  crun le net snet std_db c0 (uechosearch_calls arr) c ->
  exists tb, known_after [] (map (fun x => (ar_data x, ar_from x)) arr) tb
  /\ map (fun d => (fst d, map fst (snd d))) (seen c) = map (fun x => (Some (fst x), map eoj_code (snd x))) tb.
Proof.
  intros le net snet c0 arr c H0 F R. pose proof R as R0. unfold uechosearch_calls in R.
  assert (M0 : cmem_ok c0) by (inversion R; assumption).
  assert (A0 : api_ctrl le net snet std_db c0) by (exists c0, []; split; [exact H0|constructor; exact M0]).
  inversion R as [|? ? o1 ? ? X1 _ E1 R1]; subst. assert (M1 : cmem_ok (co_ctrl o1)) by (inversion R1; assumption).
  pose proof (capi_step _ _ _ _ _ _ _ A0 M0 M1 X1 E1) as A1.
  inversion R1 as [|? ? o2 ? ? X2 _ E2 R2]; subst. assert (M2 : cmem_ok (co_ctrl o2)) by (inversion R2; assumption).
  pose proof (capi_step _ _ _ _ _ _ _ A1 M1 M2 X2 E2) as A2.
  assert (N : c_nodes (co_ctrl o2) = []).
  { cbn [cstep] in E1, E2. apply bind_ok in E1. destruct E1 as ([[c1 ps] b] & E1 & Q). injection Q as <-. unfold uecho_controller_start in E1.
    apply bind_ok in E1. destruct E1 as ([[n ps'] b'] & _ & Q). injection Q as <- _ _. apply bind_ok in E2. destruct E2 as (s & _ & Q). injection Q as <-. reflexivity. }
  destruct (known_run le net snet arr _ _ A2 R2 []) as (tb & K & M).
  { split; [unfold addresses; rewrite N; reflexivity|]. intros a es []. }
  exists tb. split; [exact K|]. pose proof (search_vinv le net snet c0 arr c H0 F R0) as (_ & ((_ & Sh & Nd & _) & _) & _).
  pose proof (matches_pairs c tb Nd M) as P. unfold seen. clear - P Sh.
  induction P as [|n x l tb [Ea Ee] P IH]; [reflexivity|]. inversion Sh as [|? ? Sn Sh']; subst. cbn [map fst snd]. rewrite (IH Sh'). f_equal.
  rewrite Ea, map_map. f_equal. rewrite <- Ee, <- (P_Lookup.eojs_codes n (proj1 Sn)). apply map_ext. reflexivity.
Qed.
Print Assumptions C89_devices.

(* ---- examples ---- *)
Definition search_one : list cop := uechosearch_calls [got two_listed].
Lemma search_one_run : crun true net_up net_down std_db ctrl0 search_one (cafter search_one).
Proof.
  assert (M : cexec_mem ctrl0 search_one = true) by (vm_compute; reflexivity).
  assert (O : Forall (cop_ok true std_db) search_one).
  { constructor; [exact I|]. constructor; [exact I|]. constructor; [|constructor].
    assert (F : arrival_ok (got two_listed)) by (apply arrival_is; vm_compute; reflexivity). destruct F as (B & G & _). exact (conj B G). }
  unfold cafter. revert M O. generalize search_one ctrl0. intros h c M O.
  destruct (cexec_trace h c O M) as (c' & told & E & _ & R). rewrite E. exact R.
Qed.
Lemma one_ok : Forall arrival_ok [got two_listed].
Proof. constructor; [|constructor]. apply arrival_is; vm_compute; reflexivity. Qed.

(* checking that a datagram tells of nothing unknown *)
Definition quietb (sh : list device_seen) (x : arrival) : bool :=
  match dec_frame (ar_data x) with
  | None => true
  | Some (f, _) =>
      let mine := filter (fun d : device_seen => match fst d with Some a => String.eqb a (ar_from x) | None => false end) sh in
      match f_body f with
      | Plain [(214, d)] => existsb (fun d0 : device_seen => forallb (fun e => existsb (Z.eqb (eoj_code e)) (map fst (snd d0))) (listed d)) mine
      | _ => true
      end
      && forallb (fun d : device_seen => forallb (fun o : Z * list (Z * bool) => negb (fst o =? eoj_code (f_seoj f))
           || forallb (fun e => existsb (Z.eqb (fst e)) (map fst (snd o))) (reported f)) (snd d)) mine
  end.
Lemma existsb_in : forall x l, existsb (Z.eqb x) l = true -> In x l.
Proof. intros x l H. apply existsb_exists in H. destruct H as (y & I & E). apply Z.eqb_eq in E. subst. exact I. Qed.
Lemma quiet_is : forall sh x, buffer (ar_data x) -> quietb sh x = true -> quiet sh x.
Proof.
  intros sh x Hb Q f rest Hf Ed. unfold quietb in Q. rewrite Ed in Hb, Q. rewrite (dec_enc f rest Hf Hb) in Q.
  set (mine := filter _ sh) in Q. apply andb_prop in Q. destruct Q as [Q1 Q2]. split.
  - intros z r [_ Eb]. rewrite Eb in Q1. cbv iota beta in Q1. apply existsb_exists in Q1. destruct Q1 as (d & Id & Q1).
    unfold mine in Id. apply filter_In in Id. destruct Id as [Id Ea]. destruct d as [[a|] os]; [|discriminate]. cbn [fst snd] in *.
    apply String.eqb_eq in Ea. subst a. exists os. split; [exact Id|]. intros e Ie. rewrite forallb_forall in Q1. exact (existsb_in _ _ (Q1 e Ie)).
  - intros _ os ps e Io Ip Ie. rewrite forallb_forall in Q2. specialize (Q2 (Some (ar_from x), os)). cbn [snd] in Q2.
    assert (Im : In (Some (ar_from x), os) mine) by (apply filter_In; split; [exact Io|cbn [fst]; apply String.eqb_refl]).
    specialize (Q2 Im). rewrite forallb_forall in Q2. specialize (Q2 _ Ip). cbn [fst snd] in Q2. rewrite Z.eqb_refl in Q2. cbn [negb orb] in Q2.
    rewrite forallb_forall in Q2. exact (existsb_in _ _ (Q2 e Ie)).
Qed.

Definition reply (t : Z * Z) (e : Z * Z * Z) (ps : list epair) : arrival := got (mkFrame t e node_profile_eoj 114 (Plain ps)).
(* the device gives its manufacturer code and its status, and reports something in between; it answers nothing more until it
   is asked for its instance list *)
Definition some_waits : list (list arrival) :=
  [reply (3, 0) node_profile_eoj [(138, [0; 0; 22])]] :: [noise; got (on_report 115 [48])] :: [reply (4, 0) node_profile_eoj [(128, [48])]]
  :: repeat [] 27 ++ [reply (13, 0) node_profile_eoj [(214, [2; 1; 48; 1; 2; 145; 1])]] :: repeat [] 101.
Definition all_of {A} (P : A -> bool) (l : list (list A)) : bool := forallb (forallb P) l.
Definition got_ok (x : arrival) : bool := forallb (fun b => (0 <=? b) && (b <? 256)) (ar_data x) && (len (ar_data x) <=? 1000).
Definition fitsb (x : arrival) : bool :=
  match dec_frame (ar_data x) with
  | Some (f, _) => match values f with [d] => (length d <=? 4)%nat && (number_of d <=? 2147483647) | _ => true end
  | None => true
  end.
Lemma fits_is : forall x, buffer (ar_data x) -> fitsb x = true -> fits_int x.
Proof.
  intros x Hb Q f rest d Hf Ed Ev. unfold fitsb in Q. rewrite Ed in Hb, Q. rewrite (dec_enc f rest Hf Hb), Ev in Q. apply andb_prop in Q. destruct Q as [Q1 Q2].
  split; [apply Nat.leb_le; exact Q1|lia].
Qed.
Lemma all_is : forall (P : arrival -> Prop) (b : arrival -> bool) ws, (forall x, arrival_ok x -> b x = true -> P x) ->
  Forall (Forall arrival_ok) ws -> all_of b ws = true -> Forall (Forall P) ws.
Proof.
  intros P b ws H A Q. unfold all_of in Q. induction A as [|w ws Aw A IH]; [constructor|]. cbn [forallb] in Q. apply andb_prop in Q. destruct Q as [Q1 Q2].
  constructor; [|exact (IH Q2)]. clear - H Aw Q1. induction Aw as [|x w Ax Aw IH]; [constructor|]. cbn [forallb] in Q1. apply andb_prop in Q1. destruct Q1 as [Q1 Q2].
  constructor; [exact (H x Ax Q1)|exact (IH Q2)].
Qed.
Lemma waits_ok : Forall (Forall arrival_ok) some_waits.
Proof.
  assert (G : forall x, ar_fr x = fr0 -> got_ok x = true -> arrival_ok x) by (intros; apply arrival_is; assumption).
  unfold some_waits. constructor; [|constructor; [|constructor; [|apply Forall_app; split; [|constructor]]]].
  - constructor; [apply G; vm_compute; reflexivity|constructor].
  - constructor; [apply G; vm_compute; reflexivity|]. constructor; [apply G; vm_compute; reflexivity|constructor].
  - constructor; [apply G; vm_compute; reflexivity|constructor].
  - apply Forall_forall. intros x J. apply repeat_spec in J. subst. constructor.
  - constructor; [apply G; vm_compute; reflexivity|constructor].
  - apply Forall_forall. intros x J. apply repeat_spec in J. subst. constructor.
Qed.
Definition vshow (ws : list (list arrival)) : res (vpos * list vline) :=
  match vrun true net_up net_down std_db (cafter search_one) (AtNode 0) ws with Ok (_, p, _, t) => Ok (p, t) | Undef u => Undef u end.

Example C89_example : new_ctrl true net_up std_db ctrl0 /\ (forall a b, net_up (PSend a b) = true) /\ Forall arrival_ok [got two_listed]
  /\ crun true net_up net_down std_db ctrl0 (uechosearch_calls [got two_listed]) (cafter search_one)
  /\ Forall (Forall arrival_ok) some_waits /\ Forall (Forall (quiet (seen (cafter search_one)))) some_waits
  /\ length some_waits = steps_of (seen (cafter search_one))
  /\ vshow some_waits
     = Ok (AtEnd, VDevice (Some there) (Some 22) :: VObject 0 978945 :: VValue 0 0 128 (Some [[48]])
          :: map (fun x => VValue 0 (fst x) (snd x) None) [(1%nat, 129); (2%nat, 130); (8%nat, 136); (10%nat, 138); (21%nat, 157); (23%nat, 159); (25%nat, 211); (26%nat, 212)]
          ++ VValue 0 28 214 (Some [[2; 1; 48; 1; 2; 145; 1]]) :: VValue 0 29 215 None
          :: VObject 1 77825 :: map (fun x => VValue 1 (fst x) (snd x) None)
               [(0%nat, 128); (1%nat, 129); (2%nat, 130); (8%nat, 136); (10%nat, 138); (21%nat, 157); (22%nat, 158); (23%nat, 159); (30%nat, 160); (37%nat, 176); (40%nat, 179); (48%nat, 187)]
          ++ VObject 2 168193 :: map (fun x => VValue 2 (fst x) (snd x) None)
               [(0%nat, 128); (1%nat, 129); (2%nat, 130); (8%nat, 136); (10%nat, 138); (21%nat, 157); (23%nat, 159)]).
Proof.
  split; [exact ctrl0_new|]. split; [reflexivity|]. split; [exact one_ok|]. split; [exact search_one_run|]. split; [exact waits_ok|].
  split; [|split; vm_compute; reflexivity].
  apply (all_is _ (quietb (seen (cafter search_one)))); [|exact waits_ok|vm_compute; reflexivity].
  intros x (B & _) Q. apply quiet_is; assumption.
Qed.
(* the first step, with the manufacturer code *)
Example C89_defined_example : Forall fits_int (hd [] some_waits) /\ hd [] some_waits <> [].
Proof.
  split; [|discriminate]. constructor; [|constructor]. apply fits_is; [|vm_compute; reflexivity].
  assert (A : arrival_ok (reply (3, 0) node_profile_eoj [(138, [0; 0; 22])])) by (apply arrival_is; vm_compute; reflexivity). apply A.
Qed.
Definition asksb (x : arrival) : bool :=
  match dec_frame (ar_data x) with Some (f, _) => existsb (Z.eqb (f_esv f)) [96; 97; 98; 99; 110; 116] | None => false end.
Lemma asks_is : forall x, arrival_ok x -> negb (asksb x) = true -> asks_nothing x.
Proof.
  intros x (Hb & _) Q f rest Hf Ed Rq. unfold asksb in Q. rewrite Ed in Hb, Q. rewrite (dec_enc f rest Hf Hb) in Q.
  apply negb_true_iff in Q. assert (X : existsb (Z.eqb (f_esv f)) [96; 97; 98; 99; 110; 116] = true); [|congruence].
  apply existsb_exists. exists (f_esv f). split; [exact Rq|apply Z.eqb_refl].
Qed.
Example C89_tids_example : Forall (Forall asks_nothing) some_waits
  /\ match vrun true net_up net_down std_db (cafter search_one) (AtNode 0) some_waits with
     | Ok (_, _, s, _) => length s = 31%nat | Undef _ => False end.
Proof.
  split; [|vm_compute; reflexivity]. apply (all_is _ (fun x => negb (asksb x))); [exact asks_is|exact waits_ok|vm_compute; reflexivity].
Qed.

(* ---- what a user could expect and does not get ---- *)
(* A device whose manufacturer code is too long leads to undefined behaviour: the bytes are shifted into an int. *)
Theorem C89_manufacturer_refuted : exists x,
  crun true net_up net_down std_db ctrl0 search_one (cafter search_one) /\ arrival_ok x /\ quiet (seen (cafter search_one)) x
  /\ ar_data x = enc_frame (mkFrame (3, 0) node_profile_eoj node_profile_eoj 114 (Plain [(138, [1; 2; 3; 4; 5])]))
  /\ vshow [[x]] = Undef UB_shift.
Proof.
  exists (reply (3, 0) node_profile_eoj [(138, [1; 2; 3; 4; 5])]).
  assert (A : arrival_ok (reply (3, 0) node_profile_eoj [(138, [1; 2; 3; 4; 5])])) by (apply arrival_is; vm_compute; reflexivity).
  split; [exact search_one_run|]. split; [exact A|]. split; [apply quiet_is; [apply A|vm_compute; reflexivity]|]. split; [reflexivity|].
  vm_compute. reflexivity.
Qed.
Print Assumptions C89_manufacturer_refuted.

(* When a request cannot be sent, the controller keeps pointers to two messages that have been deleted: the next frame that
   arrives leads to undefined behaviour. *)
Definition net_lost : post -> bool := fun p => match p with PSend _ _ => false | _ => true end.
Theorem C89_send_refuted : exists x u,
  crun true net_up net_down std_db ctrl0 search_one (cafter search_one) /\ arrival_ok x /\ quiet (seen (cafter search_one)) x
  /\ (exists r, vrun true net_lost net_down std_db (cafter search_one) (AtNode 0) [[]; []] = Ok r)
  /\ vrun true net_lost net_down std_db (cafter search_one) (AtNode 0) [[]; [x]] = Undef u.
Proof.
  exists (got (on_report 115 [48])). eexists.
  assert (A : arrival_ok (got (on_report 115 [48]))) by (apply arrival_is; vm_compute; reflexivity).
  split; [exact search_one_run|]. split; [exact A|]. split; [apply quiet_is; [apply A|vm_compute; reflexivity]|].
  split; [eexists|]; vm_compute; reflexivity.
Qed.
Print Assumptions C89_send_refuted.

(* What is printed as the value of a property may come from another device and be the value of another property: only the
   transaction id is compared. *)
Theorem C89_source_refuted : exists x f d,
  crun true net_up net_down std_db ctrl0 search_one (cafter search_one) /\ arrival_ok x /\ quiet (seen (cafter search_one)) x
  /\ ar_from x <> there /\ ar_data x = enc_frame f /\ f_seoj f = (2, 144, 1) /\ f_body f = Plain [(176, d)] /\ f_esv f = 97
  /\ vshow [[]; []; [x]] = Ok (AtProp 0 0 1, [VDevice (Some there) None; VObject 0 978945; VValue 0 0 128 (Some [d])]).
Proof.
  set (f := mkFrame (4, 0) (2, 144, 1) (1, 48, 1) 97 (Plain [(176, [66])])).
  exists (mkArr (enc_frame f) here "10.0.0.9"%string yes fr0), f, [66].
  assert (A : arrival_ok (mkArr (enc_frame f) here "10.0.0.9"%string yes fr0)) by (apply arrival_is; vm_compute; reflexivity).
  split; [exact search_one_run|]. split; [exact A|]. split; [apply quiet_is; [apply A|vm_compute; reflexivity]|].
  split; [discriminate|]. split; [reflexivity|]. split; [reflexivity|]. split; [reflexivity|]. split; [reflexivity|]. vm_compute. reflexivity.
Qed.
Print Assumptions C89_source_refuted.
