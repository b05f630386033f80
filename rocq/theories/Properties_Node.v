(* C07, C21, C22, C23, C33: nodes, their objects, their node profile and what they send on
   their own.  [le] is the byte order of the host, [net] says which hand-overs to the
   server succeed; both are arbitrary. *)
From Coq Require Import String ZArith List Bool Lia ZifyBool ZifyNat.
From Verif Require Import CSem M_Const M_Misc M_Property M_Message M_PropertyList M_Object M_Node M_NodeListener
  M_NodeThreads StdDB_Data M_Std Spec_Frame Spec_Message Spec_Map Spec_Object Spec_Node Run_Object Run_Node P_Base P_Misc
  P_Message P_Encode P_MsgApi P_PropertyList P_Object P_ObjectRun P_ObjectReach P_Std P_Node P_Request Properties_Object
  P_NodeReach P_NodeProfile P_NodeInv P_NodeRun P_NodeProps.
Import ListNotations.
Open Scope Z_scope.
Ltac Zify.zify_post_hook ::= Z.div_mod_to_equations.

(* ---- nodes for the examples ---- *)

Definition net_up : post -> bool := fun _ => true.
Definition devs (codes : list Z) : list nop := map (fun c => NSet c zeros) codes.
Fixpoint nexec (n : node) (h : list nop) : res (node * list post * list post) :=
  match h with
  | [] => Ok (n, [], [])
  | x :: r =>
      do s <- nstep true net_up std_db n x ;;
      let '(n1, p1, a1) := s in
      do t <- nexec n1 r ;;
      let '(n2, p2, a2) := t in Ok (n2, p1 ++ p2, a1 ++ a2)
  end.
Definition mem_okb (n : node) : bool :=
  forallb (fun o => forallb (fun p => len (p_data p) <=? 1099511627776) (o_props o)) (n_objs n).
Fixpoint nexec_mem (n : node) (h : list nop) : bool :=
  mem_okb n &&
  match h with
  | [] => true
  | x :: r => match nstep true net_up std_db n x with Ok (n1, _, _) => nexec_mem n1 r | _ => false end
  end.

Lemma mem_okb_ok : forall n, mem_okb n = true -> mem_ok n.
Proof.
  intros n H. unfold mem_okb in H. rewrite forallb_forall in H. apply Forall_forall. intros o Io. specialize (H o Io).
  rewrite forallb_forall in H. apply Forall_forall. intros p Ip. specialize (H p Ip). lia.
Qed.

Lemma nexec_run : forall h n n' own ans, Forall (nop_ok true std_db) h -> nexec_mem n h = true ->
  nexec n h = Ok (n', own, ans) -> nrun true net_up std_db n h n' own ans.
Proof.
  induction h as [|x h IH]; intros n n' own ans Hk Hm H; cbn [nexec nexec_mem] in *.
  - injection H as <- <- <-. constructor. apply mem_okb_ok. destruct (mem_okb n); [reflexivity|discriminate].
  - inversion Hk as [|? ? Hx Hr]; subst. apply andb_prop in Hm. destruct Hm as [M1 M2].
    apply bind_ok in H. destruct H as ([[n1 p1] a1] & E & H). apply bind_ok in H. destruct H as ([[n2 p2] a2] & E2 & H).
    injection H as <- <- <-. econstructor; [exact Hx|apply mem_okb_ok; exact M1|exact E|]. apply IH; [assumption| |assumption].
    rewrite E in M2. exact M2.
Qed.

Definition node0 : node :=
  match uecho_node_new true net_up std_db 7 zeros [0;0;0] [1;2;3;4;5;6;7;8;9;10;11;12;13] with
  | Ok (n, _) => n
  | _ => mkNode 0 [] [] None false
  end.

Lemma node0_new : new_node true net_up std_db node0.
Proof.
  exists 7, zeros, [0;0;0], [1;2;3;4;5;6;7;8;9;10;11;12;13]. eexists.
  split; [lia|]. split; [apply zeros_ok|].
  split; [repeat (apply bytes_ok_cons; split; [unfold is_byte; lia|]); constructor|].
  split; [repeat (apply bytes_ok_cons; split; [unfold is_byte; lia|]); constructor|].
  vm_compute. reflexivity.
Qed.

Lemma devs_ok : forall codes, Forall (nop_ok true std_db) (devs codes).
Proof. intros. apply Forall_forall. intros x I. apply in_map_iff in I. destruct I as (c & <- & _). exact zeros_ok. Qed.

(* the node after [h] *)
Definition after (h : list nop) : node := match nexec node0 h with Ok (n, _, _) => n | _ => node0 end.
Lemma after_api : forall h, Forall (nop_ok true std_db) h -> nexec_mem node0 h = true ->
  api_node true net_up std_db (after h).
Proof.
  intros h Hk Hm. unfold after. pose proof node0_new as H0. revert Hm H0. generalize node0. intros n0 Hm H0.
  assert (X : forall h n, nexec_mem n h = true -> exists x, nexec n h = Ok x).
  { clear. induction h as [|x h IH]; intros n H; cbn [nexec nexec_mem] in *; [eauto|].
    apply andb_prop in H. destruct H as [_ H]. destruct (nstep true net_up std_db n x) as [[[n1 p1] a1]|]; [|discriminate].
    cbn [bind]. destruct (IH _ H) as ([[n2 p2] a2] & ->). cbn [bind]. eauto. }
  destruct (X h n0 Hm) as ([[n own] ans] & E). rewrite E. exists n0, h, own, ans. split; [exact H0|].
  apply nexec_run; assumption.
Qed.

(* an air conditioner and a lighting *)
Definition two_devs : list nop := devs [77825; 168193].
Definition node2 : node := after two_devs.
Lemma node2_api : api_node true net_up std_db node2.
Proof. apply after_api; [apply devs_ok|vm_compute; reflexivity]. Qed.

(* ---------- C07: transaction numbers ---------- *)

(* Every frame a node originates carries a TID in 1..65535. *)
Theorem C07_tid_range : forall le net n0 h n own ans,
  new_node le net std_db n0 -> nrun le net std_db n0 h n own ans ->
  Forall (fun p => exists t, tid_of le (post_bytes p) = Some t /\ 1 <= t <= 65535) own.
Proof.
  intros le net n0 h n own ans H0 H. destruct (new_node_ok _ _ _ _ std_db_ok H0) as (N & T & _).
  destruct (nrun_ok _ _ _ _ _ _ _ _ std_db_ok N H) as (_ & _ & k & S & _).
  eapply stamped_range; [exact S|]. rewrite T. lia.
Qed.
Print Assumptions C07_tid_range.

(* Frame number i, counted from 0, carries TID (i mod 65535) + 1, provided that every
   message was sent: no uecho_node_clear and no uecho_node_sendmessage to a node without
   address (those draw a TID and send nothing). *)
Theorem C07_tid_sequence : forall le net n0 h n own ans,
  new_node le net std_db n0 -> nrun le net std_db n0 h n own ans -> Forall gapless h ->
  forall i p, nth_error own i = Some p ->
  tid_of le (post_bytes p) = Some (Z.of_nat i mod 65535 + 1).
Proof.
  intros le net n0 h n own ans H0 H Hg i p E. destruct (new_node_ok _ _ _ _ std_db_ok H0) as (N & T & P).
  destruct (nrun_ok _ _ _ _ _ _ _ _ std_db_ok N H) as (_ & _ & k & S & G).
  rewrite <- tid_iter_0, <- T. eapply stamped_nth; [exact S|auto|rewrite T; lia|exact E].
Qed.
Print Assumptions C07_tid_sequence.

(* Any 65535 consecutive frames carry distinct TIDs. *)
Theorem C07_tid_distinct : forall le net n0 h n own ans,
  new_node le net std_db n0 -> nrun le net std_db n0 h n own ans -> Forall gapless h ->
  forall i j p q, nth_error own i = Some p -> nth_error own j = Some q ->
  (i < j)%nat -> Z.of_nat j < Z.of_nat i + 65535 ->
  tid_of le (post_bytes p) <> tid_of le (post_bytes q).
Proof.
  intros le net n0 h n own ans H0 H Hg i j p q Ei Ej H1 H2.
  rewrite (C07_tid_sequence _ _ _ _ _ _ _ H0 H Hg _ _ Ei), (C07_tid_sequence _ _ _ _ _ _ _ H0 H Hg _ _ Ej).
  intros X. injection X as X. lia.
Qed.
Print Assumptions C07_tid_distinct.

(* with two device objects added, the node has sent ten notifications *)
Example C07_example : exists n own, nrun true net_up std_db node0 two_devs n own []
  /\ Forall gapless two_devs /\ length own = 10%nat
  /\ map (fun p => tid_of true (post_bytes p)) own = map Some [1;2;3;4;5;6;7;8;9;10].
Proof.
  eexists _, _. split; [apply nexec_run; [apply devs_ok|vm_compute; reflexivity|vm_compute; reflexivity]|].
  split; [repeat constructor|]. split; vm_compute; reflexivity.
Qed.

(* One call alone draws the next number, in the model of threads too. *)
Theorem C07_one_thread : forall x, 0 <= x < 4294967295 ->
  tid_sched x [TCheck] [0%nat;0%nat;0%nat;0%nat;0%nat] = (next_tid x, [TDone (next_tid x)]).
Proof. exact tid_alone. Qed.
Print Assumptions C07_one_thread.

(* Two threads can draw the same number: both load lastTid before either stores. *)
Theorem C07_two_threads_refuted : forall x, 0 <= x < 65535 -> exists sched,
  tid_sched x [TCheck; TCheck] sched = (x + 1, [TDone (x + 1); TDone (x + 1)]).
Proof.
  intros x Hx. exists [0;1;0;1;0;1;0;1]%nat. cbn [tid_sched nth_error tid_step firstn skipn app]. unfold uEchoTidMax.
  destruct (Z.leb_spec 65535 x); [lia|]. cbn [tid_sched nth_error tid_step firstn skipn app].
  unfold u32. rewrite Z.mod_small by lia. reflexivity.
Qed.
Print Assumptions C07_two_threads_refuted.

(* They can also leave the range: 65536 is drawn, which a frame carries as 1, and the call
   after it draws 1 again. *)
Theorem C07_two_threads_range_refuted : exists sched,
  tid_sched 65534 [TCheck; TCheck] sched = (65536, [TDone 65535; TDone 65536])
  /\ next_tid 65536 = 1
  /\ forall le, m_tid (uecho_message_settid le 65536 uecho_message_new)
             = m_tid (uecho_message_settid le 1 uecho_message_new).
Proof. exists [0;1;0;0;0;1;1;1]%nat. split; [vm_compute; reflexivity|]. split; [reflexivity|]. intros []; reflexivity. Qed.
Print Assumptions C07_two_threads_range_refuted.

(* ---------- C21: objects are unique by code ---------- *)

Theorem C21_codes_unique : forall le net n, api_node le net std_db n ->
  NoDup (map uecho_object_getcode (n_objs n)) /\ NoDup (eojs n).
Proof.
  intros le net n H. destruct (api_node_ok _ _ _ _ std_db_ok H) as [(_ & A & B & _) _]. split; [exact B|].
  assert (E : map uecho_object_getcode (n_objs n) = map (fun e => fst (fst e) * 65536 + snd (fst e) * 256 + snd e) (eojs n)).
  { unfold eojs. rewrite map_map. apply map_ext_in. intros o I. rewrite Forall_forall in A. apply A in I.
    destruct I as (_ & Hb & _). rewrite (getcode_eq _ Hb). reflexivity. }
  rewrite E in B. eapply NoDup_map_inv. exact B.
Qed.
Print Assumptions C21_codes_unique.

(* An object whose code the node has is refused, and nothing changes. *)
Theorem C21_duplicate_refused : forall le net n o x, uecho_node_getobjectbycode n (uecho_object_getcode o) = Some x ->
  uecho_node_addobject le net n o = Ok (n, [], false).
Proof. intros le net n o x H. unfold uecho_node_addobject. rewrite H. reflexivity. Qed.
Print Assumptions C21_duplicate_refused.

(* Any other object is added: it is found by its code, with the properties it had; the
   objects with other codes are the same, except the node profile, whose properties other
   than D3..D7 are the same; address and listener do not change. *)
Theorem C21_added : forall le net n o, api_node le net std_db n -> api_obj std_db o ->
  uecho_node_getobjectbycode n (uecho_object_getcode o) = None ->
  uecho_node_getobjectbycode n 978945 <> None -> 
  exists n' posts, uecho_node_addobject le net n o = Ok (n', posts, true)
  /\ uecho_node_getobjectbycode n' (uecho_object_getcode o) = Some (uecho_object_attach o)
  /\ o_props (uecho_object_attach o) = o_props o
  /\ (forall c, c <> 978945 -> c <> uecho_object_getcode o ->
        uecho_node_getobjectbycode n' c = uecho_node_getobjectbycode n c)
  /\ (forall c, ~ In c [211; 212; 213; 214; 215] -> node_data n' 978945 c = node_data n 978945 c)
  /\ eojs n' = eojs n ++ [(o_grp o, o_cls o, o_ins o)]
  /\ n_addr n' = n_addr n /\ n_listener n' = n_listener n.
Proof.
  intros le net n o Hn Ho G P. destruct (api_node_ok _ _ _ _ std_db_ok Hn) as [N _].
  destruct (api_winv _ _ std_db_ok Ho) as [He Hb].
  destruct (addobject_total le net n o N He Hb) as (n' & ps & r & E).
  assert (Pr : profile (appended o n) = uecho_node_getobjectbycode n 978945).
  { unfold profile, uecho_node_getobjectbycode in *. cbn [appended n_objs n_with_classes n_with_objs]. rewrite oget_app.
    change uEchoNodeProfileObject with 978945. destruct (oget (n_objs n) 978945); [reflexivity|contradiction]. }
  destruct (addobject_effect le net n o n' ps r N He Hb G) as (-> & A & _ & C & D & F); [congruence|exact E|].
  assert (Hne : uecho_object_getcode o <> 978945) by (intros X; rewrite X in G; contradiction).
  exists n', ps. split; [exact E|]. split; [rewrite C by assumption; rewrite Z.eqb_refl; reflexivity|].
  split; [reflexivity|]. split; [|split; [|split; [exact A|exact F]]].
  - intros c H1 H2. rewrite C by assumption. destruct (Z.eqb_spec c (uecho_object_getcode o)); [contradiction|reflexivity].
  - intros c Hc. specialize (D c Hc). rewrite Pr in D. unfold node_data. unfold profile in D.
    change uEchoNodeProfileObject with 978945 in D.
    destruct (uecho_node_getobjectbycode n' 978945); [|contradiction].
    destruct (uecho_node_getobjectbycode n 978945); [|contradiction]. rewrite D. reflexivity.
Qed.
Print Assumptions C21_added.

Example C21_example : exists o ann, uecho_object_setcode std_db zeros uecho_object_new 77826 = Ok (o, ann)
  /\ api_obj std_db o /\ api_node true net_up std_db node2
  /\ uecho_node_getobjectbycode node2 (uecho_object_getcode o) = None
  /\ (if uecho_node_getobjectbycode node2 978945 then true else false) = true
  /\ (if uecho_node_getobjectbycode node2 77825 then true else false) = true.
Proof.
  destruct (uecho_object_setcode std_db zeros uecho_object_new 77826) as [[o ann]|] eqn:E; [|vm_compute in E; discriminate].
  exists o, ann. split; [reflexivity|]. split; [eapply ao_setcode; [constructor|apply zeros_ok|exact E]|]. split; [exact node2_api|].
  vm_compute in E. injection E as <- <-. repeat split.
Qed.

(* ---------- C22: the node profile describes the node ---------- *)

Definition addition (x : nop) : Prop := match x with NAdd _ | NSet _ _ => True | _ => False end.

(* A new node describes itself, and so does it after any additions. *)
Theorem C22_described : forall le net n0 h n own ans,
  new_node le net std_db n0 -> Forall addition h -> nrun le net std_db n0 h n own ans -> describes n.
Proof.
  intros le net n0 h n own ans H0 Hh H. 
  assert (S : forall db n1 h, db_ok db -> ninv n1 -> profile n1 <> None -> describes n1 -> Forall addition h ->
      forall n own ans, nrun le net db n1 h n own ans -> describes n).
  { clear. intros db n1 h Hdb Hn Hp Hd Hh n own ans H. revert Hn Hp Hd Hh.
    induction H as [n Hm|n x n1 p1 a1 h n' own ans Hx Hm Hs Hr IH]; intros Hn Hp Hd Hh; [assumption|].
    inversion Hh as [|? ? A1 A2]; subst.
    assert (Hm1 : mem_ok n1) by (inversion Hr; assumption).
    destruct (nstep_ok _ _ _ _ _ _ _ _ Hdb Hn Hm Hm1 Hx Hs) as (Hn1 & _ & Pk).
    assert (G : gapless x) by (destruct x; try destruct A1; exact I).
    apply IH; [assumption|auto| |assumption].
    assert (AD : forall o n' ps r, winv o -> codes_byte o -> uecho_node_addobject le net n o = Ok (n', ps, r) -> describes n').
    { intros o n2 ps r He Hb E. destruct (uecho_node_getobjectbycode n (uecho_object_getcode o)) as [y|] eqn:Go.
      - rewrite (C21_duplicate_refused _ _ _ _ _ Go) in E. injection E as <- _ _. assumption.
      - apply addobject_effect in E; [tauto|assumption..|].
        unfold profile, uecho_node_getobjectbycode in *. cbn [appended n_objs n_with_classes n_with_objs]. rewrite oget_app.
        destruct (oget (n_objs n) uEchoNodeProfileObject); [discriminate|contradiction]. }
    destruct x; try destruct A1; cbn [nstep nop_ok] in *.
    - apply bind_ok in Hs. destruct Hs as ([[n2 ps] r] & E & Hs). injection Hs as <- <- <-.
      destruct (api_winv _ _ Hdb Hx) as [He Hb]. eapply AD; eauto.
    - apply bind_ok in Hs. destruct Hs as ([[n2 ps] r] & E & Hs). injection Hs as <- <- <-.
      unfold uecho_node_setobject in E. destruct (uecho_node_getobjectbycode n code); [injection E as <- _ _; assumption|].
      apply bind_ok in E. destruct E as ([o a] & E & E2). cbn [fst] in E2.
      assert (Ho : api_obj db o) by (eapply ao_setcode; [constructor|exact Hx|exact E]).
      destruct (api_winv _ _ Hdb Ho) as [He Hb]. eapply AD; eauto. }
  assert (N : forall db, db_ok db -> new_node le net db n0 -> describes n0).
  { clear. intros db Hdb (tid0 & junk & man & uniq & posts & Ht & Hj & Hm & Hu & H).
    unfold uecho_node_new in H. apply bind_ok in H. destruct H as (o & E & H).
    destruct (profile_new_ok _ _ _ _ _ Hdb Hj Hm Hu E) as (He & Hb & Hc).
    apply bind_ok in H. destruct H as ([[n1 ps] r] & E1 & H). injection H as <- <-.
    change (describes n1). apply addobject_effect in E1; [tauto| |assumption..|reflexivity|].
    - split; [cbn; lia|]. split; [constructor|]. split; [constructor|reflexivity].
    - unfold profile, uecho_node_getobjectbycode, appended. cbn [n_objs n_with_classes n_with_objs app uecho_objectlist_getbycode].
      change (uecho_object_getcode (uecho_object_attach o)) with (uecho_object_getcode o). rewrite Hc. discriminate. }
  destruct (new_node_ok _ _ _ _ std_db_ok H0) as (A & _ & B). eapply S; eauto using std_db_ok.
Qed.
Print Assumptions C22_described.

(* A successful addition makes the profile of any node describe it, whatever happened
   before. *)
Theorem C22_addition_describes : forall le net n o n' posts, api_node le net std_db n -> api_obj std_db o ->
  uecho_node_addobject le net n o = Ok (n', posts, true) -> describes n'.
Proof.
  intros le net n o n' posts Hn Ho E. destruct (api_node_ok _ _ _ _ std_db_ok Hn) as [N _].
  destruct (api_winv _ _ std_db_ok Ho) as [He Hb].
  destruct (uecho_node_getobjectbycode n (uecho_object_getcode o)) as [x|] eqn:G.
  - rewrite (C21_duplicate_refused _ _ _ _ _ G) in E. discriminate.
  - pose proof E as E2. apply addobject_ok in E2; [|assumption..]. destruct E2 as [_ E2]. rewrite G in E2.
    apply addobject_effect in E; [tauto|assumption..|]. intros P. rewrite P in E2. destruct E2 as (_ & _ & E2). discriminate.
Qed.
Print Assumptions C22_addition_describes.

Example C22_example : exists n own, nrun true net_up std_db node0 two_devs n own []
  /\ Forall addition two_devs
  /\ eojs n = [(14, 240, 1); (1, 48, 1); (2, 145, 1)]
  /\ node_data n 978945 213 = Some [2; 1; 48; 1; 2; 145; 1]
  /\ node_data n 978945 212 = Some [0; 3]
  /\ node_data n 978945 215 = Some [2; 1; 48; 2; 145].
Proof.
  eexists _, _. split; [apply nexec_run; [apply devs_ok|vm_compute; reflexivity|vm_compute; reflexivity]|].
  split; [repeat constructor|]. repeat split; vm_compute; reflexivity.
Qed.

(* ---------- C23: the announcement of a node ---------- *)

Lemma announce_spec : forall le net n d, ninv n -> mem_ok n -> node_data n 978945 213 = Some d ->
  let p := PAnnounce (inf_bytes le (next_tid (n_tid n)) (mkProp 213 0 d false)) in
  uecho_node_announce le net n = Ok (n_with_tid (next_tid (n_tid n)) n, [p], net p).
Proof.
  intros le net n d Hn Hm H p. unfold uecho_node_announce, node_data in *. change uEchoNodeProfileObject with 978945.
  destruct (uecho_node_getobjectbycode n 978945) as [o|] eqn:G; [|discriminate].
  change EPC_InstanceListNotification with 213.
  destruct (uecho_object_getproperty o 213) as [q|] eqn:Q; [|discriminate]. cbn [option_map] in H. injection H as H.
  pose proof (ninv_get _ _ _ Hn G) as [Ho _]. pose proof (find_code _ _ _ Q) as [C _].
  assert (A : ann_ok q).
  { apply (snap_ann_ok o); [apply Ho| |].
    - unfold mem_ok in Hm. rewrite Forall_forall in Hm. apply Hm. apply getbycode_in in G. tauto.
    - exists q. rewrite C. split; [exact Q|reflexivity]. }
  destruct (announceproperty_spec le net n (uecho_object_getcode o) q A (proj1 Hn)) as (s & E & N & P).
  rewrite E. cbn [bind]. unfold profile in P. change uEchoNodeProfileObject with 978945 in P. rewrite G in P.
  destruct P as [P R]. rewrite N, P, R.
  assert (I : inf_bytes le (next_tid (n_tid n)) q = inf_bytes le (next_tid (n_tid n)) (mkProp 213 0 d false)).
  { unfold inf_bytes. cbn [p_code p_data]. rewrite C, H. reflexivity. }
  rewrite I. reflexivity.
Qed.

(* uecho_node_announce multicasts one notification from the node profile with the current
   value of D5 only, and changes nothing but the last TID.
   Missing: values longer than 255 bytes (see C23_refuted). *)
Theorem C23_announce_partial : forall le net n d, api_node le net std_db n ->
  node_data n 978945 213 = Some d -> len d <= 255 ->
  let f := notification le (next_tid (n_tid n)) node_profile_eoj 213 d in
  uecho_node_announce le net n
    = Ok (n_with_tid (next_tid (n_tid n)) n, [PAnnounce (enc_frame f)], net (PAnnounce (enc_frame f)))
  /\ frame_ok f.
Proof.
  intros le net n d Hn Hd Hl f. destruct (api_node_ok _ _ _ _ std_db_ok Hn) as [N M].
  assert (Hb : bytes_ok d).
  { unfold node_data in Hd. destruct (uecho_node_getobjectbycode n 978945) as [o|] eqn:G; [|discriminate].
    destruct (uecho_object_getproperty o 213) as [q|] eqn:Q; [|discriminate]. injection Hd as <-.
    pose proof (ninv_get _ _ _ N G) as [(He & _) _]. apply find_code in Q. destruct Q as [_ Q].
    destruct He as [[_ Hp] _]. apply (plist_ok_in _ _ Hp Q). }
  rewrite (announce_spec le net n d N M Hd). cbv zeta. rewrite inf_bytes_enc by exact Hl. split; [reflexivity|].
  pose proof (next_tid_range (n_tid n) (proj1 N)) as T.
  apply notification_ok; [lia|apply node_profile_eoj_ok|unfold is_byte; lia|exact Hb|exact Hl].
Qed.
Print Assumptions C23_announce_partial.

(* For a node built by additions with at most 84 device objects that value is the list of
   its device objects; uecho_node_start sends the same frame. *)
Theorem C23_instance_list_partial : forall le net n0 h n own ans up,
  new_node le net std_db n0 -> Forall addition h -> nrun le net std_db n0 h n own ans ->
  (length (devices (eojs n)) <= 84)%nat ->
  let f := notification le (next_tid (n_tid n)) node_profile_eoj 213 (prof_D6 (eojs n)) in
  let n' := n_with_tid (next_tid (n_tid n)) n in
  uecho_node_announce le net n = Ok (n', [PAnnounce (enc_frame f)], net (PAnnounce (enc_frame f)))
  /\ uecho_node_start le net up n = Ok (n', [PAnnounce (enc_frame f)], up && net (PAnnounce (enc_frame f)))
  /\ frame_ok f
  /\ prof_D6 (eojs n) = Z.of_nat (length (devices (eojs n))) :: concat (map enc_eoj (devices (eojs n))).
Proof.
  intros le net n0 h n own ans up H0 Hh H Hd f n'.
  assert (Ha : api_node le net std_db n) by (exists n0, h, own, ans; auto).
  pose proof (C22_described _ _ _ _ _ _ _ H0 Hh H) as (_ & _ & D & _).
  assert (P : prof_D6 (eojs n) = Z.of_nat (length (devices (eojs n))) :: concat (map enc_eoj (devices (eojs n)))).
  { unfold prof_D6. cbv zeta. rewrite firstn_all2 by lia. reflexivity. }
  assert (L : len (prof_D6 (eojs n)) <= 255).
  { rewrite P, len_cons, (concat_len _ _ enc_eoj 3) by (intros [[? ?] ?]; reflexivity). unfold len. lia. }
  destruct (C23_announce_partial le net n _ Ha D L) as [A B].
  split; [exact A|]. split; [|split; [exact B|exact P]].
  unfold uecho_node_start. rewrite A. reflexivity.
Qed.
Print Assumptions C23_instance_list_partial.

Example C23_example : (length (devices (eojs node2)) <= 84)%nat
  /\ uecho_node_announce true net_up node2 = Ok (n_with_tid 11 node2,
       [PAnnounce [16; 129; 11; 0; 14; 240; 1; 14; 240; 1; 115; 1; 213; 7; 2; 1; 48; 1; 2; 145; 1]], true).
Proof. split; [vm_compute; lia|]. vm_compute. reflexivity. Qed.

(* With 85 device objects the announcement is a frame whose D5 is empty, followed by the
   256 bytes of the list. *)
Definition codes85 : list Z := map (fun i => 77825 + Z.of_nat i) (seq 0 85).
Definition node85 : node := after (devs codes85).
Lemma node85_api : api_node true net_up std_db node85.
Proof. apply after_api; [apply devs_ok|vm_compute; reflexivity]. Qed.

Theorem C23_refuted : exists n n' bytes f rest,
  api_node true net_up std_db n
  /\ length (devices (eojs n)) = 85%nat
  /\ uecho_node_announce true net_up n = Ok (n', [PAnnounce bytes], true)
  /\ dec_frame bytes = Some (f, rest)
  /\ f_body f = Plain [(213, [])] /\ length rest = 256%nat.
Proof.
  exists node85. eexists _, _, _, _. split; [exact node85_api|].
  split; [vm_compute; reflexivity|]. split; [vm_compute; reflexivity|]. split; [vm_compute; reflexivity|].
  split; vm_compute; reflexivity.
Qed.
Print Assumptions C23_refuted.

(* ---------- C33: changes of announceable properties ---------- *)

(* Storing non-empty data into an announceable property that was added to the object
   (uecho_object_addproperty, uecho_object_setproperty or the standard database) of a node
   that has its node profile multicasts exactly one notification, with the new data and
   the next TID.
   Missing: the source is the node profile, not the object (see C33_source_refuted);
   properties created by other calls (see C33_unowned_refuted); empty data (see
   C33_empty_refuted); data longer than 255 bytes. *)
Theorem C33_announced_partial : forall le net n code o c p d k,
  api_node le net std_db n -> uecho_node_getobjectbycode n code = Some o ->
  uecho_object_getproperty o c = Some p -> uecho_property_isannounceable p = true -> p_parent p = true ->
  uecho_node_getobjectbycode n 978945 <> None ->
  bytes_ok d -> d <> [] -> len d <= 255 -> stores c d k ->
  let f := notification le (next_tid (n_tid n)) node_profile_eoj c d in
  exists n', node_object_op le net (odo k) n code = Ok (n', [PAnnounce (enc_frame f)])
  /\ frame_ok f
  /\ node_data n' code c = Some d
  /\ (forall code' c', (code', c') <> (code, c) -> node_data n' code' c' = node_data n code' c')
  /\ n_tid n' = next_tid (n_tid n).
Proof.
  intros le net n code o c p d k Hn G F A P Q Hd Hne Hl S f. destruct (api_node_ok _ _ _ _ std_db_ok Hn) as [N _].
  rewrite (node_store le net n code o c p d k N G F Hd) by (unfold DATA_MAX; lia || assumption).
  pose proof (ninv_get _ _ _ N G) as [(He & _) Hc].
  pose proof F as F'. apply find_code in F'. destruct F' as [C I].
  assert (Ea : announced p d = [put_data d p]).
  { unfold announced. destruct d; [contradiction|]. rewrite A, P. reflexivity. }
  rewrite Ea. unfold profile. change uEchoNodeProfileObject with 978945.
  destruct (uecho_node_getobjectbycode n 978945); [|contradiction].
  eexists. split; [|split; [|apply and_assoc; split]].
  - f_equal. f_equal. cbn [infs]. rewrite inf_bytes_enc by exact Hl. cbn [put_data p_code p_data]. rewrite C. reflexivity.
  - pose proof (next_tid_range (n_tid n) (proj1 N)) as T.
    apply notification_ok; [lia|apply node_profile_eoj_ok| |exact Hd|exact Hl].
    destruct He as [[_ Hp] _]. rewrite <- C. apply (plist_ok_in _ _ Hp I).
  - apply node_data_store; assumption.
  - reflexivity.
Qed.
Print Assumptions C33_announced_partial.

(* Storing into a property that is not announceable sends nothing and draws no TID. *)
Theorem C33_others_silent : forall le net n code o c p d k,
  api_node le net std_db n -> uecho_node_getobjectbycode n code = Some o ->
  uecho_object_getproperty o c = Some p -> uecho_property_isannounceable p = false ->
  bytes_ok d -> len d <= 1099511627776 -> stores c d k ->
  exists n', node_object_op le net (odo k) n code = Ok (n', [])
  /\ node_data n' code c = Some d
  /\ (forall code' c', (code', c') <> (code, c) -> node_data n' code' c' = node_data n code' c')
  /\ n_tid n' = n_tid n.
Proof.
  intros le net n code o c p d k Hn G F A Hd Hl S. destruct (api_node_ok _ _ _ _ std_db_ok Hn) as [N _].
  rewrite (node_store le net n code o c p d k N G F Hd Hl S).
  pose proof (ninv_get _ _ _ N G) as [_ Hc].
  assert (Ea : announced p d = []) by (unfold announced; destruct d; [reflexivity|]; rewrite A; reflexivity).
  rewrite Ea. eexists. split; [destruct (profile n); reflexivity|]. apply and_assoc. split; [|reflexivity].
  apply node_data_store; assumption.
Qed.
Print Assumptions C33_others_silent.

(* two more properties: 0xF0 by uecho_object_setpropertyattribute, 0xF1 read only *)
Definition unowned : list nop :=
  two_devs ++ [NObj 77825 (KStep (OSetAttr 240 64) zeros); NObj 77825 (KStep (OAdd 241 1 [5]) zeros)].
Definition node2u : node := after unowned.
Lemma unowned_ok : Forall (nop_ok true std_db) unowned.
Proof.
  apply Forall_app. split; [apply devs_ok|].
  constructor; [|constructor; [|constructor]]; (split; [|split; [intros c E; injection E as <-; unfold epc_code; lia|exact zeros_ok]]).
  - split; [cbn; lia|exact I].
  - split; [cbn; lia|]. repeat constructor; lia.
Qed.
Lemma node2u_api : api_node true net_up std_db node2u.
Proof. apply after_api; [exact unowned_ok|vm_compute; reflexivity]. Qed.
Definition acon (c : Z) : option (bool * bool) :=
  match uecho_node_getobjectbycode node2u 77825 with
  | Some o => option_map (fun p => (uecho_property_isannounceable p, p_parent p)) (uecho_object_getproperty o c)
  | None => None
  end.
Example C33_example : stores 128 [49] (KStep (OSetData 128 [49]) zeros)
  /\ acon 128 = Some (true, true) /\ acon 241 = Some (false, true).
Proof. split; [exists zeros; auto|]. split; vm_compute; reflexivity. Qed.

(* The source of the notification is the node profile, not the air conditioner. *)
Theorem C33_source_refuted : exists n o p n' bytes f rest,
  api_node true net_up std_db n /\ uecho_node_getobjectbycode n 77825 = Some o
  /\ uecho_object_getproperty o 128 = Some p /\ uecho_property_isannounceable p = true
  /\ node_object_op true net_up (odo (KStep (OSetData 128 [49]) zeros)) n 77825 = Ok (n', [PAnnounce bytes])
  /\ dec_frame bytes = Some (f, rest)
  /\ (o_grp o, o_cls o, o_ins o) = (1, 48, 1) /\ f_seoj f = (14, 240, 1).
Proof.
  exists node2. do 6 eexists. split; [exact node2_api|]. split; [vm_compute; reflexivity|]. split; [vm_compute; reflexivity|].
  split; [vm_compute; reflexivity|]. split; [vm_compute; reflexivity|]. split; [vm_compute; reflexivity|].
  split; vm_compute; reflexivity.
Qed.
Print Assumptions C33_source_refuted.

(* A property made announceable by uecho_object_setpropertyattribute, which creates it, is
   stored but not announced. *)
Theorem C33_unowned_refuted : exists n o p n',
  api_node true net_up std_db n /\ uecho_node_getobjectbycode n 77825 = Some o
  /\ uecho_object_getproperty o 240 = Some p /\ uecho_property_isannounceable p = true
  /\ node_object_op true net_up (odo (KStep (OSetData 240 [1]) zeros)) n 77825 = Ok (n', [])
  /\ node_data n' 77825 240 = Some [1].
Proof.
  exists node2u. do 3 eexists. split; [exact node2u_api|]. split; [vm_compute; reflexivity|]. split; [vm_compute; reflexivity|].
  split; [vm_compute; reflexivity|]. split; [vm_compute; reflexivity|]. vm_compute; reflexivity.
Qed.
Print Assumptions C33_unowned_refuted.

(* Storing empty data is not announced. *)
Theorem C33_empty_refuted : exists n o p n',
  api_node true net_up std_db n /\ uecho_node_getobjectbycode n 77825 = Some o
  /\ uecho_object_getproperty o 128 = Some p /\ uecho_property_isannounceable p = true /\ p_parent p = true
  /\ node_object_op true net_up (odo (KStep (OSetData 128 []) zeros)) n 77825 = Ok (n', []).
Proof.
  exists node2. do 3 eexists. split; [exact node2_api|]. split; [vm_compute; reflexivity|]. split; [vm_compute; reflexivity|].
  split; [vm_compute; reflexivity|]. split; [vm_compute; reflexivity|]. vm_compute; reflexivity.
Qed.
Print Assumptions C33_empty_refuted.
