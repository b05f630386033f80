(* C34, C35, C36, C38: what a controller learns from the frames it receives, and its options.
   [le] is the byte order of the host, [net] and [snet] say which hand-overs to the servers
   succeed, [dec] is the behaviour of the local node's handlers and [fr] stands for
   uninitialised memory and random numbers; all are arbitrary. *)
From Coq Require Import String ZArith List Bool Lia ZifyBool ZifyNat.
From Verif Require Import CSem M_Const M_Misc M_Property M_Message M_PropertyList M_Object M_Node M_NodeListener M_Controller
  StdDB_Data M_Std Spec_Frame Spec_Message Spec_Map Spec_Object Spec_Node Spec_Request Spec_Controller Run_Object Run_Node
  Run_Controller P_Base P_Misc P_Message P_Encode P_MsgApi P_PropertyList P_Object P_ObjectRun P_ObjectReach P_Std P_Node
  P_Request Properties_Object P_NodeReach P_NodeProfile P_NodeInv P_NodeRun P_NodeProps P_RequestProps P_RequestApi P_NodeSafe
  P_Shadow P_Controller P_ControllerProps Properties_Node Properties_Request.
Import ListNotations.
Open Scope Z_scope.
Ltac Zify.zify_post_hook ::= Z.div_mod_to_equations.

(* ---- a controller for the examples ---- *)

Definition net_down : post -> bool := fun _ => false.
Definition fr0 : fresh := mkFresh 7 zeros [0;0;0] [1;2;3;4;5;6;7;8;9;10;11;12;13] (fun _ => zeros).
Lemma fr0_ok : fresh_ok fr0.
Proof.
  split; [cbn; lia|]. split; [apply zeros_ok|]. split; [apply is_byteb_val; reflexivity|].
  split; [apply is_byteb_val; reflexivity|]. intros k. apply zeros_ok.
Qed.

Definition ctrl0 : ctrl :=
  match uecho_controller_new true net_up std_db fr0 false with Ok (c, _) => c | _ => mkCtrl node0 [] false false 0 MNull MNull end.
Lemma ctrl0_new : new_ctrl true net_up std_db ctrl0.
Proof. exists fr0, false. eexists. split; [apply fr0_ok|]. vm_compute. reflexivity. Qed.

Fixpoint cexec (c : ctrl) (h : list cop) : res (ctrl * list ctold) :=
  match h with
  | [] => Ok (c, [])
  | x :: r =>
      do s <- cstep true net_up net_down std_db c x ;;
      do t <- cexec (co_ctrl s) r ;; Ok (fst t, co_told s ++ snd t)
  end.
Definition cmem_okb (c : ctrl) : bool := mem_okb (c_node c) && forallb mem_okb (c_nodes c).
Fixpoint cexec_mem (c : ctrl) (h : list cop) : bool :=
  cmem_okb c &&
  match h with
  | [] => true
  | x :: r => match cstep true net_up net_down std_db c x with Ok s => cexec_mem (co_ctrl s) r | _ => false end
  end.

Lemma cmem_okb_ok : forall c, cmem_okb c = true -> cmem_ok c.
Proof.
  intros c H. apply andb_prop in H. destruct H as [A B]. split; [apply mem_okb_ok; exact A|]. apply Forall_forall. intros n I.
  apply mem_okb_ok. rewrite forallb_forall in B. apply B. exact I.
Qed.

Lemma cexec_trace : forall h c, Forall (cop_ok true std_db) h -> cexec_mem c h = true ->
  exists c' told, cexec c h = Ok (c', told) /\ ctrace true net_up net_down std_db c h c' told
                  /\ crun true net_up net_down std_db c h c'.
Proof.
  induction h as [|x h IH]; intros c Hk Hm; cbn [cexec cexec_mem] in *; apply andb_prop in Hm; destruct Hm as [M Hm];
    apply cmem_okb_ok in M.
  - exists c, []. split; [reflexivity|]. split; constructor; exact M.
  - inversion Hk as [|? ? K1 K2]; subst. destruct (cstep true net_up net_down std_db c x) as [s|] eqn:E; [|discriminate].
    destruct (IH _ K2 Hm) as (c' & told & E1 & T & R). exists c', (co_told s ++ told). cbn [bind]. rewrite E1. cbn [bind fst snd].
    split; [reflexivity|]. split; econstructor; eauto.
Qed.

Definition cafter (h : list cop) : ctrl := match cexec ctrl0 h with Ok (c, _) => c | _ => ctrl0 end.
Lemma cafter_api : forall h, Forall (cop_ok true std_db) h -> cexec_mem ctrl0 h = true ->
  api_ctrl true net_up net_down std_db (cafter h).
Proof.
  intros h Hk Hm. pose proof ctrl0_new as H0. unfold cafter. revert H0 Hm. generalize ctrl0. intros c0 H0 Hm.
  destruct (cexec_trace h c0 Hk Hm) as (c' & told & E & _ & R). rewrite E. exists c0, h. auto.
Qed.

(* the device at 10.0.0.2 *)
Definition dev_list (tid : Z * Z) (esv : Z) (d : list Z) : frame :=
  mkFrame tid node_profile_eoj node_profile_eoj esv (Plain [(214, d)]).
(* an air conditioner and a lighting *)
Definition two_listed : frame := dev_list (9, 8) 114 [2; 1; 48; 1; 2; 145; 1].
Definition from_dev (f : frame) : cop := CReceive (enc_frame f) here (Some there) yes fr0.

Definition frame_okb (f : frame) : bool :=
  forallb (fun b => (0 <=? b) && (b <? 256)) (enc_frame f) && (len (enc_frame f) <=? 1000).
Lemma from_dev_ok : forall f, frame_okb f = true -> cop_ok true std_db (from_dev f).
Proof.
  intros f H. apply andb_prop in H. destruct H as [H L]. apply is_byteb_val in H. split; [|apply fr0_ok]. split; [exact H|].
  unfold OBJ_MAX, PTRDIFF_MAX. lia.
Qed.

(* the reactions of [c] to [f] *)
Definition chear (c : ctrl) (f : frame) : reaction * creaction :=
  match ctrl_receive true net_up net_down std_db yes fr0 c (enc_frame f) here (Some there) with
  | Ok (Some x, y) => (x, y)
  | _ => (mkReaction (c_node c) [] [] [] [], mkCr c [] false)
  end.
Lemma chear_hears : forall c f, api_ctrl true net_up net_down std_db c -> frame_okb f = true ->
  dec_frame (enc_frame f) = Some (f, []) ->
  match ctrl_receive true net_up net_down std_db yes fr0 c (enc_frame f) here (Some there) with Ok (Some _, _) => true | _ => false end = true ->
  hears true net_up net_down std_db yes fr0 c f [] here there (fst (chear c f)) (snd (chear c f)).
Proof.
  intros c f Hc Hb Hd Hr. apply andb_prop in Hb. destruct Hb as [Hb L]. destruct (frame_checks _ Hb Hd) as [F B].
  split; [exact Hc|]. split; [exact F|]. rewrite app_nil_r. split; [split; [exact B|unfold OBJ_MAX, PTRDIFF_MAX; lia]|].
  split; [apply fr0_ok|]. unfold chear. revert Hr. clear.
  generalize (ctrl_receive true net_up net_down std_db yes fr0 c (enc_frame f) here (Some there)).
  intros [[[r|] y]|] H; try discriminate. reflexivity.
Qed.

(* both listeners are registered; then the device has been heard *)
Definition listening : list cop := [CMsgListener true; CNodeListener true].
Definition ctrl1 : ctrl := cafter listening.
Lemma ctrl1_api : api_ctrl true net_up net_down std_db ctrl1.
Proof. apply cafter_api; [repeat constructor|vm_compute; reflexivity]. Qed.
Definition ctrl2 : ctrl := cafter (listening ++ [from_dev two_listed]).
Lemma ctrl2_api : api_ctrl true net_up net_down std_db ctrl2.
Proof.
  apply cafter_api; [|vm_compute; reflexivity]. apply Forall_app. split; [repeat constructor|].
  constructor; [apply from_dev_ok; vm_compute; reflexivity|constructor].
Qed.

(* ---------- C34: search responses ---------- *)

(* [is_search_response f d]: a read response, notification or notification response that
   holds just the instance list [d].  The controller then has one node for the sender, whose
   objects are those known before and those listed; the nodes of other senders are as they
   were. *)
Theorem C34_learned : forall le net snet dec fr c f rest la a x y z r,
  hears le net snet std_db dec fr c f rest la a x y -> is_search_response f (z :: r) ->
  let c' := cr_ctrl y in
  NoDup (addresses c')
  /\ (exists n', uecho_controller_getnodebyaddress c' (Some a) = Some n'
      /\ filter (fun n => uecho_node_isaddress n (Some a)) (c_nodes c') = [n']
      /\ NoDup (eojs n')
      /\ (forall e, In e (eojs n') <-> In e (known_eojs c a) \/ In e (listed (z :: r)))
      /\ (forall e, In e (listed (z :: r)) ->
            exists o, uecho_node_getobjectbycode n' (eoj_code e) = Some o /\ (o_grp o, o_cls o, o_ins o) = e))
  /\ (forall b, b <> a -> uecho_controller_getnodebyaddress c' (Some b) = uecho_controller_getnodebyaddress c (Some b))
  /\ addresses c' = (if uecho_controller_getnodebyaddress c (Some a) then addresses c else addresses c ++ [Some a]).
Proof.
  intros le net snet dec fr c f rest la a x y z r H Hs c'.
  destruct (hears_spec le net snet std_db std_db_ok _ _ _ _ _ _ _ _ _ H) as (Hc & M & _ & N1 & _ & E & Hh & Hc').
  destruct (search_effect le net snet std_db std_db_ok _ _ _ _ _ _ _ _ _ _ _ H Hs) as (n' & G & Nn & Ee & Ho & Ea).
  assert (Hk : Forall eoj_ok (known_eojs c a)).
  { unfold known_eojs. destruct (uecho_controller_getnodebyaddress c (Some a)) as [n|] eqn:B.
    - apply eojs_ok. apply Ea.
    - constructor; [apply node_profile_eoj_ok|constructor]. }
  assert (Hl : Forall eoj_ok (triples r)).
  { destruct H as (_ & Hf & _). destruct Hf as (_ & _ & _ & _ & _ & Hb). destruct Hs as [_ Hs]. rewrite Hs in Hb.
    destruct Hb as (_ & Hb & _). inversion Hb as [|? ? (_ & Hb1 & _) _]; subst. apply bytes_of_vals in Hb1.
    cbn [snd] in Hb1. inversion Hb1; subst. apply (triples_ok (length r)); [lia|assumption]. }
  destruct (learn_ok (triples r) (known_eojs c a) Hk Hl) as (_ & L & _).
  split; [apply Hc'|]. split.
  - exists n'. split; [exact G|]. split; [apply byaddress_unique; [apply Hc'|exact G]|]. split; [apply eojs_nodup; exact Nn|].
    split; [intros e; rewrite Ee; apply L|]. intros e I. apply eojs_get; [exact Nn|]. rewrite Ee. apply L. right. exact I.
  - split; [exact Ho|]. destruct (uecho_controller_getnodebyaddress c (Some a)); apply Ea.
Qed.
Print Assumptions C34_learned.

(* A node known before is kept: its objects are the same, except the node profile, whose
   properties other than D3..D7 are the same. *)
Theorem C34_kept : forall le net snet dec fr c f rest la a x y z r n,
  hears le net snet std_db dec fr c f rest la a x y -> is_search_response f (z :: r) ->
  uecho_controller_getnodebyaddress c (Some a) = Some n ->
  exists n', uecho_controller_getnodebyaddress (cr_ctrl y) (Some a) = Some n'
  /\ (forall code, code <> 978945 -> uecho_node_getobjectbycode n code <> None ->
        uecho_node_getobjectbycode n' code = uecho_node_getobjectbycode n code)
  /\ (forall epc, ~ In epc [211; 212; 213; 214; 215] -> node_data n' 978945 epc = node_data n 978945 epc)
  /\ n_listener n' = n_listener n
  /\ ((forall e, In e (listed (z :: r)) -> In e (eojs n)) -> n' = n).
Proof.
  intros le net snet dec fr c f rest la a x y z r n H Hs B.
  destruct (search_effect le net snet std_db std_db_ok _ _ _ _ _ _ _ _ _ _ _ H Hs) as (n' & G & Nn & Ee & Ho & Ea).
  unfold known_eojs in Ee. rewrite B in Ea, Ee. destruct Ea as (_ & _ & N & S). exists n'. split; [exact G|].
  destruct S as [S1 S2 S3 S4 S5 S6 S7 S8 S9]. split; [exact S6|]. split; [exact S7|]. split; [exact S5|].
  intros K. apply S8. rewrite Ee.
  assert (Hl : Forall eoj_ok (triples r)).
  { destruct H as (_ & Hf & _). destruct Hf as (_ & _ & _ & _ & _ & Hb). destruct Hs as [_ Hs]. rewrite Hs in Hb.
    destruct Hb as (_ & Hb & _). inversion Hb as [|? ? (_ & Hb1 & _) _]; subst. apply bytes_of_vals in Hb1.
    cbn [snd] in Hb1. inversion Hb1; subst. apply (triples_ok (length r)); [lia|assumption]. }
  destruct (learn_ok (triples r) (eojs n) (eojs_ok _ N) Hl) as (_ & _ & L & _). apply L. exact K.
Qed.
Print Assumptions C34_kept.

(* The message listener is called, then the node listener: Added for a new node, Updated
   when the known node did not have all listed objects. *)
Theorem C34_told : forall le net snet dec fr c f rest la a x y z r,
  hears le net snet std_db dec fr c f rest la a x y -> is_search_response f (z :: r) ->
  let msg := if c_msglistener c then [ToldMsg] else [] in
  let tell s := if c_nodelistener c then [ToldStatus (Some a) s] else [] in
  match uecho_controller_getnodebyaddress c (Some a) with
  | None => cr_told y = msg ++ tell StAdded
  | Some n => ((forall e, In e (listed (z :: r)) -> In e (eojs n)) -> cr_told y = msg)
              /\ ((exists e, In e (listed (z :: r)) /\ ~ In e (eojs n)) -> cr_told y = msg ++ tell StUpdated)
  end.
Proof.
  intros le net snet dec fr c f rest la a x y z r H Hs msg tell.
  destruct (search_effect le net snet std_db std_db_ok _ _ _ _ _ _ _ _ _ _ _ H Hs) as (n' & G & Nn & Ee & Ho & Ea).
  unfold known_eojs in Ee. destruct (uecho_controller_getnodebyaddress c (Some a)) as [n|] eqn:B; [|apply Ea].
  destruct Ea as (_ & Et & N & S).
  assert (Hl : Forall eoj_ok (triples r)).
  { destruct H as (_ & Hf & _). destruct Hf as (_ & _ & _ & _ & _ & Hb). destruct Hs as [_ Hs]. rewrite Hs in Hb.
    destruct Hb as (_ & Hb & _). inversion Hb as [|? ? (_ & Hb1 & _) _]; subst. apply bytes_of_vals in Hb1.
    cbn [snd] in Hb1. inversion Hb1; subst. apply (triples_ok (length r)); [lia|assumption]. }
  destruct (learn_ok (triples r) (eojs n) (eojs_ok _ N) Hl) as (_ & _ & L1 & L2). rewrite Et, Ee. split; intros K.
  - rewrite (L1 K), Nat.eqb_refl. cbn [negb]. rewrite andb_false_r. apply app_nil_r.
  - specialize (L2 K). destruct (Nat.eqb_spec (length (learn (eojs n) (triples r))) (length (eojs n))); [contradiction|].
    cbn [negb]. rewrite andb_true_r. reflexivity.
Qed.
Print Assumptions C34_told.

(* the device is heard for the first time, again, and with one object more *)
Definition more_listed : frame := dev_list (9, 9) 115 [3; 1; 48; 1; 2; 145; 1; 2; 145; 2].
Example C34_example :
  let y := snd (chear ctrl1 two_listed) in let y2 := snd (chear ctrl2 two_listed) in let y3 := snd (chear ctrl2 more_listed) in
  hears true net_up net_down std_db yes fr0 ctrl1 two_listed [] here there (fst (chear ctrl1 two_listed)) y
  /\ is_search_response two_listed [2; 1; 48; 1; 2; 145; 1]
  /\ hears true net_up net_down std_db yes fr0 ctrl2 two_listed [] here there (fst (chear ctrl2 two_listed)) y2
  /\ hears true net_up net_down std_db yes fr0 ctrl2 more_listed [] here there (fst (chear ctrl2 more_listed)) y3
  /\ is_search_response more_listed [3; 1; 48; 1; 2; 145; 1; 2; 145; 2]
  /\ known_eojs (cr_ctrl y) there = [(14, 240, 1); (1, 48, 1); (2, 145, 1)]
  /\ cr_told y = [ToldMsg; ToldStatus (Some there) StAdded] /\ cr_told y2 = [ToldMsg]
  /\ known_eojs (cr_ctrl y3) there = [(14, 240, 1); (1, 48, 1); (2, 145, 1); (2, 145, 2)]
  /\ cr_told y3 = [ToldMsg; ToldStatus (Some there) StUpdated].
Proof.
  cbv zeta. split; [apply chear_hears; [exact ctrl1_api|vm_compute; reflexivity..]|].
  split; [split; [left; reflexivity|reflexivity]|].
  split; [apply chear_hears; [exact ctrl2_api|vm_compute; reflexivity..]|].
  split; [apply chear_hears; [exact ctrl2_api|vm_compute; reflexivity..]|].
  split; [split; [right; left; reflexivity|reflexivity]|].
  repeat (split; [vm_compute; reflexivity|]). vm_compute; reflexivity.
Qed.

(* Over every history without uecho_controller_start, which forgets the nodes: known
   addresses stay known, in order; the listener is told Added at most once per address, only
   for addresses not known before, and known from then on. *)
Theorem C34_added_once : forall le net snet c h c' told,
  api_ctrl le net snet std_db c -> ctrace le net snet std_db c h c' told -> Forall no_start h ->
  NoDup (addresses c')
  /\ (exists new, addresses c' = addresses c ++ new)
  /\ NoDup (added told)
  /\ (forall a, In a (added told) -> ~ In a (addresses c) /\ In a (addresses c')).
Proof.
  intros le net snet c h c' told Ha H Hn. destruct (api_ctrl_ok le net snet std_db std_db_ok c Ha) as [Hc _].
  destruct (trace_added le net snet std_db std_db_ok _ _ _ _ H Hc Hn) as (A1 & A2 & A3 & l & A4).
  assert (Nc : NoDup (addresses c')).
  { clear - H Hc. induction H as [c M|c x out h c' told Hx M S R IH]; [apply Hc|]. apply IH.
    assert (M' : cmem_ok (co_ctrl out)) by (inversion R; assumption).
    exact (cstep_ok le net snet std_db std_db_ok _ _ _ Hc M M' Hx S). }
  split; [exact Nc|]. split; [exists l; exact A4|]. split; [exact A1|]. intros a I. split; [apply A2; exact I|apply A3; exact I].
Qed.
Print Assumptions C34_added_once.

Definition heard_twice : list cop := [from_dev two_listed; from_dev two_listed; from_dev more_listed].
Example C34_added_once_example : exists c' told,
  api_ctrl true net_up net_down std_db ctrl1 /\ Forall no_start heard_twice
  /\ ctrace true net_up net_down std_db ctrl1 heard_twice c' told /\ addresses c' = [Some there] /\ added told = [Some there].
Proof.
  assert (Hk : Forall (cop_ok true std_db) heard_twice)
    by (repeat (constructor; [apply from_dev_ok; vm_compute; reflexivity|]); constructor).
  assert (Hm : cexec_mem ctrl1 heard_twice = true) by (vm_compute; reflexivity).
  assert (V : match cexec ctrl1 heard_twice with
              | Ok (c, t) => match addresses c, added t with
                             | [Some a], [Some b] => String.eqb a there && String.eqb b there | _, _ => false end
              | _ => false end = true) by (vm_compute; reflexivity).
  pose proof ctrl1_api as Ha. revert Ha Hm V. generalize ctrl1. intros c0 Ha Hm V.
  destruct (cexec_trace heard_twice c0 Hk Hm) as (c' & told & E & T & _). rewrite E in V. exists c', told. split; [exact Ha|].
  split; [repeat constructor|]. split; [exact T|].
  destruct (addresses c') as [|[a|] [|? ?]]; try discriminate V.
  destruct (added told) as [|[b|] [|? ?]]; try discriminate V. apply andb_prop in V. destruct V as [V1 V2].
  apply String.eqb_eq in V1, V2. subst. auto.
Qed.

(* A read response that holds the instance list and another property registers nothing,
   although a device that is asked for both answers so. *)
Theorem C34_with_others_refuted : exists x y d,
  let f := mkFrame (9, 8) node_profile_eoj node_profile_eoj 114 (Plain [(214, d); (128, [48])]) in
  hears true net_up net_down std_db yes fr0 ctrl1 f [] here there x y
  /\ listed d = [(1, 48, 1)] /\ c_nodes (cr_ctrl y) = [].
Proof.
  exists (fst (chear ctrl1 (mkFrame (9, 8) node_profile_eoj node_profile_eoj 114 (Plain [(214, [1; 1; 48; 1]); (128, [48])])))).
  exists (snd (chear ctrl1 (mkFrame (9, 8) node_profile_eoj node_profile_eoj 114 (Plain [(214, [1; 1; 48; 1]); (128, [48])])))).
  exists [1; 1; 48; 1]. cbv zeta. split; [apply chear_hears; [exact ctrl1_api|vm_compute; reflexivity..]|].
  split; vm_compute; reflexivity.
Qed.
Print Assumptions C34_with_others_refuted.

(* ---------- C35: other frames ---------- *)

Theorem C35_other_frames : forall le net snet dec fr c f rest la a x y,
  hears le net snet std_db dec fr c f rest la a x y -> no_search f ->
  let c' := cr_ctrl y in
  addresses c' = addresses c /\ map eojs (c_nodes c') = map eojs (c_nodes c)
  /\ (forall b, b <> a -> uecho_controller_getnodebyaddress c' (Some b) = uecho_controller_getnodebyaddress c (Some b))
  /\ c_option c' = c_option c /\ c_msglistener c' = c_msglistener c /\ c_nodelistener c' = c_nodelistener c.
Proof.
  intros le net snet dec fr c f rest la a x y H Hs c'.
  destruct (other_effect le net snet std_db std_db_ok _ _ _ _ _ _ _ _ _ H Hs) as (A & B & C).
  destruct (hears_spec le net snet std_db std_db_ok _ _ _ _ _ _ _ _ _ H) as (_ & _ & _ & _ & _ & E & _).
  split; [exact A|]. split; [exact B|]. split; [exact C|]. unfold c'. rewrite E. auto.
Qed.
Print Assumptions C35_other_frames.

(* The nodes are the very same unless a known object of a known sender reports values to an
   object of the controller. *)
Theorem C35_no_report : forall le net snet dec fr c f rest la a x y,
  hears le net snet std_db dec fr c f rest la a x y -> no_search f ->
  ~ (update_esv (f_esv f) /\ knows c a (eoj_code (f_seoj f))
     /\ uecho_node_getobjectbycode (c_node c) (eoj_code (f_deoj f)) <> None) ->
  c_nodes (cr_ctrl y) = c_nodes c.
Proof.
  intros le net snet dec fr c f rest la a x y H Hs Hn. exact (unheard le net snet std_db std_db_ok _ _ _ _ _ _ _ _ _ H Hs Hn).
Qed.
Print Assumptions C35_no_report.

(* A frame from an unknown address: nothing but the local node's own reaction, the message
   listener and a waiting post. *)
Theorem C35_unknown_sender : forall le net snet dec fr c f rest la a x y,
  hears le net snet std_db dec fr c f rest la a x y -> no_search f ->
  uecho_controller_getnodebyaddress c (Some a) = None ->
  node_receive le net dec (c_node c) (enc_frame f ++ rest) la (Some a) = Ok x
  /\ cr_ctrl y = c_with_post (c_req c) (c_res (cr_ctrl y)) (c_with_node (r_node x) c)
  /\ cr_told y = if c_msglistener c then [ToldMsg] else [].
Proof.
  intros le net snet dec fr c f rest la a x y H Hs B.
  destruct (hears_spec le net snet std_db std_db_ok _ _ _ _ _ _ _ _ _ H) as (Hc & M & NR & N1 & Eo & E & Hh & _).
  unfold uecho_controller_getnodebyaddress in B. split; [exact NR|].
  inversion Hh as [I1 I2 El Et|z' r' a' n0 n' Sd Ef B1 Nn S El Et|z' r' a' n1 n' Sd Ef B1 S El Et
                  |a' n1 Sd Ef G B1 U El Et|a' n1 n' o o' u Sd Ef G B1 U Go1 T Hk1 Hk Hu1 El Et]; cbn [c_with_node c_nodes c_node] in *;
    try congruence.
  - split; [|reflexivity]. rewrite <- El in E. exact E.
  - apply search_data_iff in Sd. destruct (Hs _ _ Sd).
Qed.
Print Assumptions C35_unknown_sender.

(* A datagram that is not a frame changes nothing at all. *)
Theorem C35_malformed : forall le net snet dec fr c data la ra r,
  api_ctrl le net snet std_db c -> buffer data -> fresh_ok fr -> (forall f rest, frame_ok f -> data <> enc_frame f ++ rest) ->
  ctrl_receive le net snet std_db dec fr c data la ra = Ok r -> r = (None, mkCr c [] false).
Proof.
  intros le net snet dec fr c data la ra r Ha Hb Hfr Hn H. destruct (api_ctrl_ok le net snet std_db std_db_ok c Ha) as [Hc M].
  apply ctrl_receive_spec in H; [|exact Hc|apply M|exact Hb|exact Hfr]. destruct (dec_frame data) as [[f rest]|]; [|exact H].
  destruct H as (x & y & _ & Hf & E & _). destruct (Hn f rest Hf E).
Qed.
Print Assumptions C35_malformed.

Definition on_report (esv : Z) (d : list Z) : frame :=
  mkFrame (9, 8) (1, 48, 1) node_profile_eoj esv (Plain [(128, d)]).
Example C35_example :
  let y := snd (chear ctrl1 (on_report 115 [48])) in let y2 := snd (chear ctrl2 (on_report 113 [])) in
  hears true net_up net_down std_db yes fr0 ctrl1 (on_report 115 [48]) [] here there (fst (chear ctrl1 (on_report 115 [48]))) y
  /\ no_search (on_report 115 [48]) /\ uecho_controller_getnodebyaddress ctrl1 (Some there) = None
  /\ hears true net_up net_down std_db yes fr0 ctrl2 (on_report 113 []) [] here there (fst (chear ctrl2 (on_report 113 []))) y2
  /\ no_search (on_report 113 []) /\ ~ update_esv 113
  /\ addresses (cr_ctrl y2) = [Some there] /\ cr_told y = [ToldMsg] /\ cr_told y2 = [ToldMsg; ToldStatus (Some there) StResponded].
Proof.
  cbv zeta. split; [apply chear_hears; [exact ctrl1_api|vm_compute; reflexivity..]|].
  split; [intros z r (_ & K); discriminate K|]. split; [vm_compute; reflexivity|].
  split; [apply chear_hears; [exact ctrl2_api|vm_compute; reflexivity..]|].
  split; [intros z r (_ & K); discriminate K|]. split; [unfold update_esv; lia|].
  split; [vm_compute; reflexivity|]. split; vm_compute; reflexivity.
Qed.

(* ---------- C36: the controller's copies ---------- *)

(* full claim: after a report the copy of every reported property holds the last data
   reported for it, and every other copy is as before.  Proved for frames that are not
   instance lists, and except for the property maps 9D..9F of the reporting object when a
   property the copy did not have is reported. *)
Theorem C36_copies_partial : forall le net snet dec fr c f rest la a x y,
  hears le net snet std_db dec fr c f rest la a x y -> (forall d, ~ is_search_response f d) ->
  report_esv (f_esv f) -> knows c a (eoj_code (f_seoj f)) ->
  uecho_node_getobjectbycode (c_node c) (eoj_code (f_deoj f)) <> None ->
  let c' := cr_ctrl y in let oc := eoj_code (f_seoj f) in
  let expected e := match last_data (reported f) e with Some d => Some d | None => value c a oc e end in
  (forall e, ~ map_epc e -> value c' a oc e = expected e)
  /\ ((forall p, In p (reported f) -> value c a oc (fst p) <> None) -> forall e, value c' a oc e = expected e)
  /\ (forall p, In p (reported f) -> value c' a oc (fst p) <> None)
  /\ (forall b oc' e, (b, oc') <> (a, oc) -> value c' b oc' e = value c b oc' e).
Proof.
  intros le net snet dec fr c f rest la a x y H Hs Hr Hk Hl c' oc expected.
  assert (Hu : update_esv (f_esv f)) by (unfold report_esv, update_esv in *; lia).
  destruct (update_effect le net snet std_db std_db_ok _ _ _ _ _ _ _ _ _ H Hs Hu Hk Hl)
    as (n & n' & o & o' & u & B & B' & G & G' & T & K1 & K2 & _ & _).
  assert (V : forall e, value c a oc e = odata o e) by (intros e; unfold value, node_data; rewrite B; fold oc in G; rewrite G; reflexivity).
  assert (V' : forall e, value c' a oc e = odata o' e)
    by (intros e; unfold value, node_data, c'; rewrite B'; fold oc in G'; rewrite G'; reflexivity).
  split; [|split; [|split]].
  - intros e N. rewrite V', (tk_data _ _ _ _ _ _ T e N). unfold expected. rewrite V. reflexivity.
  - intros Hp e. rewrite V'. destruct K2 as [K2 _]; [intros p I; specialize (Hp p I); rewrite V in Hp; exact Hp|].
    rewrite K2. unfold expected. rewrite V. reflexivity.
  - intros p I. rewrite V'. apply K1. exact I.
  - intros b oc' e N. unfold value. destruct (string_dec b a) as [->|Nb].
    + unfold c'. rewrite B, B'. unfold node_data. rewrite (tk_node _ _ _ _ _ _ T). unfold uecho_node_getobjectbycode.
      cbn [n_with_tid n_with_objs n_objs]. rewrite put_obj_get.
      * destruct (Z.eqb_spec oc' (eoj_code (f_seoj f))) as [->|]; [destruct N; reflexivity|reflexivity].
      * destruct (api_ctrl_ok le net snet std_db std_db_ok c (proj1 H)) as [(_ & Sh & _) _].
        assert (Sn : shadow n) by (rewrite Forall_forall in Sh; apply Sh; apply byaddress_some in B; apply B).
        destruct (ninv_get _ _ _ (proj1 Sn) G) as [_ Hco]. rewrite (keeps_code _ _ (tk_keeps _ _ _ _ _ _ T)). exact Hco.
    + assert (Ns : no_search f) by (intros z r; apply Hs).
      destruct (other_effect le net snet std_db std_db_ok _ _ _ _ _ _ _ _ _ H Ns) as (_ & _ & Ho).
      unfold c'. rewrite Ho by exact Nb. reflexivity.
Qed.
Print Assumptions C36_copies_partial.

(* The node listener is told: Announced for a notification, Responded for an answer (a
   notification counts as one), Updated when a copy changed. *)
Theorem C36_told : forall le net snet dec fr c f rest la a x y,
  hears le net snet std_db dec fr c f rest la a x y -> (forall d, ~ is_search_response f d) ->
  update_esv (f_esv f) -> knows c a (eoj_code (f_seoj f)) ->
  uecho_node_getobjectbycode (c_node c) (eoj_code (f_deoj f)) <> None ->
  (forall p, In p (reported f) -> ~ map_epc (fst p)) \/ (forall p, In p (reported f) -> value c a (eoj_code (f_seoj f)) (fst p) <> None) ->
  cr_told y = (if c_msglistener c then [ToldMsg] else [])
    ++ (if c_nodelistener c then
          (if f_esv f =? 115 then [ToldStatus (Some a) StAnnounced] else [])
          ++ (if told_esv (f_esv f) then [ToldStatus (Some a) StResponded] else [])
          ++ (if differs (value c a (eoj_code (f_seoj f))) (reported f) then [ToldStatus (Some a) StUpdated] else [])
        else []).
Proof.
  intros le net snet dec fr c f rest la a x y H Hs Hu Hk Hl Hp.
  destruct (update_effect le net snet std_db std_db_ok _ _ _ _ _ _ _ _ _ H Hs Hu Hk Hl)
    as (n & n' & o & o' & u & B & B' & G & G' & T & K1 & K2 & K3 & K4).
  assert (V : forall e, value c a (eoj_code (f_seoj f)) e = odata o e) by (intros e; unfold value, node_data; rewrite B, G; reflexivity).
  assert (D : forall l m m', (forall e, m e = m' e) -> differs m l = differs m' l).
  { induction l as [|p l IH]; intros m m' E; cbn [differs]; [reflexivity|]. rewrite (E (fst p)). f_equal. apply IH. intros e.
    destruct (e =? fst p); [reflexivity|apply E]. }
  rewrite (D _ _ _ V). rewrite <- K3; [exact K4|]. destruct Hp as [Hp|Hp]; [left; exact Hp|right]. intros p I. rewrite <- V. apply Hp. exact I.
Qed.
Print Assumptions C36_told.

(* the air conditioner reports it is on (a property its copy has), then a mode and a fault *)
Definition ac : Z := 77825.
Definition two_reports : frame := mkFrame (9, 9) (1, 48, 1) node_profile_eoj 114 (Plain [(176, [66]); (136, [66]); (176, [67])]).
Definition ctrl3 : ctrl := cafter (listening ++ [from_dev two_listed; from_dev (on_report 115 [48])]).
Lemma ctrl3_api : api_ctrl true net_up net_down std_db ctrl3.
Proof.
  apply cafter_api; [|vm_compute; reflexivity]. apply Forall_app. split; [repeat constructor|].
  constructor; [apply from_dev_ok; vm_compute; reflexivity|]. constructor; [apply from_dev_ok; vm_compute; reflexivity|constructor].
Qed.
Definition knowsb (c : ctrl) (a : string) (oc : Z) : bool :=
  match uecho_controller_getnodebyaddress c (Some a) with
  | Some n => match uecho_node_getobjectbycode n oc with Some _ => true | None => false end
  | None => false
  end.
Lemma knowsb_ok : forall c a oc, knowsb c a oc = true -> knows c a oc.
Proof.
  intros c a oc H. unfold knowsb in H. destruct (uecho_controller_getnodebyaddress c (Some a)) as [n|] eqn:E; [|discriminate].
  exists n. split; [exact E|]. destruct (uecho_node_getobjectbycode n oc); congruence.
Qed.
Definition has_objb (n : node) (oc : Z) : bool := match uecho_node_getobjectbycode n oc with Some _ => true | None => false end.
Lemma has_objb_ok : forall n oc, has_objb n oc = true -> uecho_node_getobjectbycode n oc <> None.
Proof. intros n oc H. unfold has_objb in H. destruct (uecho_node_getobjectbycode n oc); congruence. Qed.

Example C36_example :
  let y := snd (chear ctrl3 two_reports) in
  hears true net_up net_down std_db yes fr0 ctrl3 two_reports [] here there (fst (chear ctrl3 two_reports)) y
  /\ (forall d, ~ is_search_response two_reports d) /\ report_esv (f_esv two_reports) /\ knows ctrl3 there ac
  /\ uecho_node_getobjectbycode (c_node ctrl3) (eoj_code (f_deoj two_reports)) <> None
  /\ value ctrl3 there ac 128 = Some [48]
  /\ map (value (cr_ctrl y) there ac) [128; 136; 176] = [Some [48]; Some [66]; Some [67]]
  /\ cr_told y = [ToldMsg; ToldStatus (Some there) StResponded; ToldStatus (Some there) StUpdated].
Proof.
  cbv zeta. split; [apply chear_hears; [exact ctrl3_api|vm_compute; reflexivity..]|].
  split; [intros d (_ & K); discriminate K|]. split; [left; reflexivity|]. split; [apply knowsb_ok; vm_compute; reflexivity|].
  split; [apply has_objb_ok; vm_compute; reflexivity|]. split; [vm_compute; reflexivity|]. split; vm_compute; reflexivity.
Qed.

(* an error answer names the property without data: the copy is lost *)
Theorem C36_error_answer_refuted : exists x y,
  hears true net_up net_down std_db yes fr0 ctrl3 (on_report 82 []) [] here there x y
  /\ value ctrl3 there ac 128 = Some [48] /\ value (cr_ctrl y) there ac 128 = Some [].
Proof.
  exists (fst (chear ctrl3 (on_report 82 []))), (snd (chear ctrl3 (on_report 82 []))).
  split; [apply chear_hears; [exact ctrl3_api|vm_compute; reflexivity..]|]. split; vm_compute; reflexivity.
Qed.
Print Assumptions C36_error_answer_refuted.

(* so does the answer to a notification of the controller's own object, which names the
   controller's property *)
Theorem C36_notification_response_refuted : exists x y,
  hears true net_up net_down std_db yes fr0 ctrl3 (on_report 122 []) [] here there x y
  /\ value ctrl3 there ac 128 = Some [48] /\ value (cr_ctrl y) there ac 128 = Some [].
Proof.
  exists (fst (chear ctrl3 (on_report 122 []))), (snd (chear ctrl3 (on_report 122 []))).
  split; [apply chear_hears; [exact ctrl3_api|vm_compute; reflexivity..]|]. split; vm_compute; reflexivity.
Qed.
Print Assumptions C36_notification_response_refuted.

(* a notification that asks for a response (0x74) is not recorded *)
Theorem C36_infc_refuted : exists x y,
  hears true net_up net_down std_db yes fr0 ctrl3 (on_report 116 [49]) [] here there x y
  /\ value (cr_ctrl y) there ac 128 = Some [48].
Proof.
  exists (fst (chear ctrl3 (on_report 116 [49]))), (snd (chear ctrl3 (on_report 116 [49]))).
  split; [apply chear_hears; [exact ctrl3_api|vm_compute; reflexivity..]|]. vm_compute; reflexivity.
Qed.
Print Assumptions C36_infc_refuted.

(* Reporting a property the copy does not have rewrites the copies of the property maps: the
   device reports its map 9F, then property F0; the first report is lost. *)
Definition map_report : frame := mkFrame (9, 9) (1, 48, 1) node_profile_eoj 114 (Plain [(159, [2; 128; 240])]).
Definition new_report : frame := mkFrame (9, 9) (1, 48, 1) node_profile_eoj 114 (Plain [(240, [1])]).
Definition ctrl4 : ctrl := cafter (listening ++ [from_dev two_listed; from_dev map_report]).
Lemma ctrl4_api : api_ctrl true net_up net_down std_db ctrl4.
Proof.
  apply cafter_api; [|vm_compute; reflexivity]. apply Forall_app. split; [repeat constructor|].
  constructor; [apply from_dev_ok; vm_compute; reflexivity|]. constructor; [apply from_dev_ok; vm_compute; reflexivity|constructor].
Qed.
Definition data_eqb (x y : option (list Z)) : bool :=
  match x, y with Some a, Some b => if list_eq_dec Z.eq_dec a b then true else false | None, None => true | _, _ => false end.
Lemma data_neq : forall x y, data_eqb x y = false -> x <> y.
Proof. intros x y H ->. destruct y as [l|]; cbn in H; [|discriminate]. destruct (list_eq_dec Z.eq_dec l l); congruence. Qed.
Theorem C36_maps_refuted : exists x y,
  hears true net_up net_down std_db yes fr0 ctrl4 new_report [] here there x y
  /\ last_data (reported new_report) 159 = None
  /\ value ctrl4 there ac 159 = Some [2; 128; 240] /\ value (cr_ctrl y) there ac 159 <> Some [2; 128; 240].
Proof.
  exists (fst (chear ctrl4 new_report)), (snd (chear ctrl4 new_report)).
  split; [apply chear_hears; [exact ctrl4_api|vm_compute; reflexivity..]|]. split; [reflexivity|].
  split; [vm_compute; reflexivity|]. apply data_neq. vm_compute. reflexivity.
Qed.
Print Assumptions C36_maps_refuted.

(* The instance list itself is not recorded as reported: a device that lists fewer objects
   than before keeps the old list. *)
Definition one_listed : frame := dev_list (9, 8) 114 [1; 1; 48; 1].
Theorem C36_instance_list_refuted : exists x y,
  hears true net_up net_down std_db yes fr0 ctrl2 one_listed [] here there x y
  /\ reported one_listed = [(214, [1; 1; 48; 1])]
  /\ value (cr_ctrl y) there 978945 214 = Some [2; 1; 48; 1; 2; 145; 1].
Proof.
  exists (fst (chear ctrl2 one_listed)), (snd (chear ctrl2 one_listed)).
  split; [apply chear_hears; [exact ctrl2_api|vm_compute; reflexivity..]|]. split; [reflexivity|]. vm_compute. reflexivity.
Qed.
Print Assumptions C36_instance_list_refuted.

(* ---------- C38: options ---------- *)

(* Other options are those that share no bit. *)
Theorem C38_enable : forall c o, o <> 0 ->
  uecho_controller_isoptionenabled (uecho_controller_enableoption c o) o = true
  /\ forall p, Z.land o p = 0 ->
       uecho_controller_isoptionenabled (uecho_controller_enableoption c o) p = uecho_controller_isoptionenabled c p.
Proof.
  intros c o Ho. unfold uecho_controller_isoptionenabled, uecho_controller_enableoption. cbn [c_with_option c_option]. split.
  - rewrite Z.land_lor_distr_l, Z.land_diag. destruct (Z.eqb_spec (Z.lor (Z.land (c_option c) o) o) 0) as [E|]; [|reflexivity].
    apply Z.lor_eq_0_iff in E. tauto.
  - intros p Hp. rewrite Z.land_lor_distr_l, Hp, Z.lor_0_r. reflexivity.
Qed.
Print Assumptions C38_enable.

(* full claim: without the hypothesis that the option is enabled *)
Theorem C38_disable_partial : forall c o, Z.land (c_option c) o = o ->
  uecho_controller_isoptionenabled (uecho_controller_disableoption c o) o = false
  /\ forall p, Z.land o p = 0 ->
       uecho_controller_isoptionenabled (uecho_controller_disableoption c o) p = uecho_controller_isoptionenabled c p.
Proof.
  intros c o Ho. unfold uecho_controller_isoptionenabled, uecho_controller_disableoption. cbn [c_with_option c_option].
  assert (D : forall p, Z.land (Z.lxor (c_option c) o) p = Z.lxor (Z.land (c_option c) p) (Z.land o p)).
  { intros p. apply Z.bits_inj'. intros k _. rewrite Z.land_spec, !Z.lxor_spec, !Z.land_spec.
    destruct (Z.testbit (c_option c) k), (Z.testbit o k), (Z.testbit p k); reflexivity. }
  split.
  - rewrite D, Ho, Z.land_diag, Z.lxor_nilpotent. reflexivity.
  - intros p Hp. rewrite D, Hp, Z.lxor_0_r. reflexivity.
Qed.
Print Assumptions C38_disable_partial.

(* disabling an option that is not enabled enables it *)
Theorem C38_disable_refuted : exists c o,
  api_ctrl true net_up net_down std_db c /\ uecho_controller_isoptionenabled c o = false
  /\ uecho_controller_isoptionenabled (uecho_controller_disableoption c o) o = true.
Proof. exists ctrl1, 1. split; [exact ctrl1_api|]. split; vm_compute; reflexivity. Qed.
Print Assumptions C38_disable_refuted.

(* Nothing else changes the options. *)
Theorem C38_only : forall le net snet db c x out, cstep le net snet db c x = Ok out -> cop_ok le db x ->
  api_ctrl le net snet db c -> db_ok db -> cmem_ok (co_ctrl out) ->
  c_option (co_ctrl out) = match x with
                           | CEnable p => Z.lor (c_option c) p
                           | CDisable p => Z.lxor (c_option c) p
                           | _ => c_option c
                           end.
Proof.
  intros le net snet db c x out H Hx Ha Hdb M'. destruct (api_ctrl_ok le net snet db Hdb c Ha) as [Hc M].
  destruct x as [data la ra dec fr|x|a x| |code|p|p|b|b|up|d q r| |]; cbn [cstep cop_ok] in *.
  - apply bind_ok in H. destruct H as ([o y] & E & H). injection H as <-. cbn [co_ctrl]. destruct Hx as [Hb Hfr].
    apply ctrl_receive_spec in E; [|exact Hc|apply M|exact Hb|exact Hfr]. destruct (dec_frame data) as [[f rest]|].
    + destruct E as (r & y' & E & Hf & _ & R & _ & L). injection E as -> ->.
      apply receive_frame_ok in R; [|apply Hc|exact Hf]. destruct R as [[N1 _] _].
      pose proof (c_with_node_inv c (r_node r) Hc N1) as Hc1.
      destruct (listener_spec le snet db Hdb _ _ _ _ _ _ Hc1 Hf Hfr L) as (E & _). rewrite E. reflexivity.
    + injection E as -> ->. reflexivity.
  - apply bind_ok in H. destruct H as ([[n own] ans] & E & H). injection H as <-. reflexivity.
  - destruct (uecho_controller_getnodebyaddress c (Some a)) as [n|]; [|injection H as <-; reflexivity].
    apply bind_ok in H. destruct H as ([[n' own] ans] & E & H). injection H as <-. reflexivity.
  - apply bind_ok in H. destruct H as (s & E & H). injection H as <-. reflexivity.
  - apply bind_ok in H. destruct H as (s & E & H). injection H as <-. reflexivity.
  - injection H as <-. reflexivity.
  - injection H as <-. reflexivity.
  - injection H as <-. reflexivity.
  - injection H as <-. reflexivity.
  - apply bind_ok in H. destruct H as ([[c' ps] b] & E & H). injection H as <-. cbn [co_ctrl].
    unfold uecho_controller_start in E. apply bind_ok in E. destruct E as ([[n ps1] b1] & E & E1). injection E1 as <- _ _. reflexivity.
  - apply bind_ok in H. destruct H as ([[c' ps] b] & E & H). injection H as <-. cbn [co_ctrl].
    unfold postmessage_begin in E. apply bind_ok in E. destruct E as (s & E & E1).
    apply (f_equal (fun x => match x with Ok y => fst (fst y) | _ => c end)) in E1. cbv iota in E1. cbn [fst] in E1. rewrite <- E1.
    reflexivity.
  - injection H as <-. reflexivity.
  - injection H as <-. reflexivity.
Qed.
Print Assumptions C38_only.

(* over every history of enable and disable calls that disables only what is enabled, the
   option is what the last call about it said *)
Fixpoint last_call (o : Z) (b : bool) (h : list (bool * Z)) : bool :=
  match h with
  | [] => b
  | (on, p) :: r => last_call o (if p =? o then on else b) r
  end.
Definition opt_call (c : ctrl) (x : bool * Z) : ctrl :=
  if fst x then uecho_controller_enableoption c (snd x) else uecho_controller_disableoption c (snd x).
Definition opt_bit (o : Z) : Prop := exists k, 0 <= k < 32 /\ o = 2 ^ k.
(* every disabled option is enabled at that time *)
Fixpoint careful (c : ctrl) (h : list (bool * Z)) : Prop :=
  match h with
  | [] => True
  | (on, p) :: r => (on = false -> uecho_controller_isoptionenabled c p = true) /\ careful (opt_call c (on, p)) r
  end.

Lemma opt_bit_land : forall a k, 0 <= k -> Z.land a (2 ^ k) = if Z.testbit a k then 2 ^ k else 0.
Proof.
  intros a k Hk. apply Z.bits_inj'. intros n Hn. rewrite Z.land_spec, Z.pow2_bits_eqb by lia.
  destruct (Z.eqb_spec k n) as [->|N].
  - rewrite andb_true_r. destruct (Z.testbit a n); [rewrite Z.pow2_bits_eqb, Z.eqb_refl by lia|rewrite Z.bits_0]; reflexivity.
  - rewrite andb_false_r. destruct (Z.testbit a k); [rewrite Z.pow2_bits_eqb by lia|rewrite Z.bits_0; reflexivity].
    symmetry. apply Z.eqb_neq. exact N.
Qed.

Theorem C38_history_partial : forall h c o, opt_bit o -> Forall (fun x => opt_bit (snd x)) h -> careful c h ->
  uecho_controller_isoptionenabled (fold_left opt_call h c) o = last_call o (uecho_controller_isoptionenabled c o) h.
Proof.
  induction h as [|[on p] h IH]; intros c o Ho Hh Hc; cbn [fold_left last_call]; [reflexivity|].
  inversion Hh as [|? ? Hp Hr]; subst. destruct Hc as [Hc1 Hc2]. rewrite (IH _ _ Ho Hr Hc2). f_equal.
  cbn [snd] in Hp. destruct Ho as (k & Hk & ->). destruct Hp as (j & Hj & ->).
  assert (Hz : 2 ^ k <> 0 /\ 2 ^ j <> 0) by (split; apply Z.pow_nonzero; lia).
  assert (Other : j <> k -> Z.land (2 ^ j) (2 ^ k) = 0).
  { intros N. rewrite opt_bit_land by lia. rewrite Z.pow2_bits_eqb by lia. apply Z.eqb_neq in N. rewrite N. reflexivity. }
  unfold opt_call. cbn [fst snd]. destruct (Z.eqb_spec (2 ^ j) (2 ^ k)) as [E|N].
  - rewrite E. rewrite E in Hc1. destruct on.
    + apply C38_enable. apply Hz.
    + apply C38_disable_partial. specialize (Hc1 eq_refl). unfold uecho_controller_isoptionenabled in Hc1.
      rewrite opt_bit_land in * by lia. destruct (Z.testbit (c_option c) k); [reflexivity|discriminate].
  - assert (Njk : j <> k) by (intros ->; apply N; reflexivity). destruct on.
    + apply C38_enable; [apply Hz|apply Other; exact Njk].
    + apply C38_disable_partial; [|apply Other; exact Njk]. specialize (Hc1 eq_refl). unfold uecho_controller_isoptionenabled in Hc1.
      rewrite opt_bit_land in * by lia. destruct (Z.testbit (c_option c) j); [reflexivity|discriminate].
Qed.
Print Assumptions C38_history_partial.

Example C38_example :
  opt_bit 1 /\ opt_bit 4 /\ careful ctrl1 [(true, 4); (true, 1); (false, 4); (true, 4); (false, 1)]
  /\ uecho_controller_isoptionenabled (fold_left opt_call [(true, 4); (true, 1); (false, 4); (true, 4); (false, 1)] ctrl1) 1 = false
  /\ uecho_controller_isoptionenabled (fold_left opt_call [(true, 4); (true, 1); (false, 4); (true, 4); (false, 1)] ctrl1) 4 = true.
Proof.
  split; [exists 0; split; [lia|reflexivity]|]. split; [exists 2; split; [lia|reflexivity]|].
  split; [cbn [careful]; repeat (split; [intros K; discriminate K || (vm_compute; reflexivity)|]); exact I|].
  split; vm_compute; reflexivity.
Qed.
