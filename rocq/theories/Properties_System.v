(* C81: a controller does not make up the values it holds for a device.
   [dle], [dnet] are the byte order of the device and which of its sends succeed, [cle],
   [cnet], [csnet] those of the controller and of its copies; all are arbitrary. *)
From Coq Require Import String ZArith List Bool Lia ZifyBool ZifyNat.
From Verif Require Import CSem M_Const M_Misc M_Property M_Message M_PropertyList M_Object M_Node M_NodeListener M_Controller
  StdDB_Data M_Std Spec_Frame Spec_Message Spec_Map Spec_Object Spec_Node Spec_Request Spec_Controller Run_Object Run_Node
  Run_Controller Run_System P_Base P_Misc P_Message P_Encode P_MsgApi P_PropertyList P_Object P_ObjectRun P_ObjectReach P_Std P_Node
  P_Request Properties_Object P_NodeReach P_NodeProfile P_NodeInv P_NodeRun P_NodeProps P_RequestProps P_RequestApi P_NodeSafe
  P_Shadow P_Controller P_ControllerProps P_System Properties_Node Properties_Request Properties_Controller.
Import ListNotations.
Open Scope Z_scope.
Ltac Zify.zify_post_hook ::= Z.div_mod_to_equations.

Lemma capi_step : forall le net snet db c x out, api_ctrl le net snet db c -> cmem_ok c -> cmem_ok (co_ctrl out) -> cop_ok le db x ->
  cstep le net snet db c x = Ok out -> api_ctrl le net snet db (co_ctrl out).
Proof.
  intros le net snet db c x out (c0 & h & N & R) M M' Hx E. exists c0, (h ++ [x]). split; [exact N|]. clear N.
  induction R as [c Hm|c y out1 h c2 Hy Hm Ey R IH]; cbn [app].
  - econstructor; [exact Hx|exact M|exact E|]. constructor. exact M'.
  - econstructor; [exact Hy|exact Hm|exact Ey|]. exact (IH M E).
Qed.

Lemma sys_inv : forall dle cle dnet cnet csnet home s0 s, sys_start dle cle dnet cnet csnet s0 ->
  sys_run dle cle dnet cnet csnet home s0 s ->
  dev_inv dle dnet s /\ holds (value (sy_ctrl s0) home) home (sy_past s) (sy_ctrl s) /\ cinv (sy_ctrl s) /\ cmem_ok (sy_ctrl s)
  /\ api_ctrl cle cnet csnet std_db (sy_ctrl s).
Proof.
  intros dle cle dnet cnet csnet home s0 s (A & B & C & D & E) R. induction R as [|s s' R IH St].
  - destruct (api_ctrl_ok _ _ _ _ std_db_ok _ E) as [Ci Cm].
    split; [|split; [|split; [exact Ci|split; [exact Cm|exact E]]]].
    + split; [exact A|]. split; [exact B|]. rewrite C, D. split; [left; reflexivity|constructor].
    + intros n Hn oc epc d _ _ Hd. right. left. unfold value, uecho_controller_getnodebyaddress. rewrite Hn. exact Hd.
  - destruct IH as (I1 & I2 & I3 & I4 & I5). inversion St; subst; cbn [sy_dev sy_past sy_sent sy_ctrl] in *.
    + split; [eapply dev_step; eauto|]. split; [|split; [assumption|split; assumption]].
      intros m Hm oc epc d Ho He Hd. destruct (I2 m Hm oc epc d Ho He Hd) as [X|[X|(k & K1 & K2)]]; [left; exact X|right; left; exact X|].
      right. right. exists k. split; [right; exact K1|exact K2].
    + split; [exact I1|]. split; [|split; [eapply cstep_ok; eauto; exact std_db_ok|split; [assumption|eapply capi_step; eauto]]].
      destruct I1 as (_ & _ & _ & Fs). eapply ctrl_step with (sent := sent); eauto.
Qed.

(* any moment of a history may serve as the start *)
Definition from_here (s : system) : system := mkSystem (sy_dev s) [sy_dev s] [] (sy_ctrl s).
Lemma from_here_start : forall dle cle dnet cnet csnet home s0 s, sys_start dle cle dnet cnet csnet s0 ->
  sys_run dle cle dnet cnet csnet home s0 s -> sys_start dle cle dnet cnet csnet (from_here s).
Proof.
  intros dle cle dnet cnet csnet home s0 s H0 R. destruct (sys_inv _ _ _ _ _ _ _ _ H0 R) as ((A & B & _) & _ & _ & _ & C).
  unfold sys_start, from_here. cbn [sy_dev sy_past sy_sent sy_ctrl]. split; [exact A|]. split; [exact B|]. split; [reflexivity|].
  split; [reflexivity|exact C].
Qed.

(* Full claim: whatever the controller holds for a property of an object of the device, it held
   before we looked, or the device has held it since.  The node profile is excluded, see
   C81_profile_refuted; so are the three property maps, which the controller computes for its
   copies; and the controller may hold no data (it has not heard of the property, or see
   C81_emptied_refuted).  [short] in [sys_step]: the device's values fit the length byte of a
   frame. *)
Theorem C81_not_made_up_partial : forall dle cle dnet cnet csnet home s0 s oc epc d,
  sys_start dle cle dnet cnet csnet s0 -> sys_run dle cle dnet cnet csnet home s0 s -> oc <> 978945 -> ~ map_epc epc ->
  value (sy_ctrl s) home oc epc = Some d ->
  d = [] \/ value (sy_ctrl s0) home oc epc = Some d \/ exists n, In n (sy_past s) /\ node_data n oc epc = Some d.
Proof.
  intros dle cle dnet cnet csnet home s0 s oc epc d H0 R Ho He V. destruct (sys_inv _ _ _ _ _ _ _ _ H0 R) as (_ & H & _).
  unfold value at 1, uecho_controller_getnodebyaddress in V.
  destruct (node_byaddress (c_nodes (sy_ctrl s)) (Some home)) as [n|] eqn:E; [|discriminate].
  exact (H n E oc epc d Ho He V).
Qed.
Print Assumptions C81_not_made_up_partial.

(* A controller that has just been made knows nothing, so all it ever holds are values of the
   device. *)
Theorem C81_from_the_start_partial : forall dle cle dnet cnet csnet home s0 s oc epc d,
  sys_start dle cle dnet cnet csnet s0 -> new_ctrl cle cnet std_db (sy_ctrl s0) ->
  sys_run dle cle dnet cnet csnet home s0 s -> oc <> 978945 -> ~ map_epc epc ->
  value (sy_ctrl s) home oc epc = Some d ->
  d = [] \/ exists n, In n (sy_past s) /\ node_data n oc epc = Some d.
Proof.
  intros dle cle dnet cnet csnet home s0 s oc epc d H0 N R Ho He V.
  destruct (C81_not_made_up_partial _ _ _ _ _ _ _ _ _ _ _ H0 R Ho He V) as [X|[X|X]]; [left; exact X| |right; exact X].
  destruct (new_ctrl_ok _ _ _ std_db_ok _ N) as (_ & Nn & _).
  unfold value, uecho_controller_getnodebyaddress in X. rewrite Nn in X. discriminate.
Qed.
Print Assumptions C81_from_the_start_partial.

(* As long as a value of the device does not change and no older frame arrives, the controller
   moves to no other value. *)
Theorem C81_steady_partial : forall dle cle dnet cnet csnet home s0 s oc epc d0 d,
  sys_start dle cle dnet cnet csnet s0 -> sys_run dle cle dnet cnet csnet home s0 s -> oc <> 978945 -> ~ map_epc epc ->
  (forall n, In n (sy_past s) -> node_data n oc epc = Some d0) ->
  value (sy_ctrl s0) home oc epc = Some d0 ->
  value (sy_ctrl s) home oc epc = Some d -> d = d0 \/ d = [].
Proof.
  intros dle cle dnet cnet csnet home s0 s oc epc d0 d H0 R Ho He C V0 V.
  destruct (C81_not_made_up_partial _ _ _ _ _ _ _ _ _ _ _ H0 R Ho He V) as [X|[X|(n & I & X)]]; [right; exact X|left; congruence|].
  left. pose proof (C n I). congruence.
Qed.
Print Assumptions C81_steady_partial.

(* ---- concrete histories ---- *)

(* [EDev x] a call on the device or a datagram it receives, [EFrame i] the i-th frame the device
   has sent reaches the controller, [ECtrl x] a call on the controller *)
Inductive event : Type := EDev (x : nop) | EFrame (i : nat) | ECtrl (x : cop).
Definition home0 : string := there.
Definition shortb (n : node) : bool :=
  forallb (fun o => forallb (fun p => len (p_data p) <=? 255) (o_props o)) (n_objs n).
Lemma shortb_ok : forall n, shortb n = true -> short n.
Proof.
  intros n H. unfold shortb in H. rewrite forallb_forall in H. apply Forall_forall. intros o Io. specialize (H o Io).
  rewrite forallb_forall in H. apply Forall_forall. intros p Ip. specialize (H p Ip). lia.
Qed.
Definition event_ok (e : event) : Prop :=
  match e with
  | EDev x => nop_ok true std_db x
  | EFrame _ => True
  | ECtrl x => cop_ok true std_db x /\ match x with CReceive _ _ _ _ _ | CShadow _ _ => False | _ => True end
  end.
Definition happen1 (s : system) (e : event) : option system :=
  match e with
  | EDev x =>
      match nstep true net_up std_db (sy_dev s) x with
      | Ok (n', own, ans) =>
          if shortb n' then Some (mkSystem n' (n' :: sy_past s) (sy_sent s ++ map frame_bytes (own ++ ans)) (sy_ctrl s)) else None
      | _ => None
      end
  | EFrame i =>
      match nth_error (sy_sent s) i with
      | Some b =>
          if forallb (fun b => (0 <=? b) && (b <? 256)) b && (len b <=? 1000) then
            match cstep true net_up net_down std_db (sy_ctrl s) (CReceive b here (Some there) yes fr0) with
            | Ok out => if cmem_okb (co_ctrl out) then Some (mkSystem (sy_dev s) (sy_past s) (sy_sent s) (co_ctrl out)) else None
            | _ => None
            end
          else None
      | None => None
      end
  | ECtrl x =>
      match cstep true net_up net_down std_db (sy_ctrl s) x with
      | Ok out => if cmem_okb (co_ctrl out) then Some (mkSystem (sy_dev s) (sy_past s) (sy_sent s) (co_ctrl out)) else None
      | _ => None
      end
  end.
Fixpoint happen (s : system) (h : list event) : option system :=
  match h with
  | [] => Some s
  | e :: r => match happen1 s e with Some s' => happen s' r | None => None end
  end.
Definition system0 : system := mkSystem node0 [node0] [] ctrl0.
Notation start0 := (sys_start true true net_up net_up net_down).
Notation runs := (sys_run true true net_up net_up net_down home0).
Notation run0 := (runs system0).
Notation step0 := (sys_step true true net_up net_up net_down home0).
Lemma happen1_step : forall s e s', event_ok e -> happen1 s e = Some s' -> step0 s s'.
Proof.
  intros [n past sent c] e s' Hk H. destruct e as [x|i|x]; cbn [happen1 sy_dev sy_past sy_sent sy_ctrl event_ok] in *.
  - destruct (nstep true net_up std_db n x) as [[[n' own] ans]|] eqn:E; [|discriminate].
    destruct (shortb n') eqn:B; [|discriminate]. injection H as <-. econstructor; [exact Hk|exact E|apply shortb_ok; exact B].
  - destruct (nth_error sent i) as [b|] eqn:G; [|discriminate].
    destruct (forallb _ b && _) eqn:K; [|discriminate].
    destruct (cstep true net_up net_down std_db c _) as [out|] eqn:E; [|discriminate].
    destruct (cmem_okb _) eqn:M; [|discriminate]. injection H as <-. apply cmem_okb_ok in M.
    apply andb_prop in K. destruct K as [K1 K2]. apply is_byteb_val in K1.
    eapply sys_ctrl; [| |exact E|exact M].
    + split; [|apply fr0_ok]. split; [exact K1|]. unfold OBJ_MAX, PTRDIFF_MAX. lia.
    + intros _. exists b, (length b). split; [eapply nth_error_In; eauto|symmetry; apply firstn_all].
  - destruct (cstep true net_up net_down std_db c x) as [out|] eqn:E; [|discriminate].
    destruct (cmem_okb _) eqn:M; [|discriminate]. injection H as <-. apply cmem_okb_ok in M.
    destruct Hk as [Hk Hl]. eapply sys_ctrl; [exact Hk| |exact E|exact M]. destruct x; try exact I; contradiction.
Qed.
Lemma happen_run : forall s0 h s s', Forall event_ok h -> runs s0 s -> happen s h = Some s' -> runs s0 s'.
Proof.
  intros s0. induction h as [|e h IH]; intros s s' Hk R H; cbn [happen] in H; [injection H as <-; exact R|].
  inversion Hk as [|? ? K1 K2]; subst. destruct (happen1 s e) as [s1|] eqn:E; [|discriminate].
  eapply IH; [exact K2| |exact H]. eapply sys_run_step; [exact R|]. eapply happen1_step; eauto.
Qed.

Lemma start_ok : forall n c, new_node true net_up std_db n -> shortb n = true -> new_ctrl true net_up std_db c -> cmem_okb c = true ->
  start0 (mkSystem n [n] [] c).
Proof.
  intros n c A B C D. unfold sys_start. cbn [sy_dev sy_past sy_sent sy_ctrl].
  split; [exists n, [], [], []; split; [exact A|]; constructor; apply short_mem, shortb_ok; exact B|].
  split; [apply shortb_ok; exact B|]. split; [reflexivity|]. split; [reflexivity|].
  exists c, []. split; [exact C|]. constructor. apply cmem_okb_ok. exact D.
Qed.
Lemma system0_start : start0 system0.
Proof. apply start_ok; [exact node0_new|vm_compute; reflexivity|exact ctrl0_new|vm_compute; reflexivity]. Qed.

Definition bytes_check (d : list Z) : bool := forallb (fun b => (0 <=? b) && (b <? 256)) d.
Lemma set_ok : forall c d, (0 <=? c) && (c <=? 255) = true -> bytes_check d = true ->
  event_ok (EDev (NObj 77825 (KStep (OSetData c d) zeros))).
Proof.
  intros c d Hc Hd. apply is_byteb_val in Hd. cbn [event_ok nop_ok ocall_ok oop_ok].
  split; [split; [cbn; lia|exact Hd]|]. split; [intros c' E; injection E as <-; unfold epc_code; lia|exact zeros_ok].
Qed.
Definition ask (dec : list (hcall * bool) -> hcall -> bool) (f : frame) : event := EDev (NReceive (enc_frame f) here (Some there) dec).
Lemma ask_ok : forall dec f, frame_okb f = true -> event_ok (ask dec f).
Proof.
  intros dec f H. apply andb_prop in H. destruct H as [H L]. apply is_byteb_val in H. split; [exact H|].
  unfold OBJ_MAX, PTRDIFF_MAX. lia.
Qed.

(* the device has an air conditioner that is on; it is asked for its instance list and for the
   operation status 0x80, and the controller hears both answers *)
Definition get_list : frame := mkFrame (1, 1) node_profile_eoj node_profile_eoj 98 (Plain [(214, [])]).
Definition get_status : frame := mkFrame (1, 2) node_profile_eoj (1, 48, 1) 98 (Plain [(128, [])]).
Definition switch (v : Z) : event := EDev (NObj 77825 (KStep (OSetData 128 [v]) zeros)).
Definition setting : list event := [EDev (NSet 77825 zeros); switch 48; ask yes get_list; ask yes get_status].
Lemma setting_ok : Forall event_ok setting.
Proof.
  constructor; [exact zeros_ok|]. constructor; [apply set_ok; reflexivity|].
  constructor; [apply ask_ok; vm_compute; reflexivity|]. constructor; [apply ask_ok; vm_compute; reflexivity|]. constructor.
Qed.
Definition later (s : system) (h : list event) : system := match happen s h with Some s' => s' | None => s end.
Lemma steps_run : forall s0 h s, Forall event_ok h -> runs s0 s -> runs s0 (later s h).
Proof.
  intros s0 h s Hk R. unfold later. destruct (happen s h) as [s'|] eqn:E; [|exact R]. eapply happen_run; [exact Hk|exact R|exact E].
Qed.
Definition state (h : list event) : system := later system0 h.
Lemma state_run : forall h, Forall event_ok h -> run0 (state h).
Proof.
  intros h Hk. apply steps_run; [exact Hk|apply sys_run_start].
Qed.

Definition nobody_held (s : system) (oc epc : Z) (d : list Z) : Prop :=
  forall n, In n (sy_past s) -> node_data n oc epc <> Some d.
Definition zlist_eqb (x y : list Z) : bool := if list_eq_dec Z.eq_dec x y then true else false.
Definition nobody_heldb (s : system) (oc epc : Z) (d : list Z) : bool :=
  forallb (fun n => match node_data n oc epc with Some x => negb (zlist_eqb x d) | None => true end) (sy_past s).
Lemma nobody_heldb_ok : forall s oc epc d, nobody_heldb s oc epc d = true -> nobody_held s oc epc d.
Proof.
  intros s oc epc d H n I E. unfold nobody_heldb in H. rewrite forallb_forall in H. specialize (H n I). cbv beta in H.
  rewrite E in H. unfold zlist_eqb in H. destruct (list_eq_dec Z.eq_dec d d); [discriminate|contradiction].
Qed.

(* hypotheses hold: the controller has heard the instance list and the status of the device *)
Definition heard_on : list event := setting ++ [EFrame 6; EFrame 7].
Lemma frames_ok : forall l, Forall event_ok (map EFrame l).
Proof. intros l. apply Forall_forall. intros x I. apply in_map_iff in I. destruct I as (i & <- & _). exact I. Qed.
Example C81_example : start0 system0 /\ new_ctrl true net_up std_db (sy_ctrl system0) /\ run0 (state heard_on) /\ 77825 <> 978945 /\ ~ map_epc 128
  /\ value (sy_ctrl (state heard_on)) home0 77825 128 = Some [48]
  /\ node_data (sy_dev (state heard_on)) 77825 128 = Some [48].
Proof.
  split; [exact system0_start|]. split; [exact ctrl0_new|].
  split; [apply state_run; apply Forall_app; split; [exact setting_ok|apply (frames_ok [6%nat; 7%nat])]|].
  split; [discriminate|]. split; [unfold map_epc; lia|]. split; vm_compute; reflexivity.
Qed.

(* the same, looked at from here on: the status is asked for and heard once more *)
Definition steady0 : system := from_here (state heard_on).
Example C81_steady_example : start0 steady0 /\ runs steady0 (later steady0 [ask yes get_status; EFrame 0])
  /\ (forall n, In n (sy_past (later steady0 [ask yes get_status; EFrame 0])) -> node_data n 77825 128 = Some [48])
  /\ length (sy_past (later steady0 [ask yes get_status; EFrame 0])) = 2%nat
  /\ value (sy_ctrl steady0) home0 77825 128 = Some [48]
  /\ value (sy_ctrl (later steady0 [ask yes get_status; EFrame 0])) home0 77825 128 = Some [48].
Proof.
  split; [|split; [|split; [|split; [vm_compute; reflexivity|split; vm_compute; reflexivity]]]].
  - eapply from_here_start; [exact system0_start|apply state_run; apply Forall_app; split; [exact setting_ok|apply (frames_ok [6%nat; 7%nat])]].
  - apply steps_run; [|apply sys_run_start]. constructor; [apply ask_ok; vm_compute; reflexivity|apply (frames_ok [0%nat])].
  - assert (K : forallb (fun n => match node_data n 77825 128 with Some x => zlist_eqb x [48] | None => false end)
        (sy_past (later steady0 [ask yes get_status; EFrame 0])) = true) by (vm_compute; reflexivity).
    revert K. generalize (sy_past (later steady0 [ask yes get_status; EFrame 0])). intros l K n I. rewrite forallb_forall in K.
    specialize (K n I). cbv beta in K. unfold zlist_eqb in K. destruct (node_data n 77825 128) as [x|]; [|discriminate].
    destruct (list_eq_dec Z.eq_dec x [48]) as [->|]; [reflexivity|discriminate].
Qed.

(* Of the node profile the controller does hold values the device never had: the device announces
   the changes of all its objects as coming from the node profile (C33_source_refuted), and the
   controller files them there.  Here the air conditioner is switched off (0x31); for the
   controller the device itself is off. *)
Definition heard_off : list event := setting ++ [switch 49; EFrame 6; EFrame 8].
Theorem C81_profile_refuted : exists s d, run0 s /\ value (sy_ctrl s) home0 978945 128 = Some d /\ d <> []
  /\ nobody_held s 978945 128 d /\ node_data (sy_dev s) 978945 128 = Some [48].
Proof.
  exists (state heard_off), [49]. split; [|split; [vm_compute; reflexivity|split; [discriminate|split; [|vm_compute; reflexivity]]]].
  - apply state_run. apply Forall_app. split; [exact setting_ok|]. constructor; [apply set_ok; reflexivity|].
    apply (frames_ok [6%nat; 8%nat]).
  - apply nobody_heldb_ok. vm_compute. reflexivity.
Qed.
Print Assumptions C81_profile_refuted.

(* A value the controller knows is emptied by an answer that refuses to give it (0x52), although
   the device never held no data: its air conditioner was on when it was added. *)
Definition running : obj :=
  match uecho_object_setcode std_db zeros uecho_object_new 77825 with
  | Ok (o, _) => match ostep zeros o (OSetData 128 [48]) with Ok (o', _) => o' | _ => o end
  | _ => uecho_object_new
  end.
Lemma running_api : api_obj std_db running.
Proof.
  unfold running. destruct (uecho_object_setcode std_db zeros uecho_object_new 77825) as [[o a]|] eqn:E; [|constructor].
  assert (A : api_obj std_db o) by (eapply ao_setcode; [constructor|exact zeros_ok|exact E]).
  destruct (ostep zeros o (OSetData 128 [48])) as [[o' a']|] eqn:E'; [|exact A].
  eapply ao_step; [exact A| | |exact zeros_ok|exact E'].
  - split; [cbn; lia|]. apply is_byteb_val. reflexivity.
  - intros c X. injection X as <-. lia.
Qed.
Definition no : list (hcall * bool) -> hcall -> bool := fun _ _ => false.
Definition refusing : list event :=
  [EDev (NAdd running); EDev (NObj 77825 (KHandler 98 128 (Some 6%nat)));
   ask yes get_list; ask yes get_status; ask no get_status].
Lemma refusing_ok : Forall event_ok refusing.
Proof.
  constructor; [exact running_api|]. constructor; [exact Logic.I|].
  do 3 (constructor; [apply ask_ok; vm_compute; reflexivity|]). constructor.
Qed.
Definition after_event (s : system) (e : event) : system := match happen1 s e with Some s' => s' | None => s end.
Lemma after_step : forall h e, Forall event_ok h -> event_ok e -> (if happen1 (state h) e then true else false) = true ->
  run0 (state h) /\ step0 (state h) (after_event (state h) e).
Proof.
  intros h e Hk He K. pose proof (state_run h Hk) as R. split; [exact R|]. revert R K. generalize (state h). intros s R K.
  unfold after_event. destruct (happen1 s e) as [s'|] eqn:E; [|discriminate]. eapply happen1_step; eauto.
Qed.
Theorem C81_emptied_refuted : exists s s', run0 s /\ step0 s s'
  /\ value (sy_ctrl s) home0 77825 128 = Some [48] /\ value (sy_ctrl s') home0 77825 128 = Some []
  /\ nobody_held s' 77825 128 [].
Proof.
  exists (state (refusing ++ [EFrame 5; EFrame 6])), (after_event (state (refusing ++ [EFrame 5; EFrame 6])) (EFrame 7)).
  destruct (after_step (refusing ++ [EFrame 5; EFrame 6]) (EFrame 7)) as [A B];
    [apply Forall_app; split; [exact refusing_ok|apply (frames_ok [5%nat; 6%nat])]|exact Logic.I|vm_compute; reflexivity|].
  split; [exact A|]. split; [exact B|]. split; [vm_compute; reflexivity|]. split; [vm_compute; reflexivity|].
  apply nobody_heldb_ok. vm_compute. reflexivity.
Qed.
Print Assumptions C81_emptied_refuted.

(* Nothing says how old a value is: an answer that arrives late, or a second time, takes the
   controller back from the current value to an earlier one. *)
Definition switched : list event := setting ++ [switch 49; ask yes get_status; EFrame 6; EFrame 9].
Theorem C81_newest_refuted : exists s s', run0 s /\ step0 s s'
  /\ value (sy_ctrl s) home0 77825 128 = Some [49] /\ value (sy_ctrl s') home0 77825 128 = Some [48]
  /\ node_data (sy_dev s') 77825 128 = Some [49].
Proof.
  exists (state switched), (after_event (state switched) (EFrame 7)).
  destruct (after_step switched (EFrame 7)) as [A B].
  - apply Forall_app. split; [exact setting_ok|]. constructor; [apply set_ok; reflexivity|].
    constructor; [apply ask_ok; vm_compute; reflexivity|]. apply (frames_ok [6%nat; 9%nat]).
  - exact Logic.I.
  - vm_compute. reflexivity.
  - split; [exact A|]. split; [exact B|]. split; [vm_compute; reflexivity|]. split; vm_compute; reflexivity.
Qed.
Print Assumptions C81_newest_refuted.
