(* A program that keeps to the rules of Spec_Mem.v never meets an undefined call. *)
From Coq Require Import String ZArith List Bool Lia.
From Verif Require Import CSem P_Base M_Const M_Misc M_Property M_Log M_Message Spec_Frame Spec_Message P_Message P_MsgApi Properties_Message
  M_Mem M_MemUse Spec_Mem P_MemMsg P_MemRun.
Import ListNotations.
Open Scope Z_scope.

Definition all_api (le : bool) (st : mstate) : Prop := Forall (fun x => match x with Some m => api_msg le m | None => True end) st.

Lemma all_api_in : forall le st i m, all_api le st -> alive st i = Some m -> api_msg le m.
Proof.
  intros le st i m H E. unfold alive in E. destruct (nth_error st i) as [[x|]|] eqn:N; try discriminate. injection E as ->.
  apply nth_error_In in N. unfold all_api in H. rewrite Forall_forall in H. exact (H _ N).
Qed.
Lemma all_api_put : forall le i x st, all_api le st -> match x with Some m => api_msg le m | None => True end -> all_api le (put i x st).
Proof.
  intros le i x st. revert i. induction st as [|y st IH]; intros [|i] H X; cbn [put]; try exact H; apply Forall_cons_iff in H; destruct H; constructor; auto.
  apply IH; auto.
Qed.
Lemma all_api_new : forall le st m, all_api le st -> api_msg le m -> all_api le (st ++ [Some m]).
Proof. intros. apply Forall_app. split; [assumption|]. constructor; [assumption|constructor]. Qed.

Lemma search_api : forall le, exists m, M_Message.uecho_message_search_new = Ok m /\ api_msg le m.
Proof.
  intro le. assert (E : exists m, M_Message.uecho_message_search_new = Ok m) by (eexists; vm_compute; reflexivity).
  destruct E as [m E]. exists m. split; [exact E|]. unfold M_Message.uecho_message_search_new in E. apply bind_ok in E. destruct E as (m1 & E1 & E).
  apply bind_ok in E. destruct E as (m2 & E2 & E).
  eapply am_add; [| |exact E]; [|split; [|split; [|reflexivity]]].
  - eapply am_setdst; [|exact E2]. eapply am_setsrc; [|exact E1]. apply (am_setesv le M_Message.uecho_message_new ESV_Get); [constructor|unfold is_byte, ESV_Get; lia].
  - change (is_byte 214). unfold is_byte. lia.
  - constructor.
Qed.

Lemma set_api : forall le m s, api_msg le m -> api_msg le s -> exists m', M_Message.uecho_message_set le m s = Ok m' /\ api_msg le m'.
Proof.
  intros le m s Hm Hs. destruct (message_set_spec le m s) as (v & E & _); [apply (api_inv_holds le); assumption..|].
  eexists. split; [exact E|]. exact (am_set le m s _ Hm Hs E).
Qed.

Lemma part_ok : forall le w m, api_msg le m -> pv_ok (part_of w m).
Proof.
  intros le w m H. apply api_inv_holds in H. destruct H as [(_ & _ & _ & _ & _ & _ & _ & A & B & C) _]. destruct w; assumption.
Qed.
Lemma part_len : forall le w m, api_msg le m -> len (stored (part_of w m)) = pv_opc (part_of w m).
Proof. intros le w m H. apply (pv_list_len _ (part_ok le w m H)). Qed.

Lemma add_api : forall le w m p, api_msg le m -> free_prop p -> len (stored (part_of w m)) < 255 ->
  exists m', add_in w p m = Ok m' /\ api_msg le m'.
Proof.
  intros le w m p Hm Hp Hn. rewrite (part_len le) in Hn by exact Hm. destruct (property_add_ok (part_of w m) p (part_ok le w m Hm) Hp Hn) as [E _].
  assert (X : exists m', add_in w p m = Ok m').
  { destruct w; cbn [add_in part_of] in *; unfold M_Message.uecho_message_addproperty, M_Message.uecho_message_addpropertyset, M_Message.uecho_message_addpropertyget;
      rewrite E; cbn [bind]; eauto. }
  destruct X as [m' X]. exists m'. split; [exact X|]. destruct w; cbn [add_in] in X; [eapply am_add|eapply am_addset|eapply am_addget]; eauto.
Qed.
Lemma setp_api : forall le w m c d, api_msg le m -> is_byte c -> bytes_ok d ->
  (has (part_of w m) c \/ len (stored (part_of w m)) < 255) -> exists m', set_in w c d m = Ok m' /\ api_msg le m'.
Proof.
  intros le w m c d Hm Hc Hd Hn. destruct (property_set_spec (part_of w m) c d (part_ok le w m Hm) Hc Hd) as (v & E & _).
  { destruct Hn as [(p & I & C)|Hn]; [left|right; rewrite (part_len le) in Hn by exact Hm; exact Hn].
    intro X. apply (List.find_none _ _ X) in I. cbv beta in I. apply Z.eqb_neq in I. contradiction. }
  assert (X : exists m', set_in w c d m = Ok m').
  { destruct w; cbn [set_in part_of] in *; unfold M_Message.uecho_message_setproperty, M_Message.uecho_message_setpropertyset, M_Message.uecho_message_setpropertyget;
      rewrite E; cbn [bind]; eauto. }
  destruct X as [m' X]. exists m'. split; [exact X|]. destruct w; cbn [set_in] in X; [eapply am_setprop|eapply am_setpropset|eapply am_setpropget]; eauto.
Qed.

Lemma legal_step : forall le op st, all_api le st -> args_ok op -> rules op st ->
  exists o st', sstep le op st = Some (o, st') /\ all_api le st'.
Proof.
  intros le op st A OK R. destruct op; cbn [sstep args_ok rules] in *.
  - do 2 eexists. split; [reflexivity|]. apply all_api_new; [exact A|apply am_new].
  - destruct (search_api le) as (m & E & H). rewrite E. do 2 eexists. split; [reflexivity|]. apply all_api_new; assumption.
  - destruct R as (m & E). rewrite E. cbn [on]. unfold M_Message.uecho_message_copy.
    destruct (set_api le M_Message.uecho_message_new m (am_new le) (all_api_in _ _ _ _ A E)) as (m' & E' & H). rewrite E'. cbn [defined on].
    do 2 eexists. split; [reflexivity|]. apply all_api_new; assumption.
  - destruct R as (m & E). rewrite E. do 2 eexists. split; [reflexivity|]. apply all_api_put; [exact A|exact Logic.I].
  - destruct R as (m & E). rewrite E. pose proof (all_api_in _ _ _ _ A E) as H. cbn [on].
    assert (X := proj1 (api_inv_holds _ _ H)). apply clear_ok in X. rewrite X. cbn [defined on]. do 2 eexists. split; [reflexivity|].
    apply all_api_put; [exact A|]. eapply am_clear; eauto.
  - destruct R as (m & E). rewrite E. pose proof (all_api_in _ _ _ _ A E) as H. do 2 eexists. split; [reflexivity|]. apply all_api_put; [exact A|]. apply am_settid. exact H.
  - destruct R as (m & E). rewrite E. pose proof (all_api_in _ _ _ _ A E) as H. destruct (proj1 (C08_message_objectcode c m OK)) as (m' & E' & _).
    cbn [on]. rewrite E'. do 2 eexists. split; [reflexivity|]. apply all_api_put; [exact A|]. eapply am_setsrc; eauto.
  - destruct R as (m & E). rewrite E. pose proof (all_api_in _ _ _ _ A E) as H. destruct (proj2 (C08_message_objectcode c m OK)) as (m' & E' & _).
    cbn [on]. rewrite E'. do 2 eexists. split; [reflexivity|]. apply all_api_put; [exact A|]. eapply am_setdst; eauto.
  - destruct R as (m & E). rewrite E. pose proof (all_api_in _ _ _ _ A E) as H. do 2 eexists. split; [reflexivity|]. apply all_api_put; [exact A|]. apply am_setesv; assumption.
  - destruct R as (m & E). rewrite E. pose proof (all_api_in _ _ _ _ A E) as H. do 2 eexists. split; [reflexivity|]. apply all_api_put; [exact A|]. apply am_setfrom; assumption.
  - destruct R as (m & E). rewrite E. pose proof (all_api_in _ _ _ _ A E) as H. do 2 eexists. split; [reflexivity|]. apply all_api_put; [exact A|]. apply am_setto; assumption.
  - destruct R as (m & E & Hn). rewrite E. pose proof (all_api_in _ _ _ _ A E) as H. destruct OK as [O1 O2].
    destruct (setp_api le w m code data H O1 (proj1 O2) Hn) as (m' & E' & H'). cbn [on]. rewrite E'. do 2 eexists. split; [reflexivity|]. apply all_api_put; assumption.
  - destruct R as (m & E & Hn). rewrite E. pose proof (all_api_in _ _ _ _ A E) as H. destruct OK as [O1 O2].
    destruct (add_api le w m (mkProp code attr data false) H) as (m' & E' & H'); [split; [exact O1|split; [apply O2|reflexivity]]|exact Hn|].
    cbn [on]. rewrite E'. do 2 eexists. split; [reflexivity|]. apply all_api_put; assumption.
  - destruct R as (m & E). rewrite E. pose proof (all_api_in _ _ _ _ A E) as H. destruct (C01_parse_safe le m data H OK) as (r & m' & E').
    cbn [on]. rewrite E'. do 2 eexists. split; [reflexivity|]. apply all_api_put; [exact A|]. eapply am_parse; eauto.
  - destruct R as (m & E). rewrite E. pose proof (all_api_in _ _ _ _ A E) as H. destruct OK as [O1 _]. destruct (C01_parsepacket_safe le m data local remote H O1) as (r & m' & E').
    cbn [on]. rewrite E'. do 2 eexists. split; [reflexivity|]. apply all_api_put; [exact A|]. eapply am_packet; eauto.
  - destruct R as (m & E & IM). rewrite E. pose proof (all_api_in _ _ _ _ A E) as H. destruct (C05_size_exact le m H IM) as (bs & _ & E' & _).
    cbn [on]. rewrite E'. do 2 eexists. split; [reflexivity|]. exact A.
  - destruct R as (N & m & s & E & Es). apply Nat.eqb_neq in N. rewrite N, E, Es. cbn [on].
    destruct (set_api le m s (all_api_in _ _ _ _ A E) (all_api_in _ _ _ _ A Es)) as (m' & E' & H). rewrite E'. do 2 eexists. split; [reflexivity|]. apply all_api_put; assumption.
  - destruct R as (N & m & s & E & Es & I1 & I2). apply Nat.eqb_neq in N. rewrite N, E, Es. cbn [on].
    destruct (C05_size_exact le m (all_api_in _ _ _ _ A E) I1) as (b1 & S1 & B1 & _). destruct (C05_size_exact le s (all_api_in _ _ _ _ A Es) I2) as (b2 & S2 & B2 & _).
    unfold M_Message.uecho_message_equals. rewrite S1, S2. cbn [bind]. destruct (negb (len b1 =? len b2)); [|rewrite B1, B2; cbn [bind]]; do 2 eexists; (split; [reflexivity|exact A]).
  - destruct R as (m & E). rewrite E. do 2 eexists. split; [reflexivity|exact A].
Qed.

Lemma legal_run : forall le ops st, all_api le st -> legal le ops st ->
  exists os st', srun le ops st = Some (os, st') /\ all_api le st' /\ Forall args_ok ops.
Proof.
  intros le. induction ops as [|op ops IH]; intros st A H; cbn [legal srun] in *.
  - do 2 eexists. split; [reflexivity|]. split; [exact A|constructor].
  - destruct H as (O & R & H). destruct (legal_step le op st A O R) as (o & st' & E & A'). rewrite E.
    destruct (IH st' A' (H _ _ E)) as (os & st2 & E2 & A2 & F2). rewrite E2. do 2 eexists. split; [reflexivity|]. split; [exact A2|]. constructor; assumption.
Qed.
