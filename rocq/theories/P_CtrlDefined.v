(* A program with a controller that takes care is defined on values. *)
From Coq Require Import String ZArith List Bool Lia ZifyBool ZifyNat.
From Verif Require Import CSem M_Const M_Misc M_Property M_Message M_PropertyList M_Object M_Node M_NodeListener M_Controller
  Spec_Frame Spec_Message Spec_Map Spec_Object Spec_Node Spec_Request Run_Object Run_Node Run_Controller P_Base P_Misc
  P_Message P_Encode P_MsgApi P_PropertyList P_Object P_ObjectRun P_ObjectReach P_Std P_Node P_Request Properties_Object
  P_NodeReach P_NodeProfile P_NodeInv P_NodeRun P_NodeProps P_RequestProps P_Handlers P_NodeSafe P_Bound P_Shadow P_Controller P_CtrlSafe Properties_CtrlSafety
  M_Server M_NodeLife M_CtrlUse Spec_Mem P_MemRun P_MemLegal M_ObjUse Spec_ObjMem P_ObjRun P_ObjLegal P_CtrlWhole P_CtrlProg Spec_NodeLife Spec_CtrlLife Spec_Careful P_NodeDefined Spec_CtrlCareful.
Import M_NodeLife CSem M_Property M_Message M_PropertyList M_Object M_Node M_NodeListener M_Controller Spec_NodeLife Spec_CtrlLife P_NodeDefined.
Import ListNotations.
Open Scope Z_scope.
Ltac Zify.zify_post_hook ::= Z.div_mod_to_equations.

Section N.
Variable junk : nat -> Z.
Hypothesis Hj : junk_ok junk.
Variable le : bool.
Variable net snet : post -> bool.
Variable dec : list (hcall * bool) -> hcall -> bool.

Definition api_ptr (p : mptr) : Prop := forall m, p = MMsg m -> api_msg le m.
Definition cfit (c : ctrl) (lent : option (nat * nat)) : Prop :=
  cinv c /\ P_Handlers.nobs called (c_node c) /\ Forall ngood (c_nodes c) /\ api_ptr (c_req c) /\ api_ptr (c_res c)
  /\ (lent <> None -> exists q p, c_req c = MMsg q /\ c_res c = MMsg p).

Lemma getobject_in : forall db g c o, uecho_database_getobject db g c = Some o -> In o db.
Proof.
  induction db as [|x db IH]; intros g c o E; cbn [uecho_database_getobject] in E; [discriminate|].
  destruct (_ && _); [injection E as ->; left; reflexivity|right; eapply IH; exact E].
Qed.

Lemma db_maps_of : forall db, maps_readable db -> db_maps db.
Proof.
  intros db H g c p F. unfold db_props in F. destruct (uecho_database_getobject db g c) as [o|] eqn:E; [|discriminate].
  apply P_PropertyList.find_code in F. destruct F as [C I]. apply (H o p); [eapply getobject_in; exact E|exact I|exact C].
Qed.

(* a datagram *)
Lemma receive_inv : forall db, db_ok db -> forall fr c data la ra o y, cinv c -> mem_ok (c_node c) -> buffer data -> fresh_ok fr ->
  ctrl_receive le net snet db dec fr c data la ra = Ok (o, y) -> cinv (cr_ctrl y).
Proof.
  intros db Hdb fr c data la ra o y Hc M Hb Hfr E. pose proof Hc as (N & Sh & Nd & Hq & Hr).
  apply ctrl_receive_spec in E; [|assumption..]. destruct (dec_frame data) as [[f rest]|].
  - destruct E as (r & y' & E & Hf & _ & R & _ & L). injection E as -> ->.
    apply receive_frame_ok in R; [|exact N|exact Hf]. destruct R as [[N1 _] _].
    pose proof (c_with_node_inv c (r_node r) Hc N1) as Hc1.
    destruct (listener_spec _ _ _ Hdb _ _ _ _ _ _ Hc1 Hf Hfr L) as (E & Hr' & Hh).
    destruct (heard_ok _ _ _ Hdb _ _ _ _ _ Hc1 Hh) as [A B]. unfold cinv, addresses.
    split; [rewrite E; exact N1|]. split; [exact A|]. split; [exact B|]. split; [rewrite E; exact Hq|exact Hr'].
  - injection E as -> ->. exact Hc.
Qed.

Lemma receive_res : forall db fr c d la ra y, buffer d -> api_ptr (c_res c) -> ctrl_receive le net snet db dec fr c d la ra = Ok y ->
  api_ptr (c_res (cr_ctrl (snd y))) /\ forall p, c_res c = MMsg p -> exists p', c_res (cr_ctrl (snd y)) = MMsg p'.
Proof.
  intros db fr c d la ra y Hd Hp E. unfold ctrl_receive in E. apply bind_ok in E. destruct E as ([ok m] & Ep & E).
  assert (Am : api_msg le m) by (eapply am_packet; [apply am_new|exact Hd|exact Ep]).
  destruct ok; [|injection E as <-; cbn; eauto].
  apply bind_ok in E. destruct E as (r & _ & E). apply bind_ok in E. destruct E as (z & EZ & E). injection E as <-. cbn [snd].
  unfold uecho_controller_servermessagelistener in EZ. cbv zeta in EZ. apply bind_ok in EZ. destruct EZ as ([c1 sg] & EP & EZ).
  assert (K : api_ptr (c_res c1) /\ forall p, c_res c = MMsg p -> exists p', c_res c1 = MMsg p').
  { destruct (uecho_controller_ispostresponsewaiting _); [|injection EP as <- _; cbn; eauto].
    unfold uecho_controller_handlepostresponse in EP. apply bind_ok in EP. destruct EP as (b & _ & EP). destruct b; cbn [negb] in EP; [|injection EP as <- _; cbn; eauto].
    cbn [c_with_node c_res] in EP. destruct (c_res c) as [|d0|r0] eqn:Er.
    - injection EP as <- _. cbn [c_with_node c_res]. rewrite Er. eauto.
    - destruct d0; [discriminate|]. injection EP as <- _. cbn [c_with_node c_res]. rewrite Er. eauto.
    - apply bind_ok in EP. destruct EP as (r1 & Es & EP). injection EP as <- _. cbn [c_with_post c_res]. split; [|eauto].
      intros x X. injection X as <-. eapply am_set; [exact (Hp r0 eq_refl)|exact Am|exact Es]. }
  apply bind_ok in EZ. destruct EZ as (s & _ & EZ). destruct s.
  - apply bind_ok in EZ. destruct EZ as ([c2 t2] & E2 & EZ). injection EZ as <-. cbn [fst cr_ctrl].
    destruct (search_same _ _ _ _ _ _ _ _ E2) as (_ & Q & _). rewrite Q. exact K.
  - apply bind_ok in EZ. destruct EZ as (dc & _ & EZ). destruct (uecho_node_getobjectbycode _ _); [|injection EZ as <-; exact K].
    destruct (uecho_controller_getnodebyaddress _ _); [|injection EZ as <-; exact K].
    apply bind_ok in EZ. destruct EZ as ([c2 t2] & E2 & EZ). injection EZ as <-. cbn [fst cr_ctrl].
    destruct (nodemsg_same _ _ _ _ _ _ _ _ _ E2) as (_ & Q & _). rewrite Q. exact K.
Qed.

Lemma receive_fit : forall db fr c lent d la ra, db_ok db -> db_maps db -> cfit c lent -> mem_ok (c_node c) -> buffer d -> fresh_enough fr ->
  (lent <> None \/ c_res c = MNull) ->
  exists r, ctrl_receive le net snet db dec fr c d la ra = Ok r /\ cfit (cr_ctrl (snd r)) lent.
Proof.
  intros db fr c lent d la ra Hdb Hm (I & Hn & Hg & Aq & Ap & Hl) M Hb (Hfr & He) W.
  assert (L : live c).
  { intros X. destruct W as [W|W].
    - destruct (Hl W) as (q & p & Q & P). eauto.
    - unfold uecho_controller_ispostresponsewaiting in X. rewrite W in X. rewrite andb_false_r in X. discriminate. }
  assert (T : exists o y, ctrl_receive le net snet db dec fr c d la ra = Ok (o, y) /\ ngoods (P_Handlers.nobs called) (cr_ctrl y)).
  { pose proof I as (N & _).
    destruct (receive_total le net dec (c_node c) d la ra N M Hb Hn) as (r & NR).
    pose proof (node_receive_spec le net dec (c_node c) d la ra Hb (fine_objs _ N M)) as NS. rewrite NR in NS.
    unfold node_receive in NR. unfold ctrl_receive. pose proof Hb as [Hd Hlb].
    assert (Hw : msg_ok uecho_message_new) by (apply (api_inv_holds le); constructor).
    pose proof (parse_spec _ d Hw Hd Hlb) as P. unfold uecho_message_parsepacket in *.
    destruct (dec_frame d) as [[f rest]|] eqn:E.
    - rewrite P in NR |- *. cbn [bind negb] in NR |- *.
      change (uecho_message_setsourceaddress ra (uecho_message_setsourceaddress la (msg_of_frame uecho_message_new f))) with (req_of f la ra) in *.
      apply dec_frame_iff in E; [|exact Hd]. destruct E as [Hf _]. rewrite NR. cbn [bind].
      symmetry in NS. pose proof (receive_obs called le net dec (c_node c) f _ r N Hf NS Hn) as Gr.
      apply receive_frame_ok in NS; [|exact N|exact Hf]. destruct NS as [[N1 _] _].
      destruct (listener_keeps le snet db Hdb Hm (P_Handlers.nobs called) fr (c_with_node (r_node r) c) f la ra (c_with_node_inv c (r_node r) I N1) Hf Hfr He)
        as (y & E1 & G & _). { split; [exact Gr|exact Hg]. } { exact L. }
      rewrite E1. cbn [bind]. exists (Some r), y. auto.
    - destruct P as (m' & P & _). rewrite P. cbn [bind negb]. exists None, (mkCr c [] false). split; [reflexivity|]. split; assumption. }
  destruct T as (o & y & E & G1 & G2). exists (o, y). split; [exact E|]. cbn [snd].
  pose proof (receive_inv db Hdb fr c d la ra o y I M Hb Hfr E) as I'.
  pose proof (receive_req _ _ _ _ _ _ _ _ _ _ _ E) as Q. cbn [snd] in Q.
  destruct (receive_res db fr c d la ra (o, y) Hb Ap E) as [R1 R2]. cbn [snd] in R1, R2.
  split; [exact I'|]. split; [exact G1|]. split; [exact G2|]. split; [rewrite Q; exact Aq|]. split; [exact R1|].
  intros X. destruct (Hl X) as (q & p & Eq & Er). destruct (R2 p Er) as (p' & Er'). exists q, p'. split; [rewrite Q; exact Eq|exact Er'].
Qed.

(* ---- messages that are sent ---- *)
Lemma stamp_code : forall c m, api_msg le m -> forall m', uecho_message_setsourceobjectcode c m = Ok m' -> api_msg le m'.
Proof. intros c m A m' E. eapply am_setsrc; eauto. Qed.

Lemma nfit_tid : forall n, nfit n -> nfit (n_with_tid (next_tid (n_tid n)) n).
Proof.
  intros n [I O]. split; [apply ninv_tid; [exact I|]|exact O]. pose proof (next_tid_range (n_tid n) (proj1 I)). lia.
Qed.

Lemma announce_fit : forall n m, nfit n -> api_msg le m -> P_Encode.fits m ->
  exists s, uecho_node_announcemessage le net n m = Ok s /\ nfit (s_node s) /\ api_msg le (s_msg s).
Proof.
  intros n m N A F. pose proof (api_inv_holds _ _ A) as [Hm _]. destruct (announcemsg_total le net n m Hm F) as (s & E). exists s. split; [exact E|]. split.
  - rewrite announcemessage_spec in E by assumption. cbv zeta in E. injection E as <-. destruct (profile n); cbn [s_node]; apply nfit_tid; exact N.
  - unfold uecho_node_announcemessage in E. destruct (uecho_node_getnexttid n) as [n1 t]. destruct (uecho_node_getobjectbycode n1 _) as [p|].
    + apply bind_ok in E. destruct E as (m2 & E2 & E). do 3 (apply bind_ok in E; destruct E as (? & _ & E)). injection E as <-. cbn [s_msg].
      eapply am_setsrc; [apply am_settid; exact A|exact E2].
    + injection E as <-. apply am_settid. exact A.
Qed.

Lemma send_fit : forall n d m, nfit n -> api_msg le m -> P_Encode.fits m ->
  exists s, uecho_node_sendmessage le net n d m = Ok s /\ nfit (s_node s) /\ api_msg le (s_msg s).
Proof.
  intros n d m N A F. pose proof (api_inv_holds _ _ A) as [Hm _]. destruct (sendmsg_total le net n d m Hm F) as (s & E). exists s. split; [exact E|]. split.
  - rewrite sendmessage_spec in E by assumption. cbv zeta in E. injection E as <-. destruct (profile n); [destruct (n_addr d)|]; cbn [s_node]; apply nfit_tid; exact N.
  - unfold uecho_node_sendmessage in E. destruct (uecho_node_getnexttid n) as [n1 t]. destruct (uecho_node_getobjectbycode n1 _) as [p|].
    + apply bind_ok in E. destruct E as (m2 & E2 & E). do 3 (apply bind_ok in E; destruct E as (? & _ & E)). injection E as <-. cbn [s_msg].
      eapply am_setsrc; [apply am_settid; exact A|exact E2].
    + injection E as <-. apply am_settid. exact A.
Qed.

(* ---- programs ---- *)
Definition kfit (st : kstate) : Prop :=
  state_fit (ks_nodes st) /\ all_api le (ks_msgs st) /\ forall c, ks_ctrl st = Some c -> cfit c (ks_lent st).

Lemma cfit_node : forall c lent n, cfit c lent -> nfit n -> cfit (c_with_node n c) lent.
Proof. intros c lent n (I & _ & R) [N O]. split; [apply c_with_node_inv; assumption|]. split; [exact O|exact R]. Qed.

Lemma fit_local : forall c lent, cfit c lent -> nfit (c_node c).
Proof. intros c lent (I & O & _). split; [apply I|exact O]. Qed.

Lemma local_one : forall op own n v st, on_local op -> nvalue junk le net dec op (mkNstate own [Some n]) = Some (v, st) -> exists n', ns_nodes st = [Some n'].
Proof.
  intros op own n v st L E.
  assert (P : forall k n' x, node_at (mkNstate own [Some n]) k = Some n' -> put_node k (Some x) [Some n] = [Some x]).
  { intros [|[|k]] n' x H; try discriminate; reflexivity. }
  destruct op; cbn [nvalue on_local] in *; try contradiction;
    repeat match type of E with
    | match ?x with _ => _ end = Some _ => destruct x eqn:?; try discriminate
    end; cbv zeta in E; injection E as <- <-; cbn [ns_nodes with_node]; eauto.
Qed.

(* values stay short *)
Definition kbound (st : kstate) : Prop := state_bound (ks_nodes st) /\ forall c, ks_ctrl st = Some c -> nbound K40 (c_node c).

Lemma kstep_total : forall op st, kfit st -> kbound st -> kargs_ok op -> krules op st -> kcare op st ->
  exists v st', kvalue junk le net snet dec op st = Some (v, st') /\ kfit st'.
Proof.
  intros op st Fit [SB CB] Ha R K. pose proof Fit as (S & A & C).
  assert (DB : Forall einv (s_db (ns_own (ks_nodes st)))) by (apply S).
  assert (PUT : forall c, cfit c (ks_lent st) -> kfit (with_ctrl st c)).
  { intros c Hc. split; [exact S|]. split; [exact A|]. intros c' X. injection X as <-. exact Hc. }
  destruct op; cbn [kvalue].
  { (* nodes *)
    destruct (step_total junk Hj le net dec op (ks_nodes st) S Ha R K (bound_values _ SB)) as (v & st' & E & F). rewrite E. cbn [given fst snd].
    eexists _, _. split; [reflexivity|]. split; [exact F|]. split; [exact A|exact C]. }
  { (* messages *)
    destruct (P_MemLegal.legal_step le op (ks_msgs st) A Ha K) as (o & st' & E & F). rewrite E. cbn [given fst snd].
    eexists _, _. split; [reflexivity|]. split; [exact S|]. split; [exact F|exact C]. }
  { (* new *)
    destruct K as [K1 [(F1 & F2 & F3 & F4 & F5) [L1 L2]]]. rewrite K1. unfold uecho_controller_new.
    destruct (new_total (fr_junk fr) F2 le net (s_db (ns_own (ks_nodes st))) (fr_tid fr) (fr_man fr) (fr_uniq fr) DB (proj1 F1) F3 F4 L1 L2) as (n & ps & E & N).
    rewrite E. cbn [bind try fst snd]. eexists _, _. split; [reflexivity|]. split; [exact S|]. split; [exact A|]. intros c X. injection X as <-.
    split; [|split; [apply N|]].
    - split; [apply N|]. split; [constructor|]. split; [constructor|]. split; exact Logic.I.
    - split; [constructor|]. split; [intros ? X; discriminate|]. split; [intros ? X; discriminate|]. intros X. exfalso. apply X. reflexivity. }
  all: try (destruct (ks_ctrl st) as [c|] eqn:Hc; [|exfalso; cbn [kcare] in K; rewrite ?Hc in K; first [apply K; reflexivity|destruct K as [K _]; apply K; reflexivity|destruct K as (? & K & _); discriminate]]).
  all: pose proof (C _ eq_refl) as Fc; pose proof (fit_local _ _ Fc) as Nc; cbn [given ctrl_call].
  { (* delete *) destruct K as [_ K]. rewrite K. eexists _, _. split; [reflexivity|]. split; [exact S|]. split; [exact A|]. intros; discriminate. }
  { (* start *)
    pose proof (proj1 (bound_mem _) (CB _ eq_refl)) as M. unfold uecho_controller_start, uecho_node_start.
    destruct (announce_total le net (c_node c) (proj1 Nc) M) as ([[n ps] b] & E). rewrite E. cbn [bind try]. eexists _, _. split; [reflexivity|]. apply PUT.
    assert (Nn : nfit n).
    { unfold uecho_node_announce in E. destruct (uecho_node_getobjectbycode (c_node c) uEchoNodeProfileObject) as [o|]; [|injection E as <- _ _; exact Nc].
      destruct (uecho_object_getproperty o EPC_InstanceListNotification) as [q|]; [|injection E as <- _ _; exact Nc].
      apply bind_ok in E. destruct E as (s & E & E2). injection E2 as <- _ _. rewrite (announceproperty_shape _ _ _ _ _ _ E). apply nfit_tid. exact Nc. }
    apply cfit_node; [|exact Nn]. destruct Fc as ((I1 & I2 & I3 & I4 & I5) & O & G & R1 & R2 & R3).
    split; [split; [exact I1|]; split; [constructor|]; split; [constructor|]; split; [exact I4|exact I5]|]. split; [exact O|]. split; [constructor|]. split; [exact R1|]. split; [exact R2|exact R3]. }
  all: try (eexists _, _; split; [reflexivity|]; first [apply PUT; exact Fc | exact Fit]; fail).
  { (* local *)
    destruct K as (c0 & X & L & K). rewrite Hc in X. injection X as <-. pose proof (proj1 (bound_mem _) (CB _ eq_refl)) as M. set (st0 := mkNstate (ns_own (ks_nodes st)) [Some (c_node c)]) in *.
    assert (S0 : state_fit st0).
    { split; [apply S|]. intros [|[|k]] n E; try discriminate. injection E as <-. exact Nc. }
    assert (V0 : values_fit st0). { intros [|[|k]] n E; try discriminate. injection E as <-. exact M. }
    assert (R0 : nrules op st0) by (destruct op; exact R).
    destruct (step_total junk Hj le net dec op st0 S0 Ha R0 K V0) as (v & st' & E & F). destruct (local_one _ _ _ _ _ L E) as (n' & En). rewrite E.
    cbn [given fst snd]. rewrite En. eexists _, _. split; [reflexivity|]. split; [|split; [exact A|]].
    - split; [apply F|]. intros k n H. apply (proj2 S k n). exact H.
    - intros c' X. injection X as <-. apply cfit_node; [exact Fc|]. apply (proj2 F 0%nat). unfold node_at. rewrite En. reflexivity. }
  { (* search *)
    destruct K as [_ K]. unfold uecho_controller_searchwithesv, uecho_controller_announcemessage. destruct (search_api le) as (m & Em & Am).
    destruct search_msg as (m0 & Em0 & Hm & S1 & S2 & S3 & S4 & S5 & S6 & S7). rewrite Em in Em0. injection Em0 as <-. rewrite Em. cbn [bind].
    destruct (announce_fit (c_node c) (uecho_message_setesv esv m) Nc (am_setesv le m esv Am K)) as (s & E & N & _).
    { apply search_fits; [reflexivity|apply (api_inv_holds le); apply am_setesv; assumption|assumption..]. }
    rewrite E. cbn [try]. eexists _, _. split; [reflexivity|]. apply PUT. apply cfit_node; assumption. }
  { (* search an object *)
    destruct K as [_ K]. unfold uecho_controller_searchobjectwithesv, uecho_controller_announcemessage. destruct (search_api le) as (m & Em & Am).
    destruct search_msg as (m0 & Em0 & Hm & S1 & S2 & S3 & S4 & S5 & S6 & S7). rewrite Em in Em0. injection Em0 as <-. rewrite Em. cbn [bind].
    pose proof (am_setesv le m esv Am K) as A1.
    match goal with |- context [uecho_message_setdestinationobjectcode ?k ?x] => destruct (uecho_message_setdestinationobjectcode k x) as [m2|e] eqn:E2 end;
      [|rewrite setdst_eq in E2; discriminate]. cbn [bind].
    pose proof (am_setdst le _ _ _ A1 E2) as A2.
    destruct (announce_fit (c_node c) m2 Nc A2) as (s & E & N & _).
    { rewrite setdst_eq in E2. injection E2 as <-. apply search_fits; [reflexivity|apply (api_inv_holds le); exact A2|assumption..]. }
    rewrite E. cbn [try]. eexists _, _. split; [reflexivity|]. apply PUT. apply cfit_node; assumption. }
  { (* announce *)
    destruct K as (_ & m & Hm & Im). rewrite Hm. cbn [given]. pose proof (all_api_in _ _ _ _ A Hm) as Am.
    destruct (announce_fit (c_node c) m Nc Am) as (s & E & N & As). { apply in_memory_fits; [apply (api_inv_holds le); exact Am|exact Im]. }
    unfold uecho_controller_announcemessage. rewrite E. cbn [try]. eexists _, _. split; [reflexivity|].
    destruct (PUT (c_with_node (s_node s) c)) as (P1 & P2 & P3); [apply cfit_node; assumption|]. split; [exact P1|]. split; [apply all_api_put; [exact A|exact As]|exact P3]. }
  { (* send *)
    destruct K as (_ & m & Hm & Im). rewrite Hm. cbn [given]. pose proof (all_api_in _ _ _ _ A Hm) as Am.
    destruct (seen_at c a code) as [[n o]|]; [|eexists _, _; split; [reflexivity|]; exact Fit].
    unfold uecho_object_sendmessage, uecho_controller_sendmessage.
    match goal with |- context [uecho_message_setdestinationobjectcode ?k ?x] => destruct (uecho_message_setdestinationobjectcode k x) as [m2|e] eqn:E2 end;
      [|rewrite setdst_eq in E2; discriminate]. cbn [bind].
    pose proof (am_setdst le _ _ _ Am E2) as A2.
    destruct (send_fit (c_node c) n m2 Nc A2) as (s & E & N & As).
    { apply in_memory_fits; [apply (api_inv_holds le); exact A2|]. rewrite setdst_eq in E2. injection E2 as <-. exact Im. }
    rewrite E. cbn [try]. eexists _, _. split; [reflexivity|].
    destruct (PUT (c_with_node (s_node s) c)) as (P1 & P2 & P3); [apply cfit_node; assumption|]. split; [exact P1|]. split; [apply all_api_put; [exact A|exact As]|exact P3]. }
  { (* post *)
    destruct K as (_ & Hl & Nij & (q & Hq & Iq) & p & Hp). rewrite Hl. destruct (Nat.eqb i j) eqn:Eij; [apply Nat.eqb_eq in Eij; contradiction|].
    rewrite Hq, Hp. cbn [given]. pose proof (all_api_in _ _ _ _ A Hq) as Aq. pose proof (all_api_in _ _ _ _ A Hp) as Ap.
    assert (W : forall c1, cfit c1 None -> cfit (c_with_post (MWild true) (MWild true) c1) None).
    { intros c1 ((I1 & I2 & I3 & I4 & I5) & O & G & _). split; [split; [exact I1|]; split; [exact I2|]; split; [exact I3|]; split; exact Logic.I|].
      split; [exact O|]. split; [exact G|]. split; [intros ? X; discriminate|]. split; [intros ? X; discriminate|]. intros X. exfalso. apply X. reflexivity. }
    rewrite Hl in Fc, PUT.
    destruct (uecho_controller_getnodebyaddress c (Some a)) as [n|].
    2:{ eexists _, _. split; [reflexivity|]. apply PUT. apply W. exact Fc. }
    unfold uecho_controller_sendmessage.
    destruct (send_fit (c_node c) n q Nc Aq) as (s & E & N & As). { apply in_memory_fits; [apply (api_inv_holds le); exact Aq|exact Iq]. }
    rewrite E. cbn [try]. pose proof (cfit_node _ _ _ Fc N) as Fn. destruct (s_ret s).
    - eexists _, _. split; [reflexivity|]. split; [exact S|]. split; [apply all_api_put; [apply all_api_put; [exact A|exact Logic.I]|exact Logic.I]|].
      cbn [ks_ctrl ks_lent]. intros c' X. injection X as <-. destruct Fn as ((I1 & I2 & I3 & I4 & I5) & O & G & _).
      split; [split; [exact I1|]; split; [exact I2|]; split; [exact I3|]; split; cbn; [apply (api_inv_holds le); exact As|apply (api_inv_holds le); exact Ap]|].
      split; [exact O|]. split; [exact G|]. split; [intros ? X; injection X as <-; exact As|]. split; [intros ? X; injection X as <-; exact Ap|]. intros _. eexists _, _. split; reflexivity.
    - eexists _, _. split; [reflexivity|]. destruct (PUT _ (W _ Fn)) as (P1 & P2 & P3).
      split; [exact P1|]. split; [apply all_api_put; [exact A|exact As]|exact P3]. }
  { (* wait *)
    destruct K as [_ K]. pose proof Fc as ((I1 & I2 & I3 & I4 & I5) & O & G & R1 & R2 & R3). destruct (R3 K) as (q & p & Eq & Ep).
    destruct (ks_lent st) as [[i j]|]; [|contradiction]. rewrite Eq, Ep. eexists _, _. split; [reflexivity|]. split; [exact S|].
    split; [apply all_api_put; [apply all_api_put; [exact A|exact (R2 _ Ep)]|exact (R1 _ Eq)]|].
    intros c' X. injection X as <-. split; [split; [exact I1|]; split; [exact I2|]; split; [exact I3|]; split; exact Logic.I|].
    split; [exact O|]. split; [exact G|]. split; [intros ? X; discriminate|]. split; [intros ? X; discriminate|]. intros X. exfalso. apply X. reflexivity. }
  { (* receive *)
    destruct K as (c0 & X & Hfr & Hmap & W). rewrite Hc in X. injection X as <-. pose proof (proj1 (bound_mem _) (CB _ eq_refl)) as M.
    destruct (receive_fit (s_db (ns_own (ks_nodes st))) fr c (ks_lent st) (firstn RECV_BUFSIZE d) local (Some from) (ginv_db _ DB) (db_maps_of _ Hmap) Fc M (buffer_firstn _ _ (proj1 Ha)) Hfr W)
      as (r & E & F). rewrite E. cbn [try]. eexists _, _. split; [reflexivity|]. apply PUT. exact F. }
Qed.

Lemma tid_bound : forall t n, nbound K40 n -> nbound K40 (n_with_tid t n).
Proof. intros t n H. exact H. Qed.

Lemma receive_bound : forall db fr c lent d la ra r, db_ok db -> cfit c lent -> nbound K40 (c_node c) -> buffer d -> fresh_ok fr ->
  ctrl_receive le net snet db dec fr c d la ra = Ok r -> nbound K40 (c_node (cr_ctrl (snd r))).
Proof.
  intros db fr c lent d la ra r Hdb Fc B Hb Hfr E. pose proof (proj1 Fc) as Hc. pose proof (proj1 (bound_mem _) B) as M.
  apply ctrl_receive_spec in E; [|assumption..]. destruct (dec_frame d) as [[f rest]|].
  - destruct E as (x & y & -> & Hf & _ & R & Rn & L). cbn [snd].
    apply receive_frame_ok in R; [|apply Hc|exact Hf]. destruct R as [[N1 _] _].
    destruct (listener_spec _ _ _ Hdb _ _ _ _ _ _ (c_with_node_inv c (r_node x) Hc N1) Hf Hfr L) as (E & _). rewrite E.
    change (nbound K40 (r_node x)). eapply bound_receive; [exact K40_ok|apply Hc|exact M|exact Hb|exact Rn|exact B].
  - subst r. exact B.
Qed.

Lemma kstep_bound : forall op st v st', kvalue junk le net snet dec op st = Some (v, st') -> kfit st -> kargs_ok op -> kcare op st -> kbound st -> kbound st'.
Proof.
  intros op st v st' E (S & A & C) Ha K [SB CB].
  assert (PUT : forall c ms l, nbound K40 (c_node c) -> kbound (mkKstate (ks_nodes st) ms (Some c) l)).
  { intros c ms l H. split; [exact SB|]. intros c' X. injection X as <-. exact H. }
  assert (DB : Forall einv (s_db (ns_own (ks_nodes st)))) by (apply S).
  destruct op; cbn [kvalue] in E.
  { destruct (nvalue junk le net dec op (ks_nodes st)) as [[w s]|] eqn:V; [|discriminate]. cbn [given fst snd] in E. injection E as _ <-.
    split; [exact (step_bound junk le net dec _ _ _ _ V S Ha K SB)|exact CB]. }
  { match type of E with given ?x _ = _ => destruct x as [[w s]|]; [|discriminate] end. cbn [given fst snd] in E. injection E as _ <-. split; [exact SB|exact CB]. }
  { destruct (ks_ctrl st); [discriminate|]. unfold uecho_controller_new in E.
    destruct (uecho_node_new le net (s_db (ns_own (ks_nodes st))) (fr_tid fr) (fr_junk fr) (fr_man fr) (fr_uniq fr)) as [[n ps]|] eqn:V; [|discriminate].
    cbn [bind try fst snd] in E. injection E as _ <-. apply PUT. eapply bound_node_new; [exact K40_ok|apply SB|exact V]. }
  all: destruct (ks_ctrl st) as [c|] eqn:Hc; [|discriminate]; cbn [given ctrl_call] in E; pose proof (CB _ eq_refl) as Bc; pose proof (C _ eq_refl) as Fc.
  { destruct (ks_lent st); [discriminate|]. injection E as _ <-. split; [exact SB|intros; discriminate]. }
  { unfold uecho_controller_start, uecho_node_start in E. destruct (uecho_node_announce le net (c_node c)) as [[[n ps] b]|] eqn:V; [|discriminate].
    cbn [bind try] in E. injection E as _ <-. apply PUT. change (nbound K40 n). eapply bound_announce; [exact V|exact Bc]. }
  all: try (injection E as _ <-; apply PUT; exact Bc).
  all: try (injection E as _ <-; split; [exact SB|rewrite Hc; exact CB]).
  { destruct K as (c0 & X & L & K). rewrite Hc in X. injection X as <-. set (st0 := mkNstate (ns_own (ks_nodes st)) [Some (c_node c)]) in *.
    destruct (nvalue junk le net dec op st0) as [[w s]|] eqn:V; [|discriminate]. cbn [given fst snd] in E.
    assert (S0 : state_fit st0). { split; [apply S|]. intros [|[|k]] n X; try discriminate. injection X as <-. exact (fit_local _ _ Fc). }
    assert (B0 : state_bound st0). { split; [apply SB|]. intros [|[|k]] n X; try discriminate. injection X as <-. exact Bc. }
    pose proof (step_bound junk le net dec _ _ _ _ V S0 Ha K B0) as B1. destruct (local_one _ _ _ _ _ L V) as (n' & En). rewrite En in E. injection E as _ <-.
    split; [split; [apply B1|apply SB]|]. intros c' X. injection X as <-. change (nbound K40 n'). apply (proj2 B1 0%nat). unfold node_at. rewrite En. reflexivity. }
  { destruct (uecho_controller_searchwithesv le net c esv) as [s|] eqn:V; [|discriminate]. cbn [try] in E. injection E as _ <-. apply PUT.
    unfold uecho_controller_searchwithesv in V. apply bind_ok in V. destruct V as (m & _ & V).
    change (nbound K40 (s_node s)). rewrite (announcemessage_shape _ _ _ _ _ V). exact Bc. }
  { destruct (uecho_controller_searchobjectwithesv le net c code esv) as [s|] eqn:V; [|discriminate]. cbn [try] in E. injection E as _ <-. apply PUT.
    unfold uecho_controller_searchobjectwithesv in V. do 2 (apply bind_ok in V; destruct V as (? & _ & V)).
    change (nbound K40 (s_node s)). rewrite (announcemessage_shape _ _ _ _ _ V). exact Bc. }
  { destruct (alive (ks_msgs st) i) as [m|]; [|discriminate]. cbn [given] in E.
    destruct (uecho_controller_announcemessage le net c m) as [s|] eqn:V; [|discriminate]. cbn [try] in E. injection E as _ <-. apply PUT.
    change (nbound K40 (s_node s)). rewrite (announcemessage_shape _ _ _ _ _ V). exact Bc. }
  { destruct (alive (ks_msgs st) i) as [m|]; [|discriminate]. cbn [given] in E. destruct (seen_at c a code) as [[n o]|]; [|injection E as _ <-; split; [exact SB|rewrite Hc; exact CB]].
    destruct (uecho_object_sendmessage le net c n o m) as [s|] eqn:V; [|discriminate]. cbn [try] in E. injection E as _ <-. apply PUT.
    unfold uecho_object_sendmessage in V. apply bind_ok in V. destruct V as (? & _ & V).
    change (nbound K40 (s_node s)). rewrite (sendmessage_shape _ _ _ _ _ _ V). exact Bc. }
  { destruct (ks_lent st); [discriminate|]. destruct (Nat.eqb i j); [discriminate|]. destruct (alive (ks_msgs st) i) as [q|]; [|discriminate].
    destruct (alive (ks_msgs st) j) as [p|]; [|discriminate]. cbn [given] in E.
    destruct (uecho_controller_getnodebyaddress c (Some a)) as [n|]; [|injection E as _ <-; apply PUT; exact Bc].
    destruct (uecho_controller_sendmessage le net c n q) as [s|] eqn:V; [|discriminate]. cbn [try] in E.
    assert (Bs : nbound K40 (s_node s)) by (rewrite (sendmessage_shape _ _ _ _ _ _ V); exact Bc).
    destruct (s_ret s); injection E as _ <-; apply PUT; exact Bs. }
  { destruct (ks_lent st) as [[i j]|]; [|discriminate]. destruct (c_req c); try discriminate. destruct (c_res c); try discriminate. injection E as _ <-. apply PUT. exact Bc. }
  { match type of E with try ?x _ = _ => destruct x as [r|] eqn:V; [|discriminate] end. cbn [try] in E. injection E as _ <-. apply PUT.
    destruct K as (c0 & X & Hfr & _). eapply receive_bound; [exact (ginv_db _ DB)|exact Fc|exact Bc|apply buffer_firstn; apply Ha|apply Hfr|exact V]. }
Qed.

Lemma krun_total : forall ops st, kfit st -> kbound st -> kcareful junk le net snet dec ops st ->
  exists vs st', kvalues junk le net snet dec ops st = Some (vs, st') /\ kfit st'.
Proof.
  induction ops as [|op ops IH]; intros st S B C; cbn [kcareful kvalues] in *; [eauto|].
  destruct C as (C1 & C2 & C3 & C4). destruct (kstep_total op st S B C1 C2 C3) as (v & st1 & E & S1). rewrite E. cbn [given snd fst].
  destruct (IH st1 S1 (kstep_bound _ _ _ _ E S C1 C3 B) (C4 _ _ E)) as (vs & st2 & E2 & S2). rewrite E2. cbn [given]. eauto.
Qed.

Lemma kcareful_legal : forall ops st, kcareful junk le net snet dec ops st -> klegal junk le net snet dec ops st.
Proof.
  induction ops as [|op ops IH]; intros st C; cbn [kcareful klegal] in *; [exact Logic.I|].
  destruct C as (C1 & C2 & C3 & C4). split; [exact C1|]. split; [exact C2|]. intros v st' E. apply IH. exact (C4 _ _ E).
Qed.

Lemma no_ctrl_fit : kfit no_ctrl.
Proof. split; [exact no_nodes_fit|]. split; [constructor|]. intros; discriminate. Qed.
Lemma no_ctrl_bound : kbound no_ctrl.
Proof. split; [exact no_nodes_bound|]. intros; discriminate. Qed.
End N.
