(* C40: delivery of received datagrams.  C41: sending announcements.  C53: starting and stopping.
   C54: sending to a node. *)
From Coq Require Import String ZArith List Bool Lia.
From Verif Require Import CSem M_Const M_Misc M_Property M_Message M_Object M_Node Spec_Frame Spec_Message P_Base P_Misc P_Message P_Encode
  P_MsgApi Properties_Message M_Std StdDB_Data Run_Node P_NodeProps Properties_Node M_Server Spec_Server P_Server.
Import ListNotations.
Open Scope Z_scope.

(* ---------- C53: starting and stopping ---------- *)

(* a start succeeds exactly if the system grants all it needs and every observer is given *)
Theorem C53_start_iff : forall ops e, snd (uecho_server_start e (srun ops)) = true <-> succeeds e ops.
Proof. intros ops e. apply start_iff. Qed.
Print Assumptions C53_start_iff.

(* a start is all or nothing, over every history: what runs is exactly what the last start, if it
   succeeded and nothing stopped it since, set up; a failed start leaves nothing running *)
Theorem C53_all_or_nothing : forall ops,
  exists p, leaves ops p /\ serving (srun ops) p /\ forall p', leaves ops p' -> serving (srun ops) p'.
Proof.
  intros ops. destruct (leaves_total ops) as (p & L). exists p. split; [exact L|].
  split; [exact (leaves_serving _ _ L)|]. intros p'. apply leaves_serving.
Qed.
Print Assumptions C53_all_or_nothing.

(* stopping always succeeds, keeps the observers and the option, and leaves no server *)
Theorem C53_stop : forall ops, exists s, uecho_server_stop (srun ops) = (s, true)
  /\ sv_udp s = [] /\ sv_mcast s = [] /\ sv_obs s = registered ops /\ sv_option s = option_of ops.
Proof.
  intros ops. destruct (srun_facts ops) as (A & B & _). rewrite stop_eq. eexists. split; [reflexivity|]. cbn. auto.
Qed.
Print Assumptions C53_stop.

(* no server is freed, by a start, a stop or the deletion at the end, while it has a thread *)
Theorem C53_no_lost_thread : forall ops, sv_lost (srun ops) = [] /\ uecho_server_delete (srun ops) = [].
Proof.
  intros ops. destruct (srun_facts ops) as (_ & _ & C). split; [exact C|]. unfold uecho_server_delete.
  rewrite C, !clear_stopped. reflexivity.
Qed.
Print Assumptions C53_no_lost_thread.

(* isrunning tells whether a start is in force, unless UDP was switched on after the start *)
Theorem C53_isrunning_partial : forall ops p, leaves ops p ->
  match p with
  | Down => uecho_server_isrunning (srun ops) = false
  | Up _ _ option => (udp_wanted (option_of ops) -> udp_wanted option) -> uecho_server_isrunning (srun ops) = true
  end.
Proof.
  intros ops p L. pose proof (leaves_serving _ _ L) as S. destruct (srun_facts ops) as (_ & B & _).
  destruct p as [|e obs o]; unfold uecho_server_isrunning.
  - destruct S as [_ S]. rewrite S. reflexivity.
  - intros W. destruct S as (M & U & _). destruct (leaves_up_nonempty _ _ _ _ L) as [N _].
    assert (X : forall l, Forall2 (up_at obs) (os_ifs e) l -> serverlist_isrunning l = true).
    { intros l F. destruct F; [congruence|reflexivity]. }
    rewrite (X _ M). cbn [andb]. destruct (uecho_server_isudpserverenabled (srun ops)) eqn:E; [|reflexivity].
    apply udp_enabled in E. rewrite B in E. apply X. auto.
Qed.
Print Assumptions C53_isrunning_partial.

Definition os_all (ifs : list string) : osenv := mkOs ifs (fun _ _ => true) (fun _ _ => true).
Definition wlan : osenv := os_all ["192.168.1.2"; "10.0.0.2"]%string.
Definition history : list sop := [SAdd 1 2; SAdd 3 4; SStart wlan].
Lemma history_up : leaves history (Up wlan [mkMobs 1 2; mkMobs 3 4] 0).
Proof.
  unfold history. change [SAdd 1 2; SAdd 3 4; SStart wlan] with ((([] ++ [SAdd 1 2]) ++ [SAdd 3 4]) ++ [SStart wlan]).
  apply (l_up (([] ++ [SAdd 1 2]) ++ [SAdd 3 4]) Down wlan).
  - repeat constructor.
  - split.
    + split; [discriminate|]. split; [|intros _]; intros a _; split; reflexivity.
    + repeat constructor; cbn; discriminate.
Qed.
Example C53_example : leaves history (Up wlan [mkMobs 1 2; mkMobs 3 4] 0) /\ uecho_server_isrunning (srun history) = true
  /\ sv_mcast (srun history) <> [].
Proof. split; [exact history_up|]. split; [reflexivity|discriminate]. Qed.

(* with UDP switched on after the start, isrunning denies a start that is in force *)
Theorem C53_isrunning_refuted : exists ops e obs o, leaves ops (Up e obs o)
  /\ sv_mcast (srun ops) <> [] /\ uecho_server_isrunning (srun ops) = false.
Proof.
  exists [SOption 1; SAdd 1 2; SStart wlan; SOption 0], wlan, [mkMobs 1 2], 1. split; [|split; [discriminate|reflexivity]].
  change [SOption 1; SAdd 1 2; SStart wlan; SOption 0] with (((([] ++ [SOption 1]) ++ [SAdd 1 2]) ++ [SStart wlan]) ++ [SOption 0]).
  constructor. apply (l_up (([] ++ [SOption 1]) ++ [SAdd 1 2]) Down wlan).
  - repeat constructor.
  - split.
    + split; [discriminate|]. split; [|intros _]; intros a _; split; reflexivity.
    + repeat constructor; cbn; discriminate.
Qed.
Print Assumptions C53_isrunning_refuted.

(* one interface on which the port cannot be bound is enough to keep all others down *)
Theorem C53_one_interface_refuted : exists e a b, In a (os_ifs e) /\ In b (os_ifs e)
  /\ os_open e true a = true /\ os_open e false a = true
  /\ (forall k, os_thread e k a = true) /\ snd (uecho_server_start e (srun [SAdd 1 2])) = false
  /\ sv_mcast (fst (uecho_server_start e (srun [SAdd 1 2]))) = [].
Proof.
  exists (mkOs ["192.168.1.2"; "10.0.0.2"]%string (fun _ a => String.eqb a "192.168.1.2") (fun _ _ => true)), "192.168.1.2"%string, "10.0.0.2"%string.
  split; [left; reflexivity|]. split; [right; left; reflexivity|]. split; [reflexivity|]. split; [reflexivity|].
  split; [reflexivity|]. split; reflexivity.
Qed.
Print Assumptions C53_one_interface_refuted.

(* ---------- C40: deliveries ---------- *)

(* Each server that a history leaves running, whatever arrives at it, delivers each datagram that
   is a frame exactly once to every observer registered before the start, in the order of
   registration, with the frame's fields and the sender's address, and other datagrams to none.
   Missing for the full statement: frames above 512 bytes, errors of the socket, handlers that
   change the message and observers registered while running; see the refutations. *)
Theorem C40_delivered_partial : forall le eff ops e obs option v l,
  leaves ops (Up e obs option) -> In v (sv_mcast (srun ops) ++ sv_udp (srun ops)) ->
  reads_only eff -> Forall arrival_ok l -> Forall arrival_fits l -> ~ In AError l ->
  exists parts, server_action eff (v_obs v) l = Ok (concat parts) /\ Forall2 (delivers le obs) l parts.
Proof.
  intros le eff ops e obs option v l L Hv R A F N. pose proof (leaves_serving _ _ L) as S.
  destruct (leaves_up_nonempty _ _ _ _ L) as [_ G].
  assert (E : v_obs v = obs).
  { destruct S as (M & U1 & U2). assert (X : forall vs, Forall2 (up_at obs) (os_ifs e) vs -> In v vs -> v_obs v = obs).
    { intros vs F2. clear Hv M U1 U2. induction F2 as [|a w l' vs W _ IH]; intros I; [destruct I|].
      destruct I as [I|I]; [rewrite <- I; apply W|exact (IH I)]. }
    apply in_app_or in Hv. destruct Hv as [Hv|Hv]; [exact (X _ M Hv)|].
    destruct (Z.testbit option 0) eqn:B.
    - rewrite U2 in Hv; [destruct Hv|]. unfold udp_wanted. congruence.
    - exact (X _ (U1 B) Hv). }
  rewrite E. exact (action_delivers le eff obs l R G A F N).
Qed.
Print Assumptions C40_delivered_partial.

(* whatever arrives, whatever the handlers do, the server thread does nothing undefined, apart from what it logs.
   Missing: the log of long datagrams, which C58_datagram_refuted shows to overflow. *)
Theorem C40_safe_partial : forall eff obs l, Forall arrival_ok l -> exists ds, server_action eff obs l = Ok ds.
Proof.
  intros eff obs l. induction l as [|a r IH]; intros A; [eexists; reflexivity|]. inversion A as [|? ? A1 A2]; subst.
  destruct (IH A2) as (ds & E). destruct a as [b from local| |]; cbn [server_action]; [| |eauto].
  - destruct (C01_parsepacket_safe true uecho_message_new (firstn RECV_BUFSIZE b) local (Some from) (am_new true)
      (buffer_cut b RECV_BUFSIZE A1)) as (x & m & P). rewrite P, E. cbn [bind]. eauto.
  - destruct (C01_parsepacket_safe true uecho_message_new [] None None (am_new true)) as (x & m & P).
    { split; [constructor|]. cbn. unfold OBJ_MAX. lia. }
    rewrite P, E. cbn [bind]. eauto.
Qed.
Print Assumptions C40_safe_partial.

(* a frame of more than 512 bytes reaches no observer *)
Theorem C40_oversize : forall eff obs b from local f, buffer b -> holds b f -> 512 < len (enc_frame f) ->
  server_action eff obs [AData b from local] = Ok [].
Proof.
  intros eff obs b from local f B H L. cbn [server_action].
  destruct (packet_bad _ local (Some from) (buffer_cut b RECV_BUFSIZE B)) as (m & E).
  { intros f' H'. apply holds_cut in H'; [|exact B]. destruct H' as [(Hf' & rest' & E') L'].
    destruct H as (Hf & rest & E). destruct B as [Bb _]. rewrite E in E', Bb.
    destruct (C02_frame_unique f f' rest rest' Hf Hf' Bb E') as [-> _]. lia. }
  rewrite E. reflexivity.
Qed.
Print Assumptions C40_oversize.

(* an error of the socket ends the thread: nothing that arrives later is delivered *)
Theorem C40_error : forall eff obs l r, ~ In AError l -> server_action eff obs (l ++ AError :: r) = server_action eff obs l.
Proof.
  intros eff obs l r N. induction l as [|a l IH]; [reflexivity|]. cbn [app server_action].
  rewrite IH by (intros X; apply N; right; exact X). destruct a; [reflexivity|reflexivity|]. exfalso. apply N. left. reflexivity.
Qed.
Print Assumptions C40_error.

Definition greeting : list Z := [16; 129; 0; 1; 14; 240; 1; 5; 255; 1; 98; 1; 128; 0].
Definition long_frame : list Z := [16; 129; 0; 1; 14; 240; 1; 5; 255; 1; 97; 3; 128; 200] ++ repeat 7 200 ++ [129; 200] ++ repeat 7 200 ++ [130; 200] ++ repeat 7 200.
Definition peaceful (_ : mobs) (m : msg) : msg := m.

Ltac frame_of b := let D := fresh in
  assert (D : exists f rest, dec_frame b = Some (f, rest)) by (vm_compute; eauto).

Lemma greeting_buffer : buffer greeting.
Proof. split; [repeat (apply bytes_ok_cons; split; [unfold is_byte; lia|]); constructor|vm_compute; discriminate]. Qed.
Lemma bytes_okb : forall l, forallb (fun x => (0 <=? x) && (x <? 256)) l = true -> bytes_ok l.
Proof.
  intros l H. unfold bytes_ok. rewrite Forall_forall. rewrite forallb_forall in H. intros x Hx. specialize (H x Hx).
  apply andb_prop in H. unfold is_byte. lia.
Qed.
Lemma long_buffer : buffer long_frame.
Proof. split; [apply bytes_okb; vm_compute; reflexivity|vm_compute; discriminate]. Qed.

Lemma dec_holds : forall b f rest, bytes_ok b -> dec_frame b = Some (f, rest) -> holds b f.
Proof. intros b f rest Hb D. apply dec_frame_iff in D; [|exact Hb]. destruct D as [Hf E]. split; [exact Hf|eauto]. Qed.

Example C40_example : exists f ds, holds greeting f /\
  server_action peaceful [mkMobs 1 2; mkMobs 3 4] [AEmpty; AData greeting "192.168.1.9" None; AData [1; 2] "192.168.1.9" None] = Ok ds
  /\ map fst ds = [mkMobs 1 2; mkMobs 3 4] /\ Forall arrival_fits [AEmpty; AData greeting "192.168.1.9"%string None]
  /\ reads_only peaceful.
Proof.
  pose proof greeting_buffer as [Hb _].
  destruct (dec_frame greeting) as [[f rest]|] eqn:D; [|vm_compute in D; discriminate].
  pose proof (dec_holds _ _ _ Hb D) as H.
  exists f. eexists. split; [exact H|]. split; [vm_compute; reflexivity|]. split; [reflexivity|]. split.
  - constructor; [exact Logic.I|]. constructor; [|constructor]. intros g (_ & r & E).
    apply (f_equal (@length Z)) in E. rewrite app_length in E. unfold len. change (length greeting) with 14%nat in E. lia.
  - intros o m. reflexivity.
Qed.

(* a well-formed datagram that is not delivered *)
Theorem C40_delivered_refuted : exists ops e obs option v b f,
  leaves ops (Up e obs option) /\ In v (sv_mcast (srun ops)) /\ buffer b /\ holds b f
  /\ server_action peaceful (v_obs v) [AData b "192.168.1.9" None] = Ok [] /\ obs <> [].
Proof.
  destruct (dec_frame long_frame) as [[f rest]|] eqn:D; [|vm_compute in D; discriminate].
  exists history, wlan, [mkMobs 1 2; mkMobs 3 4], 0, (running [mkMobs 1 2; mkMobs 3 4] "10.0.0.2"), long_frame, f.
  split; [exact history_up|]. split; [right; left; reflexivity|]. split; [exact long_buffer|].
  split; [exact (dec_holds _ _ _ (proj1 long_buffer) D)|]. split; [vm_compute; reflexivity|discriminate].
Qed.
Print Assumptions C40_delivered_refuted.

(* after an error a server delivers nothing, though it counts as running *)
Theorem C40_dead_refuted : exists ops e obs option v,
  leaves ops (Up e obs option) /\ In v (sv_mcast (srun ops)) /\ obs <> []
  /\ uecho_server_isrunning (srun ops) = true
  /\ forall l, server_action peaceful (v_obs v) (AError :: l) = Ok [].
Proof.
  exists history, wlan, [mkMobs 1 2; mkMobs 3 4], 0, (running [mkMobs 1 2; mkMobs 3 4] "10.0.0.2").
  split; [exact history_up|]. split; [right; left; reflexivity|]. split; [discriminate|]. split; reflexivity.
Qed.
Print Assumptions C40_dead_refuted.

(* an observer registered while the server runs is not served *)
Theorem C40_late_refuted : exists ops o v, In o (registered ops) /\ given o /\ In v (sv_mcast (srun ops))
  /\ exists ds, server_action peaceful (v_obs v) [AData greeting "192.168.1.9" None] = Ok ds /\ ds <> [] /\ ~ In o (map fst ds).
Proof.
  exists (history ++ [SAdd 5 6]), (mkMobs 5 6), (running [mkMobs 1 2; mkMobs 3 4] "10.0.0.2").
  split; [right; right; left; reflexivity|]. split; [split; discriminate|]. split; [right; left; reflexivity|].
  eexists. split; [vm_compute; reflexivity|]. split; [discriminate|]. cbn. intros [H|[H|[]]]; discriminate.
Qed.
Print Assumptions C40_late_refuted.

(* the observers share one message: what the first handler changes the second one sees *)
Definition meddling (_ : mobs) (m : msg) : msg := uecho_message_setesv 1 m.
Theorem C40_shared_refuted : exists f m1 m2, holds greeting f
  /\ server_action meddling [mkMobs 1 2; mkMobs 3 4] [AData greeting "192.168.1.9" None] = Ok [(mkMobs 1 2, m1); (mkMobs 3 4, m2)]
  /\ shows true m1 f /\ ~ shows true m2 f.
Proof.
  destruct (dec_frame greeting) as [[f rest]|] eqn:D; [|vm_compute in D; discriminate].
  pose proof (dec_holds _ _ _ (proj1 greeting_buffer) D) as H.
  destruct (packet_frame true greeting None "192.168.1.9" f greeting_buffer H) as (m & E & Sm & _).
  exists f, m, (uecho_message_setesv 1 m). split; [exact H|]. split.
  - cbn [server_action]. change (firstn RECV_BUFSIZE greeting) with greeting. rewrite E. reflexivity.
  - split; [exact Sm|]. intros S2.
    assert (X : m_esv m = f_esv f) by (apply Sm). assert (Y : m_esv (uecho_message_setesv 1 m) = f_esv f) by (apply S2).
    vm_compute in D. injection D as D _. subst f. cbn in Y. discriminate.
Qed.
Print Assumptions C40_shared_refuted.

(* ---------- C41: announcements ---------- *)

(* Announcing through servers that a start left running: every interface's server makes exactly one
   attempt, in order, with the frame and the multicast address; if one fails there is exactly one
   more attempt, with a new socket; true means that at least one datagram was taken, false that the
   last attempt failed. *)
Theorem C41_announce : forall take h ops e obs option bytes h' b,
  leaves ops (Up e obs option) -> uecho_server_postannounce take h (srun ops) bytes = (h', b) ->
  exists rs fb, h' = h ++ rs ++ fb
    /\ map fst rs = map (fun a => mkAtt (Some a) MULTICAST bytes) (os_ifs e)
    /\ (fb = [] /\ b = true /\ (forall r, In r rs -> snd r = true)
        \/ fb = [(mkAtt None MULTICAST bytes, b)] /\ exists r, In r rs /\ snd r = false)
    /\ (b = true -> taken (rs ++ fb) <> []).
Proof.
  intros take h ops e obs o bytes h' b L E. pose proof (leaves_serving _ _ L) as (M & _).
  destruct (leaves_up_nonempty _ _ _ _ L) as [N _]. destruct (sockets_up _ _ _ M) as [S1 S2].
  destruct (announce_spec _ _ _ _ _ _ E) as (rs & fb & -> & Er & C). rewrite S1 in Er, C. exists rs, fb.
  split; [reflexivity|]. split; [exact Er|]. split.
  - destruct C as [(A1 & A2 & _ & A4)|(A1 & [A2|A2])]; [left; auto| |right; auto]. exfalso. apply A2. auto.
  - intros ->. rewrite taken_app. destruct C as [(-> & _ & _ & A)|(-> & _)].
    + destruct rs as [|r rs]; [destruct (os_ifs e); [congruence|discriminate]|].
      unfold taken. cbn [filter]. rewrite (A r (or_introl eq_refl)). cbn. discriminate.
    + unfold taken at 2. cbn. destruct (taken rs); discriminate.
Qed.
Print Assumptions C41_announce.

(* uecho_node_announcemessage: true means that the network took the announced frame at least once
   and took no other datagram.  Missing: nodes that are not started, see the refutation. *)
Theorem C41_true_partial : forall le take h ops e obs option n m r,
  leaves ops (Up e obs option) ->
  uecho_node_announcemessage le (fun p => snd (server_post take h (srun ops) p)) n m = Ok r -> s_ret r = true ->
  exists bytes new, s_posts r = [PAnnounce bytes] /\ server_posts take h (srun ops) (s_posts r) = h ++ new
    /\ taken new <> [] /\ forall a, In a (taken new) -> a_to a = MULTICAST /\ a_bytes a = bytes.
Proof.
  intros le take h ops e obs o n m r L E T. destruct (announcemessage_one _ _ _ _ _ E T) as (b & P & Q).
  cbn [server_post] in Q. destruct (uecho_server_postannounce take h (srun ops) b) as [h' ok] eqn:Ea. cbn [snd] in Q. subst ok.
  destruct (C41_announce _ _ _ _ _ _ _ _ _ L Ea) as (rs & fb & Eh & Er & C & X).
  exists b, (rs ++ fb). split; [exact P|]. split; [rewrite P; cbn [server_posts server_post]; rewrite Ea; exact Eh|].
  split; [exact (X eq_refl)|]. intros a Ha. rewrite taken_app in Ha. apply in_app_or in Ha.
  assert (Y : In a (map fst rs) \/ In a (map fst fb)).
  { destruct Ha as [Ha|Ha]; [left|right]; unfold taken in Ha; apply in_map_iff in Ha; destruct Ha as (x & <- & Hx);
      apply filter_In in Hx; apply in_map; apply Hx. }
  destruct Y as [Y|Y].
  - rewrite Er in Y. apply in_map_iff in Y. destruct Y as (s & <- & _). split; reflexivity.
  - destruct C as [(-> & _)|(-> & _)]; [destruct Y|]. destruct Y as [<-|[]]. split; reflexivity.
Qed.
Print Assumptions C41_true_partial.

(* each interface sends at most once: a bound socket makes exactly one attempt, if no two
   interfaces have the same address *)
Theorem C41_each_once_partial : forall take h ops e obs option bytes h' b a,
  leaves ops (Up e obs option) -> NoDup (os_ifs e) -> In a (os_ifs e) ->
  uecho_server_postannounce take h (srun ops) bytes = (h', b) ->
  exists new, h' = h ++ new
    /\ length (filter (fun r => match a_from (fst r) with Some x => String.eqb x a | None => false end) new) = 1%nat.
Proof.
  intros take h ops e obs o bytes h' b a L D I E.
  destruct (C41_announce _ _ _ _ _ _ _ _ _ L E) as (rs & fb & Eh & Er & C & _). exists (rs ++ fb). split; [exact Eh|].
  set (p := fun r : attempt * bool => match a_from (fst r) with Some x => String.eqb x a | None => false end).
  assert (F : filter p fb = []) by (destruct C as [(-> & _)|(-> & _)]; reflexivity).
  rewrite filter_app, F, app_nil_r. clear F C Eh E.
  revert rs Er. induction (os_ifs e) as [|x l IH]; intros rs Er; [destruct I|].
  destruct rs as [|r rs]; [discriminate|]. cbn [map] in Er. injection Er as E1 E2. cbn [filter]. unfold p at 1. rewrite E1. cbn [a_from].
  inversion D as [|? ? D1 D2]; subst. destruct (String.eqb_spec x a) as [->|Nx].
  - cbn [length]. f_equal. assert (Z0 : filter p rs = []); [|rewrite Z0; reflexivity].
    clear -E2 D1. revert rs E2. induction l as [|y l IH]; intros rs E2; destruct rs as [|r rs]; try discriminate; [reflexivity|].
    cbn [map] in E2. injection E2 as E1 E2. cbn [filter]. unfold p at 1. rewrite E1. cbn [a_from].
    destruct (String.eqb_spec y a) as [->|]; [exfalso; apply D1; left; reflexivity|].
    apply IH; [|exact E2]. intros X. apply D1. right. exact X.
  - apply IH; auto. destruct I as [X|X]; [congruence|exact X].
Qed.
Print Assumptions C41_each_once_partial.

Definition all_taken (_ : list (attempt * bool)) (_ : attempt) : bool := true.
Example C41_example : NoDup (os_ifs wlan) /\ taken (fst (uecho_server_postannounce all_taken [] (srun history) greeting))
  = [mkAtt (Some "192.168.1.2"%string) MULTICAST greeting; mkAtt (Some "10.0.0.2"%string) MULTICAST greeting]
  /\ exists r, uecho_node_announcemessage true (fun p => snd (server_post all_taken [] (srun history) p)) node0 uecho_message_new = Ok r /\ s_ret r = true.
Proof.
  split; [|split; [reflexivity|]].
  - constructor; [intros [H|[]]; discriminate|]. constructor; [intros []|constructor].
  - eexists. split; [vm_compute; reflexivity|reflexivity].
Qed.

(* a node that is not running announces, returns true, and nothing is sent *)
Theorem C41_true_refuted : exists take n m r, new_node true net_up std_db n
  /\ uecho_node_announcemessage true (fun p => snd (server_post take [] (srun []) p)) n m = Ok r
  /\ s_ret r = true /\ server_posts take [] (srun []) (s_posts r) = [].
Proof.
  exists (fun _ _ => false), node0, uecho_message_new. eexists. split; [exact node0_new|].
  split; [vm_compute; reflexivity|]. split; reflexivity.
Qed.
Print Assumptions C41_true_refuted.

(* one failing interface makes the frame go out once more, after others have sent it *)
Theorem C41_again_refuted : exists take bytes h b, uecho_server_postannounce take [] (srun history) bytes = (h, b)
  /\ taken h = [mkAtt (Some "192.168.1.2"%string) MULTICAST bytes; mkAtt None MULTICAST bytes].
Proof.
  exists (fun _ a => match a_from a with Some x => String.eqb x "192.168.1.2" | None => true end), greeting.
  eexists. eexists. split; reflexivity.
Qed.
Print Assumptions C41_again_refuted.

(* ... and the result may be false although an interface sent the frame *)
Theorem C41_false_refuted : exists take bytes h, uecho_server_postannounce take [] (srun history) bytes = (h, false) /\ taken h <> [].
Proof.
  exists (fun _ a => match a_from a with Some x => String.eqb x "192.168.1.2" | None => false end), greeting.
  eexists. split; [reflexivity|]. vm_compute. discriminate.
Qed.
Print Assumptions C41_false_refuted.

(* ---------- C54: sending to a node ---------- *)

(* whatever servers there are and however sending fails: true means that the network took the
   frame exactly once, false that it took it not at all; at most two attempts are made and all go to the
   address of the node *)
Theorem C54_response : forall take h s addr bytes h' b, uecho_server_postresponse take h s addr bytes = (h', b) ->
  exists new, h' = h ++ new /\ (1 <= length new <= 2)%nat
    /\ (forall r, In r new -> a_to (fst r) = addr /\ a_bytes (fst r) = bytes)
    /\ length (taken new) = (if b then 1 else 0)%nat.
Proof.
  intros take h s addr bytes h' b E. destruct (response_spec _ _ _ _ _ _ _ E) as (rs & A & B & C & D). exists rs. auto.
Qed.
Print Assumptions C54_response.

(* uecho_node_sendmessage returns true exactly if the network took one datagram, the frame handed
   over, for the address of the destination node *)
Theorem C54_sendmessage : forall le take h s n d m r,
  uecho_node_sendmessage le (fun p => snd (server_post take h s p)) n d m = Ok r -> s_ret r = true ->
  exists addr bytes new a, n_addr d = Some addr /\ s_posts r = [PSend addr bytes]
    /\ server_posts take h s (s_posts r) = h ++ new /\ taken new = [a] /\ a_to a = addr /\ a_bytes a = bytes.
Proof.
  intros le take h s n d m r E T. destruct (sendmessage_one _ _ _ _ _ _ E T) as (addr & b & A & P & Q).
  cbn [server_post] in Q. destruct (uecho_server_postresponse take h s addr b) as [h' ok] eqn:Ea. cbn [snd] in Q. subst ok.
  destruct (C54_response _ _ _ _ _ _ _ Ea) as (new & Eh & _ & X & Y).
  destruct (taken new) as [|a [|? ?]] eqn:Et; try discriminate.
  exists addr, b, new, a. split; [exact A|]. split; [exact P|].
  split; [rewrite P; cbn [server_posts server_post]; rewrite Ea; exact Eh|]. split; [exact Et|].
  assert (I : In a (taken new)) by (rewrite Et; left; reflexivity).
  unfold taken in I. apply in_map_iff in I. destruct I as (x & <- & Hx). apply filter_In in Hx. apply X. apply Hx.
Qed.
Print Assumptions C54_sendmessage.

Definition peer : node := mkNode 0 [] [] (Some "192.168.1.9"%string) false.
Example C54_example : exists r, uecho_node_sendmessage true (fun p => snd (server_post all_taken [] (srun history) p)) node0 peer uecho_message_new = Ok r
  /\ s_ret r = true.
Proof. eexists. split; [vm_compute; reflexivity|reflexivity]. Qed.
