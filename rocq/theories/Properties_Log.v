(* C58: the log of packets. *)
From Coq Require Import String Ascii ZArith List Bool Lia.
From Verif Require Import CSem M_Const M_Misc M_Property M_Message M_Object M_Node M_String Spec_Frame Spec_Message Spec_String P_Base P_Misc P_Message
  P_String M_Std StdDB_Data Run_Node Properties_Message Properties_Node M_Server Spec_Server P_Server Properties_Server M_Log Spec_Log P_Log.
Import ListNotations.
Open Scope Z_scope.

(* A packet of at most 109 bytes between addresses of at most 15 characters is logged without undefined behaviour: one line with
   its direction, its peers and all its bytes if debug lines are wanted, none otherwise.  So are longer texts, as long
   as the heading and the digits fit in 255 characters.  Missing for the full statement: longer packets; see the refutations. *)
Theorem C58_line_partial : forall strict level now sev letter from to rl rf rt data h,
  text_ok letter -> letter <> [] -> text_ok from -> text_ok to -> time_ok now -> bytes_ok data -> data <> [] ->
  heading letter from to h -> len h + 2 * len data <= 255 ->
  exists lines, uecho_net_socket_log strict level now sev (Some (cells letter rl)) (Some (cells from rf)) (Some (cells to rt)) data = Ok lines
    /\ (level < UECHO_LOG_DEBUG -> lines = [])
    /\ (UECHO_LOG_DEBUG <= level -> exists line, lines = [line] /\ line_of now letter from to data line).
Proof.
  intros strict level now sev letter from to rl rf rt data h L Ln F T N B D H S. apply heading_unique in H. subst h.
  pose proof (len_nonneg _ data). pose proof (len_nonneg _ (heading_text letter from to)).
  destruct (hex_text_ok data B) as (X1 & X2 & X3). eexists. split; [apply log_fits; try assumption; lia|]. unfold print.
  rewrite (firstn_len_all _ 255 (heading_text letter from to)) by lia. rewrite firstn_len_all by (rewrite len_app; lia).
  destruct (Z.leb_spec UECHO_LOG_DEBUG level); split; intros; try lia; [|reflexivity].
  eexists. split; [reflexivity|]. exists (heading_text letter from to), (hex_text data).
  split; [apply heading_is|]. split; [exact X2|reflexivity].
Qed.
Print Assumptions C58_line_partial.

(* with a C library that takes any size: exactly the packets that are logged safely, at any level of logging *)
Theorem C58_safe_iff : forall level now sev letter from to rl rf rt data h,
  text_ok letter -> letter <> [] -> text_ok from -> text_ok to -> time_ok now -> bytes_ok data -> len data < OBJECT_MAX - 1000 ->
  heading letter from to h ->
  (exists lines, uecho_net_socket_log false level now sev (Some (cells letter rl)) (Some (cells from rf)) (Some (cells to rt)) data = Ok lines)
  <-> (data = [] \/ Z.min 255 (len h) + 2 * (len data - 1) <= 256).
Proof.
  intros level now sev letter from to rl rf rt data h L Ln F T N B M H. apply heading_unique in H. subst h. split.
  - intros (lines & E). destruct data as [|b d]; [left; reflexivity|]. right.
    destruct (Z_le_gt_dec (Z.min 255 (len (heading_text letter from to)) + 2 * (len (b :: d) - 1)) 256) as [C|C]; [exact C|].
    rewrite log_over in E by (assumption || lia). discriminate.
  - intros [->|C]; [eexists; apply log_empty|]. destruct data as [|b d]; [eexists; apply log_empty|].
    eexists. apply log_fits; try assumption. discriminate.
Qed.
Print Assumptions C58_safe_iff.

(* with a C library that refuses sizes above INT_MAX, every packet is logged safely; the line is cut *)
Theorem C58_strict_partial : forall level now sev letter from to rl rf rt data h x,
  text_ok letter -> letter <> [] -> text_ok from -> text_ok to -> time_ok now -> bytes_ok data -> data <> [] -> len data < 1000000000 ->
  heading letter from to h -> hex_of data x ->
  uecho_net_socket_log true level now sev (Some (cells letter rl)) (Some (cells from rf)) (Some (cells to rt)) data
  = Ok (if level <? UECHO_LOG_DEBUG then [] else [now ++ cstr " : DEBUG " ++ firstn 255 (h ++ x)]).
Proof.
  intros level now sev letter from to rl rf rt data h x L Ln F T N B D M H X. apply heading_unique in H. subst h.
  assert (E : x = hex_text data).
  { clear -B X. induction X as [|b bs t ts T X IH]; [reflexivity|]. inversion B; subst. unfold hex_text in *. cbn [map concat].
    rewrite <- IH by assumption. f_equal. apply (two_digits_unique b); [exact T|apply hex02_ok; assumption]. }
  subst x. rewrite log_strict by assumption. unfold print. f_equal. change (Z.to_nat 255) with 255%nat.
  destruct (Z.leb_spec UECHO_LOG_DEBUG level); destruct (Z.ltb_spec level UECHO_LOG_DEBUG); try lia; reflexivity.
Qed.
Print Assumptions C58_strict_partial.

Lemma cptr_cells : forall s, cptr s = cells (cstr s) [].
Proof. reflexivity. Qed.
Lemma short_heading : forall letter from to, len letter = 1 -> short from -> short to -> len (heading_text letter (cstr from) (cstr to)) = 37.
Proof. intros letter from to L [_ F] [_ T]. rewrite heading_len. lia. Qed.
Lemma R_ok : text_ok (cstr "R") /\ cstr "R" <> [] /\ len (cstr "R") = 1.
Proof. split; [apply lit_text; reflexivity|]. split; [discriminate|reflexivity]. Qed.
Lemma S_ok : text_ok (cstr "S") /\ cstr "S" <> [] /\ len (cstr "S") = 1.
Proof. split; [apply lit_text; reflexivity|]. split; [discriminate|reflexivity]. Qed.
Lemma short_empty : short "".
Proof. split; [constructor|]. vm_compute. discriminate. Qed.

Lemma recv_log_over : forall level now b from l, from <> EmptyString -> short from -> short l -> bytes_ok b -> 111 <= len b < OBJECT_MAX - 1000 ->
  recv_log false level now b from (Some l) = Undef UB_write.
Proof.
  intros level now b from l Fn F L B H. unfold recv_log, uecho_net_socket_debug, PREFIX_RECV.
  destruct (String.eqb_spec from ""); [contradiction|]. cbn [option_map]. rewrite !cptr_cells. destruct R_ok as (R1 & R2 & R3).
  apply log_over; try assumption; try (apply F); try (apply L); [lia|]. rewrite (short_heading (cstr "R") from l R3 F L). lia.
Qed.
Lemma cut_bytes : forall b n, bytes_ok b -> bytes_ok (firstn n b).
Proof. intros b n H. unfold bytes_ok in *. rewrite <- (firstn_skipn n b) in H. apply Forall_app in H. apply H. Qed.

(* Any datagram of more than 110 bytes makes a server write past the end of the log's buffer, whatever the level of
   logging, the bytes, the observers and what arrives later. *)
Theorem C58_datagram_refuted : forall level now eff obs b from l rest, from <> EmptyString -> short from -> short l -> bytes_ok b -> 111 <= len b ->
  logged_action false level now eff obs (AData b from (Some l) :: rest) = Undef UB_write.
Proof.
  intros level now eff obs b from l rest Fn F L B H. cbn [logged_action]. rewrite recv_log_over; [reflexivity|assumption|assumption|assumption|apply cut_bytes; exact B|].
  assert (len (firstn RECV_BUFSIZE b) = Z.min 512 (len b)) by (change RECV_BUFSIZE with (Z.to_nat 512); rewrite len_firstn; lia).
  unfold OBJECT_MAX. lia.
Qed.
Print Assumptions C58_datagram_refuted.

Definition frame111 : list Z := [16; 129; 0; 1; 14; 240; 1; 5; 255; 1; 97; 1; 128; 97] ++ repeat 7 97.
Lemma frame111_ok : bytes_ok frame111.
Proof. apply bytes_okb. vm_compute. reflexivity. Qed.
Lemma home_short : short "192.168.1.2" /\ short "192.168.1.9".
Proof. split; (split; [apply lit_text; reflexivity|vm_compute; discriminate]). Qed.
(* ... even if it is a request as the protocol has it *)
Example C58_datagram_example : exists f, holds frame111 f /\ 111 <= len frame111
  /\ logged_action false 0 [] peaceful [] [AData frame111 "192.168.1.9" (Some "192.168.1.2"%string)] = Undef UB_write.
Proof.
  destruct (dec_frame frame111) as [[f rest]|] eqn:D; [|vm_compute in D; discriminate].
  exists f. split; [exact (dec_holds _ _ _ frame111_ok D)|]. split; [vm_compute; discriminate|].
  apply C58_datagram_refuted; [discriminate|apply home_short|apply home_short|exact frame111_ok|vm_compute; discriminate].
Qed.

(* Datagrams of at most 109 bytes: the log changes nothing of what a server delivers, and is silent unless debug lines are wanted.
   Missing for the full statement: longer datagrams, and peers without a name or a known local address. *)
Theorem C58_server_partial : forall strict level now eff obs l, time_ok now -> Forall arrival_ok l -> Forall arrival_logs l ->
  exists ds lines, logged_action strict level now eff obs l = Ok (ds, lines) /\ server_action eff obs l = Ok ds
    /\ (level < UECHO_LOG_DEBUG -> lines = []).
Proof.
  intros strict level now eff obs l N A G. destruct (C40_safe_partial eff obs l A) as (ds & E). exists ds.
  revert ds E. induction l as [|a r IH]; intros ds E.
  - exists []. injection E as <-. split; [reflexivity|]. split; reflexivity.
  - inversion A as [|? ? A1 A2]; subst. inversion G as [|? ? G1 G2]; subst. specialize (IH A2 G2).
    destruct a as [b from local| |]; cbn [server_action logged_action] in *.
    + destruct A1 as [Hb _]. destruct G1 as (Fn & F & Lb & lo & -> & L).
      set (d := firstn RECV_BUFSIZE b) in *. assert (Hd : bytes_ok d) by (apply cut_bytes; exact Hb).
      assert (Ld : len d <= 109) by (unfold d; change RECV_BUFSIZE with (Z.to_nat 512); rewrite len_firstn; lia). clearbody d.
      assert (P : forall sev, exists w, uecho_net_socket_log strict level now sev PREFIX_RECV (Some (cptr from)) (option_map cptr (Some lo)) d = Ok w
         /\ (level < UECHO_LOG_DEBUG -> w = [])).
      { intros sev. destruct d as [|b0 d0]; [exists []; split; [apply log_empty|reflexivity]|].
        unfold PREFIX_RECV. cbn [option_map]. rewrite !cptr_cells. destruct R_ok as (R1 & R2 & R3).
        eexists. split; [apply log_fits; try assumption; try (apply F); try (apply L); [discriminate|]|].
        - rewrite (short_heading (cstr "R") from lo R3 F L). lia.
        - intros Lv. unfold print. destruct (Z.leb_spec UECHO_LOG_DEBUG level); [lia|reflexivity]. }
      unfold recv_log, uecho_net_socket_debug. destruct (String.eqb_spec from ""); [contradiction|].
      destruct (P UECHO_LOG_DEBUG) as (w1 & P1 & Q1). rewrite P1. cbn [bind].
      destruct (uecho_message_parsepacket uecho_message_new d (Some lo) (Some from)) as [[ok m]|]; [|discriminate]. cbn [bind fst snd] in *.
      destruct (server_action eff obs r) as [y|] eqn:Er; [|discriminate]. cbn [bind] in E. injection E as E. destruct (IH y eq_refl) as (lines & X1 & X2 & X3).
      unfold uecho_net_datagram_packet_error, uecho_net_socket_error.
      destruct (P UECHO_LOG_ERROR) as (w2 & P2 & Q2). destruct ok.
      * cbn [bind]. rewrite X1. cbn [bind fst snd]. eexists. split; [rewrite E; reflexivity|]. split; [rewrite <- E; reflexivity|].
        intros Lv. rewrite (Q1 Lv), (X3 Lv). reflexivity.
      * rewrite P2. cbn [bind]. rewrite X1. cbn [bind fst snd]. eexists. split; [rewrite E; reflexivity|]. split; [rewrite <- E; reflexivity|].
        intros Lv. rewrite (Q1 Lv), (Q2 Lv), (X3 Lv). reflexivity.
    + destruct (uecho_message_parsepacket uecho_message_new [] None None) as [[ok m]|]; [|discriminate]. cbn [bind fst snd] in *.
      destruct (server_action eff obs r) as [y|] eqn:Er; [|discriminate]. cbn [bind] in E. injection E as E. destruct (IH y eq_refl) as (lines & X1 & X2 & X3).
      rewrite X1. cbn [bind fst snd]. eexists. split; [rewrite E; reflexivity|]. split; [rewrite <- E; reflexivity|]. exact X3.
    + injection E as <-. exists []. split; [reflexivity|]. split; reflexivity.
Qed.
Print Assumptions C58_server_partial.

Example C58_server_example : Forall arrival_ok [AData greeting "192.168.1.9" (Some "192.168.1.2"%string); AEmpty]
  /\ Forall arrival_logs [AData greeting "192.168.1.9" (Some "192.168.1.2"%string); AEmpty] /\ time_ok (cstr "2026-11-16 10:00:00")
  /\ exists lines, logged_action false 255 (cstr "2026-11-16 10:00:00") peaceful [] [AData greeting "192.168.1.9" (Some "192.168.1.2"%string); AEmpty] = Ok ([], lines)
  /\ lines = [cstr "2026-11-16 10:00:00 : DEBUG R 192.168.1.9     -> 192.168.1.2     108100010EF00105FF0162018000"].
Proof.
  split; [constructor; [exact greeting_buffer|constructor; [exact Logic.I|constructor]]|].
  split; [constructor; [|constructor; [exact Logic.I|constructor]]|].
  - split; [discriminate|]. split; [apply home_short|]. split; [vm_compute; discriminate|]. eexists. split; [reflexivity|apply home_short].
  - split; [split; [apply lit_text; reflexivity|vm_compute; discriminate]|]. eexists. split; [vm_compute; reflexivity|reflexivity].
Qed.

(* the sender's name is read even if the system gave none *)
Theorem C58_unnamed_refuted : forall strict level now eff obs b l rest, b <> [] ->
  logged_action strict level now eff obs (AData b "" (Some l) :: rest) = Undef UB_uninit.
Proof.
  intros strict level now eff obs b l rest D. cbn [logged_action]. unfold recv_log, uecho_net_socket_debug, uecho_net_socket_log, PREFIX_RECV.
  destruct (Z.leb_spec (len (firstn RECV_BUFSIZE b)) 0) as [C|_].
  { destruct b as [|x b]; [congruence|]. change (firstn RECV_BUFSIZE (x :: b)) with (x :: firstn 511 b) in C. rewrite len_cons in C. pose proof (len_nonneg _ (firstn 511 b)). lia. }
  destruct strict; reflexivity.
Qed.
Print Assumptions C58_unnamed_refuted.

(* and the local address even if the interfaces are not known *)
Theorem C58_nolocal_refuted : forall strict level now eff obs b from rest, b <> [] -> from <> EmptyString -> short from ->
  logged_action strict level now eff obs (AData b from None :: rest) = Undef UB_null.
Proof.
  intros strict level now eff obs b from rest D Fn F. cbn [logged_action]. unfold recv_log, uecho_net_socket_debug, uecho_net_socket_log, PREFIX_RECV.
  destruct (Z.leb_spec (len (firstn RECV_BUFSIZE b)) 0) as [C|_].
  { destruct b as [|x b]; [congruence|]. change (firstn RECV_BUFSIZE (x :: b)) with (x :: firstn 511 b) in C. rewrite len_cons in C. pose proof (len_nonneg _ (firstn 511 b)). lia. }
  destruct (String.eqb_spec from ""); [contradiction|]. rewrite (cptr_cells from). cbn [option_map].
  assert (E : cells_text (cells (cstr from) []) = Ok (cstr from)) by (apply cells_text_ok; apply F).
  destruct strict; cbn [c_string]; rewrite E; reflexivity.
Qed.
Print Assumptions C58_nolocal_refuted.

(* ---- sending ---- *)

(* Frames of at most 109 bytes to and from addresses of at most 15 characters are logged safely.  Missing: longer ones. *)
Theorem C58_send_partial : forall strict level now a, time_ok now -> bytes_ok (a_bytes a) -> short (a_to a) ->
  (forall s, a_from a = Some s -> short s) -> len (a_bytes a) <= 109 -> exists lines, sendto_log strict level now a = Ok lines.
Proof.
  intros strict level now [f t d] N B T F L. cbn [a_from a_to a_bytes] in *. unfold sendto_log, uecho_net_socket_debug. cbn [a_from a_to a_bytes].
  destruct d as [|x d]; [eexists; apply log_empty|]. unfold PREFIX_SEND. rewrite !cptr_cells. destruct S_ok as (R1 & R2 & R3).
  set (s := match f with Some s => s | None => EmptyString end).
  assert (Fs : short s) by (unfold s; destruct f; [apply F; reflexivity|exact short_empty]). clearbody s.
  eexists. apply log_fits; try assumption; try (apply Fs); try (apply T); [discriminate|]. rewrite (short_heading (cstr "S") s t R3 Fs T). lia.
Qed.
Print Assumptions C58_send_partial.

Theorem C58_send_refuted : forall level now a, bytes_ok (a_bytes a) -> short (a_to a) ->
  (forall s, a_from a = Some s -> short s) -> 111 <= len (a_bytes a) < OBJECT_MAX - 1000 -> sendto_log false level now a = Undef UB_write.
Proof.
  intros level now [f t d] B T F L. cbn [a_from a_to a_bytes] in *. unfold sendto_log, uecho_net_socket_debug. cbn [a_from a_to a_bytes].
  unfold PREFIX_SEND. rewrite !cptr_cells. destruct S_ok as (R1 & R2 & R3).
  set (s := match f with Some s => s | None => EmptyString end).
  assert (Fs : short s) by (unfold s; destruct f; [apply F; reflexivity|exact short_empty]). clearbody s.
  apply log_over; try assumption; try (apply Fs); try (apply T); [lia|]. rewrite (short_heading (cstr "S") s t R3 Fs T). lia.
Qed.
Print Assumptions C58_send_refuted.

(* A node with 32 devices, made by the calls of the API alone, overflows the buffer when it announces itself. *)
Definition house : list nop := devs (map (fun i => 77824 + Z.of_nat i) (seq 1 32)).
Definition node32 : node := after house.
Theorem C58_announce_refuted : exists n r p, api_node true net_up std_db n /\ len (n_objs n) = 33
  /\ uecho_node_announce true net_up n = Ok r /\ snd (fst r) = [PAnnounce p]
  /\ forall level now from, short from -> sendto_log false level now (mkAtt (Some from) "224.0.23.0" p) = Undef UB_write.
Proof.
  assert (A : api_node true net_up std_db node32) by (apply after_api; [apply devs_ok|vm_compute; reflexivity]).
  destruct (uecho_node_announce true net_up node32) as [r|u] eqn:E; [|vm_compute in E; discriminate].
  destruct (snd (fst r)) as [|[p|a p] [|? ?]] eqn:Ep; try (vm_compute in E; injection E as <-; discriminate).
  exists node32, r, p. split; [exact A|]. split; [vm_compute; reflexivity|]. split; [exact E|]. split; [exact Ep|].
  assert (P : forallb (fun x => (0 <=? x) && (x <? 256)) p = true /\ 111 <= len p < OBJECT_MAX - 1000).
  { vm_compute in E. injection E as <-. vm_compute in Ep. injection Ep as <-. split; [reflexivity|]. vm_compute. split; [discriminate|reflexivity]. }
  intros level now from F. apply C58_send_refuted; cbn [a_bytes a_to a_from].
  - apply bytes_okb. apply P.
  - split; [apply lit_text; reflexivity|vm_compute; discriminate].
  - intros s X. injection X as <-. exact F.
  - apply P.
Qed.
Print Assumptions C58_announce_refuted.
