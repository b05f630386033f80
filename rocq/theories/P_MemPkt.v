(* Datagram packets in the heap. *)
From Coq Require Import String ZArith List Bool Lia Permutation.
From Verif Require Import CSem P_Base M_Const M_Misc M_String M_Property M_Log M_Message M_Mem M_MemUse P_Mem P_MemProp P_MemMsg P_MemParse P_MemBytes P_MemCopy.
Import ListNotations.
Open Scope Z_scope.

(* the packet at [k] with data [d], local address [lo] and remote address [re] *)
Definition pkt_rep (k : Z) (d : list Z) (lo re : option string) (L : heaplet) : Prop :=
  exists dp l lp r rp Ld Ll Lr,
    Permutation L ((k, BPkt (mkCpkt dp (len d) l lp r rp)) :: Ld ++ Ll ++ Lr)
    /\ data_rep dp d Ld /\ str_rep l (option_map cstr lo) Ll /\ str_rep r (option_map cstr re) Lr /\ len d < SIZE_MOD.

Lemma pkt_in : forall k d lo re L, pkt_rep k d lo re L -> exists c, In (k, BPkt c) L.
Proof.
  intros k d lo re L (dp & l & lp & r & rp & Ld & Ll & Lr & P & _). eexists.
  eapply Permutation_in; [apply Permutation_sym; exact P|left; reflexivity].
Qed.

(* a buffer of the caller *)
Lemma wp_given : forall A b (f : Z -> mm A) L (Q : A -> heaplet -> Prop),
  (forall p, 0 < p -> wp (f p) ((p, BBytes (map Some b)) :: L)
     (fun r L' => exists F, Permutation L' ((p, BBytes (map Some b)) :: F) /\ Q r F)) ->
  wp (given b f) L Q.
Proof.
  intros A b f L Q H. unfold given. apply wp_bind. apply wp_malloc; [reflexivity|]. intros p P0 _.
  apply wp_bind. eapply wp_conseq; [exact (H p P0)|]. cbv beta. intros r L' (F & P & HQ).
  apply wp_bind. eapply wp_free; [exact P|]. apply wp_ret. exact HQ.
Qed.

Definition text_arg (o : option string) : Prop :=
  match o with None => True | Some s => plain (cstr s) /\ len (cstr s) + 1 < SIZE_MOD end.

Lemma wp_given_text : forall A o (f : Z -> mm A) L (Q : A -> heaplet -> Prop), text_arg o ->
  (forall p B, addr_arg p o B -> wp (f p) (B ++ L) (fun r L' => exists F, Permutation L' (B ++ F) /\ Q r F)) ->
  wp (given_text o f) L Q.
Proof.
  intros A [s|] f L Q T H; cbn [given_text text_arg] in *.
  - apply wp_given. intros p P0. rewrite map_app. cbn [map]. apply (H p [(p, BBytes (map Some (cstr s) ++ [Some 0]))]).
    split; [left; reflexivity|exact T].
  - specialize (H 0 [] eq_refl). cbn [app] in H. intros h J. destruct (H h J) as (a & h' & L' & E & I & F & P & HQ).
    exists a, h', F. split; [exact E|]. split; [eapply heap_perm; eauto|exact HQ].
Qed.

Section Room.
Variable room : Z -> bool.
Hypothesis Room : forall n, room n = true.

Lemma wp_pkt_new : forall L (Q : Z -> heaplet -> Prop),
  (forall k Lk, 0 < k -> pkt_rep k [] None None Lk -> Q k (Lk ++ L)) -> wp (uecho_socket_datagram_packet_new room) L Q.
Proof.
  intros L Q H. unfold uecho_socket_datagram_packet_new. apply wp_bind. apply wp_malloc; [exact Room|]. intros k K _.
  rewrite (pos_nz k) by assumption. apply wp_bind. apply (wp_string_new room Room). intros l L0.
  apply wp_bind. apply (wp_string_new room Room). intros r R0.
  apply wp_bind. eapply wp_store; [find_x|]. apply wp_post, wp_ret. eexists.
  split; [|apply (H k [(k, BPkt (mkCpkt 0 0 l 0 r 0)); (l, BStr (mkCstring 0 0 0)); (r, BStr (mkCstring 0 0 0))]); [exact K|]].
  - cbn [app]. perm.
  - exists 0, l, 0, r, 0, [], [(l, BStr (mkCstring 0 0 0))], [(r, BStr (mkCstring 0 0 0))].
    split; [apply Permutation_refl|]. split; [split; reflexivity|]. split; [reflexivity|]. split; [reflexivity|]. reflexivity.
Qed.

Lemma wp_pkt_clear : forall k d lo re Lk L F (Q : bool -> heaplet -> Prop), pkt_rep k d lo re Lk -> Permutation L (Lk ++ F) ->
  (forall Lk', pkt_rep k [] lo re Lk' -> Q true (Lk' ++ F)) -> wp (uecho_socket_datagram_packet_clear k) L Q.
Proof.
  intros k d lo re Lk L F Q (dp & l & lp & r & rp & Ld & Ll & Lr & P' & D & S1 & S2 & SD) P H.
  eapply wp_perm; [eapply perm_trans; [exact P|apply Permutation_app_tail; exact P']|]. cbn [app].
  unfold uecho_socket_datagram_packet_clear. nz k. apply wp_bind. eapply wp_load_pkt; [left; reflexivity|].
  cbn [k_data k_len k_local k_lport k_remote k_rport].
  assert (FIN : wp (let! _ := store k (BPkt (mkCpkt 0 0 l lp r rp)) in ret true)
                  ((k, BPkt (mkCpkt dp (len d) l lp r rp)) :: Ll ++ Lr ++ F) Q).
  { apply wp_bind. eapply wp_store; [apply Permutation_refl|]. apply wp_post, wp_ret. eexists.
    split; [|apply (H ((k, BPkt (mkCpkt 0 0 l lp r rp)) :: [] ++ Ll ++ Lr))].
    - cbn [app]. perm.
    - exists 0, l, lp, r, rp, [], Ll, Lr. split; [apply Permutation_refl|]. split; [split; reflexivity|].
      split; [exact S1|]. split; [exact S2|reflexivity]. }
  apply wp_bind. destruct d as [|x d]; cbn [data_rep] in D.
  - destruct D as [-> ->]. cbn [Z.eqb]. apply wp_ret. eapply wp_perm; [|exact FIN]. perm.
  - subst Ld. nz dp. eapply wp_free; [cbn [app]; eapply pf_cons; apply pf_here|]. eapply wp_perm; [|exact FIN]. perm.
Qed.

Lemma wp_pkt_delete : forall k d lo re Lk L F (Q : unit -> heaplet -> Prop), pkt_rep k d lo re Lk -> Permutation L (Lk ++ F) ->
  Q tt F -> wp (uecho_socket_datagram_packet_delete k) L Q.
Proof.
  intros k d lo re Lk L F Q R P H. eapply wp_perm; [exact P|]. destruct (pkt_in _ _ _ _ _ R) as [c0 I0].
  unfold uecho_socket_datagram_packet_delete. nz k. apply wp_bind. eapply wp_pkt_clear; [exact R|apply Permutation_refl|].
  intros Lk' (dp & l & lp & r & rp & Ld & Ll & Lr & P' & D & S1 & S2 & SD). destruct D as [-> ->].
  eapply wp_perm; [apply Permutation_app_tail; exact P'|]. cbn [app].
  apply wp_bind. eapply wp_load_pkt; [left; reflexivity|]. cbn [k_local k_remote].
  apply wp_bind. eapply (wp_string_delete l _ Ll _ ((k, BPkt (mkCpkt 0 (len (@nil Z)) l lp r rp)) :: Lr ++ F)); [exact S1|perm|].
  apply wp_bind. eapply (wp_string_delete r _ Lr _ ((k, BPkt (mkCpkt 0 (len (@nil Z)) l lp r rp)) :: F)); [exact S2|perm|].
  eapply wp_free; [apply Permutation_refl|exact H].
Qed.

Lemma wp_pkt_setdata : forall k d0 lo re Lk data d L F (Q : bool -> heaplet -> Prop), pkt_rep k d0 lo re Lk -> Permutation L (Lk ++ F) ->
  In (data, BBytes (map Some d)) F -> len d < SIZE_MOD ->
  (forall Lk', pkt_rep k d lo re Lk' -> Q true (Lk' ++ F)) ->
  wp (uecho_socket_datagram_packet_setdata room k data (len d)) L Q.
Proof.
  intros k d0 lo re Lk data d L F Q R P I SD H. eapply wp_perm; [exact P|]. destruct (pkt_in _ _ _ _ _ R) as [c0 I0].
  unfold uecho_socket_datagram_packet_setdata. nz k. nz data. apply wp_bind. eapply wp_pkt_clear; [exact R|apply Permutation_refl|].
  intros Lk' R'. pose proof (len_nonneg _ d) as N. cbn [orb]. destruct (Z.leb_spec (len d) 0) as [C|C].
  { apply wp_ret. apply H. assert (E : len d = 0) by (clear - N C; lia). apply len_0_nil in E. subst d. exact R'. }
  destruct R' as (dp & l & lp & r & rp & Ld & Ll & Lr & P' & D & S1 & S2 & _). destruct D as [-> ->].
  eapply wp_perm; [apply Permutation_app_tail; exact P'|]. cbn [app].
  apply wp_bind. eapply wp_load_pkt; [left; reflexivity|]. cbn [k_data k_len k_local k_lport k_remote k_rport].
  apply wp_bind. apply wp_malloc; [exact Room|]. intros p PP _.
  apply wp_bind. eapply wp_store; [eapply pf_cons; apply pf_here|]. rewrite (pos_nz p) by assumption.
  apply wp_bind. eapply (wp_copy_bytes p 0 data 0 (len d) (map Some d) (map Some d) (fresh_buf (len d)) (map Some d)); [eapply pf_cons; apply pf_here|inl|exact C| | |].
  - apply rd_range_whole. apply len_map.
  - pose proof (wr_range_app _ [] (fresh_buf (len d)) [] (map Some d) 0 eq_refl) as W.
    cbn [app] in W. rewrite !app_nil_r in W. apply W.
    unfold fresh_buf. rewrite len_map. unfold len. rewrite repeat_length, Nat2Z.id. reflexivity.
  - apply wp_bind. eapply wp_store; [eapply pf_cons; apply pf_here|]. apply wp_post, wp_ret. eexists.
    split; [|apply (H ((k, BPkt (mkCpkt p (len d) l lp r rp)) :: [(p, BBytes (map Some d))] ++ Ll ++ Lr))].
    + cbn [app]. perm.
    + exists p, l, lp, r, rp, [(p, BBytes (map Some d))], Ll, Lr. split; [apply Permutation_refl|].
      split; [destruct d; [discriminate C|reflexivity]|]. auto.
Qed.

Definition over (o old : option string) : option string := match o with None => old | Some _ => o end.

Lemma wp_setvalue_arg : forall s old Ls p o L F (Q : unit -> heaplet -> Prop), str_rep s (option_map cstr old) Ls ->
  Permutation L (Ls ++ F) -> addr_arg p o F ->
  (forall Ls', str_rep s (option_map cstr (over o old)) Ls' -> Q tt (Ls' ++ F)) ->
  wp (uecho_string_setvalue room s p) L Q.
Proof.
  intros s old Ls p [t|] L F Q R P A H; cbn [addr_arg over] in *.
  - destruct A as (I & T1 & T2). eapply (wp_string_setvalue room Room); [exact R|exact P|exact I|exact T1|exact T2|reflexivity|exact H].
  - subst p. eapply wp_perm; [exact P|]. destruct (str_rep_in _ _ _ R) as [c I]. unfold uecho_string_setvalue. nz s.
    cbn [Z.eqb]. apply wp_ret. apply H. exact R.
Qed.

Lemma wp_pkt_setlocal : forall k d lo re Lk p o L F (Q : unit -> heaplet -> Prop), pkt_rep k d lo re Lk -> Permutation L (Lk ++ F) ->
  addr_arg p o F -> (forall Lk', pkt_rep k d (over o lo) re Lk' -> Q tt (Lk' ++ F)) ->
  wp (pkt_setlocaladdress room k p) L Q.
Proof.
  intros k d lo re Lk p o L F Q (dp & l & lp & r & rp & Ld & Ll & Lr & P' & D & S1 & S2 & SD) P A H.
  eapply wp_perm; [eapply perm_trans; [exact P|apply Permutation_app_tail; exact P']|]. cbn [app].
  unfold pkt_setlocaladdress. apply wp_bind. eapply wp_load_pkt; [left; reflexivity|]. cbn [k_local]. apply wp_post.
  eapply (wp_setvalue_arg l lo Ll p o _ ((k, BPkt (mkCpkt dp (len d) l lp r rp)) :: Ld ++ Lr ++ F)); [exact S1|perm| |].
  - eapply addr_arg_incl; [exact A|]. intros x X. right. apply in_or_app. right. apply in_or_app. right. exact X.
  - intros Ls' S1'. eexists. split; [|apply (H ((k, BPkt (mkCpkt dp (len d) l lp r rp)) :: Ld ++ Ls' ++ Lr))]; [perm|].
    exists dp, l, lp, r, rp, Ld, Ls', Lr. split; [apply Permutation_refl|]. auto.
Qed.
Lemma wp_pkt_setremote : forall k d lo re Lk p o L F (Q : unit -> heaplet -> Prop), pkt_rep k d lo re Lk -> Permutation L (Lk ++ F) ->
  addr_arg p o F -> (forall Lk', pkt_rep k d lo (over o re) Lk' -> Q tt (Lk' ++ F)) ->
  wp (pkt_setremoteaddress room k p) L Q.
Proof.
  intros k d lo re Lk p o L F Q (dp & l & lp & r & rp & Ld & Ll & Lr & P' & D & S1 & S2 & SD) P A H.
  eapply wp_perm; [eapply perm_trans; [exact P|apply Permutation_app_tail; exact P']|]. cbn [app].
  unfold pkt_setremoteaddress. apply wp_bind. eapply wp_load_pkt; [left; reflexivity|]. cbn [k_remote]. apply wp_post.
  eapply (wp_setvalue_arg r re Lr p o _ ((k, BPkt (mkCpkt dp (len d) l lp r rp)) :: Ld ++ Ll ++ F)); [exact S2|perm| |].
  - eapply addr_arg_incl; [exact A|]. intros x X. right. apply in_or_app. right. apply in_or_app. right. exact X.
  - intros Ls' S1'. eexists. split; [|apply (H ((k, BPkt (mkCpkt dp (len d) l lp r rp)) :: Ld ++ Ll ++ Ls'))]; [perm|].
    exists dp, l, lp, r, rp, Ld, Ll, Ls'. split; [apply Permutation_refl|]. auto.
Qed.

(* reading an address: the pointer is into the packet *)
Lemma wp_getvalue_arg : forall s o Ls L (Q : Z -> heaplet -> Prop), str_rep s (option_map cstr o) Ls -> incl Ls L ->
  (forall p, addr_arg p o Ls -> Q p L) -> wp (uecho_string_getvalue s) L Q.
Proof.
  intros s [t|] Ls L Q R I H; eapply wp_string_getvalue; [exact R|exact I| |exact R|exact I|]; cbn [option_map].
  - intros v Iv. apply H. cbn [addr_arg]. destruct R as (T1 & T2 & _). auto.
  - apply H. reflexivity.
Qed.

Lemma wp_parsepacket : forall a m c Lm k d lo re Lk ok m' L F (Q : bool -> heaplet -> Prop),
  msg_rep a m c Lm -> pkt_rep k d lo re Lk -> Permutation L (Lm ++ Lk ++ F) -> bytes_ok d ->
  M_Message.uecho_message_parsepacket m d lo re = Ok (ok, m') ->
  (forall Lm', msg_rep a m' None Lm' -> Q ok (Lm' ++ Lk ++ F)) ->
  wp (M_Mem.uecho_message_parsepacket room a k) L Q.
Proof.
  intros a m c Lm k d lo re Lk ok m' L F Q R RK P BD E H. eapply wp_perm; [exact P|].
  destruct (msg_in a m c Lm R) as [g0 I0]. destruct (pkt_in _ _ _ _ _ RK) as [c0 I1].
  unfold M_Mem.uecho_message_parsepacket. nz a. nz k. cbn [orb].
  destruct RK as (dp & l & lp & r & rp & Ld & Ll & Lr & P' & D & S1 & S2 & SD).
  assert (INK : forall x, In x ((k, BPkt (mkCpkt dp (len d) l lp r rp)) :: Ld ++ Ll ++ Lr) -> In x (Lk ++ F)).
  { intros x X. apply in_or_app. left. eapply Permutation_in; [apply Permutation_sym; exact P'|exact X]. }
  apply wp_bind. eapply wp_load_pkt; [apply in_or_app; right; apply INK; left; reflexivity|]. cbn [k_data k_len].
  unfold M_Message.uecho_message_parsepacket in E. apply bind_ok in E. destruct E as ((ok1 & m1) & E1 & E).
  apply wp_bind. eapply (wp_parse room Room a m c Lm dp d ok1 m1); [exact R|apply Permutation_refl| |exact SD|exact BD|exact E1|].
  { destruct d as [|x d]; [left; reflexivity|]. right. apply INK. right. cbn [data_rep] in D. subst Ld. left. reflexivity. }
  clear R. intros Lm1 R. destruct ok1; cbn [negb] in *.
  2:{ injection E as <- <-. apply wp_ret. apply H. exact R. }
  injection E as <- <-.
  apply wp_bind. unfold pkt_getlocaladdress. apply wp_bind. eapply wp_load_pkt; [apply in_or_app; right; apply INK; left; reflexivity|]. cbn [k_local].
  eapply wp_getvalue_arg; [exact S1|intros x X; apply in_or_app; right; apply INK; right; apply in_or_app; right; apply in_or_app; left; exact X|].
  intros p1 A1.
  apply wp_bind. eapply (wp_setfrom room Room p1 lo); [exact R|apply Permutation_refl| |].
  { eapply addr_arg_incl; [exact A1|]. intros x X. apply INK. right. apply in_or_app; right; apply in_or_app; left; exact X. }
  clear R Lm1. intros Lm1 R.
  apply wp_bind. unfold pkt_getremoteaddress. apply wp_bind. eapply wp_load_pkt; [apply in_or_app; right; apply INK; left; reflexivity|]. cbn [k_remote].
  eapply wp_getvalue_arg; [exact S2|intros x X; apply in_or_app; right; apply INK; right; apply in_or_app; right; apply in_or_app; right; exact X|].
  intros p2 A2.
  apply wp_bind. eapply (wp_setfrom room Room p2 re); [exact R|apply Permutation_refl| |].
  { eapply addr_arg_incl; [exact A2|]. intros x X. apply INK. right. apply in_or_app; right; apply in_or_app; right; exact X. }
  clear R Lm1. intros Lm1 R. apply wp_ret. apply H. exact R.
Qed.
End Room.
