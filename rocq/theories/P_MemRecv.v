(* The receiving loop in the heap. *)
From Coq Require Import String ZArith List Bool Lia Permutation.
From Verif Require Import CSem P_Base M_Const M_Misc M_String M_Property M_Log M_Server M_Message Spec_Message Properties_Message M_Mem M_MemUse Spec_Mem
  P_Mem P_MemProp P_MemMsg P_MemParse P_MemBytes P_MemCopy P_MemPkt P_MemRun P_MemLegal.
Import ListNotations.
Open Scope Z_scope.

Lemma all_rep_deleted : forall ps st L, all_rep ps st L -> all_deleted st -> L = [].
Proof.
  induction ps as [|a ps IH]; intros [|[m|] st] L R D; cbn [all_rep] in *; try contradiction.
  - exact R.
  - apply Forall_cons_iff in D. destruct D as [D _]. discriminate.
  - apply Forall_cons_iff in D. destruct D as [_ D]. exact (IH _ _ R D).
Qed.

(* the pointers a caller has stay where they are *)
Definition keeps (c : list Z -> mm (obs * list Z)) : Prop :=
  forall ps h x h', c ps h = Ok (x, h') -> exists r, snd x = ps ++ r.
Lemma keeps_step : forall room le op, keeps (hstep room le op).
Proof.
  intros room le op ps h [o qs] h' E. cbn [snd].
  assert (B : forall A B (c : mm A) (f : A -> mm B) h x h', mbind c f h = Ok (x, h') -> exists y h1, c h = Ok (y, h1) /\ f y h1 = Ok (x, h')).
  { intros A B c f h0 x h1 X. unfold mbind in X. destruct (c h0) as [[y h2]|]; [|discriminate]. eauto. }
  destruct op; cbn [hstep] in E;
    repeat (let y := fresh "y" in let h1 := fresh "h" in let G := fresh "G" in
            apply B in E; destruct E as (y & h1 & G & E); cbv beta in E);
    injection E as <- <- <-; first [exists []; rewrite app_nil_r; reflexivity | eexists; reflexivity].
Qed.
Lemma keeps_run : forall room le ops ps h x h', hrun room le ops ps h = Ok (x, h') -> exists r, snd x = ps ++ r.
Proof.
  intros room le. induction ops as [|op ops IH]; intros ps h x h' E; cbn [hrun] in E.
  - injection E as <- <-. exists []. rewrite app_nil_r. reflexivity.
  - unfold mbind in E. destruct (hstep room le op ps h) as [[y h1]|] eqn:E1; [|discriminate].
    destruct (hrun room le ops (snd y) h1) as [[z h2]|] eqn:E2; [|discriminate]. injection E as <- <-. cbn [snd].
    destruct (keeps_step room le op ps h y h1 E1) as (r1 & R1). destruct (IH _ _ _ _ E2) as (r2 & R2).
    exists (r1 ++ r2). rewrite R2, R1, app_assoc. reflexivity.
Qed.

Section Room.
Variable room : Z -> bool.
Hypothesis Room : forall n, room n = true.
Variable le : bool.
Variable prog : mobs -> seen -> list mop.
Hypothesis Prog : well_behaved le prog.

Lemma wp_handler : forall o a m c Lm L F (Q : _ -> heaplet -> Prop), api_msg le m -> msg_rep a m c Lm -> Permutation L (Lm ++ F) ->
  api_msg le (makes le prog o m) /\
  ((forall r c' Lm' , msg_rep a (makes le prog o m) c' Lm' -> Q r (Lm' ++ F)) ->
   wp (hrun room le (prog o (look m)) [a]) L Q).
Proof.
  intros o a m c Lm L F Q A R P. destruct (Prog o m A) as [LG FIN].
  assert (A0 : all_api le [Some m]) by (constructor; [exact A|constructor]).
  destruct (legal_run le _ _ A0 LG) as (os & st & E & A2 & OK). destruct (FIN os st E) as (m' & r & -> & D).
  assert (EM : makes le prog o m = m') by (unfold makes; rewrite E; reflexivity). rewrite EM.
  split; [apply Forall_cons_iff in A2; apply A2|]. intro H.
  assert (R0 : all_rep [a] [Some m] Lm) by (exists c, Lm, []; split; [rewrite app_nil_r; apply Permutation_refl|split; [exact R|reflexivity]]).
  pose proof (wp_run room Room le _ [a] [Some m] os (Some m' :: r) L Lm F E OK R0 P) as W.
  intros h J. destruct (W h J) as (x & h' & L' & EX & J' & _ & Ls' & P' & R').
  destruct (keeps_run _ _ _ _ _ _ _ EX) as (q & Eq). rewrite Eq in R'. cbn [app all_rep] in R'.
  destruct R' as (c' & L1 & L2 & P1 & RM & RR). apply all_rep_deleted in RR; [|exact D]. subst L2. rewrite app_nil_r in P1.
  exists x, h', (L1 ++ F). split; [exact EX|]. split; [|apply (H x c'); exact RM].
  eapply heap_perm; [exact J'|]. eapply perm_trans; [exact P'|]. apply Permutation_app_tail. exact P1.
Qed.

Lemma wp_perform : forall os a m c Lm L F (Q : _ -> heaplet -> Prop), api_msg le m -> msg_rep a m c Lm -> Permutation L (Lm ++ F) ->
  (forall m' c' Lm', msg_rep a m' c' Lm' ->
     Q (map (fun d => (fst d, look (snd d))) (uecho_message_observer_manager_perform (makes le prog) os m)) (Lm' ++ F)) ->
  wp (perform room le prog os a) L Q.
Proof.
  induction os as [|o os IH]; intros a m c Lm L F Q A R P H; cbn [perform uecho_message_observer_manager_perform] in *.
  - eapply wp_perm; [exact P|]. apply wp_ret. eapply (H m). exact R.
  - destruct ((mo_handler o =? 0) || (mo_object o =? 0)).
    + eapply IH; eauto.
    + eapply wp_perm; [exact P|]. apply wp_bind. eapply wp_read_message; [exact R|intros x X; apply in_or_app; left; exact X|].
      apply wp_bind. edestruct (wp_handler o a m c Lm (Lm ++ F) F) as [A' W]; [exact A|exact R|apply Permutation_refl|].
      apply W. clear W. intros _ c' Lm' R'. apply wp_bind.
      eapply IH; [exact A'|exact R'|apply Permutation_refl|]. intros m2 c2 Lm2 R2. apply wp_ret. eapply (H m2 c2 Lm2). exact R2.
Qed.

Lemma wp_recv_data : forall k b from local Lk L F (Q : unit -> heaplet -> Prop), buffer b -> c_text (Some from) -> c_text local ->
  pkt_rep k [] None None Lk -> Permutation L (Lk ++ F) ->
  (forall Lk', pkt_rep k (firstn RECV_BUFSIZE b) local (Some from) Lk' -> Q tt (Lk' ++ F)) ->
  wp (recv_data room k b from local) L Q.
Proof.
  intros k b from local Lk L F Q B T1 T2 R P H. eapply wp_perm; [exact P|]. unfold recv_data. apply wp_given. intros p P0.
  set (d := firstn RECV_BUFSIZE b) in *.
  assert (SD : len d < SIZE_MOD).
  { assert (X : (length d <= RECV_BUFSIZE)%nat) by (unfold d; rewrite firstn_length; apply Nat.le_min_l).
    clear - X. unfold len, SIZE_MOD, RECV_BUFSIZE in *. lia. }
  apply wp_bind. eapply (wp_pkt_setdata room Room k [] None None Lk p d _ ((p, BBytes (map Some d)) :: F)); [exact R|perm|left; reflexivity|exact SD|].
  clear Lk R P. intros Lk R.
  apply wp_bind. apply wp_given_text; [split; [constructor|reflexivity]|]. intros p1 B1 A1.
  eapply (wp_pkt_setremote room Room k d None None Lk p1 (Some EmptyString) _ (B1 ++ (p, BBytes (map Some d)) :: F)); [exact R|perm|eapply addr_arg_incl; [exact A1|intros x X; apply in_or_app; left; exact X]|].
  clear Lk R. intros Lk R. exists (Lk ++ (p, BBytes (map Some d)) :: F). split; [perm|]. clear B1 A1.
  apply wp_bind. apply wp_given_text; [apply c_text_arg; exact T1|]. intros p2 B1 A1.
  eapply (wp_pkt_setremote room Room k d None _ Lk p2 (Some from) _ (B1 ++ (p, BBytes (map Some d)) :: F)); [exact R|perm|eapply addr_arg_incl; [exact A1|intros x X; apply in_or_app; left; exact X]|].
  clear Lk R. intros Lk R. exists (Lk ++ (p, BBytes (map Some d)) :: F). split; [perm|]. clear B1 A1. cbn [over] in R.
  apply wp_bind. destruct local as [s|].
  - apply wp_malloc; [exact Room|]. intros q Pq _. destruct T2 as [T2 T3].
    apply wp_bind. eapply (wp_pkt_setlocal room Room k d None (Some from) Lk q (Some s) _ ((q, BBytes (map Some (cstr s) ++ [Some 0])) :: (p, BBytes (map Some d)) :: F)); [exact R|perm| |].
    { split; [left; reflexivity|]. split; [exact T2|]. clear - T3. unfold OBJ_MAX, SIZE_MOD in *. lia. }
    clear Lk R. intros Lk R. eapply (wp_free q); [find_x|]. exists (Lk ++ F). split; [perm|]. apply H. exact R.
  - apply wp_ret. apply wp_bind. eapply (wp_pkt_setlocal room Room k d None (Some from) Lk 0 None _ ((p, BBytes (map Some d)) :: F)); [exact R|perm|reflexivity|].
    clear Lk R. intros Lk R. intros h J. exists tt, h, (Lk ++ (p, BBytes (map Some d)) :: F). split; [reflexivity|]. split; [exact J|].
    exists (Lk ++ F). split; [perm|]. apply H. exact R.
Qed.

Lemma new_api : forall d lo re, buffer d -> exists ok m, M_Message.uecho_message_parsepacket M_Message.uecho_message_new d lo re = Ok (ok, m) /\ api_msg le m.
Proof.
  intros d lo re B. destruct (C01_parsepacket_safe le _ d lo re (am_new le) B) as (r & m & E). exists r, m. split; [exact E|].
  eapply am_packet; [apply am_new|exact B|exact E].
Qed.
Lemma buffer_firstn : forall n b, buffer b -> buffer (firstn n b).
Proof.
  intros n b [A B]. split; [apply Forall_forall; intros x X; unfold bytes_ok in A; rewrite Forall_forall in A; apply A; rewrite <- (firstn_skipn n b); apply in_or_app; left; exact X|].
  unfold len in *. rewrite firstn_length. clear - B. lia.
Qed.

Lemma wp_receive : forall os l L (Q : _ -> heaplet -> Prop), Forall arrival_ok l ->
  (exists vs, server_action (makes le prog) os l = Ok vs /\ forall L', Permutation L' L -> Q (map (fun d => (fst d, look (snd d))) vs) L') ->
  wp (receive_loop room le prog os l) L Q.
Proof.
  induction l as [|x l IH]; intros L Q OK (vs & E & H).
  - cbn [receive_loop server_action] in *. injection E as <-. apply wp_bind. apply (wp_pkt_new room Room). intros k Lk K Rk.
    rewrite (pos_nz k) by assumption. apply wp_bind. eapply wp_pkt_delete; [exact Rk|apply Permutation_refl|]. apply wp_ret. apply H. apply Permutation_refl.
  - apply Forall_cons_iff in OK. destruct OK as [OKx OK].
    assert (MAIN : forall d lo re (c : Z -> mm unit), buffer d ->
       (do x <- M_Message.uecho_message_parsepacket M_Message.uecho_message_new d lo re ;;
        do y <- server_action (makes le prog) os l ;;
        Ok ((if fst x then uecho_message_observer_manager_perform (makes le prog) os (snd x) else []) ++ y)) = Ok vs ->
       (forall k Lk (Q0 : unit -> heaplet -> Prop), pkt_rep k [] None None Lk ->
          (forall Lk', pkt_rep k d lo re Lk' -> Q0 tt (Lk' ++ L)) -> wp (c k) (Lk ++ L) Q0) ->
       wp (let! k := uecho_socket_datagram_packet_new room in
           if k =? 0 then ret []
           else let! _ := c k in
                let! m := M_Mem.uecho_message_new room in
                if m =? 0 then receive_loop room le prog os l
                else let! ok := M_Mem.uecho_message_parsepacket room m k in
                     let! ds := (if ok then perform room le prog os m else ret []) in
                     let! _ := uecho_socket_datagram_packet_delete k in
                     let! _ := M_Mem.uecho_message_delete m in
                     let! e := receive_loop room le prog os l in
                     ret (ds ++ e)) L Q).
    { intros d lo re c Bd EV HC. apply bind_ok in EV. destruct EV as ((ok & m') & EP & EV). apply bind_ok in EV. destruct EV as (y & EY & EV). injection EV as <-.
      cbn [fst snd] in *. destruct (new_api d lo re Bd) as (ok2 & m2 & EP2 & AM). rewrite EP in EP2. injection EP2 as <- <-.
      apply wp_bind. apply (wp_pkt_new room Room). intros k Lk K Rk. rewrite (pos_nz k) by assumption.
      apply wp_bind. apply (HC k Lk _ Rk). clear Lk Rk. intros Lk Rk.
      apply wp_bind. apply (wp_message_new room Room). intros a La A Ra. rewrite (pos_nz a) by assumption.
      apply wp_bind. eapply (wp_parsepacket room Room a _ None La k d lo re Lk ok m' _ L); [exact Ra|exact Rk|apply Permutation_refl|apply Bd|exact EP|].
      clear La Ra. intros La Ra.
      assert (REST : forall ds0 m3 c3 La3, msg_rep a m3 c3 La3 ->
        ds0 = map (fun d => (fst d, look (snd d))) (if ok then uecho_message_observer_manager_perform (makes le prog) os m' else []) ->
        wp (let! _ := uecho_socket_datagram_packet_delete k in
            let! _ := M_Mem.uecho_message_delete a in
            let! e := receive_loop room le prog os l in
            ret (ds0 ++ e)) (La3 ++ Lk ++ L) Q).
      { intros ds0 m3 c3 La3 R3 ED. apply wp_bind. eapply (wp_pkt_delete k d lo re Lk _ (La3 ++ L)); [exact Rk|perm|].
        apply wp_bind. eapply (wp_message_delete room Room); [exact R3|apply Permutation_refl|].
        apply wp_bind. apply IH; [exact OK|]. exists y. split; [exact EY|]. intros L' P'. apply wp_ret.
        subst ds0. rewrite <- map_app. apply H. exact P'. }
      apply wp_bind. destruct ok.
      - eapply wp_perform; [exact AM|exact Ra|apply Permutation_refl|]. intros m3 c3 La3 R3. eapply REST; [exact R3|reflexivity].
      - apply wp_ret. eapply REST; [exact Ra|reflexivity]. }
    destruct x as [b from local| |].
    + cbn [receive_loop]. cbn [server_action] in E. destruct OKx as (B & T1 & T2).
      apply (MAIN (firstn RECV_BUFSIZE b) local (Some from) (fun k => recv_data room k b from local)); [apply buffer_firstn; exact B|exact E|].
      intros k Lk Q0 Rk HQ. eapply wp_recv_data; [exact B|exact T1|exact T2|exact Rk|apply Permutation_refl|exact HQ].
    + cbn [receive_loop]. cbn [server_action] in E.
      apply (MAIN [] None None (fun _ => ret tt)); [split; [constructor|unfold OBJ_MAX; cbn; lia]|exact E|].
      intros k Lk Q0 Rk HQ. apply wp_ret. apply HQ. exact Rk.
    + cbn [receive_loop]. cbn [server_action] in E. injection E as <-. apply wp_bind. apply (wp_pkt_new room Room). intros k Lk K Rk.
      rewrite (pos_nz k) by assumption. apply wp_bind. eapply wp_pkt_delete; [exact Rk|apply Permutation_refl|]. apply wp_ret. apply H. apply Permutation_refl.
Qed.

Lemma receive_defined : forall os l, Forall arrival_ok l -> exists vs, server_action (makes le prog) os l = Ok vs.
Proof.
  induction l as [|x l IH]; intros OK; cbn [server_action]; [eauto|]. apply Forall_cons_iff in OK. destruct OK as [O1 OK].
  destruct (IH OK) as (vs & E). destruct x as [b from local| |]; [| |eauto].
  - destruct O1 as (B & _). destruct (new_api (firstn RECV_BUFSIZE b) local (Some from) (buffer_firstn _ _ B)) as (ok & m & EP & _).
    rewrite EP, E. cbn [bind]. eauto.
  - assert (B : buffer []) by (split; [constructor|unfold OBJ_MAX; cbn; lia]). destruct (new_api [] None None B) as (ok & m & EP & _).
    rewrite EP, E. cbn [bind]. eauto.
Qed.
End Room.
