(* Proofs about the servers. *)
From Coq Require Import String ZArith List Bool Lia.
From Verif Require Import CSem M_Const M_Message M_Node Spec_Frame Spec_Message P_Base P_Misc P_Message P_Encode P_MsgApi Properties_Message M_Server Spec_Server.
Import ListNotations.
Open Scope Z_scope.

(* ---- lists of servers ---- *)
Lemma each_map : forall f l, each f l = (map (fun v => fst (f v)) l, forallb (fun v => snd (f v)) l).
Proof.
  intros f l. induction l as [|v r IH]; cbn [each map forallb]; [reflexivity|].
  destruct (f v) as [v' b]. rewrite IH. reflexivity.
Qed.
Lemma close_res : forall v, srv_close v = (mkSrv None (v_thread v) (v_obs v), true).
Proof. intros [s t o]. unfold srv_close. cbn. destruct s; reflexivity. Qed.
Lemma stop_res : forall v, srv_stop v = (mkSrv (match v_thread v with None => v_sock v | _ => None end) None (v_obs v), true).
Proof. intros [s t o]. unfold srv_stop. cbn [v_thread v_sock v_obs]. destruct t; [|reflexivity]. rewrite close_res. reflexivity. Qed.
Lemma forallb_all : forall {A} (f : A -> bool) l, (forall x, f x = true) -> forallb f l = true.
Proof. intros A f l H. apply forallb_forall. intros; apply H. Qed.
Lemma closelist_res : forall l, serverlist_close l = (map (fun v => mkSrv None (v_thread v) (v_obs v)) l, true).
Proof.
  intros l. unfold serverlist_close. rewrite each_map. f_equal.
  - apply map_ext. intros v. rewrite close_res. reflexivity.
  - apply forallb_all. intros v. rewrite close_res. reflexivity.
Qed.
Lemma stoplist_res : forall l, serverlist_stop l
  = (map (fun v => mkSrv (match v_thread v with None => v_sock v | _ => None end) None (v_obs v)) l, true).
Proof.
  intros l. unfold serverlist_stop. rewrite each_map. f_equal.
  - apply map_ext. intros v. rewrite stop_res. reflexivity.
  - apply forallb_all. intros v. rewrite stop_res. reflexivity.
Qed.
Lemma clear_stopped : forall l, serverlist_clear (fst (serverlist_stop l)) = [].
Proof.
  intros l. rewrite stoplist_res. cbn [fst]. unfold serverlist_clear.
  induction l as [|v r IH]; cbn [map filter v_thread]; auto.
Qed.

Lemma stop_eq : forall s, uecho_server_stop s = (mkServer [] [] (sv_obs s) (sv_option s) (sv_lost s), true).
Proof.
  intros s. unfold uecho_server_stop. rewrite !closelist_res.
  pose proof (clear_stopped (map (fun v => mkSrv None (v_thread v) (v_obs v)) (sv_mcast s))) as A.
  pose proof (clear_stopped (map (fun v => mkSrv None (v_thread v) (v_obs v)) (sv_udp s))) as B.
  rewrite !stoplist_res in *. cbn [fst] in *. rewrite A, B, app_nil_r. reflexivity.
Qed.

(* ---- opening ---- *)
Definition opened (a : string) : srv := mkSrv (Some a) None [].
Lemma open_loop_ok : forall g ifs l, (forall a, In a ifs -> g a = true) -> open_loop g ifs l = (l ++ map opened ifs, true).
Proof.
  intros g ifs. induction ifs as [|a r IH]; intros l H; cbn [open_loop map]; [rewrite app_nil_r; reflexivity|].
  unfold srv_open. cbn [srv_close srv_new v_sock v_thread v_obs]. rewrite (H a (or_introl eq_refl)).
  rewrite IH by (intros x Hx; apply H; right; exact Hx). unfold opened at 2. rewrite <- app_assoc. reflexivity.
Qed.
Lemma open_loop_snd : forall g ifs l, snd (open_loop g ifs l) = forallb g ifs.
Proof.
  intros g ifs. induction ifs as [|a r IH]; intros l; cbn [open_loop forallb]; [reflexivity|].
  unfold srv_open. cbn [srv_close srv_new v_sock v_thread v_obs]. destruct (g a); [apply IH|reflexivity].
Qed.
Lemma open_snd : forall g ifs, snd (serverlist_open g ifs []) = negb (match ifs with [] => true | _ => false end) && forallb g ifs.
Proof.
  intros g ifs. unfold serverlist_open. rewrite closelist_res. cbn [map]. destruct ifs as [|a r]; [reflexivity|].
  pose proof (open_loop_snd g (a :: r) []) as E. destruct (open_loop g (a :: r) []) as [l2 ok]. cbn [snd] in E. subst ok.
  cbn [negb andb]. destruct (forallb g (a :: r)); reflexivity.
Qed.
Lemma open_ok : forall g ifs, ifs <> [] -> forallb g ifs = true -> serverlist_open g ifs [] = (map opened ifs, true).
Proof.
  intros g ifs N H. unfold serverlist_open. rewrite closelist_res. cbn [map]. rewrite forallb_forall in H.
  pose proof (open_loop_ok g ifs [] H) as E. cbn [app] in E.
  destruct ifs as [|a r]; [congruence|]. rewrite E. reflexivity.
Qed.

(* ---- observers ---- *)
Definition givenb (o : mobs) : bool := negb ((mo_handler o =? 0) || (mo_object o =? 0)).
Lemma givenb_ok : forall o, givenb o = true <-> given o.
Proof. intros o. unfold givenb, given. rewrite negb_true_iff, orb_false_iff, !Z.eqb_neq. tauto. Qed.
Definition with_obs (obs : list mobs) (v : srv) : srv := mkSrv (v_sock v) (v_thread v) (v_obs v ++ obs).
Lemma add_observers_res : forall obs u m, add_observers obs u m
  = (map (with_obs (filter givenb obs)) u, map (with_obs (filter givenb obs)) m, forallb givenb obs).
Proof.
  induction obs as [|o r IH]; intros u m; cbn [add_observers filter forallb].
  - assert (I : forall l, map (with_obs []) l = l).
    { intros l. rewrite <- (map_id l) at 2. apply map_ext. intros [s t ob]. unfold with_obs. cbn. rewrite app_nil_r. reflexivity. }
    rewrite !I. reflexivity.
  - assert (Eg : givenb o = negb ((mo_handler o =? 0) || (mo_object o =? 0))) by reflexivity. rewrite Eg.
    destruct ((mo_handler o =? 0) || (mo_object o =? 0)); cbn [negb andb].
    + rewrite IH. reflexivity.
    + rewrite IH, !map_map. destruct o as [ob h].
      assert (I : forall l, map (fun v => with_obs (filter givenb r)
          (mkSrv (v_sock v) (v_thread v) (uecho_message_observer_manager_addobserver (v_obs v) ob h))) l
        = map (with_obs (mkMobs ob h :: filter givenb r)) l).
      { intros l. apply map_ext. intros v. unfold with_obs, uecho_message_observer_manager_addobserver.
        cbn [v_sock v_thread v_obs]. rewrite <- app_assoc. reflexivity. }
      cbn [mo_object mo_handler]. rewrite !I. reflexivity.
Qed.

(* ---- starting ---- *)
Lemma start_opened : forall g ifs obs, serverlist_start g (map (with_obs obs) (map opened ifs))
  = (map (fun a => mkSrv (if g a then Some a else None) (if g a then Some true else None) obs) ifs, forallb g ifs).
Proof.
  intros g ifs obs. unfold serverlist_start. rewrite stoplist_res, each_map, !map_map.
  cbn [with_obs opened v_thread v_sock v_obs app]. f_equal.
  - apply map_ext. intros a. unfold srv_start. rewrite stop_res.
    cbn [srv_addr v_thread v_sock v_obs]. destruct (g a); [reflexivity|]. rewrite stop_res. reflexivity.
  - induction ifs as [|a r IH]; cbn [map forallb]; [reflexivity|]. rewrite IH. f_equal.
    unfold srv_start. rewrite stop_res. cbn [srv_addr v_thread v_sock v_obs]. destruct (g a); [reflexivity|].
    rewrite stop_res. reflexivity.
Qed.
Definition running (obs : list mobs) (a : string) : srv := mkSrv (Some a) (Some true) obs.
Lemma start_ok : forall g ifs obs, forallb g ifs = true ->
  serverlist_start g (map (with_obs obs) (map opened ifs)) = (map (running obs) ifs, true).
Proof.
  intros g ifs obs H. rewrite start_opened, H. f_equal. apply map_ext_in. intros a Ha.
  rewrite forallb_forall in H. rewrite (H a Ha). reflexivity.
Qed.

Lemma udp_enabled : forall s, uecho_server_isudpserverenabled s = true <-> udp_wanted (sv_option s).
Proof.
  intros s. unfold uecho_server_isudpserverenabled, udp_wanted. rewrite Z.eqb_eq.
  change 1 with (Z.ones 1). rewrite Z.land_ones by lia. change (2 ^ 1) with 2.
  rewrite Z.bit0_odd, Zmod_odd. destruct (Z.odd (sv_option s)); split; congruence.
Qed.

Definition kind_ok (e : osenv) (k : bool) : bool := forallb (os_open e k) (os_ifs e) && forallb (os_thread e k) (os_ifs e).
Lemma kind_ok_iff : forall e k, kind_ok e k = true <-> grants_kind e k.
Proof.
  intros e k. unfold kind_ok, grants_kind. rewrite andb_true_iff, !forallb_forall. split.
  - intros [A B] a Ha. split; auto.
  - intros H. split; intros a Ha; apply (H a Ha).
Qed.
Definition start_spec (e : osenv) (s : server) : Prop :=
  grants e (sv_option s) /\ Forall given (sv_obs s).

Lemma start_true : forall e s, start_spec e s ->
  uecho_server_start e s
  = (mkServer (if uecho_server_isudpserverenabled s then map (running (sv_obs s)) (os_ifs e) else [])
              (map (running (sv_obs s)) (os_ifs e)) (sv_obs s) (sv_option s) (sv_lost s), true).
Proof.
  intros e s [(N & K1 & K2) G]. unfold uecho_server_start. rewrite stop_eq. cbn [sv_mcast sv_udp sv_obs sv_option sv_lost].
  change (uecho_server_isudpserverenabled (mkServer [] [] (sv_obs s) (sv_option s) (sv_lost s)))
    with (uecho_server_isudpserverenabled s).
  apply kind_ok_iff in K1. unfold kind_ok in K1. apply andb_true_iff in K1. destruct K1 as [O1 T1].
  rewrite (open_ok _ _ N O1).
  assert (F : filter givenb (sv_obs s) = sv_obs s).
  { clear -G. induction G as [|o r H G IH]; cbn [filter]; [reflexivity|]. apply givenb_ok in H. rewrite H, IH. reflexivity. }
  assert (A : forallb givenb (sv_obs s) = true).
  { apply forallb_forall. intros o Ho. apply givenb_ok. rewrite Forall_forall in G. auto. }
  destruct (uecho_server_isudpserverenabled s) eqn:U.
  - apply udp_enabled in U. specialize (K2 U). apply kind_ok_iff in K2. unfold kind_ok in K2.
    apply andb_true_iff in K2. destruct K2 as [O2 T2]. rewrite (open_ok _ _ N O2).
    rewrite add_observers_res, F, A, (start_ok _ _ _ T1), (start_ok _ _ _ T2). reflexivity.
  - rewrite add_observers_res, F, A, (start_ok _ _ _ T1). reflexivity.
Qed.

Lemma start_snd : forall e s, snd (uecho_server_start e s) = true -> start_spec e s.
Proof.
  intros e s H. unfold uecho_server_start in H. rewrite stop_eq in H. cbn [sv_mcast sv_udp sv_obs sv_option sv_lost] in H.
  change (uecho_server_isudpserverenabled (mkServer [] [] (sv_obs s) (sv_option s) (sv_lost s)))
    with (uecho_server_isudpserverenabled s) in H.
  pose proof (open_snd (os_open e true) (os_ifs e)) as S1.
  pose proof (open_snd (os_open e false) (os_ifs e)) as S2.
  pose proof (open_ok (os_open e true) (os_ifs e)) as E1.
  pose proof (open_ok (os_open e false) (os_ifs e)) as E2.
  destruct (serverlist_open (os_open e true) (os_ifs e) []) as [m1 b1]. cbn [snd] in S1.
  destruct (serverlist_open (os_open e false) (os_ifs e) []) as [u1 b2]. cbn [snd] in S2.
  assert (G : forallb givenb (sv_obs s) = true -> Forall given (sv_obs s)).
  { rewrite forallb_forall, Forall_forall. intros A o Ho. apply givenb_ok. auto. }
  assert (N : b1 = true -> os_ifs e <> [] /\ forallb (os_open e true) (os_ifs e) = true /\ m1 = map opened (os_ifs e)).
  { intros ->. symmetry in S1. apply andb_true_iff in S1. destruct S1 as [S1 S1'].
    assert (X : os_ifs e <> []) by (destruct (os_ifs e); [discriminate|congruence]).
    specialize (E1 X S1'). injection E1 as E1. auto. }
  assert (N2 : b2 = true -> forallb (os_open e false) (os_ifs e) = true /\ u1 = map opened (os_ifs e)).
  { intros ->. symmetry in S2. apply andb_true_iff in S2. destruct S2 as [S2 S2'].
    assert (X : os_ifs e <> []) by (destruct (os_ifs e); [discriminate|congruence]).
    specialize (E2 X S2'). injection E2 as E2. auto. }
  clear S1 S2 E1 E2.
  destruct (uecho_server_isudpserverenabled s) eqn:U.
  - rewrite add_observers_res in H.
    destruct b1; [|exfalso; revert H; destruct (serverlist_start _ _); destruct (serverlist_start _ _); cbn; discriminate].
    destruct b2; [|exfalso; revert H; destruct (serverlist_start _ _); destruct (serverlist_start _ _); cbn; discriminate].
    destruct (N eq_refl) as (N1 & O1 & ->). destruct (N2 eq_refl) as (O2 & ->).
    rewrite !start_opened in H.
    destruct (forallb givenb (sv_obs s)) eqn:A; [|exfalso; cbn in H; discriminate].
    destruct (forallb (os_thread e true) (os_ifs e)) eqn:T1; [|exfalso; cbn in H; discriminate].
    destruct (forallb (os_thread e false) (os_ifs e)) eqn:T2; [|exfalso; cbn in H; discriminate].
    split; [|auto]. split; [exact N1|]. split; [|intros _]; apply kind_ok_iff; unfold kind_ok; apply andb_true_iff; auto.
  - rewrite add_observers_res in H.
    destruct b1; [|exfalso; revert H; destruct (serverlist_start _ _); cbn; discriminate].
    destruct (N eq_refl) as (N1 & O1 & ->).
    rewrite !start_opened in H.
    destruct (forallb givenb (sv_obs s)) eqn:A; [|exfalso; cbn in H; discriminate].
    destruct (forallb (os_thread e true) (os_ifs e)) eqn:T1; [|exfalso; cbn in H; discriminate].
    split; [|auto]. split; [exact N1|]. split; [apply kind_ok_iff; unfold kind_ok; apply andb_true_iff; auto|].
    intros W. apply udp_enabled in W. congruence.
Qed.
Lemma start_lost : forall e s, sv_lost (fst (uecho_server_start e s)) = sv_lost s.
Proof.
  intros e s. unfold uecho_server_start. rewrite stop_eq. cbn [sv_mcast sv_udp sv_obs sv_option sv_lost].
  destruct (serverlist_open (os_open e true) _ _) as [m1 b1].
  match goal with |- context [let '(_, _) := ?X in _] => destruct X as [u1 b2] end.
  destruct (add_observers _ u1 m1) as [[u2 m2] b3].
  destruct (serverlist_start _ m2) as [m3 b4].
  match goal with |- context [let '(_, _) := ?X in _] => destruct X as [u3 b5] end.
  destruct (b1 && b2 && b3 && b4 && b5); [reflexivity|]. rewrite stop_eq. reflexivity.
Qed.
Lemma start_false : forall e s, snd (uecho_server_start e s) = false ->
  fst (uecho_server_start e s) = mkServer [] [] (sv_obs s) (sv_option s) (sv_lost s).
Proof.
  intros e s. unfold uecho_server_start. rewrite stop_eq. cbn [sv_mcast sv_udp sv_obs sv_option sv_lost].
  destruct (serverlist_open (os_open e true) _ _) as [m1 b1].
  match goal with |- context [let '(_, _) := ?X in _] => destruct X as [u1 b2] end.
  destruct (add_observers _ u1 m1) as [[u2 m2] b3].
  destruct (serverlist_start _ m2) as [m3 b4].
  match goal with |- context [let '(_, _) := ?X in _] => destruct X as [u3 b5] end.
  destruct (b1 && b2 && b3 && b4 && b5); [cbn; discriminate|]. rewrite stop_eq. reflexivity.
Qed.

(* ---- histories ---- *)
Lemma srun_snoc : forall ops op, srun (ops ++ [op]) = sstep (srun ops) op.
Proof. intros. unfold srun. rewrite fold_left_app. reflexivity. Qed.
Lemma registered_snoc : forall ops op, registered (ops ++ [op]) = registered ops ++ match op with SAdd o h => [mkMobs o h] | _ => [] end.
Proof. intros. unfold registered. rewrite flat_map_app. cbn. rewrite app_nil_r. reflexivity. Qed.
Lemma option_snoc : forall ops op, option_of (ops ++ [op]) = match op with SOption v => v | _ => option_of ops end.
Proof. intros. unfold option_of. rewrite fold_left_app. reflexivity. Qed.

Lemma srun_facts : forall ops, sv_obs (srun ops) = registered ops /\ sv_option (srun ops) = option_of ops /\ sv_lost (srun ops) = [].
Proof.
  intros ops. induction ops as [|op ops (A & B & C)] using rev_ind; [repeat split|].
  rewrite srun_snoc, registered_snoc, option_snoc. destruct op as [o h|v|e|]; cbn [sstep].
  - cbn. rewrite A. auto.
  - cbn. rewrite A, app_nil_r. auto.
  - rewrite app_nil_r. destruct (snd (uecho_server_start e (srun ops))) eqn:E.
    + apply start_snd in E. rewrite (start_true _ _ E). cbn. auto.
    + rewrite (start_false _ _ E). cbn. auto.
  - rewrite stop_eq. cbn. rewrite app_nil_r. auto.
Qed.
Lemma start_spec_run : forall e ops, start_spec e (srun ops) <-> succeeds e ops.
Proof. intros e ops. destruct (srun_facts ops) as (A & B & _). unfold start_spec, succeeds. rewrite A, B. tauto. Qed.
Lemma start_iff : forall e ops, snd (uecho_server_start e (srun ops)) = true <-> succeeds e ops.
Proof.
  intros e ops. rewrite <- start_spec_run. split; [apply start_snd|]. intros H. rewrite (start_true _ _ H). reflexivity.
Qed.

Lemma running_all : forall obs l, Forall2 (up_at obs) l (map (running obs) l).
Proof. intros obs l. induction l; cbn; constructor; auto. repeat split. Qed.

Lemma leaves_serving : forall ops p, leaves ops p -> serving (srun ops) p.
Proof.
  intros ops p H. induction H as [|ops p o h H IH|ops p v H IH|ops p H IH|ops p e H IH S|ops p e H IH S];
    try rewrite srun_snoc; cbn [sstep].
  - split; reflexivity.
  - destruct p; exact IH.
  - destruct p; exact IH.
  - rewrite stop_eq. split; reflexivity.
  - destruct (srun_facts ops) as (A & B & _). apply start_spec_run in S. pose proof (start_true _ _ S) as E. rewrite E. cbn [fst].
    unfold serving. cbn [sv_mcast sv_udp]. rewrite A. split; [apply running_all|]. split.
    + intros W. assert (U : uecho_server_isudpserverenabled (srun ops) = true) by (apply udp_enabled; rewrite B; exact W).
      rewrite U. apply running_all.
    + intros W. destruct (uecho_server_isudpserverenabled (srun ops)) eqn:U; [|reflexivity].
      apply udp_enabled in U. rewrite B in U. contradiction.
  - destruct (snd (uecho_server_start e (srun ops))) eqn:E; [apply start_iff in E; contradiction|].
    rewrite (start_false _ _ E). split; reflexivity.
Qed.
Lemma leaves_total : forall ops, exists p, leaves ops p.
Proof.
  intros ops. induction ops as [|op ops (p & IH)] using rev_ind; [exists Down; constructor|].
  destruct op as [o h|v|e|].
  - exists p. constructor. exact IH.
  - exists p. constructor. exact IH.
  - destruct (snd (uecho_server_start e (srun ops))) eqn:E.
    + apply start_iff in E. eexists. eapply l_up; eauto.
    + exists Down. eapply l_fail; eauto. intros S. apply start_iff in S. congruence.
  - exists Down. eapply l_stop; eauto.
Qed.
Lemma leaves_up_nonempty : forall ops e obs o, leaves ops (Up e obs o) -> os_ifs e <> [] /\ Forall given obs.
Proof.
  intros ops e obs o H. remember (Up e obs o) as p eqn:Ep. revert Ep.
  induction H as [|ops p o' h H IH|ops p v H IH|ops p H IH|ops p e' H IH S|ops p e' H IH S]; intros Ep; try discriminate; auto.
  injection Ep as -> <- <-. destruct S as [(N & _) G]. auto.
Qed.

(* ---- receiving ---- *)
Lemma perform_reads : forall eff obs m, reads_only eff ->
  uecho_message_observer_manager_perform eff obs m = map (fun o => (o, m)) (filter givenb obs).
Proof.
  intros eff obs m R. revert m. induction obs as [|o r IH]; intros m; cbn [uecho_message_observer_manager_perform filter]; [reflexivity|].
  assert (Eg : givenb o = negb ((mo_handler o =? 0) || (mo_object o =? 0))) by reflexivity. rewrite Eg.
  destruct ((mo_handler o =? 0) || (mo_object o =? 0)); cbn [negb map]; rewrite ?R, IH; reflexivity.
Qed.

Lemma buffer_cut : forall b n, buffer b -> buffer (firstn n b).
Proof.
  intros b n [A B]. split.
  - unfold bytes_ok in *. rewrite Forall_forall in *. intros x Hx. apply A. rewrite <- (firstn_skipn n b). apply in_or_app. auto.
  - unfold len in *. rewrite firstn_length. lia.
Qed.
(* the receive buffer keeps a frame if and only if it has room for all of it *)
Lemma holds_cut : forall b f, buffer b -> (holds (firstn RECV_BUFSIZE b) f <-> holds b f /\ len (enc_frame f) <= 512).
Proof.
  intros b f [Hb _]. split.
  - intros (Hf & rest & E). assert (L : len (enc_frame f) <= 512).
    { apply (f_equal (@length Z)) in E. rewrite firstn_length, app_length in E. unfold len. unfold RECV_BUFSIZE in E. lia. }
    split; [|exact L]. split; [exact Hf|]. exists (rest ++ skipn RECV_BUFSIZE b).
    rewrite app_assoc, <- E. symmetry. apply firstn_skipn.
  - intros ((Hf & rest & E) & L). split; [exact Hf|]. exists (firstn (RECV_BUFSIZE - length (enc_frame f)) rest).
    rewrite E, firstn_app. f_equal. apply firstn_all2. unfold len in L. unfold RECV_BUFSIZE. lia.
Qed.

Lemma packet_frame : forall le b local from f, buffer b -> holds b f ->
  exists m, uecho_message_parsepacket uecho_message_new b local (Some from) = Ok (true, m) /\ shows le m f /\ m_from m = Some from.
Proof.
  intros le b local from f Hb (Hf & rest & E).
  destruct (C02_parse_iff_frame le uecho_message_new b (am_new le) Hb) as [_ P].
  destruct (P f rest Hf E) as (m & Em & Sm). unfold uecho_message_parsepacket. rewrite Em. cbn [bind negb].
  exists (uecho_message_setsourceaddress (Some from) (uecho_message_setsourceaddress local m)).
  split; [reflexivity|]. split; [|destruct local; reflexivity]. destruct local; exact Sm.
Qed.
Lemma packet_bad : forall b local from, buffer b -> (forall f, ~ holds b f) ->
  exists m, uecho_message_parsepacket uecho_message_new b local from = Ok (false, m).
Proof.
  intros b local from Hb N.
  destruct (C01_parsepacket_safe true uecho_message_new b local from (am_new true) Hb) as (r & m & E).
  destruct r; [|eauto]. exfalso.
  destruct (C02_parse_iff_frame true uecho_message_new b (am_new true) Hb) as [[P _] _].
  unfold uecho_message_parsepacket in E.
  destruct (uecho_message_parse uecho_message_new b) as [[ok m0]|u] eqn:Ep; cbn [bind] in E; [|discriminate].
  destruct ok; [|discriminate]. destruct (P (ex_intro _ m0 eq_refl)) as (f & rest & Hf & Eb).
  apply (N f). split; eauto.
Qed.
Lemma holds_dec : forall b, buffer b -> (exists f, holds b f) \/ (forall f, ~ holds b f).
Proof.
  intros b Hb. destruct (C02_parse_iff_frame true uecho_message_new b (am_new true) Hb) as [P _].
  destruct (C01_parsepacket_safe true uecho_message_new b None None (am_new true) Hb) as (r & m & E).
  unfold uecho_message_parsepacket in E.
  destruct (uecho_message_parse uecho_message_new b) as [[ok m0]|u] eqn:Ep; cbn [bind] in E; [|discriminate].
  destruct ok.
  - left. destruct (proj1 P (ex_intro _ m0 eq_refl)) as (f & rest & Hf & Eb). exists f. split; eauto.
  - right. intros f (Hf & rest & Eb). destruct (proj2 P) as (m' & Em); [eauto|]. congruence.
Qed.

(* one datagram that is not an error *)
Lemma arrival_step : forall le eff obs a, reads_only eff -> Forall given obs -> arrival_ok a -> arrival_fits a -> a <> AError ->
  exists ds, delivers le obs a ds
    /\ forall r, server_action eff obs (a :: r) = bind (server_action eff obs r) (fun y => Ok (ds ++ y)).
Proof.
  intros le eff obs a R G A F N.
  assert (Fg : filter givenb obs = obs).
  { clear -G. induction G as [|o r H G IH]; cbn [filter]; [reflexivity|]. apply givenb_ok in H. rewrite H, IH. reflexivity. }
  destruct a as [b from local| |]; [| |congruence]; cbn [arrival_ok arrival_fits] in *.
  - pose proof (buffer_cut b RECV_BUFSIZE A) as Ac.
    destruct (holds_dec b A) as [(f & Hf)|Nf].
    + assert (Hc : holds (firstn RECV_BUFSIZE b) f) by (apply holds_cut; auto).
      destruct (packet_frame le _ local from f Ac Hc) as (m & E & Sm & Fm).
      exists (map (fun o => (o, m)) obs). split.
      * econstructor; [exact Hf| |].
        -- rewrite map_map. cbn [fst]. apply map_id.
        -- rewrite Forall_forall. intros d Hd. apply in_map_iff in Hd. destruct Hd as (o & <- & _). auto.
      * intros r. cbn [server_action]. rewrite E. cbn [bind fst snd]. rewrite (perform_reads _ _ _ R), Fg. reflexivity.
    + destruct (packet_bad _ local (Some from) Ac) as (m & E).
      { intros f Hf. apply holds_cut in Hf; [|exact A]. apply (Nf f). apply Hf. }
      exists []. split; [constructor; exact Nf|]. intros r. cbn [server_action]. rewrite E. reflexivity.
  - exists []. split; [constructor|]. intros r. cbn [server_action].
    destruct (packet_bad [] None None) as (m & E).
    { split; [constructor|]. cbn. unfold OBJ_MAX. lia. }
    { intros f (Hf & rest & E). apply (f_equal (@length Z)) in E. rewrite app_length in E.
      assert (Z0 : (0 < length (enc_frame f))%nat) by (unfold enc_frame; cbn; lia). cbn in E. lia. }
    rewrite E. reflexivity.
Qed.
Lemma action_delivers : forall le eff obs l, reads_only eff -> Forall given obs ->
  Forall arrival_ok l -> Forall arrival_fits l -> ~ In AError l ->
  exists parts, server_action eff obs l = Ok (concat parts) /\ Forall2 (delivers le obs) l parts.
Proof.
  intros le eff obs l R G. induction l as [|a r IH]; intros A F N.
  - exists []. split; [reflexivity|constructor].
  - inversion A as [|? ? A1 A2]; subst. inversion F as [|? ? F1 F2]; subst.
    destruct (arrival_step le eff obs a R G A1 F1) as (ds & D & E); [intros ->; apply N; left; reflexivity|].
    destruct IH as (parts & Ei & Di); auto. { intros X. apply N. right. exact X. }
    exists (ds :: parts). split; [|constructor; auto]. rewrite E, Ei. reflexivity.
Qed.

(* ---- sending ---- *)
Lemma taken_app : forall a b, taken (a ++ b) = taken a ++ taken b.
Proof. intros. unfold taken. rewrite filter_app, map_app. reflexivity. Qed.
Lemma listpost_spec : forall take l h bytes h' b, uecho_mcast_serverlist_post take h l bytes = (h', b) ->
  exists rs, h' = h ++ rs /\ map fst rs = map (fun a => mkAtt (Some a) MULTICAST bytes) (sockets l)
    /\ (b = true <-> length (sockets l) = length l /\ forall r, In r rs -> snd r = true).
Proof.
  intros take l. induction l as [|v r IH]; intros h bytes h' b E; cbn [uecho_mcast_serverlist_post] in E.
  - injection E as <- <-. exists []. rewrite app_nil_r. split; [reflexivity|]. split; [reflexivity|].
    split; [|reflexivity]. intros _. split; [reflexivity|]. intros r [].
  - destruct (uecho_mcast_server_post take h v bytes) as [h1 b1] eqn:E1.
    destruct (uecho_mcast_serverlist_post take h1 r bytes) as [h2 b2] eqn:E2. injection E as <- <-.
    destruct (IH _ _ _ _ E2) as (rs & -> & M & B).
    assert (L : (length (sockets r) <= length r)%nat).
    { clear. unfold sockets. induction r as [|v r IH]; cbn [flat_map length]; [lia|]. rewrite app_length. destruct (v_sock v); cbn [length]; lia. }
    unfold uecho_mcast_server_post, try_send in E1. cbn [sockets flat_map].
    destruct (v_sock v) as [a|].
    + injection E1 as <- <-. exists ((mkAtt (Some a) MULTICAST bytes, take h (mkAtt (Some a) MULTICAST bytes)) :: rs).
      split; [rewrite <- app_assoc; reflexivity|]. split; [cbn; f_equal; exact M|].
      change (flat_map (fun v0 => match v_sock v0 with Some a0 => [a0] | None => [] end) r) with (sockets r).
      cbn [app length]. rewrite andb_true_iff, B. split.
      * intros (T & L1 & R). split; [lia|]. intros x [<-|Hx]; [exact T|auto].
      * intros (L1 & R). split; [apply (R (mkAtt (Some a) MULTICAST bytes, _)); left; reflexivity|].
        split; [lia|]. intros x Hx. apply R. right. exact Hx.
    + injection E1 as <- <-. exists rs. split; [reflexivity|]. split; [exact M|].
      cbn [app length andb]. split; [discriminate|]. intros (L1 & _).
      change (flat_map (fun v0 => match v_sock v0 with Some a0 => [a0] | None => [] end) r) with (sockets r) in L1. lia.
Qed.
Lemma announce_spec : forall take h s bytes h' b, uecho_server_postannounce take h s bytes = (h', b) ->
  exists rs fb, h' = h ++ rs ++ fb
    /\ map fst rs = map (fun a => mkAtt (Some a) MULTICAST bytes) (sockets (sv_mcast s))
    /\ ((fb = [] /\ b = true /\ length (sockets (sv_mcast s)) = length (sv_mcast s) /\ (forall r, In r rs -> snd r = true))
        \/ (fb = [(mkAtt None MULTICAST bytes, b)]
            /\ (length (sockets (sv_mcast s)) <> length (sv_mcast s) \/ exists r, In r rs /\ snd r = false))).
Proof.
  intros take h s bytes h' b E. unfold uecho_server_postannounce in E.
  destruct (uecho_mcast_serverlist_post take h (sv_mcast s) bytes) as [h1 b1] eqn:E1.
  destruct (listpost_spec _ _ _ _ _ _ E1) as (rs & -> & M & B). destruct b1.
  - injection E as <- <-. exists rs, []. rewrite app_nil_r. split; [reflexivity|]. split; [exact M|].
    left. destruct (proj1 B eq_refl) as [L R]. auto.
  - unfold uecho_server_sendto, try_send in E. injection E as <- <-.
    exists rs, [(mkAtt None MULTICAST bytes, take (h ++ rs) (mkAtt None MULTICAST bytes))].
    split; [rewrite <- app_assoc; reflexivity|]. split; [exact M|]. right. split; [reflexivity|].
    destruct (Nat.eq_dec (length (sockets (sv_mcast s))) (length (sv_mcast s))) as [L|L]; [|left; exact L]. right.
    assert (X : forallb snd rs = false).
    { destruct (forallb snd rs) eqn:X; [|reflexivity]. rewrite forallb_forall in X. destruct B as [_ B].
      discriminate B. split; auto. }
    clear -X. induction rs as [|r rs IH]; cbn [forallb] in X; [discriminate|]. destruct (snd r) eqn:Er.
    + destruct (IH X) as (y & Hy & Ey). exists y. split; [right; exact Hy|exact Ey].
    + exists r. split; [left; reflexivity|exact Er].
Qed.
Lemma response_spec : forall take h s addr bytes h' b, uecho_server_postresponse take h s addr bytes = (h', b) ->
  exists rs, h' = h ++ rs /\ (forall r, In r rs -> a_to (fst r) = addr /\ a_bytes (fst r) = bytes) /\ (1 <= length rs <= 2)%nat
    /\ length (taken rs) = (if b then 1 else 0)%nat.
Proof.
  intros take h s addr bytes h' b E. unfold uecho_server_postresponse in E.
  assert (S : forall l h1 b1, uecho_udp_serverlist_sendto take h l addr bytes = (h1, b1) ->
     (h1 = h /\ b1 = false) \/ exists a, h1 = h ++ [(mkAtt (Some a) addr bytes, b1)]).
  { induction l as [|v r IH]; intros h1 b1 E1; cbn [uecho_udp_serverlist_sendto] in E1.
    - injection E1 as <- <-. auto.
    - destruct (v_sock v) as [a|]; [|exact (IH _ _ E1)]. unfold try_send in E1. injection E1 as <- <-. eauto. }
  destruct (uecho_udp_serverlist_sendto take h (sv_udp s) addr bytes) as [h1 b1] eqn:E1.
  destruct (S _ _ _ E1) as [[-> ->]|(a & ->)].
  - unfold uecho_server_sendto, try_send in E. injection E as <- <-. eexists. split; [reflexivity|].
    split; [intros r [<-|[]]; split; reflexivity|]. split; [cbn; lia|]. unfold taken. cbn [filter snd].
    destruct (take h (mkAtt None addr bytes)); reflexivity.
  - destruct b1.
    + injection E as <- <-. eexists. split; [reflexivity|].
      split; [intros r [<-|[]]; split; reflexivity|]. split; [cbn; lia|reflexivity].
    + unfold uecho_server_sendto, try_send in E. injection E as <- <-. eexists. split; [rewrite <- app_assoc; reflexivity|].
      split; [intros r [<-|[<-|[]]]; split; reflexivity|]. split; [cbn; lia|]. unfold taken. cbn [app filter snd].
      destruct (take (h ++ [(mkAtt (Some a) addr bytes, false)]) (mkAtt None addr bytes)); reflexivity.
Qed.
Lemma sockets_up : forall obs l vs, Forall2 (up_at obs) l vs -> sockets vs = l /\ length vs = length l.
Proof.
  intros obs l vs H. induction H as [|a v l vs (S & _) H (I1 & I2)]; [split; reflexivity|].
  split; [|cbn; congruence]. cbn [sockets flat_map]. rewrite S. cbn. f_equal. exact I1.
Qed.

(* the node hands over one frame, if any *)
Lemma announcemessage_one : forall le net n m r, uecho_node_announcemessage le net n m = Ok r -> s_ret r = true ->
  exists b, s_posts r = [PAnnounce b] /\ net (PAnnounce b) = true.
Proof.
  intros le net n m r E T. unfold uecho_node_announcemessage in E.
  destruct (uecho_node_getnexttid n) as [n1 t]. destruct (uecho_node_getobjectbycode n1 uEchoNodeProfileObject) as [p|].
  2: { injection E as <-. discriminate. }
  destruct (uecho_message_setsourceobjectcode _ _) as [m2|]; [cbn [bind] in E|discriminate].
  destruct (uecho_message_getbytes m2) as [b|]; [cbn [bind] in E|discriminate].
  destruct (uecho_message_size m2) as [s|]; [cbn [bind] in E|discriminate].
  unfold uecho_node_announcemessagebytes in E. destruct (s <=? 0).
  - cbn [bind fst snd] in E. injection E as <-. discriminate.
  - destruct (rd_range b 0 s) as [b'|]; [cbn [bind fst snd] in E|discriminate]. injection E as <-. cbn [s_ret s_posts] in *. eauto.
Qed.
Lemma sendmessage_one : forall le net n d m r, uecho_node_sendmessage le net n d m = Ok r -> s_ret r = true ->
  exists a b, n_addr d = Some a /\ s_posts r = [PSend a b] /\ net (PSend a b) = true.
Proof.
  intros le net n d m r E T. unfold uecho_node_sendmessage in E.
  destruct (uecho_node_getnexttid n) as [n1 t]. destruct (uecho_node_getobjectbycode n1 uEchoNodeProfileObject) as [p|].
  2: { injection E as <-. discriminate. }
  destruct (uecho_message_setsourceobjectcode _ _) as [m2|]; [cbn [bind] in E|discriminate].
  destruct (uecho_message_getbytes m2) as [b|]; [cbn [bind] in E|discriminate].
  destruct (uecho_message_size m2) as [s|]; [cbn [bind] in E|discriminate].
  unfold uecho_node_sendmessagebytes in E. destruct (n_addr d) as [a|].
  - destruct (s <=? 0); [cbn [bind fst snd] in E; injection E as <-; discriminate|].
    destruct (rd_range b 0 s) as [b'|]; [cbn [bind fst snd] in E|discriminate]. injection E as <-. cbn [s_ret s_posts] in *. eauto.
  - cbn [bind fst snd] in E. injection E as <-. discriminate.
Qed.
