(* Lemmas about the resources of a server. *)
From Coq Require Import String ZArith Lia List Bool.
From Coq Require Import ZifyBool ZifyNat.
From Verif Require Import CSem P_Base M_Socket Spec_Socket.
Import ListNotations.
Open Scope Z_scope.
Ltac Zify.zify_post_hook ::= Z.div_mod_to_equations.

(* the options of closed descriptors are gone *)
Definition opts_open (w : world) : Prop := Forall (fun o => In (fst (fst o)) (w_fds w)) (w_opts w).

Lemma filter_same : forall A (f : A -> bool) l, Forall (fun x => f x = true) l -> filter f l = l.
Proof. intros A f l F. induction F as [|x l E F IH]; [reflexivity|]. cbn [filter]. rewrite E, IH. reflexivity. Qed.
Lemma fds_same : forall fd l, ~ In fd l -> filter (fun x => negb (x =? fd)) l = l.
Proof. intros fd l N. apply filter_same. rewrite Forall_forall. intros x I. destruct (Z.eqb_spec x fd); [subst; contradiction|reflexivity]. Qed.
Lemma opts_same : forall fd fds (l : list (Z * optname * optval)), ~ In fd fds -> Forall (fun o => In (fst (fst o)) fds) l ->
  filter (fun o => negb (fst (fst o) =? fd)) l = l.
Proof.
  intros fd fds l N F. apply filter_same. eapply Forall_impl; [|exact F]. cbn. intros o I.
  destruct (Z.eqb_spec (fst (fst o)) fd) as [E|E]; [rewrite E in I; contradiction|reflexivity].
Qed.
Lemma filter_drop : forall fd (p q : list (Z * optname * optval)), Forall (fun o => fst (fst o) = fd) p ->
  filter (fun o => negb (fst (fst o) =? fd)) (p ++ q) = filter (fun o => negb (fst (fst o) =? fd)) q.
Proof.
  intros fd p q F. induction F as [|x p E F IH]; [reflexivity|]. cbn [app filter]. rewrite E, Z.eqb_refl. exact IH.
Qed.

(* what a server that is open at [fd] has added to the base *)
Definition held (w0 w : world) (fd : Z) : Prop :=
  w_fds w = fd :: w_fds w0 /\ exists own, w_opts w = own ++ w_opts w0 /\ Forall (fun o => fst (fst o) = fd) own.
Definition clean (w0 w : world) : Prop := w_fds w = w_fds w0 /\ w_opts w = w_opts w0.
Definition own_of (multicast : bool) (fd : Z) (addr : string) : list (Z * optname * optval) :=
  if multicast then [(fd, O_ADD_MEMBERSHIP, VMember GROUP addr); (fd, O_MULTICAST_IF, VIf addr); (fd, O_MULTICAST_TTL, VInt 1); (fd, O_REUSEADDR, VInt 1)]
  else [(fd, O_REUSEADDR, VInt 1)].

Lemma close_held : forall w0 w fd addr port, opts_open w0 -> ~ In fd (w_fds w0) -> 0 < fd -> held w0 w fd ->
  forall x, server_close w (Some (mkSock fd addr port)) = Ok x -> snd x = None /\ clean w0 (fst x) /\ w_infos (fst x) = w_infos w /\ w_users (fst x) = w_users w - 1.
Proof.
  intros w0 w fd addr port O N P (F & own & E & Ow) x H. unfold server_close, uecho_socket_close, uecho_socket_isbound in H. cbn [k_id] in H.
  replace (0 <? fd) with true in H by lia. cbn [negb] in H. unfold uecho_socket_delete, uecho_socket_close, uecho_socket_isbound in H. cbn [k_id negb Z.ltb Z.compare fst] in H.
  unfold uecho_socket_cleanup in H. apply bind_ok in H. destruct H as (w2 & H & E2). injection E2 as <-.
  apply bind_ok in H. destruct H as (u & Hu & H). injection H as <-. cbn [fst snd]. split; [reflexivity|].
  unfold int_chk in Hu. destruct (_ && _); [|discriminate]. injection Hu as <-.
  unfold clean. cbn [with_users sys_close w_fds w_opts w_infos w_users]. split; [|split; reflexivity].
  rewrite F, E. cbn [filter]. rewrite Z.eqb_refl. cbn [negb]. rewrite (fds_same fd _ N). rewrite (filter_drop fd _ _ Ow). rewrite (opts_same fd _ _ N O).
  split; reflexivity.
Qed.
Lemma close_fresh : forall w fd addr port, fd <= 0 -> forall x, server_close w (Some (mkSock fd addr port)) = Ok x ->
  snd x = None /\ clean w (fst x) /\ w_infos (fst x) = w_infos w /\ w_users (fst x) = w_users w - 1.
Proof.
  intros w fd addr port P x H. unfold server_close, uecho_socket_close, uecho_socket_isbound in H. cbn [k_id] in H.
  replace (0 <? fd) with false in H by lia. cbn [negb] in H. unfold uecho_socket_delete, uecho_socket_close, uecho_socket_isbound in H. cbn [k_id] in H.
  replace (0 <? fd) with false in H by lia. cbn [negb fst] in H.
  unfold uecho_socket_cleanup in H. apply bind_ok in H. destruct H as (w2 & H & E2). injection E2 as <-.
  apply bind_ok in H. destruct H as (u & Hu & H). injection H as <-. cbn [fst snd]. split; [reflexivity|].
  unfold int_chk in Hu. destruct (_ && _); [|discriminate]. injection Hu as <-. unfold clean. repeat split.
Qed.

Lemma startup_ok : forall w w', uecho_socket_startup w = Ok w' -> w' = with_users (w_users w + 1) w.
Proof.
  intros w w' H. unfold uecho_socket_startup, int_chk in H. apply bind_ok in H. destruct H as (u & Hu & H). destruct (_ && _); [|discriminate].
  injection Hu as <-. injection H as <-. reflexivity.
Qed.
(* looking an address up *)
Lemma lookup_ok : forall w a1 a2 b w' ok, uecho_socket_tosockaddrinfo w a1 a2 b = Ok (w', ok) ->
  ok = a1 && (b || a2) /\ w_fds w' = w_fds w /\ w_opts w' = w_opts w /\ w_infos w' = w_infos w + (if ok then 1 else 0) /\ w_users w' = w_users w + 1.
Proof.
  intros w a1 a2 b w' ok H. unfold uecho_socket_tosockaddrinfo in H. apply bind_ok in H. destruct H as (w1 & H1 & H). apply startup_ok in H1. subst w1.
  destruct a1; cbn [negb andb] in *.
  2:{ injection H as <- <-. cbn. repeat split; lia. }
  destruct b; cbn [orb].
  { injection H as <- <-. cbn. repeat split; lia. }
  destruct a2; cbn [negb] in H; injection H as <- <-; cbn; repeat split; lia.
Qed.

(* binding a new socket *)
Lemma bind_spec : forall a w port addr opt w' k' ok, 0 < port -> an_socket a <> 0 -> fd_ok w (an_socket a) -> opts_open w ->
  uecho_socket_bind a w (mkSock (-1) "" (-1)) port addr opt = Ok (w', k', ok) ->
  let fd := an_socket a in
  let found := an_info a && (so_bind opt || an_info2 a) in
  let set := (negb (so_reuse opt) || an_reuse a) && (negb (so_loop opt) || an_ttl a) in
  let own := (if so_loop opt then [(fd, O_MULTICAST_TTL, VInt 1)] else []) ++ (if so_reuse opt then [(fd, O_REUSEADDR, VInt 1)] else []) in
  w_users w' = w_users w + 1
  /\ w_infos w' = w_infos w + (if found && ((fd =? -1) || negb set) then 1 else 0)
  /\ ok = found && negb (fd =? -1) && set && an_bind a
  /\ (if found && negb (fd =? -1) && set
      then 0 < fd /\ ~ In fd (w_fds w) /\ k_id k' = fd /\ w_fds w' = fd :: w_fds w /\ w_opts w' = own ++ w_opts w /\ (ok = true -> k' = mkSock fd addr port)
      else k_id k' <= 0 /\ clean w w').
Proof.
  intros a w port addr opt w' k' ok P NZ F O H fd found set own. unfold uecho_socket_bind in H.
  destruct (Z.leb_spec port 0); [lia|]. apply bind_ok in H. destruct H as ([w1 ok1] & H1 & H). apply lookup_ok in H1.
  destruct H1 as (E1 & Ef & Eo & Ei & Eu). fold found in E1. subst ok1. destruct found eqn:Fo; cbn [negb andb] in *.
  2:{ injection H as <- <- <-. repeat split; cbn; try congruence; lia. }
  fold fd in H. assert (FD : fd = -1 \/ (0 < fd /\ ~ In fd (w_fds w))).
  { destruct F as [F|F]; [left; exact F|right; split; [|apply F]; unfold fd in *; lia]. }
  unfold uecho_socket_setid in H. cbn [k_id k_addr k_port] in H. destruct (Z.eqb_spec fd (-1)) as [E|E]; cbn [negb andb orb] in *.
  { unfold uecho_socket_close, uecho_socket_isbound in H. cbn [k_id] in H. replace (0 <? fd) with false in H by lia. cbn [negb] in H. injection H as <- <- <-.
    unfold sys_socket. replace (fd =? -1) with true by lia. cbn [k_id]. unfold clean. repeat split; try assumption; lia. }
  destruct FD as [X|[Pos NI]]; [congruence|].
  assert (SC : w_fds (sys_socket fd w1) = fd :: w_fds w /\ w_opts (sys_socket fd w1) = w_opts w /\ w_infos (sys_socket fd w1) = w_infos w1 /\ w_users (sys_socket fd w1) = w_users w1).
  { unfold sys_socket. destruct (Z.eqb_spec fd (-1)); [congruence|]. cbn. rewrite Ef. auto. }
  destruct SC as (S1 & S2 & S3 & S4). set (ws := sys_socket fd w1) in *. clearbody ws.
  (* closing again leaves the world clean *)
  assert (CL : forall wx own', w_fds wx = fd :: w_fds w -> w_opts wx = own' ++ w_opts w -> Forall (fun o => fst (fst o) = fd) own' ->
    uecho_socket_close wx (mkSock fd "" (-1)) = (sys_close fd wx, mkSock (-1) "" (-1)) /\ clean w (sys_close fd wx)
    /\ w_infos (sys_close fd wx) = w_infos wx /\ w_users (sys_close fd wx) = w_users wx).
  { intros wx own' A B C. unfold uecho_socket_close, uecho_socket_isbound. cbn [k_id]. replace (0 <? fd) with true by lia. cbn [negb]. split; [reflexivity|].
    unfold clean, sys_close. cbn [w_fds w_opts w_infos w_users]. rewrite A, B. cbn [filter]. rewrite Z.eqb_refl. cbn [negb]. rewrite (fds_same fd _ NI), (filter_drop fd _ _ C), (opts_same fd _ _ NI O). auto. }
  assert (R1 : Forall (fun o : Z * optname * optval => fst (fst o) = fd) [(fd, O_REUSEADDR, VInt 1)]) by (constructor; [reflexivity|constructor]).
  unfold set, own in *. clear set own. unfold uecho_socket_setreuseaddress, uecho_socket_setmulticastloop, sys_setopt in H. cbn [k_id] in H.
  destruct (so_reuse opt), (an_reuse a), (so_loop opt), (an_ttl a); cbn [negb andb orb app] in *;
  repeat match goal with
  | H : context [uecho_socket_close ?wx (mkSock fd "" (-1))] |- _ =>
      first [ destruct (CL wx [] S1 S2 (Forall_nil _)) as (C1 & C2 & C3 & C4)
            | destruct (CL wx [(fd, O_REUSEADDR, VInt 1)] S1 (f_equal (cons (fd, O_REUSEADDR, VInt 1)) S2) R1) as (C1 & C2 & C3 & C4) ];
      rewrite C1 in H; injection H as <- <- <-; cbn [k_id]
  end;
  try (cbn [with_opts w_infos w_users] in C3, C4);
  try (destruct (an_bind a); cbn [negb] in H; injection H as <- <- <-; cbn [freeaddrinfo with_infos with_opts w_fds w_opts w_infos w_users k_id]);
  first [ solve [split; [lia|]; split; [lia|]; split; [reflexivity|]; split; [lia|exact C2]]
        | rewrite ?S1, ?S2; repeat split; try assumption; try lia; try discriminate; try reflexivity ].
Qed.

Lemma join_spec : forall a w k g i, let r := uecho_socket_joingroup a w k g i in
  w_fds (fst r) = w_fds w /\ w_infos (fst r) = w_infos w /\ w_users (fst r) = w_users w
  /\ (exists own, w_opts (fst r) = own ++ w_opts w /\ Forall (fun o => fst (fst o) = k_id k) own)
  /\ (snd r = true -> w_opts (fst r) = [(k_id k, O_ADD_MEMBERSHIP, VMember g i); (k_id k, O_MULTICAST_IF, VIf i)] ++ w_opts w).
Proof.
  intros a w k g i. unfold uecho_socket_joingroup. destruct (an_minfo a); cbn [negb fst snd].
  2:{ repeat split; try discriminate. exists []. split; [reflexivity|constructor]. }
  destruct (an_iinfo a); cbn [negb fst snd].
  2:{ cbn. repeat split; try discriminate; try lia. exists []. split; [reflexivity|constructor]. }
  destruct (an_if a), (an_join a); cbn; (split; [reflexivity|]); (split; [lia|]); (split; [reflexivity|]); (split; [|intros; try discriminate; reflexivity]).
  - exists [(k_id k, O_ADD_MEMBERSHIP, VMember g i); (k_id k, O_MULTICAST_IF, VIf i)]. split; [reflexivity|]. constructor; [reflexivity|]. constructor; [reflexivity|constructor].
  - exists [(k_id k, O_MULTICAST_IF, VIf i)]. split; [reflexivity|]. constructor; [reflexivity|constructor].
  - exists [(k_id k, O_ADD_MEMBERSHIP, VMember g i)]. split; [reflexivity|]. constructor; [reflexivity|constructor].
  - exists []. split; [reflexivity|constructor].
Qed.

(* the state of a server relative to the world before it *)
Definition kinv (w0 : world) (x : world * option sock) : Prop :=
  match snd x with
  | None => clean w0 (fst x)
  | Some k => 0 < k_id k /\ ~ In (k_id k) (w_fds w0) /\ held w0 (fst x) (k_id k)
  end.
Lemma close_inv : forall w0 x y, opts_open w0 -> kinv w0 x -> server_close (fst x) (snd x) = Ok y ->
  snd y = None /\ clean w0 (fst y) /\ w_infos (fst y) = w_infos (fst x)
  /\ w_users (fst y) = w_users (fst x) - (match snd x with None => 0 | Some _ => 1 end).
Proof.
  intros w0 [w [k|]] y O I H; cbn [fst snd] in *.
  - destruct I as (P & N & Hd). cbn [fst snd] in *. destruct k as [id ad po]. cbn [k_id] in *. exact (close_held w0 w id ad po O N P Hd y H).
  - injection H as <-. cbn [fst snd]. split; [reflexivity|]. split; [exact I|]. split; [reflexivity|lia].
Qed.
Lemma clean_open : forall w0 w, opts_open w0 -> clean w0 w -> opts_open w.
Proof. intros w0 w O [A B]. unfold opts_open. rewrite A, B. exact O. Qed.
Lemma new_spec : forall w x, uecho_socket_new w = Ok x -> snd x = mkSock (-1) "" (-1) /\ fst x = with_users (w_users w + 1) w.
Proof. intros w x H. unfold uecho_socket_new in H. apply bind_ok in H. destruct H as (w1 & H & E). injection E as <-. apply startup_ok in H. subst. split; reflexivity. Qed.

(* opening *)
Definition kopen (multicast : bool) := if multicast then uecho_mcast_server_open else uecho_udp_server_open.
Definition last_ok (multicast : bool) (a : answers) : bool :=
  negb multicast || (an_minfo a && an_iinfo a && an_if a && an_join a).
Definition opens (multicast : bool) (a : answers) : bool :=
  an_info a && (negb multicast || an_info2 a) && negb (an_socket a =? -1) && an_reuse a && (negb multicast || an_ttl a) && an_bind a && last_ok multicast a.
Lemma join_ok : forall a w k g i, snd (uecho_socket_joingroup a w k g i) = an_minfo a && an_iinfo a && an_if a && an_join a.
Proof. intros. unfold uecho_socket_joingroup. destruct (an_minfo a), (an_iinfo a); reflexivity. Qed.
Lemma open_spec : forall multicast w0 x a addr w' s' ok, opts_open w0 -> kinv w0 x -> fd_ok (fst x) (an_socket a) -> an_socket a <> 0 ->
  kopen multicast a (fst x) (snd x) addr = Ok (w', s', ok) ->
  ok = opens multicast a
  /\ w_infos w' = w_infos (fst x) + (if loses multicast (KOpen addr a) then 1 else 0)
  /\ kinv w0 (w', s')
  /\ w_users w' = w_users (fst x) + 1 - (match snd x with None => 0 | Some _ => 1 end) + (if ok then 1 else 0)
  /\ (if ok then s' = Some (mkSock (an_socket a) addr UDP_PORT) /\ w_opts w' = own_of multicast (an_socket a) addr ++ w_opts w0 else s' = None).
Proof.
  intros multicast w0 x a addr w' s' ok O I F NZ H.
  assert (X : exists y, server_close (fst x) (snd x) = Ok y).
  { destruct (server_close (fst x) (snd x)) as [y|u] eqn:E; [eauto|]. exfalso. destruct multicast; unfold kopen, uecho_mcast_server_open, uecho_udp_server_open in H; rewrite E in H; discriminate. }
  destruct X as ([w1 s1] & E1). destruct (close_inv w0 x _ O I E1) as (_ & C1 & I1 & U1). cbn [fst snd] in *.
  assert (Y : exists y, uecho_socket_new w1 = Ok y).
  { destruct (uecho_socket_new w1) as [y|u] eqn:E; [eauto|]. exfalso. destruct multicast; unfold kopen, uecho_mcast_server_open, uecho_udp_server_open in H; rewrite E1 in H; cbn [bind] in H; rewrite E in H; discriminate. }
  destruct Y as ([w2 k2] & E2). destruct (new_spec _ _ E2) as [N1 N2]. cbn [fst snd] in N1, N2. subst k2.
  assert (O2 : opts_open w2) by (subst w2; apply (clean_open w0 w1 O C1)).
  assert (F2 : fd_ok w2 (an_socket a)).
  { subst w2. destruct F as [F|[F1 F2]]; [left; exact F|right; split; [exact F1|]]. cbn [with_users w_fds]. destruct C1 as [-> _].
    intros J. apply F2. destruct x as [wx [k|]]; cbn [fst snd] in *.
    - destruct I as (_ & _ & A & _). cbn [fst] in A. rewrite A. right. exact J.
    - destruct I as [A _]. cbn [fst] in A. rewrite A. exact J. }
  set (opt := if multicast then mkOpt true false true else mkOpt true true false).
  assert (B : exists y, uecho_socket_bind a w2 (mkSock (-1) "" (-1)) UDP_PORT addr opt = Ok y).
  { destruct (uecho_socket_bind a w2 (mkSock (-1) "" (-1)) UDP_PORT addr opt) as [y|u] eqn:E; [eauto|]. exfalso.
    destruct multicast; unfold kopen, uecho_mcast_server_open, uecho_udp_server_open in H; rewrite E1 in H; cbn [bind] in H; rewrite E2 in H; cbn [bind] in H; subst opt; rewrite E in H; discriminate. }
  destruct B as ([[w3 k3] ok3] & E3). pose proof (bind_spec a w2 UDP_PORT addr opt w3 k3 ok3 eq_refl NZ F2 O2 E3) as BS. cbv zeta in BS.
  destruct BS as (BU & BI & BO & BC).
  assert (W2 : w_infos w2 = w_infos (fst x) /\ w_users w2 = w_users w1 + 1 /\ clean w0 w2) by (subst w2; cbn; repeat split; try assumption; apply C1).
  destruct W2 as (W2i & W2u & W2c).
  assert (H' : (if negb ok3 then do y <- server_close w3 (Some k3) ;; Ok (fst y, snd y, false)
                else if multicast then let '(w, ok) := uecho_socket_joingroup a w3 k3 GROUP addr in
                                       if negb ok then do y <- server_close w (Some k3) ;; Ok (fst y, snd y, false) else Ok (w, Some k3, true)
                     else Ok (w3, Some k3, true)) = Ok (w', s', ok)).
  { destruct multicast; unfold kopen, uecho_mcast_server_open, uecho_udp_server_open in H; rewrite E1 in H; cbn [bind] in H; rewrite E2 in H; cbn [bind] in H; subst opt; rewrite E3 in H; exact H. }
  clear H E1 E2 E3.
  assert (LO : loses multicast (KOpen addr a) = an_info a && (so_bind opt || an_info2 a) && ((an_socket a =? -1) || negb ((negb (so_reuse opt) || an_reuse a) && (negb (so_loop opt) || an_ttl a)))).
  { subst opt. unfold loses. destruct multicast; cbn [so_bind so_reuse so_loop negb orb andb]; destruct (an_info a), (an_info2 a), (an_socket a =? -1), (an_reuse a), (an_ttl a); reflexivity. }
  rewrite LO. rewrite <- W2i. rewrite <- BI.
  assert (SO : (an_info a && (so_bind opt || an_info2 a)) && negb (an_socket a =? -1) && ((negb (so_reuse opt) || an_reuse a) && (negb (so_loop opt) || an_ttl a))
     = an_info a && (negb multicast || an_info2 a) && negb (an_socket a =? -1) && an_reuse a && (negb multicast || an_ttl a)).
  { subst opt. destruct multicast; cbn [so_bind so_reuse so_loop negb orb andb]; destruct (an_info a), (an_info2 a), (an_socket a =? -1), (an_reuse a), (an_ttl a); reflexivity. }
  rewrite SO in BO, BC. unfold opens.
  destruct (an_info a && (negb multicast || an_info2 a) && negb (an_socket a =? -1) && an_reuse a && (negb multicast || an_ttl a)) eqn:Q.
  2:{ rewrite !andb_false_l in *. subst ok3. cbn [negb] in H'. apply bind_ok in H'. destruct H' as (y & Hy & E). injection E as <- <- <-.
      destruct BC as [K3 C3]. destruct k3 as [id ad po]. cbn [k_id] in K3. destruct (close_fresh w3 id ad po K3 y Hy) as (Y1 & Y2 & Y3 & Y4). split; [reflexivity|]. split; [exact Y3|].
      split; [|split; [lia|exact Y1]]. unfold kinv. rewrite Y1. cbn [fst snd]. unfold clean in *. split; [rewrite (proj1 Y2), (proj1 C3); apply W2c|rewrite (proj2 Y2), (proj2 C3); apply W2c]. }
  rewrite andb_true_l in BO. destruct BC as (Pos & NI & Ek & Ef & Eo & K).
  assert (OW : Forall (fun o : Z * optname * optval => fst (fst o) = an_socket a)
     ((if so_loop opt then [(an_socket a, O_MULTICAST_TTL, VInt 1)] else []) ++ (if so_reuse opt then [(an_socket a, O_REUSEADDR, VInt 1)] else []))).
  { apply Forall_app. split; [destruct (so_loop opt)|destruct (so_reuse opt)]; repeat constructor. }
  assert (HD : held w2 w3 (an_socket a)) by (split; [exact Ef|]; eexists; split; [exact Eo|exact OW]).
  assert (CLOSE : forall wx y, held w2 wx (an_socket a) -> server_close wx (Some k3) = Ok y ->
     snd y = None /\ clean w0 (fst y) /\ w_infos (fst y) = w_infos wx /\ w_users (fst y) = w_users wx - 1).
  { intros wx y Hx Hy. destruct k3 as [id ad po]. cbn [k_id] in Ek. subst id. destruct (close_held w2 wx (an_socket a) ad po O2 NI Pos Hx y Hy) as (Y1 & Y2 & Y3 & Y4).
    split; [exact Y1|]. split; [|split; assumption]. unfold clean in *. split; [rewrite (proj1 Y2); apply W2c|rewrite (proj2 Y2); apply W2c]. }
  destruct (an_bind a).
  2:{ subst ok3. cbn [negb] in H'. apply bind_ok in H'. destruct H' as (y & Hy & E). injection E as <- <- <-. destruct (CLOSE w3 y HD Hy) as (Y1 & Y2 & Y3 & Y4).
      split; [reflexivity|]. split; [exact Y3|]. split; [unfold kinv; rewrite Y1; exact Y2|]. split; [lia|exact Y1]. }
  subst ok3. cbn [negb andb] in *. rewrite (K eq_refl) in *. clear K Ek.
  assert (GOOD : forall wx own, w_fds wx = w_fds w3 -> w_opts wx = own ++ w_opts w3 -> Forall (fun o => fst (fst o) = an_socket a) own -> held w2 wx (an_socket a)).
  { intros wx own A B C. split; [rewrite A; exact Ef|]. rewrite Eo in B. rewrite app_assoc in B. eexists. split; [exact B|]. apply Forall_app. split; [exact C|exact OW]. }
  assert (BASE : forall wx, held w2 wx (an_socket a) -> held w0 wx (an_socket a)).
  { intros wx (A & own & B & C). destruct W2c as [Wa Wb]. split; [rewrite A, Wa; reflexivity|]. exists own. rewrite B, Wb. auto. }
  assert (NI0 : ~ In (an_socket a) (w_fds w0)) by (rewrite <- (proj1 W2c); exact NI).
  destruct multicast; subst opt; cbn [so_loop so_reuse negb orb] in *.
  - pose proof (join_spec a w3 (mkSock (an_socket a) addr UDP_PORT) GROUP addr) as J. pose proof (join_ok a w3 (mkSock (an_socket a) addr UDP_PORT) GROUP addr) as JO.
    unfold last_ok. cbn [negb orb]. rewrite <- JO. clear JO.
    destruct (uecho_socket_joingroup a w3 (mkSock (an_socket a) addr UDP_PORT) GROUP addr) as [w4 ok4]. cbn [fst snd k_id] in *. destruct J as (J1 & J2 & J3 & (own & J4 & J5) & J6).
    destruct ok4; cbn [negb] in H'.
    + injection H' as <- <- <-. split; [reflexivity|]. split; [exact J2|]. split; [|split; [lia|]].
      * unfold kinv. cbn [fst snd k_id]. split; [exact Pos|]. split; [exact NI0|]. apply BASE. exact (GOOD w4 own J1 J4 J5).
      * split; [reflexivity|]. rewrite (J6 eq_refl), Eo, (proj2 W2c). reflexivity.
    + apply bind_ok in H'. destruct H' as (y & Hy & E). injection E as <- <- <-.
      destruct (CLOSE w4 y (GOOD w4 own J1 J4 J5) Hy) as (Y1 & Y2 & Y3 & Y4). split; [reflexivity|]. split; [lia|]. split; [unfold kinv; rewrite Y1; exact Y2|]. split; [lia|exact Y1].
  - injection H' as <- <- <-. split; [reflexivity|]. split; [reflexivity|]. split; [|split; [lia|]].
    + unfold kinv. cbn [fst snd k_id]. split; [exact Pos|]. split; [exact NI0|]. apply BASE. exact HD.
    + split; [reflexivity|]. rewrite Eo, (proj2 W2c). reflexivity.
Qed.

(* sending through an open server *)
Lemma post_spec : forall w0 a w k addr data w' s' ok ds, kinv w0 (w, Some k) -> server_post a w (Some k) addr data = Ok (w', s', ok, ds) ->
  s' = Some k /\ kinv w0 (w', Some k) /\ w_infos w' = w_infos w /\ w_users w' = w_users w + 1 /\ w_fds w' = w_fds w
  /\ w_opts w' = (if an_info a && an_ttl a then [(k_id k, O_MULTICAST_TTL, VInt DEFAULT_TTL)] else []) ++ w_opts w
  /\ ds = (if an_info a then [mkDgram (k_id k) addr data] else [])
  /\ ok = (sz (if an_info a then an_sent a else -1) =? len data).
Proof.
  intros w0 a w k addr data w' s' ok ds (P & N & Hd) H. cbn [fst snd] in *. unfold server_post in H. apply bind_ok in H. destruct H as ([[[w1 k1] n] d1] & H & E).
  injection E as <- <- <- <-. unfold uecho_socket_sendto in H. apply bind_ok in H. destruct H as ([w2 ok2] & HL & H). apply lookup_ok in HL.
  destruct HL as (-> & Lf & Lo & Li & Lu). rewrite orb_true_l, andb_true_r in *. destruct (an_info a); cbn [negb andb] in *.
  2:{ injection H as <- <- <- <-. split; [reflexivity|]. split.
      - unfold kinv. cbn [fst snd]. split; [exact P|]. split; [exact N|]. destruct Hd as (A & own & B & C). split; [rewrite Lf; exact A|]. exists own. rewrite Lo. auto.
      - cbn [app]. repeat split; try assumption; lia. }
  unfold uecho_socket_isbound in H. replace (0 <? k_id k) with true in H by lia. unfold uecho_socket_setmulticastttl in H.
  replace (0 <=? k_id k) with true in H by lia. injection H as <- <- <- <-. split; [reflexivity|].
  assert (FD : forall b o v wx, w_fds (sys_setopt b (k_id k) o v wx) = w_fds wx /\ w_infos (sys_setopt b (k_id k) o v wx) = w_infos wx /\ w_users (sys_setopt b (k_id k) o v wx) = w_users wx
     /\ w_opts (sys_setopt b (k_id k) o v wx) = (if b then [(k_id k, o, v)] else []) ++ w_opts wx) by (intros [] o v wx; cbn; auto).
  destruct (FD (an_ttl a) O_MULTICAST_TTL (VInt DEFAULT_TTL) w2) as (A1 & A2 & A3 & A4). cbn [freeaddrinfo with_infos w_fds w_infos w_users w_opts].
  rewrite A1, A2, A3, A4, Lf, Lo, Li, Lu. split.
  - unfold kinv. cbn [fst snd]. split; [exact P|]. split; [exact N|]. destruct Hd as (A & own & B & C). split; [cbn [freeaddrinfo with_infos w_fds]; rewrite A1, Lf; exact A|].
    exists ((if an_ttl a then [(k_id k, O_MULTICAST_TTL, VInt DEFAULT_TTL)] else []) ++ own). cbn [freeaddrinfo with_infos w_opts]. rewrite A4, Lo, B. split; [rewrite app_assoc; reflexivity|].
    apply Forall_app. split; [destruct (an_ttl a); repeat constructor|exact C].
  - repeat split. lia.
Qed.

Lemma step_spec : forall multicast w0 x op y, opts_open w0 -> kinv w0 x -> (forall a, op_answers op = Some a -> fd_ok (fst x) (an_socket a)) -> not_zero op ->
  kstep multicast x op = Ok y -> kinv w0 y /\ w_infos (fst y) = w_infos (fst x) + (if loses multicast op then 1 else 0).
Proof.
  intros multicast w0 [w s] op y O I F NZ H. unfold kstep in H. destruct op as [addr a| |addr data a].
  - apply bind_ok in H. destruct H as ([[w' s'] ok] & H & E). injection E as <-.
    destruct (open_spec multicast w0 (w, s) a addr w' s' ok O I (F a eq_refl) (NZ a eq_refl) H) as (_ & A & B & _). auto.
  - destruct (close_inv w0 (w, s) y O I H) as (A & B & C & _). cbn [loses fst] in *. split; [|lia]. unfold kinv. rewrite A. exact B.
  - apply bind_ok in H. destruct H as ([[[w' s'] ok] ds] & H & E). injection E as <-. cbn [loses fst]. destruct s as [k|].
    + destruct (post_spec w0 a w k addr data w' s' ok ds I H) as (-> & A & B & _). split; [exact A|lia].
    + injection H as <- <- _ _. split; [exact I|lia].
Qed.
Lemma run_spec : forall multicast w0 ops x y, opts_open w0 -> kinv w0 x -> fresh multicast x ops -> Forall not_zero ops -> krun multicast x ops = Ok y ->
  kinv w0 y /\ w_infos (fst y) = w_infos (fst x) + lost multicast ops.
Proof.
  intros multicast w0 ops. induction ops as [|op ops IH]; intros x y O I F NZ H.
  - injection H as <-. split; [exact I|]. unfold lost. cbn. lia.
  - inversion F as [|x' op' z r FD SZ FR]; subst. inversion NZ as [|? ? N1 N2]; subst. cbn [krun] in H. rewrite SZ in H. cbn [bind] in H.
    destruct (step_spec multicast w0 x op z O I FD N1 SZ) as [I1 E1]. destruct (IH z y O I1 FR N2 H) as [I2 E2]. split; [exact I2|].
    rewrite E2, E1. unfold lost. cbn [filter]. destruct (loses multicast op); [rewrite len_cons; lia|lia].
Qed.

(* ---- streams ---- *)
Lemma write_spec : forall send, (forall k n, 0 < n -> send k n <= n) -> forall fuel k left done retry, left <> [] -> len done + len left <= SIZE_MOD - 1 -> 0 <= retry <= 10 ->
  (11 * length left <= fuel + Z.to_nat retry)%nat ->
  exists n acc, write_loop send fuel k left done retry = Ok (n, done ++ acc) /\ (exists rest, left = acc ++ rest)
  /\ (n = 0 \/ (acc = left /\ n = len (done ++ left))).
Proof.
  intros send C. induction fuel as [|f IH]; intros k left done retry NE L R FU.
  { exfalso. destruct left; [congruence|]. cbn [length] in FU. lia. }
  cbn [write_loop]. destruct (Z.leb_spec (send k (len left)) 0) as [Sn|Sn].
  - unfold SEND_RETRY_CNT. destruct (Z.ltb_spec 10 (retry + 1)).
    + exists 0, []. rewrite app_nil_r. split; [reflexivity|]. split; [exists left; reflexivity|left; reflexivity].
    + apply IH; try assumption; lia.
  - assert (LP0 : 0 < len left) by (destruct left; [congruence|rewrite len_cons; pose proof (len_nonneg _ left); lia]). specialize (C k (len left) LP0). set (m := Z.to_nat (send k (len left))) in *. assert (Hm : (1 <= m <= length left)%nat) by (unfold m, len in *; lia).
    assert (Eq : left = firstn m left ++ skipn m left) by (symmetry; apply firstn_skipn).
    assert (Lf : len (firstn m left) = Z.of_nat m) by (unfold len; rewrite firstn_length; lia).
    assert (Ls : length (skipn m left) = (length left - m)%nat) by apply skipn_length.
    destruct (Z.ltb_spec 0 (len (skipn m left))) as [K|K].
    + destruct (IH (S k) (skipn m left) (done ++ firstn m left) 0) as (n & acc & E & (rest & P) & Q).
      * intros X. rewrite X in K. unfold len in K. cbn in K. lia.
      * rewrite len_app. pose proof (len_app _ (firstn m left) (skipn m left)) as X. rewrite <- Eq in X. lia.
      * lia.
      * lia.
      * exists n, (firstn m left ++ acc). rewrite app_assoc. split; [exact E|]. split.
        { exists rest. rewrite <- app_assoc, <- P. exact Eq. }
        destruct Q as [Q|[Q1 Q2]]; [left; exact Q|right]. split; [rewrite Q1; symmetry; exact Eq|].
        rewrite Q2, <- app_assoc, <- Eq. reflexivity.
    + assert (X : skipn m left = []). { apply len_0_nil. pose proof (len_nonneg _ (skipn m left)). lia. }
      rewrite X, app_nil_r in Eq. exists (sz (len (done ++ firstn m left))), (firstn m left). split; [reflexivity|]. rewrite <- Eq. split.
      * exists []. rewrite app_nil_r. reflexivity.
      * right. split; [reflexivity|]. apply sz_small. rewrite len_app. pose proof (len_nonneg _ done). pose proof (len_nonneg _ left). lia.
Qed.

Lemma after_lf_spec : forall l r, ~ In LF l -> after_lf (l ++ LF :: r) = r.
Proof.
  intros l r N. induction l as [|c l IH]; cbn [app after_lf]; [rewrite Z.eqb_refl; reflexivity|].
  destruct (Z.eqb_spec c LF); [subst; destruct N; left; reflexivity|]. apply IH. intros I. apply N. right. exact I.
Qed.
Lemma after_lf_none : forall l, ~ In LF l -> after_lf l = [].
Proof.
  intros l N. induction l as [|c l IH]; [reflexivity|]. cbn [after_lf]. destruct (Z.eqb_spec c LF); [subst; destruct N; left; reflexivity|].
  apply IH. intros I. apply N. right. exact I.
Qed.
(* a line that fits, one that does not, and the end of the stream *)
Lemma readline_fits : forall l r done slack limit, ~ In LF l -> len done + len l + 1 <= limit -> len l + 1 <= len slack ->
  exists s', readline_loop (l ++ LF :: r) (map Some done ++ slack) (len done) limit = Ok (Some (map Some (done ++ l ++ [LF]) ++ s', len done + len l + 1, r))
  /\ len s' = len slack - len l - 1.
Proof.
  induction l as [|c l IH]; intros r done slack limit N B C.
  - destruct slack as [|x slack]; [rewrite !len_nil in C; lia|]. cbn [app readline_loop]. replace (len done <? limit) with true by (rewrite len_nil in *; lia).
    rewrite wr_app_cons by (rewrite len_map; reflexivity). cbn [bind]. rewrite Z.eqb_refl. exists slack. split.
    + rewrite len_nil, Z.add_0_r, map_app. cbn [map app]. rewrite <- app_assoc. reflexivity.
    + rewrite len_cons, len_nil. lia.
  - rewrite len_cons in *. pose proof (len_nonneg _ l). destruct slack as [|x slack]; [rewrite len_nil in C; lia|].
    cbn [app readline_loop]. replace (len done <? limit) with true by lia.
    rewrite wr_app_cons by (rewrite len_map; reflexivity). cbn [bind]. destruct (Z.eqb_spec c LF); [subst; destruct N; left; reflexivity|].
    destruct (IH r (done ++ [c]) slack limit) as (s' & E & L').
    + intros I. apply N. right. exact I.
    + rewrite len_app, len_cons, len_nil. lia.
    + rewrite len_cons in C. lia.
    + exists s'. rewrite map_app in E. cbn [map] in E. rewrite <- app_assoc in E. cbn [app] in E. rewrite len_app, len_cons, len_nil in E.
      replace (len done + (1 + 0)) with (len done + 1) in E by lia. rewrite E. split; [|rewrite len_cons; lia]. rewrite <- app_assoc.
      replace (len done + 1 + len l + 1) with (len done + (1 + len l) + 1) by lia. reflexivity.
Qed.
Lemma readline_cut : forall l r done slack limit, ~ In LF l -> len done + len l = limit -> len l <= len slack ->
  exists s', readline_loop (l ++ r) (map Some done ++ slack) (len done) limit = Ok (Some (map Some (done ++ l) ++ s', limit, r)) /\ len s' = len slack - len l.
Proof.
  induction l as [|c l IH]; intros r done slack limit N B C.
  - rewrite len_nil in B. exists slack. rewrite app_nil_r. cbn [app]. split; [|rewrite len_nil; lia].
    replace limit with (len done) by lia. destruct r; cbn [readline_loop]; rewrite Z.ltb_irrefl; reflexivity.
  - rewrite len_cons in *. pose proof (len_nonneg _ l). destruct slack as [|x slack]; [rewrite len_nil in C; lia|].
    cbn [app readline_loop]. replace (len done <? limit) with true by lia.
    rewrite wr_app_cons by (rewrite len_map; reflexivity). cbn [bind]. destruct (Z.eqb_spec c LF); [subst; destruct N; left; reflexivity|].
    destruct (IH r (done ++ [c]) slack limit) as (s' & E & L').
    + intros I. apply N. right. exact I.
    + rewrite len_app, len_cons, len_nil. lia.
    + rewrite len_cons in C. lia.
    + exists s'. rewrite map_app in E. cbn [map] in E. rewrite <- app_assoc in E. cbn [app] in E. rewrite len_app, len_cons, len_nil in E.
      replace (len done + (1 + 0)) with (len done + 1) in E by lia. rewrite E. split; [|rewrite len_cons; lia]. rewrite <- app_assoc. reflexivity.
Qed.
Lemma readline_end : forall l done slack limit, ~ In LF l -> len done + len l < limit -> len l <= len slack ->
  readline_loop l (map Some done ++ slack) (len done) limit = Ok None.
Proof.
  induction l as [|c l IH]; intros done slack limit N B C.
  - rewrite len_nil in B. cbn [readline_loop]. replace (len done <? limit) with true by lia. reflexivity.
  - rewrite len_cons in *. pose proof (len_nonneg _ l). destruct slack as [|x slack]; [rewrite len_nil in C; lia|].
    cbn [readline_loop]. replace (len done <? limit) with true by lia.
    rewrite wr_app_cons by (rewrite len_map; reflexivity). cbn [bind]. destruct (Z.eqb_spec c LF); [subst; destruct N; left; reflexivity|].
    specialize (IH (done ++ [c]) slack limit). rewrite map_app in IH. cbn [map] in IH. rewrite <- app_assoc in IH. cbn [app] in IH. rewrite len_app, len_cons, len_nil in IH.
    replace (len done + (1 + 0)) with (len done + 1) in IH by lia. rewrite len_cons in C. apply IH; [intros I; apply N; right; exact I|lia|lia].
Qed.
(* giving up means that eleven calls in a row have failed *)
Lemma write_gives_up : forall send, (forall k n, 0 < n -> send k n <= n) -> forall fuel k left done retry acc, left <> [] -> len done + len left <= SIZE_MOD - 1 -> 0 <= retry <= Z.of_nat k -> retry <= 10 ->
  (forall j, (k - Z.to_nat retry <= j < k)%nat -> send j (len left) <= 0) ->
  write_loop send fuel k left done retry = Ok (0, acc) -> exists k0 n, 0 < n /\ forall j, (k0 <= j < k0 + 11)%nat -> send j n <= 0.
Proof.
  intros send C. induction fuel as [|f IH]; intros k left done retry acc NE L R R10 P H; [discriminate H|].
  assert (LP : 0 < len left) by (destruct left; [congruence|rewrite len_cons; pose proof (len_nonneg _ left); lia]).
  cbn [write_loop] in H. destruct (Z.leb_spec (send k (len left)) 0) as [Sn|Sn].
  - unfold SEND_RETRY_CNT in H. destruct (Z.ltb_spec 10 (retry + 1)).
    + exists (k - 10)%nat, (len left). split; [exact LP|]. intros j J. destruct (Nat.eq_dec j k) as [->|]; [exact Sn|]. apply P. lia.
    + apply IH in H; [exact H|exact NE|exact L|lia|lia|]. intros j J. destruct (Nat.eq_dec j k) as [->|]; [exact Sn|]. apply P. lia.
  - assert (LP0 : 0 < len left) by (destruct left; [congruence|rewrite len_cons; pose proof (len_nonneg _ left); lia]). specialize (C k (len left) LP0). set (m := Z.to_nat (send k (len left))) in *. assert (Hm : (1 <= m <= length left)%nat) by (unfold m, len in *; lia).
    assert (Lf : len (firstn m left) = Z.of_nat m) by (unfold len; rewrite firstn_length; lia).
    assert (Ls : len (skipn m left) = len left - Z.of_nat m) by (unfold len; rewrite skipn_length; lia).
    destruct (Z.ltb_spec 0 (len (skipn m left))) as [K|K].
    + apply IH in H; [exact H| |rewrite len_app; lia|lia|lia|intros j J; lia]. intros X. rewrite X in K. unfold len in K. cbn in K. lia.
    + exfalso. injection H as E _. rewrite sz_small in E; rewrite len_app in *; pose proof (len_nonneg _ done); lia.
Qed.
