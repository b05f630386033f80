(* C67: the system resources of a server.  C68: streams. *)
From Coq Require Import String ZArith Lia List Bool.
From Coq Require Import ZifyBool ZifyNat.
From Verif Require Import CSem P_Base M_Socket Spec_Socket P_Socket.
Import ListNotations.
Open Scope Z_scope.
Ltac Zify.zify_post_hook ::= Z.div_mod_to_equations.

(* ---------- C67: resources ---------- *)

(* The full property: after every history of a server that ends with closing it, every descriptor and every
   address record the server obtained has been given back.  Proved for descriptors, and for their options, as long
   as the system does not use the descriptor 0; the server holds at most one descriptor at any time. *)
Theorem C67_descriptors_partial : forall multicast w0 ops w s, opts_open w0 -> fresh multicast (w0, None) ops -> Forall not_zero ops ->
  krun multicast (w0, None) ops = Ok (w, s) ->
  match s with
  | None => w_fds w = w_fds w0 /\ w_opts w = w_opts w0
  | Some k => w_fds w = k_id k :: w_fds w0 /\ ~ In (k_id k) (w_fds w0)
      /\ forall w' s', server_close w s = Ok (w', s') -> s' = None /\ w_fds w' = w_fds w0 /\ w_opts w' = w_opts w0
  end.
Proof.
  intros multicast w0 ops w s O F NZ H.
  assert (I0 : kinv w0 (w0, None)) by (split; reflexivity). destruct (run_spec multicast w0 ops (w0, None) (w, s) O I0 F NZ H) as [I _].
  destruct s as [k|]; [|exact I]. assert (I' := I). destruct I as (P & N & A & _). cbn [fst snd] in *. split; [exact A|]. split; [exact N|]. intros w' s' C.
  destruct (close_inv w0 (w, Some k) (w', s') O I' C) as (X & Y & _). cbn [fst snd] in *. split; [exact X|exact Y].
Qed.
Print Assumptions C67_descriptors_partial.

(* address records: exactly one is lost for each open that fails between looking the address up and binding;
   none otherwise *)
Theorem C67_infos_partial : forall multicast w0 ops w s, opts_open w0 -> fresh multicast (w0, None) ops -> Forall not_zero ops ->
  krun multicast (w0, None) ops = Ok (w, s) -> w_infos w = w_infos w0 + lost multicast ops.
Proof.
  intros multicast w0 ops w s O F NZ H. assert (I0 : kinv w0 (w0, None)) by (split; reflexivity).
  exact (proj2 (run_spec multicast w0 ops (w0, None) (w, s) O I0 F NZ H)).
Qed.
Print Assumptions C67_infos_partial.

(* opening succeeds exactly if every call of the system does, and leaves the server closed otherwise *)
Theorem C67_open : forall multicast w0 ops w s a addr w' s' ok, opts_open w0 -> fresh multicast (w0, None) ops -> Forall not_zero ops ->
  krun multicast (w0, None) ops = Ok (w, s) -> fd_ok w (an_socket a) -> an_socket a <> 0 ->
  (if multicast then uecho_mcast_server_open else uecho_udp_server_open) a w s addr = Ok (w', s', ok) ->
  (ok = true <-> an_info a = true /\ an_socket a <> -1 /\ an_reuse a = true /\ an_bind a = true
     /\ (multicast = true -> an_info2 a = true /\ an_ttl a = true /\ an_minfo a = true /\ an_iinfo a = true /\ an_if a = true /\ an_join a = true))
  /\ (ok = false -> s' = None /\ w_fds w' = w_fds w0)
  /\ (ok = true -> exists k, s' = Some k /\ k_addr k = addr /\ k_port k = 3610 /\ w_fds w' = k_id k :: w_fds w0).
Proof.
  intros multicast w0 ops w s a addr w' s' ok O F NZ H FD N0 OP. assert (I0 : kinv w0 (w0, None)) by (split; reflexivity).
  destruct (run_spec multicast w0 ops (w0, None) (w, s) O I0 F NZ H) as [I _].
  destruct (open_spec multicast w0 (w, s) a addr w' s' ok O I FD N0 OP) as (E & _ & I2 & _ & X). split; [|split].
  - rewrite E. unfold opens, last_ok. rewrite !andb_true_iff, negb_true_iff, Z.eqb_neq. destruct multicast; cbn [negb orb]; rewrite ?andb_true_iff; split; intros; intuition congruence.
  - intros ->. rewrite X in *. split; [reflexivity|]. apply I2.
  - intros ->. destruct X as [-> _]. eexists. split; [reflexivity|]. cbn [k_addr k_port k_id]. split; [reflexivity|]. split; [reflexivity|]. destruct I2 as (_ & _ & A & _). exact A.
Qed.
Print Assumptions C67_open.

(* the options of a server just opened: the address may be reused, and a multicast server has joined the group on
   its own interface and sends through it.  The full property, that the multicast loop of a multicast server is
   switched on as asked for, is refuted below *)
Theorem C67_options_partial : forall multicast w0 ops w s a addr w' k, opts_open w0 -> fresh multicast (w0, None) ops -> Forall not_zero ops ->
  krun multicast (w0, None) ops = Ok (w, s) -> fd_ok w (an_socket a) -> an_socket a <> 0 ->
  (if multicast then uecho_mcast_server_open else uecho_udp_server_open) a w s addr = Ok (w', Some k, true) ->
  option_is w' (k_id k) O_REUSEADDR (VInt 1)
  /\ (multicast = true -> option_is w' (k_id k) O_ADD_MEMBERSHIP (VMember "224.0.23.0" addr) /\ option_is w' (k_id k) O_MULTICAST_IF (VIf addr))
  /\ (multicast = false -> forall v, ~ In (k_id k, O_ADD_MEMBERSHIP, v) (w_opts w')).
Proof.
  intros multicast w0 ops w s a addr w' k O F NZ H FD N0 OP. assert (I0 : kinv w0 (w0, None)) by (split; reflexivity).
  destruct (run_spec multicast w0 ops (w0, None) (w, s) O I0 F NZ H) as [I _].
  destruct (open_spec multicast w0 (w, s) a addr w' (Some k) true O I FD N0 OP) as (E & _ & I2 & _ & X & Y). injection X as ->. cbn [k_id] in *.
  destruct I2 as (P & NI & _). cbn [k_id snd] in *.
  destruct multicast; cbn [own_of app] in Y.
  - split; [|split; [|discriminate]].
    + exists [(an_socket a, O_ADD_MEMBERSHIP, VMember GROUP addr); (an_socket a, O_MULTICAST_IF, VIf addr); (an_socket a, O_MULTICAST_TTL, VInt 1)], (w_opts w0).
      split; [exact Y|]. intros v' [C|[C|[C|[]]]]; discriminate C.
    + intros _. split.
      * exists [], ([(an_socket a, O_MULTICAST_IF, VIf addr); (an_socket a, O_MULTICAST_TTL, VInt 1); (an_socket a, O_REUSEADDR, VInt 1)] ++ w_opts w0). split; [exact Y|]. intros v' [].
      * exists [(an_socket a, O_ADD_MEMBERSHIP, VMember GROUP addr)], ([(an_socket a, O_MULTICAST_TTL, VInt 1); (an_socket a, O_REUSEADDR, VInt 1)] ++ w_opts w0).
        split; [exact Y|]. intros v' [C|[]]; discriminate C.
  - split; [|split; [discriminate|]].
    + exists [], (w_opts w0). split; [exact Y|]. intros v' [].
    + intros _ v. rewrite Y. intros [C|C]; [discriminate C|]. apply NI. unfold opts_open in O. rewrite Forall_forall in O. exact (O _ C).
Qed.
Print Assumptions C67_options_partial.

(* sending through an open server hands one datagram to the system, over its own descriptor and to the given address,
   with time to live 4; the result is true exactly if the system took the whole datagram; nothing is used up *)
Theorem C67_post : forall multicast w0 ops w k a addr data w' s' ok ds, opts_open w0 -> fresh multicast (w0, None) ops -> Forall not_zero ops ->
  krun multicast (w0, None) ops = Ok (w, Some k) -> server_post a w (Some k) addr data = Ok (w', s', ok, ds) -> -1 <= an_sent a <= len data -> len data < SIZE_MOD - 1 ->
  s' = Some k /\ w_fds w' = w_fds w /\ w_infos w' = w_infos w
  /\ (an_info a = true -> ds = [mkDgram (k_id k) addr data] /\ (an_ttl a = true -> option_is w' (k_id k) O_MULTICAST_TTL (VInt 4)))
  /\ (an_info a = false -> ds = [])
  /\ (ok = true <-> an_info a = true /\ an_sent a = len data).
Proof.
  intros multicast w0 ops w k a addr data w' s' ok ds O F NZ H PO SE LD. assert (I0 : kinv w0 (w0, None)) by (split; reflexivity).
  destruct (run_spec multicast w0 ops (w0, None) (w, Some k) O I0 F NZ H) as [I _].
  destruct (post_spec w0 a w k addr data w' s' ok ds I PO) as (A & _ & B & _ & C & D & E & G).
  split; [exact A|]. split; [exact C|]. split; [exact B|]. split; [|split].
  - intros X. rewrite X in *. split; [exact E|]. intros Y. rewrite Y in D. cbn [andb app] in D. exists [], (w_opts w). split; [exact D|]. intros v' [].
  - intros X. rewrite X in E. exact E.
  - rewrite G. rewrite Z.eqb_eq. unfold sz. pose proof (len_nonneg _ data). change SIZE_MOD with 18446744073709551616 in *. destruct (an_info a).
    + split; [intros X; split; [reflexivity|]|intros [_ X]]; lia.
    + split; [intros X|intros [X _]; discriminate X]. exfalso. lia.
Qed.
Print Assumptions C67_post.

(* without an open server a socket is made for the datagram and given back.  (The system refuses to set an option of
   a descriptor it has not given.) *)
Theorem C67_alone : forall w a addr data w' ok ds, opts_open w -> fd_ok w (an_socket a) -> an_socket a <> 0 -> (an_socket a = -1 -> an_ttl a = false) -> -1 <= an_sent a <= len data -> len data < SIZE_MOD - 1 ->
  server_post_alone a w addr data = Ok (w', ok, ds) ->
  w_fds w' = w_fds w /\ w_opts w' = w_opts w /\ w_infos w' = w_infos w
  /\ (ok = true <-> an_info a = true /\ an_socket a <> -1 /\ an_sent a = len data)
  /\ ds = (if an_info a && (0 <? an_socket a) then [mkDgram (an_socket a) addr data] else []).
Proof.
  intros w a addr data w' ok ds O FD NZ TT SE LD H. unfold server_post_alone in H. apply bind_ok in H. destruct H as ([w1 k] & NW & H). apply new_spec in NW. cbn [fst snd] in NW. destruct NW as [-> ->].
  apply bind_ok in H. destruct H as ([[[w2 k2] n] d2] & SN & H). apply bind_ok in H. destruct H as (w3 & DE & H). injection H as <- <- <-.
  unfold uecho_socket_sendto in SN. apply bind_ok in SN. destruct SN as ([w4 k4] & LO & SN). apply lookup_ok in LO. destruct LO as (Lk & Lf & Lo & Li & Lu). cbn [orb with_users w_fds w_infos w_opts w_users] in *. rewrite andb_true_r in Lk. subst k4.
  assert (AL : forall wx kx, k_id kx = -1 -> forall wy, uecho_socket_delete wx kx = Ok wy -> w_fds wy = w_fds wx /\ w_opts wy = w_opts wx /\ w_infos wy = w_infos wx).
  { intros wx kx Kx wy Hd. unfold uecho_socket_delete, uecho_socket_close, uecho_socket_isbound in Hd. rewrite Kx in Hd. cbn [Z.ltb Z.compare negb fst] in Hd. unfold uecho_socket_cleanup in Hd.
    apply bind_ok in Hd. destruct Hd as (u & _ & E). injection E as <-. repeat split. }
  assert (LN := len_nonneg _ data). assert (E1 : sz (-1) =? len data = false) by (unfold sz; change SIZE_MOD with 18446744073709551616 in *; lia).
  destruct (an_info a); cbn [negb] in SN.
  2:{ injection SN as <- <- <- <-. destruct (AL w4 (mkSock (-1) "" (-1)) eq_refl w3 DE) as (A & B & C). rewrite A, B, C, Lf, Lo, Li. cbn [andb]. split; [reflexivity|]. split; [reflexivity|]. split; [lia|]. split; [|reflexivity].
      rewrite E1. split; [discriminate|intros [X _]; discriminate X]. }
  unfold uecho_socket_isbound at 1 in SN. cbn [k_id Z.ltb Z.compare] in SN. destruct FD as [FD|[P N]].
  - rewrite (TT FD) in SN. rewrite FD in *. cbn in SN. injection SN as <- <- <- <-. destruct (AL _ (uecho_socket_setid (mkSock (-1) "" (-1)) (-1)) eq_refl w3 DE) as (A & B & C). cbn [freeaddrinfo with_infos w_fds w_opts w_infos] in A, B, C.
    rewrite A, B, C, Lf, Lo, Li. try change 18446744073709551615 with (sz (-1)). rewrite E1. cbn [andb Z.ltb Z.compare]. split; [reflexivity|]. split; [reflexivity|]. split; [lia|]. split; [|reflexivity]. split; [discriminate|intros (_ & X & _); congruence].
  - assert (P' : 0 < an_socket a) by lia. cbn [andb]. replace (0 <? an_socket a) with true by lia. unfold uecho_socket_setmulticastttl in SN. cbn [uecho_socket_setid k_id] in SN. replace (0 <=? an_socket a) with true in SN by lia.
    unfold uecho_socket_close, uecho_socket_isbound in SN. cbn [k_id uecho_socket_setid Z.ltb Z.compare] in SN. replace (0 <? an_socket a) with true in SN by lia. cbn [negb] in SN. injection SN as <- <- <- <-.
    destruct (AL _ (mkSock (-1) "" (-1)) eq_refl w3 DE) as (A & B & C). rewrite A, B, C. unfold sys_socket. replace (an_socket a =? -1) with false by lia.
    assert (F1 : forall v w5, w_fds w5 = an_socket a :: w_fds w -> w_opts w5 = w_opts w -> w_fds (sys_close (an_socket a) (freeaddrinfo (sys_setopt (an_ttl a) (an_socket a) O_MULTICAST_TTL v w5))) = w_fds w
       /\ w_opts (sys_close (an_socket a) (freeaddrinfo (sys_setopt (an_ttl a) (an_socket a) O_MULTICAST_TTL v w5))) = w_opts w
       /\ w_infos (sys_close (an_socket a) (freeaddrinfo (sys_setopt (an_ttl a) (an_socket a) O_MULTICAST_TTL v w5))) = w_infos w5 - 1).
    { intros v w5 Fw Ow. destruct (an_ttl a); cbn [sys_setopt sys_close freeaddrinfo with_infos with_opts w_fds w_opts w_infos]; rewrite Fw, Ow; cbn [filter fst]; rewrite Z.eqb_refl; cbn [negb];
        rewrite (fds_same _ _ N), (opts_same _ _ _ N O); repeat split. }
    destruct (F1 (VInt DEFAULT_TTL) (with_fds (an_socket a :: w_fds w4) w4)) as (G1 & G2 & G3); [cbn; rewrite Lf; reflexivity|exact Lo|]. rewrite G1, G2, G3. cbn [with_fds w_infos]. rewrite Li.
    split; [reflexivity|]. split; [reflexivity|]. split; [lia|]. split; [|reflexivity]. rewrite Z.eqb_eq. unfold sz. change SIZE_MOD with 18446744073709551616 in *. split; [intros X|intros (_ & _ & X)]; [|lia]. split; [reflexivity|]. split; lia.
Qed.
Print Assumptions C67_alone.

Definition world0 : world := mkWorld [0; 1; 2] 0 [] 0.
Definition granted (fd : Z) : answers := mkAns true true fd true true true true true true true 14.
Definition day : list kop := [KOpen "192.168.1.2" (granted 3); KPost "224.0.23.0" (repeat 0 14) (granted 4); KClose; KOpen "10.0.0.2" (granted 3)].
Example C67_example : opts_open world0 /\ fresh true (world0, None) day /\ Forall not_zero day
  /\ exists w k, krun true (world0, None) day = Ok (w, Some k) /\ k_id k = 3 /\ w_fds w = [3; 0; 1; 2] /\ w_infos w = 0.
Proof.
  split; [constructor|]. split; [|split].
  - assert (N3 : fd_ok world0 3) by (right; split; [lia|intros [X|[X|[X|[]]]]; discriminate X]).
    unfold day. eapply f_cons; [intros a [= <-]; exact N3|vm_compute; reflexivity|].
    eapply f_cons; [intros a [= <-]; right; cbn; split; [lia|intros [X|[X|[X|[X|[]]]]]; discriminate X]|vm_compute; reflexivity|].
    eapply f_cons; [intros a [=]|vm_compute; reflexivity|].
    eapply f_cons; [intros a [= <-]; right; cbn; split; [lia|intros [X|[X|[X|[]]]]; discriminate X]|vm_compute; reflexivity|]. constructor.
  - unfold day. repeat (constructor; [intros a E; first [discriminate E|injection E as <-; cbn; lia]|]). constructor.
  - eexists. eexists. split; [vm_compute; reflexivity|]. repeat split.
Qed.

Example C67_alone_example : opts_open world0 /\ fd_ok world0 3
  /\ exists w, server_post_alone (mkAns true true 3 true true true true true true true 2) world0 "192.168.1.9" [16; 129] = Ok (w, true, [mkDgram 3 "192.168.1.9" [16; 129]]) /\ w_fds w = [0; 1; 2].
Proof.
  split; [constructor|]. split; [right; cbn; split; [lia|intros [X|[X|[X|[]]]]; discriminate X]|]. eexists. split; [vm_compute; reflexivity|reflexivity].
Qed.

(* an open that fails to get a descriptor loses the address record: trying again and again uses up the memory *)
Theorem C67_leak_refuted : forall n, (Z.of_nat n < INT_MAX - 1) ->
  exists ops w, length ops = n /\ opts_open world0 /\ fresh false (world0, None) ops /\ Forall not_zero ops
  /\ krun false (world0, None) ops = Ok (w, None) /\ w_fds w = w_fds world0 /\ w_infos w = Z.of_nat n.
Proof.
  set (bad := KOpen "192.168.1.2" (mkAns true true (-1) true true true true true true true 0)).
  assert (G : forall n i u, 0 <= u -> u + Z.of_nat n < INT_MAX - 1 ->
    fresh false (mkWorld [0; 1; 2] i [] u, None) (repeat bad n) /\ krun false (mkWorld [0; 1; 2] i [] u, None) (repeat bad n) = Ok (mkWorld [0; 1; 2] (i + Z.of_nat n) [] (u + Z.of_nat n), None)).
  { induction n as [|n IH]; intros i u U B.
    - split; [constructor|]. cbn. rewrite !Z.add_0_r. reflexivity.
    - assert (ST : kstep false (mkWorld [0; 1; 2] i [] u, None) bad = Ok (mkWorld [0; 1; 2] (i + 1) [] (u + 1), None)).
      { unfold bad, kstep, uecho_udp_server_open. cbn [server_close bind]. unfold uecho_socket_new, uecho_socket_startup, int_chk. cbn [w_users].
        unfold INT_MAX, INT_MIN in *. replace ((-2147483648 <=? u + 1) && (u + 1 <=? 2147483647)) with true by lia. cbn [bind]. unfold uecho_socket_bind, uecho_socket_tosockaddrinfo, uecho_socket_startup, int_chk.
        cbn [UDP_PORT Z.leb Z.compare with_users w_users so_bind bind]. unfold INT_MAX, INT_MIN. replace ((-2147483648 <=? u + 1 + 1) && (u + 1 + 1 <=? 2147483647)) with true by lia.
        cbn [bind negb an_info with_infos with_users w_fds w_infos w_opts w_users sys_socket an_socket uecho_socket_setid k_id k_addr k_port Z.eqb Pos.eqb uecho_socket_close uecho_socket_isbound Z.ltb Z.compare server_close uecho_socket_delete fst snd].
        unfold uecho_socket_delete. unfold uecho_socket_cleanup, int_chk.
        change (w_users (fst (uecho_socket_close _ _))) with (u + 1 + 1). unfold INT_MAX, INT_MIN. replace ((-2147483648 <=? u + 1 + 1 - 1) && (u + 1 + 1 - 1 <=? 2147483647)) with true by lia. cbn [bind fst snd with_users w_fds w_infos w_opts w_users].
        replace (u + 1 + 1 - 1) with (u + 1) by lia. reflexivity. }
      destruct (IH (i + 1) (u + 1)) as [F K]; [lia|lia|]. cbn [repeat]. split.
      + eapply f_cons; [intros a [= <-]; left; reflexivity|exact ST|exact F].
      + cbn [krun]. rewrite ST. cbn [bind]. rewrite K. f_equal. f_equal. f_equal; lia. }
  intros n B. destruct (G n 0 0) as [F K]; [lia|lia|]. exists (repeat bad n), (mkWorld [0; 1; 2] (0 + Z.of_nat n) [] (0 + Z.of_nat n)).
  split; [apply repeat_length|]. split; [constructor|]. split; [exact F|]. split; [|split; [exact K|split; [reflexivity|reflexivity]]].
  rewrite Forall_forall. intros op I. apply repeat_spec in I. subst op. intros a [= <-]. cbn. lia.
Qed.
Print Assumptions C67_leak_refuted.

(* a server given the descriptor 0 does not release it, and takes itself for unbound: sending goes through a new
   socket each time, and the descriptor is lost *)
Theorem C67_zero_refuted : exists w a w1 k w2, w_fds w = [1; 2] /\ fd_ok w (an_socket a)
  /\ uecho_udp_server_open a w None "192.168.1.2" = Ok (w1, Some k, true) /\ k_id k = 0
  /\ server_close w1 (Some k) = Ok (w2, None) /\ w_fds w2 = [0; 1; 2]
  /\ exists b w3 k' ok ds, server_post b w1 (Some k) "192.168.1.9" [1] = Ok (w3, Some k', ok, ds)
     /\ Forall (fun d => g_fd d <> 0) ds /\ k_id k' = -1 /\ In 0 (w_fds w3).
Proof.
  exists (mkWorld [1; 2] 0 [] 0), (granted 0). eexists. eexists. eexists. split; [reflexivity|].
  split; [right; cbn; split; [lia|intros [X|[X|[]]]; discriminate X]|]. split; [vm_compute; reflexivity|]. split; [reflexivity|]. split; [vm_compute; reflexivity|]. split; [reflexivity|].
  exists (granted 3). do 4 eexists. split; [vm_compute; reflexivity|]. split; [constructor; [cbn; lia|constructor]|]. split; [reflexivity|]. left. reflexivity.
Qed.
Print Assumptions C67_zero_refuted.

(* no server ever sets the multicast loop option, though multicast servers ask for it: the time to live is set to 1
   in its place *)
Theorem C67_loop_refuted :
  (forall a w k flag v, ~ In (k_id k, O_MULTICAST_LOOP, v) (w_opts w) -> ~ In (k_id k, O_MULTICAST_LOOP, v) (w_opts (fst (uecho_socket_setmulticastloop a w k flag))))
  /\ exists w k, uecho_mcast_server_open (granted 3) world0 None "192.168.1.2" = Ok (w, Some k, true)
     /\ option_unset w (k_id k) O_MULTICAST_LOOP /\ option_is w (k_id k) O_MULTICAST_TTL (VInt 1).
Proof.
  split.
  - intros [] w k flag v N; cbn; [|exact N]. intros [X|X]; [discriminate X|exact (N X)].
  - eexists. eexists. split; [vm_compute; reflexivity|]. split.
    + intros v. cbn. intros [X|[X|[X|[X|[]]]]]; discriminate X.
    + exists [(3, O_ADD_MEMBERSHIP, VMember GROUP "192.168.1.2"); (3, O_MULTICAST_IF, VIf "192.168.1.2")], [(3, O_REUSEADDR, VInt 1)].
      split; [reflexivity|]. cbn. intros v' [X|[X|[]]]; discriminate X.
Qed.
Print Assumptions C67_loop_refuted.

(* every look-up of an address counts as a user of the sockets and is never taken back: after an open and a close
   SIGPIPE stays ignored, and the counter, an int, overflows once the server has sent for long enough *)
Theorem C67_users_refuted :
  (exists w1 k w2, uecho_udp_server_open (granted 3) world0 None "192.168.1.2" = Ok (w1, Some k, true) /\ server_close w1 (Some k) = Ok (w2, None)
     /\ w_fds w2 = w_fds world0 /\ w_users world0 = 0 /\ w_users w2 = 1)
  /\ exists x post, krun false (world0, None) [KOpen "192.168.1.2" (granted 3)] = Ok x /\ not_zero post
     /\ forall n, INT_MAX < Z.of_nat n -> krun false x (repeat post n) = Undef UB_overflow.
Proof.
  split.
  - do 3 eexists. split; [vm_compute; reflexivity|]. split; [vm_compute; reflexivity|]. split; [reflexivity|]. split; reflexivity.
  - set (post := KPost "192.168.1.9" [1] (mkAns true true 4 true false true true true true true 1)).
    assert (ST : forall u, 0 <= u -> kstep false (mkWorld [3; 0; 1; 2] 0 [(3, O_REUSEADDR, VInt 1)] u, Some (mkSock 3 "192.168.1.2" 3610)) post
      = if u + 1 <=? 2147483647 then Ok (mkWorld [3; 0; 1; 2] 0 [(3, O_REUSEADDR, VInt 1)] (u + 1), Some (mkSock 3 "192.168.1.2" 3610)) else Undef UB_overflow).
    { intros u U. unfold post, kstep, server_post, uecho_socket_sendto, uecho_socket_tosockaddrinfo, uecho_socket_startup, int_chk. cbn [w_users]. unfold INT_MAX, INT_MIN.
      replace (-2147483648 <=? u + 1) with true by lia. cbn [andb]. destruct (u + 1 <=? 2147483647); reflexivity. }
    assert (G : forall n u, 0 <= u <= 2147483647 -> 2147483647 < u + Z.of_nat n ->
      krun false (mkWorld [3; 0; 1; 2] 0 [(3, O_REUSEADDR, VInt 1)] u, Some (mkSock 3 "192.168.1.2" 3610)) (repeat post n) = Undef UB_overflow).
    { induction n as [|n IH]; intros u U B; [lia|]. cbn [repeat krun]. rewrite (ST u) by lia. destruct (Z.leb_spec (u + 1) 2147483647); [|reflexivity]. cbn [bind]. apply IH; lia. }
    eexists. exists post. split; [vm_compute; reflexivity|]. split; [intros a [= <-]; cbn; lia|]. intros n N. apply G; unfold INT_MAX in N; lia.
Qed.
Print Assumptions C67_users_refuted.

(* ---------- C68: streams ---------- *)

(* writing ends whatever the system answers, hands over the bytes in order and without gaps, and reports their number
   exactly if all were taken; it gives up, reporting 0, only after eleven failures in a row *)
Theorem C68_write : forall send data, (forall k n, 0 < n -> send k n <= n) -> len data < SIZE_MOD ->
  exists n taken rest, uecho_socket_write send data = Ok (n, taken) /\ data = taken ++ rest
  /\ (n = len data /\ rest = [] \/ n = 0 /\ exists k0 m, 0 < m /\ forall j, (k0 <= j < k0 + 11)%nat -> send j m <= 0).
Proof.
  intros send data C L. unfold uecho_socket_write. destruct (Z.leb_spec (len data) 0) as [E|E].
  - assert (data = []) by (apply len_0_nil; pose proof (len_nonneg _ data); lia). subst. exists 0, [], []. repeat split. left. split; reflexivity.
  - assert (NE : data <> []) by (intros ->; rewrite len_nil in E; lia).
    destruct (write_spec send C (11 * length data) 0 data [] 0) as (n & acc & W & (rest & P) & Q); [exact NE|rewrite len_nil; lia|lia|lia|].
    cbn [app] in W. exists n, acc, rest. split; [exact W|]. split; [exact P|]. destruct Q as [->|[Q1 Q2]].
    + right. split; [reflexivity|]. apply (write_gives_up send C) in W; [exact W|exact NE|rewrite len_nil; lia|lia|lia|intros j J; lia].
    + left. cbn [app] in Q2. split; [exact Q2|]. rewrite Q1 in P. rewrite <- (app_nil_r data) in P at 1. apply app_inv_head in P. symmetry. exact P.
Qed.
Print Assumptions C68_write.
Example C68_write_example :
  let slow (k : nat) (n : Z) := if Nat.even k then -1 else Z.min n 2 in
  (forall k n, 0 < n -> slow k n <= n) /\ uecho_socket_write slow [71; 69; 84; 32; 47] = Ok (5, [71; 69; 84; 32; 47]).
Proof. split; [intros k n P; cbn; destruct (Nat.even k); lia|vm_compute; reflexivity]. Qed.

(* reporting 0 does not mean that nothing has been sent *)
Theorem C68_write_refuted : exists send data taken, (forall k n, 0 < n -> send k n <= n) /\ uecho_socket_write send data = Ok (0, taken) /\ taken <> [] /\ taken <> data.
Proof.
  exists (fun k n => match k with O => Z.min n 2 | _ => -1 end), [71; 69; 84; 32; 47]. eexists.
  split; [intros [|k] n P; lia|]. split; [vm_compute; reflexivity|]. split; discriminate.
Qed.
Print Assumptions C68_write_refuted.

(* Reading a line into a buffer of the given size, two or more: the line with its line feed if it fits, the first
   size - 1 bytes otherwise; the rest of the line is skipped; a zero byte ends what was read.  No byte outside the
   buffer is touched.  The full property has no condition on the size, and keeps a last line with no line feed. *)
Theorem C68_readline_partial : forall line rest buf size, ~ In 10 line -> 2 <= size -> size = len buf -> size < SIZE_MOD ->
  (len line + 2 <= size -> exists buf' slack, uecho_socket_readline (line ++ 10 :: rest) buf size = Ok (len line + 1, buf', rest)
     /\ buf' = map Some (line ++ [10; 0]) ++ slack /\ len buf' = len buf)
  /\ (size < len line + 2 -> exists buf' slack, uecho_socket_readline (line ++ 10 :: rest) buf size = Ok (size - 1, buf', rest)
     /\ buf' = map Some (firstn (Z.to_nat (size - 1)) line ++ [0]) ++ slack /\ len buf' = len buf)
  /\ (len line + 1 < size -> uecho_socket_readline line buf size = Ok (-1, buf, [])).
Proof.
  intros line rest buf size N S2 EB SM. assert (SZ : sz (size - 1) = size - 1) by (apply sz_small; lia). unfold uecho_socket_readline. rewrite SZ. pose proof (len_nonneg _ line). split; [|split].
  - intros F. change (10 :: rest) with (LF :: rest). destruct (readline_fits line rest [] buf (size - 1) N) as (s' & E & L'); [rewrite len_nil; lia|lia|]. cbn [map app] in E. rewrite len_nil in E. rewrite E. cbn [bind].
    destruct s' as [|x s']; [rewrite len_nil in L'; lia|]. rewrite wr_app_cons by (rewrite len_map, len_app, len_cons, len_nil; lia). cbn [bind].
    replace (0 + len line + 1 - 1) with (len line + 0) by lia. rewrite map_app. cbn [map]. rewrite <- !app_assoc. cbn [app].
    assert (R : rd (map Some line ++ Some LF :: Some 0 :: s') (len line + 0) = Ok (Some LF)).
    { unfold rd. replace (len line + 0 <? 0) with false by lia. rewrite Z.add_0_r. rewrite nth_error_app2; unfold len; rewrite Nat2Z.id, map_length; [|lia]. rewrite Nat.sub_diag. reflexivity. }
    rewrite R. cbn [bind]. change (LF =? LF) with true. cbn iota. eexists. exists s'. replace (0 + len line + 1) with (len line + 1) by lia. split; [reflexivity|]. split.
    + rewrite map_app. cbn [map]. rewrite <- app_assoc. reflexivity.
    + rewrite len_app, !len_cons, len_map. rewrite len_cons in L'. lia.
  - intros F. set (m := Z.to_nat (size - 1)). assert (Hm : (m <= length line)%nat) by (unfold m, len in *; lia).
    assert (EL : line = firstn m line ++ skipn m line) by (symmetry; apply firstn_skipn). assert (Lf : len (firstn m line) = size - 1) by (unfold len; rewrite firstn_length; unfold m, len in *; lia).
    assert (N1 : ~ In LF (firstn m line)) by (intros I; apply N; rewrite EL; apply in_or_app; left; exact I).
    assert (N2 : ~ In LF (skipn m line)) by (intros I; apply N; rewrite EL; apply in_or_app; right; exact I).
    destruct (readline_cut (firstn m line) (skipn m line ++ LF :: rest) [] buf (size - 1) N1) as (s' & E & L'); [rewrite len_nil; lia|lia|].
    rewrite app_assoc, <- EL in E. cbn [map app] in E. rewrite len_nil in E. change (10 :: rest) with (LF :: rest). rewrite E. cbn [bind].
    destruct s' as [|x s']; [rewrite len_nil in L'; lia|]. rewrite wr_app_cons by (rewrite len_map; lia). cbn [bind].
    assert (NZ : firstn m line <> []) by (intros X; rewrite X, len_nil in Lf; lia). destruct (exists_last NZ) as (h & c & HC).
    assert (R : rd (map Some (firstn m line) ++ Some 0 :: s') (size - 1 - 1) = Ok (Some c)).
    { rewrite HC in *. rewrite len_app, len_cons, len_nil in Lf. unfold rd. pose proof (len_nonneg _ h). replace (size - 1 - 1) with (len h) by lia. replace (len h <? 0) with false by lia.
      rewrite map_app, <- app_assoc. rewrite nth_error_app2; unfold len; rewrite Nat2Z.id, map_length; [|lia]. rewrite Nat.sub_diag. reflexivity. }
    rewrite R. cbn [bind]. assert (NC : c <> LF) by (intros ->; apply N1; rewrite HC; apply in_or_app; right; left; reflexivity). replace (c =? LF) with false by lia.
    rewrite after_lf_spec by exact N2. eexists. exists s'. split; [reflexivity|]. split.
    + rewrite map_app. cbn [map]. rewrite <- app_assoc. reflexivity.
    + rewrite len_app, len_cons, len_map. rewrite len_cons in L'. lia.
  - intros F. rewrite <- (app_nil_l buf) at 1. change (@nil (option Z)) with (map (@Some Z) []) at 1. change 0 with (len (@nil Z)) at 1. rewrite readline_end; [reflexivity|exact N|rewrite len_nil; lia|lia].
Qed.
Print Assumptions C68_readline_partial.
Example C68_readline_example :
  uecho_socket_readline [72; 105; 10; 66; 10] (repeat None 8) 8 = Ok (3, [Some 72; Some 105; Some 10; Some 0; None; None; None; None], [66; 10])
  /\ uecho_socket_readline [72; 105; 33; 10; 66; 10] (repeat None 3) 3 = Ok (2, [Some 72; Some 105; Some 0], [66; 10]).
Proof. split; vm_compute; reflexivity. Qed.

(* a buffer of one byte is read before its start, and one of none is written to whatever arrives *)
Theorem C68_readline_refuted :
  (forall input x, exists u, uecho_socket_readline input [x] 1 = Undef u)
  /\ (forall c input, exists u, uecho_socket_readline (c :: input) [] 0 = Undef u).
Proof.
  split.
  - intros input x. exists UB_read. unfold uecho_socket_readline. destruct input; reflexivity.
  - intros c input. eexists. unfold uecho_socket_readline. reflexivity.
Qed.
Print Assumptions C68_readline_refuted.

(* skipping takes exactly the given number of bytes off the stream, or all there are, and reports how many *)
Theorem C68_skip : forall input n, 0 <= n ->
  exists skipped rest, uecho_socket_skip input n = (len skipped, rest) /\ input = skipped ++ rest /\ (len skipped = n \/ (len skipped < n /\ rest = [])).
Proof.
  intros input n P. exists (firstn (Z.to_nat n) input), (skipn (Z.to_nat n) input). unfold uecho_socket_skip. split; [|split].
  - f_equal. unfold len. rewrite firstn_length. lia.
  - symmetry. apply firstn_skipn.
  - unfold len. rewrite firstn_length. destruct (Nat.le_gt_cases (Z.to_nat n) (length input)); [left; lia|right]. split; [lia|]. apply skipn_all2. lia.
Qed.
Print Assumptions C68_skip.
Example C68_skip_example : uecho_socket_skip [1; 2; 3; 4] 3 = (3, [4]) /\ uecho_socket_skip [1; 2] 3 = (2, []).
Proof. split; reflexivity. Qed.
