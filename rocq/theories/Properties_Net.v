(* C64: the interfaces a node listens on.  C65: the local address of a datagram.  C66: IPv6 texts. *)
From Coq Require Import String Ascii ZArith Lia List Bool.
From Coq Require Import ZifyBool ZifyNat.
From Verif Require Import CSem M_Const P_Base M_String Spec_String P_String P_Text M_Message M_Log M_Net Spec_Net P_Net
  M_Server Spec_Server P_Server Properties_Server.
Import ListNotations.
Open Scope Z_scope.
Ltac Zify.zify_post_hook ::= Z.div_mod_to_equations.

(* ---------- C64: interfaces ---------- *)

(* the list has exactly the IPv4 entries that are up and not loopback, in order, each with its name,
   address and mask in dotted decimal notation; what was in it is gone; the result is the number *)
Theorem C64_interfaces : forall numeric l old, names_ipv4 numeric -> Forall entry_ok l -> Forall masks_match l ->
  exists us, those listens l us /\ Forall2 described us (fst (uecho_net_gethostinterfaces numeric (Some l) old))
  /\ snd (uecho_net_gethostinterfaces numeric (Some l) old) = len us.
Proof.
  intros numeric l old N E M. destruct (interfaces_spec numeric l N E M) as (us & T & D). exists us.
  split; [exact T|]. split; [exact D|]. cbn [uecho_net_gethostinterfaces snd]. clear - D. induction D; [reflexivity|]. rewrite !len_cons. lia.
Qed.
Print Assumptions C64_interfaces.

(* if the system cannot list its interfaces the list is empty *)
Theorem C64_failure : forall numeric old, uecho_net_gethostinterfaces numeric None old = ([], 0).
Proof. reflexivity. Qed.
Print Assumptions C64_failure.

Lemma described_in : forall us ns, Forall2 described us ns ->
  (forall i, In i us -> exists n, In n ns /\ described i n) /\ (forall n, In n ns -> exists i, In i us /\ described i n).
Proof.
  intros us ns F. induction F as [|i n us ns D F [IH1 IH2]].
  - split; intros x [].
  - split; intros x [<-|I].
    + exists n. split; [left; reflexivity|exact D].
    + destruct (IH1 x I) as (y & Y & Z'). exists y. split; [right; exact Y|exact Z'].
    + exists i. split; [left; reflexivity|exact D].
    + destruct (IH2 x I) as (y & Y & Z'). exists y. split; [right; exact Y|exact Z'].
Qed.
Lemma up_in : forall obs ifs vs, Forall2 (up_at obs) ifs vs ->
  (forall t, In t ifs -> exists v, In v vs /\ up_at obs t v) /\ (forall v, In v vs -> exists t, In t ifs /\ up_at obs t v).
Proof.
  intros obs ifs vs F. induction F as [|i n us ns D F [IH1 IH2]].
  - split; intros x [].
  - split; intros x [<-|I].
    + exists n. split; [left; reflexivity|exact D].
    + destruct (IH1 x I) as (y & Y & Z'). exists y. split; [right; exact Y|exact Z'].
    + exists i. split; [left; reflexivity|exact D].
    + destruct (IH2 x I) as (y & Y & Z'). exists y. split; [right; exact Y|exact Z'].
Qed.

(* a node that has started has a multicast server, and a UDP server if wanted, at the address of every
   interface it should listen on, and no server elsewhere *)
Theorem C64_served : forall numeric l old ops e obs option,
  names_ipv4 numeric -> Forall entry_ok l -> Forall masks_match l ->
  os_ifs e = map nf_addr (fst (uecho_net_gethostinterfaces numeric (Some l) old)) ->
  leaves ops (Up e obs option) ->
  (forall i t, In i l -> listens i -> address_of i t ->
     (exists v, In v (sv_mcast (srun ops)) /\ up_at obs t v)
     /\ (udp_wanted option -> exists v, In v (sv_udp (srun ops)) /\ up_at obs t v))
  /\ (forall v, In v (sv_mcast (srun ops) ++ sv_udp (srun ops)) ->
     exists i t, In i l /\ listens i /\ address_of i t /\ up_at obs t v).
Proof.
  intros numeric l old ops e obs option N E M OS L. pose proof (leaves_serving _ _ L) as (SM & SU & SN).
  destruct (C64_interfaces numeric l old N E M) as (us & T & D & _). pose proof (those_in _ _ _ _ T) as TI.
  destruct (described_in _ _ D) as [D1 D2]. rewrite OS in SM, SU. split.
  - intros i t I Li (a & m & HI & DT). destruct (D1 i (proj2 (TI i) (conj I Li))) as (n & In' & (a' & m' & HI' & _ & DT' & _)).
    destruct (has_ipv4_fun i a m a' m' HI HI') as [-> ->]. rewrite (dotted_fun _ _ _ DT DT').
    split; [|intros W].
    + apply (proj1 (up_in _ _ _ SM)). apply in_map. exact In'.
    + apply (proj1 (up_in _ _ _ (SU W))). apply in_map. exact In'.
  - intros v V.
    assert (K : forall vs, Forall2 (up_at obs) (map nf_addr (fst (uecho_net_gethostinterfaces numeric (Some l) old))) vs -> In v vs ->
      exists i t, In i l /\ listens i /\ address_of i t /\ up_at obs t v).
    { intros vs F Iv. destruct (proj2 (up_in _ _ _ F) v Iv) as (t & It & U). apply in_map_iff in It. destruct It as (n & <- & In').
      destruct (D2 n In') as (i & Ii & DS). exists i, (nf_addr n). destruct (proj1 (TI i) Ii) as [I1 I2]. split; [exact I1|]. split; [exact I2|].
      split; [|exact U]. destruct DS as (a & m & HI & _ & DT & _). exists a, m. auto. }
    apply in_app_or in V. destruct V as [V|V]; [exact (K _ SM V)|]. destruct (Z.testbit option 0) eqn:B.
    + rewrite SN in V; [destruct V|]. unfold udp_wanted. congruence.
    + exact (K _ (SU B) V).
Qed.
Print Assumptions C64_served.

(* without such an interface, or if the system cannot list them, a node does not start *)
Theorem C64_offline : forall numeric os old ops e, names_ipv4 numeric ->
  (forall l, os = Some l -> Forall entry_ok l /\ Forall masks_match l /\ Forall (fun i => ~ listens i) l) ->
  os_ifs e = map nf_addr (fst (uecho_net_gethostinterfaces numeric os old)) ->
  snd (uecho_server_start e (srun ops)) = false.
Proof.
  intros numeric os old ops e N H OS. destruct (snd (uecho_server_start e (srun ops))) eqn:S; [|reflexivity]. exfalso.
  apply C53_start_iff in S. destruct S as [[NE _] _]. apply NE. rewrite OS. destruct os as [l|]; [|reflexivity].
  destruct (H l eq_refl) as (E & M & F). destruct (C64_interfaces numeric l old N E M) as (us & T & D & _).
  assert (us = []) as ->.
  { destruct us as [|u us]; [reflexivity|]. destruct (proj1 (those_in _ _ _ _ T u) (or_introl eq_refl)) as [I1 I2].
    rewrite Forall_forall in F. destruct (F u I1 I2). }
  destruct (fst (uecho_net_gethostinterfaces numeric (Some l) old)); [reflexivity|inversion D].
Qed.
Print Assumptions C64_offline.

(* a notation names one address and an address has one notation *)
Theorem C64_notation : (forall a, 0 <= a < 4294967296 -> dotted a (inet_ntoa a))
  /\ (forall a b t, dotted a t -> dotted b t -> a = b) /\ (forall a t t', dotted a t -> dotted a t' -> t = t').
Proof. split; [exact inet_ntoa_dotted|]. split; [exact dotted_inj|exact dotted_fun]. Qed.
Print Assumptions C64_notation.

(* a usual machine: loopback, a wired and a wireless interface, one that is down, and IPv6 *)
Definition ip (a b c d : Z) : Z := a * 16777216 + b * 65536 + c * 256 + d.
Definition v4 (name : string) (flags a m : Z) : ifaddr := mkIfa name flags (Some (mkSa AF_INET a)) (Some (mkSa AF_INET m)).
Definition v6 (name : string) (flags : Z) : ifaddr := mkIfa name flags (Some (mkSa AF_INET6 0)) (Some (mkSa AF_INET6 0)).
Definition lo : ifaddr := v4 "lo" 9 (ip 127 0 0 1) (ip 255 0 0 0).
Definition eth0 : ifaddr := v4 "eth0" 1 (ip 192 168 1 2) (ip 255 255 255 0).
Definition wlan0 : ifaddr := v4 "wlan0" 1 (ip 10 0 0 2) (ip 255 0 0 0).
Definition eth1 : ifaddr := v4 "eth1" 0 (ip 172 16 0 2) (ip 255 255 0 0).
Definition machine : list ifaddr := [mkIfa "eth0" 1 (Some (mkSa 17 3)) None; lo; eth0; wlan0; eth1; v6 "eth0" 1].
Definition numeric4 (a : sockaddr) : option string := if sa_family a =? AF_INET then Some (inet_ntoa (sa_word a)) else Some "::"%string.
Lemma numeric4_names : names_ipv4 numeric4.
Proof. intros a F W. unfold numeric4. rewrite F. exists (inet_ntoa (sa_word a)). split; [reflexivity|apply inet_ntoa_dotted; exact W]. Qed.
Lemma entry_v4 : forall n f a m, 0 <= a < 4294967296 -> 0 <= m < 4294967296 -> entry_ok (v4 n f a m) /\ masks_match (v4 n f a m) /\ only_ipv4 (v4 n f a m).
Proof.
  intros n f a m A M. split; [|split].
  - split; intros x X; injection X as <-; [exact A|exact M].
  - intros x y X Y _. injection Y as <-. reflexivity.
  - intros x y X Y. injection X as <-. injection Y as <-. split; reflexivity.
Qed.
Lemma machine_ok : Forall entry_ok machine /\ Forall masks_match machine.
Proof.
  assert (V4 : forall n f a m, 0 <= a < 4294967296 -> 0 <= m < 4294967296 -> entry_ok (v4 n f a m) /\ masks_match (v4 n f a m)).
  { intros n f a m A M. destruct (entry_v4 n f a m A M) as (X & Y & _). auto. }
  assert (K : Forall (fun i => entry_ok i /\ masks_match i) machine).
  { constructor; [split; [split; intros x X; inversion X; unfold word_ok; cbn; lia|intros x y _ Y; discriminate Y]|].
    constructor; [apply V4; vm_compute; split; congruence|]. constructor; [apply V4; vm_compute; split; congruence|].
    constructor; [apply V4; vm_compute; split; congruence|]. constructor; [apply V4; vm_compute; split; congruence|].
    constructor; [|constructor]. split; [split; intros x X; inversion X; unfold word_ok; cbn; lia|].
    intros x y X _ F. injection X as <-. discriminate F. }
  split; eapply Forall_impl; try exact K; cbn; intros i [A B]; assumption.
Qed.
Example C64_example : names_ipv4 numeric4 /\ Forall entry_ok machine /\ Forall masks_match machine
  /\ uecho_net_gethostinterfaces numeric4 (Some machine) [mkNetif "old" "1.2.3.4" "255.0.0.0"]
     = ([mkNetif "eth0" "192.168.1.2" "255.255.255.0"; mkNetif "wlan0" "10.0.0.2" "255.0.0.0"], 2)
  /\ os_ifs wlan = map nf_addr (fst (uecho_net_gethostinterfaces numeric4 (Some machine) []))
  /\ leaves history (Up wlan [mkMobs 1 2; mkMobs 3 4] 0).
Proof.
  split; [exact numeric4_names|]. destruct machine_ok as [A B]. split; [exact A|]. split; [exact B|].
  split; [vm_compute; reflexivity|]. split; [vm_compute; reflexivity|exact history_up].
Qed.

(* ---------- C65: the local address of a datagram ---------- *)

(* with IPv4 entries only, the address to be reported is found (it is unique), and never NULL.  The full
   statement, without the restriction to IPv4 entries, is refuted below *)
Theorem C65_local_partial : forall l r, Forall entry_ok l -> Forall only_ipv4 l ->
  exists t, uecho_net_selectaddr (Some l) r = Some t /\ reported l (sa_word r) t
  /\ forall t', reported l (sa_word r) t' -> t' = t.
Proof.
  intros l r E O. destruct (select_reported l r E O) as (t & S & R). exists t. split; [exact S|]. split; [exact R|].
  intros t' R'. exact (reported_unique _ _ _ _ R' R).
Qed.
Print Assumptions C65_local_partial.

Definition autoip : ifaddr := v4 "eth2" 1 (ip 169 254 7 7) (ip 255 255 0 0).
Definition ppp0 : ifaddr := v4 "ppp0" 17 (ip 10 9 9 9) (ip 255 255 255 255).
Example C65_example : Forall entry_ok [lo; ppp0; autoip; eth0; wlan0] /\ Forall only_ipv4 [lo; ppp0; autoip; eth0; wlan0]
  /\ uecho_net_selectaddr (Some [lo; ppp0; autoip; eth0; wlan0]) (mkSa AF_INET (ip 192 168 1 9)) = Some "192.168.1.2"%string
  /\ uecho_net_selectaddr (Some [lo; ppp0; autoip; eth0; wlan0]) (mkSa AF_INET (ip 169 254 9 9)) = Some "169.254.7.7"%string
  /\ uecho_net_selectaddr (Some [lo; ppp0; autoip; eth0]) (mkSa AF_INET (ip 8 8 8 8)) = Some "192.168.1.2"%string
  /\ uecho_net_selectaddr (Some [lo; ppp0; autoip]) (mkSa AF_INET (ip 8 8 8 8)) = Some "169.254.7.7"%string
  /\ uecho_net_selectaddr (Some [lo; ppp0]) (mkSa AF_INET (ip 8 8 8 8)) = Some "127.0.0.1"%string.
Proof.
  assert (K : Forall (fun i => entry_ok i /\ masks_match i /\ only_ipv4 i) [lo; ppp0; autoip; eth0; wlan0]).
  { do 5 (constructor; [apply entry_v4; vm_compute; split; congruence|]). constructor. }
  split; [eapply Forall_impl; [|exact K]; cbn; intros i (A & _); exact A|].
  split; [eapply Forall_impl; [|exact K]; cbn; intros i (_ & _ & A); exact A|].
  repeat split; vm_compute; reflexivity.
Qed.

Lemma eth0_candidate : candidate eth0 (ip 192 168 1 2) (ip 255 255 255 0).
Proof. split; [split; reflexivity|]. split; [reflexivity|]. split; discriminate. Qed.
Lemma not_candidate6 : forall n f a m, ~ candidate (v6 n f) a m.
Proof. intros n f a m [[A _] _]. discriminate A. Qed.
Lemma eth0_address : address_of eth0 "192.168.1.2".
Proof.
  exists (ip 192 168 1 2), (ip 255 255 255 0). split; [split; reflexivity|].
  replace "192.168.1.2"%string with (inet_ntoa (ip 192 168 1 2)) by (vm_compute; reflexivity). apply inet_ntoa_dotted. vm_compute. split; congruence.
Qed.
(* an IPv6 entry counts as an interface in every subnet: its flow information is taken for its address
   and mask, and 0.0.0.0 is reported; both for a node in the subnet of an IPv4 interface listed later
   and for a node in another network *)
Theorem C65_ipv6_refuted : exists i6 i4 r r',
  entry_ok i6 /\ entry_ok i4
  /\ reported [i6; i4] (sa_word r) "192.168.1.2" /\ ~ reported [i6; i4] (sa_word r) "0.0.0.0"
  /\ uecho_net_selectaddr (Some [i6; i4]) r = Some "0.0.0.0"%string
  /\ reported [i4; i6] (sa_word r') "192.168.1.2" /\ ~ reported [i4; i6] (sa_word r') "0.0.0.0"
  /\ uecho_net_selectaddr (Some [i4; i6]) r' = Some "0.0.0.0"%string.
Proof.
  exists (v6 "eth0" 1), eth0, (mkSa AF_INET (ip 192 168 1 9)), (mkSa AF_INET (ip 8 8 8 8)). cbn [sa_word].
  split; [split; intros x X; inversion X; unfold word_ok; cbn; lia|].
  split; [apply entry_v4; vm_compute; split; congruence|].
  assert (R1 : reported [v6 "eth0" 1; eth0] (ip 192 168 1 9) "192.168.1.2").
  { apply (r_near _ _ _ eth0); [|exact eth0_address]. exists [v6 "eth0" 1], []. split; [reflexivity|]. split.
    - exists (ip 192 168 1 2), (ip 255 255 255 0). split; [exact eth0_candidate|]. apply subnet_iff. reflexivity.
    - constructor; [|constructor]. intros (a & m & C & _). exact (not_candidate6 _ _ _ _ C). }
  assert (R2 : reported [eth0; v6 "eth0" 1] (ip 8 8 8 8) "192.168.1.2").
  { apply (r_routable _ _ _ eth0); [| |exact eth0_address].
    - intros j [<-|[<-|[]]] (a & m & C & S).
      + destruct C as [H _]. destruct (has_ipv4_fun _ _ _ _ _ (proj1 eth0_candidate) H) as [<- <-]. apply subnet_iff in S. vm_compute in S. discriminate S.
      + exact (not_candidate6 _ _ _ _ C).
    - exists [], [v6 "eth0" 1]. split; [reflexivity|]. split.
      + exists (ip 192 168 1 2), (ip 255 255 255 0). split; [exact eth0_candidate|]. vm_compute. discriminate.
      + constructor; [|constructor]. intros (a & m & C & _). exact (not_candidate6 _ _ _ _ C). }
  split; [exact R1|]. split; [intros X; pose proof (reported_unique _ _ _ _ R1 X); discriminate|]. split; [vm_compute; reflexivity|].
  split; [exact R2|]. split; [intros X; pose proof (reported_unique _ _ _ _ R2 X); discriminate|]. vm_compute. reflexivity.
Qed.
Print Assumptions C65_ipv6_refuted.

(* parsing a datagram never sets the destination address *)
Ltac bsplit H := let x := fresh "x" in let E := fresh "E" in apply bind_ok in H; destruct H as (x & E & H).
Lemma clear_to : forall m m', uecho_message_clear m = Ok m' -> m_to m' = None.
Proof. intros m m' H. unfold uecho_message_clear in H. repeat bsplit H. injection H as <-. reflexivity. Qed.
Lemma parse_to : forall m b ok m', uecho_message_parse m b = Ok (ok, m') -> m_to m' = None.
Proof.
  intros m b ok m' H. unfold uecho_message_parse in H. bsplit H. apply clear_to in E.
  destruct (len b <? uEchoMessageMinLen); [injection H as _ <-; exact E|]. bsplit H. destruct (negb _); [injection H as _ <-; exact E|].
  bsplit H. destruct (negb _); [injection H as _ <-; exact E|].
  do 10 bsplit H. cbv zeta in H. destruct (uecho_message_isreadwritemessage _).
  - apply bind_ok in H. destruct H as ([[o v] off] & _ & H). destruct (negb o); [injection H as _ <-; exact E|].
    destruct (_ <? off); [injection H as _ <-; exact E|]. bsplit H. apply bind_ok in H. destruct H as ([[o2 v2] off2] & _ & H). injection H as _ <-. exact E.
  - apply bind_ok in H. destruct H as ([[o v] off] & _ & H). injection H as _ <-. exact E.
Qed.
Lemma packet_to : forall b l r x, uecho_message_parsepacket uecho_message_new b l r = Ok x -> m_to (snd x) = None.
Proof.
  intros b l r x H. unfold uecho_message_parsepacket in H. bsplit H. destruct x0 as [ok m]. apply parse_to in E.
  destruct (negb ok); injection H as <-; [exact E|]. cbn [snd]. destruct l, r; exact E.
Qed.
Lemma perform_to : forall eff obs m, reads_only eff -> m_to m = None ->
  Forall (fun d => m_to (snd d) = None) (uecho_message_observer_manager_perform eff obs m).
Proof.
  intros eff obs m R. revert m. induction obs as [|o obs IH]; intros m M; [constructor|]. cbn [uecho_message_observer_manager_perform].
  destruct (_ || _); [apply IH; exact M|]. constructor; [exact M|]. rewrite R. apply IH. exact M.
Qed.
(* no message delivered to an observer has a destination address, though each came with one: the source
   address is set twice *)
Theorem C65_destination_refuted :
  (forall eff obs l ds, reads_only eff -> server_action eff obs l = Ok ds -> Forall (fun d => m_to (snd d) = None) ds)
  /\ exists obs b from local ds, server_action peaceful obs [AData b from (Some local)] = Ok ds /\ ds <> []
     /\ Forall (fun d => m_from (snd d) = Some from /\ m_to (snd d) <> Some local) ds.
Proof.
  split.
  - intros eff obs l. induction l as [|a l IH]; intros ds R H; [injection H as <-; constructor|]. destruct a; cbn [server_action] in H.
    + bsplit H. bsplit H. injection H as <-. apply Forall_app. split; [|exact (IH _ R E0)]. apply packet_to in E.
      destruct (fst x); [|constructor]. apply perform_to; assumption.
    + bsplit H. bsplit H. injection H as <-. apply Forall_app. split; [|exact (IH _ R E0)]. apply packet_to in E.
      destruct (fst x); [|constructor]. apply perform_to; assumption.
    + injection H as <-. constructor.
  - exists [mkMobs 1 2], greeting, "192.168.1.9"%string, "192.168.1.2"%string. eexists. split; [vm_compute; reflexivity|].
    split; [discriminate|]. constructor; [|constructor]. split; [reflexivity|discriminate].
Qed.
Print Assumptions C65_destination_refuted.

(* ---------- C66: IPv6 addresses as texts ---------- *)
(* NULL is not an IPv6 address; a text is one if it has a colon that is not its first character *)
Theorem C66_isipv6 : uecho_net_isipv6address None = Ok false
  /\ forall t rest, text_ok t -> exists b, uecho_net_isipv6address (Some (block t rest)) = Ok b
     /\ (b = true <-> In 58 t /\ forall q, t <> 58 :: q).
Proof. split; [reflexivity|exact isipv6_spec]. Qed.
Print Assumptions C66_isipv6.

(* ---- the notation of an IPv4 address is none ---- *)
Definition byte_of (c : ascii) : Z := Z.of_N (N_of_ascii c).
Lemma cstr_bytes : forall s, cstr s = map byte_of (list_ascii_of_string s).
Proof. reflexivity. Qed.
Lemma octet_chars : forall b, octet b -> Forall (fun c => 48 <= c <= 57) (cstr (decimal b)).
Proof.
  assert (F : forallb (fun b => forallb (fun c => (48 <=? c) && (c <=? 57)) (cstr (decimal b))) (map Z.of_nat (seq 0 256)) = true) by (vm_compute; reflexivity).
  intros b B. unfold octet in B. rewrite forallb_forall in F. specialize (F b). rewrite Forall_forall. intros c C.
  assert (I : In b (map Z.of_nat (seq 0 256))).
  { apply in_map_iff. exists (Z.to_nat b). split; [lia|]. apply in_seq. lia. }
  specialize (F I). rewrite forallb_forall in F. specialize (F c C). lia.
Qed.
Lemma cstr_app : forall a b, cstr (a ++ b) = cstr a ++ cstr b.
Proof. intros a b. rewrite !cstr_bytes. induction a as [|c a IH]; [reflexivity|]. cbn [append list_ascii_of_string map app]. rewrite IH. reflexivity. Qed.
Lemma dotted_chars : forall a t, dotted a t -> Forall (fun c => 46 <= c <= 57) (cstr t).
Proof.
  assert (K : forall b, octet b -> Forall (fun c => 46 <= c <= 57) (cstr (decimal b))).
  { intros b B. eapply Forall_impl; [|exact (octet_chars b B)]. cbn. lia. }
  assert (D : Forall (fun c => 46 <= c <= 57) (cstr ".")) by (constructor; [vm_compute; split; congruence|constructor]).
  intros a t (b1 & b2 & b3 & b4 & B1 & B2 & B3 & B4 & _ & ->). rewrite !cstr_app.
  repeat (apply Forall_app; split); auto.
Qed.
Theorem C66_ipv4 : forall a t rest, dotted a t -> uecho_net_isipv6address (Some (block (cstr t) rest)) = Ok false.
Proof.
  intros a t rest D. pose proof (dotted_chars a t D) as F.
  assert (T : text_ok (cstr t)) by (eapply Forall_impl; [|exact F]; unfold char_ok; cbn; lia).
  destruct (isipv6_spec (cstr t) rest T) as (b & E & B). rewrite E. destruct b; [|reflexivity].
  destruct (proj1 B eq_refl) as [I _]. rewrite Forall_forall in F. specialize (F 58 I). lia.
Qed.
Print Assumptions C66_ipv4.

(* the full statement, that every text of an IPv6 address is recognised, fails for those that begin with
   a colon: the loopback address and the unspecified address *)
Theorem C66_colon_first_refuted : forall t rest, text_ok (58 :: t) -> uecho_net_isipv6address (Some (block (58 :: t) rest)) = Ok false.
Proof.
  intros t rest T. destruct (isipv6_spec (58 :: t) rest T) as (b & E & B). rewrite E. destruct b; [|reflexivity].
  destruct (proj1 B eq_refl) as [_ N]. destruct (N t eq_refl).
Qed.
Print Assumptions C66_colon_first_refuted.
Example C66_loopback : text_ok (cstr "::1") /\ uecho_net_isipv6address (Some (block (cstr "::1") [])) = Ok false
  /\ uecho_net_isipv6address (Some (block (cstr "fe80::1%3") [])) = Ok true.
Proof. split; [|split; vm_compute; reflexivity]. repeat (constructor; [vm_compute; split; congruence|]). constructor. Qed.

(* the scope of an IPv6 address: for every text the answer is defined; after the percent sign up to
   eight digits are read as a number *)
Theorem C66_scope_partial : forall t rest, text_ok t -> exists z, uecho_net_getipv6scopeid (Some (block t rest)) = Ok z
  /\ (forall p ds, t = p ++ 37 :: map (fun d => 48 + d) ds -> ~ In 37 p -> In 58 p -> (forall q, p <> 58 :: q) ->
        Forall (fun d => 0 <= d <= 9) ds -> (length ds <= 8)%nat -> z = number ds)
  /\ (~ In 37 t -> z = 0) /\ (~ In 58 t -> z = 0).
Proof.
  intros t rest T. destruct (scope_spec t rest T) as (z & E & S). exists z. split; [exact E|]. split; [|split].
  - intros p ds -> N I Q F L. rewrite (S p (map (fun d => 48 + d) ds) eq_refl N).
    + rewrite firstn_all2 by (rewrite map_length; exact L). exact (atoi_digits ds F).
    + apply in_or_app. left. exact I.
    + intros q X. destruct p as [|x p]; cbn [app] in X; [discriminate X|]. injection X as -> _. exact (Q p eq_refl).
  - intros N. unfold uecho_net_getipv6scopeid in E. bsplit E. destruct x; cbn [negb] in E; [|injection E as <-; reflexivity].
    destruct (strchr_char 37 t rest T) as (i & E1 & [(-> & _)|(p & q & -> & _)]).
    + rewrite E1 in E. injection E as <-. reflexivity.
    + destruct N. apply in_or_app. right. left. reflexivity.
  - intros N. unfold uecho_net_getipv6scopeid in E. destruct (isipv6_spec t rest T) as (b & EB & B). rewrite EB in E. cbn [bind] in E.
    destruct b; [destruct N; apply B; reflexivity|]. injection E as <-. reflexivity.
Qed.
Print Assumptions C66_scope_partial.
Example C66_example : text_ok (cstr "fe80::1%42") /\ uecho_net_getipv6scopeid (Some (block (cstr "fe80::1%42") [])) = Ok 42
  /\ cstr "fe80::1%42" = cstr "fe80::1" ++ 37 :: map (fun d => 48 + d) [4; 2] /\ number [4; 2] = 42
  /\ ~ In 37 (cstr "fe80::1") /\ In 58 (cstr "fe80::1").
Proof.
  split; [repeat (constructor; [vm_compute; split; congruence|]); constructor|]. split; [vm_compute; reflexivity|]. split; [reflexivity|]. split; [reflexivity|].
  split; [vm_compute; intros H; repeat (destruct H as [H|H]; [discriminate|]); exact H|vm_compute; tauto].
Qed.
(* the full statement fails for a scope of more digits, which is cut off, and for one given by the name of
   an interface, which is taken for none *)
Theorem C66_scope_refuted :
  uecho_net_getipv6scopeid (Some (block (cstr "fe80::1%123456789") [])) = Ok 12345678
  /\ uecho_net_getipv6scopeid (Some (block (cstr "fe80::1%eth0") [])) = Ok 0.
Proof. split; vm_compute; reflexivity. Qed.
Print Assumptions C66_scope_refuted.
