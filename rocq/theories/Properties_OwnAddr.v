(* C53: the addresses of a started node. *)
From Coq Require Import String ZArith List Bool Lia.
From Verif Require Import CSem M_Node M_Controller M_Server M_OwnAddr Spec_Server P_Server P_Controller Properties_Node Properties_Server.
Import ListNotations.
Open Scope Z_scope.

(* the addresses a node is reached at in a phase: those of all interfaces at the last start *)
Definition reached_at (p : phase) : list string := match p with Down => [] | Up e _ _ => os_ifs e end.

Lemma bound_in : forall l a, serverlist_isboundaddress l (Some a) = true <-> In a (sockets l).
Proof.
  intros l a. unfold serverlist_isboundaddress, sockets. induction l as [|v l IH]; [cbn; split; [discriminate|contradiction]|].
  cbn [existsb flat_map]. rewrite orb_true_iff, in_app_iff, IH. destruct (v_sock v) as [x|]; cbn [In].
  - rewrite String.eqb_eq. tauto.
  - split; intros [X|X]; [discriminate|right; exact X|contradiction|right; exact X].
Qed.

Lemma bound_none : forall l, serverlist_isboundaddress l None = false.
Proof. intros l. unfold serverlist_isboundaddress. induction l as [|v l IH]; [reflexivity|]. cbn [existsb]. rewrite IH. destruct (v_sock v); reflexivity. Qed.

(* An address is bound exactly when it is one of the interfaces at the start that is in force; over every history of starts, failed
   starts, stops, options and observers. *)
Theorem C53_bound : forall ops p a, leaves ops p -> uecho_server_isboundaddress (srun ops) (Some a) = true <-> In a (reached_at p).
Proof.
  intros ops p a L. pose proof (leaves_serving _ _ L) as S. unfold uecho_server_isboundaddress.
  assert (X : (if serverlist_isboundaddress (sv_udp (srun ops)) (Some a) then true else serverlist_isboundaddress (sv_mcast (srun ops)) (Some a)) = true
    <-> In a (sockets (sv_udp (srun ops))) \/ In a (sockets (sv_mcast (srun ops)))).
  { rewrite <- !bound_in. destruct (serverlist_isboundaddress (sv_udp (srun ops)) (Some a)); [split; auto|]. split; [auto|intros [Y|Y]; [discriminate|exact Y]]. }
  rewrite X. clear X. destruct p as [|e obs o]; cbn [serving reached_at] in *.
  - destruct S as [-> ->]. cbn. tauto.
  - destruct S as (S1 & S2 & S3). destruct (sockets_up _ _ _ S1) as [E1 _]. rewrite E1.
    destruct (Z.testbit o 0) eqn:B.
    + rewrite S3 by (unfold udp_wanted; congruence). cbn. tauto.
    + destruct (sockets_up _ _ _ (S2 B)) as [E2 _]. rewrite E2. tauto.
Qed.
Print Assumptions C53_bound.

(* The address the server gives is that of the first of these interfaces, and empty when nothing runs. *)
Theorem C53_address : forall ops p, leaves ops p ->
  uecho_server_getaddress (srun ops) = match reached_at p with [] => ""%string | a :: _ => a end.
Proof.
  intros ops p L. pose proof (leaves_serving _ _ L) as S. unfold uecho_server_getaddress. destruct p as [|e obs o]; cbn [serving reached_at] in *.
  - destruct S as [_ ->]. reflexivity.
  - destruct S as (S1 & _). inversion S1 as [|a v l l' Ua _]; [reflexivity|]. destruct Ua as (Us & _). unfold srv_addr. rewrite Us. reflexivity.
Qed.
Print Assumptions C53_address.

(* A node takes an address for its own exactly when it is the one set for the node or one it is reached at; never a missing one. *)
Theorem C53_own : forall n ops p, leaves ops p ->
  (forall a, own_isaddress n (srun ops) (Some a) = true <-> n_addr n = Some a \/ In a (reached_at p))
  /\ own_isaddress n (srun ops) None = false.
Proof.
  intros n ops p L. split.
  - intros a. unfold own_isaddress. rewrite <- (C53_bound ops p a L), <- (isaddress_iff n a).
    destruct (uecho_node_isaddress n (Some a)); [split; auto|]. split; [auto|intros [X|X]; [discriminate|exact X]].
  - unfold own_isaddress, uecho_server_isboundaddress. rewrite !bound_none. unfold uecho_node_isaddress. destruct (n_addr n); reflexivity.
Qed.
Print Assumptions C53_own.

Example C53_own_example : leaves history (Up wlan [mkMobs 1 2; mkMobs 3 4] 0)
  /\ own_isaddress node0 (srun history) (Some "10.0.0.2"%string) = true
  /\ own_isaddress node0 (srun history) (Some "10.0.0.3"%string) = false
  /\ own_isaddress node0 (srun (history ++ [SStop])) (Some "10.0.0.2"%string) = false
  /\ uecho_server_getaddress (srun history) = "192.168.1.2"%string.
Proof. split; [exact history_up|]. split; [vm_compute; reflexivity|]. split; [vm_compute; reflexivity|]. split; vm_compute; reflexivity. Qed.
