(* C82, continued: nobody breaks down on the way. *)
From Coq Require Import String ZArith List Bool Permutation Lia ZifyBool ZifyNat.
From Verif Require Import CSem M_Const M_Misc M_Property M_Message M_PropertyList M_Object M_Node M_NodeListener M_Controller
  StdDB_Data M_Std Spec_Frame Spec_Message Spec_Map Spec_Object Spec_Node Spec_Request Spec_Controller Run_Object Run_Node
  Run_Controller Run_System Run_Parties P_Base P_Misc P_Message P_Encode P_MsgApi P_PropertyList P_Object P_ObjectRun P_ObjectReach P_Std P_Node
  P_Request Properties_Object P_NodeReach P_NodeProfile P_NodeInv P_NodeRun P_NodeProps P_RequestProps P_RequestApi P_NodeSafe
  P_Shadow P_Controller P_ControllerProps P_CtrlSafe P_System P_Storm Properties_Node Properties_Request Properties_Safety
  Properties_Controller Properties_CtrlSafety Properties_Storm.
Import ListNotations.
Open Scope Z_scope.
Ltac Zify.zify_post_hook ::= Z.div_mod_to_equations.

(* a device or a controller with a history of safe calls only (C47, C50) *)
Definition careful (le : nat -> bool) (net snet : nat -> post -> bool) (i : nat) (p : party) : Prop :=
  match p with
  | Device n => exists n0 h own ans, new_node (le i) (net i) std_db n0 /\ nrun (le i) (net i) std_db n0 h n own ans
      /\ Forall safe_nop h
  | Controller c => exists c0 h, new_ctrl (le i) (net i) std_db c0 /\ crun (le i) (net i) (snet i) std_db c0 h c
      /\ Forall safe_cop h
  end.

Definition party_good (p : party) : Prop :=
  match p with Device n => ngood n | Controller c => cgood c /\ live c end.

Lemma careful_good : forall le net snet i p, careful le net snet i p -> party_inv p /\ party_good p.
Proof.
  intros le net snet i [n|c] H; cbn [careful party_inv party_good] in *.
  - destruct H as (n0 & h & own & ans & H0 & H & Hs). destruct (new_good _ _ std_db std_db_ok std_159 n0 H0) as [I0 G0].
    destruct (nrun_good _ _ std_db std_db_ok std_159 _ _ _ _ _ I0 G0 Hs H) as (I1 & M1 & G1). auto.
  - destruct H as (c0 & h & H0 & H & Hs). destruct (new_ctrl_good _ _ std_db std_db_ok std_159 c0 H0) as (I0 & G0 & L0).
    destruct (crun_good _ _ _ std_db std_db_ok std_159 c0 h c I0 H Hs G0 L0) as (I1 & M1 & G1 & L1). auto.
Qed.

Lemma hear_total : forall le net snet i p data la ra dec fr, party_inv p -> party_good p -> buffer data -> fresh_ok fr -> enough fr ->
  exists p' posts, hear le net snet i p data la ra dec fr = Ok (p', posts) /\ party_good p'.
Proof.
  intros le net snet i [n|c] data la ra dec fr I G Hb Hf He; cbn [party_inv party_good hear] in *.
  - destruct I as [I M].
    destruct (nstep_total (le i) (net i) std_db std_db_ok std_159 n (NReceive data la ra dec) I M Hb Logic.I Logic.I G) as [[[n' own] ans] E].
    rewrite E. eexists _, _. split; [reflexivity|].
    exact (nstep_good (le i) (net i) std_db std_db_ok std_159 n (NReceive data la ra dec) n' own ans I M Hb Logic.I E G).
  - destruct I as [I M]. destruct G as [G L].
    destruct (cstep_total (le i) (net i) (snet i) std_db c (CReceive data la ra dec fr) std_db_ok std_159 I M G L (conj Hb Hf) He Logic.I) as [out E].
    rewrite E. eexists _, _. split; [reflexivity|].
    exact (cstep_good (le i) (net i) (snet i) std_db std_db_ok std_159 c (CReceive data la ra dec fr) out I M (conj Hb Hf) He E G L).
Qed.

Lemma run_good : forall le net snet k s s', net_run le net snet k s s' -> all_inv (fst s) ->
  (forall i p, nth_error (fst s) i = Some p -> party_good p) ->
  all_inv (fst s') /\ forall i p, nth_error (fst s') i = Some p -> party_good p.
Proof.
  intros le net snet k s s' R. induction R as [s|k [ps fl] [ps1 fl1] s' St R IH]; intros I G; [auto|]. cbn [fst] in *.
  apply IH.
  - exact (proj1 (step_weight le net snet _ _ _ _ I St)).
  - inversion St as [? f1 d f2|? f1 i data f2 p p' posts la ra dec fr copies N Hb Hfr L3 L13 H M Sp]; subst; [exact G|].
    destruct (hear_total le net snet i p data la ra dec fr (I _ _ N) (G _ _ N) Hb Hfr (conj L3 L13)) as (q & posts' & E & Gq).
    rewrite E in H. injection H as <- <-.
    intros j x Hx. apply replace_nth in Hx. destruct Hx as [->|Hx]; [exact Gq|eauto].
Qed.

(* Whatever was delivered and lost before, whoever gets whatever bytes next, with any sender and
   any decisions of handlers, takes them without undefined behaviour. *)
Theorem C82_goes_through : forall le net snet k ps fl ps' fl' i p data la ra dec fr,
  (forall j q, nth_error ps j = Some q -> careful le net snet j q) -> net_run le net snet k (ps, fl) (ps', fl') ->
  nth_error ps' i = Some p -> buffer data -> fresh_ok fr -> enough fr ->
  exists p' posts, hear le net snet i p data la ra dec fr = Ok (p', posts).
Proof.
  intros le net snet k ps fl ps' fl' i p data la ra dec fr C R N Hb Hf He.
  destruct (run_good le net snet _ _ _ R) as [I G].
  - intros j q Hq. exact (proj1 (careful_good _ _ _ _ _ (C j q Hq))).
  - intros j q Hq. exact (proj2 (careful_good _ _ _ _ _ (C j q Hq))).
  - destruct (hear_total le net snet i p data la ra dec fr (I _ _ N) (G _ _ N) Hb Hf He) as (p' & posts & E & _). eauto.
Qed.
Print Assumptions C82_goes_through.

(* hypotheses hold: a device with request handlers, and a controller with a request under way that
   could not be sent; the device gets a write request, and its notifications reach both *)
Definition two_careful : list party := [Device node3; Controller (cafter busy)].
Lemma two_are_careful : forall j q, nth_error two_careful j = Some q -> careful le0 up0 down0 j q.
Proof.
  intros j q H. destruct j as [|[|j]]; [| |destruct j; discriminate]; cbn [two_careful nth_error] in H; injection H as <-.
  - destruct C47_example as (own & ans & A & B & C & _). exists node0, set_up, own, ans. split; [exact A|]. split; [exact B|exact C].
  - destruct C50_example as (A & B & C & _). exists ctrl0, busy. split; [exact A|]. split; [exact B|exact C].
Qed.
Definition write80 : network := (two_careful, [(0%nat, enc_frame set80)]).
Example C82_goes_through_example : (forall j q, nth_error (fst write80) j = Some q -> careful le0 up0 down0 j q)
  /\ exists ps d fl, net_run le0 up0 down0 1 write80 (ps, d :: fl) /\ length ps = 2%nat /\ buffer (snd d) /\ fresh_ok fr0 /\ enough fr0.
Proof.
  split; [exact two_are_careful|].
  assert (K : match deliveries 1 write80 with
              | Some (ps, (_, b) :: _) => (length ps =? 2)%nat && forallb (fun b => (0 <=? b) && (b <? 256)) b && (len b <=? 1000)
              | _ => false end = true) by (vm_compute; reflexivity).
  revert K. generalize write80. intros s K. destruct (deliveries 1 s) as [[ps [|[i b] fl]]|] eqn:E; try discriminate.
  apply andb_prop in K. destruct K as [K K3]. apply andb_prop in K. destruct K as [K1 K2]. apply Nat.eqb_eq in K1.
  exists ps, (i, b), fl. split; [apply deliveries_run; exact E|]. split; [exact K1|]. split.
  - split; [apply is_byteb_val; exact K2|]. unfold OBJ_MAX, PTRDIFF_MAX. cbn [snd]. lia.
  - split; [apply fr0_ok|]. split; vm_compute; lia.
Qed.
