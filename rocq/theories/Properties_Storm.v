(* C82: what devices and controllers send each other in reaction to a frame dies out.
   [le], [net] and [snet] give every party's byte order and which of its sends succeed. *)
From Coq Require Import String ZArith List Bool Permutation Lia ZifyBool ZifyNat.
From Verif Require Import CSem M_Const M_Misc M_Property M_Message M_PropertyList M_Object M_Node M_NodeListener M_Controller
  StdDB_Data M_Std Spec_Frame Spec_Message Spec_Map Spec_Object Spec_Node Spec_Request Spec_Controller Run_Object Run_Node
  Run_Controller Run_System Run_Parties P_Base P_Misc P_Message P_Encode P_MsgApi P_PropertyList P_Object P_ObjectRun P_ObjectReach P_Std P_Node
  P_Request Properties_Object P_NodeReach P_NodeProfile P_NodeInv P_NodeRun P_NodeProps P_RequestProps P_RequestApi P_NodeSafe
  P_Shadow P_Controller P_ControllerProps P_System P_Storm Properties_Node Properties_Request Properties_Controller.
Import ListNotations.
Open Scope Z_scope.
Ltac Zify.zify_post_hook ::= Z.div_mod_to_equations.

Lemma parties_inv : forall le net snet ps, parties_ok le net snet ps -> all_inv ps.
Proof. intros le net snet ps H i p G. eapply party_start. apply (H i p G). Qed.

(* Whatever is under way, in whatever order it arrives: after at most this many deliveries and
   losses nothing is under way.  A request leads to at most 256 frames (255 changed properties
   and the answer), each of which reaches everybody at most once; anything else leads to none. *)
Theorem C82_dies_out : forall le net snet k ps fl ps' fl',
  parties_ok le net snet ps -> net_run le net snet k (ps, fl) (ps', fl') ->
  (k + length fl' <= length fl + 256 * length ps * requests fl)%nat.
Proof.
  intros le net snet k ps fl ps' fl' H R. destruct (run_weight _ _ _ _ _ _ R (parties_inv _ _ _ _ H)) as (_ & _ & W & _).
  cbn [fst snd] in W. unfold weight in W. lia.
Qed.
Print Assumptions C82_dies_out.

(* so no sequence of deliveries goes on for ever *)
Theorem C82_no_storm : forall le net snet (s : nat -> network),
  parties_ok le net snet (fst (s O)) -> ~ (forall k, net_step le net snet (s k) (s (S k))).
Proof.
  intros le net snet s H St.
  assert (R : forall k i, net_run le net snet k (s i) (s (k + i)%nat)).
  { induction k as [|k IH]; intros i; [constructor|]. econstructor; [apply St|].
    replace (S k + i)%nat with (k + S i)%nat by lia. apply IH. }
  pose proof (R (S (length (snd (s O)) + 256 * length (fst (s O)) * requests (snd (s O)))) 0%nat) as R0.
  destruct (s O) as [ps fl]. destruct (s (S _ + 0)%nat) as [ps' fl']. cbn [fst snd] in *.
  pose proof (C82_dies_out _ _ _ _ _ _ _ _ H R0). lia.
Qed.
Print Assumptions C82_no_storm.

(* No reaction is a request: what asks for something was under way from the start. *)
Theorem C82_no_new_requests : forall le net snet k ps fl ps' fl' d,
  parties_ok le net snet ps -> net_run le net snet k (ps, fl) (ps', fl') ->
  In d fl' -> requestb (snd d) = true -> In d fl.
Proof.
  intros le net snet k ps fl ps' fl' d H R I Q. destruct (run_weight _ _ _ _ _ _ R (parties_inv _ _ _ _ H)) as (_ & _ & _ & X).
  exact (X d I Q).
Qed.
Print Assumptions C82_no_new_requests.

(* Without a request under way the very next step sends nothing. *)
Theorem C82_quiet : forall le net snet k ps fl ps' fl',
  parties_ok le net snet ps -> requests fl = O -> net_run le net snet k (ps, fl) (ps', fl') ->
  requests fl' = O /\ (k + length fl' <= length fl)%nat.
Proof.
  intros le net snet k ps fl ps' fl' H Q R. split.
  - destruct (run_weight _ _ _ _ _ _ R (parties_inv _ _ _ _ H)) as (_ & _ & _ & X). cbn [snd] in X.
    apply requests_none. intros d Hd. destruct (requestb (snd d)) eqn:E; [|reflexivity].
    assert (Y : forall fl d, In d fl -> requestb (snd d) = true -> (0 < requests fl)%nat).
    { clear. intros fl d I E. unfold requests. assert (Z0 : In d (filter (fun d => requestb (snd d)) fl)) by (apply filter_In; auto).
      destruct (filter _ fl); [destruct Z0|cbn; lia]. }
    pose proof (Y _ _ (X d Hd E) E). lia.
  - pose proof (C82_dies_out _ _ _ _ _ _ _ _ H R). rewrite Q in *. lia.
Qed.
Print Assumptions C82_quiet.

(* hypotheses hold: two devices and a controller; a search request reaches all three, the
   devices answer and everybody gets every answer *)
Definition le0 : nat -> bool := fun _ => true.
Definition up0 : nat -> post -> bool := fun _ => net_up.
Definition down0 : nat -> post -> bool := fun _ => net_down.
Definition deliver (s : network) : option network :=
  match s with
  | (ps, (i, data) :: fl) =>
      match nth_error ps i with
      | Some p =>
          if forallb (fun b => (0 <=? b) && (b <? 256)) data && (len data <=? 1000) then
            match hear le0 up0 down0 i p data here (Some there) yes fr0 with
            | Ok (p', posts) =>
                if match p' with Device n => mem_okb n | Controller c => cmem_okb c end then
                  Some (replace i p' ps, fl ++ map (fun e => (fst e, frame_bytes (snd e))) (list_prod (seq 0 (length ps)) posts))
                else None
            | _ => None
            end
          else None
      | None => None
      end
  | _ => None
  end.
Fixpoint deliveries (k : nat) (s : network) : option network :=
  match k with O => Some s | S k' => match deliver s with Some s' => deliveries k' s' | None => None end end.
Lemma deliver_step : forall s s', deliver s = Some s' -> net_step le0 up0 down0 s s'.
Proof.
  intros [ps [|[i data] fl]] s' H; cbn [deliver] in H; [discriminate|].
  destruct (nth_error ps i) as [p|] eqn:G; [|discriminate].
  destruct (forallb _ data && _) eqn:K; [|discriminate].
  destruct (hear le0 up0 down0 i p data here (Some there) yes fr0) as [[p' posts]|] eqn:E; [|discriminate].
  match type of H with (if ?b then _ else _) = _ => destruct b eqn:M; [|discriminate] end. injection H as <-.
  apply andb_prop in K. destruct K as [K1 K2]. apply is_byteb_val in K1.
  apply (net_deliver le0 up0 down0 ps [] i data fl p p' posts here (Some there) yes fr0); [exact G| |apply fr0_ok|vm_compute; lia|vm_compute; lia|exact E| |].
  - split; [exact K1|]. unfold OBJ_MAX, PTRDIFF_MAX. lia.
  - destruct p'; [apply mem_okb_ok|apply cmem_okb_ok]; exact M.
  - exists (list_prod (seq 0 (length ps)) posts), []. split; [rewrite app_nil_r; apply Permutation_refl|].
    generalize (list_prod (seq 0 (length ps)) posts). intros l. induction l as [|[j q] l IH]; constructor; [|exact IH].
    split; [reflexivity|]. exists (length (frame_bytes q)). symmetry. apply firstn_all.
Qed.
Lemma deliveries_run : forall k s s', deliveries k s = Some s' -> net_run le0 up0 down0 k s s'.
Proof.
  induction k as [|k IH]; intros s s' H; cbn [deliveries] in H; [injection H as <-; constructor|].
  destruct (deliver s) as [s1|] eqn:E; [|discriminate]. econstructor; [apply deliver_step; exact E|apply IH; exact H].
Qed.

Definition search0 : list Z := enc_frame (mkFrame (1, 1) node_profile_eoj node_profile_eoj 98 (Plain [(214, [])])).
Definition three : list party := [Device node2; Device node3; Controller ctrl1].
Definition searching : network := (three, [(0%nat, search0); (1%nat, search0); (2%nat, search0)]).
Example C82_example : parties_ok le0 up0 down0 three /\ requests (snd searching) = 3%nat
  /\ exists ps, net_run le0 up0 down0 12 searching (ps, [])
  /\ match nth_error ps 2 with Some (Controller c) => uecho_controller_getnodebyaddress c (Some there) <> None | _ => False end.
Proof.
  split.
  { intros i p G. destruct i as [|[|[|i]]]; cbn [three nth_error] in G.
    - injection G as <-. exact node2_api.
    - injection G as <-. exact node3_api.
    - injection G as <-. exact ctrl1_api.
    - destruct i; discriminate. }
  split; [vm_compute; reflexivity|].
  assert (K : match deliveries 12 searching with
              | Some (ps, []) => match nth_error ps 2 with
                  | Some (Controller c) => match uecho_controller_getnodebyaddress c (Some there) with Some _ => true | None => false end
                  | _ => false end
              | _ => false end = true) by (vm_compute; reflexivity).
  revert K. generalize searching. intros s K. destruct (deliveries 12 s) as [[ps [|? ?]]|] eqn:E; try discriminate.
  exists ps. split; [apply deliveries_run; exact E|]. destruct (nth_error ps 2) as [[n|c]|]; try discriminate.
  destruct (uecho_controller_getnodebyaddress c (Some there)); [discriminate|discriminate K].
Qed.
