(* C47: no undefined behaviour in a node.  An operation of the model that would read or
   write outside an object, overflow an int or call a null pointer has no [Ok] result. *)
From Coq Require Import String ZArith List Bool Lia ZifyBool ZifyNat.
From Verif Require Import CSem M_Const M_Misc M_Property M_Message M_PropertyList M_Object M_Node M_NodeListener
  StdDB_Data M_Std Spec_Frame Spec_Message Spec_Map Spec_Object Spec_Node Spec_Request Run_Object Run_Node P_Base P_Misc
  P_Message P_Encode P_MsgApi P_PropertyList P_Object P_ObjectRun P_ObjectReach P_Std P_Node P_Request Properties_Object
  P_NodeReach P_NodeProfile P_NodeInv P_NodeRun P_NodeProps P_RequestProps P_RequestApi P_Handlers P_NodeSafe Properties_Node
  Properties_Request Properties_Request2 Properties_Handlers.
Import ListNotations.
Open Scope Z_scope.
Ltac Zify.zify_post_hook ::= Z.div_mod_to_equations.

(* uecho_node_new, whatever memory and random numbers it meets *)
Theorem C47_new : forall le net tid0 junk man uq,
  0 <= tid0 < 4294967296 -> (forall i, is_byte (junk i)) -> bytes_ok man -> bytes_ok uq ->
  (3 <= length man)%nat -> (13 <= length uq)%nat ->
  exists n posts, uecho_node_new le net std_db tid0 junk man uq = Ok (n, posts).
Proof.
  intros le net tid0 junk man uq Ht Hj Hm Hu L1 L2.
  exact (new_total le net std_db std_db_ok std_159 tid0 junk man uq (proj1 Ht) Hj Hm Hu L1 L2).
Qed.
Print Assumptions C47_new.

(* After any history of calls and datagrams, the next call or datagram goes through.  The
   calls must be [safe_nop]: they leave the three property maps and the whole property list
   (clearproperties) to the library, store integers of at most four bytes, register no NULL
   handler, and add objects whose Get property map is readable, as it is for every object
   with a code (C47_standard_object).  [room]: the data stored fit in memory.  Missing for
   the full statement: the calls left out, see C47_clear_refuted and C44_null_refuted. *)
Theorem C47_calls_partial : forall le net n0 h n own ans x,
  new_node le net std_db n0 -> nrun le net std_db n0 h n own ans -> Forall safe_nop h ->
  nop_ok le std_db x -> safe_nop x -> room n x ->
  exists r, nstep le net std_db n x = Ok r.
Proof.
  intros le net n0 h n own ans x H0 H Hs Hx Sx Rx.
  destruct (new_good le net std_db std_db_ok std_159 n0 H0) as [I0 G0].
  destruct (nrun_good le net std_db std_db_ok std_159 _ _ _ _ _ I0 G0 Hs H) as (I1 & M1 & G1).
  exact (nstep_total le net std_db std_db_ok std_159 n x I1 M1 Hx Sx Rx G1).
Qed.
Print Assumptions C47_calls_partial.

Theorem C47_standard_object : forall junk v, (forall i, is_byte (junk i)) ->
  exists o ann, uecho_object_setcode std_db junk uecho_object_new v = Ok (o, ann) /\ good o.
Proof. intros junk v Hj. exact (setcode_good std_db junk v std_db_ok std_159 Hj). Qed.
Print Assumptions C47_standard_object.

(* Any datagram at all, with any sender, in any state in which no NULL handler is
   registered. *)
Theorem C47_any_datagram : forall le net dec n data la ra,
  api_node le net std_db n -> buffer data -> (forall o, In o (n_objs n) -> no_null o) ->
  exists r, node_receive le net dec n data la ra = Ok r.
Proof.
  intros le net dec n data la ra Hn Hb Hz. destruct (api_node_ok _ _ _ _ std_db_ok Hn) as [N M].
  apply receive_total; [exact N|exact M|exact Hb|]. apply Forall_forall. exact Hz.
Qed.
Print Assumptions C47_any_datagram.

(* the history of node3, continued with a write whose handler is registered *)
Lemma nexec_hist : forall h, Forall (nop_ok true std_db) h -> nexec_mem node0 h = true ->
  exists own ans, nrun true net_up std_db node0 h (after h) own ans.
Proof.
  intros h Hk Hm. unfold after. revert Hm. generalize node0. intros n0 Hm.
  assert (X : forall h n, nexec_mem n h = true -> exists x, nexec n h = Ok x).
  { clear. induction h as [|x h IH]; intros n H; cbn [nexec nexec_mem] in *; [eauto|].
    apply andb_prop in H. destruct H as [_ H]. destruct (nstep true net_up std_db n x) as [[[n1 p1] a1]|]; [|discriminate].
    cbn [bind]. destruct (IH _ H) as ([[n2 p2] a2] & ->). cbn [bind]. eauto. }
  destruct (X h n0 Hm) as ([[n own] ans] & E). rewrite E. exists own, ans. apply nexec_run; assumption.
Qed.

Lemma set_up_ok : Forall (nop_ok true std_db) set_up.
Proof.
  unfold set_up. apply Forall_app. split; [apply devs_ok|].
  assert (X : forall c d, 128 <= c <= 255 -> forallb (fun b => (0 <=? b) && (b <? 256)) d = true ->
     nop_ok true std_db (NObj 77825 (KStep (OSetData c d) zeros))).
  { intros c d Hc Hd. apply is_byteb_val in Hd. cbn [nop_ok ocall_ok oop_ok].
    split; [split; [cbn; lia|exact Hd]|]. split; [intros c' E; injection E as <-; unfold epc_code; lia|exact zeros_ok]. }
  constructor; [apply X; [lia|reflexivity]|]. constructor; [apply X; [lia|reflexivity]|].
  repeat (constructor; [exact I|]). constructor.
Qed.

Example C47_example : exists own ans,
  new_node true net_up std_db node0 /\ nrun true net_up std_db node0 set_up node3 own ans /\ Forall safe_nop set_up
  /\ (forall x, nop_ok true std_db (NReceive (enc_frame set80) here (Some there) x)
                /\ safe_nop (NReceive (enc_frame set80) here (Some there) x)
                /\ room node3 (NReceive (enc_frame set80) here (Some there) x)).
Proof.
  destruct (nexec_hist set_up set_up_ok) as (own & ans & H); [vm_compute; reflexivity|]. exists own, ans.
  split; [exact node0_new|]. split; [exact H|]. split.
  - unfold set_up. apply Forall_app. split.
    + unfold two_devs, devs. apply Forall_forall. intros x I. apply in_map_iff in I. destruct I as (c & <- & _). exact I.
    + assert (X : forall c d, ~ map_epc c -> safe_nop (NObj 77825 (KStep (OSetData c d) zeros))).
      { intros c d Hc. split; [discriminate|]. intros c' E. injection E as <-. exact Hc. }
      constructor; [apply X; unfold map_epc; lia|]. constructor; [apply X; unfold map_epc; lia|].
      repeat (constructor; [discriminate|]). constructor.
  - intros x. split; [|split; exact I]. split; [apply is_byteb_val; vm_compute; reflexivity|vm_compute; discriminate].
Qed.

(* After clearproperties, setting the first property, write-only, reads the Get map cache
   through a null pointer: the library resets the pointer but keeps the size. *)
Definition cleared : list nop := devs [77825] ++ [NObj 77825 (KStep OClear zeros)].
Theorem C47_clear_refuted : exists n x,
  api_node true net_up std_db n /\ nop_ok true std_db x /\ (forall r, nstep true net_up std_db n x <> Ok r).
Proof.
  exists (after cleared), (NObj 77825 (KStep (OSetProperty 128 AttrWrite) zeros)).
  split; [|split].
  - apply after_api; [|vm_compute; reflexivity]. unfold cleared. apply Forall_app. split; [apply devs_ok|].
    constructor; [|constructor]. cbn [nop_ok ocall_ok oop_ok oop_code]. split; [split; exact I|].
    split; [intros c E; discriminate|exact zeros_ok].
  - cbn [nop_ok ocall_ok oop_ok oop_code]. split; [split; [cbn; lia|exact I]|].
    split; [intros c E; injection E as <-; unfold epc_code; lia|exact zeros_ok].
  - assert (E : is_ok (nstep true net_up std_db (after cleared) (NObj 77825 (KStep (OSetProperty 128 AttrWrite) zeros))) = false)
      by (vm_compute; reflexivity).
    revert E. generalize (nstep true net_up std_db (after cleared) (NObj 77825 (KStep (OSetProperty 128 AttrWrite) zeros))).
    intros [a|] E r X; [discriminate E|discriminate X].
Qed.
Print Assumptions C47_clear_refuted.
