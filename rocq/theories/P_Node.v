(* Lemmas about node.c: TIDs, announcements, sending. *)
From Coq Require Import String ZArith List Bool Lia ZifyBool ZifyNat.
From Verif Require Import CSem M_Const M_Misc M_Property M_Message M_PropertyList M_Object M_Node
  Spec_Frame Spec_Message Spec_Node P_Base P_Misc P_Message P_Encode P_MsgApi
  P_PropertyList P_Object P_ObjectRun P_ObjectReach.
Import ListNotations.
Open Scope Z_scope.
Ltac Zify.zify_post_hook ::= Z.div_mod_to_equations.

Lemma rd_range_all : forall A (l : list A), rd_range l 0 (len l) = Ok l.
Proof.
  intros. pose proof (rd_range_app A [] l [] 0 (len l) eq_refl eq_refl) as H. cbn [app] in H.
  rewrite app_nil_r in H. exact H.
Qed.

Lemma next_tid_eq : forall n, uecho_node_getnexttid n = (n_with_tid (next_tid (n_tid n)) n, next_tid (n_tid n)).
Proof. reflexivity. Qed.

Lemma next_tid_range : forall t, 0 <= t -> 1 <= next_tid t <= 65535.
Proof. intros. unfold next_tid. destruct (Z.leb_spec 65535 t); lia. Qed.

Lemma settid_wire : forall le t m, 0 <= t <= 65535 -> m_tid (uecho_message_settid le t m) = tid_wire le t.
Proof. intros. rewrite settid_bytes, tid_reduce_id by assumption. reflexivity. Qed.

Definition profile (n : node) : option obj := uecho_node_getobjectbycode n uEchoNodeProfileObject.

Lemma getbycode_in : forall l c o, uecho_objectlist_getbycode l c = Some o ->
  uecho_object_getcode o = c /\ In o l.
Proof.
  induction l; cbn [uecho_objectlist_getbycode]; intros; [discriminate|].
  destruct (Z.eqb_spec (uecho_object_getcode a) c) as [E|E].
  - injection H as <-. cbn; auto.
  - apply IHl in H. cbn. tauto.
Qed.

Lemma profile_code : forall n o, profile n = Some o -> uecho_object_getcode o = 978945.
Proof. intros n o H. apply getbycode_in in H. tauto. Qed.

(* the message actually sent: TID and source object replaced *)
Definition stamp (le : bool) (t : Z) (m : msg) : msg :=
  with_seoj [14; 240; 1] (uecho_message_settid le t m).

Lemma settid_fields : forall le t m,
  uecho_message_settid le t m = with_tid (m_tid (uecho_message_settid le t m)) m.
Proof. reflexivity. Qed.

Lemma settid_ok : forall le t m, msg_ok m -> msg_ok (uecho_message_settid le t m).
Proof.
  intros le t m (A1 & A2 & A3 & A4 & A5 & A6 & A7 & A8 & A9 & A10).
  pose proof (settid_is_byte le t m) as [T1 T2].
  unfold msg_ok. split; [exact A1|]. split; [exact A2|]. split; [exact T1|]. split; [exact T2|].
  unfold uecho_message_settid. msimp. tauto.
Qed.

Lemma eoj3_profile : eoj3 [14; 240; 1].
Proof. exists 14, 240, 1. unfold is_byte. repeat split; lia. Qed.

Lemma seoj_ok : forall m s, msg_ok m -> eoj3 s -> msg_ok (with_seoj s m).
Proof.
  intros m s (A1 & A2 & A3 & A4 & A5 & A6 & A7 & A8 & A9 & A10) H.
  unfold msg_ok. msimp. fold (fst (m_tid m)). fold (snd (m_tid m)). tauto.
Qed.

Lemma stamp_ok : forall le t m, msg_ok m -> msg_ok (stamp le t m).
Proof. intros. apply seoj_ok; [apply settid_ok; assumption|apply eoj3_profile]. Qed.

Lemma eoj3_length : forall l, eoj3 l -> len l = 3.
Proof. intros l (a & b & c & -> & _). reflexivity. Qed.

Lemma stamp_fits : forall le t m, msg_ok m -> fits m -> fits (stamp le t m).
Proof.
  intros le t m (_ & _ & _ & _ & A5 & _) H. apply eoj3_length in A5. unfold fits in *.
  assert (E : len (wire_msg (stamp le t m)) = len (wire_msg m)); [|rewrite E; exact H].
  unfold stamp, uecho_message_settid. set (x := (Z.shiftr _ _, Z.land _ _)). clearbody x.
  destruct m as [e1 e2 td so de es pp ps pg fr to0]. unfold wire_msg. unfold with_tid, with_seoj.
  cbn [m_ehd1 m_ehd2 m_tid m_seoj m_deoj m_esv m_p m_pset m_pget] in *.
  rewrite !len_app, !len_cons, !len_nil, A5. reflexivity.
Qed.

Lemma setsrc_profile : forall m, uecho_message_setsourceobjectcode 978945 m = Ok (with_seoj [14; 240; 1] m).
Proof. reflexivity. Qed.

Lemma wire_pos : forall m, 0 < len (wire_msg m).
Proof. intros. unfold wire_msg. rewrite len_app, !len_cons, len_nil, !len_app.
  pose proof (len_nonneg _ (m_seoj m)). pose proof (len_nonneg _ (m_deoj m)). rewrite len_cons, len_nil.
  match goal with |- context [len (if ?b then ?x else ?y)] => pose proof (len_nonneg _ (if b then x else y)) end. lia.
Qed.

Section S.
Variable le : bool.
Variable net : post -> bool.

Lemma annbytes_ok : forall m, msg_ok m -> fits m ->
  (do b <- uecho_message_getbytes m ;; do s <- uecho_message_size m ;;
   do r <- uecho_node_announcemessagebytes net b s ;; Ok r)
  = Ok ([PAnnounce (wire_msg m)], net (PAnnounce (wire_msg m))).
Proof.
  intros m Hm Hf. rewrite getbytes_spec, size_ok by assumption. cbn [bind].
  unfold uecho_node_announcemessagebytes. pose proof (wire_pos m).
  destruct (Z.leb_spec (len (wire_msg m)) 0); [lia|]. rewrite rd_range_all. reflexivity.
Qed.

Lemma sendbytes_ok : forall m a, msg_ok m -> fits m ->
  (do b <- uecho_message_getbytes m ;; do s <- uecho_message_size m ;;
   do r <- uecho_node_sendmessagebytes net (Some a) b s ;; Ok r)
  = Ok ([PSend a (wire_msg m)], net (PSend a (wire_msg m))).
Proof.
  intros m a Hm Hf. rewrite getbytes_spec, size_ok by assumption. cbn [bind].
  unfold uecho_node_sendmessagebytes. pose proof (wire_pos m).
  destruct (Z.leb_spec (len (wire_msg m)) 0); [lia|]. rewrite rd_range_all. reflexivity.
Qed.

Lemma announcemessage_spec : forall n m, msg_ok m -> fits m ->
  let t := next_tid (n_tid n) in
  uecho_node_announcemessage le net n m
  = Ok (match profile n with
        | None => mkSent (n_with_tid t n) (uecho_message_settid le t m) [] false
        | Some _ => mkSent (n_with_tid t n) (stamp le t m)
                     [PAnnounce (wire_msg (stamp le t m))] (net (PAnnounce (wire_msg (stamp le t m))))
        end).
Proof.
  intros n m Hm Hf t. unfold uecho_node_announcemessage. rewrite next_tid_eq. fold t.
  change (uecho_node_getobjectbycode (n_with_tid t n) uEchoNodeProfileObject) with (profile n).
  destruct (profile n) as [o|] eqn:E; [|reflexivity].
  rewrite (profile_code _ _ E), setsrc_profile. cbn [bind]. fold (stamp le t m).
  pose proof (annbytes_ok (stamp le t m) (stamp_ok le t m Hm) (stamp_fits le t m Hm Hf)) as A.
  destruct (uecho_message_getbytes (stamp le t m)) as [b|]; [|discriminate]. cbn [bind] in *.
  destruct (uecho_message_size (stamp le t m)) as [s|]; [|discriminate]. cbn [bind] in *.
  destruct (uecho_node_announcemessagebytes net b s) as [r|]; [|discriminate]. cbn [bind] in *.
  injection A as ->. reflexivity.
Qed.

(* whatever happens, only the TID of the node changes *)
Lemma announcemessage_shape : forall n m s, uecho_node_announcemessage le net n m = Ok s ->
  s_node s = n_with_tid (next_tid (n_tid n)) n.
Proof.
  intros n m s H. unfold uecho_node_announcemessage in H. rewrite next_tid_eq in H.
  destruct (uecho_node_getobjectbycode _ _); [|injection H as <-; reflexivity].
  do 4 (match type of H with bind ?e _ = _ => destruct e; [cbn [bind] in H|discriminate] end).
  injection H as <-. reflexivity.
Qed.

Lemma sendmessage_shape : forall n d m s, uecho_node_sendmessage le net n d m = Ok s ->
  s_node s = n_with_tid (next_tid (n_tid n)) n.
Proof.
  intros n d m s H. unfold uecho_node_sendmessage in H. rewrite next_tid_eq in H.
  destruct (uecho_node_getobjectbycode _ _); [|injection H as <-; reflexivity].
  do 4 (match type of H with bind ?e _ = _ => destruct e; [cbn [bind] in H|discriminate] end).
  injection H as <-. reflexivity.
Qed.

Lemma sendmessage_spec : forall n d m, msg_ok m -> fits m ->
  let t := next_tid (n_tid n) in
  uecho_node_sendmessage le net n d m
  = Ok (match profile n with
        | None => mkSent (n_with_tid t n) (uecho_message_settid le t m) [] false
        | Some _ =>
            match n_addr d with
            | None => mkSent (n_with_tid t n) (stamp le t m) [] false
            | Some a => mkSent (n_with_tid t n) (stamp le t m)
                     [PSend a (wire_msg (stamp le t m))] (net (PSend a (wire_msg (stamp le t m))))
            end
        end).
Proof.
  intros n d m Hm Hf t. unfold uecho_node_sendmessage. rewrite next_tid_eq. fold t.
  change (uecho_node_getobjectbycode (n_with_tid t n) uEchoNodeProfileObject) with (profile n).
  destruct (profile n) as [o|] eqn:E; [|reflexivity].
  rewrite (profile_code _ _ E), setsrc_profile. cbn [bind]. fold (stamp le t m).
  pose proof (stamp_ok le t m Hm) as K. pose proof (stamp_fits le t m Hm Hf) as F.
  destruct (n_addr d) as [a|].
  - pose proof (sendbytes_ok (stamp le t m) a K F) as A.
    destruct (uecho_message_getbytes (stamp le t m)) as [b|]; [|discriminate]. cbn [bind] in *.
    destruct (uecho_message_size (stamp le t m)) as [s|]; [|discriminate]. cbn [bind] in *.
    destruct (uecho_node_sendmessagebytes net (Some a) b s) as [r|]; [|discriminate]. cbn [bind] in *.
    injection A as ->. reflexivity.
  - rewrite getbytes_spec, size_ok by assumption. reflexivity.
Qed.

(* ---- announcing a property ---- *)

(* property values a node can be asked to announce; an object in memory is smaller than
   2^40 bytes *)
Definition DATA_MAX : Z := 1099511627776.
Definition ann_ok (p : prop) : Prop :=
  is_byte (p_code p) /\ bytes_ok (p_data p) /\ len (p_data p) <= DATA_MAX.

Definition inf_msg (code : Z) (p : prop) : msg :=
  mkMsg 16 129 (0, 0) [byte_of code 2; byte_of code 1; byte_of code 0] [14; 240; 1] 115
        (mkPvec 1 (Some [uecho_property_copy p])) pv_empty pv_empty None None.

(* the bytes announced for property value [p] with TID [t] *)
Definition inf_bytes (t : Z) (p : prop) : list Z :=
  [16; 129; fst (tid_wire le t); snd (tid_wire le t); 14; 240; 1; 14; 240; 1; 115; 1;
   p_code p; to_byte (len (p_data p))] ++ p_data p.

Lemma inf_msg_ok : forall code p, is_byte (p_code p) -> bytes_ok (p_data p) -> msg_ok (inf_msg code p).
Proof.
  intros code p Hc Hd. unfold inf_msg, msg_ok.
  cbn [m_ehd1 m_ehd2 m_tid m_seoj m_deoj m_esv m_p m_pset m_pget fst snd].
  split; [unfold is_byte; lia|]. split; [unfold is_byte; lia|]. split; [unfold is_byte; lia|].
  split; [unfold is_byte; lia|]. split; [apply eoj3_of_code|]. split; [apply eoj3_profile|].
  split; [unfold is_byte; lia|]. split; [|split; apply pv_empty_ok].
  rewrite copy_eq. split; cbn [pv_opc pv_ep]; [lia|]. split; [reflexivity|]. split; [discriminate|].
  constructor; [|constructor]. split; [exact Hc|]. split; [exact Hd|reflexivity].
Qed.

Lemma inf_wire : forall t code p, 0 <= t <= 65535 -> wire_msg (stamp le t (inf_msg code p)) = inf_bytes t p.
Proof.
  intros t code p Ht. unfold stamp, wire_msg.
  change (m_tid (with_seoj [14; 240; 1] (uecho_message_settid le t (inf_msg code p))))
    with (m_tid (uecho_message_settid le t (inf_msg code p))).
  rewrite settid_wire by assumption.
  change (m_esv (with_seoj [14; 240; 1] (uecho_message_settid le t (inf_msg code p)))) with 115.
  change (two_listsb 115) with false. cbv iota.
  change (m_p (with_seoj [14; 240; 1] (uecho_message_settid le t (inf_msg code p))))
    with (mkPvec 1 (Some [uecho_property_copy p])).
  rewrite copy_eq. unfold pv_list, stored, wire_props, wire_prop. cbn [pv_ep pv_opc map concat p_code p_data].
  rewrite app_nil_r. reflexivity.
Qed.

Lemma inf_fits : forall code p, ann_ok p -> fits (inf_msg code p).
Proof.
  intros code p (_ & _ & H). unfold fits, PTRDIFF_MAX. 
  assert (E : len (wire_msg (inf_msg code p)) = 14 + len (p_data p)).
  { unfold wire_msg. change (m_esv (inf_msg code p)) with 115. change (two_listsb 115) with false. cbv iota.
    change (m_p (inf_msg code p)) with (mkPvec 1 (Some [uecho_property_copy p])).
    rewrite copy_eq. unfold pv_list, stored, wire_props, wire_prop. cbn [pv_ep pv_opc map concat p_code p_data].
    unfold inf_msg. cbn [m_ehd1 m_ehd2 m_tid m_seoj m_deoj fst snd]. rewrite app_nil_r.
    rewrite !len_app, !len_cons, !len_nil. lia. }
  rewrite E. unfold DATA_MAX in H. lia.
Qed.

Lemma announceproperty_eq : forall n code p, is_byte (p_code p) -> bytes_ok (p_data p) ->
  uecho_node_announceproperty le net n code p = uecho_node_announcemessage le net n (inf_msg code p).
Proof.
  intros n code p Hc Hd. unfold uecho_node_announceproperty, uecho_message_setsourceobjectcode, uEchoEOJSize.
  rewrite integer2byte_3. cbn [bind].
  change (uecho_message_setdestinationobjectcode uEchoNodeProfileObject
    (with_seoj [byte_of code 2; byte_of code 1; byte_of code 0] (uecho_message_setesv ESV_INF uecho_message_new)))
  with (Ok (with_deoj [14; 240; 1] (with_seoj [byte_of code 2; byte_of code 1; byte_of code 0] (uecho_message_setesv ESV_INF uecho_message_new)))).
  cbn [bind]. unfold uecho_message_addproperty.
  match goal with |- context [m_p ?m] => change (m_p m) with pv_empty end.
  change (uecho_property_add pv_empty (uecho_property_copy p)) with (Ok (mkPvec 1 (Some [uecho_property_copy p]))).
  reflexivity.
Qed.

Lemma announceproperty_spec : forall n code p, ann_ok p -> 0 <= n_tid n ->
  let t := next_tid (n_tid n) in
  exists s, uecho_node_announceproperty le net n code p = Ok s
  /\ s_node s = n_with_tid t n
  /\ match profile n with
     | None => s_posts s = [] /\ s_ret s = false
     | Some _ => s_posts s = [PAnnounce (inf_bytes t p)] /\ s_ret s = net (PAnnounce (inf_bytes t p))
     end.
Proof.
  intros n code p Hp Ht t. destruct Hp as (Hc & Hd & Hl).
  rewrite announceproperty_eq by assumption.
  rewrite announcemessage_spec; [| apply inf_msg_ok; assumption | apply inf_fits; exact (conj Hc (conj Hd Hl))].
  fold t. pose proof (next_tid_range _ Ht) as R. fold t in R.
  eexists. split; [reflexivity|]. destruct (profile n); cbn [s_node s_posts s_ret].
  - rewrite inf_wire by lia. auto.
  - auto.
Qed.

Lemma announceproperty_shape : forall n code p s, uecho_node_announceproperty le net n code p = Ok s ->
  s_node s = n_with_tid (next_tid (n_tid n)) n.
Proof.
  intros n code p s H. unfold uecho_node_announceproperty in H.
  do 3 (match type of H with bind ?e _ = _ => destruct e; [cbn [bind] in H|discriminate] end).
  eapply announcemessage_shape; eauto.
Qed.

Fixpoint infs (t : Z) (anns : list prop) : list post :=
  match anns with
  | [] => []
  | p :: r => PAnnounce (inf_bytes (next_tid t) p) :: infs (next_tid t) r
  end.

Definition tid_iter (k : nat) (t : Z) : Z := Nat.iter k next_tid t.

Lemma tid_iter_S : forall k t, tid_iter (S k) t = tid_iter k (next_tid t).
Proof. intros. unfold tid_iter, Nat.iter. induction k; cbn [nat_rect] in *; [reflexivity|]. rewrite IHk. reflexivity. Qed.

Lemma tid_iter_nonneg : forall k t, 0 <= t -> 0 <= tid_iter k t.
Proof.
  induction k; intros; [assumption|]. rewrite tid_iter_S. apply IHk.
  pose proof (next_tid_range t H). lia.
Qed.

Lemma with_tid_tid : forall a b n, n_with_tid a (n_with_tid b n) = n_with_tid a n.
Proof. reflexivity. Qed.
Lemma with_tid_same : forall n, n_with_tid (n_tid n) n = n.
Proof. destruct n; reflexivity. Qed.

Lemma node_emit_shape : forall anns n code n' posts, node_emit le net n code anns = Ok (n', posts) ->
  n' = n_with_tid (tid_iter (length anns) (n_tid n)) n.
Proof.
  induction anns as [|p r IH]; intros n code n' posts H; cbn [node_emit] in H.
  - injection H as <- <-. symmetry. apply with_tid_same.
  - apply bind_ok in H. destruct H as (s & E & H). apply bind_ok in H. destruct H as ([n2 ps] & E2 & H).
    cbn [fst snd] in H. injection H as <- <-. apply IH in E2. rewrite E2.
    rewrite (announceproperty_shape _ _ _ _ E). cbn [length]. rewrite tid_iter_S. reflexivity.
Qed.

Lemma node_emit_spec : forall anns n code, Forall ann_ok anns -> 0 <= n_tid n ->
  node_emit le net n code anns
  = Ok (n_with_tid (tid_iter (length anns) (n_tid n)) n,
        match profile n with None => [] | Some _ => infs (n_tid n) anns end).
Proof.
  induction anns as [|p r IH]; intros n code H Ht; cbn [node_emit].
  - cbn [length]. unfold tid_iter, Nat.iter. cbn [nat_rect]. rewrite with_tid_same. destruct (profile n); reflexivity.
  - inversion H as [|? ? Hp Hr]; subst. destruct (announceproperty_spec n code p Hp Ht) as (s & E & En & Ep).
    rewrite E. cbn [bind]. rewrite En. rewrite IH; [|exact Hr| cbn [n_tid n_with_tid]; pose proof (next_tid_range _ Ht); lia].
    cbn [bind fst snd length n_tid n_with_tid]. rewrite tid_iter_S.
    change (profile (n_with_tid (next_tid (n_tid n)) n)) with (profile n).
    destruct (profile n).
    + destruct Ep as [-> _]. reflexivity.
    + destruct Ep as [-> _]. reflexivity.
Qed.

End S.

Lemma inf_bytes_enc : forall le t p, len (p_data p) <= 255 ->
  inf_bytes le t p = enc_frame (notification le t node_profile_eoj (p_code p) (p_data p)).
Proof.
  intros le t p H. unfold inf_bytes, enc_frame, notification, node_profile_eoj, to_byte.
  cbn [f_tid f_seoj f_deoj f_esv f_body enc_eoj enc_body enc_props map concat enc_prop fst snd length app].
  pose proof (len_nonneg _ (p_data p)). rewrite (Z.mod_small (len (p_data p)) 256) by lia. unfold enc_props.
  cbn [map concat length enc_prop fst snd app]. rewrite app_nil_r. reflexivity.
Qed.
