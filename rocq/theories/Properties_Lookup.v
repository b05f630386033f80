(* C59: lookups find exactly what is there.  C60: waiting for an object or a property.
   C61: messages sent and announced through an object.  C62: reading the node profile.
   C63: properties of a message by code, comparing and copying properties. *)
From Coq Require Import String ZArith List Bool Lia ZifyBool ZifyNat.
From Verif Require Import CSem M_Const M_Misc M_Property M_Message M_PropertyList M_Object M_Node M_NodeListener M_Controller M_Lookup
  StdDB_Data M_Std Spec_Frame Spec_Message Spec_Map Spec_Object Spec_Node Spec_Request Spec_Controller Run_Object Run_Node
  Run_Controller P_Base P_Misc P_Message P_Encode P_MsgApi P_PropertyList P_Object P_ObjectRun P_ObjectReach P_Std P_Node
  P_Request Properties_Object P_NodeReach P_NodeProfile P_NodeInv P_NodeRun P_NodeProps P_RequestProps P_RequestApi P_NodeSafe
  P_Shadow P_Controller P_ControllerProps Properties_Message Properties_Node Properties_Request Properties_Controller P_EndToEnd
  Properties_EndToEnd P_Lookup.
Import ListNotations.
Open Scope Z_scope.
Ltac Zify.zify_post_hook ::= Z.div_mod_to_equations.

(* ---------- C59: lookups ---------- *)

(* an object by its code *)
Theorem C59_object : forall le net n code, api_node le net std_db n ->
  (forall o, uecho_node_getobjectbycode n code = Some o <-> In o (n_objs n) /\ eoj_code (o_grp o, o_cls o, o_ins o) = code)
  /\ (uecho_node_getobjectbycode n code = None <-> ~ In code (map eoj_code (eojs n)))
  /\ (uecho_node_hasobjectbycode n code = true <-> In code (map eoj_code (eojs n))).
Proof.
  intros le net n code H. destruct (api_node_ok _ _ _ _ std_db_ok H) as [N _].
  assert (A : uecho_node_getobjectbycode n code = None <-> ~ In code (map eoj_code (eojs n))).
  { rewrite <- (eojs_codes n N). apply oget_none. }
  split; [|split; [exact A|]].
  - intros o. destruct N as (_ & O & D & _). rewrite Forall_forall in O. split.
    + intros G. apply getbycode_in in G. destruct G as [E I]. split; [exact I|]. rewrite <- E. symmetry. apply (ocode o). apply O in I. apply I.
    + intros [I E]. pose proof (O _ I) as (_ & B & _). change (o_grp o, o_cls o, o_ins o) with (eoj_of o) in E. rewrite <- (ocode o B) in E.
      subst code. exact (oget_in _ D _ I).
  - unfold uecho_node_hasobjectbycode. destruct (uecho_node_getobjectbycode n code) as [o|] eqn:G.
    + split; [|reflexivity]. intros _. destruct (in_dec Z.eq_dec code (map eoj_code (eojs n))) as [I|I]; [exact I|]. apply A in I. discriminate.
    + split; [discriminate|]. intros I. exfalso. apply A; auto.
Qed.
Print Assumptions C59_object.

(* a class by its code: its two bytes *)
Theorem C59_class : forall le net n code, api_node le net std_db n ->
  (forall c, uecho_node_getclassbycode n code = Some c -> uecho_class_iscode c code = true /\ In c (n_classes n))
  /\ (uecho_node_hasclassbycode n code = true <-> exists g c i, In (g, c, i) (eojs n) /\ g * 256 + c = code).
Proof.
  intros le net n code H. destruct (api_node_ok _ _ _ _ std_db_ok H) as [N _]. split.
  - intros c G. apply cget_some in G. destruct G as [I E]. unfold uecho_class_iscode. rewrite E, Z.eqb_refl. auto.
  - assert (K : In code (map uecho_class_getcode (n_classes n)) <-> exists g c i, In (g, c, i) (eojs n) /\ g * 256 + c = code).
    { rewrite (classes_in n N). split; [intros ([[g c] i] & I & E); exists g, c, i; auto|intros (g & c & i & I & E); exists (g, c, i); auto]. }
    rewrite <- K. unfold uecho_node_hasclassbycode, uecho_node_getclassbycode.
    destruct (uecho_classlist_getbycode (n_classes n) code) as [c|] eqn:G.
    + apply cget_some in G. destruct G as [I <-]. split; [|reflexivity]. intros _. apply in_map. exact I.
    + apply cget_none in G. split; [discriminate|]. intros I. contradiction.
Qed.
Print Assumptions C59_class.

(* the counts: as many as there are different codes *)
Theorem C59_counts : forall le net n, api_node le net std_db n ->
  (NoDup (map eoj_code (eojs n)) /\ uecho_node_getobjectcount n = len (map eoj_code (eojs n)))
  /\ exists l, NoDup l /\ uecho_node_getclasscount n = len l
     /\ forall x, In x l <-> exists g c i, In (g, c, i) (eojs n) /\ g * 256 + c = x.
Proof.
  intros le net n H. destruct (api_node_ok _ _ _ _ std_db_ok H) as [N _]. split.
  - rewrite <- (eojs_codes n N). split; [apply N|]. unfold uecho_node_getobjectcount, len. rewrite map_length. reflexivity.
  - exists (map uecho_class_getcode (n_classes n)). split; [apply classes_nodup; exact N|].
    split; [unfold uecho_node_getclasscount, len; rewrite map_length; reflexivity|]. intros x. rewrite (classes_in n N).
    split; [intros ([[g c] i] & I & E); exists g, c, i; auto|intros (g & c & i & I & E); exists (g, c, i); auto].
Qed.
Print Assumptions C59_counts.

Example C59_node_example : api_node true net_up std_db node2
  /\ uecho_node_hasobjectbycode node2 77825 = true /\ uecho_node_hasobjectbycode node2 77826 = false
  /\ uecho_node_hasclassbycode node2 304 = true /\ uecho_node_hasclassbycode node2 305 = false
  /\ uecho_node_getobjectcount node2 = 3 /\ uecho_node_getclasscount node2 = 3.
Proof. split; [exact node2_api|]. repeat split; vm_compute; reflexivity. Qed.

(* a node of a controller by its address *)
Theorem C59_address : forall le net snet c a n, api_ctrl le net snet std_db c ->
  (uecho_controller_getnodebyaddress c (Some a) = Some n <-> In n (c_nodes c) /\ n_addr n = Some a)
  /\ uecho_controller_getnodebyaddress c None = None
  /\ (uecho_controller_getnodebyaddress c (Some a) = None <-> ~ In (Some a) (addresses c))
  /\ uecho_nodelist_getbyaddress (c_nodes c) (Some a) = uecho_controller_getnodebyaddress c (Some a)
  /\ uecho_controller_getnodecount c = len (addresses c) /\ NoDup (addresses c).
Proof.
  intros le net snet c a n H. destruct (api_ctrl_ok le net snet std_db std_db_ok c H) as [(_ & _ & D & _) _].
  split; [|split; [apply byaddress_null|split; [apply byaddress_none|split; [apply nodelist_byaddress|split; [|exact D]]]]].
  - split; [apply byaddress_some|]. intros [I E]. unfold uecho_controller_getnodebyaddress.
    destruct (node_byaddress (c_nodes c) (Some a)) as [m|] eqn:G.
    + f_equal. symmetry. pose proof (byaddress_some _ _ _ G) as [I2 E2]. unfold addresses in D. clear G. induction (c_nodes c) as [|x l IH]; [contradiction|].
      cbn [map] in D. inversion D as [|? ? Dx Dl]; subst. destruct I as [->|I], I2 as [->|I2].
      * reflexivity.
      * exfalso. apply Dx. rewrite E, <- E2. apply in_map. exact I2.
      * exfalso. apply Dx. rewrite E2, <- E. apply in_map. exact I.
      * apply IH; assumption.
    + exfalso. apply byaddress_none in G. apply G. rewrite <- E. apply in_map. exact I.
  - unfold uecho_controller_getnodecount, addresses, len. rewrite map_length. reflexivity.
Qed.
Print Assumptions C59_address.

(* an object of any node the controller knows: of the first node that has the code *)
Theorem C59_any_node_partial : forall le net snet c code, api_ctrl le net snet std_db c ->
  (forall o, uecho_controller_getobjectbycode c code = Some o ->
     exists n, In n (c_nodes c) /\ In o (n_objs n) /\ eoj_code (o_grp o, o_cls o, o_ins o) = code)
  /\ (uecho_controller_getobjectbycode c code = None <-> forall n, In n (c_nodes c) -> ~ In code (map eoj_code (eojs n))).
Proof.
  intros le net snet c code H. destruct (api_ctrl_ok le net snet std_db std_db_ok c H) as [(_ & S & _) _].
  rewrite Forall_forall in S. split.
  - intros o G. apply nodes_getobject_some in G. destruct G as (l1 & n & l2 & E & G & _). exists n.
    assert (I : In n (c_nodes c)) by (rewrite E; apply in_or_app; right; left; reflexivity).
    split; [exact I|]. apply S in I. destruct I as ((_ & O & _) & _). apply getbycode_in in G. destruct G as [Ec I].
    split; [exact I|]. rewrite <- Ec. symmetry. apply (ocode o). rewrite Forall_forall in O. apply O in I. apply I.
  - unfold uecho_controller_getobjectbycode. rewrite nodes_getobject_none, Forall_forall.
    split; intros K n I; specialize (K n I); apply S in I; destruct I as (N & _).
    + rewrite <- (eojs_codes n N). apply oget_none. exact K.
    + apply oget_none. rewrite (eojs_codes n N). exact K.
Qed.
Print Assumptions C59_any_node_partial.

(* Two devices have an air conditioner 0x013001; the lookup over all nodes finds only that of
   the device heard of first. *)
Definition third : string := "10.0.0.3"%string.
Definition from_third (f : frame) : cop := CReceive (enc_frame f) here (Some third) yes fr0.
(* the second device's air conditioner says that it is on *)
Definition is_on : frame := mkFrame (0, 1) (1, 48, 1) node_profile_eoj 115 (Plain [(128, [48])]).
Definition ctrl_two : ctrl := cafter [from_dev two_listed; from_third two_listed; from_third is_on].
Lemma from_third_ok : forall f, frame_okb f = true -> cop_ok true std_db (from_third f).
Proof. intros f H. exact (from_dev_ok f H). Qed.
Lemma ctrl_two_api : api_ctrl true net_up net_down std_db ctrl_two.
Proof.
  apply cafter_api; [|vm_compute; reflexivity]. constructor; [apply from_dev_ok; vm_compute; reflexivity|].
  constructor; [apply from_third_ok; vm_compute; reflexivity|]. constructor; [apply from_third_ok; vm_compute; reflexivity|constructor].
Qed.

Theorem C59_any_node_refuted : exists c n o n1 o1, api_ctrl true net_up net_down std_db c
  /\ uecho_controller_getnodebyaddress c (Some third) = Some n
  /\ uecho_node_getobjectbycode n 77825 = Some o
  /\ uecho_controller_getnodebyaddress c (Some there) = Some n1
  /\ uecho_controller_getobjectbycode c 77825 = Some o1
  /\ uecho_node_getobjectbycode n1 77825 = Some o1
  /\ option_map p_data (uecho_object_getproperty o 128) = Some [48]
  /\ option_map p_data (uecho_object_getproperty o1 128) = Some [].
Proof.
  exists ctrl_two. do 4 eexists. split; [exact ctrl_two_api|]. split; [vm_compute; reflexivity|]. split; [vm_compute; reflexivity|].
  split; [vm_compute; reflexivity|]. split; [vm_compute; reflexivity|]. split; [vm_compute; reflexivity|]. split; vm_compute; reflexivity.
Qed.
Print Assumptions C59_any_node_refuted.

Example C59_controller_example : api_ctrl true net_up net_down std_db ctrl_two
  /\ addresses ctrl_two = [Some there; Some third] /\ uecho_controller_getnodecount ctrl_two = 2
  /\ (exists o, uecho_controller_getobjectbycode ctrl_two 168193 = Some o) /\ uecho_controller_getobjectbycode ctrl_two 168194 = None.
Proof.
  split; [exact ctrl_two_api|]. split; [vm_compute; reflexivity|]. split; [vm_compute; reflexivity|].
  split; [eexists; vm_compute; reflexivity|vm_compute; reflexivity].
Qed.

(* ---------- C60: waiting ---------- *)

(* times are in microseconds after the call; [late] says by how much each sleep is longer
   than asked, [at_] what other threads have made of the controller or object by then.
   [w] is the wait in milliseconds, up to 85899359 (almost 24 hours). *)
Lemma wait_spec : forall (A : Type) (seen : Z -> option A) late w, (forall i, 0 <= late i) -> 0 <= w < 85899360 ->
  exists r t, wait_for seen late w = Ok (r, t)
  /\ match r with
     | Some x => seen t = Some x /\ 1000 * (w / 20) <= t
     | None => 1000 * (w - w mod 20) <= t
     end
  /\ forall t0, (forall s, t0 <= s -> seen s <> None) ->
     (t0 <= 1000 * (w - w mod 20) -> r <> None)
     /\ forall L, (forall i, late i <= L) -> t <= Z.max 0 t0 + 1000 * (w / 20) + 20 * L.
Proof.
  intros A seen late w Hl Hw. unfold wait_for, uEchoWaitRetryCount, uecho_sleep_usec. rewrite Z.quot_div_nonneg by lia.
  assert (V : 0 <= w / 20 * 1000 < 4294967296) by lia.
  destruct (Z.leb_spec (-9223372036854775808) (w / 20 * 1000)); [|lia].
  destruct (Z.leb_spec (w / 20 * 1000) 9223372036854775807); [|lia]. cbn [andb bind].
  rewrite Z.mod_small by lia. set (us := w / 20 * 1000) in *. change (Z.to_nat 20) with 20%nat.
  assert (Hu : 0 <= us) by lia.
  destruct (poll seen late us 20 0 0) as [r t] eqn:P. exists r, t. split; [reflexivity|]. split; [destruct r as [x|]|].
  - destruct (poll_found seen late Hl us Hu _ _ _ _ _ P) as [S T]. split; [exact S|]. unfold us in T. lia.
  - pose proof (poll_none seen late Hl us _ _ _ _ P) as T. unfold us in T. lia.
  - intros t0 Hs. split.
    + intros Ht. destruct (poll_some seen late Hl us 20 0 0 t0) as (x & t' & P2); [lia|exact Hs|unfold us; lia|].
      rewrite P in P2. injection P2 as -> _. discriminate.
    + intros L HL. pose proof (poll_soon seen late Hl us Hu L HL _ _ _ _ Hs _ _ P) as T. unfold us in T. lia.
Qed.

(* An object that is known from [t0] on is found if [t0] lies within the wait rounded down to
   a multiple of 20 ms, one twentieth of the wait after [t0] at the latest, apart from late
   sleeps; without an object the call returns after the (rounded) wait. *)
Theorem C60_object_partial : forall late (at_ : Z -> ctrl) code w, (forall i, 0 <= late i) -> 0 <= w < 85899360 ->
  exists r t, uecho_controller_getobjectbycodewithwait late at_ code w = Ok (r, t)
  /\ match r with
     | Some o => uecho_controller_getobjectbycode (at_ t) code = Some o /\ 1000 * (w / 20) <= t
     | None => 1000 * (w - w mod 20) <= t
     end
  /\ forall t0, (forall s, t0 <= s -> uecho_controller_getobjectbycode (at_ s) code <> None) ->
     (t0 <= 1000 * (w - w mod 20) -> r <> None)
     /\ forall L, (forall i, late i <= L) -> t <= Z.max 0 t0 + 1000 * (w / 20) + 20 * L.
Proof. intros late at_ code w Hl Hw. exact (wait_spec _ (fun t => uecho_controller_getobjectbycode (at_ t) code) late w Hl Hw). Qed.
Print Assumptions C60_object_partial.

Theorem C60_property_partial : forall late (at_ : Z -> obj) code w, (forall i, 0 <= late i) -> 0 <= w < 85899360 ->
  exists r t, uecho_object_getpropertywait late at_ code w = Ok (r, t)
  /\ match r with
     | Some p => uecho_object_getproperty (at_ t) code = Some p /\ 1000 * (w / 20) <= t
     | None => 1000 * (w - w mod 20) <= t
     end
  /\ forall t0, (forall s, t0 <= s -> uecho_object_getproperty (at_ s) code <> None) ->
     (t0 <= 1000 * (w - w mod 20) -> r <> None)
     /\ forall L, (forall i, late i <= L) -> t <= Z.max 0 t0 + 1000 * (w / 20) + 20 * L.
Proof. intros late at_ code w Hl Hw. exact (wait_spec _ (fun t => uecho_object_getproperty (at_ t) code) late w Hl Hw). Qed.
Print Assumptions C60_property_partial.

Definition punctual (i : nat) : Z := 0.
(* a controller that hears of the first device [t0] microseconds after the call *)
Definition hears_at (t0 t : Z) : ctrl := if t <? t0 then ctrl0 else ctrl_two.
Lemma hears_at_api : forall t0 t, api_ctrl true net_up net_down std_db (hears_at t0 t).
Proof.
  intros t0 t. unfold hears_at. destruct (t <? t0); [|exact ctrl_two_api].
  assert (M : cexec_mem ctrl0 [] = true) by (vm_compute; reflexivity). pose proof ctrl0_new as H0. revert H0 M. generalize ctrl0.
  intros c0 H0 M. destruct (cexec_trace [] c0 (Forall_nil _) M) as (c' & told & E & _ & R). injection E as <- <-.
  exists c0, []. auto.
Qed.

(* heard of 330 ms after the call, with a wait of one second: found after 350 ms *)
Example C60_example : (forall s, 330000 <= s -> uecho_controller_getobjectbycode (hears_at 330000 s) 77825 <> None)
  /\ match uecho_controller_getobjectbycodewithwait punctual (hears_at 330000) 77825 1000 with
     | Ok (Some _, t) => t = 350000 | _ => False end.
Proof.
  split.
  - intros s H. unfold hears_at. destruct (Z.ltb_spec s 330000); [lia|]. vm_compute. discriminate.
  - vm_compute. reflexivity.
Qed.

(* A wait of less than 20 ms is no wait at all. *)
Theorem C60_short_refuted : forall w, 0 < w < 20 ->
  (forall s, 1 <= s -> uecho_controller_getobjectbycode (hears_at 1 s) 77825 <> None)
  /\ uecho_controller_getobjectbycodewithwait punctual (hears_at 1) 77825 w = Ok (None, 0).
Proof.
  intros w Hw. split.
  - intros s H. unfold hears_at. destruct (Z.ltb_spec s 1); [lia|]. vm_compute. discriminate.
  - assert (E : Z.quot w 20 = 0) by (rewrite Z.quot_div_nonneg by lia; lia).
    unfold uecho_controller_getobjectbycodewithwait, wait_for, uEchoWaitRetryCount. rewrite E. vm_compute. reflexivity.
Qed.
Print Assumptions C60_short_refuted.

(* An object known at the call is returned only after a twentieth of the wait. *)
Theorem C60_known_refuted : exists o,
  (forall s, uecho_controller_getobjectbycode (hears_at 0 s) 77825 <> None \/ s < 0)
  /\ uecho_controller_getobjectbycodewithwait punctual (hears_at 0) 77825 20000 = Ok (Some o, 1000000).
Proof.
  eexists. split.
  - intros s. destruct (Z.lt_ge_cases s 0) as [H|H]; [right; exact H|left]. unfold hears_at. destruct (Z.ltb_spec s 0); [lia|]. vm_compute. discriminate.
  - vm_compute. reflexivity.
Qed.
Print Assumptions C60_known_refuted.

(* A wait of 85899360 ms, some 24 hours, ends after 15 ms: the sleep is asked for in 32 bits. *)
Theorem C60_day_refuted :
  (forall s, 15000 <= s -> uecho_controller_getobjectbycode (hears_at 15000 s) 77825 <> None)
  /\ uecho_controller_getobjectbycodewithwait punctual (hears_at 15000) 77825 85899360 = Ok (None, 14080).
Proof.
  split.
  - intros s H. unfold hears_at. destruct (Z.ltb_spec s 15000); [lia|]. vm_compute. discriminate.
  - vm_compute. reflexivity.
Qed.
Print Assumptions C60_day_refuted.

(* ---------- C61: messages sent and announced through an object ---------- *)

Definition to_eoj (e : Z * Z * Z) (f : frame) : frame := mkFrame (f_tid f) (f_seoj f) e (f_esv f) (f_body f).
Definition from_eoj (e : Z * Z * Z) (f : frame) : frame := mkFrame (f_tid f) e (f_deoj f) (f_esv f) (f_body f).

Lemma code_bytes : forall o, codes_byte o ->
  [byte_of (uecho_object_getcode o) 2; byte_of (uecho_object_getcode o) 1; byte_of (uecho_object_getcode o) 0] = [o_grp o; o_cls o; o_ins o].
Proof.
  intros o (A & B & C). rewrite getcode_eq by exact (conj A (conj B C)). unfold is_byte, byte_of in *.
  change (256 ^ 2) with 65536. change (256 ^ 1) with 256. change (256 ^ 0) with 1. repeat f_equal; lia.
Qed.

Lemma prepared_to : forall le q f o q1, codes_byte o -> prepared le q f ->
  uecho_message_setdestinationobjectcode (uecho_object_getcode o) q = Ok q1 -> prepared le q1 (to_eoj (eoj_of o) f).
Proof.
  intros le q f o q1 Ho (A & B & C & D & F) E. pose proof (am_setdst _ _ _ _ A E) as A1.
  rewrite setdst_eq, code_bytes in E by exact Ho. injection E as <-.
  destruct F as (F1 & F2 & F3 & F4 & F5 & F6). destruct D as (D1 & D2 & D3 & D4 & D5). destruct Ho as (H1 & H2 & H3).
  split; [exact A1|]. destruct q as [e1 e2 t s d v p ps pg fr to_]. split; [exact B|]. split; [exact C|]. split.
  - split; [exact D1|]. split; [exact D2|]. split; [|split; [exact D4|exact D5]].
    unfold uecho_message_getdestinationobjectcode. cbn [m_deoj with_deoj]. 
    unfold to_eoj, eoj_of. cbn [f_deoj eoj_code]. rewrite byte2integer_3 by assumption. reflexivity.
  - split; [exact F1|]. split; [exact F2|]. split; [exact F3|]. split; [|split; [exact F5|exact F6]].
    apply is_byte_val in H1, H2, H3. exact (conj H1 (conj H2 H3)).
Qed.

(* A message sent through an object the controller knows goes to the address of the object's
   node as one frame: to the object, from the controller's node profile, with the service and
   the properties of the message. *)
Theorem C61_send : forall le net snet c q f na dst code o,
  api_ctrl le net snet std_db c -> has_object (c_node c) 978945 -> prepared le q f ->
  uecho_controller_getnodebyaddress c (Some na) = Some dst -> uecho_node_getobjectbycode dst code = Some o ->
  let g := mkFrame (tid_next le c) node_profile_eoj (o_grp o, o_cls o, o_ins o) (f_esv f) (f_body f) in
  exists s, uecho_object_sendmessage le net c dst o q = Ok s
  /\ s_posts s = [PSend na (enc_frame g)] /\ s_ret s = net (PSend na (enc_frame g))
  /\ s_node s = n_with_tid (next_tid (n_tid (c_node c))) (c_node c)
  /\ shows le (s_msg s) g /\ frame_ok g /\ eoj_code (f_deoj g) = code.
Proof.
  intros le net snet c q f na dst code o Hc Hp Q Hd Ho g.
  pose proof (byaddress_some _ _ _ Hd) as [Id Ad]. destruct (api_ctrl_ok le net snet std_db std_db_ok c Hc) as [(_ & S & _) _].
  rewrite Forall_forall in S. apply S in Id. destruct Id as (Nd & _). pose proof (ninv_get _ _ _ Nd Ho) as [(_ & B & _) E].
  destruct (uecho_message_setdestinationobjectcode (uecho_object_getcode o) q) as [q1|] eqn:D; [|rewrite setdst_eq in D; discriminate].
  pose proof (prepared_to _ _ _ _ _ B Q D) as Q1.
  destruct (C43_request le net snet c q1 _ dst na Hc Hp Q1 Ad) as (s & A1 & A2 & A3 & A4 & A5 & A6).
  exists s. unfold uecho_object_sendmessage. rewrite D. cbn [bind]. split; [exact A1|]. split; [exact A2|]. split; [exact A3|].
  split; [exact A4|]. split; [exact A5|]. split; [exact A6|]. rewrite <- E. symmetry. apply (ocode o B).
Qed.
Print Assumptions C61_send.

(* It is the same as sending the message, addressed to the object, through the controller: what
   C43, C48 and C51 say of that holds of sending through an object. *)
Theorem C61_as_controller : forall le net snet c q f na dst code o,
  api_ctrl le net snet std_db c -> prepared le q f ->
  uecho_controller_getnodebyaddress c (Some na) = Some dst -> uecho_node_getobjectbycode dst code = Some o ->
  exists q1, prepared le q1 (to_eoj (o_grp o, o_cls o, o_ins o) f)
  /\ uecho_object_sendmessage le net c dst o q = uecho_controller_sendmessage le net c dst q1.
Proof.
  intros le net snet c q f na dst code o Hc Q Hd Ho.
  pose proof (byaddress_some _ _ _ Hd) as [Id _]. destruct (api_ctrl_ok le net snet std_db std_db_ok c Hc) as [(_ & S & _) _].
  rewrite Forall_forall in S. apply S in Id. destruct Id as (Nd & _). pose proof (ninv_get _ _ _ Nd Ho) as [(_ & B & _) _].
  destruct (uecho_message_setdestinationobjectcode (uecho_object_getcode o) q) as [q1|] eqn:D; [|rewrite setdst_eq in D; discriminate].
  exists q1. split; [exact (prepared_to _ _ _ _ _ B Q D)|]. unfold uecho_object_sendmessage. rewrite D. reflexivity.
Qed.
Print Assumptions C61_as_controller.

(* A message announced through an object is announced, but (below) from the node profile. *)
Theorem C61_announce_partial : forall le net n m f code o,
  api_node le net std_db n -> has_object n 978945 -> prepared le m f -> uecho_node_getobjectbycode n code = Some o ->
  let g := mkFrame (tid_wire le (next_tid (n_tid n))) node_profile_eoj (f_deoj f) (f_esv f) (f_body f) in
  exists s, uecho_object_announcemessage le net n o m = Ok s
  /\ s_posts s = [PAnnounce (enc_frame g)] /\ s_ret s = net (PAnnounce (enc_frame g))
  /\ s_node s = n_with_tid (next_tid (n_tid n)) n /\ frame_ok g.
Proof.
  intros le net n m f code o Hn Hp (A & B & C & D & F) Ho g. destruct (api_node_ok _ _ _ _ std_db_ok Hn) as [N _].
  pose proof (ninv_get _ _ _ N Ho) as [(_ & K & _) _].
  destruct (uecho_message_setsourceobjectcode (uecho_object_getcode o) m) as [m1|] eqn:E.
  2:{ unfold uecho_message_setsourceobjectcode, uEchoEOJSize in E. rewrite integer2byte_3 in E. discriminate. }
  pose proof (am_setsrc _ _ _ _ A E) as A1. unfold uecho_object_announcemessage. rewrite E. cbn [bind].
  unfold uecho_message_setsourceobjectcode, uEchoEOJSize in E. rewrite integer2byte_3 in E. cbn [bind] in E. rewrite code_bytes in E by exact K.
  assert (P : in_memory m1 /\ pdc_fits m1 /\ shows le m1 (from_eoj (eoj_of o) f) /\ frame_ok (from_eoj (eoj_of o) f)).
  { injection E as <-. destruct m as [e1 e2 t s d v p ps pg fr to_]. split; [exact B|]. split; [exact C|].
    destruct F as (F1 & F2 & F3 & F4 & F5 & F6). destruct D as (D1 & D2 & D3 & D4 & D5). destruct K as (H1 & H2 & H3). split.
    - split; [exact D1|]. split; [|split; [exact D3|split; [exact D4|exact D5]]].
      unfold uecho_message_getsourceobjectcode. cbn [m_seoj with_seoj]. unfold from_eoj, eoj_of. cbn [f_seoj eoj_code].
      rewrite byte2integer_3 by assumption. reflexivity.
    - split; [exact F1|]. split; [exact F2|]. split; [|split; [exact F4|split; [exact F5|exact F6]]].
      apply is_byte_val in H1, H2, H3. exact (conj H1 (conj H2 H3)). }
  destruct P as (P1 & P2 & P3 & P4). apply api_inv_holds in A1. destruct A1 as [M He].
  destruct (announces le net n m1 _ N Hp M He ltac:(apply in_memory_fits; assumption) (pdc_short _ P2) P3 P4) as (m' & X & _ & G).
  eexists. split; [exact X|]. split; [reflexivity|]. split; [reflexivity|]. split; [reflexivity|exact G].
Qed.
Print Assumptions C61_announce_partial.

(* a notification of the operation status of the air conditioner *)
Definition note_on : frame := mkFrame (0, 0) (1, 48, 1) node_profile_eoj 115 (Plain [(128, [48])]).
(* a read request for it *)
Definition read_on : frame := mkFrame (0, 0) (0, 0, 0) (0, 0, 0) 98 (Plain [(128, [])]).

Example C61_example : api_ctrl true net_up net_down std_db ctrl_two /\ has_object (c_node ctrl_two) 978945
  /\ prepared true (asked read_on) read_on
  /\ exists dst o s, uecho_controller_getnodebyaddress ctrl_two (Some third) = Some dst /\ uecho_node_getobjectbycode dst 77825 = Some o
     /\ uecho_object_sendmessage true net_up ctrl_two dst o (asked read_on) = Ok s
     /\ s_posts s = [PSend third [16; 129; 1; 0; 14; 240; 1; 1; 48; 1; 98; 1; 128; 0]].
Proof.
  split; [exact ctrl_two_api|]. split; [unfold has_object; vm_compute; discriminate|].
  split; [apply asked_prepared; vm_compute; reflexivity|]. do 3 eexists.
  split; [vm_compute; reflexivity|]. split; [vm_compute; reflexivity|]. split; vm_compute; reflexivity.
Qed.

(* The announced frame names the node profile as its source, not the object. *)
Theorem C61_announce_refuted : exists n o m s bytes f rest,
  api_node true net_up std_db n /\ has_object n 978945 /\ prepared true m note_on
  /\ uecho_node_getobjectbycode n 77825 = Some o /\ (o_grp o, o_cls o, o_ins o) = (1, 48, 1)
  /\ uecho_object_announcemessage true net_up n o m = Ok s /\ s_posts s = [PAnnounce bytes]
  /\ dec_frame bytes = Some (f, rest) /\ f_seoj f = (14, 240, 1).
Proof.
  exists node2. eexists. exists (asked note_on). do 4 eexists. split; [exact node2_api|].
  split; [unfold has_object; vm_compute; discriminate|]. split; [apply asked_prepared; vm_compute; reflexivity|].
  split; [vm_compute; reflexivity|]. split; [vm_compute; reflexivity|]. split; [vm_compute; reflexivity|].
  split; [vm_compute; reflexivity|]. split; [vm_compute; reflexivity|]. vm_compute; reflexivity.
Qed.
Print Assumptions C61_announce_refuted.

(* ---------- C62: reading the node profile ---------- *)

(* in a list of different numbers below [k] there are at most [k] *)
Lemma nodup_bounded : forall (l : list Z) k, NoDup l -> Forall (fun x => 0 <= x < k) l -> len l <= Z.max 0 k.
Proof.
  intros l k N F. unfold len.
  assert (I : (length l <= length (map Z.of_nat (seq 0 (Z.to_nat k))))%nat).
  { apply NoDup_incl_length; [exact N|]. intros x I. rewrite Forall_forall in F. apply F in I. apply in_map_iff.
    exists (Z.to_nat x). split; [lia|]. apply in_seq. lia. }
  rewrite map_length, seq_length in I. lia.
Qed.

Lemma devices_few : forall n, ninv n -> In node_profile_eoj (eojs n) -> Z.of_nat (length (devices (eojs n))) < 16777216.
Proof.
  intros n N I.
  pose proof (eojs_codes n N) as E. destruct N as (_ & O & D & _). rewrite E in D. apply oinv_eoj in O. rewrite <- eojs_eq in O.
  assert (L : len (map eoj_code (eojs n)) <= 16777216).
  { change 16777216 with (Z.max 0 16777216). apply nodup_bounded; [exact D|]. apply Forall_forall. intros x Ix. apply in_map_iff in Ix.
    destruct Ix as ([[a b] c] & <- & Ix). rewrite Forall_forall in O. apply O in Ix. destruct Ix as (A & B & C).
    unfold byte_val in *. cbn [eoj_code]. lia. }
  unfold len in L. rewrite map_length in L.
  assert (S : (length (devices (eojs n)) < length (eojs n))%nat).
  { clear -I. unfold devices. induction (eojs n) as [|e l IH]; [contradiction|]. cbn [filter length].
    assert (Q : (length (filter (fun e => negb (is_profile_eoj e)) l) <= length l)%nat).
    { clear. induction l as [|x l IH]; [cbn; lia|]. cbn [filter]. destruct (negb (is_profile_eoj x)); cbn [length] in *; lia. }
    destruct I as [->|I].
    - change (negb (is_profile_eoj node_profile_eoj)) with false. cbv iota. lia.
    - apply IH in I. destruct (negb (is_profile_eoj e)); cbn [length] in *; lia. }
  lia.
Qed.

Lemma get_found : forall l c p, uecho_propertylist_findbycode l c = Some p -> uecho_propertylist_getbycode l c = (l, p).
Proof. intros l c p H. unfold uecho_propertylist_getbycode. rewrite H. reflexivity. Qed.
Lemma o_same : forall o, o_with_props (o_props o) o = o.
Proof. intros o. destruct o. reflexivity. Qed.

(* The getters of the node profile return what the node has: the number and codes of its
   device objects, the number and codes of its classes.  Reading changes nothing. *)
Theorem C62_profile : forall le net n o, api_node le net std_db n -> describes n -> uecho_node_getobjectbycode n 978945 = Some o ->
  uecho_nodeprofile_getinstancecount o = Ok (o, len (devices (eojs n)))
  /\ (uecho_node_getclasscount n < 65536 -> uecho_nodeprofile_getclasscount o = Ok (o, uecho_node_getclasscount n))
  /\ uecho_nodeprofile_getinstancelist o = (o, prof_D6 (eojs n))
  /\ uecho_nodeprofile_getnotificationinstancelist o = (o, prof_D6 (eojs n))
  /\ uecho_nodeprofile_getclasslist o = (o, prof_D7 (eojs n)).
Proof.
  intros le net n o Hn (D3 & D4 & D5 & D6 & D7) Ho. destruct (api_node_ok _ _ _ _ std_db_ok Hn) as [N _].
  unfold node_data in *. rewrite Ho in *.
  assert (P : In node_profile_eoj (eojs n)).
  { pose proof (ninv_get _ _ _ N Ho) as [(_ & B & _) E]. apply getbycode_in in Ho. destruct Ho as [_ I]. rewrite (ocode o B) in E.
    assert (X : eoj_of o = node_profile_eoj).
    { destruct B as (B1 & B2 & B3). unfold is_byte, eoj_of, eoj_code, node_profile_eoj in *. repeat f_equal; lia. }
    rewrite eojs_eq, <- X. apply in_map. exact I. }
  assert (K : forall c d, option_map p_data (uecho_object_getproperty o c) = Some d ->
    exists p, uecho_propertylist_getbycode (o_props o) c = (o_props o, p) /\ p_data p = d).
  { intros c d H. unfold uecho_object_getproperty in H. destruct (uecho_propertylist_findbycode (o_props o) c) as [p|] eqn:F; [|discriminate].
    exists p. split; [apply get_found; exact F|]. cbn in H. congruence. }
  assert (C : n_classes n = node_classes (eojs n)) by apply N.
  pose proof (devices_few n N P) as Few.
  apply K in D3, D4, D5, D6, D7.
  destruct D3 as (p3 & G3 & E3). destruct D4 as (p4 & G4 & E4). destruct D5 as (p5 & G5 & E5). destruct D6 as (p6 & G6 & E6). destruct D7 as (p7 & G7 & E7).
  split; [|split; [|split; [|split]]].
  - unfold uecho_nodeprofile_getinstancecount, uecho_object_getpropertyintegerdata, uecho_propertylist_getintegerdata, EPC_InstanceCount.
    rewrite G3. unfold uecho_property_getintegerdata. rewrite E3. unfold prof_D3, be3.
    rewrite byte2integer_3 by (unfold is_byte; lia). cbn [bind]. rewrite o_same. do 2 f_equal. unfold len. lia.
  - intros Hc. unfold uecho_nodeprofile_getclasscount, uecho_object_getpropertyintegerdata, uecho_propertylist_getintegerdata, EPC_ClassCount.
    rewrite G4. unfold uecho_property_getintegerdata. rewrite E4. unfold prof_D4, be2. unfold uecho_node_getclasscount, len in *. rewrite C in *.
    set (v := Z.of_nat (length (node_classes (eojs n)))) in *.
    assert (Hv : 0 <= v < 65536) by (split; [unfold v; lia|exact Hc]). assert (Ev : v = Z.of_nat (length (node_classes (eojs n)))) by reflexivity. clearbody v.
    assert (V : uecho_byte2integer [(v / 256) mod 256; v mod 256] = Ok v).
    { apply byte2integer_iff; [constructor; [unfold is_byte; lia|constructor; [unfold is_byte; lia|constructor]]|]. split; [cbn; lia|].
      assert (B : be_val [(v / 256) mod 256; v mod 256] = v).
      { unfold be_val. cbn [rev app le_val]. lia. } rewrite B. unfold INT_MAX. lia. }
    rewrite V. cbn [bind]. rewrite o_same, Ev. reflexivity.
  - unfold uecho_nodeprofile_getinstancelist, uecho_object_getpropertydata, uecho_propertylist_getdata, EPC_InstanceListS. rewrite G6, E6, o_same. reflexivity.
  - unfold uecho_nodeprofile_getnotificationinstancelist, uecho_object_getpropertydata, uecho_propertylist_getdata, EPC_InstanceListNotification.
    rewrite G5, E5, o_same. reflexivity.
  - unfold uecho_nodeprofile_getclasslist, uecho_object_getpropertydata, uecho_propertylist_getdata, EPC_ClassListS. rewrite G7, E7, o_same. reflexivity.
Qed.
Print Assumptions C62_profile.

Example C62_example : exists o, api_node true net_up std_db node2 /\ describes node2 /\ uecho_node_getobjectbycode node2 978945 = Some o
  /\ uecho_nodeprofile_getinstancecount o = Ok (o, 2) /\ uecho_nodeprofile_getclasscount o = Ok (o, 3)
  /\ snd (uecho_nodeprofile_getinstancelist o) = [2; 1; 48; 1; 2; 145; 1]
  /\ snd (uecho_nodeprofile_getclasslist o) = [2; 1; 48; 2; 145].
Proof.
  eexists. split; [exact node2_api|]. split; [unfold describes; do 4 (split; [vm_compute; reflexivity|]); vm_compute; reflexivity|].
  split; [vm_compute; reflexivity|]. split; [vm_compute; reflexivity|]. split; [vm_compute; reflexivity|]. split; vm_compute; reflexivity.
Qed.

(* the operating status reads back as it was set *)
Theorem C62_status : forall o b, let o1 := fst (uecho_nodeprofile_setoperatingstatus o b) in
  uecho_nodeprofile_isoperatingstatus o1 = Ok (o1, b).
Proof.
  intros o b o1. set (d := [if b then 48 else 49]).
  assert (P : o_props o1 = put (o_props o) EPC_OperatingStatus (put_data d)).
  { unfold o1, uecho_nodeprofile_setoperatingstatus, uecho_object_setpropertydata. rewrite pl_setdata_eq. destruct o. reflexivity. }
  clearbody o1.
  unfold uecho_nodeprofile_isoperatingstatus, uecho_object_getpropertybytedata, uecho_propertylist_getbytedata.
  assert (F : uecho_propertylist_findbycode (o_props o1) EPC_OperatingStatus
    = Some (put_data d (got (o_props o) EPC_OperatingStatus))).
  { rewrite P, put_find by (intros p E; exact E). rewrite Z.eqb_refl. reflexivity. }
  rewrite (get_found _ _ _ F). unfold uecho_property_getbytedata.
  change (uecho_property_getdatasize (put_data d (got (o_props o) EPC_OperatingStatus)) =? 1) with true.
  cbn [negb put_data p_data]. change (rd d 0) with (Ok (if b then 48 else 49)). cbn [bind fst snd]. rewrite o_same.
  destruct b; reflexivity.
Qed.
Print Assumptions C62_status.

Example C62_status_example : exists o, uecho_node_getobjectbycode node2 978945 = Some o
  /\ uecho_nodeprofile_isoperatingstatus o = Ok (o, true)
  /\ snd (match uecho_nodeprofile_isoperatingstatus (fst (uecho_nodeprofile_setoperatingstatus o false)) with Ok r => r | _ => (o, true) end) = false.
Proof. eexists. split; [vm_compute; reflexivity|]. split; vm_compute; reflexivity. Qed.

(* ---------- C63: properties of a message by code; comparing properties ---------- *)

(* [bycode] finds the first property with the code among those the indexed getter [get] shows *)
Definition finds_first (get : Z -> res (option prop)) (bycode : Z -> res (option prop)) : Prop :=
  forall code, exists r, bycode code = Ok r /\
  match r with
  | Some p => p_code p = code /\ exists i, 0 <= i < 255 /\ get i = Ok (Some p)
              /\ forall j, 0 <= j < i -> exists q, get j = Ok (Some q) /\ p_code q <> code
  | None => forall i p, 0 <= i < SIZE_MOD -> get i = Ok (Some p) -> p_code p <> code
  end.

Lemma find_split : forall (l : list prop) f p, List.find f l = Some p ->
  exists l1 l2, l = l1 ++ p :: l2 /\ f p = true /\ Forall (fun x => f x = false) l1.
Proof.
  induction l as [|x l IH]; intros f p H; cbn [List.find] in H; [discriminate|]. destruct (f x) eqn:E.
  - injection H as ->. exists [], l. auto.
  - apply IH in H. destruct H as (l1 & l2 & -> & A & B). exists (x :: l1), l2. auto.
Qed.

Lemma getbycode_first : forall v, pv_ok v -> finds_first (uecho_property_get v) (uecho_property_getbycode v).
Proof.
  intros v Hv code. unfold uecho_property_getbycode. rewrite pv_items_ok by exact Hv. cbn [bind]. eexists. split; [reflexivity|].
  assert (L : len (stored v) <= 255).
  { destruct Hv as [H1 H2]. unfold stored. destruct (pv_ep v) as [l|]; [|cbn; lia]. destruct H2 as [H2 _]. lia. }
  unfold pv_list. destruct (List.find (fun p => p_code p =? code) (stored v)) as [p|] eqn:F.
  - destruct (find_split _ _ _ F) as (l1 & l2 & E & P & N). split; [lia|]. exists (len l1).
    assert (B : len l1 < 255). { rewrite E in L. unfold len in *. rewrite app_length in L. cbn [length] in L. lia. }
    pose proof (len_nonneg _ l1). split; [lia|]. split.
    + rewrite property_get_spec by (exact Hv || (unfold SIZE_MOD; lia)). rewrite E, to_nat_len, nth_error_app2 by lia.
      rewrite Nat.sub_diag. reflexivity.
    + intros j Hj. rewrite property_get_spec by (exact Hv || (unfold SIZE_MOD; lia)).
      assert (J : (Z.to_nat j < length l1)%nat) by (unfold len in Hj; lia).
      rewrite E, nth_error_app1 by exact J. destruct (nth_error l1 (Z.to_nat j)) as [q|] eqn:Q; [|apply nth_error_None in Q; lia].
      exists q. split; [reflexivity|]. apply nth_error_In in Q. rewrite Forall_forall in N. apply N in Q. lia.
  - intros i p Hi G. rewrite property_get_spec in G by assumption. injection G as G. apply nth_error_In in G.
    apply (List.find_none _ _ F) in G. lia.
Qed.

Theorem C63_bycode : forall le m, api_msg le m ->
  finds_first (uecho_message_getproperty m) (uecho_message_getpropertybycode m)
  /\ finds_first (uecho_message_getpropertyset m) (uecho_message_getpropertysetbycode m)
  /\ finds_first (uecho_message_getpropertyget m) (uecho_message_getpropertygetbycode m).
Proof.
  intros le m H. apply api_inv_holds in H. destruct H as [H _].
  split; [|split]; apply getbycode_first; apply H.
Qed.
Print Assumptions C63_bycode.

(* Properties compare equal exactly when code, attributes and data are the same. *)
Lemma bytes_eqb_iff : forall a b, bytes_eqb a b = true <-> a = b.
Proof.
  induction a as [|x a IH]; intros [|y b]; cbn [bytes_eqb]; try (split; congruence).
  rewrite andb_true_iff, Z.eqb_eq, IH. split; [intros [-> ->]; reflexivity|]. intros E. injection E. auto.
Qed.
Theorem C63_equals : forall p q, uecho_property_equals p q = true <->
  p_code p = p_code q /\ p_attr p = p_attr q /\ p_data p = p_data q.
Proof.
  intros p q. unfold uecho_property_equals. rewrite !andb_true_iff, !Z.eqb_eq, bytes_eqb_iff. split; [tauto|].
  intros (A & B & C). unfold uecho_property_getdatasize. rewrite C. auto.
Qed.
Print Assumptions C63_equals.

(* A copy compares equal to its original, and belongs to no object. *)
Theorem C63_copy : forall p, uecho_property_equals (uecho_property_copy p) p = true /\ p_parent (uecho_property_copy p) = false.
Proof.
  intros p. unfold uecho_property_copy. rewrite setdata_eq. cbn [fst]. split; [|reflexivity]. apply C63_equals.
  destruct p as [c a d pr]. split; [reflexivity|split; reflexivity].
Qed.
Print Assumptions C63_copy.

(* Appending a byte appends it and keeps the rest. *)
Theorem C63_append : forall p b, is_byte b -> let p' := fst (uecho_property_addbytedata b p) in
  p_data p' = p_data p ++ [b] /\ p_code p' = p_code p /\ p_attr p' = p_attr p /\ p_parent p' = p_parent p.
Proof.
  intros p b Hb p'. unfold p', uecho_property_addbytedata, uecho_property_adddata, to_byte.
  unfold is_byte in Hb. rewrite (Z.mod_small b 256) by lia. destruct p. auto.
Qed.
Print Assumptions C63_append.

(* a message with three properties, two of them with the same code *)
Definition twice : frame := mkFrame (0, 0) (5, 255, 1) (1, 48, 1) 98 (Plain [(129, []); (128, [1]); (128, [2])]).
Example C63_example : api_msg true (asked twice)
  /\ (match uecho_message_getpropertybycode (asked twice) 128 with Ok (Some p) => p_data p | _ => [] end) = [1]
  /\ uecho_message_getpropertybycode (asked twice) 130 = Ok None.
Proof.
  split; [apply (asked_prepared twice); vm_compute; reflexivity|]. split; vm_compute; reflexivity.
Qed.
