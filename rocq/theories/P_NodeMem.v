(* What the functions of a node do to its blocks: sending. *)
From Coq Require Import String Ascii ZArith List Bool Lia Permutation.
From Verif Require Import CSem P_Base M_Const M_Misc M_String M_Property M_PropertyList P_PropertyList M_Log M_Message M_Object M_Node M_NodeListener
  M_Mem M_MemUse M_ObjMem M_Life M_NodeMem P_Mem P_MemMsg P_MemParse P_MemProp P_MemBytes P_MemCopy P_MemRun P_Ring P_ObjProp P_ObjCache P_ObjMem P_ObjUse P_ObjRun P_Life.
Import ListNotations.
Open Scope Z_scope.

(* ---- values ---- *)

Lemma init_bytes_inv : forall l b, init_bytes l = Ok b -> l = map Some b.
Proof.
  induction l as [|[x|] l IH]; intros b E; cbn [init_bytes] in E; try discriminate.
  - injection E as <-. reflexivity.
  - destruct (init_bytes l) as [r|] eqn:E1; [|discriminate]. injection E as <-. cbn [map]. f_equal. apply IH. reflexivity.
Qed.

Lemma text_string_cstr : forall s, text_string (cstr s) = s.
Proof.
  intro s. unfold text_string, cstr. rewrite map_map.
  replace (map _ (list_ascii_of_string s)) with (list_ascii_of_string s); [apply string_of_list_ascii_of_string|].
  rewrite <- (map_id (list_ascii_of_string s)) at 1. apply map_ext. intro a. rewrite N2Z.id. symmetry. apply ascii_N_embedding.
Qed.

Lemma code_of_rep : forall c o K, okeep c o K -> code_of c = M_Object.uecho_object_getcode o.
Proof.
  intros c o K (on & Lnm & ol & Lol & _ & _ & _ & G1 & G2 & G3 & _). unfold code_of, M_Object.uecho_object_getcode.
  cbn [o_with_code o_grp o_cls o_ins]. rewrite G1, G2, G3. reflexivity.
Qed.

(* ---- the node ---- *)

(* the block of a node with the transaction number [t] and the pointers [ps] *)
Lemma Permutation_middle' : forall A (x : A) a b, Permutation (x :: a ++ b) (a ++ x :: b).
Proof. intros. apply Permutation_middle. Qed.

Definition nblk (pv nx : Z) (ps : list Z) (t : Z) : blk := BElem pv nx t ps.

Section Room.
Variable room : Z -> bool.
Hypothesis Room : forall n, room n = true.
Variable le : bool.
Variable net : post -> bool.

Lemma wp_getcode : forall a c L (Q : Z -> heaplet -> Prop), In (a, BObj c) L -> Q (code_of c) L -> wp (uecho_object_getcode a) L Q.
Proof.
  intros a c L Q I H. unfold uecho_object_getcode. eapply wp_pos; [exact I|]. intro P. rewrite (pos_nz a) by exact P.
  apply wp_bind. eapply wp_load_obj; [exact I|]. apply wp_ret. exact H.
Qed.

Lemma body_code : forall nd a k o Lx, nbody nd a k o Lx -> exists c, k = BObj c /\ j_node c = nd /\ code_of c = M_Object.uecho_object_getcode o
  /\ j_listener c = o_listener o /\ o_attached o = negb (nd =? 0).
Proof.
  intros nd a k o Lx (c & -> & N & (Lp & R & _ & _ & (K & La & Ls & Lg & _ & OK & _))). exists c. split; [reflexivity|]. split; [exact N|].
  split; [eapply code_of_rep; exact OK|].
  destruct OK as (on & Lnm & ol & Lol & _ & _ & _ & _ & _ & _ & G4 & G5). rewrite N in G5. split; assumption.
Qed.

Definition differ (code : Z) (l : list obj) : Prop := Forall (fun o => (M_Object.uecho_object_getcode o =? code) = false) l.

Lemma wp_objs_find : forall nd ol objs code Lr L F (Q : Z -> heaplet -> Prop), rlist (nbody nd) ol objs Lr -> Permutation L (Lr ++ F) ->
  (differ code objs -> Q 0 L) ->
  (forall v1 a o v2, objs = v1 ++ o :: v2 -> differ code v1 -> (M_Object.uecho_object_getcode o =? code) = true -> 0 < a ->
     rl_at (nbody nd) ol v1 a o v2 Lr -> Q a L) ->
  wp (uecho_objectlist_getbycode ol code) L Q.
Proof.
  intros nd ol objs code Lr L F Q R P H0 H1. unfold uecho_objectlist_getbycode.
  destruct (rlist_head _ _ _ _ _ R) as (u & v & IH). eapply (wp_pos _ _ _ _ ol); [eapply Permutation_in; [apply Permutation_sym; exact P|]; apply in_or_app; left; exact IH|intro PD].
  rewrite (pos_nz ol) by exact PD.
  eapply (wp_find _ _ _ (fun o => M_Object.uecho_object_getcode o =? code) ol objs Lr _ F); [exact R|exact P| |exact H0|exact H1].
  intros a k o Lx p n R' OB FK IV IA _ HR. destruct (body_code _ _ _ _ _ OB) as (c & -> & _ & EC & _).
  cbn [set_links] in IA. apply wp_bind. eapply wp_getcode; [exact IA|]. apply wp_ret.
  rewrite <- EC in HR. exact HR.
Qed.

Lemma value_find : forall v1 o v2 code, differ code v1 -> (M_Object.uecho_object_getcode o =? code) = true ->
  M_Node.uecho_objectlist_getbycode (v1 ++ o :: v2) code = Some o.
Proof.
  induction v1 as [|x v1 IH]; intros o v2 code D E; cbn [app M_Node.uecho_objectlist_getbycode].
  - rewrite E. reflexivity.
  - inversion D; subst. rewrite H1. apply IH; assumption.
Qed.
Lemma value_none : forall l code, differ code l -> M_Node.uecho_objectlist_getbycode l code = None.
Proof. induction l as [|x l IH]; intros code D; cbn [M_Node.uecho_objectlist_getbycode]; [reflexivity|]. inversion D; subst. rewrite H1. apply IH. assumption. Qed.
Lemma value_put : forall v1 o v2 code o', differ code v1 -> (M_Object.uecho_object_getcode o =? code) = true ->
  put_obj code o' (v1 ++ o :: v2) = v1 ++ o' :: v2.
Proof.
  induction v1 as [|x v1 IH]; intros o v2 code o' D E; cbn [app put_obj].
  - rewrite E. reflexivity.
  - inversion D; subst. rewrite H1. f_equal. apply IH; assumption.
Qed.

Lemma wp_set_code : forall a p n c ss v L F (Q : unit -> heaplet -> Prop), Permutation L ((a, BElem p n c ss) :: F) ->
  Q tt ((a, BElem p n v ss) :: F) -> wp (set_code a v) L Q.
Proof.
  intros a p n c ss v L F Q P H. eapply wp_perm; [exact P|]. unfold set_code. nz a.
  apply wp_bind. eapply wp_load; [inl|]. eapply wp_store; [apply Permutation_refl|]. exact H.
Qed.

Lemma wp_nexttid : forall nd pv nx ps n L F (Q : Z -> heaplet -> Prop), Permutation L ((nd, nblk pv nx ps (n_tid n)) :: F) ->
  Q (snd (M_Node.uecho_node_getnexttid n)) ((nd, nblk pv nx ps (n_tid (fst (M_Node.uecho_node_getnexttid n)))) :: F) ->
  wp (uecho_node_getnexttid nd) L Q.
Proof.
  intros nd pv nx ps n L F Q P H. eapply wp_perm; [exact P|]. unfold uecho_node_getnexttid. nz nd.
  apply wp_bind. eapply wp_load_elem; [left; reflexivity|]. cbn [fst].
  apply wp_bind. eapply wp_set_code; [apply Permutation_refl|].
  apply wp_bind. eapply wp_load_elem; [left; reflexivity|]. apply wp_ret. exact H.
Qed.

Lemma wp_read_bytes : forall b buf n d r L (Q : _ -> heaplet -> Prop), In (b, BBytes buf) L -> init_bytes buf = Ok d -> rd_range d 0 n = Ok r ->
  Q r L -> wp (read_bytes b n) L Q.
Proof.
  intros b buf n d r L Q I E E2 H. apply init_bytes_inv in E. subst buf. unfold read_bytes.
  apply wp_bind. eapply wp_load_bytes; [exact I|]. apply wp_bind.
  destruct (rd_range_map _ _ (@Some Z) d 0 n r E2) as [E3 _]. eapply wp_lift; [exact E3|]. eapply wp_lift; [apply init_bytes_map_Some|]. exact H.
Qed.

Lemma wp_annbytes : forall nd pv nx ps t b buf d n r L (Q : _ -> heaplet -> Prop), In (nd, nblk pv nx ps t) L -> (node_server ps =? 0) = false ->
  In (b, BBytes buf) L -> init_bytes buf = Ok d -> M_Node.uecho_node_announcemessagebytes net d n = Ok r ->
  Q (snd r, fst r) L -> wp (uecho_node_announcemessagebytes net nd b n) L Q.
Proof.
  intros nd pv nx ps t b buf d n r L Q I S IB E E2 H. unfold uecho_node_announcemessagebytes, M_Node.uecho_node_announcemessagebytes in *.
  eapply wp_pos; [exact I|]. intro P1. eapply wp_pos; [exact IB|]. intro P2. rewrite (pos_nz nd), (pos_nz b) by assumption. cbn [orb].
  destruct (n <=? 0).
  - injection E2 as <-. apply wp_ret. exact H.
  - apply bind_ok in E2. destruct E2 as (x & E3 & E2). injection E2 as <-.
    apply wp_bind. eapply wp_load_elem; [exact I|]. cbn [snd]. rewrite S. apply wp_bind. eapply wp_read_bytes; [exact IB|exact E|exact E3|].
    apply wp_ret. exact H.
Qed.

Lemma wp_sendbytes : forall nd pv nx ps t ad o b buf d n r L (Q : _ -> heaplet -> Prop), In (nd, nblk pv nx ps t) L -> (node_server ps =? 0) = false ->
  addr_arg ad o L ->
  In (b, BBytes buf) L -> init_bytes buf = Ok d -> M_Node.uecho_node_sendmessagebytes net o d n = Ok r ->
  Q (snd r, fst r) L -> wp (uecho_node_sendmessagebytes net nd ad b n) L Q.
Proof.
  intros nd pv nx ps t ad o b buf d n r L Q I S A IB E E2 H. unfold uecho_node_sendmessagebytes, M_Node.uecho_node_sendmessagebytes in *.
  eapply wp_pos; [exact I|]. intro P1. eapply wp_pos; [exact IB|]. intro P2. rewrite (pos_nz nd), (pos_nz b) by assumption. cbn [orb].
  destruct o as [s|]; cbn [addr_arg] in A.
  - destruct A as (IA & PA & SA). eapply wp_pos; [exact IA|]. intro P3. rewrite (pos_nz ad) by assumption. cbn [orb].
    destruct (n <=? 0).
    + injection E2 as <-. apply wp_ret. exact H.
    + apply bind_ok in E2. destruct E2 as (x & E3 & E2). injection E2 as <-.
      apply wp_bind. eapply wp_load_elem; [exact I|]. cbn [snd]. rewrite S.
      apply wp_bind. unfold text_at. apply wp_bind. eapply wp_load_bytes; [exact IA|].
      eapply wp_lift; [apply cells_text_plain; exact PA|]. rewrite text_string_cstr.
      apply wp_bind. eapply wp_read_bytes; [exact IB|exact E|exact E3|].
      apply wp_ret. exact H.
  - subst ad. cbn [Z.eqb orb]. injection E2 as <-. apply wp_ret. exact H.
Qed.

(* ---- announcing a message ---- *)

Lemma wp_annmsg : forall nd pv nx ps n Lr a m c Lm s L F (Q : _ -> heaplet -> Prop),
  rlist (nbody nd) (node_objects ps) (n_objs n) Lr -> (node_server ps =? 0) = false -> msg_rep a m c Lm ->
  Permutation L ((nd, nblk pv nx ps (n_tid n)) :: Lm ++ Lr ++ F) -> M_Node.uecho_node_announcemessage le net n m = Ok s ->
  (forall c' Lm', msg_rep a (s_msg s) c' Lm' -> Q (s_ret s, s_posts s) ((nd, nblk pv nx ps (n_tid (s_node s))) :: Lm' ++ Lr ++ F)) ->
  wp (uecho_node_announcemessage room le net nd a) L Q.
Proof.
  intros nd pv nx ps n Lr a m c Lm s L F Q RL SV RM P E H. eapply wp_perm; [exact P|]. unfold uecho_node_announcemessage.
  destruct (msg_in _ _ _ _ RM) as [g IG]. nz nd. eapply (wp_pos _ _ _ _ a); [right; apply in_or_app; left; exact IG|intro PA]. rewrite (pos_nz a) by exact PA. cbn [orb].
  apply wp_bind. eapply (wp_nexttid nd pv nx ps n); [apply Permutation_refl|].
  unfold M_Node.uecho_node_announcemessage in E. destruct (M_Node.uecho_node_getnexttid n) as [n1 t] eqn:EN. cbn [fst snd].
  assert (EO : n_objs n1 = n_objs n) by (unfold M_Node.uecho_node_getnexttid in EN; injection EN as <- _; reflexivity).
  apply wp_bind. eapply (wp_settid le t a m c Lm _ ((nd, nblk pv nx ps (n_tid n1)) :: Lr ++ F)); [exact RM|perm|]. intros Lm1 RM1.
  apply wp_bind. unfold uecho_node_getobjectbycode. apply wp_bind. eapply wp_load_elem; [apply in_or_app; right; left; reflexivity|]. cbn [snd].
  unfold M_Node.uecho_node_getobjectbycode in E. rewrite EO in E.
  eapply (wp_objs_find nd _ (n_objs n) _ Lr _ (Lm1 ++ (nd, nblk pv nx ps (n_tid n1)) :: F)); [exact RL|perm| |].
  - intro D. rewrite (value_none _ _ D) in E. injection E as <-. cbn [Z.eqb]. apply wp_post, wp_ret. cbn [s_ret s_posts s_node s_msg] in H.
    eexists. split; [|eapply H; exact RM1]. perm.
  - intros v1 x o v2 EO2 D EC PX RX. rewrite EO2, (value_find _ _ _ _ D EC) in E. rewrite (pos_nz x) by exact PX.
    apply bind_ok in E. destruct E as (m2 & E2 & E). apply bind_ok in E. destruct E as (bs & E3 & E). apply bind_ok in E. destruct E as (k & E4 & E).
    apply bind_ok in E. destruct E as (r & E5 & E). injection E as <-. cbn [s_ret s_posts s_node s_msg] in H.
    destruct (rl_focus _ _ _ _ _ _ _ _ RX) as (p0 & n0 & k0 & Lx & R0 & FK & NB & PL & _).
    destruct (body_code _ _ _ _ _ NB) as (c0 & -> & _ & EC0 & _). cbn [set_links] in PL.
    assert (IX := Permutation_in _ (Permutation_sym PL) (or_introl eq_refl)).
    apply wp_bind. eapply wp_getcode; [apply in_or_app; right; right; apply in_or_app; left; exact IX|].
    change (code_of _) with (code_of c0). rewrite EC0.
    unfold M_Message.uecho_message_setsourceobjectcode in E2. apply bind_ok in E2. destruct E2 as (e & E6 & E2). injection E2 as <-.
    apply wp_bind. eapply wp_setsource; [exact RM1|apply Permutation_refl|exact E6|]. intros Lm2 RM2.
    unfold M_Message.uecho_message_getbytes in E3. apply bind_ok in E3. destruct E3 as (buf & E7 & E8).
    apply wp_bind. eapply wp_getbytes; [exact Room|exact RM2|apply Permutation_refl|exact E7|]. intros b Lm3 RM3 IB.
    apply wp_bind. destruct (msg_view _ _ _ _ RM3) as [g3 V3].
    eapply (wp_size a g3); [eapply view_incl; [exact V3|apply incl_appl, incl_refl]|exact E4|].
    eapply wp_post. eapply (wp_annbytes nd pv nx ps); [apply in_or_app; right; left; reflexivity|exact SV|apply in_or_app; left; exact IB|exact E8|exact E5|].
    eexists. split; [|eapply H; exact RM3]. perm.
Qed.

(* ---- announcing a property ---- *)

Lemma wp_annprop : forall nd pv nx ps n Lr par c x p pv' nx' q Lp R s L F (Q : _ -> heaplet -> Prop),
  rlist (nbody nd) (node_objects ps) (n_objs n) Lr -> (node_server ps =? 0) = false -> In (par, BObj c) Lr ->
  prop_at pv' nx' q x p Lp -> Permutation Lr (Lp ++ R) ->
  Permutation L ((nd, nblk pv nx ps (n_tid n)) :: Lr ++ F) -> M_Node.uecho_node_announceproperty le net n (code_of c) p = Ok s ->
  Q (s_ret s, s_posts s) ((nd, nblk pv nx ps (n_tid (s_node s))) :: Lr ++ F) ->
  wp (uecho_node_announceproperty room le net nd par x) L Q.
Proof.
  intros nd pv nx ps n Lr par c x p pv' nx' q Lp R s L F Q RL SV IP PA PR P E H. eapply wp_perm; [exact P|]. unfold uecho_node_announceproperty.
  destruct (prop_at_in _ _ _ _ _ _ PA) as (qb & IQ & _).
  assert (IQ' : In (x, BProp qb) Lr) by (eapply Permutation_in; [apply Permutation_sym; exact PR|apply in_or_app; left; exact IQ]).
  nz nd. nz par. nz x. cbn [orb].
  unfold M_Node.uecho_node_announceproperty in E. apply bind_ok in E. destruct E as (m1 & E1 & E). apply bind_ok in E. destruct E as (m2 & E2 & E).
  apply bind_ok in E. destruct E as (m3 & E3 & E).
  apply wp_bind. eapply wp_message_new; [exact Room|]. intros msg Lm PM RM. rewrite (pos_nz msg) by exact PM.
  apply wp_bind. eapply wp_setesv; [exact RM|apply Permutation_refl|]. intros Lm1 RM1.
  apply wp_bind. eapply wp_getcode; [apply in_or_app; right; right; apply in_or_app; left; exact IP|].
  unfold M_Message.uecho_message_setsourceobjectcode in E1. apply bind_ok in E1. destruct E1 as (e1 & X1 & E1). injection E1 as <-.
  apply wp_bind. eapply wp_setsource; [exact RM1|apply Permutation_refl|exact X1|]. intros Lm2 RM2.
  unfold M_Message.uecho_message_setdestinationobjectcode in E2. apply bind_ok in E2. destruct E2 as (e2 & X2 & E2). injection E2 as <-.
  apply wp_bind. eapply wp_setdestination; [exact RM2|apply Permutation_refl|exact X2|]. intros Lm3 RM3.
  apply wp_bind. eapply (wp_prop_copy_at room Room pv' nx' q x p Lp _ (R ++ Lm3 ++ (nd, nblk pv nx ps (n_tid n)) :: F)); [exact PA| |].
  { eapply perm_trans; [apply Permutation_app_head, perm_skip, Permutation_app_tail; exact PR|]. perm. }
  intros y Ly PY RY.
  unfold M_Message.uecho_message_addproperty in E3. apply bind_ok in E3. destruct E3 as (v & X3 & E3). injection E3 as <-.
  apply wp_bind. eapply (wp_addproperty room Room PPlain msg _ _ Lm3 y _ v Ly _ ((nd, nblk pv nx ps (n_tid n)) :: Lr ++ F)); [exact RM3|exact RY| |exact X3|].
  { eapply perm_trans; [|apply Permutation_app_head, Permutation_app_head, perm_skip, Permutation_app_tail, Permutation_sym; exact PR]. perm. }
  intros Lm4 RM4 _. cbn [with_mpart] in RM4.
  apply wp_bind. eapply (wp_annmsg nd pv nx ps n Lr msg _ _ Lm4 s _ F); [exact RL|exact SV|exact RM4|perm|exact E|].
  intros c' Lm5 RM5. apply wp_bind. eapply wp_message_delete; [exact Room|exact RM5|apply Permutation_middle'|].
  apply wp_ret. exact H.
Qed.

(* ---- storing data ---- *)

(* data for [x], of [src]: the announcement is left *)
Lemma wp_store_data : forall pv nx par a p Lp data d L F (Q : _ -> heaplet -> Prop), prop_at pv nx par a p Lp -> Permutation L (Lp ++ F) ->
  len d < SIZE_MOD -> given_at data d F ->
  (forall Lp', prop_at pv nx par a (pdata d p) Lp' ->
     if (len d =? 0) || negb (uecho_property_isannounceable p) then Q (true, []) (Lp' ++ F)
     else wp (uecho_property_announce room le net a) (Lp' ++ F) (fun r L' => Q (true, snd r) L')) ->
  wp (uecho_property_setdata room le net a data (len d)) L Q.
Proof.
  intros pv nx par a p Lp data d L F Q R P SD HD H. eapply wp_perm; [exact P|].
  destruct (prop_at_in _ _ _ a p Lp R) as (q0 & I0 & _).
  unfold uecho_property_setdata. nz a. apply wp_bind. unfold uecho_property_setcount.
  apply wp_bind. eapply wp_cleardata_at; [exact R|apply Permutation_refl|]. intros Lp' R'.
  rewrite (pos_nz a) by assumption. pose proof (pdata_fields d p) as (F1 & F2 & F3 & F4).
  destruct R' as (s & o & d' & Ls & Ld & -> & Rs & Rd & Np & Sp).
  cbn [M_Property.uecho_property_cleardata put_data p_code p_attr p_data p_parent] in *. destruct Rd as [-> ->].
  destruct (Z.eqb_spec (len d) 0) as [E|E].
  - apply wp_ret. cbn [negb]. apply wp_post, wp_ret. eexists. split; [|apply H; exists s, o, 0, Ls, []; rewrite F1, F2, F3, F4].
    + apply Permutation_refl.
    + apply len_0_nil in E. subst d. repeat split; auto.
  - pose proof (len_nonneg _ d) as N. cbn [orb] in H.
    assert (D : d <> []) by (intro X; subst d; apply E; reflexivity). destruct (HD D) as (c & I1 & I2).
    apply wp_bind. apply wp_malloc; [exact Room|]. intros b B _.
    apply wp_bind. eapply wp_load_prop; [inl|]. qs.
    apply wp_bind. eapply wp_store; [find_x|]. rewrite (pos_nz b) by assumption.
    apply wp_bind. eapply wp_store; [apply Permutation_refl|]. apply wp_ret. cbn [negb].
    apply wp_bind. eapply wp_load_prop; [inl|]. cbn [q_data]. apply wp_bind.
    apply wp_post. eapply wp_copy_bytes; [find_x|inl|lia|exact I2| |].
    + rewrite to_nat_len.
      replace (map Some (repeat 0 (length d))) with ([] ++ map Some (repeat 0 (length d)) ++ []) by (rewrite app_nil_r; reflexivity).
      apply wr_range_app; [reflexivity|]. rewrite !len_map, len_repeat. reflexivity.
    + exists (((a, BProp (mkCprop pv nx s (p_code p) (p_attr p) b (len d) par)) :: Ls ++ [(b, BBytes (map Some d))]) ++ F).
      split; [perm|].
      assert (R2 : prop_at pv nx par a (pdata d p) ((a, BProp (mkCprop pv nx s (p_code p) (p_attr p) b (len d) par)) :: Ls ++ [(b, BBytes (map Some d))])).
      { exists s, o, b, Ls, [(b, BBytes (map Some d))]. rewrite F1, F2, F3, F4.
        split; [reflexivity|]. split; [exact Rs|]. split; [|split; [exact Np|exact SD]]. unfold data_rep. destruct d; [congruence|reflexivity]. }
      specialize (H _ R2). unfold uecho_property_isannounceable in H.
      apply wp_bind. eapply wp_load_prop; [inl|]. qs. apply wp_bind.
      destruct (has_bits (p_attr p) (Z.lor AttrAnno AttrAnnoRequired)); cbn [negb] in H.
      * eapply wp_conseq; [exact H|]. intros r L' X. apply wp_ret. exact X.
      * apply wp_ret, wp_ret. exact H.
Qed.

(* a property of no object *)
Lemma wp_free_setdata : forall a p Lp data d L F (Q : _ -> heaplet -> Prop), prop_rep a p Lp -> Permutation L (Lp ++ F) ->
  len d < SIZE_MOD -> given_at data d F ->
  (forall Lp', prop_rep a (pdata d p) Lp' -> Q (true, []) (Lp' ++ F)) ->
  wp (uecho_property_setdata room le net a data (len d)) L Q.
Proof.
  intros a p Lp data d L F Q R P SD HD H. eapply wp_store_data; [exact R|exact P|exact SD|exact HD|].
  intros Lp' R'. destruct ((len d =? 0) || negb (uecho_property_isannounceable p)); [apply H; exact R'|].
  destruct (prop_at_in _ _ _ _ _ _ R') as (q & I & _ & _ & _ & _ & _ & EP).
  unfold uecho_property_announce. nz a. apply wp_bind. unfold uecho_property_getnode. rewrite (pos_nz a) by assumption.
  apply wp_bind. unfold uecho_property_getparentobject. rewrite (pos_nz a) by assumption.
  apply wp_bind. eapply wp_load_prop; [inl|]. apply wp_ret. rewrite EP. cbn [Z.eqb]. apply wp_ret. cbn [Z.eqb]. apply wp_ret. apply H. exact R'.
Qed.

(* the object of a node *)
Lemma obj_at_body : forall p n nd a o L, obj_at (p, nd) n a o L -> exists k Lx, Permutation L ((a, set_links p n k) :: Lx) /\ nbody nd a k o Lx.
Proof.
  intros p n nd a o L (c & Lx & PX & N0 & N1 & OD). injection N0 as N2 N3. exists (BObj c), Lx. split.
  - eapply perm_trans; [exact PX|]. rewrite (set_same (BObj c) false); [apply Permutation_refl|]. cbn [links]. rewrite N1, N2. reflexivity.
  - exists c. auto.
Qed.
Lemma rl_obj : forall nd ol v1 a o v2 Lr, rl_at (nbody nd) ol v1 a o v2 Lr -> exists p0 n0 Lo R, obj_at (p0, nd) n0 a o Lo /\ Permutation Lr (Lo ++ R)
  /\ forall o' Lo', obj_at (p0, nd) n0 a o' Lo' -> rl_at (nbody nd) ol v1 a o' v2 (Lo' ++ R).
Proof.
  intros nd ol v1 a o v2 Lr RA. destruct (rl_focus _ _ _ _ _ _ _ _ RA) as (p0 & n0 & k & Lx & R & FK & NB & PL & BACK).
  exists p0, n0, ((a, set_links p0 n0 k) :: Lx), R. split; [apply nbody_at; exact NB|]. split; [exact PL|].
  intros o' Lo' OA. destruct (obj_at_body _ _ _ _ _ _ OA) as (k' & Lx' & P' & NB').
  eapply rl_at_perm; [apply (BACK k' o' Lx'); [eapply nbody_flag; exact NB'|exact NB']|].
  change (Permutation (((a, set_links p0 n0 k') :: Lx') ++ R) (Lo' ++ R)). apply Permutation_app_tail, Permutation_sym. exact P'.
Qed.

(* announcements depend on the transaction number and on whether there is a profile object *)
Definition profiled (l : list obj) : bool := match M_Node.uecho_objectlist_getbycode l uEchoNodeProfileObject with Some _ => true | None => false end.

Lemma find_code : forall l code o, M_Node.uecho_objectlist_getbycode l code = Some o -> M_Object.uecho_object_getcode o = code.
Proof.
  induction l as [|x l IH]; intros code o E; cbn [M_Node.uecho_objectlist_getbycode] in E; [discriminate|].
  destruct (Z.eqb_spec (M_Object.uecho_object_getcode x) code); [injection E as <-; assumption|auto].
Qed.
Lemma annprop_same : forall n objs code p s, M_Node.uecho_node_announceproperty le net n code p = Ok s -> profiled objs = profiled (n_objs n) ->
  exists s', M_Node.uecho_node_announceproperty le net (n_with_objs objs n) code p = Ok s' /\ s_posts s' = s_posts s /\ s_ret s' = s_ret s
    /\ s_node s' = n_with_objs objs (s_node s).
Proof.
  intros n objs code p s E PR. unfold M_Node.uecho_node_announceproperty in *. apply bind_ok in E. destruct E as (m1 & E1 & E). apply bind_ok in E. destruct E as (m2 & E2 & E).
  apply bind_ok in E. destruct E as (m3 & E3 & E). rewrite E1. cbn [bind]. rewrite E2. cbn [bind]. rewrite E3. cbn [bind]. clear E1 E2 E3.
  unfold M_Node.uecho_node_announcemessage, M_Node.uecho_node_getnexttid, M_Node.uecho_node_getobjectbycode in *. cbn [n_with_tid n_with_objs n_objs n_tid] in *.
  unfold profiled in PR. destruct (M_Node.uecho_objectlist_getbycode (n_objs n) uEchoNodeProfileObject) as [o|] eqn:EO;
    destruct (M_Node.uecho_objectlist_getbycode objs uEchoNodeProfileObject) as [o'|] eqn:EO'; try discriminate.
  - rewrite (find_code _ _ _ EO) in E. rewrite (find_code _ _ _ EO').
    apply bind_ok in E. destruct E as (x1 & E1 & E). apply bind_ok in E. destruct E as (x2 & E2 & E). apply bind_ok in E. destruct E as (x3 & E3 & E).
    apply bind_ok in E. destruct E as (x4 & E4 & E). injection E as <-. rewrite E1. cbn [bind]. rewrite E2. cbn [bind]. rewrite E3. cbn [bind]. rewrite E4. cbn [bind].
    eexists. split; [reflexivity|]. repeat split.
  - injection E as <-. eexists. split; [reflexivity|]. repeat split.
Qed.
Lemma annprop_objs : forall n code p s, M_Node.uecho_node_announceproperty le net n code p = Ok s -> n_objs (s_node s) = n_objs n.
Proof.
  intros n code p s E. unfold M_Node.uecho_node_announceproperty in *. apply bind_ok in E. destruct E as (m1 & E1 & E). apply bind_ok in E. destruct E as (m2 & E2 & E).
  apply bind_ok in E. destruct E as (m3 & E3 & E). clear E1 E2 E3. unfold M_Node.uecho_node_announcemessage, M_Node.uecho_node_getnexttid, M_Node.uecho_node_getobjectbycode in *.
  cbn [n_with_tid n_objs] in E. destruct (M_Node.uecho_objectlist_getbycode (n_objs n) uEchoNodeProfileObject) as [o|].
  - apply bind_ok in E. destruct E as (x1 & E1 & E). apply bind_ok in E. destruct E as (x2 & E2 & E). apply bind_ok in E. destruct E as (x3 & E3 & E).
    apply bind_ok in E. destruct E as (x4 & E4 & E). injection E as <-. reflexivity.
  - injection E as <-. reflexivity.
Qed.
Lemma emit_objs : forall anns n code n' posts, node_emit le net n code anns = Ok (n', posts) -> n_objs n' = n_objs n.
Proof.
  induction anns as [|p r IH]; intros n code n' posts E; cbn [node_emit] in E.
  - injection E as <- <-. reflexivity.
  - apply bind_ok in E. destruct E as (s & E1 & E). apply bind_ok in E. destruct E as (t & E2 & E). injection E as <- <-.
    destruct t as [n2 p2]. cbn [fst]. rewrite (IH _ _ _ _ E2). eapply annprop_objs. exact E1.
Qed.
Lemma emit_app : forall a b n code n' posts, node_emit le net n code (a ++ b) = Ok (n', posts) -> exists n1 p1 p2,
  node_emit le net n code a = Ok (n1, p1) /\ node_emit le net n1 code b = Ok (n', p2) /\ posts = p1 ++ p2.
Proof.
  induction a as [|p r IH]; intros b n code n' posts E; cbn [node_emit app] in E.
  - exists n, [], posts. auto.
  - apply bind_ok in E. destruct E as (s & E1 & E). apply bind_ok in E. destruct E as ((n2, q2) & E2 & E). injection E as <- <-.
    destruct (IH _ _ _ _ _ E2) as (n1 & p1 & p2 & A1 & A2 & ->). exists n1, (s_posts s ++ p1), p2. cbn [node_emit]. rewrite E1. cbn [bind]. rewrite A1. cbn [bind fst snd].
    split; [reflexivity|]. split; [exact A2|]. apply app_assoc.
Qed.

Lemma profiled_mid : forall v1 o o' v2, M_Object.uecho_object_getcode o = M_Object.uecho_object_getcode o' -> profiled (v1 ++ o :: v2) = profiled (v1 ++ o' :: v2).
Proof.
  intros v1 o o' v2 E. unfold profiled. induction v1 as [|x v1 IH]; cbn [app M_Node.uecho_objectlist_getbycode].
  - rewrite <- E. destruct (_ =? _); [reflexivity|destruct (M_Node.uecho_objectlist_getbycode v2 _); reflexivity].
  - destruct (M_Object.uecho_object_getcode x =? uEchoNodeProfileObject); [reflexivity|exact IH].
Qed.

(* the property [x] of the object [a] of the node gets data *)
Lemma rl_in : forall nd ol v1 a o v2 Lr, rl_at (nbody nd) ol v1 a o v2 Lr -> exists c, In (a, BObj c) Lr /\ j_node c = nd
  /\ code_of c = M_Object.uecho_object_getcode o /\ j_listener c = o_listener o /\ o_attached o = negb (nd =? 0).
Proof.
  intros nd ol v1 a o v2 Lr RA. destruct (rl_focus _ _ _ _ _ _ _ _ RA) as (p0 & n0 & k & Lx & R & FK & NB & PL & _).
  destruct (body_code _ _ _ _ _ NB) as (c & -> & J1 & J2 & J3 & J4). eexists. split.
  - eapply Permutation_in; [apply Permutation_sym; exact PL|]. left. reflexivity.
  - cbn [set_links j_node j_listener]. repeat split; assumption.
Qed.
Lemma setdata_anns : forall d p, snd (M_Property.uecho_property_setdata d p) =
  if (len d =? 0) || negb (uecho_property_isannounceable p) || negb (p_parent p) then [] else [pdata d p].
Proof.
  intros d p. unfold pdata, M_Property.uecho_property_setdata, M_Property.uecho_property_announce, uecho_property_isannounceable.
  destruct (len d =? 0); [reflexivity|]. cbn [fst snd orb M_Property.uecho_property_setcount M_Property.uecho_property_cleardata put_data p_attr p_parent p_code p_data].
  destruct (has_bits _ _); [destruct (p_parent p); reflexivity|reflexivity].
Qed.
Lemma emit_same : forall anns n objs code n' posts, node_emit le net n code anns = Ok (n', posts) -> profiled objs = profiled (n_objs n) ->
  exists n'', node_emit le net (n_with_objs objs n) code anns = Ok (n'', posts) /\ n_tid n'' = n_tid n'.
Proof.
  induction anns as [|p r IH]; intros n objs code n' posts E PF; cbn [node_emit] in E.
  - injection E as <- <-. eexists. split; reflexivity.
  - apply bind_ok in E. destruct E as (s & E1 & E). apply bind_ok in E. destruct E as ((n2, q2) & E2 & E). injection E as <- <-.
    destruct (annprop_same _ _ _ _ _ E1 PF) as (s' & A1 & A2 & A3 & A4). cbn [node_emit]. rewrite A1. cbn [bind].
    destruct (IH _ objs _ _ _ E2) as (n3 & B1 & B2). { rewrite (annprop_objs _ _ _ _ E1). exact PF. }
    rewrite A4, B1. cbn [bind fst snd]. rewrite A2. eexists. split; [reflexivity|exact B2].
Qed.
Lemma wp_node_setdata : forall nd pv nx ps v1 a o v2 h w1 x p w2 data d Lpl G n n' posts L F (Q : _ -> heaplet -> Prop),
  (node_server ps =? 0) = false -> pl_at a h w1 x p w2 Lpl -> 
  (forall ps' Lr', plist a h ps' Lr' -> rl_at (nbody nd) (node_objects ps) v1 a (o_with_props ps' o) v2 (Lr' ++ G)) ->
  Permutation L ((nd, nblk pv nx ps (n_tid n)) :: (Lpl ++ G) ++ F) ->
  len d < SIZE_MOD -> given_at data d F -> profiled (n_objs n) = profiled (v1 ++ o :: v2) ->
  node_emit le net n (M_Object.uecho_object_getcode o) (snd (M_Property.uecho_property_setdata d p)) = Ok (n', posts) ->
  (forall Lpl', pl_at a h w1 x (pdata d p) w2 Lpl' -> Q (true, posts) ((nd, nblk pv nx ps (n_tid n')) :: (Lpl' ++ G) ++ F)) ->
  wp (uecho_property_setdata room le net x data (len d)) L Q.
Proof.
  intros nd pv nx ps v1 a o v2 h w1 x p w2 data d Lpl G n n' posts L F Q SV PL BACK P SD HD PF E H.
  eapply (wp_pos _ _ _ _ nd); [eapply Permutation_in; [apply Permutation_sym; exact P|left; reflexivity]|]. intro PN.
  destruct (pl_focus _ _ _ _ _ _ _ PL) as (pv' & nx' & q & Lp & R & PA & OW & PP & PB).
  apply wp_post. eapply (wp_store_data pv' nx' q x p Lp data d _ (R ++ G ++ (nd, nblk pv nx ps (n_tid n)) :: F)); [exact PA| |exact SD| |].
  { eapply perm_trans; [exact P|]. eapply perm_trans; [apply perm_skip, Permutation_app_tail, Permutation_app_tail; exact PP|]. perm. }
  { eapply given_incl; [exact HD|]. intros y Y. apply in_or_app; right. apply in_or_app; right. right. exact Y. }
  intros Lp' PA'. specialize (PB q _ _ PA' OW). rewrite setdata_anns in E.
  assert (NP : p_parent p = negb (q =? 0)) by (destruct PA as (? & ? & ? & ? & ? & _ & _ & _ & NP & _); exact NP).
  pose proof (BACK _ _ (rl_at_list _ _ _ _ _ _ _ _ PB)) as RA. set (Lr := (Lp' ++ R) ++ G) in *.
  destruct (rl_in _ _ _ _ _ _ _ RA) as (c & IC & JN & CC & _).
  assert (P2 : Permutation (Lp' ++ R ++ G ++ (nd, nblk pv nx ps (n_tid n)) :: F) ((nd, nblk pv nx ps (n_tid n)) :: Lr ++ F)) by (unfold Lr; perm).
  destruct ((len d =? 0) || negb (uecho_property_isannounceable p)) eqn:EA; cbn [orb] in E.
  { cbn [node_emit] in E. injection E as <- <-. eexists. split; [exact P2|]. apply H. exact PB. }
  destruct (prop_at_in _ _ _ _ _ _ PA') as (cq & IQ & _ & _ & _ & _ & _ & EP).
  eapply wp_perm; [exact P2|].
  assert (IQ' : In (x, BProp cq) ((nd, nblk pv nx ps (n_tid n)) :: Lr ++ F)).
  { right. unfold Lr. apply in_or_app; left. apply in_or_app; left. apply in_or_app; left. exact IQ. }
  assert (IC' : In (a, BObj c) ((nd, nblk pv nx ps (n_tid n)) :: Lr ++ F)) by (right; apply in_or_app; left; exact IC).
  eapply (wp_pos _ _ _ _ x); [exact IQ'|]. intro PX. eapply (wp_pos _ _ _ _ a); [exact IC'|]. intro PAa.
  unfold uecho_property_announce, uecho_property_getnode, uecho_property_getparentobject. rewrite (pos_nz x) by exact PX.
  apply wp_bind. apply wp_bind. apply wp_bind. eapply wp_load_prop; [exact IQ'|]. apply wp_ret. rewrite EP.
  destruct (Z.eqb_spec q 0) as [Q0|Q0].
  - apply wp_ret. cbn [Z.eqb]. apply wp_ret. rewrite NP in E. cbn [negb node_emit] in E. injection E as <- <-.
    eexists. split; [apply Permutation_refl|]. apply H. exact PB.
  - destruct OW as [OW|OW]; [congruence|]. subst q. rewrite NP in E. cbn [negb node_emit] in E.
    apply bind_ok in E. destruct E as (s & E1 & E). cbn [bind fst snd] in E. injection E as <- <-. rewrite app_nil_r in H.
    unfold uecho_object_getparentnode. rewrite (pos_nz a) by exact PAa. apply wp_bind. eapply wp_load_obj; [exact IC'|]. apply wp_ret. rewrite JN.
    rewrite (pos_nz nd) by exact PN. apply wp_bind. apply wp_bind. eapply wp_load_prop; [exact IQ'|]. apply wp_ret. rewrite EP. rewrite (pos_nz a) by exact PAa.
    destruct (annprop_same _ (v1 ++ o_with_props (w1 ++ pdata d p :: w2) o :: v2) _ _ _ E1) as (s' & A1 & A2 & A3 & A4).
    { rewrite PF. apply profiled_mid. reflexivity. }
    eapply (wp_annprop nd pv nx ps (n_with_objs (v1 ++ o_with_props (w1 ++ pdata d p :: w2) o :: v2) n) Lr a c x (pdata d p) pv' nx' a Lp' (R ++ G) s' _ F); [exact (rl_at_list _ _ _ _ _ _ _ _ RA)|exact SV|exact IC|exact PA'| | | |].
    + unfold Lr. rewrite <- app_assoc. apply Permutation_refl.
    + apply Permutation_refl.
    + rewrite CC. exact A1.
    + cbn [snd]. eexists. split; [apply Permutation_refl|]. rewrite A2, A4. cbn [n_with_objs n_tid]. apply H. exact PB.
Qed.
End Room.
