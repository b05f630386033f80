(* Copying and comparing messages, and packets, in the heap. *)
From Coq Require Import String ZArith List Bool Lia Permutation.
From Verif Require Import CSem P_Base M_Const M_Misc M_String M_Property M_Log M_Message M_Mem P_Mem P_MemProp P_MemMsg P_MemParse P_MemBytes.
Import ListNotations.
Open Scope Z_scope.

Lemma props_rep_in : forall ads ps L, props_rep ads ps L -> Forall (fun a => exists q, In (a, BProp q) L) ads.
Proof.
  induction ads as [|a ads IH]; intros [|p ps] L R; cbn [props_rep] in R; try contradiction; [constructor|].
  destruct R as (L1 & L2 & -> & R1 & R2). constructor.
  - destruct (prop_rep_in a p L1 R1) as (q & I & _). exists q. apply in_or_app. left. exact I.
  - eapply Forall_impl; [|exact (IH _ _ R2)]. intros x (q & I). exists q. apply in_or_app. right. exact I.
Qed.

Section Room.
Variable room : Z -> bool.
Hypothesis Room : forall n, room n = true.

Lemma wp_copy_loop : forall todo at_ ad b g Lx Lt Lo a m m' La L F (Q : unit -> heaplet -> Prop),
  In (b, BMsg g) Lx -> In (g_ep g, BPtrs (map Some (ad ++ at_))) Lx -> g_opc g = len (ad ++ at_) -> g_opc g <= 255 ->
  Forall (fun x => exists q, In (x, BProp q) Lx) (ad ++ at_) ->
  Permutation Lx (Lt ++ Lo) -> props_rep at_ todo Lt ->
  msg_rep a m None La -> Permutation L (La ++ Lx ++ F) -> copy_properties todo m = Ok m' ->
  (forall La', msg_rep a m' None La' -> Q tt (La' ++ Lx ++ F)) ->
  wp (copy_loop room a b (len ad) (length at_)) L Q.
Proof.
  induction todo as [|p todo IH]; intros at_ ad b g Lx Lt Lo a m m' La L F Q I1 I2 E1 B1 FA PX RP RM P E H; (eapply wp_perm; [exact P|]).
  - apply props_rep_nil_inv in RP. destruct RP as [-> ->]. cbn [length copy_loop]. apply wp_ret. cbn in E. injection E as <-.
    apply H. exact RM.
  - apply props_rep_cons_inv in RP. destruct RP as (x & at' & L1 & L2 & -> & -> & R1 & R2).
    cbn [length copy_loop]. apply wp_bind. unfold M_Mem.uecho_message_getproperty.
    nz b. apply wp_bind. eapply wp_load_msg; [inl|]. cbn [g_array g_count]. nz (g_ep g).
    assert (HD : exists y, rd (map Some (ad ++ x :: at')) 0 = Ok (Some y) /\ exists q, In (y, BProp q) Lx).
    { destruct ad as [|y ad]; cbn [app map]; eexists; (split; [reflexivity|]); apply Forall_inv in FA; exact FA. }
    destruct HD as (y & HD & q & Iq). apply wp_bind. eapply wp_ptr_at; [inl|exact HD|]. nz y.
    pose proof (len_nonneg _ ad) as N1. pose proof (len_nonneg _ at') as N2. rewrite len_app, len_cons in E1.
    rewrite sz_small by (unfold SIZE_MOD; lia). rewrite (proj2 (Z.ltb_ge _ _)) by lia.
    eapply wp_ptr_at; [inl|rewrite map_app; apply rd_mid; rewrite len_map; reflexivity|].
    destruct (prop_rep_in x p L1 R1) as (qx & Ix & _).
    assert (Ix' : In (x, BProp qx) Lx) by (eapply Permutation_in; [apply Permutation_sym; exact PX|apply in_or_app; left; apply in_or_app; left; exact Ix]).
    nz x. apply wp_bind.
    eapply (wp_prop_copy room Room x p L1 _ (L2 ++ Lo ++ La ++ F)); [exact R1| |].
    { eapply perm_trans; [apply Permutation_app_head, Permutation_app_tail; exact PX|]. perm. }
    intros k Lk K Rk. cbn [copy_properties] in E. apply bind_ok in E. destruct E as (m1 & E2 & E).
    unfold M_Message.uecho_message_addproperty in E2. apply bind_ok in E2. destruct E2 as (v & E2 & E3). injection E3 as <-.
    apply wp_bind. eapply (wp_addproperty room Room PPlain a m None La k _ v Lk _ (Lx ++ F)); [exact RM|exact Rk| |exact E2|].
    { apply Permutation_sym. eapply perm_trans; [do 2 apply Permutation_app_head; apply Permutation_app_tail; exact PX|]. perm. }
    intros La' RM' _. replace (len ad + 1) with (len (ad ++ [x])) by (rewrite len_app; reflexivity).
    eapply (IH at' (ad ++ [x]) b g Lx L2 (L1 ++ Lo) a _ m' La'); [exact I1| | | | | |exact R2|exact RM'|apply Permutation_refl|exact E|exact H].
    + rewrite <- app_assoc. exact I2.
    + rewrite <- app_assoc. cbn [app]. rewrite len_app, len_cons. exact E1.
    + exact B1.
    + rewrite <- app_assoc. exact FA.
    + eapply perm_trans; [exact PX|]. perm.
Qed.

Lemma addr_rep_arg : forall p o L F, addr_rep p o L -> incl L F -> addr_arg p o F.
Proof.
  intros p [s|] L F R I; cbn in *.
  - destruct R as (A & B & ->). split; [apply I; left; reflexivity|auto].
  - apply R.
Qed.

Lemma addr_arg_incl : forall p o L F, addr_arg p o L -> incl L F -> addr_arg p o F.
Proof. intros p [s|] L F R I; cbn in *; [|exact R]. destruct R as [A B]. split; [apply I; exact A|exact B]. Qed.

(* what can be read of a message: its struct, its addresses and its plain properties *)
Lemma src_view : forall b s cb Lb, msg_rep b s cb Lb -> exists g, In (b, BMsg g) Lb /\ same_head g s
  /\ addr_arg (g_from g) (m_from s) Lb /\ addr_arg (g_to g) (m_to s) Lb
  /\ exists l ads Lt Lo, pv_items (m_p s) = Ok l /\ props_rep ads l Lt /\ Permutation Lb (Lt ++ Lo)
       /\ length ads = Z.to_nat (g_opc g) /\ 0 <= g_opc g <= 255 /\ (ads = [] \/ In (g_ep g, BPtrs (map Some ads)) Lb).
Proof.
  intros b s cb Lb (ep & eps & epg & by_ & f & t & Lp & Ls & Lg & Lc & Lf & Lt & P & V1 & V2 & V3 & K & A1 & A2).
  exists (mkCmsg (m_ehd1 s) (m_ehd2 s) (m_tid s) (m_seoj s) (m_deoj s) (m_esv s)
       (pv_opc (m_p s)) (pv_opc (m_pset s)) (pv_opc (m_pget s)) ep eps epg by_ f t).
  assert (INB : forall x, In x ((b, BMsg (mkCmsg (m_ehd1 s) (m_ehd2 s) (m_tid s) (m_seoj s) (m_deoj s) (m_esv s)
       (pv_opc (m_p s)) (pv_opc (m_pset s)) (pv_opc (m_pget s)) ep eps epg by_ f t)) :: Lp ++ Ls ++ Lg ++ Lc ++ Lf ++ Lt) -> In x Lb)
    by (intros x X; eapply Permutation_in; [apply Permutation_sym; exact P|exact X]).
  split; [apply INB; left; reflexivity|]. split; [repeat split|].
  split; [eapply addr_rep_arg; [exact A1|intros x X; apply INB; right; do 4 (apply in_or_app; right); apply in_or_app; left; exact X]|].
  split; [eapply addr_rep_arg; [exact A2|intros x X; apply INB; right; do 4 (apply in_or_app; right); apply in_or_app; right; exact X]|].
  cbn [g_opc g_ep]. assert (V1' := V1). destruct V1 as [V0 V]. destruct (vec_items _ _ _ V1') as (l & ads & Lq & EI & RP & LA & IA & IP & EP).
  unfold vec_rep in V1'. destruct (pv_ep (m_p s)) as [l0|] eqn:Ee.
  - destruct EP as [[EP _]|EP]; [discriminate|]. injection EP as <-.
    destruct V as (X1 & X2 & ads0 & L0 & -> & R0). exists l0, ads0, L0, ((b, BMsg (mkCmsg (m_ehd1 s) (m_ehd2 s) (m_tid s) (m_seoj s) (m_deoj s) (m_esv s)
       (pv_opc (m_p s)) (pv_opc (m_pset s)) (pv_opc (m_pget s)) ep eps epg by_ f t)) :: (ep, BPtrs (map Some ads0)) :: Ls ++ Lg ++ Lc ++ Lf ++ Lt).
    split; [exact EI|]. split; [exact R0|]. split; [eapply perm_trans; [exact P|perm]|].
    split; [rewrite (props_rep_len _ _ _ R0), <- X1, to_nat_len; reflexivity|]. split; [exact V0|].
    right. apply INB. right. left. reflexivity.
  - destruct V as (_ & X2 & ->). exists [], [], [], Lb. unfold pv_items. rewrite X2. cbn.
    repeat split; auto; lia.
Qed.

Lemma wp_set : forall le a m c La b s cb Lb m' L F (Q : bool -> heaplet -> Prop), msg_rep a m c La -> msg_rep b s cb Lb ->
  Permutation L (La ++ Lb ++ F) -> M_Message.uecho_message_set le m s = Ok m' ->
  (forall La', msg_rep a m' None La' -> Q true (La' ++ Lb ++ F)) ->
  wp (uecho_message_set room le a b) L Q.
Proof.
  intros le a m c La b s cb Lb m' L F Q R RS P E H. eapply wp_perm; [exact P|].
  destruct (msg_in a m c La R) as [g0 I0]. destruct (src_view b s cb Lb RS) as (h & Ih & SH & AF & AT & l & ads & Lt & Lo & EI & RP & PX & LA & B0 & IA).
  unfold uecho_message_set. nz a. nz b. cbn [orb].
  apply wp_bind. eapply (wp_clear room Room); [exact R|apply Permutation_refl|]. clear g0 I0 La R P. intros La R.
  unfold M_Message.uecho_message_set in E. apply bind_ok in E. destruct E as (m1 & E1 & E). apply cleared_eq in E1. subst m1.
  apply wp_bind. eapply wp_load_msg; [inl|].
  destruct (focus_head a _ None La R) as (g & Rm & Pm & SG & RB).
  eapply wp_perm; [apply Permutation_app_tail; exact Pm|]. cbn [app].
  apply wp_bind. eapply wp_load_msg; [left; reflexivity|].
  unfold M_Message.uecho_message_getsourceobjectcode, M_Message.uecho_message_getdestinationobjectcode,
    M_Message.uecho_message_setsourceobjectcode, M_Message.uecho_message_setdestinationobjectcode in E.
  apply bind_ok in E. destruct E as (sc & G1 & E). apply bind_ok in E. destruct E as (m1 & G2 & E). apply bind_ok in G2. destruct G2 as (se & G2 & X). injection X as <-.
  apply bind_ok in E. destruct E as (dc & G3 & E). apply bind_ok in E. destruct E as (m1 & G4 & E). apply bind_ok in G4. destruct G4 as (de & G4 & X). injection X as <-.
  rewrite EI in E. cbn [bind] in E.
  assert (SH2 := SH). destruct SH as (H1 & H2 & H3 & H4 & H5 & H6 & H7 & H8 & H9). rewrite H1, H2, H3, H4, H5, H6.
  apply wp_bind. eapply wp_lift; [exact G1|]. apply wp_bind. eapply wp_lift; [exact G2|].
  apply wp_bind. eapply wp_lift; [exact G3|]. apply wp_bind. eapply wp_lift; [exact G4|].
  apply wp_bind. eapply wp_store; [apply Permutation_refl|].
  set (t := m_tid (M_Message.uecho_message_settid le (M_Message.uecho_message_gettid le (with_tid (m_tid s) M_Message.uecho_message_new)) M_Message.uecho_message_new)).
  specialize (RB (m_ehd1 s) (m_ehd2 s) t se de (m_esv s)).
  set (m2 := with_mhead (m_ehd1 s) (m_ehd2 s) t se de (m_esv s) (cleared m)) in *.
  assert (E' : copy_properties l (M_Message.uecho_message_setdestinationaddress (m_to s) (M_Message.uecho_message_setsourceaddress (m_from s) m2)) = Ok m') by exact E.
  clear E. rename E' into E. clearbody m2.
  change ((a, BMsg (with_head (m_ehd1 s) (m_ehd2 s) t se de (m_esv s) g)) :: Rm ++ Lb ++ F) with (((a, BMsg (with_head (m_ehd1 s) (m_ehd2 s) t se de (m_esv s) g)) :: Rm) ++ Lb ++ F).
  apply wp_bind. eapply wp_load_msg; [inl|].
  apply wp_bind. eapply (wp_setfrom room Room _ (m_from s)); [exact RB|apply Permutation_refl| |].
  { eapply addr_arg_incl; [exact AF|]. intros x X. apply in_or_app. left. exact X. }
  clear La R Pm RB SG. intros La R. apply wp_bind. eapply wp_load_msg; [inl|].
  apply wp_bind. eapply (wp_setto room Room _ (m_to s)); [exact R|apply Permutation_refl| |].
  { eapply addr_arg_incl; [exact AT|]. intros x X. apply in_or_app. left. exact X. }
  clear La R. intros La R. apply wp_bind. eapply wp_load_msg; [inl|]. rewrite <- LA.
  apply wp_bind. destruct IA as [->|IA].
  - cbn [length copy_loop]. apply wp_ret. apply wp_ret. apply H. destruct l as [|p l]; [|cbn in RP; contradiction].
    cbn in E. injection E as <-. exact R.
  - assert (PA := props_rep_in _ _ _ RP).
    eapply (wp_copy_loop l ads [] b h Lb Lt Lo); [exact Ih|exact IA| |lia| |exact PX|exact RP|exact R|apply Permutation_refl|exact E|].
    + cbn [app]. unfold len. lia.
    + cbn [app]. eapply Forall_impl; [|exact PA]. intros x (q & I). exists q. eapply Permutation_in; [apply Permutation_sym; exact PX|].
      apply in_or_app. left. exact I.
    + intros La' R'. apply wp_ret. apply H. exact R'.
Qed.

Lemma wp_copy : forall le b s cb Lb m' L F (Q : Z -> heaplet -> Prop), msg_rep b s cb Lb ->
  Permutation L (Lb ++ F) -> M_Message.uecho_message_copy le s = Ok m' ->
  (forall a La, 0 < a -> msg_rep a m' None La -> Q a (La ++ Lb ++ F)) ->
  wp (uecho_message_copy room le b) L Q.
Proof.
  intros le b s cb Lb m' L F Q R P E H. eapply wp_perm; [exact P|]. unfold uecho_message_copy.
  apply wp_bind. apply (wp_message_new room Room). intros a La A Ra. rewrite (pos_nz a) by assumption.
  apply wp_bind. eapply wp_set; [exact Ra|exact R|apply Permutation_refl|exact E|]. intros La' Ra'. apply wp_ret. apply H; assumption.
Qed.

Lemma getbytes_size : forall m buf l, getbytes_buf m = Ok buf -> init_bytes buf = Ok l -> forall n, M_Message.uecho_message_size m = Ok n ->
  len buf = len (fresh_buf n).
Proof.
  assert (W : forall l buf i buf', wr_seq buf i l = Ok buf' -> len buf' = len buf).
  { induction l as [|c l IH]; intros buf i buf' E; cbn [wr_seq] in E; [injection E as <-; reflexivity|].
    apply bind_ok in E. destruct E as (b1 & E1 & E). apply wr_len in E1. apply IH in E. lia. }
  assert (WR : forall (l : list (option Z)) off src l', wr_range l off src = Ok l' -> len l' = len l).
  { intros l off src l'. unfold wr_range. destruct (len src =? 0); [intro X; injection X as <-; reflexivity|].
    destruct ((0 <=? off) && (off + len src <=? len l)) eqn:C; [|discriminate]. apply andb_true_iff in C. destruct C as [C1 C2].
    apply Z.leb_le in C1, C2. intro X. injection X as <-. pose proof (len_nonneg _ src). rewrite !len_app.
    unfold len in *. rewrite firstn_length, skipn_length. lia. }
  assert (SL : forall ps buf off x, M_Message.setopcbytes_loop ps buf off = Ok x -> len (fst x) = len buf).
  { induction ps as [|p ps IH]; intros buf off x E; cbn [M_Message.setopcbytes_loop] in E; [injection E as <-; reflexivity|].
    apply bind_ok in E. destruct E as (b1 & E1 & E). apply bind_ok in E. destruct E as (b2 & E2 & E). apply wr_len in E1, E2.
    destruct (uecho_property_getdatasize p <=? 0); [apply IH in E; lia|]. apply bind_ok in E. destruct E as (b3 & E3 & E). apply WR in E3. apply IH in E. lia. }
  assert (SB : forall v buf off x, M_Message.uecho_message_setopcbytes v buf off = Ok x -> len (fst x) = len buf).
  { intros v buf off x E. unfold M_Message.uecho_message_setopcbytes in E. apply bind_ok in E. destruct E as (l & _ & E). eapply SL; exact E. }
  intros m buf l E _ n En. unfold getbytes_buf in E. rewrite En in E. cbn [bind] in E.
  do 6 (apply bind_ok in E; destruct E as (? & _ & E)). apply bind_ok in E. destruct E as (b1 & E1 & E). apply W in E1.
  destruct (uecho_message_isreadwritemessage m).
  - apply bind_ok in E. destruct E as (b2 & E2 & E). apply bind_ok in E. destruct E as ([b3 o3] & E3 & E).
    apply bind_ok in E. destruct E as (b4 & E4 & E). apply bind_ok in E. destruct E as ([b5 o5] & E5 & E). injection E as <-.
    apply wr_len in E2, E4. apply SB in E3, E5. cbn [fst] in *. lia.
  - apply bind_ok in E. destruct E as (b2 & E2 & E). apply bind_ok in E. destruct E as ([b3 o3] & E3 & E). injection E as <-.
    apply wr_len in E2. apply SB in E3. cbn [fst] in *. lia.
Qed.

Lemma rd_range_whole : forall A (l : list A) n, len l = n -> rd_range l 0 n = Ok l.
Proof.
  intros A l n E. replace l with ([] ++ l ++ []) at 1 by (rewrite app_nil_r; reflexivity). apply rd_range_app; [reflexivity|symmetry; exact E].
Qed.
Lemma size_nonneg : forall m n, M_Message.uecho_message_size m = Ok n -> 0 <= n.
Proof.
  intros m n E. unfold M_Message.uecho_message_size in E. destruct (uecho_message_isreadwritemessage m).
  - apply bind_ok in E. destruct E as (x & _ & E). apply bind_ok in E. destruct E as (y & _ & E). injection E as <-.
    apply Z.mod_pos_bound. reflexivity.
  - apply bind_ok in E. destruct E as (x & _ & E). injection E as <-. apply Z.mod_pos_bound. reflexivity.
Qed.

(* distinct messages *)
Lemma wp_equals : forall a m c La b s cb Lb r L F (Q : bool -> heaplet -> Prop), msg_rep a m c La -> msg_rep b s cb Lb ->
  Permutation L (La ++ Lb ++ F) -> M_Message.uecho_message_equals m s = Ok r ->
  (forall c' cb' La' Lb', msg_rep a m c' La' -> msg_rep b s cb' Lb' -> Q r (La' ++ Lb' ++ F)) ->
  wp (uecho_message_equals room a b) L Q.
Proof.
  intros a m c La b s cb Lb r L F Q R RS P E H. eapply wp_perm; [exact P|]. unfold uecho_message_equals.
  unfold M_Message.uecho_message_equals in E. apply bind_ok in E. destruct E as (s1 & E1 & E). apply bind_ok in E. destruct E as (s2 & E2 & E).
  destruct (msg_view _ _ _ _ R) as (g & V). destruct (msg_view _ _ _ _ RS) as (h & W).
  apply wp_bind. eapply (wp_size a g m); [eapply view_incl; [exact V|intros x X; apply in_or_app; left; exact X]|exact E1|].
  apply wp_bind. eapply (wp_size b h s); [eapply view_incl; [exact W|intros x X; apply in_or_app; right; apply in_or_app; left; exact X]|exact E2|].
  destruct (Z.eqb_spec s1 s2) as [EQ|NE]; cbn [negb] in *.
  - subst s2. apply bind_ok in E. destruct E as (b1 & B1 & E). apply bind_ok in E. destruct E as (b2 & B2 & E). injection E as <-.
    apply bind_ok in B1. destruct B1 as (u1 & U1 & B1). apply bind_ok in B2. destruct B2 as (u2 & U2 & B2).
    pose proof (getbytes_size _ _ _ U1 B1 _ E1) as Z1. pose proof (getbytes_size _ _ _ U2 B2 _ E2) as Z2.
    pose proof (size_nonneg _ _ E1) as Z0. unfold fresh_buf in Z1, Z2. rewrite len_repeat, Z2Nat.id in Z1, Z2 by exact Z0.
    apply wp_bind. eapply (wp_getbytes room Room a m c u1 La _ (Lb ++ F)); [exact R|apply Permutation_refl|exact U1|].
    intros p1 La' R' I1. apply wp_bind. eapply (wp_getbytes room Room b s cb u2 Lb _ (La' ++ F)); [exact RS|perm|exact U2|].
    intros p2 Lb' RS' I2.
    apply wp_bind. eapply wp_load_bytes; [inl|]. apply wp_bind. eapply wp_load_bytes; [inl|].
    apply wp_bind. eapply wp_lift; [apply rd_range_whole; exact Z1|]. apply wp_bind. eapply wp_lift; [apply rd_range_whole; exact Z2|].
    apply wp_bind. eapply wp_lift; [exact B1|]. apply wp_bind. eapply wp_lift; [exact B2|].
    apply wp_post, wp_ret. exists (La' ++ Lb' ++ F). split; [perm|]. eapply H; eassumption.
  - injection E as <-. apply wp_ret. eapply H; eassumption.
Qed.

Lemma wp_search_new : forall m L (Q : Z -> heaplet -> Prop), M_Message.uecho_message_search_new = Ok m ->
  (forall a Lm, 0 < a -> msg_rep a m None Lm -> Q a (Lm ++ L)) -> wp (uecho_message_search_new room) L Q.
Proof.
  intros m L Q E H. unfold M_Message.uecho_message_search_new in E. apply bind_ok in E. destruct E as (m1 & E1 & E).
  apply bind_ok in E. destruct E as (m2 & E2 & E).
  unfold M_Message.uecho_message_setsourceobjectcode, M_Message.uecho_message_setdestinationobjectcode in E1, E2.
  apply bind_ok in E1. destruct E1 as (e1 & G1 & X). injection X as <-. apply bind_ok in E2. destruct E2 as (e2 & G2 & X). injection X as <-.
  unfold M_Message.uecho_message_addproperty in E. apply bind_ok in E. destruct E as (v & EV & X). injection X as <-.
  unfold uecho_message_search_new. apply wp_bind. apply (wp_message_new room Room). intros a La A Ra. rewrite (pos_nz a) by assumption.
  apply wp_bind. eapply wp_setesv; [exact Ra|apply Permutation_refl|]. clear La Ra. intros La Ra.
  apply wp_bind. eapply wp_setsource; [exact Ra|apply Permutation_refl|exact G1|]. clear La Ra. intros La Ra.
  apply wp_bind. eapply wp_setdestination; [exact Ra|apply Permutation_refl|exact G2|]. clear La Ra. intros La Ra.
  apply wp_bind. apply (wp_prop_new room Room). intros p Lp P Rp.
  apply wp_bind. eapply wp_setcode; [exact Rp|apply Permutation_refl|]. clear Lp Rp. intros Lp Rp.
  apply wp_bind. eapply (wp_setdata room Room p _ Lp 0 0 [] []); [exact Rp|apply Permutation_refl|reflexivity|congruence|]. clear Lp Rp. intros Lp Rp.
  apply wp_bind. eapply (wp_addproperty room Room PPlain a _ None La p _ v Lp _ L); [exact Ra|exact Rp|perm|exact EV|].
  intros La' Ra' _. apply wp_ret. apply H; assumption.
Qed.
End Room.
