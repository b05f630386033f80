(* Programs that use messages through pointers see the values of Spec_Mem.v and leak nothing. *)
From Coq Require Import String ZArith List Bool Lia Permutation.
From Verif Require Import CSem P_Base M_Const M_Misc M_String M_Property M_Log M_Message Spec_Message M_Mem M_MemUse Spec_Mem
  P_Mem P_MemProp P_MemMsg P_MemParse P_MemBytes P_MemCopy P_MemPkt.
Import ListNotations.
Open Scope Z_scope.

(* ---- reading ---- *)

Lemma wp_read_property : forall a p L0 L (Q : _ -> heaplet -> Prop), prop_rep a p L0 -> incl L0 L ->
  Q (p_code p, p_attr p, p_data p) L -> wp (read_property a) L Q.
Proof.
  intros a p L0 L Q (s & o & d & Ls & Ld & -> & _ & Rd & _ & SD) I H. unfold read_property.
  apply wp_bind. eapply wp_load_prop; [apply I; left; reflexivity|]. cbn [q_size q_data q_code q_attr].
  apply wp_bind. pose proof (len_nonneg _ (p_data p)) as N. destruct (Z.leb_spec (len (p_data p)) 0) as [C|C].
  - assert (E : len (p_data p) = 0) by lia. apply len_0_nil in E. rewrite E in H. apply wp_ret, wp_ret. exact H.
  - assert (ID : In (d, BBytes (map Some (p_data p))) L).
    { apply I. right. apply in_or_app. right. destruct (p_data p); [discriminate C|]. cbn [data_rep] in Rd. subst Ld. left. reflexivity. }
    apply wp_bind. eapply wp_load_bytes; [exact ID|].
    apply wp_bind. eapply wp_lift; [apply rd_range_whole; apply len_map|].
    eapply wp_lift; [apply init_bytes_map_Some|]. apply wp_ret. exact H.
Qed.

Lemma wp_read_properties : forall w a g m L, view a g m L -> forall k ps ads1 ads2 n Lp (Q : _ -> heaplet -> Prop),
  In (g_array w g, BPtrs (map Some (ads1 ++ ads2))) L -> len (ads1 ++ ads2) = g_count w g -> g_count w g <= 255 ->
  Forall (fun a => exists q, In (a, BProp q) L) (ads1 ++ ads2) ->
  props_rep ads2 ps Lp -> incl Lp L -> k = length ads2 -> n = len ads1 ->
  Q (map (fun p => (p_code p, p_attr p, p_data p)) ps) L -> wp (read_properties w a n k) L Q.
Proof.
  intros w a g m L V. induction k as [|k IH]; intros ps ads1 ads2 n Lp Q IA LA B0 FA RP IL EK EN H.
  - destruct ads2; [|discriminate]. destruct ps; [|contradiction]. cbn [read_properties]. apply wp_ret. exact H.
  - destruct ads2 as [|b ads2]; [discriminate|]. destruct ps as [|p ps]; [contradiction|]. destruct RP as (L1 & L2 & -> & R1 & R2).
    cbn [read_properties]. apply wp_bind. unfold M_Mem.uecho_message_getproperty. assert (Ig := proj1 V).
    nz a. apply wp_bind. eapply wp_load_msg; [exact Ig|]. nz (g_array w g).
    destruct (ads1 ++ b :: ads2) as [|x l] eqn:EL; [destruct ads1; discriminate|].
    assert (NX : exists q, In (x, BProp q) L) by (apply Forall_cons_iff in FA; apply FA). destruct NX as [qx NX].
    apply wp_bind. eapply wp_ptr_at; [exact IA|reflexivity|].
    nz x. pose proof (len_nonneg _ ads1) as N1. pose proof (len_nonneg _ ads2) as N2.
    assert (LL : len ads1 + (1 + len ads2) = g_count w g).
    { rewrite <- LA, <- EL, len_app. rewrite len_cons. lia. }
    rewrite sz_small by (unfold SIZE_MOD; lia). rewrite (proj2 (Z.ltb_ge _ _)) by lia.
    rewrite <- EL in *. eapply wp_ptr_at; [exact IA| |].
    { rewrite map_app. cbn [map]. apply rd_app_cons. rewrite len_map. exact EN. }
    apply wp_bind. eapply wp_read_property; [exact R1|intros y Y; apply IL; apply in_or_app; left; exact Y|].
    apply wp_bind. eapply (IH ps (ads1 ++ [b]) ads2 (n + 1) L2); rewrite <- ?app_assoc; cbn [app]; try assumption.
    + intros y Y. apply IL. apply in_or_app. right. exact Y.
    + cbn [length] in EK. lia.
    + rewrite len_app. cbn. rewrite EN. reflexivity.
    + apply wp_ret. exact H.
Qed.

Lemma wp_read_text : forall p o L (Q : _ -> heaplet -> Prop), addr_arg p o L -> Q (option_map cstr o) L -> wp (read_text p) L Q.
Proof.
  intros p [s|] L Q A H; cbn [addr_arg option_map] in *; unfold read_text.
  - destruct A as (I & T & _). nz p. apply wp_bind. unfold text_at. apply wp_bind. eapply wp_load_bytes; [exact I|].
    eapply wp_lift; [apply cells_text_plain; exact T|]. apply wp_ret. exact H.
  - subst p. cbn [Z.eqb]. apply wp_ret. exact H.
Qed.

Lemma full_view : forall a m c L, msg_rep a m c L -> exists g, view a g m L
  /\ addr_arg (g_from g) (m_from m) L /\ addr_arg (g_to g) (m_to m) L.
Proof.
  intros a m c L R.
  destruct R as (ep & eps & epg & by_ & f & t & Lp & Ls & Lg & Lc & Lf & Lt & P & V1 & V2 & V3 & K & A1 & A2).
  set (g := mkCmsg (m_ehd1 m) (m_ehd2 m) (m_tid m) (m_seoj m) (m_deoj m) (m_esv m)
       (pv_opc (m_p m)) (pv_opc (m_pset m)) (pv_opc (m_pget m)) ep eps epg by_ f t) in *.
  assert (IN : incl ((a, BMsg g) :: Lp ++ Ls ++ Lg ++ Lc ++ Lf ++ Lt) L)
    by (intros x X; eapply Permutation_in; [apply Permutation_sym; exact P|exact X]).
  assert (Ip : incl Lp L) by (intros x X; apply IN; right; repeat (apply in_or_app; first [left; exact X|right]); fail).
  assert (Is : incl Ls L) by (intros x X; apply IN; right; apply in_or_app; right; apply in_or_app; left; exact X).
  assert (Iq : incl Lg L) by (intros x X; apply IN; right; do 2 (apply in_or_app; right); apply in_or_app; left; exact X).
  assert (If : incl Lf L) by (intros x X; apply IN; right; do 4 (apply in_or_app; right); apply in_or_app; left; exact X).
  assert (It : incl Lt L) by (intros x X; apply IN; right; do 5 (apply in_or_app; right); exact X).
  exists g. split; [|split; [eapply addr_rep_arg; [exact A1|exact If]|eapply addr_rep_arg; [exact A2|exact It]]].
  split; [apply IN; left; reflexivity|]. split; [repeat split|]. intros [| |]; eexists; split; try eassumption.
Qed.

Lemma shown_items : forall v l, pv_ep v = None /\ l = [] \/ pv_ep v = Some l -> shown v = map (fun p => (p_code p, p_attr p, p_data p)) l.
Proof. intros v l [[E ->]|E]; unfold shown, stored; rewrite E; reflexivity. Qed.

Lemma wp_read_part : forall w a g m L (Q : _ -> heaplet -> Prop), view a g m L -> Q (shown (mpart w m)) L ->
  wp (read_properties w a 0 (Z.to_nat (g_count w g))) L Q.
Proof.
  intros w a g m L Q V H. destruct V as (Ig & SH & VW). destruct (VW w) as (Lw & R & IL).
  pose proof (same_count w g m SH) as SC. assert (B0 := proj1 R).
  destruct (vec_items _ _ _ R) as (l & ads & Lp & EI & RP & LA & IA & IP & EP).
  rewrite (shown_items _ _ EP) in H.
  destruct IA as [->|IA].
  - destruct l; [|contradiction]. cbn [length] in LA. rewrite SC, <- LA. cbn [read_properties]. apply wp_ret. exact H.
  - eapply (wp_read_properties w a g m L); [split; [exact Ig|split; [exact SH|exact VW]]| | | | | | | | |exact H].
    + instantiate (1 := ads). instantiate (1 := []). cbn [app]. apply IL. exact IA.
    + cbn [app]. unfold len. rewrite LA, SC. rewrite Z2Nat.id; lia.
    + rewrite SC. lia.
    + cbn [app]. eapply Forall_impl; [|exact (props_rep_in _ _ _ RP)]. cbv beta. intros x (q & I). exists q. apply IL, IP, I.
    + exact RP.
    + intros x X. apply IL, IP, X.
    + rewrite SC. symmetry. exact LA.
    + reflexivity.
Qed.

Lemma wp_read_message : forall a m c Lm L (Q : _ -> heaplet -> Prop), msg_rep a m c Lm -> incl Lm L -> Q (look m) L ->
  wp (read_message a) L Q.
Proof.
  intros a m c Lm L Q R I H. destruct (full_view _ _ _ _ R) as (g & V & A1 & A2).
  apply (view_incl _ _ _ _ _ V) in I as V'. clear V. rename V' into V.
  unfold read_message. apply wp_bind. eapply wp_load_msg; [exact (proj1 V)|].
  apply wp_bind. eapply (wp_read_part PPlain); [exact V|].
  apply wp_bind. eapply (wp_read_part PSet); [exact V|].
  apply wp_bind. eapply (wp_read_part PGet); [exact V|].
  apply wp_bind. eapply wp_read_text; [eapply addr_arg_incl; [exact A1|exact I]|].
  apply wp_bind. eapply wp_read_text; [eapply addr_arg_incl; [exact A2|exact I]|].
  apply wp_ret. destruct V as (_ & (E1 & E2 & E3 & E4 & E5 & E6 & _) & _). rewrite E3, E4, E5, E6. exact H.
Qed.

(* ---- the caller's messages ---- *)

Fixpoint all_rep (ps : list Z) (st : mstate) (L : heaplet) : Prop :=
  match ps, st with
  | [], [] => L = []
  | a :: ps', Some m :: st' => exists c L1 L2, Permutation L (L1 ++ L2) /\ msg_rep a m c L1 /\ all_rep ps' st' L2
  | _ :: ps', None :: st' => all_rep ps' st' L
  | _, _ => False
  end.

Lemma all_rep_perm : forall ps st L L', all_rep ps st L -> Permutation L L' -> all_rep ps st L'.
Proof.
  induction ps as [|a ps IH]; intros [|[m|] st] L L' R P; cbn [all_rep] in *; try contradiction.
  - subst L. apply Permutation_nil in P. exact P.
  - destruct R as (c & L1 & L2 & P1 & R1 & R2). exists c, L1, L2. split; [eapply perm_trans; [apply Permutation_sym; exact P|exact P1]|auto].
  - eapply IH; eauto.
Qed.

Lemma all_rep_new : forall ps st L a m c Lm, all_rep ps st L -> msg_rep a m c Lm -> all_rep (ps ++ [a]) (st ++ [Some m]) (Lm ++ L).
Proof.
  induction ps as [|b ps IH]; intros [|[x|] st] L a m c Lm R RM; cbn [all_rep app] in *; try contradiction.
  - subst L. exists c, Lm, []. split; [apply Permutation_refl|]. split; [exact RM|reflexivity].
  - destruct R as (c1 & L1 & L2 & P1 & R1 & R2). exists c1, L1, (Lm ++ L2). split; [|split; [exact R1|eapply IH; eauto]].
    eapply perm_trans; [apply Permutation_app_head; exact P1|]. perm.
  - eapply IH; eauto.
Qed.

Lemma all_take : forall i ps st L m, all_rep ps st L -> alive st i = Some m -> exists a c L1 L2,
  nth_error ps i = Some a /\ Permutation L (L1 ++ L2) /\ msg_rep a m c L1 /\ all_rep ps (put i None st) L2.
Proof.
  unfold alive. induction i as [|i IH]; intros [|b ps] [|[x|] st] L m R E; cbn [all_rep nth_error put] in *; try contradiction; try discriminate.
  - injection E as ->. destruct R as (c & L1 & L2 & P & R1 & R2). exists b, c, L1, L2. auto.
  - destruct R as (c1 & L1 & L2 & P1 & R1 & R2). destruct (IH ps st L2 m R2 E) as (a & c & K1 & K2 & EA & P & RM & RR).
    exists a, c, K1, (L1 ++ K2). split; [exact EA|]. split.
    + eapply perm_trans; [exact P1|]. eapply perm_trans; [apply Permutation_app_head; exact P|]. perm.
    + split; [exact RM|]. exists c1, L1, K2. split; [apply Permutation_refl|auto].
  - destruct (IH ps st L m R E) as (a & c & K1 & K2 & EA & P & RM & RR). exists a, c, K1, K2. auto.
Qed.

Lemma all_back : forall i ps st L a m c Lm, all_rep ps st L -> nth_error ps i = Some a -> nth_error st i = Some None ->
  msg_rep a m c Lm -> all_rep ps (put i (Some m) st) (Lm ++ L).
Proof.
  induction i as [|i IH]; intros [|b ps] [|[x|] st] L a m c Lm R EA E RM; cbn [all_rep nth_error put] in *; try contradiction; try discriminate.
  - injection EA as ->. exists c, Lm, L. split; [apply Permutation_refl|auto].
  - destruct R as (c1 & L1 & L2 & P1 & R1 & R2). exists c1, L1, (Lm ++ L2). split; [|split; [exact R1|eapply IH; eauto]].
    eapply perm_trans; [apply Permutation_app_head; exact P1|]. perm.
  - eapply IH; eauto.
Qed.

Lemma put_put : forall i x y st, put i x (put i y st) = put i x st.
Proof. induction i as [|i IH]; intros x y [|z st]; cbn [put]; try reflexivity. f_equal. apply IH. Qed.
Lemma put_comm : forall i j x y st, i <> j -> put i x (put j y st) = put j y (put i x st).
Proof.
  induction i as [|i IH]; intros [|j] x y [|z st] N; cbn [put]; try reflexivity; try contradiction.
  f_equal. apply IH. congruence.
Qed.
Lemma put_nth : forall i x st, (i < length st)%nat -> nth_error (put i x st) i = Some x.
Proof. induction i as [|i IH]; intros x [|z st] N; cbn [put nth_error length] in *; try lia; [reflexivity|]. apply IH. lia. Qed.
Lemma put_other : forall i j x st, i <> j -> nth_error (put i x st) j = nth_error st j.
Proof.
  induction i as [|i IH]; intros [|j] x [|z st] N; cbn [put nth_error]; try reflexivity; try contradiction.
  apply IH. congruence.
Qed.
Lemma alive_lt : forall st i m, alive st i = Some m -> (i < length st)%nat.
Proof. intros st i m E. unfold alive in E. apply nth_error_Some. destruct (nth_error st i); discriminate. Qed.
Lemma put_same : forall i m st, alive st i = Some m -> put i (Some m) st = st.
Proof.
  unfold alive. induction i as [|i IH]; intros m [|z st] E; cbn [put nth_error] in *; try reflexivity.
  - destruct z; [congruence|discriminate].
  - f_equal. apply IH. exact E.
Qed.

(* one message taken out, used, and put back *)
Lemma all_one : forall i ps st L m, all_rep ps st L -> alive st i = Some m -> exists a c L1 L2,
  nth_error ps i = Some a /\ Permutation L (L1 ++ L2) /\ msg_rep a m c L1 /\ all_rep ps (put i None st) L2
  /\ forall m' c' L1', msg_rep a m' c' L1' -> all_rep ps (put i (Some m') st) (L1' ++ L2).
Proof.
  intros i ps st L m R E. destruct (all_take i ps st L m R E) as (a & c & L1 & L2 & EA & P & RM & RR).
  exists a, c, L1, L2. split; [exact EA|]. split; [exact P|]. split; [exact RM|]. split; [exact RR|].
  intros m' c' L1' RM'. rewrite <- (put_put i (Some m') None). eapply all_back; [exact RR|exact EA| |exact RM'].
  apply put_nth. eapply alive_lt. exact E.
Qed.
Lemma all_two : forall i j ps st L m s, i <> j -> all_rep ps st L -> alive st i = Some m -> alive st j = Some s -> exists a c L1 b cb L2 L3,
  nth_error ps i = Some a /\ nth_error ps j = Some b /\ Permutation L (L1 ++ L2 ++ L3) /\ msg_rep a m c L1 /\ msg_rep b s cb L2
  /\ forall m' c' L1' cb' L2', msg_rep a m' c' L1' -> msg_rep b s cb' L2' -> all_rep ps (put i (Some m') st) (L1' ++ L2' ++ L3).
Proof.
  intros i j ps st L m s N R Ei Ej. destruct (all_take i ps st L m R Ei) as (a & c & L1 & L2 & EA & P & RM & RR).
  assert (Ej' : alive (put i None st) j = Some s) by (unfold alive in *; rewrite put_other by exact N; exact Ej).
  destruct (all_one j ps _ L2 s RR Ej') as (b & cb & K1 & K2 & EB & P2 & RB & _ & BACK).
  exists a, c, L1, b, cb, K1, K2. split; [exact EA|]. split; [exact EB|].
  split; [eapply perm_trans; [exact P|apply Permutation_app_head; exact P2]|]. split; [exact RM|]. split; [exact RB|].
  intros m' c' L1' cb' L2' RM' RB'. specialize (BACK s cb' L2' RB').
  rewrite (put_same j s) in BACK by exact Ej'. rewrite <- (put_put i (Some m') None).
  eapply all_back; [exact BACK|exact EA| |exact RM']. apply put_nth. eapply alive_lt. exact Ei.
Qed.

Lemma set_in_ok : forall w code d m m', set_in w code d m = Ok m' ->
  exists v, uecho_property_set (mpart w m) code d = Ok v /\ m' = with_mpart w v m.
Proof.
  intros w code d m m' E. destruct w; cbn [set_in] in E; apply bind_ok in E; destruct E as (v & E & X); injection X as <-; exists v; auto.
Qed.
Lemma add_in_ok : forall w p m m', add_in w p m = Ok m' ->
  exists v, uecho_property_add (mpart w m) p = Ok v /\ m' = with_mpart w v m.
Proof.
  intros w p m m' E. destruct w; cbn [add_in] in E; apply bind_ok in E; destruct E as (v & E & X); injection X as <-; exists v; auto.
Qed.
Lemma c_text_arg : forall o, c_text o -> text_arg o.
Proof. intros [s|] H; [|exact Logic.I]. destruct H as [A B]. split; [exact A|]. unfold OBJ_MAX, SIZE_MOD in *. lia. Qed.
Lemma buffer_size : forall d, buffer d -> len d < SIZE_MOD.
Proof. intros d [_ B]. unfold OBJ_MAX, SIZE_MOD in *. lia. Qed.
Lemma prop_built : forall code attr d,
  pdata d (M_Property.uecho_property_setattribute attr (M_Property.uecho_property_setcode code M_Property.uecho_property_new))
  = mkProp code attr d false.
Proof.
  intros. set (p := M_Property.uecho_property_setattribute _ _). destruct (pdata_fields d p) as (A & B & C & D).
  destruct (pdata d p) as [c0 a0 d0 o0]. cbn [p_code p_attr p_data p_parent] in *. subst c0 a0 d0 o0. reflexivity.
Qed.
Lemma on_ok : forall A (o : option A) f x, on o f = Some x -> exists a, o = Some a /\ f a = Some x.
Proof. intros A [a|] f x E; [|discriminate]. exists a. auto. Qed.
Lemma defined_ok : forall A (r : res A) a, defined r = Some a -> r = Ok a.
Proof. intros A [x|u] a E; [|discriminate]. injection E as ->. reflexivity. Qed.
Lemma incl_app_mid : forall (L1 L2 F : heaplet), incl L1 (L1 ++ L2 ++ F).
Proof. intros L1 L2 F x X. apply in_or_app. left. exact X. Qed.

Section Room.
Variable room : Z -> bool.
Hypothesis Room : forall n, room n = true.
Variable le : bool.

Definition after (o : obs) (st : mstate) (F : heaplet) (r : obs * list Z) (L : heaplet) : Prop :=
  fst r = o /\ exists Ls, Permutation L (Ls ++ F) /\ all_rep (snd r) st Ls.

Ltac alive1 E R P :=
  apply on_ok in E; destruct E as (m & Em & E);
  destruct (all_one _ _ _ _ _ R Em) as (pa & ca & L1 & L2 & EA & PL & RM & RD & BACK);
  unfold handle; rewrite EA; apply wp_bind, wp_ret;
  eapply wp_perm; [eapply perm_trans; [exact P|apply Permutation_app_tail; exact PL]|]; rewrite <- app_assoc.
Ltac def1 E := apply on_ok in E; destruct E as (m' & Ev & E); apply defined_ok in Ev.
Ltac done BACK RM := split; [reflexivity|]; eexists; split; [|eapply BACK; exact RM]; rewrite <- ?app_assoc; apply Permutation_refl.

Lemma wp_step : forall op ps st o st' L Ls F, sstep le op st = Some (o, st') -> args_ok op -> all_rep ps st Ls ->
  Permutation L (Ls ++ F) -> wp (hstep room le op ps) L (after o st' F).
Proof.
  intros op ps st o st' L Ls F E OK R P. destruct op; cbn [sstep hstep args_ok] in *.
  - (* new *) injection E as <- <-. eapply wp_perm; [exact P|]. apply wp_bind. apply (wp_message_new room Room). intros a La _ Ra.
    apply wp_ret. split; [reflexivity|]. exists (La ++ Ls). split; [rewrite <- app_assoc; apply Permutation_refl|].
    eapply all_rep_new; eauto.
  - (* search *) def1 E. injection E as <- <-. eapply wp_perm; [exact P|]. apply wp_bind. eapply (wp_search_new room Room); [exact Ev|].
    intros a La _ Ra. apply wp_ret. split; [reflexivity|]. exists (La ++ Ls). split; [rewrite <- app_assoc; apply Permutation_refl|].
    eapply all_rep_new; eauto.
  - (* copy *) apply on_ok in E; destruct E as (m & Em & E). def1 E. injection E as <- <-.
    destruct (all_one _ _ _ _ _ R Em) as (pa & ca & L1 & L2 & EA & PL & RM & RD & BACK).
    unfold handle; rewrite EA; apply wp_bind, wp_ret.
    eapply wp_perm; [eapply perm_trans; [exact P|apply Permutation_app_tail; exact PL]|]; rewrite <- app_assoc.
    apply wp_bind. eapply (wp_copy room Room); [exact RM|apply Permutation_refl|exact Ev|]. intros b Lb _ Rb.
    apply wp_ret. split; [reflexivity|]. exists (Lb ++ L1 ++ L2). split; [perm|].
    eapply all_rep_new; [|exact Rb]. eapply all_rep_perm; [exact R|exact PL].
  - (* delete *) alive1 E R P. injection E as <- <-. apply wp_bind.
    eapply (wp_message_delete room Room); [exact RM|apply Permutation_refl|]. apply wp_ret. split; [reflexivity|].
    exists L2. split; [apply Permutation_refl|exact RD].
  - (* clear *) alive1 E R P. def1 E. injection E as <- <-. apply cleared_eq in Ev. subst m'. apply wp_bind.
    eapply (wp_clear room Room); [exact RM|apply Permutation_refl|]. intros La Ra. apply wp_ret. done BACK Ra.
  - (* tid *) alive1 E R P. injection E as <- <-. apply wp_bind.
    eapply wp_settid; [exact RM|apply Permutation_refl|]. intros La Ra. apply wp_ret. done BACK Ra.
  - (* source *) alive1 E R P. def1 E. injection E as <- <-. apply bind_ok in Ev. destruct Ev as (e & E1 & X). injection X as <-. apply wp_bind.
    eapply wp_setsource; [exact RM|apply Permutation_refl|exact E1|]. intros La Ra. apply wp_ret. done BACK Ra.
  - (* destination *) alive1 E R P. def1 E. injection E as <- <-. apply bind_ok in Ev. destruct Ev as (e & E1 & X). injection X as <-. apply wp_bind.
    eapply wp_setdestination; [exact RM|apply Permutation_refl|exact E1|]. intros La Ra. apply wp_ret. done BACK Ra.
  - (* esv *) alive1 E R P. injection E as <- <-. apply wp_bind.
    eapply wp_setesv; [exact RM|apply Permutation_refl|]. intros La Ra. apply wp_ret. done BACK Ra.
  - (* from *) alive1 E R P. injection E as <- <-. apply wp_bind.
    apply wp_given_text; [apply c_text_arg; exact OK|]. intros p B A.
    eapply (wp_setfrom room Room p a pa m ca L1 _ (B ++ L2 ++ F)); [exact RM|perm|eapply addr_arg_incl; [exact A|intros x X; apply in_or_app; left; exact X]|].
    intros La Ra. exists (La ++ L2 ++ F). split; [perm|]. apply wp_ret. done BACK Ra.
  - (* to *) alive1 E R P. injection E as <- <-. apply wp_bind.
    apply wp_given_text; [apply c_text_arg; exact OK|]. intros p B A.
    eapply (wp_setto room Room p a pa m ca L1 _ (B ++ L2 ++ F)); [exact RM|perm|eapply addr_arg_incl; [exact A|intros x X; apply in_or_app; left; exact X]|].
    intros La Ra. exists (La ++ L2 ++ F). split; [perm|]. apply wp_ret. done BACK Ra.
  - (* set property *) alive1 E R P. def1 E. injection E as <- <-. destruct OK as [O1 O2].
    destruct (set_in_ok _ _ _ _ _ Ev) as (v & E1 & ->). apply wp_bind. apply wp_given. intros p P0.
    eapply (wp_setproperty room Room w pa m ca L1 code p 0 data (map Some data) v _ ((p, BBytes (map Some data)) :: L2 ++ F)); [exact RM|perm|exact E1|apply buffer_size; exact O2| |].
    { intros _. split; [left; reflexivity|]. apply rd_range_whole. apply len_map. }
    intros La Ra. exists (La ++ L2 ++ F). split; [perm|]. apply wp_ret. done BACK Ra.
  - (* add property *) alive1 E R P. def1 E. injection E as <- <-. destruct OK as [O1 O2].
    destruct (add_in_ok _ _ _ _ Ev) as (v & E1 & ->). rewrite <- (prop_built code attr data) in E1.
    apply wp_bind. apply (wp_prop_new room Room). intros q Lq _ Rq.
    apply wp_bind. eapply wp_setcode; [exact Rq|apply Permutation_refl|]. clear Lq Rq. intros Lq Rq.
    apply wp_bind. eapply wp_setattribute; [exact Rq|apply Permutation_refl|]. clear Lq Rq. intros Lq Rq.
    apply wp_bind. apply wp_given. intros p P0.
    eapply (wp_setdata room Room q _ Lq p 0 data (map Some data) _ ((p, BBytes (map Some data)) :: L1 ++ L2 ++ F)); [exact Rq|perm|apply buffer_size; exact O2| |].
    { intros _. split; [left; reflexivity|]. apply rd_range_whole. apply len_map. }
    clear Lq Rq. intros Lq Rq. exists (Lq ++ L1 ++ L2 ++ F). split; [perm|].
    apply wp_bind. eapply (wp_addproperty room Room w pa m ca L1 q _ v Lq _ (L2 ++ F)); [exact RM|exact Rq|perm|exact E1|].
    intros La Ra _. apply wp_ret. done BACK Ra.
  - (* parse *) alive1 E R P. def1 E. injection E as <- <-. destruct m' as [ok m']. cbn [fst snd].
    apply wp_bind. apply wp_given. intros p P0.
    eapply (wp_parse room Room pa m ca L1 p data ok m' _ ((p, BBytes (map Some data)) :: L2 ++ F)); [exact RM|perm|right; left; reflexivity|apply buffer_size; exact OK|apply OK|exact Ev|].
    intros La Ra. exists (La ++ L2 ++ F). split; [perm|]. apply wp_ret. done BACK Ra.
  - (* packet *) alive1 E R P. def1 E. injection E as <- <-. destruct m' as [ok m']. cbn [fst snd]. destruct OK as (O1 & O2 & O3).
    apply wp_bind. apply (wp_pkt_new room Room). intros k Lk _ Rk.
    apply wp_bind. apply wp_given. intros p P0.
    eapply (wp_pkt_setdata room Room k [] None None Lk p data _ ((p, BBytes (map Some data)) :: L1 ++ L2 ++ F)); [exact Rk|perm|left; reflexivity|apply buffer_size; exact O1|].
    clear Lk Rk. intros Lk Rk. exists (Lk ++ L1 ++ L2 ++ F). split; [perm|].
    apply wp_bind. apply wp_given_text; [apply c_text_arg; exact O2|]. intros p1 B A.
    eapply (wp_pkt_setlocal room Room k data None None Lk p1 local _ (B ++ L1 ++ L2 ++ F)); [exact Rk|perm|eapply addr_arg_incl; [exact A|intros x X; apply in_or_app; left; exact X]|].
    clear Lk Rk. intros Lk Rk. exists (Lk ++ L1 ++ L2 ++ F). split; [perm|]. clear B A.
    apply wp_bind. apply wp_given_text; [apply c_text_arg; exact O3|]. intros p2 B A.
    eapply (wp_pkt_setremote room Room k data _ None Lk p2 remote _ (B ++ L1 ++ L2 ++ F)); [exact Rk|perm|eapply addr_arg_incl; [exact A|intros x X; apply in_or_app; left; exact X]|].
    clear Lk Rk. intros Lk Rk. exists (Lk ++ L1 ++ L2 ++ F). split; [perm|].
    assert (E2 : forall x : option string, over x None = x) by (intros [|]; reflexivity). rewrite !E2 in Rk.
    apply wp_bind. eapply (wp_parsepacket room Room pa m ca L1 k data local remote Lk ok m' _ (L2 ++ F)); [exact RM|exact Rk|perm|apply O1|exact Ev|].
    intros La Ra. apply wp_bind. eapply (wp_pkt_delete k data local remote Lk _ (La ++ L2 ++ F)); [exact Rk|perm|].
    apply wp_ret. done BACK Ra.
  - (* bytes *) alive1 E R P. apply on_ok in E. destruct E as (l & Ev & E). apply defined_ok in Ev. injection E as <- <-.
    apply bind_ok in Ev. destruct Ev as (buf & E1 & E2). pose proof E1 as E0. unfold getbytes_buf in E0. apply bind_ok in E0. destruct E0 as (n & E0 & _).
    destruct (msg_view _ _ _ _ RM) as (g & V).
    apply wp_bind. eapply (wp_size pa g m n); [eapply view_incl; [exact V|apply incl_app_mid]|exact E0|].
    apply wp_bind. eapply (wp_getbytes room Room); [exact RM|apply Permutation_refl|exact E1|]. intros b La Ra Ib.
    apply wp_bind. eapply wp_load_bytes; [apply in_or_app; left; exact Ib|].
    apply wp_bind. eapply wp_lift; [apply rd_range_whole|].
    { rewrite (getbytes_size room Room m buf l E1 E2 n E0). unfold fresh_buf, len. rewrite repeat_length. rewrite Z2Nat.id; [reflexivity|]. eapply size_nonneg. exact E0. }
    apply wp_bind. eapply wp_lift; [exact E2|]. apply wp_ret. split; [reflexivity|].
    exists (La ++ L2). split; [rewrite <- app_assoc; apply Permutation_refl|]. rewrite <- (put_same i m st Em). eapply BACK. exact Ra.
  - (* set *) destruct (Nat.eqb_spec i j) as [EQ|NE]; [discriminate|]. apply on_ok in E. destruct E as (m & Em & E). apply on_ok in E. destruct E as (s & Es & E).
    def1 E. injection E as <- <-.
    destruct (all_two i j ps st Ls m s NE R Em Es) as (pa & ca & L1 & b & cb & L2 & L3 & EA & EB & PL & RM & RS & BACK).
    unfold handle. rewrite EA, EB. apply wp_bind, wp_ret. apply wp_bind, wp_ret.
    eapply wp_perm; [eapply perm_trans; [exact P|apply Permutation_app_tail; exact PL]|]. rewrite <- !app_assoc.
    apply wp_bind. eapply (wp_set room Room); [exact RM|exact RS|apply Permutation_refl|exact Ev|]. intros La Ra. apply wp_ret.
    split; [reflexivity|]. exists (La ++ L2 ++ L3). split; [rewrite <- !app_assoc; apply Permutation_refl|]. eapply BACK; [exact Ra|exact RS].
  - (* equals *) destruct (Nat.eqb_spec i j) as [EQ|NE]; [discriminate|]. apply on_ok in E. destruct E as (m & Em & E). apply on_ok in E. destruct E as (s & Es & E).
    def1 E. injection E as <- <-.
    destruct (all_two i j ps st Ls m s NE R Em Es) as (pa & ca & L1 & b & cb & L2 & L3 & EA & EB & PL & RM & RS & BACK).
    unfold handle. rewrite EA, EB. apply wp_bind, wp_ret. apply wp_bind, wp_ret.
    eapply wp_perm; [eapply perm_trans; [exact P|apply Permutation_app_tail; exact PL]|]. rewrite <- !app_assoc.
    apply wp_bind. eapply (wp_equals room Room); [exact RM|exact RS|apply Permutation_refl|exact Ev|]. intros c' cb' La Lb Ra Rb. apply wp_ret.
    split; [reflexivity|]. exists (La ++ Lb ++ L3). split; [rewrite <- !app_assoc; apply Permutation_refl|].
    rewrite <- (put_same i m st Em). eapply BACK; [exact Ra|exact Rb].
  - (* read *) alive1 E R P. injection E as <- <-. apply wp_bind. eapply wp_read_message; [exact RM|apply incl_app_mid|].
    apply wp_ret. split; [reflexivity|]. exists (L1 ++ L2). split; [rewrite <- app_assoc; apply Permutation_refl|].
    rewrite <- (put_same i m st Em). eapply BACK. exact RM.
Qed.

Lemma wp_run : forall ops ps st os st' L Ls F, srun le ops st = Some (os, st') -> Forall args_ok ops -> all_rep ps st Ls ->
  Permutation L (Ls ++ F) -> wp (hrun room le ops ps) L (fun r L' => fst r = os /\ exists Ls', Permutation L' (Ls' ++ F) /\ all_rep (snd r) st' Ls').
Proof.
  induction ops as [|op ops IH]; intros ps st os st' L Ls F E OK R P; cbn [srun hrun] in *.
  - injection E as <- <-. apply wp_ret. split; [reflexivity|]. exists Ls. auto.
  - destruct (sstep le op st) as [[o st1]|] eqn:E1; [|discriminate]. destruct (srun le ops st1) as [[os1 st2]|] eqn:E2; [|discriminate].
    injection E as <- <-. apply Forall_cons_iff in OK. destruct OK as [OK1 OK2].
    apply wp_bind. eapply wp_conseq; [eapply wp_step; eauto|]. cbv beta. intros r L' (EO & Ls' & P' & R').
    apply wp_bind. eapply wp_conseq; [eapply IH; eauto|]. cbv beta. intros r2 L2 (EO2 & Ls2 & P2 & R2).
    apply wp_ret. cbn [fst snd]. split; [congruence|]. exists Ls2. auto.
Qed.
End Room.
