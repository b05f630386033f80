(* Serialisation in the heap: size, getbytes, equals. *)
From Coq Require Import String ZArith List Bool Lia Permutation.
From Verif Require Import CSem P_Base M_Const M_Misc M_String M_Property M_Log M_Message M_Mem P_Mem P_MemProp P_MemMsg P_MemParse.
Import ListNotations.
Open Scope Z_scope.

(* the blocks [L] hold the struct [g] at [a], and its arrays hold the properties of [m] *)
Definition view (a : Z) (g : cmsg) (m : msg) (L : heaplet) : Prop :=
  In (a, BMsg g) L /\ same_head g m /\ forall w, exists Lw, vec_rep (g_array w g) (mpart w m) Lw /\ incl Lw L.

Lemma view_incl : forall a g m L L', view a g m L -> incl L L' -> view a g m L'.
Proof.
  intros a g m L L' (I & SH & V) J. split; [apply J; exact I|]. split; [exact SH|]. intro w. destruct (V w) as (Lw & X & Y).
  exists Lw. split; [exact X|]. intros x Z0. apply J, Y, Z0.
Qed.

Lemma focus_view : forall a m c L, msg_rep a m c L -> exists g Lw R,
  Permutation L ((a, BMsg g) :: Lw ++ R) /\ cache_rep (g_bytes g) c Lw
  /\ (forall b, view a (with_bytes b g) m ((a, BMsg (with_bytes b g)) :: R))
  /\ forall a' c' Lw', cache_rep a' c' Lw' -> msg_rep a m c' ((a, BMsg (with_bytes a' g)) :: Lw' ++ R).
Proof.
  intros a m c L (ep & eps & epg & b & f & t & Lp & Ls & Lg & Lb & Lf & Lt & P & V1 & V2 & V3 & K & A1 & A2).
  exists (mkCmsg (m_ehd1 m) (m_ehd2 m) (m_tid m) (m_seoj m) (m_deoj m) (m_esv m)
       (pv_opc (m_p m)) (pv_opc (m_pset m)) (pv_opc (m_pget m)) ep eps epg b f t).
  exists Lb, (Lp ++ Ls ++ Lg ++ Lf ++ Lt). split; [eapply perm_trans; [exact P|perm]|]. split; [exact K|]. split.
  - intro b'. split; [left; reflexivity|]. split; [repeat split|]. intros [].
    + exists Lp. split; [exact V1|]. intros x X. right. apply in_or_app. left. exact X.
    + exists Ls. split; [exact V2|]. intros x X. right. apply in_or_app. right. apply in_or_app. left. exact X.
    + exists Lg. split; [exact V3|]. intros x X. right. apply in_or_app. right. apply in_or_app. right. apply in_or_app. left. exact X.
  - intros a' c' Lw' V'. exists ep, eps, epg, a', f, t, Lp, Ls, Lg, Lw', Lf, Lt. split; [cbn; perm|]. repeat (split; [assumption|]). assumption.
Qed.
Lemma msg_view : forall a m c L, msg_rep a m c L -> exists g, view a g m L.
Proof.
  intros a m c L R. destruct (focus_view a m c L R) as (g & Lw & Rm & P & _ & V & _). specialize (V (g_bytes g)).
  rewrite with_bytes_same in V. exists g. eapply view_incl; [exact V|]. intros x X. eapply Permutation_in; [apply Permutation_sym; exact P|].
  destruct X as [X|X]; [left; exact X|right; apply in_or_app; right; exact X].
Qed.

Lemma prop_rep_data : forall a p L, prop_rep a p L -> exists q, In (a, BProp q) L /\ q_code q = p_code p
  /\ q_size q = len (p_data p) /\ len (p_data p) < SIZE_MOD /\ (p_data p <> [] -> In (q_data q, BBytes (map Some (p_data p))) L).
Proof.
  intros a p L (s & o & d & Ls & Ld & -> & Rs & Rd & _ & LS). eexists. split; [left; reflexivity|].
  split; [reflexivity|]. split; [reflexivity|]. split; [exact LS|]. intro D. right. apply in_or_app. right. cbn [q_data].
  unfold data_rep in Rd. destruct (p_data p); [congruence|]. subst Ld. left. reflexivity.
Qed.

Lemma wp_opcsize_loop : forall ps ads ep done acc Lp L (Q : Z -> heaplet -> Prop),
  props_rep ads ps Lp -> (ads = [] \/ In (ep, BPtrs (map Some (done ++ ads))) L) -> incl Lp L ->
  Q (fold_left (fun n p => sz (sz (n + 2) + uecho_property_getdatasize p)) ps acc) L ->
  wp (opcsize_loop ep (len done) (length ads) acc) L Q.
Proof.
  induction ps as [|p ps IH]; intros ads ep done acc Lp L Q R I J H.
  - apply props_rep_nil_inv in R. destruct R as [-> ->]. cbn [length opcsize_loop]. apply wp_ret. exact H.
  - apply props_rep_cons_inv in R. destruct R as (a & ads' & L1 & L2 & -> & -> & R1 & R2).
    destruct I as [I|I]; [discriminate|]. cbn [length opcsize_loop].
    destruct (prop_rep_data a p L1 R1) as (q & Iq & Ec & Es & _).
    apply wp_bind. eapply wp_ptr_at; [exact I|rewrite map_app; apply rd_mid; rewrite len_map; reflexivity|].
    eapply (wp_pos _ _ _ _ a); [apply J; apply in_or_app; left; exact Iq|intro P0]. rewrite (pos_nz a) by assumption.
    apply wp_bind. eapply wp_load_prop; [apply J; apply in_or_app; left; exact Iq|]. rewrite Es.
    replace (len done + 1) with (len (done ++ [a])) by (rewrite len_app; reflexivity).
    eapply IH; [exact R2|right; rewrite <- app_assoc; exact I| |].
    + intros x X. apply J. apply in_or_app. right. exact X.
    + exact H.
Qed.

Lemma wp_opcsize : forall w a g m n L (Q : Z -> heaplet -> Prop), view a g m L ->
  M_Message.uecho_message_opcsize (mpart w m) = Ok n -> Q n L -> wp (uecho_message_opcsize w g) L Q.
Proof.
  intros w a g m n L Q (I & SH & V) E H. destruct (V w) as (Lw & X & Y).
  destruct (vec_items _ _ _ X) as (l & ads & Lp & EI & RP & LA & IA & IP & EP).
  unfold uecho_message_opcsize. rewrite (same_count w g m SH), <- LA.
  unfold M_Message.uecho_message_opcsize in E. rewrite EI in E. cbn [bind] in E. injection E as <-.
  eapply (wp_opcsize_loop l ads _ [] 0 Lp); [exact RP| | |exact H].
  - destruct IA as [IA|IA]; [left; exact IA|right; apply Y; exact IA].
  - intros x Z0. apply Y, IP, Z0.
Qed.

Lemma view_rw : forall a g m L, view a g m L -> is_readwrite g = uecho_message_isreadwritemessage m.
Proof. intros a g m L (_ & SH & _). destruct SH as (_ & _ & _ & _ & _ & E & _). unfold is_readwrite, uecho_message_isreadwritemessage. rewrite E. reflexivity. Qed.

Lemma wp_size : forall a g m n L (Q : Z -> heaplet -> Prop), view a g m L ->
  M_Message.uecho_message_size m = Ok n -> Q n L -> wp (uecho_message_size a) L Q.
Proof.
  intros a g m n L Q V E H. assert (I := proj1 V). unfold uecho_message_size. nz a.
  apply wp_bind. eapply wp_load_msg; [exact I|]. rewrite (view_rw _ _ _ _ V). unfold M_Message.uecho_message_size in E.
  destruct (uecho_message_isreadwritemessage m).
  - apply bind_ok in E. destruct E as (x & E1 & E). apply bind_ok in E. destruct E as (y & E2 & E). injection E as <-.
    apply wp_bind. eapply (wp_opcsize PSet); [exact V|exact E1|]. apply wp_bind. eapply (wp_opcsize PGet); [exact V|exact E2|]. apply wp_ret. exact H.
  - apply bind_ok in E. destruct E as (x & E1 & E). injection E as <-.
    apply wp_bind. eapply (wp_opcsize PPlain); [exact V|exact E1|]. apply wp_ret. exact H.
Qed.

Lemma wp_setopcbytes_loop : forall ps ads ep done b buf off buf' off' Lp L F (Q : Z -> heaplet -> Prop),
  props_rep ads ps Lp -> Permutation L ((b, BBytes buf) :: F) ->
  (ads = [] \/ In (ep, BPtrs (map Some (done ++ ads))) F) -> incl Lp F ->
  M_Message.setopcbytes_loop ps buf off = Ok (buf', off') ->
  Q off' ((b, BBytes buf') :: F) ->
  wp (setopcbytes_loop b ep (len done) (length ads) off) L Q.
Proof.
  induction ps as [|p ps IH]; intros ads ep done b buf off buf' off' Lp L F Q R P I J E H; (eapply wp_perm; [exact P|]).
  - apply props_rep_nil_inv in R. destruct R as [-> ->]. cbn [length setopcbytes_loop]. apply wp_ret. cbn in E. injection E as <- <-. exact H.
  - apply props_rep_cons_inv in R. destruct R as (a & ads' & L1 & L2 & -> & -> & R1 & R2).
    destruct I as [I|I]; [discriminate|]. cbn [length setopcbytes_loop].
    destruct (prop_rep_data a p L1 R1) as (q & Iq & Ec & Es & LS & Id).
    assert (Iq' : In (a, BProp q) F) by (apply J; apply in_or_app; left; exact Iq).
    apply wp_bind. eapply wp_ptr_at; [right; exact I|rewrite map_app; apply rd_mid; rewrite len_map; reflexivity|].
    eapply (wp_pos _ _ _ _ a); [right; exact Iq'|intro P0]. rewrite (pos_nz a) by assumption.
    apply wp_bind. eapply wp_load_prop; [right; exact Iq'|].
    cbn [M_Message.setopcbytes_loop] in E. apply bind_ok in E. destruct E as (b1 & E1 & E). apply bind_ok in E. destruct E as (b2 & E2 & E).
    unfold uecho_property_getdatasize in E, E2. rewrite Ec, Es.
    apply wp_bind. eapply wp_poke; [apply Permutation_refl|exact E1|].
    apply wp_bind. eapply wp_poke; [apply Permutation_refl|exact E2|].
    assert (I' : In (ep, BPtrs (map Some ((done ++ [a]) ++ ads'))) F) by (rewrite <- app_assoc; exact I).
    replace (len done + 1) with (len (done ++ [a])) by (rewrite len_app; reflexivity).
    assert (J2 : incl L2 F) by (intros x X; apply J; apply in_or_app; right; exact X).
    destruct (Z.leb_spec (len (p_data p)) 0) as [C|C].
    + eapply IH; [exact R2|apply Permutation_refl|right; exact I'|exact J2|exact E|exact H].
    + apply bind_ok in E. destruct E as (b3 & E3 & E).
      apply wp_bind. eapply wp_copy_bytes; [apply Permutation_refl| |exact C| |exact E3|].
      * apply J. apply in_or_app. left. apply Id. intro D. rewrite D in C. cbn in C. lia.
      * replace (map Some (p_data p)) with ([] ++ map Some (p_data p) ++ []) at 1 by (rewrite app_nil_r; reflexivity).
        apply rd_range_app; [reflexivity|]. rewrite len_map. reflexivity.
      * eapply IH; [exact R2|apply Permutation_refl|right; exact I'|exact J2|exact E|exact H].
Qed.

Lemma wp_setopcbytes : forall w a g m buf off buf' off' L F (Q : Z -> heaplet -> Prop), view a g m F ->
  Permutation L ((g_bytes g, BBytes buf) :: F) ->
  M_Message.uecho_message_setopcbytes (mpart w m) buf off = Ok (buf', off') ->
  Q off' ((g_bytes g, BBytes buf') :: F) -> wp (uecho_message_setopcbytes w a off) L Q.
Proof.
  intros w a g m buf off buf' off' L F Q (I & SH & V) P E H. destruct (V w) as (Lw & X & Y).
  destruct (vec_items _ _ _ X) as (l & ads & Lp & EI & RP & LA & IA & IP & EP).
  eapply wp_perm; [exact P|]. unfold uecho_message_setopcbytes. apply wp_bind. eapply wp_load_msg; [right; exact I|].
  rewrite (same_count w g m SH), <- LA.
  unfold M_Message.uecho_message_setopcbytes in E. rewrite EI in E. cbn [bind] in E.
  eapply (wp_setopcbytes_loop l ads _ [] _ buf off buf' off' Lp); [exact RP|apply Permutation_refl| | |exact E|exact H].
  - destruct IA as [IA|IA]; [left; exact IA|right; apply Y; exact IA].
  - intros x Z0. apply Y, IP, Z0.
Qed.

Lemma wp_pokes : forall l b i buf buf' L F (Q : unit -> heaplet -> Prop), Permutation L ((b, BBytes buf) :: F) ->
  wr_seq buf i l = Ok buf' -> Q tt ((b, BBytes buf') :: F) -> wp (pokes b i l) L Q.
Proof.
  induction l as [|c l IH]; intros b i buf buf' L F Q P E H; (eapply wp_perm; [exact P|]); cbn [pokes].
  - cbn in E. injection E as <-. apply wp_ret. exact H.
  - cbn [wr_seq] in E. apply bind_ok in E. destruct E as (b1 & E1 & E).
    apply wp_bind. eapply wp_poke; [apply Permutation_refl|exact E1|]. eapply IH; [apply Permutation_refl|exact E|exact H].
Qed.

Section Room.
Variable room : Z -> bool.
Hypothesis Room : forall n, room n = true.

Lemma wp_getbytes : forall a m c buf Lm L F (Q : Z -> heaplet -> Prop), msg_rep a m c Lm -> Permutation L (Lm ++ F) ->
  getbytes_buf m = Ok buf ->
  (forall b Lm', msg_rep a m (Some buf) Lm' -> In (b, BBytes buf) Lm' -> Q b (Lm' ++ F)) ->
  wp (uecho_message_getbytes room a) L Q.
Proof.
  intros a m c buf Lm L F Q R P E H. destruct (focus_view a m c Lm R) as (g & Lw & Rm & Pm & K & V & RB).
  eapply wp_perm; [eapply perm_trans; [exact P|apply Permutation_app_tail; exact Pm]|]. cbn [app].
  unfold uecho_message_getbytes. apply wp_bind. eapply wp_load_msg; [inl|]. apply wp_bind.
  unfold getbytes_buf in E.
  apply bind_ok in E. destruct E as (n & E0 & E).
  apply bind_ok in E. destruct E as (s0 & S0 & E). apply bind_ok in E. destruct E as (s1 & S1 & E). apply bind_ok in E. destruct E as (s2 & S2 & E).
  apply bind_ok in E. destruct E as (t0 & T0 & E). apply bind_ok in E. destruct E as (t1 & T1 & E). apply bind_ok in E. destruct E as (t2 & T2 & E).
  apply bind_ok in E. destruct E as (b1 & B1 & E).
  assert (FIN : forall L', Permutation L' ((a, BMsg g) :: Rm ++ F) ->
    wp (let! size := uecho_message_size a in
  let! b := malloc room (fun _ => BBytes (fresh_buf size)) in
  let! _ := store a (BMsg (with_bytes b g)) in
  let! s0 := lift (rd (g_seoj g) 0) in let! s1 := lift (rd (g_seoj g) 1) in let! s2 := lift (rd (g_seoj g) 2) in
  let! t0 := lift (rd (g_deoj g) 0) in let! t1 := lift (rd (g_deoj g) 1) in let! t2 := lift (rd (g_deoj g) 2) in
  let! _ := pokes b 0 [g_ehd1 g; g_ehd2 g; fst (g_tid g); snd (g_tid g); s0; s1; s2; t0; t1; t2; g_esv g] in
  let! _ := (if is_readwrite g then
               let! _ := poke b 11 (g_opcset g) in
               let! off := uecho_message_setopcbytes PSet a 12 in
               let! _ := poke b off (g_opcget g) in
               uecho_message_setopcbytes PGet a (sz (off + 1))
             else
               let! _ := poke b 11 (g_opc g) in
               uecho_message_setopcbytes PPlain a 12) in
  ret b) L' Q).
  { clear - Room E E0 S0 S1 S2 T0 T1 T2 B1 V RB H. intros L' P'. eapply wp_perm; [exact P'|].
    assert (V1 := V (g_bytes g)). rewrite with_bytes_same in V1.
    apply wp_bind. eapply (wp_size a g m); [eapply view_incl; [exact V1|]; intros x [X|X]; [left; exact X|right; apply in_or_app; left; exact X]|exact E0|].
    apply wp_bind. apply wp_malloc; [exact Room|]. intros b B _.
    apply wp_bind. eapply wp_store; [find_x|].
    pose proof (proj1 (proj2 V1)) as SH. destruct SH as (H1 & H2 & H3 & H4 & H5 & H6 & H7 & H8 & H9).
    rewrite H1, H2, H3, H4, H5, H6, H7, H8, H9.
    apply wp_bind. eapply wp_lift; [exact S0|]. apply wp_bind. eapply wp_lift; [exact S1|]. apply wp_bind. eapply wp_lift; [exact S2|].
    apply wp_bind. eapply wp_lift; [exact T0|]. apply wp_bind. eapply wp_lift; [exact T1|]. apply wp_bind. eapply wp_lift; [exact T2|].
    apply wp_bind. eapply wp_pokes; [apply perm_swap|exact B1|].
    assert (V2 : view a (with_bytes b g) m ((a, BMsg (with_bytes b g)) :: Rm ++ F)).
    { eapply view_incl; [apply V|]. intros x [X|X]; [left; exact X|right; apply in_or_app; left; exact X]. }
    assert (END : forall L2, Permutation L2 ((b, BBytes buf) :: (a, BMsg (with_bytes b g)) :: Rm ++ F) -> wp (ret b) L2 Q).
    { intros L2 P2. eapply wp_perm; [exact P2|]. apply wp_post, wp_ret.
      exists (((a, BMsg (with_bytes b g)) :: [(b, BBytes buf)] ++ Rm) ++ F). split; [perm|]. apply H; [|right; left; reflexivity].
      apply (RB b (Some buf)). reflexivity. }
    rewrite (view_rw _ _ _ _ V1). destruct (uecho_message_isreadwritemessage m).
    - apply bind_ok in E. destruct E as (b2 & B2 & E). apply bind_ok in E. destruct E as ([b3 off3] & B3 & E).
      apply bind_ok in E. destruct E as (b4 & B4 & E). apply bind_ok in E. destruct E as ([b5 off5] & B5 & E). injection E as <-.
      apply wp_bind. apply wp_bind. eapply wp_poke; [apply Permutation_refl|exact B2|].
      apply wp_bind. eapply (wp_setopcbytes PSet); [exact V2|apply Permutation_refl|exact B3|].
      apply wp_bind. eapply wp_poke; [apply Permutation_refl|exact B4|].
      eapply (wp_setopcbytes PGet); [exact V2|apply Permutation_refl|exact B5|]. apply END. apply Permutation_refl.
    - apply bind_ok in E. destruct E as (b2 & B2 & E). apply bind_ok in E. destruct E as ([b3 off3] & B3 & E). injection E as <-.
      apply wp_bind. apply wp_bind. eapply wp_poke; [apply Permutation_refl|exact B2|].
      eapply (wp_setopcbytes PPlain); [exact V2|apply Permutation_refl|exact B3|]. apply END. apply Permutation_refl. }
  destruct c as [l|]; cbn [cache_rep] in K.
  - subst Lw. nz (g_bytes g). eapply wp_free; [find_x|]. apply FIN. apply Permutation_refl.
  - destruct K as [C1 ->]. rewrite C1. cbn [Z.eqb]. apply wp_ret. apply FIN. apply Permutation_refl.
Qed.
End Room.
