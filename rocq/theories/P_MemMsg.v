(* Messages in the heap: each function of M_Mem.v on a message does to the blocks what M_Message.v says of the
   values, takes from the heap what the message holds afterwards, and leaves every other block alone. *)
From Coq Require Import String ZArith List Bool Lia Permutation.
From Verif Require Import CSem P_Base M_Const M_Misc M_String M_Property M_Log M_Message M_Mem P_Mem P_MemProp.
Import ListNotations.
Open Scope Z_scope.

(* the properties at the addresses [ads] *)
Fixpoint props_rep (ads : list Z) (ps : list prop) (L : heaplet) : Prop :=
  match ads, ps with
  | [], [] => L = []
  | a :: ads', p :: ps' => exists L1 L2, L = L1 ++ L2 /\ prop_rep a p L1 /\ props_rep ads' ps' L2
  | _, _ => False
  end.

(* a property array at [ep] *)
Definition vec_rep (ep : Z) (v : pvec) (L : heaplet) : Prop :=
  0 <= pv_opc v <= 255 /\
  match pv_ep v with
  | None => ep = 0 /\ pv_opc v = 0 /\ L = []
  | Some l => len l = pv_opc v /\ 0 < pv_opc v /\
      exists ads Lp, L = (ep, BPtrs (map Some ads)) :: Lp /\ props_rep ads l Lp
  end.

(* an address: NULL or a text *)
Definition addr_rep (a : Z) (o : option string) (L : heaplet) : Prop :=
  match o with
  | None => a = 0 /\ L = []
  | Some s => plain (cstr s) /\ len (cstr s) + 1 < SIZE_MOD /\ L = [(a, BBytes (map Some (cstr s) ++ [Some 0]))]
  end.

(* the serialisation kept in the message *)
Definition cache_rep (a : Z) (c : option (list (option Z))) (L : heaplet) : Prop :=
  match c with None => a = 0 /\ L = [] | Some l => L = [(a, BBytes l)] end.

Definition msg_rep (a : Z) (m : msg) (c : option (list (option Z))) (L : heaplet) : Prop :=
  exists ep eps epg b f t Lp Ls Lg Lb Lf Lt,
    Permutation L ((a, BMsg (mkCmsg (m_ehd1 m) (m_ehd2 m) (m_tid m) (m_seoj m) (m_deoj m) (m_esv m)
       (pv_opc (m_p m)) (pv_opc (m_pset m)) (pv_opc (m_pget m)) ep eps epg b f t)) :: Lp ++ Ls ++ Lg ++ Lb ++ Lf ++ Lt)
    /\ vec_rep ep (m_p m) Lp /\ vec_rep eps (m_pset m) Ls /\ vec_rep epg (m_pget m) Lg
    /\ cache_rep b c Lb /\ addr_rep f (m_from m) Lf /\ addr_rep t (m_to m) Lt.

Definition mpart (w : part) (m : msg) : pvec := match w with PPlain => m_p m | PSet => m_pset m | PGet => m_pget m end.
Definition with_mpart (w : part) (v : pvec) (m : msg) : msg :=
  match w with PPlain => with_p v m | PSet => with_pset v m | PGet => with_pget v m end.

Lemma msg_rep_perm : forall a m c L L', Permutation L L' -> msg_rep a m c L' -> msg_rep a m c L.
Proof.
  intros a m c L L' P (ep & eps & epg & b & f & t & Lp & Ls & Lg & Lb & Lf & Lt & P' & H).
  exists ep, eps, epg, b, f, t, Lp, Ls, Lg, Lb, Lf, Lt. split; [eapply perm_trans; eauto|exact H].
Qed.

(* the header of the C struct is that of the value *)
Definition same_head (g : cmsg) (m : msg) : Prop :=
  g_ehd1 g = m_ehd1 m /\ g_ehd2 g = m_ehd2 m /\ g_tid g = m_tid m /\ g_seoj g = m_seoj m /\ g_deoj g = m_deoj m
  /\ g_esv g = m_esv m /\ g_opc g = pv_opc (m_p m) /\ g_opcset g = pv_opc (m_pset m) /\ g_opcget g = pv_opc (m_pget m).

Lemma focus_part : forall w a m c L, msg_rep a m c L -> exists g Lw R,
  Permutation L ((a, BMsg g) :: Lw ++ R) /\ same_head g m /\ vec_rep (g_array w g) (mpart w m) Lw
  /\ forall v' ep' Lw', vec_rep ep' v' Lw' ->
       msg_rep a (with_mpart w v' m) c ((a, BMsg (with_part w (pv_opc v') ep' g)) :: Lw' ++ R).
Proof.
  intros w a m c L (ep & eps & epg & b & f & t & Lp & Ls & Lg & Lb & Lf & Lt & P & V1 & V2 & V3 & K & A1 & A2).
  exists (mkCmsg (m_ehd1 m) (m_ehd2 m) (m_tid m) (m_seoj m) (m_deoj m) (m_esv m)
       (pv_opc (m_p m)) (pv_opc (m_pset m)) (pv_opc (m_pget m)) ep eps epg b f t).
  destruct w.
  - exists Lp, (Ls ++ Lg ++ Lb ++ Lf ++ Lt). split; [exact P|]. split; [repeat split|]. split; [exact V1|].
    intros v' ep' Lw' V'. exists ep', eps, epg, b, f, t, Lw', Ls, Lg, Lb, Lf, Lt. split; [apply Permutation_refl|]. repeat (split; [assumption|]). assumption.
  - exists Ls, (Lp ++ Lg ++ Lb ++ Lf ++ Lt). split; [eapply perm_trans; [exact P|perm]|]. split; [repeat split|]. split; [exact V2|].
    intros v' ep' Lw' V'. exists ep, ep', epg, b, f, t, Lp, Lw', Lg, Lb, Lf, Lt. split; [cbn; perm|]. repeat (split; [assumption|]). assumption.
  - exists Lg, (Lp ++ Ls ++ Lb ++ Lf ++ Lt). split; [eapply perm_trans; [exact P|perm]|]. split; [repeat split|]. split; [exact V3|].
    intros v' ep' Lw' V'. exists ep, eps, ep', b, f, t, Lp, Ls, Lw', Lb, Lf, Lt. split; [cbn; perm|]. repeat (split; [assumption|]). assumption.
Qed.

Lemma focus_from : forall a m c L, msg_rep a m c L -> exists g Lw R,
  Permutation L ((a, BMsg g) :: Lw ++ R) /\ same_head g m /\ addr_rep (g_from g) (m_from m) Lw
  /\ forall o' a' Lw', addr_rep a' o' Lw' ->
       msg_rep a (with_from o' m) c ((a, BMsg (with_addrs a' (g_to g) g)) :: Lw' ++ R).
Proof.
  intros a m c L (ep & eps & epg & b & f & t & Lp & Ls & Lg & Lb & Lf & Lt & P & V1 & V2 & V3 & K & A1 & A2).
  exists (mkCmsg (m_ehd1 m) (m_ehd2 m) (m_tid m) (m_seoj m) (m_deoj m) (m_esv m)
       (pv_opc (m_p m)) (pv_opc (m_pset m)) (pv_opc (m_pget m)) ep eps epg b f t).
  exists Lf, (Lp ++ Ls ++ Lg ++ Lb ++ Lt). split; [eapply perm_trans; [exact P|perm]|]. split; [repeat split|]. split; [exact A1|].
  intros o' a' Lw' V'. exists ep, eps, epg, b, a', t, Lp, Ls, Lg, Lb, Lw', Lt. split; [cbn; perm|]. repeat (split; [assumption|]). assumption.
Qed.
Lemma focus_to : forall a m c L, msg_rep a m c L -> exists g Lw R,
  Permutation L ((a, BMsg g) :: Lw ++ R) /\ same_head g m /\ addr_rep (g_to g) (m_to m) Lw
  /\ forall o' a' Lw', addr_rep a' o' Lw' ->
       msg_rep a (with_to o' m) c ((a, BMsg (with_addrs (g_from g) a' g)) :: Lw' ++ R).
Proof.
  intros a m c L (ep & eps & epg & b & f & t & Lp & Ls & Lg & Lb & Lf & Lt & P & V1 & V2 & V3 & K & A1 & A2).
  exists (mkCmsg (m_ehd1 m) (m_ehd2 m) (m_tid m) (m_seoj m) (m_deoj m) (m_esv m)
       (pv_opc (m_p m)) (pv_opc (m_pset m)) (pv_opc (m_pget m)) ep eps epg b f t).
  exists Lt, (Lp ++ Ls ++ Lg ++ Lb ++ Lf). split; [eapply perm_trans; [exact P|perm]|]. split; [repeat split|]. split; [exact A2|].
  intros o' a' Lw' V'. exists ep, eps, epg, b, f, a', Lp, Ls, Lg, Lb, Lf, Lw'. split; [cbn; perm|]. repeat (split; [assumption|]). assumption.
Qed.
Lemma focus_bytes : forall a m c L, msg_rep a m c L -> exists g Lw R,
  Permutation L ((a, BMsg g) :: Lw ++ R) /\ same_head g m /\ cache_rep (g_bytes g) c Lw
  /\ forall a' c' Lw', cache_rep a' c' Lw' -> msg_rep a m c' ((a, BMsg (with_bytes a' g)) :: Lw' ++ R).
Proof.
  intros a m c L (ep & eps & epg & b & f & t & Lp & Ls & Lg & Lb & Lf & Lt & P & V1 & V2 & V3 & K & A1 & A2).
  exists (mkCmsg (m_ehd1 m) (m_ehd2 m) (m_tid m) (m_seoj m) (m_deoj m) (m_esv m)
       (pv_opc (m_p m)) (pv_opc (m_pset m)) (pv_opc (m_pget m)) ep eps epg b f t).
  exists Lb, (Lp ++ Ls ++ Lg ++ Lf ++ Lt). split; [eapply perm_trans; [exact P|perm]|]. split; [repeat split|]. split; [exact K|].
  intros a' c' Lw' V'. exists ep, eps, epg, a', f, t, Lp, Ls, Lg, Lw', Lf, Lt. split; [cbn; perm|]. repeat (split; [assumption|]). assumption.
Qed.
(* another header *)
Definition with_mhead (e1 e2 : Z) (tid : Z * Z) (seoj deoj : list Z) (esv : Z) (m : msg) : msg :=
  mkMsg e1 e2 tid seoj deoj esv (m_p m) (m_pset m) (m_pget m) (m_from m) (m_to m).
Lemma focus_head : forall a m c L, msg_rep a m c L -> exists g R,
  Permutation L ((a, BMsg g) :: R) /\ same_head g m
  /\ forall e1 e2 tid seoj deoj esv,
       msg_rep a (with_mhead e1 e2 tid seoj deoj esv m) c ((a, BMsg (with_head e1 e2 tid seoj deoj esv g)) :: R).
Proof.
  intros a m c L (ep & eps & epg & b & f & t & Lp & Ls & Lg & Lb & Lf & Lt & P & V1 & V2 & V3 & K & A1 & A2).
  exists (mkCmsg (m_ehd1 m) (m_ehd2 m) (m_tid m) (m_seoj m) (m_deoj m) (m_esv m)
       (pv_opc (m_p m)) (pv_opc (m_pset m)) (pv_opc (m_pget m)) ep eps epg b f t).
  eexists. split; [exact P|]. split; [repeat split|].
  intros. exists ep, eps, epg, b, f, t, Lp, Ls, Lg, Lb, Lf, Lt. split; [apply Permutation_refl|]. repeat (split; [assumption|]). assumption.
Qed.

Lemma same_count : forall w g m, same_head g m -> g_count w g = pv_opc (mpart w m).
Proof. intros w g m (H1 & H2 & H3 & H4 & H5 & H6 & H7 & H8 & H9). destruct w; assumption. Qed.

Lemma with_addrs_same : forall g, with_addrs (g_from g) (g_to g) g = g.
Proof. intros []. reflexivity. Qed.
Lemma with_bytes_same : forall g, with_bytes (g_bytes g) g = g.
Proof. intros []. reflexivity. Qed.
Lemma with_part_same : forall w g, with_part w (g_count w g) (g_array w g) g = g.
Proof. intros [] []; reflexivity. Qed.

Section Room.
Variable room : Z -> bool.
Hypothesis Room : forall n, room n = true.

Lemma wp_message_new : forall L (Q : Z -> heaplet -> Prop),
  (forall a Lm, 0 < a -> msg_rep a M_Message.uecho_message_new None Lm -> Q a (Lm ++ L)) -> wp (uecho_message_new room) L Q.
Proof.
  intros L Q H. unfold uecho_message_new. apply wp_post. apply wp_malloc; [exact Room|]. intros a A _.
  eexists. split; [|apply (H a [(a, BMsg (mkCmsg uEchoEhd1 uEchoEhd2 (0, 0) [0; 0; 0] [0; 0; 0] 0 0 0 0 0 0 0 0 0 0))]); [exact A|]].
  - apply Permutation_refl.
  - exists 0, 0, 0, 0, 0, 0, [], [], [], [], [], []. split; [apply Permutation_refl|].
    assert (V : vec_rep 0 (mkPvec 0 None) []) by (split; [cbn [pv_opc]; lia|repeat split]).
    split; [exact V|]. split; [exact V|]. split; [exact V|]. repeat split.
Qed.

(* ---- clearing ---- *)

Lemma wr_mid : forall A (l1 l2 : list A) x y i, i = len l1 -> wr (l1 ++ x :: l2) i y = Ok (l1 ++ y :: l2).
Proof. intros. subst i. apply wr_app_cons. reflexivity. Qed.
Lemma rd_mid : forall A (l1 l2 : list A) x i, i = len l1 -> rd (l1 ++ x :: l2) i = Ok x.
Proof. intros. subst i. apply rd_app_cons. reflexivity. Qed.

Lemma wp_properties_clear_loop : forall ads ps ep done Lp L F (Q : unit -> heaplet -> Prop),
  props_rep ads ps Lp -> Permutation L ((ep, BPtrs (done ++ map Some ads)) :: Lp ++ F) ->
  (forall cells, Q tt ((ep, BPtrs cells) :: F)) ->
  wp (properties_clear_loop ep (len done) (length ads)) L Q.
Proof.
  induction ads as [|a ads IH]; intros ps ep done Lp L F Q R P H; destruct ps as [|p ps]; cbn [props_rep] in R; try contradiction.
  - subst Lp. eapply wp_perm; [exact P|]. cbn [length properties_clear_loop app]. apply wp_ret. apply H.
  - destruct R as (L1 & L2 & -> & R1 & R2). eapply wp_perm; [exact P|]. cbn [length properties_clear_loop map].
    apply wp_bind. eapply wp_ptr_at; [left; reflexivity|apply rd_mid; reflexivity|].
    apply wp_bind. eapply (wp_prop_delete a p L1 _ ((ep, BPtrs (done ++ Some a :: map Some ads)) :: L2 ++ F)); [exact R1|perm|].
    apply wp_bind. eapply wp_load_ptrs; [left; reflexivity|].
    apply wp_bind. eapply wp_lift; [apply wr_mid; reflexivity|].
    apply wp_bind. eapply wp_store; [apply Permutation_refl|].
    replace (len done + 1) with (len (done ++ [Some 0])) by (rewrite len_app; reflexivity).
    eapply IH; [exact R2| |exact H].
    rewrite <- app_assoc. apply Permutation_refl.
Qed.

Lemma props_rep_len : forall ads ps L, props_rep ads ps L -> length ads = length ps.
Proof.
  induction ads as [|a ads IH]; intros [|p ps] L R; cbn in R; try contradiction; [reflexivity|].
  destruct R as (L1 & L2 & _ & _ & R2). cbn. f_equal. eapply IH. exact R2.
Qed.

Lemma wp_properties_clear : forall w a m c Lm L F (Q : unit -> heaplet -> Prop), msg_rep a m c Lm -> Permutation L (Lm ++ F) ->
  (forall Lm', msg_rep a (with_mpart w (mkPvec 0 None) m) c Lm' -> Q tt (Lm' ++ F)) ->
  wp (uecho_properties_clear w a) L Q.
Proof.
  intros w a m c Lm L F Q R P H. destruct (focus_part w a m c Lm R) as (g & Lw & Rm & Pm & SH & V & RB).
  eapply wp_perm; [eapply perm_trans; [exact P|apply Permutation_app_tail; exact Pm]|]. cbn [app].
  unfold uecho_properties_clear. apply wp_bind. eapply wp_load_msg; [inl|]. rewrite (same_count w g m SH).
  assert (FIN : forall L', Permutation L' ((a, BMsg g) :: Rm ++ F) ->
    wp (let! g := load_msg a in store a (BMsg (with_part w 0 0 g))) L' Q).
  { intros L' P'. eapply wp_perm; [exact P'|]. apply wp_bind. eapply wp_load_msg; [inl|]. apply wp_post.
    eapply wp_store; [apply Permutation_refl|]. eexists. split; [|apply H; apply (RB (mkPvec 0 None) 0 []); split; [cbn [pv_opc]; lia|repeat split]].
    cbn [app pv_opc]. apply Permutation_refl. }
  destruct V as [V0 V]. destruct (pv_ep (mpart w m)) as [l|] eqn:El.
  - destruct V as (V1 & V2 & ads & Lp & -> & RP).
    apply wp_bind. replace (Z.to_nat (pv_opc (mpart w m))) with (length ads)
      by (rewrite (props_rep_len _ _ _ RP), <- V1; unfold len; lia).
    eapply (wp_properties_clear_loop ads l (g_array w g) [] Lp _ ((a, BMsg g) :: Rm ++ F)); [exact RP|perm|].
    intros cells. nz (g_array w g). apply wp_bind.
    eapply wp_free; [apply Permutation_refl|]. apply FIN. apply Permutation_refl.
  - destruct V as (E1 & E2 & ->). rewrite E2. cbn [Z.to_nat properties_clear_loop]. apply wp_bind. apply wp_ret.
    rewrite E1. cbn [Z.eqb]. apply wp_bind. apply wp_ret. apply FIN. apply Permutation_refl.
Qed.

Definition cleared (m : msg) : msg :=
  with_pget (mkPvec 0 None) (with_pset (mkPvec 0 None) (with_p (mkPvec 0 None) (with_to None (with_from None m)))).

Lemma msg_in : forall a m c L, msg_rep a m c L -> exists g, In (a, BMsg g) L.
Proof.
  intros a m c L R. destruct (focus_head a m c L R) as (g & Rm & P & _). exists g.
  eapply Permutation_in; [apply Permutation_sym; exact P|left; reflexivity].
Qed.

Lemma wp_clear : forall a m c Lm L F (Q : bool -> heaplet -> Prop), msg_rep a m c Lm -> Permutation L (Lm ++ F) ->
  (forall Lm', msg_rep a (cleared m) None Lm' -> Q true (Lm' ++ F)) ->
  wp (uecho_message_clear a) L Q.
Proof.
  intros a m c Lm L F Q R P H. eapply wp_perm; [exact P|]. destruct (msg_in a m c Lm R) as [g0 I0].
  unfold uecho_message_clear. nz a.
  destruct (focus_bytes a m c Lm R) as (g & Lw & Rm & Pm & SH & K & RB).
  eapply wp_perm; [apply Permutation_app_tail; exact Pm|]. cbn [app].
  apply wp_bind. eapply wp_load_msg; [inl|]. apply wp_bind.
  assert (S1 : forall L' Lx, Permutation L' (Lx ++ F) -> msg_rep a m None Lx ->
    wp (let! g := load_msg a in
        let! _ := (if g_from g =? 0 then ret tt else let! _ := mfree (g_from g) in store a (BMsg (with_addrs 0 (g_to g) g))) in
        let! g := load_msg a in
        let! _ := (if g_to g =? 0 then ret tt else let! _ := mfree (g_to g) in store a (BMsg (with_addrs (g_from g) 0 g))) in
        uecho_message_clearproperties a) L' Q).
  { clear - Room H P0. intros L' Lx P' R. eapply wp_perm; [exact P'|].
    destruct (focus_from a m None Lx R) as (g & Lw & Rm & Pm & SH & A & RB).
    eapply wp_perm; [apply Permutation_app_tail; exact Pm|]. cbn [app].
    apply wp_bind. eapply wp_load_msg; [inl|]. apply wp_bind.
    assert (S2 : forall L' Lx, Permutation L' (Lx ++ F) -> msg_rep a (with_from None m) None Lx ->
      wp (let! g := load_msg a in
        let! _ := (if g_to g =? 0 then ret tt else let! _ := mfree (g_to g) in store a (BMsg (with_addrs (g_from g) 0 g))) in
        uecho_message_clearproperties a) L' Q).
    { clear - Room H P0. intros L' Lx P' R. eapply wp_perm; [exact P'|].
      destruct (focus_to a _ None Lx R) as (g & Lw & Rm & Pm & SH & A & RB).
      eapply wp_perm; [apply Permutation_app_tail; exact Pm|]. cbn [app].
      apply wp_bind. eapply wp_load_msg; [inl|]. apply wp_bind.
      assert (S3 : forall L' Lx, Permutation L' (Lx ++ F) -> msg_rep a (with_to None (with_from None m)) None Lx ->
        wp (uecho_message_clearproperties a) L' Q).
      { clear - Room H P0. intros L' Lx P' R. unfold uecho_message_clearproperties.
        rewrite (pos_nz a) by assumption.
        apply wp_bind. eapply (wp_properties_clear PPlain); [exact R|exact P'|]. clear Lx R P'. intros Lx R.
        apply wp_bind. eapply (wp_properties_clear PSet); [exact R|apply Permutation_refl|]. clear Lx R. intros Lx R.
        apply wp_bind. eapply (wp_properties_clear PGet); [exact R|apply Permutation_refl|]. clear Lx R. intros Lx R.
        apply wp_ret. apply H. exact R. }
      specialize (RB None 0 [] (conj eq_refl eq_refl)).
      change (m_to (with_from None m)) with (m_to m) in A.
      destruct (m_to m) as [s|] eqn:E; cbn [addr_rep] in A.
      - destruct A as (_ & _ & ->). nz (g_to g). apply wp_bind. eapply wp_free; [find_x|].
        eapply wp_store; [apply Permutation_refl|]. eapply S3; [|exact RB]. apply Permutation_refl.
      - destruct A as [A1 ->]. rewrite A1. cbn [Z.eqb]. apply wp_ret. rewrite <- A1 in RB. rewrite with_addrs_same in RB. eapply S3; [|exact RB]. apply Permutation_refl. }
    specialize (RB None 0 [] (conj eq_refl eq_refl)).
    destruct (m_from m) as [s|] eqn:E; cbn [addr_rep] in A.
    - destruct A as (_ & _ & ->). nz (g_from g). apply wp_bind. eapply wp_free; [find_x|].
      eapply wp_store; [apply Permutation_refl|]. eapply S2; [|exact RB]. apply Permutation_refl.
    - destruct A as [A1 ->]. rewrite A1. cbn [Z.eqb]. apply wp_ret. rewrite <- A1 in RB. rewrite with_addrs_same in RB. eapply S2; [|exact RB]. apply Permutation_refl. }
  specialize (RB 0 None [] (conj eq_refl eq_refl)).
  destruct c as [l|]; cbn [cache_rep] in K.
  - subst Lw. nz (g_bytes g). apply wp_bind. eapply wp_free; [find_x|].
    eapply wp_store; [apply Permutation_refl|]. eapply S1; [|exact RB]. apply Permutation_refl.
  - destruct K as [C1 ->]. rewrite C1. cbn [Z.eqb]. apply wp_ret. rewrite <- C1 in RB. rewrite with_bytes_same in RB. eapply S1; [|exact RB]. apply Permutation_refl.
Qed.

Lemma wp_message_delete : forall a m c Lm L F (Q : bool -> heaplet -> Prop), msg_rep a m c Lm -> Permutation L (Lm ++ F) ->
  Q true F -> wp (uecho_message_delete a) L Q.
Proof.
  intros a m c Lm L F Q R P H. eapply wp_perm; [exact P|]. destruct (msg_in a m c Lm R) as [g0 I0].
  unfold uecho_message_delete. nz a. apply wp_bind. eapply wp_clear; [exact R|apply Permutation_refl|].
  intros Lm' R'. destruct R' as (ep & eps & epg & b & f & t & Lp & Ls & Lg & Lb & Lf & Lt & P' & V1 & V2 & V3 & K & A1 & A2).
  cbn in V1, V2, V3, A1, A2. destruct V1 as (_ & _ & _ & ->), V2 as (_ & _ & _ & ->), V3 as (_ & _ & _ & ->), A1 as [_ ->], A2 as [_ ->].
  destruct K as [_ ->]. eapply wp_perm; [apply Permutation_app_tail; exact P'|]. cbn [app].
  apply wp_bind. eapply wp_free; [apply Permutation_refl|]. apply wp_ret. exact H.
Qed.

(* ---- header and addresses ---- *)

Lemma wp_settid : forall le v a m c Lm L F (Q : bool -> heaplet -> Prop), msg_rep a m c Lm -> Permutation L (Lm ++ F) ->
  (forall Lm', msg_rep a (M_Message.uecho_message_settid le v m) c Lm' -> Q true (Lm' ++ F)) ->
  wp (uecho_message_settid le a v) L Q.
Proof.
  intros le v a m c Lm L F Q R P H. destruct (focus_head a m c Lm R) as (g & Rm & Pm & SH & RB).
  eapply wp_perm; [eapply perm_trans; [exact P|apply Permutation_app_tail; exact Pm]|]. cbn [app].
  unfold uecho_message_settid. nz a. apply wp_bind. eapply wp_load_msg; [inl|].
  apply wp_bind. eapply wp_store; [apply Permutation_refl|]. apply wp_post, wp_ret.
  destruct SH as (E1 & E2 & E3 & E4 & E5 & E6 & _). rewrite E1, E2, E4, E5, E6.
  eexists. split; [|apply H; apply RB]. apply Permutation_refl.
Qed.
Lemma wp_setesv : forall v a m c Lm L F (Q : bool -> heaplet -> Prop), msg_rep a m c Lm -> Permutation L (Lm ++ F) ->
  (forall Lm', msg_rep a (with_esv v m) c Lm' -> Q true (Lm' ++ F)) ->
  wp (uecho_message_setesv a v) L Q.
Proof.
  intros v a m c Lm L F Q R P H. destruct (focus_head a m c Lm R) as (g & Rm & Pm & SH & RB).
  eapply wp_perm; [eapply perm_trans; [exact P|apply Permutation_app_tail; exact Pm]|]. cbn [app].
  unfold uecho_message_setesv. nz a. apply wp_bind. eapply wp_load_msg; [inl|].
  apply wp_bind. eapply wp_store; [apply Permutation_refl|]. apply wp_post, wp_ret.
  destruct SH as (E1 & E2 & E3 & E4 & E5 & E6 & _). rewrite E1, E2, E3, E4, E5.
  eexists. split; [|apply H; apply RB]. apply Permutation_refl.
Qed.
Lemma wp_setsource : forall v e a m c Lm L F (Q : unit -> heaplet -> Prop), msg_rep a m c Lm -> Permutation L (Lm ++ F) ->
  uecho_integer2byte v uEchoEOJSize = Ok e ->
  (forall Lm', msg_rep a (with_seoj e m) c Lm' -> Q tt (Lm' ++ F)) ->
  wp (uecho_message_setsourceobjectcode a v) L Q.
Proof.
  intros v e a m c Lm L F Q R P E H. destruct (focus_head a m c Lm R) as (g & Rm & Pm & SH & RB).
  eapply wp_perm; [eapply perm_trans; [exact P|apply Permutation_app_tail; exact Pm]|]. cbn [app].
  unfold uecho_message_setsourceobjectcode. apply wp_bind. eapply wp_load_msg; [inl|].
  apply wp_bind. eapply wp_lift; [exact E|]. apply wp_post. eapply wp_store; [apply Permutation_refl|].
  destruct SH as (E1 & E2 & E3 & E4 & E5 & E6 & _). rewrite E1, E2, E3, E5, E6.
  eexists. split; [|apply H; apply RB]. apply Permutation_refl.
Qed.
Lemma wp_setdestination : forall v e a m c Lm L F (Q : unit -> heaplet -> Prop), msg_rep a m c Lm -> Permutation L (Lm ++ F) ->
  uecho_integer2byte v uEchoEOJSize = Ok e ->
  (forall Lm', msg_rep a (with_deoj e m) c Lm' -> Q tt (Lm' ++ F)) ->
  wp (uecho_message_setdestinationobjectcode a v) L Q.
Proof.
  intros v e a m c Lm L F Q R P E H. destruct (focus_head a m c Lm R) as (g & Rm & Pm & SH & RB).
  eapply wp_perm; [eapply perm_trans; [exact P|apply Permutation_app_tail; exact Pm]|]. cbn [app].
  unfold uecho_message_setdestinationobjectcode. apply wp_bind. eapply wp_load_msg; [inl|].
  apply wp_bind. eapply wp_lift; [exact E|]. apply wp_post. eapply wp_store; [apply Permutation_refl|].
  destruct SH as (E1 & E2 & E3 & E4 & E5 & E6 & _). rewrite E1, E2, E3, E4, E6.
  eexists. split; [|apply H; apply RB]. apply Permutation_refl.
Qed.

(* a char* argument: NULL or a text outside the message *)
Definition addr_arg (p : Z) (o : option string) (F : heaplet) : Prop :=
  match o with
  | None => p = 0
  | Some s => In (p, BBytes (map Some (cstr s) ++ [Some 0])) F /\ plain (cstr s) /\ len (cstr s) + 1 < SIZE_MOD
  end.

Lemma wp_strdup : forall p t L (Q : Z -> heaplet -> Prop), In (p, BBytes (map Some t ++ [Some 0])) L -> plain t ->
  (forall a, 0 < a -> Q a ((a, BBytes (map Some t ++ [Some 0])) :: L)) -> wp (uecho_strdup room p) L Q.
Proof.
  intros p t L Q I T H. unfold uecho_strdup. nz p. apply wp_bind. unfold text_at. apply wp_bind.
  eapply wp_load_bytes; [exact I|]. eapply wp_lift; [apply cells_text_plain; exact T|].
  apply wp_bind. apply wp_malloc; [exact Room|]. intros a A _. rewrite (pos_nz a) by assumption.
  apply wp_bind. eapply wp_store; [apply Permutation_refl|]. apply wp_ret. rewrite map_app. apply H. exact A.
Qed.

Lemma wp_strloc : forall p o b old Lo L F (Q : Z -> heaplet -> Prop), addr_rep b old Lo -> Permutation L (Lo ++ F) ->
  addr_arg p o F ->
  (forall b' Ln, addr_rep b' (match o with None => old | Some _ => o end) Ln -> Q b' (Ln ++ F)) ->
  wp (uecho_strloc room p b) L Q.
Proof.
  intros p o b old Lo L F Q R P A H. eapply wp_perm; [exact P|]. unfold uecho_strloc. destruct o as [s|]; cbn [addr_arg] in A.
  - destruct A as (I & T1 & T2). nz p. apply wp_bind.
    assert (FIN : wp (uecho_strdup room p) F Q).
    { eapply wp_strdup; [exact I|exact T1|]. intros a' A'.
      apply (H a' [(a', BBytes (map Some (cstr s) ++ [Some 0]))]). cbn. auto. }
    destruct old as [x|]; cbn [addr_rep] in R.
    + destruct R as (_ & _ & ->). nz b. eapply wp_free; [apply Permutation_refl|]. exact FIN.
    + destruct R as [-> ->]. cbn [Z.eqb]. apply wp_ret. exact FIN.
  - subst p. cbn [Z.eqb]. apply wp_ret. apply H. exact R.
Qed.

Lemma wp_setfrom : forall p o a m c Lm L F (Q : unit -> heaplet -> Prop), msg_rep a m c Lm -> Permutation L (Lm ++ F) ->
  addr_arg p o F ->
  (forall Lm', msg_rep a (M_Message.uecho_message_setsourceaddress o m) c Lm' -> Q tt (Lm' ++ F)) ->
  wp (uecho_message_setsourceaddress room a p) L Q.
Proof.
  intros p o a m c Lm L F Q R P A H. destruct (focus_from a m c Lm R) as (g & Lw & Rm & Pm & SH & AR & RB).
  eapply wp_perm; [eapply perm_trans; [exact P|apply Permutation_app_tail; exact Pm]|]. cbn [app].
  unfold uecho_message_setsourceaddress. apply wp_bind. eapply wp_load_msg; [inl|].
  apply wp_bind. eapply (wp_strloc p o (g_from g) (m_from m) Lw _ ((a, BMsg g) :: Rm ++ F)); [exact AR|perm| |].
  - destruct o as [s|]; cbn [addr_arg] in *; [|exact A]. destruct A as (I & A). split; [inl|exact A].
  - intros b' Ln Rn. apply wp_post. eapply wp_store; [find_x|]. eexists. split; [|apply H].
    2:{ specialize (RB _ _ _ Rn). destruct o as [s|]; [exact RB|].
        cbn [M_Message.uecho_message_setsourceaddress].
        replace m with (with_from (m_from m) m) by (destruct m; reflexivity). exact RB. }
    perm.
Qed.
Lemma wp_setto : forall p o a m c Lm L F (Q : unit -> heaplet -> Prop), msg_rep a m c Lm -> Permutation L (Lm ++ F) ->
  addr_arg p o F ->
  (forall Lm', msg_rep a (M_Message.uecho_message_setdestinationaddress o m) c Lm' -> Q tt (Lm' ++ F)) ->
  wp (uecho_message_setdestinationaddress room a p) L Q.
Proof.
  intros p o a m c Lm L F Q R P A H. destruct (focus_to a m c Lm R) as (g & Lw & Rm & Pm & SH & AR & RB).
  eapply wp_perm; [eapply perm_trans; [exact P|apply Permutation_app_tail; exact Pm]|]. cbn [app].
  unfold uecho_message_setdestinationaddress. apply wp_bind. eapply wp_load_msg; [inl|].
  apply wp_bind. eapply (wp_strloc p o (g_to g) (m_to m) Lw _ ((a, BMsg g) :: Rm ++ F)); [exact AR|perm| |].
  - destruct o as [s|]; cbn [addr_arg] in *; [|exact A]. destruct A as (I & A). split; [inl|exact A].
  - intros b' Ln Rn. apply wp_post. eapply wp_store; [find_x|]. eexists. split; [|apply H].
    2:{ specialize (RB _ _ _ Rn). destruct o as [s|]; [exact RB|].
        cbn [M_Message.uecho_message_setdestinationaddress].
        replace m with (with_to (m_to m) m) by (destruct m; reflexivity). exact RB. }
    perm.
Qed.
End Room.
