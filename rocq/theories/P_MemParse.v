(* Property arrays in the heap: making them, adding to them, finding and setting a property, parsing a frame. *)
From Coq Require Import String ZArith List Bool Lia Permutation.
From Verif Require Import CSem P_Base M_Const M_Misc M_String M_Property M_Log M_Message M_Mem P_Mem P_MemProp P_MemMsg.
Import ListNotations.
Open Scope Z_scope.

Lemma props_rep_app : forall ads1 ads2 ps1 ps2 L1 L2, props_rep ads1 ps1 L1 -> props_rep ads2 ps2 L2 ->
  props_rep (ads1 ++ ads2) (ps1 ++ ps2) (L1 ++ L2).
Proof.
  induction ads1 as [|a ads1 IH]; intros ads2 [|p ps1] ps2 L1 L2 R1 R2; cbn [props_rep] in R1; try contradiction.
  - subst L1. exact R2.
  - destruct R1 as (A & B & -> & R & S1). cbn [app props_rep]. exists A, (B ++ L2). rewrite <- app_assoc. auto.
Qed.
Lemma props_rep_one : forall a p L, prop_rep a p L -> props_rep [a] [p] L.
Proof. intros a p L R. exists L, []. rewrite app_nil_r. repeat split. exact R. Qed.
Lemma props_rep_split : forall ps1 ps2 ads L, props_rep ads (ps1 ++ ps2) L -> exists ads1 ads2 L1 L2,
  ads = ads1 ++ ads2 /\ L = L1 ++ L2 /\ props_rep ads1 ps1 L1 /\ props_rep ads2 ps2 L2.
Proof.
  induction ps1 as [|p ps1 IH]; intros ps2 ads L R.
  - exists [], ads, [], L. repeat split; auto.
  - cbn [app] in R. destruct ads as [|a ads]; cbn [props_rep] in R; [contradiction|].
    destruct R as (A & B & -> & R & S1). destruct (IH _ _ _ S1) as (ads1 & ads2 & L1 & L2 & -> & -> & R1 & R2).
    exists (a :: ads1), ads2, (A ++ L1), L2. rewrite <- app_assoc. repeat split; auto.
    cbn [props_rep]. exists A, L1. auto.
Qed.
Lemma props_rep_cons_inv : forall ads p ps L, props_rep ads (p :: ps) L -> exists a ads' L1 L2,
  ads = a :: ads' /\ L = L1 ++ L2 /\ prop_rep a p L1 /\ props_rep ads' ps L2.
Proof.
  intros [|a ads] p ps L R; cbn [props_rep] in R; [contradiction|]. destruct R as (A & B & -> & R & S1).
  exists a, ads, A, B. auto.
Qed.
Lemma props_rep_nil_inv : forall ads L, props_rep ads [] L -> ads = [] /\ L = [].
Proof. intros [|a ads] L R; cbn in R; [auto|contradiction]. Qed.

Lemma rd_map : forall A B (f : A -> B) l i x, rd l i = Ok x -> rd (map f l) i = Ok (f x).
Proof.
  intros A B f l i x. unfold rd. destruct (i <? 0); [discriminate|]. rewrite nth_error_map.
  destruct (nth_error l (Z.to_nat i)); [|discriminate]. intro E. injection E as <-. reflexivity.
Qed.
Lemma rd_range_map : forall A B (f : A -> B) l i n x, rd_range l i n = Ok x -> rd_range (map f l) i n = Ok (map f x) /\ len x = n.
Proof.
  intros A B f l i n x. unfold rd_range. destruct (Z.eqb_spec n 0) as [->|N].
  - intro E. injection E as <-. split; reflexivity.
  - rewrite len_map. destruct ((0 <=? i) && (0 <? n) && (i + n <=? len l)) eqn:E; [|discriminate].
    apply andb_true_iff in E. destruct E as [E E3]. apply andb_true_iff in E. destruct E as [E1 E2].
    apply Z.leb_le in E1, E3. apply Z.ltb_lt in E2.
    intro X. injection X as <-. rewrite skipn_map, firstn_map. split; [reflexivity|].
    unfold len in *. rewrite firstn_length, skipn_length. lia.
Qed.

(* the n-th property of a message is at [b] *)
Definition prop_at (w : part) (a n b : Z) (L : heaplet) : Prop :=
  exists g ads1 ads2, In (a, BMsg g) L /\ In (g_array w g, BPtrs (map Some (ads1 ++ b :: ads2))) L /\ len ads1 = n.

(* the properties of an array *)
Lemma vec_items : forall ep v L, vec_rep ep v L -> exists l ads Lp,
  pv_items v = Ok l /\ props_rep ads l Lp /\ length ads = Z.to_nat (pv_opc v)
  /\ (ads = [] \/ In (ep, BPtrs (map Some ads)) L) /\ incl Lp L
  /\ (pv_ep v = None /\ l = [] \/ pv_ep v = Some l).
Proof.
  intros ep v L [V0 V]. destruct (pv_ep v) as [l|] eqn:E.
  - destruct V as (V1 & V2 & ads & Lp & -> & R). exists l, ads, Lp. unfold pv_items. rewrite E.
    rewrite (proj2 (Z.leb_gt _ _)) by lia. rewrite (proj2 (Z.ltb_ge _ _)) by lia.
    rewrite <- V1, to_nat_len, firstn_all. split; [reflexivity|]. split; [exact R|].
    split; [eapply props_rep_len; exact R|]. split; [right; left; reflexivity|]. split; [intros x X; right; exact X|].
    right. reflexivity.
  - destruct V as (-> & V2 & ->). exists [], [], []. unfold pv_items. rewrite V2. cbn.
    repeat split; auto. intros x [].
Qed.

Section Room.
Variable room : Z -> bool.
Hypothesis Room : forall n, room n = true.

(* ---- uecho_message_setopc ---- *)

Lemma wp_setopcep_loop : forall k ep ads n Lp L F (Q : unit -> heaplet -> Prop),
  props_rep ads (repeat M_Property.uecho_property_new n) Lp ->
  Permutation L ((ep, BPtrs (map Some ads ++ repeat None k)) :: Lp ++ F) ->
  (forall ads' Lp', props_rep ads' (repeat M_Property.uecho_property_new (n + k)) Lp' -> Q tt ((ep, BPtrs (map Some ads')) :: Lp' ++ F)) ->
  wp (setopcep_loop room ep (len ads) k) L Q.
Proof.
  induction k as [|k IH]; intros ep ads n Lp L F Q R P H; (eapply wp_perm; [exact P|]); cbn [setopcep_loop].
  - cbn [repeat]. rewrite app_nil_r. apply wp_ret. apply H. rewrite Nat.add_0_r. exact R.
  - apply wp_bind. apply wp_prop_new; [exact Room|]. intros a La A Ra.
    apply wp_bind. eapply wp_load_ptrs; [inl|]. cbn [repeat].
    apply wp_bind. eapply wp_lift; [apply wr_mid; rewrite len_map; reflexivity|].
    apply wp_bind. eapply wp_store; [find_x|].
    replace (len ads + 1) with (len (ads ++ [a])) by (rewrite len_app; reflexivity).
    eapply (IH ep (ads ++ [a]) (n + 1)%nat (Lp ++ La) _ F).
    + rewrite repeat_app. apply props_rep_app; [exact R|]. apply props_rep_one. exact Ra.
    + rewrite map_app. cbn [map]. rewrite <- app_assoc. cbn [app]. perm.
    + intros ads' Lp' R'. apply H. replace (n + S k)%nat with (n + 1 + k)%nat by lia. exact R'.
Qed.

Lemma wp_setopc : forall w count a m c Lm L F (Q : bool -> heaplet -> Prop), msg_rep a m c Lm -> Permutation L (Lm ++ F) ->
  pv_ep (mpart w m) = None -> 0 <= count <= 255 ->
  (forall Lm', msg_rep a (with_mpart w (uecho_message_setopcep count (mpart w m)) m) c Lm' -> Q true (Lm' ++ F)) ->
  wp (M_Mem.uecho_message_setopc room w a count) L Q.
Proof.
  intros w count a m c Lm L F Q R P EN BC H. destruct (focus_part w a m c Lm R) as (g & Lw & Rm & Pm & SH & V & RB).
  eapply wp_perm; [eapply perm_trans; [exact P|apply Permutation_app_tail; exact Pm]|]. cbn [app].
  unfold M_Mem.uecho_message_setopc. nz a. apply wp_bind. eapply wp_load_msg; [inl|].
  destruct V as [V0 V]. rewrite EN in V. destruct V as (V1 & V2 & ->). cbn [app].
  apply wp_bind. eapply wp_store; [apply Permutation_refl|].
  unfold uecho_message_setopcep in H. destruct (Z.leb_spec count 0) as [C|C].
  - rewrite EN in H. apply wp_post, wp_ret. eexists. split; [|apply H; apply (RB (mkPvec count None) 0 [])].
    + cbn [app pv_opc]. rewrite V1. apply Permutation_refl.
    + split; [exact BC|]. split; [reflexivity|]. split; [cbn [pv_opc]; lia|reflexivity].
  - apply wp_bind. apply wp_malloc; [exact Room|]. intros ep E _.
    apply wp_bind. eapply wp_store; [find_x|]. apply wp_bind.
    eapply (wp_setopcep_loop (Z.to_nat count) ep [] 0 [] _ ((a, BMsg (with_part w count ep g)) :: Rm ++ F)); [reflexivity|cbn [map app]; perm|].
    cbn [Nat.add]. intros ads Lp RP. apply wp_post, wp_ret.
    exists (((a, BMsg (with_part w count ep g)) :: ((ep, BPtrs (map Some ads)) :: Lp) ++ Rm) ++ F).
    split; [perm|]. apply H. apply (RB (mkPvec count (Some (repeat M_Property.uecho_property_new (Z.to_nat count)))) ep ((ep, BPtrs (map Some ads)) :: Lp)).
    split; [exact BC|]. cbn [pv_ep pv_opc]. split; [rewrite len_repeat; lia|]. split; [exact C|]. exists ads, Lp. auto.
Qed.

(* ---- uecho_message_addproperty ---- *)

Lemma wp_addproperty : forall w a m c Lm b p v Lp L F (Q : bool -> heaplet -> Prop), msg_rep a m c Lm -> prop_rep b p Lp ->
  Permutation L (Lm ++ Lp ++ F) -> uecho_property_add (mpart w m) p = Ok v ->
  (forall Lm', msg_rep a (with_mpart w v m) c Lm' -> prop_at w a (pv_opc (mpart w m)) b Lm' -> Q true (Lm' ++ F)) ->
  wp (M_Mem.uecho_message_addproperty room w a b) L Q.
Proof.
  intros w a m c Lm b p v Lp L F Q R RP P EV H. destruct (focus_part w a m c Lm R) as (g & Lw & Rm & Pm & SH & V & RB).
  destruct (prop_rep_in b p Lp RP) as (q0 & I0 & _).
  eapply wp_perm; [eapply perm_trans; [exact P|apply Permutation_app_tail; exact Pm]|]. cbn [app].
  unfold M_Mem.uecho_message_addproperty. nz a. nz b. cbn [orb]. apply wp_bind. eapply wp_load_msg; [inl|].
  rewrite (same_count w g m SH). destruct V as [V0 V]. unfold uecho_property_add in EV.
  destruct (Z.eqb_spec (to_byte (pv_opc (mpart w m) + 1)) 0) as [E0|E0]; [discriminate|].
  assert (OB : to_byte (pv_opc (mpart w m) + 1) = pv_opc (mpart w m) + 1).
  { apply to_byte_id. unfold is_byte. destruct (Z.eq_dec (pv_opc (mpart w m)) 255) as [E1|E1]; [|lia].
    rewrite E1 in E0. exfalso. apply E0. reflexivity. }
  rewrite OB in *.
  assert (FIN : forall ads ps Lq ep, 0 < ep -> len ads = pv_opc (mpart w m) -> props_rep ads ps Lq ->
    v = mkPvec (pv_opc (mpart w m) + 1) (Some (ps ++ [p])) ->
    wp (let! _ := store a (BMsg (with_part w (pv_opc (mpart w m) + 1) ep g)) in
        let! l := load_ptrs ep in
        let! l' := lift (wr l (pv_opc (mpart w m) + 1 - 1) (Some b)) in
        let! _ := store ep (BPtrs l') in
        ret true) ((ep, BPtrs (map Some ads ++ [None])) :: (a, BMsg g) :: Lq ++ Rm ++ Lp ++ F) Q).
  { intros ads ps Lq ep EP LA RQ Ev. apply wp_bind. eapply wp_store; [find_x|].
    apply wp_bind. eapply wp_load_ptrs; [inl|].
    apply wp_bind. eapply wp_lift; [apply wr_mid; rewrite len_map; lia|].
    apply wp_bind. eapply wp_store; [find_x|]. apply wp_post, wp_ret.
    exists (((a, BMsg (with_part w (pv_opc (mpart w m) + 1) ep g)) :: ((ep, BPtrs (map Some (ads ++ [b]))) :: Lq ++ Lp) ++ Rm) ++ F).
    split; [rewrite map_app; cbn [map]; perm|]. apply H; [subst v|].
    2:{ exists (with_part w (pv_opc (mpart w m) + 1) ep g), ads, []. split; [left; reflexivity|].
        split; [|exact LA]. right. left. destruct w; reflexivity. }
    apply (RB (mkPvec (pv_opc (mpart w m) + 1) (Some (ps ++ [p]))) ep ((ep, BPtrs (map Some (ads ++ [b]))) :: Lq ++ Lp)).
    assert (LP : length ads = length ps) by (eapply props_rep_len; exact RQ).
    split; [cbn [pv_opc]; unfold to_byte in OB; pose proof (Z.mod_pos_bound (pv_opc (mpart w m) + 1) 256); lia|].
    cbn [pv_ep pv_opc]. split; [rewrite len_app; unfold len in *; cbn [length]; lia|]. split; [lia|].
    exists (ads ++ [b]), (Lq ++ Lp). split; [reflexivity|]. apply props_rep_app; [exact RQ|apply props_rep_one; exact RP]. }
  replace (pv_opc (mpart w m) + 1 - 1) with (pv_opc (mpart w m)) in EV by lia.
  destruct (pv_ep (mpart w m)) as [l|].
  - destruct V as (V1 & V2 & ads & Lq & -> & RQ).
    assert (LP : length ads = length l) by (eapply props_rep_len; exact RQ).
    rewrite (proj2 (Z.ltb_ge _ _)) in EV by lia. injection EV as Ev.
    rewrite <- V1, to_nat_len, firstn_all in Ev.
    apply wp_bind. unfold realloc_ptrs. cbn [app]. nz (g_array w g).
    apply wp_bind. eapply wp_load_ptrs; [inl|]. apply wp_bind. apply wp_malloc; [exact Room|]. intros ep E _.
    rewrite (pos_nz ep) by assumption. apply wp_bind. eapply wp_free; [find_x|]. apply wp_ret.
    rewrite firstn_all2 by (rewrite map_length; unfold len in *; lia).
    replace (Z.to_nat (pv_opc (mpart w m) + 1) - length (map Some ads))%nat with 1%nat by (rewrite map_length; unfold len in *; lia).
    cbn [repeat]. eapply wp_perm; [|apply (FIN ads l Lq ep E); [unfold len in *; lia|exact RQ|rewrite V1 in Ev; symmetry; exact Ev]]. perm.
  - destruct V as (V1 & V2 & ->). rewrite V1. cbn [app]. apply wp_bind. unfold realloc_ptrs. cbn [Z.eqb].
    apply wp_malloc; [exact Room|]. intros ep E _. rewrite V2 in *. cbn in EV. injection EV as Ev.
    change (Z.to_nat (0 + 1)) with 1%nat. cbn [repeat].
    eapply wp_perm; [|apply (FIN [] [] [] ep E); [reflexivity|reflexivity|symmetry; exact Ev]]. cbn [map app]. perm.
Qed.

(* ---- finding a property ---- *)

Definition found (code : Z) (ads : list Z) (ps : list prop) (Lp : heaplet) (a : Z) : Prop :=
  exists ps1 p ps2 ads1 ads2 L1 L2 L3,
    ps = ps1 ++ p :: ps2 /\ p_code p = code /\ Forall (fun p => p_code p <> code) ps1 /\ ads = ads1 ++ a :: ads2
    /\ Lp = L1 ++ L2 ++ L3 /\ props_rep ads1 ps1 L1 /\ prop_rep a p L2 /\ props_rep ads2 ps2 L3.

Lemma wp_getbycode_loop : forall ps ads ep done code Lp L (Q : Z -> heaplet -> Prop),
  props_rep ads ps Lp -> (ads = [] \/ In (ep, BPtrs (map Some (done ++ ads))) L) -> incl Lp L ->
  (Forall (fun p => p_code p <> code) ps -> Q 0 L) ->
  (forall a, found code ads ps Lp a -> Q a L) ->
  wp (getbycode_loop ep code (len done) (length ads)) L Q.
Proof.
  induction ps as [|p ps IH]; intros ads ep done code Lp L Q R I J H1 H2.
  - apply props_rep_nil_inv in R. destruct R as [-> ->]. cbn [length getbycode_loop]. apply wp_ret. apply H1. constructor.
  - apply props_rep_cons_inv in R. destruct R as (a & ads' & L1 & L2 & -> & -> & R1 & R2).
    destruct I as [I|I]; [discriminate|]. cbn [length getbycode_loop].
    destruct (prop_rep_in a p L1 R1) as (q & Iq & Ec & _).
    apply wp_bind. eapply wp_ptr_at; [exact I|rewrite map_app; apply rd_mid; rewrite len_map; reflexivity|].
    eapply (wp_pos _ _ _ _ a); [apply J; apply in_or_app; left; exact Iq|intro P0]. rewrite (pos_nz a) by assumption.
    apply wp_bind. eapply wp_load_prop; [apply J; apply in_or_app; left; exact Iq|]. rewrite Ec.
    destruct (Z.eqb_spec (p_code p) code) as [E|E].
    + apply wp_ret. apply H2. exists [], p, ps, [], ads', [], L1, L2. repeat split; auto.
    + replace (len done + 1) with (len (done ++ [a])) by (rewrite len_app; reflexivity).
      eapply IH; [exact R2|right; rewrite <- app_assoc; exact I| | |].
      * intros x X. apply J. apply in_or_app. right. exact X.
      * intro X. apply H1. constructor; assumption.
      * intros b (ps1 & p' & ps2 & ads1 & ads2 & A & B & C & X1 & X2 & X3 & X4 & X5 & X6 & X7 & X8). apply H2.
        exists (p :: ps1), p', ps2, (a :: ads1), ads2, (L1 ++ A), B, C. subst.
        split; [reflexivity|]. split; [reflexivity|]. split; [constructor; assumption|]. split; [reflexivity|].
        split; [rewrite <- app_assoc; reflexivity|]. split; [|split; assumption].
        cbn [props_rep]. exists L1, A. auto.
Qed.

Lemma upd_first_mid : forall code f ps1 p ps2, p_code p = code -> Forall (fun p => p_code p <> code) ps1 ->
  upd_first code f (ps1 ++ p :: ps2) = ps1 ++ f p :: ps2.
Proof.
  intros code f ps1 p ps2 E F. induction F as [|x ps1 N F IH]; cbn [app upd_first].
  - rewrite (proj2 (Z.eqb_eq _ _) E). reflexivity.
  - rewrite (proj2 (Z.eqb_neq _ _) N). f_equal. exact IH.
Qed.
Lemma find_mid : forall code ps1 p ps2, p_code p = code -> Forall (fun p => p_code p <> code) ps1 ->
  List.find (fun p => p_code p =? code) (ps1 ++ p :: ps2) = Some p.
Proof.
  intros code ps1 p ps2 E F. induction F as [|x ps1 N F IH]; cbn [app List.find].
  - rewrite (proj2 (Z.eqb_eq _ _) E). reflexivity.
  - rewrite (proj2 (Z.eqb_neq _ _) N). exact IH.
Qed.
Lemma find_no : forall code ps, Forall (fun p => p_code p <> code) ps -> List.find (fun p => p_code p =? code) ps = None.
Proof.
  intros code ps F. induction F as [|x ps N F IH]; cbn [List.find]; [reflexivity|].
  rewrite (proj2 (Z.eqb_neq _ _) N). exact IH.
Qed.

Lemma vec_rep_some : forall ep l n L, len l = n -> 0 < n <= 255 ->
  (exists ads Lp, L = (ep, BPtrs (map Some ads)) :: Lp /\ props_rep ads l Lp) -> vec_rep ep (mkPvec n (Some l)) L.
Proof. intros ep l n L E B X. split; [cbn [pv_opc]; lia|]. cbn [pv_ep pv_opc]. split; [exact E|]. split; [lia|exact X]. Qed.

Lemma props_rep_replace : forall ads1 a ads2 ps1 p ps2 L1 L2 L3,
  props_rep ads1 ps1 L1 -> prop_rep a p L2 -> props_rep ads2 ps2 L3 ->
  props_rep (ads1 ++ a :: ads2) (ps1 ++ p :: ps2) (L1 ++ L2 ++ L3).
Proof.
  intros. change (a :: ads2) with ([a] ++ ads2). change (p :: ps2) with ([p] ++ ps2).
  apply props_rep_app; [assumption|]. apply props_rep_app; [apply props_rep_one|]; assumption.
Qed.

Lemma with_mpart_twice : forall w v v' m, with_mpart w v (with_mpart w v' m) = with_mpart w v m.
Proof. intros [] v v' m; reflexivity. Qed.
Lemma mpart_with : forall w v m, mpart w (with_mpart w v m) = v.
Proof. intros [] v m; reflexivity. Qed.
Lemma with_mpart_same : forall w m, with_mpart w (mpart w m) m = m.
Proof. intros [] []; reflexivity. Qed.

(* the property [a] of a message gets data from outside the message *)
Lemma wp_setdata_in : forall w a m c Lm ps1 p ps2 data off d blkc L F (Q : bool -> heaplet -> Prop),
  msg_rep a m c Lm -> Permutation L (Lm ++ F) -> pv_ep (mpart w m) = Some (ps1 ++ p :: ps2) ->
  len d < SIZE_MOD ->
  (d <> [] -> In (data, BBytes blkc) F /\ rd_range blkc off (len d) = Ok (map Some d)) ->
  (forall Lm', msg_rep a (with_mpart w (mkPvec (pv_opc (mpart w m)) (Some (ps1 ++ pdata d p :: ps2))) m) c Lm' -> Q true (Lm' ++ F)) ->
  forall b, prop_at w a (len ps1) b Lm ->
  wp (uecho_property_setdata room b data off (len d)) L Q.
Proof.
  intros w a m c Lm ps1 p ps2 data off d blkc L F Q R P EP SD HD H b (g0 & ads1 & ads2 & I1 & I2 & LE).
  eapply wp_perm; [exact P|]. apply wp_nodup. intro ND.
  destruct (focus_part w a m c Lm R) as (g & Lw & Rm & Pm & SH & V & RB).
  assert (U : forall x y z : blk, forall k, In (k, y) (Lm ++ F) -> In (k, z) (Lm ++ F) -> y = z).
  { intros _ y z k A B. clear - ND A B. revert ND A B. generalize (Lm ++ F). intros l. induction l as [|[x u] l IH]; [intros _ []|].
    cbn [map fst]. intros ND [A|A] [B|B].
    - congruence.
    - apply NoDup_cons_iff in ND. injection A as -> ->. exfalso. apply (proj1 ND). change k with (fst (k, z)). apply in_map. exact B.
    - apply NoDup_cons_iff in ND. injection B as -> ->. exfalso. apply (proj1 ND). change k with (fst (k, y)). apply in_map. exact A.
    - apply NoDup_cons_iff in ND. apply IH; tauto. }
  assert (Eg : BMsg g0 = BMsg g).
  { apply (U (BMsg g) _ _ a); apply in_or_app; left; [exact I1|]. eapply Permutation_in; [apply Permutation_sym; exact Pm|left; reflexivity]. }
  injection Eg as ->.
  destruct V as [V0 V]. rewrite EP in V. destruct V as (V1 & V2 & ads & Lp & -> & RP).
  assert (Ea : BPtrs (map Some (ads1 ++ b :: ads2)) = BPtrs (map Some ads)).
  { apply (U (BMsg g) _ _ (g_array w g)); apply in_or_app; left; [exact I2|].
    eapply Permutation_in; [apply Permutation_sym; exact Pm|right; left; reflexivity]. }
  assert (Ea2 : ads1 ++ b :: ads2 = ads).
  { injection Ea as Ea. clear - Ea. revert ads Ea. generalize (ads1 ++ b :: ads2). induction l as [|x l IH]; intros [|y ads] E; try discriminate; [reflexivity|].
    cbn [map] in E. injection E as -> E. f_equal. apply IH. exact E. }
  subst ads. destruct (props_rep_split _ _ _ _ RP) as (x1 & x2 & L1 & L23 & Ex & -> & R1 & R23).
  apply props_rep_cons_inv in R23. destruct R23 as (b' & x3 & L2 & L3 & -> & -> & R2 & R3).
  assert (LX : length ads1 = length x1) by (rewrite (props_rep_len _ _ _ R1); unfold len in LE; lia).
  assert (X : ads1 = x1 /\ b :: ads2 = b' :: x3).
  { clear - LX Ex. revert x1 LX Ex. induction ads1 as [|u ads1 IH]; intros [|v x1] LX Ex; try discriminate; [auto|].
    cbn [app] in Ex. injection Ex as -> Ex. destruct (IH x1) as [-> ->]; [injection LX as LX; exact LX|exact Ex|]. auto. }
  destruct X as [-> X]. injection X as -> ->.
  eapply wp_perm; [apply Permutation_app_tail; exact Pm|]. cbn [app].
  apply wp_post.
  eapply (wp_setdata room Room b' p L2 data off d blkc _
            ((a, BMsg g) :: (g_array w g, BPtrs (map Some (x1 ++ b' :: x3))) :: L1 ++ L3 ++ Rm ++ F)); [exact R2|perm|exact SD| |].
  - intro D. destruct (HD D) as [A B]. split; [inl|exact B].
  - intros L2' R2'. exists (((a, BMsg (with_part w (pv_opc (mpart w m)) (g_array w g) g)) ::
        ((g_array w g, BPtrs (map Some (x1 ++ b' :: x3))) :: L1 ++ L2' ++ L3) ++ Rm) ++ F).
    split.
    + rewrite <- (same_count w g m SH), with_part_same. perm.
    + apply H. apply (RB (mkPvec (pv_opc (mpart w m)) (Some (ps1 ++ pdata d p :: ps2))) (g_array w g)).
      apply vec_rep_some; [rewrite <- V1, !len_app, !len_cons; reflexivity|lia|].
      exists (x1 ++ b' :: x3), (L1 ++ L2' ++ L3). split; [reflexivity|]. apply props_rep_replace; assumption.
Qed.

Lemma wp_setproperty : forall w a m c Lm code data off d blkc v L F (Q : bool -> heaplet -> Prop),
  msg_rep a m c Lm -> Permutation L (Lm ++ F) -> uecho_property_set (mpart w m) code d = Ok v ->
  len d < SIZE_MOD ->
  (d <> [] -> In (data, BBytes blkc) F /\ rd_range blkc off (len d) = Ok (map Some d)) ->
  (forall Lm', msg_rep a (with_mpart w v m) c Lm' -> Q true (Lm' ++ F)) ->
  wp (M_Mem.uecho_message_setproperty room w a code data off (len d)) L Q.
Proof.
  intros w a m c Lm code data off d blkc v L F Q R P EV SD HD H. eapply wp_perm; [exact P|].
  destruct (focus_part w a m c Lm R) as (g & Lw & Rm & Pm & SH & V & RB).
  assert (Ig : In (a, BMsg g) Lm) by (eapply Permutation_in; [apply Permutation_sym; exact Pm|left; reflexivity]).
  assert (Iw : incl Lw Lm) by (intros x X; eapply Permutation_in; [apply Permutation_sym; exact Pm|right; apply in_or_app; left; exact X]).
  destruct (vec_items _ _ _ V) as (l & ads & Lp & EI & RP & LA & IA & IP & EP).
  unfold M_Mem.uecho_message_setproperty. nz a. apply wp_bind. unfold M_Mem.uecho_message_getpropertybycode.
  rewrite (pos_nz a) by assumption. apply wp_bind. eapply wp_load_msg; [inl|].
  rewrite (same_count w g m SH), <- LA. unfold uecho_property_set, uecho_property_getbycode in EV. rewrite EI in EV. cbn [bind] in EV.
  assert (IP' : incl Lp (Lm ++ F)) by (intros x X; apply in_or_app; left; apply Iw, IP, X).
  eapply (wp_getbycode_loop l ads (g_array w g) [] code Lp); [exact RP| |exact IP'| |].
  - destruct IA as [IA|IA]; [left; exact IA|right; apply in_or_app; left; apply Iw; exact IA].
  - intro FN. rewrite find_no in EV by exact FN. cbn [Z.eqb negb].
    apply wp_bind. apply wp_prop_new; [exact Room|]. intros b Lb B Rb. rewrite (pos_nz b) by assumption.
    apply wp_bind. eapply wp_setcode; [exact Rb|apply Permutation_refl|]. clear Lb Rb. intros Lb Rb.
    set (pn := M_Property.uecho_property_setcode code M_Property.uecho_property_new) in *.
    assert (E2 : exists v0 l0, uecho_property_add (mpart w m) pn = Ok v0 /\ pv_ep v0 = Some (l0 ++ [pn])
        /\ v = mkPvec (pv_opc v0) (Some (l0 ++ [pdata d pn])) /\ len l0 = pv_opc (mpart w m)).
    { revert EV. unfold uecho_property_add. destruct (to_byte (pv_opc (mpart w m) + 1) =? 0) eqn:T0; [discriminate|].
      destruct (_ <? _) eqn:T1; [discriminate|]. intro X. injection X as <-.
      assert (OB : to_byte (pv_opc (mpart w m) + 1) = pv_opc (mpart w m) + 1).
      { apply Z.eqb_neq in T0. destruct V as [V0 _]. apply to_byte_id. unfold is_byte.
        destruct (Z.eq_dec (pv_opc (mpart w m)) 255) as [E1|E1]; [|lia]. rewrite E1 in T0. exfalso. apply T0. reflexivity. }
      eexists. eexists. split; [reflexivity|]. split; [reflexivity|]. split; [reflexivity|].
      apply Z.ltb_ge in T1. rewrite OB in *. destruct V as [V0 V].
      replace (pv_opc (mpart w m) + 1 - 1) with (pv_opc (mpart w m)) in * by lia.
      unfold len in *. rewrite firstn_length. lia. }
    destruct E2 as (v0 & l0 & E2 & E3 & -> & E4).
    apply wp_bind. eapply (wp_addproperty w a m c Lm b pn v0 Lb _ F); [exact R|exact Rb|perm|exact E2|].
    intros Lm' R' AT. cbn [negb].
    eapply (wp_setdata_in w a _ c Lm' l0 pn [] data off d blkc); [exact R'|apply Permutation_refl|rewrite mpart_with; exact E3|exact SD|exact HD| |].
    + rewrite mpart_with, with_mpart_twice. exact H.
    + rewrite E4. exact AT.
  - intros b (ps1 & p & ps2 & ads1 & ads2 & L1 & L2 & L3 & -> & Ec & Fn & -> & -> & R1 & R2 & R3).
    rewrite find_mid in EV by assumption. destruct EP as [[_ EP]|EP]; [destruct ps1; discriminate|].
    rewrite EP in EV. cbn [option_map] in EV. rewrite upd_first_mid in EV by assumption. injection EV as <-.
    destruct (prop_rep_in b p L2 R2) as (q & Iq & _).
    eapply (wp_pos _ _ _ _ b); [apply IP'; apply in_or_app; right; apply in_or_app; left; exact Iq|intro B0].
    rewrite (pos_nz b) by assumption. cbn [negb].
    eapply (wp_setdata_in w a m c Lm ps1 p ps2 data off d blkc); [exact R|apply Permutation_refl|exact EP|exact SD|exact HD|exact H|].
    destruct IA as [IA|IA]; [destruct ads1; discriminate|]. exists g, ads1, ads2. split; [exact Ig|]. split; [apply Iw; exact IA|].
    pose proof (props_rep_len _ _ _ R1). unfold len. lia.
Qed.

(* ---- parsing ---- *)

Lemma wp_parse_loop : forall ps ads ep done data d off ok ps' off' Lp L F (Q : bool * Z -> heaplet -> Prop),
  props_rep ads ps Lp -> Permutation L (Lp ++ F) ->
  (ads = [] \/ In (ep, BPtrs (map Some (done ++ ads))) F) -> In (data, BBytes (map Some d)) F -> len d < SIZE_MOD ->
  M_Message.property_parse_loop ps d off = Ok (ok, ps', off') ->
  (forall Lp', props_rep ads ps' Lp' -> Q (ok, off') (Lp' ++ F)) ->
  wp (property_parse_loop room ep (len done) (length ads) data (len d) off) L Q.
Proof.
  induction ps as [|p ps IH]; intros ads ep done data d off ok ps' off' Lp L F Q R P IE ID SD E H; (eapply wp_perm; [exact P|]).
  - apply props_rep_nil_inv in R. destruct R as [-> ->]. cbn [length property_parse_loop app]. cbn in E. injection E as <- <- <-.
    apply wp_ret. apply (H []). reflexivity.
  - apply props_rep_cons_inv in R. destruct R as (a & ads' & L1 & L2 & -> & -> & R1 & R2).
    destruct IE as [IE|IE]; [discriminate|]. cbn [length property_parse_loop]. cbn [M_Message.property_parse_loop] in E.
    destruct (prop_rep_in a p L1 R1) as (q & Iq & Ec & _).
    apply wp_bind. eapply wp_ptr_at; [inl|rewrite map_app; apply rd_mid; rewrite len_map; reflexivity|].
    nz a.
    assert (SAME : props_rep (a :: ads') (p :: ps) (L1 ++ L2)) by (cbn [props_rep]; exists L1, L2; auto).
    destruct (sz (len d - 1) <? off) eqn:C1.
    { injection E as <- <- <-. apply wp_ret. apply H. exact SAME. }
    apply bind_ok in E. destruct E as (cc & G1 & E).
    apply wp_bind. eapply wp_peek; [inl|apply rd_map; exact G1|].
    apply wp_bind. eapply (wp_setcode a cc p L1 _ (L2 ++ F)); [exact R1|perm|]. clear Iq q Ec. intros L1' R1'.
    destruct (sz (len d - 1) <? sz (off + 1)) eqn:C2.
    { injection E as <- <- <-. apply wp_post, wp_ret. exists ((L1' ++ L2) ++ F). split; [perm|]. apply H.
      cbn [props_rep]. exists L1', L2. auto. }
    apply bind_ok in E. destruct E as (cnt & G2 & E).
    apply wp_bind. eapply wp_peek; [inl|apply rd_map; exact G2|].
    destruct (sz (len d - 1) <? sz (sz (sz (off + 1) + 1) + cnt - 1)) eqn:C3.
    { injection E as <- <- <-. apply wp_post, wp_ret. exists ((L1' ++ L2) ++ F). split; [perm|]. apply H.
      cbn [props_rep]. exists L1', L2. auto. }
    apply bind_ok in E. destruct E as (dd & G3 & E). apply bind_ok in E. destruct E as ([[ok2 ps2] off2] & G4 & E).
    injection E as <- <- <-.
    destruct (rd_range_map _ _ (@Some Z) d _ _ _ G3) as [G5 G6]. subst cnt.
    assert (LD : len dd < SIZE_MOD).
    { revert G3. unfold rd_range. destruct (Z.eqb_spec (len dd) 0) as [Z0|Z0].
      - intros _. rewrite Z0. reflexivity.
      - destruct ((0 <=? sz (sz (off + 1) + 1)) && (0 <? len dd) && (sz (sz (off + 1) + 1) + len dd <=? len d)) eqn:X; [|discriminate].
        intros _. apply andb_true_iff in X. destruct X as [X X3]. apply andb_true_iff in X. destruct X as [X1 X2].
        apply Z.leb_le in X1, X3. lia. }
    apply wp_bind. eapply (wp_setdata room Room a _ L1' data _ dd (map Some d) _ (L2 ++ F)); [exact R1'|perm|exact LD| |].
    { intros _. split; [inl|exact G5]. }
    intros L1'' R1''. cbn [negb].
    replace (len done + 1) with (len (done ++ [a])) by (rewrite len_app; reflexivity).
    apply wp_post. eapply (IH ads' ep (done ++ [a]) data d _ ok2 ps2 off2 L2 _ (L1'' ++ F)); [exact R2|perm| |inl|exact SD|exact G4|].
    + right. rewrite <- app_assoc. cbn [app]. inl.
    + intros L2' R2'. exists ((L1'' ++ L2') ++ F). split; [perm|]. apply H. cbn [props_rep]. exists L1'', L2'. auto.
Qed.

Lemma wp_property_parse : forall w a m c Lm data d off ok v off' L F (Q : bool * Z -> heaplet -> Prop),
  msg_rep a m c Lm -> Permutation L (Lm ++ F) -> In (data, BBytes (map Some d)) F -> len d < SIZE_MOD ->
  M_Message.uecho_message_property_parse (mpart w m) d off = Ok (ok, v, off') ->
  (forall Lm', msg_rep a (with_mpart w v m) c Lm' -> Q (ok, off') (Lm' ++ F)) ->
  wp (uecho_message_property_parse room w a data (len d) off) L Q.
Proof.
  intros w a m c Lm data d off ok v off' L F Q R P ID SD E H.
  destruct (focus_part w a m c Lm R) as (g & Lw & Rm & Pm & SH & V & RB).
  eapply wp_perm; [eapply perm_trans; [exact P|apply Permutation_app_tail; exact Pm]|]. cbn [app].
  unfold uecho_message_property_parse. apply wp_bind. eapply wp_load_msg; [inl|]. rewrite (same_count w g m SH).
  destruct V as [V0 V]. unfold M_Message.uecho_message_property_parse, pv_items in E. destruct (pv_ep (mpart w m)) as [l|] eqn:EP.
  - destruct V as (V1 & V2 & ads & Lp & -> & RP). rewrite (proj2 (Z.leb_gt _ _)) in E by lia. rewrite (proj2 (Z.ltb_ge _ _)) in E by lia.
    rewrite <- V1, to_nat_len, firstn_all in E. cbn [bind] in E. apply bind_ok in E. destruct E as ([[ok1 ps'] off1] & G & E).
    injection E as <- <- <-. rewrite <- V1, to_nat_len. rewrite <- (props_rep_len _ _ _ RP).
    apply wp_post.
    eapply (wp_parse_loop l ads (g_array w g) [] data d off ok1 ps' off1 Lp _ ((a, BMsg g) :: (g_array w g, BPtrs (map Some ads)) :: Rm ++ F));
      [exact RP|perm|right; inl|inl|exact SD|exact G|].
    intros Lp' RP'.
    exists (((a, BMsg (with_part w (pv_opc (mpart w m)) (g_array w g) g)) :: ((g_array w g, BPtrs (map Some ads)) :: Lp') ++ Rm) ++ F).
    split; [rewrite <- (same_count w g m SH), with_part_same; perm|]. apply H.
    pose proof (props_rep_len _ _ _ RP) as X1. pose proof (props_rep_len _ _ _ RP') as X2.
    rewrite V1. cbn [option_map]. rewrite skipn_all2 by lia. rewrite app_nil_r.
    apply (RB (mkPvec (pv_opc (mpart w m)) (Some ps')) (g_array w g)). apply vec_rep_some; [unfold len in *; lia|lia|].
    exists ads, Lp'. auto.
  - destruct V as (V1 & V2 & ->). rewrite V2 in E. cbn in E. injection E as <- <- <-. rewrite V2. cbn [Z.to_nat property_parse_loop].
    apply wp_post, wp_ret. exists (((a, BMsg g) :: Rm) ++ F). split; [perm|]. apply H.
    assert (X : msg_rep a (with_mpart w (mkPvec 0 None) m) c ((a, BMsg (with_part w 0 0 g)) :: Rm))
      by (apply (RB (mkPvec 0 None) 0 []); split; [cbn [pv_opc]; lia|repeat split]).
    assert (Y : with_part w 0 0 g = g) by (rewrite <- (with_part_same w g) at 2; rewrite (same_count w g m SH), V1, V2; reflexivity).
    rewrite Y in X. exact X.
Qed.

Lemma cleared_eq : forall m m', M_Message.uecho_message_clear m = Ok m' -> m' = cleared m.
Proof.
  intros m m' E. unfold M_Message.uecho_message_clear, M_Message.uecho_message_clearproperties, M_Message.uecho_properties_clear in E.
  apply bind_ok in E. destruct E as (x & E1 & E). apply bind_ok in E. destruct E as (y & E2 & E).
  apply bind_ok in E. destruct E as (z & E3 & E). injection E as <-.
  apply bind_ok in E1, E2, E3. destruct E1 as (? & _ & E1), E2 as (? & _ & E2), E3 as (? & _ & E3).
  injection E1 as <-. injection E2 as <-. injection E3 as <-. reflexivity.
Qed.

Lemma rd_byte : forall d i c, bytes_ok d -> rd d i = Ok c -> 0 <= c <= 255.
Proof.
  intros d i c B E. apply rd_ok_iff in E. destruct E as [_ E]. apply nth_error_In in E.
  unfold bytes_ok in B. rewrite Forall_forall in B. specialize (B _ E). unfold is_byte in B. lia.
Qed.

Lemma wp_parse : forall a m c Lm data d ok m' L F (Q : bool -> heaplet -> Prop),
  msg_rep a m c Lm -> Permutation L (Lm ++ F) -> (len d < uEchoMessageMinLen \/ In (data, BBytes (map Some d)) F) ->
  len d < SIZE_MOD -> bytes_ok d ->
  M_Message.uecho_message_parse m d = Ok (ok, m') ->
  (forall Lm', msg_rep a m' None Lm' -> Q ok (Lm' ++ F)) ->
  wp (uecho_message_parse room a data (len d)) L Q.
Proof.
  intros a m c Lm data d ok m' L F Q R P ID SD BD E H. eapply wp_perm; [exact P|]. destruct (msg_in a m c Lm R) as [g0 I0].
  unfold uecho_message_parse. nz a. apply wp_bind. eapply (wp_clear room Room); [exact R|apply Permutation_refl|]. clear Lm R P g0 I0. intros Lm R.
  unfold M_Message.uecho_message_parse in E. apply bind_ok in E. destruct E as (m1 & E1 & E). apply cleared_eq in E1. subst m1. cbn [negb].
  destruct (Z.ltb_spec (len d) uEchoMessageMinLen) as [C|C].
  { injection E as <- <-. apply wp_ret. apply H. exact R. }
  destruct ID as [ID|ID]; [unfold uEchoMessageMinLen in *; lia|].
  Ltac step E ID := let x := fresh "x" in let G := fresh "G" in
    apply bind_ok in E; destruct E as (x & G & E); apply wp_bind; eapply wp_peek; [apply in_or_app; right; exact ID|apply rd_map; exact G|].
  step E ID. destruct (negb (x =? uEchoEhd1)).
  { injection E as <- <-. apply wp_ret. apply H. exact R. }
  step E ID. destruct (negb (x0 =? uEchoEhd2)).
  { injection E as <- <-. apply wp_ret. apply H. exact R. }
  do 9 step E ID.
  apply bind_ok in E. destruct E as (d11 & G11 & E).
  destruct (focus_head a _ None Lm R) as (g & Rm & Pm & SH & RB).
  eapply wp_perm; [apply Permutation_app_tail; exact Pm|]. cbn [app].
  apply wp_bind. eapply wp_load_msg; [inl|]. apply wp_bind. eapply wp_store; [apply Permutation_refl|].
  destruct SH as (S1 & S2 & _). rewrite S1, S2.
  set (m2 := with_esv x9 (with_deoj [x6; x7; x8] (with_seoj [x3; x4; x5] (with_tid (x1, x2) (cleared m))))) in *.
  assert (R2 : msg_rep a m2 None ((a, BMsg (with_head (m_ehd1 (cleared m)) (m_ehd2 (cleared m)) (x1, x2) [x3; x4; x5] [x6; x7; x8] x9 g)) :: Rm)) by apply RB.
  clear RB R. apply wp_bind. eapply wp_peek; [right; apply in_or_app; right; exact ID|apply rd_map; exact G11|].
  change (is_readwrite (with_head (m_ehd1 (cleared m)) (m_ehd2 (cleared m)) (x1, x2) [x3; x4; x5] [x6; x7; x8] x9 g))
    with (uecho_message_isreadwritemessage m2).
  pose proof (rd_byte _ _ _ BD G11) as B11.
  destruct (uecho_message_isreadwritemessage m2).
  - apply wp_bind. eapply (wp_setopc PSet d11 a m2 None); [exact R2|apply Permutation_refl|reflexivity|exact B11|].
    clear R2. intros L3 R3. change (with_mpart PSet (uecho_message_setopcep d11 (mpart PSet m2)) m2) with (uecho_message_setopcset d11 m2) in R3.
    apply bind_ok in E. destruct E as ([[ok1 v1] off1] & E1 & E).
    apply wp_bind. eapply (wp_property_parse PSet); [exact R3|apply Permutation_refl|exact ID|exact SD|exact E1|].
    clear R3 L3. intros L3 R3. cbn [with_mpart] in R3. cbn [fst snd]. destruct (negb ok1).
    { injection E as <- <-. apply wp_ret. apply H. exact R3. }
    destruct (sz (len d - 1) <? off1).
    { injection E as <- <-. apply wp_ret. apply H. exact R3. }
    apply bind_ok in E. destruct E as (g2 & GG & E).
    apply wp_bind. eapply wp_peek; [apply in_or_app; right; exact ID|apply rd_map; exact GG|].
    apply wp_bind. eapply (wp_setopc PGet g2 a); [exact R3|apply Permutation_refl|reflexivity|exact (rd_byte _ _ _ BD GG)|].
    clear R3 L3. intros L3 R3. cbn [with_mpart] in R3.
    apply bind_ok in E. destruct E as ([[ok2 v2] off2] & E2 & E). injection E as <- <-.
    apply wp_bind. eapply (wp_property_parse PGet); [exact R3|apply Permutation_refl|exact ID|exact SD|exact E2|].
    clear R3 L3. intros L3 R3. cbn [with_mpart] in R3. apply wp_ret. apply H. exact R3.
  - apply wp_bind. eapply (wp_setopc PPlain d11 a m2 None); [exact R2|apply Permutation_refl|reflexivity|exact B11|].
    clear R2. intros L3 R3. change (with_mpart PPlain (uecho_message_setopcep d11 (mpart PPlain m2)) m2) with (M_Message.uecho_message_setopc d11 m2) in R3.
    apply bind_ok in E. destruct E as ([[ok1 v1] off1] & E1 & E). injection E as <- <-.
    apply wp_bind. eapply (wp_property_parse PPlain); [exact R3|apply Permutation_refl|exact ID|exact SD|exact E1|].
    clear R3 L3. intros L3 R3. cbn [with_mpart] in R3. apply wp_ret. apply H. exact R3.
Qed.
End Room.
