(* Lists of properties in the heap. *)
From Coq Require Import String ZArith List Bool Lia Permutation.
From Verif Require Import CSem P_Base M_Const M_Misc M_Property M_PropertyList P_PropertyList M_Object M_Mem M_MemUse M_ObjMem
  P_Mem P_MemProp P_MemCopy P_MemRun P_Ring.
Import ListNotations.
Open Scope Z_scope.

(* ---- values ---- *)

Definition others (c : Z) (l : list prop) : Prop := Forall (fun p => (p_code p =? c) = false) l.
Lemma find_split : forall v1 p v2 c, others c v1 -> (p_code p =? c) = true ->
  M_PropertyList.uecho_propertylist_findbycode (v1 ++ p :: v2) c = Some p.
Proof.
  induction v1 as [|q v1 IH]; intros p v2 c O E; cbn [app M_PropertyList.uecho_propertylist_findbycode]; [rewrite E; reflexivity|].
  apply Forall_cons_iff in O. destruct O as [O1 O2]. rewrite O1. apply IH; assumption.
Qed.
Lemma find_others : forall l c, others c l -> M_PropertyList.uecho_propertylist_findbycode l c = None.
Proof.
  induction l as [|q l IH]; intros c O; [reflexivity|]. apply Forall_cons_iff in O. destruct O as [O1 O2].
  cbn [M_PropertyList.uecho_propertylist_findbycode]. rewrite O1. apply IH; assumption.
Qed.
Lemma upd_split : forall v1 p v2 c f, others c v1 -> (p_code p =? c) = true ->
  update_first c f (v1 ++ p :: v2) = v1 ++ f p :: v2.
Proof.
  induction v1 as [|q v1 IH]; intros p v2 c f O E; cbn [app update_first]; [rewrite E; reflexivity|].
  apply Forall_cons_iff in O. destruct O as [O1 O2]. rewrite O1. f_equal. apply IH; assumption.
Qed.
Lemma rem_split : forall v1 p v2 c, others c v1 -> (p_code p =? c) = true ->
  remove_first c (v1 ++ p :: v2) = v1 ++ v2.
Proof.
  induction v1 as [|q v1 IH]; intros p v2 c O E; cbn [app remove_first]; [rewrite E; reflexivity|].
  apply Forall_cons_iff in O. destruct O as [O1 O2]. rewrite O1. f_equal. apply IH; assumption.
Qed.

(* ---- one property ---- *)

Definition own (par q : Z) : Prop := q = 0 \/ q = par.
(* the property at [a] in a list of the object [par] *)
Definition pbody (par a : Z) (k : blk) (p : prop) (Lx : heaplet) : Prop :=
  exists pv nx q, prop_at pv nx q a p ((a, k) :: Lx) /\ own par q.

Lemma prop_at_links : forall pv nx q a p k Lx pv' nx', prop_at pv nx q a p ((a, k) :: Lx) ->
  prop_at pv' nx' q a p ((a, set_links pv' nx' k) :: Lx).
Proof.
  intros pv nx q a p k Lx pv' nx' (s & o & d & Ls & Ld & E & R). injection E as -> ->.
  exists s, o, d, Ls, Ld. split; [reflexivity|exact R].
Qed.
Lemma prop_at_open : forall pv nx q a p L, prop_at pv nx q a p L -> exists c Lx, L = (a, BProp c) :: Lx /\ q_prev c = pv /\ q_next c = nx.
Proof. intros pv nx q a p L (s & o & d & Ls & Ld & -> & R). eexists. eexists. split; [reflexivity|]. split; reflexivity. Qed.
Lemma pbody_flag : forall par a k p Lx, pbody par a k p Lx -> flag k = Some false.
Proof. intros par a k p Lx (pv & nx & q & H & _). destruct (prop_at_open _ _ _ _ _ _ H) as (c & L & E & _). injection E as -> ->. reflexivity. Qed.

Definition plist (par : Z) := rlist (pbody par).
Definition pl_at (par : Z) := rl_at (pbody par).

Lemma pl_focus : forall par h v1 a p v2 L, pl_at par h v1 a p v2 L ->
  exists pv nx q Lp R, prop_at pv nx q a p Lp /\ own par q /\ Permutation L (Lp ++ R)
   /\ forall q' p' Lp', prop_at pv nx q' a p' Lp' -> own par q' -> pl_at par h v1 a p' v2 (Lp' ++ R).
Proof.
  intros par h v1 a p v2 L H. destruct (rl_focus _ _ _ _ _ _ _ _ H) as (pv & nx & k & Lx & R & E & (pv0 & nx0 & q & X & O) & P & G).
  exists pv, nx, q, ((a, set_links pv nx k) :: Lx), R. split; [eapply prop_at_links; exact X|]. split; [exact O|]. split; [exact P|].
  intros q' p' Lp' X' O'. destruct (prop_at_open _ _ _ _ _ _ X') as (c & Lx' & -> & E1 & E2).
  replace (BProp c) with (set_links pv nx (BProp c)).
  - cbn [app]. apply G; [reflexivity|]. exists pv, nx, q'. split; [exact X'|exact O'].
  - eapply set_same. cbn [links]. rewrite E1, E2. reflexivity.
Qed.

(* the object itself is in the heap *)
Definition there (par : Z) (F : heaplet) : Prop := exists o, In (par, BObj o) F.
Lemma there_ok : forall par q R F, own par q -> there par F -> par_ok q (R ++ F).
Proof. intros par q R F [->| ->] [o I]; [left; reflexivity|right; exists o; apply in_or_app; right; exact I]. Qed.

(* what the functions below return is a property that is in the list *)
Section Room.
Variable room : Z -> bool.
Hypothesis Room : forall n, room n = true.
Variable junk : nat -> Z.

Lemma wp_findbycode : forall par h ps c Lr L F (Q : Z -> heaplet -> Prop), plist par h ps Lr -> Permutation L (Lr ++ F) ->
  (others c ps -> Q 0 L) ->
  (forall v1 a p v2, ps = v1 ++ p :: v2 -> others c v1 -> (p_code p =? c) = true -> 0 < a -> pl_at par h v1 a p v2 Lr -> Q a L) ->
  wp (uecho_propertylist_findbycode h c) L Q.
Proof.
  intros par h ps c Lr L F Q R P H0 H1. unfold uecho_propertylist_findbycode.
  destruct (rlist_head _ _ _ _ _ R) as (x & y & I).
  eapply (wp_pos _ _ _ _ h); [eapply Permutation_in; [apply Permutation_sym; exact P|]; apply in_or_app; left; exact I|intro PH].
  rewrite (pos_nz h) by exact PH.
  eapply (wp_find _ _ _ (fun p => p_code p =? c)); [exact R|exact P| |exact H0|exact H1].
  intros a k p Lx pv nx S (pv0 & nx0 & q & X & O) E _ IA IX HS.
  pose proof (prop_at_links _ _ _ _ _ _ _ pv nx X) as X'. destruct X' as (s & o & d & Ls & Ld & EE & _).
  injection EE as EE _. rewrite EE in IA. apply wp_bind. eapply wp_load_prop; [exact IA|]. qs. apply wp_ret. exact HS.
Qed.

Lemma wp_pl_add : forall par h ps x q p Lp Lr L F (Q : bool -> heaplet -> Prop), plist par h ps Lr -> prop_at x x q x p Lp -> own par q ->
  Permutation L (Lp ++ Lr ++ F) ->
  (forall v1 Lr', M_PropertyList.uecho_propertylist_add ps p = v1 ++ [p] -> pl_at par h v1 x p [] Lr' -> (others (p_code p) ps -> v1 = ps) -> Q true (Lr' ++ F)) ->
  wp (M_ObjMem.uecho_propertylist_add h x) L Q.
Proof.
  intros par h ps x q p Lp Lr L F Q R X O P H. eapply wp_perm; [exact P|]. clear L P.
  destruct (rlist_head _ _ _ _ _ R) as (y & z & I). assert (X0 := X).
  destruct X as (s & o & d & Ls & Ld & -> & Rr).
  unfold M_ObjMem.uecho_propertylist_add. cbn [app]. nz h. nz x. cbn [orb].
  apply wp_bind. eapply wp_load_prop; [inl|]. qs.
  apply wp_bind. eapply (wp_findbycode par h ps (p_code p) Lr _ (((x, BProp (mkCprop x x s (p_code p) (p_attr p) d (len (p_data p)) q)) :: Ls ++ Ld) ++ F));
    [exact R|perm| |].
  - intro OT. cbn [Z.eqb]. apply wp_bind, wp_ret.
    eapply (wp_rl_add _ _ h ps Lr x _ p (Ls ++ Ld) _ F); [exact R| |exists x, x, q; split; [exact X0|exact O]|perm|]; [reflexivity|].
    intros Lr' R'. apply (H ps Lr'); [|exact R'|intros _; reflexivity]. unfold M_PropertyList.uecho_propertylist_add. rewrite find_others by exact OT. reflexivity.
  - intros v1 a b v2 E OT EB PA AT. rewrite (pos_nz a) by exact PA.
    apply wp_bind. apply wp_bind. unfold M_Mem.uecho_property_remove.
    eapply (wp_rl_remove _ _ h v1 a b v2 Lr _ (((x, BProp (mkCprop x x s (p_code p) (p_attr p) d (len (p_data p)) q)) :: Ls ++ Ld) ++ F)); [exact AT|perm|].
    intros k Lx R1 FK (pv & nx & q0 & B0 & _) RL.
    eapply (wp_prop_delete_at q0 a b ((a, set_links a a k) :: Lx) _ (R1 ++ ((x, BProp (mkCprop x x s (p_code p) (p_attr p) d (len (p_data p)) q)) :: Ls ++ Ld) ++ F));
      [eapply prop_at_links; exact B0|cbn [app]; apply Permutation_refl|].
    eapply (wp_rl_add _ _ h (v1 ++ v2) R1 x _ p (Ls ++ Ld) _ F); [exact RL| |exists x, x, q; split; [exact X0|exact O]|perm|]; [reflexivity|].
    intros Lr' R'. apply (H (v1 ++ v2) Lr'); [|exact R'|].
    + unfold M_PropertyList.uecho_propertylist_add. rewrite E, find_split, rem_split by assumption. reflexivity.
    + intro N. rewrite E in N. apply Forall_app in N. destruct N as [_ N]. apply Forall_inv in N. congruence.
Qed.

(* the property is created if there is none *)
Lemma wp_getbycode : forall par h ps c Lr L F (Q : Z -> heaplet -> Prop), plist par h ps Lr -> Permutation L (Lr ++ F) ->
  (forall v1 a p v2 Lr', M_PropertyList.uecho_propertylist_getbycode ps c = (v1 ++ p :: v2, p) -> others c v1 -> (p_code p =? c) = true -> 0 < a ->
     pl_at par h v1 a p v2 Lr' -> Q a (Lr' ++ F)) ->
  wp (uecho_propertylist_getbycode room h c) L Q.
Proof.
  intros par h ps c Lr L F Q R P H. eapply wp_perm; [exact P|]. clear L P.
  destruct (rlist_head _ _ _ _ _ R) as (y & z & I). unfold uecho_propertylist_getbycode. nz h.
  apply wp_bind. eapply wp_findbycode; [exact R|apply Permutation_refl| |].
  - intro OT. cbn [Z.eqb negb]. apply wp_bind. apply wp_prop_new; [exact Room|]. intros a Lp PA RA.
    rewrite (pos_nz a) by exact PA. apply wp_bind. eapply wp_setcode; [exact RA|apply Permutation_refl|]. clear Lp RA. intros Lp RA.
    apply wp_bind. eapply (wp_pl_add par h ps a 0 _ Lp Lr _ F); [exact R|exact RA|left; reflexivity|apply Permutation_refl|].
    intros v1 Lr' E R' E1. apply wp_ret. specialize (E1 OT). subst v1. apply (H ps a (M_Property.uecho_property_setcode c M_Property.uecho_property_new) [] Lr'); [|exact OT|apply Z.eqb_refl|exact PA|exact R'].
    unfold M_PropertyList.uecho_propertylist_getbycode. rewrite find_others by exact OT. rewrite E. reflexivity.
  - intros v1 a p v2 E OT EB PA AT. rewrite (pos_nz a) by exact PA. cbn [negb]. apply wp_ret. eapply H; [|exact OT|exact EB|exact PA|exact AT].
    unfold M_PropertyList.uecho_propertylist_getbycode. rewrite E, find_split by assumption. reflexivity.
Qed.

(* [d] is readable at [data] *)
Definition given_at (data : Z) (d : list Z) (F : heaplet) : Prop :=
  d <> [] -> exists c, In (data, BBytes c) F /\ rd_range c 0 (len d) = Ok (map Some d).

Lemma setdata_fst : forall d p, fst (M_Property.uecho_property_setdata d p) = pdata d p.
Proof. reflexivity. Qed.

Lemma wp_pl_data : forall par h v1 a p v2 data d Lr L F (Q : bool -> heaplet -> Prop), pl_at par h v1 a p v2 Lr -> Permutation L (Lr ++ F) ->
  there par F -> len d < SIZE_MOD -> given_at data d F ->
  (forall Lr', pl_at par h v1 a (pdata d p) v2 Lr' -> Q true (Lr' ++ F)) ->
  wp (M_Mem.uecho_property_setdata room a data 0 (len d)) L Q.
Proof.
  intros par h v1 a p v2 data d Lr L F Q AT P T SD G H. destruct (pl_focus _ _ _ _ _ _ _ AT) as (pv & nx & q & Lp & R & X & O & PR & K).
  assert (W : forall c, (d <> [] -> In (data, BBytes c) (R ++ F) /\ rd_range c 0 (len d) = Ok (map Some d)) ->
    wp (M_Mem.uecho_property_setdata room a data 0 (len d)) L Q).
  { intros c HD. eapply (wp_setdata_at room Room pv nx q a p Lp data 0 d c L (R ++ F)).
    - exact X.
    - eapply perm_trans; [exact P|]. eapply perm_trans; [apply Permutation_app_tail; exact PR|]. perm.
    - apply (there_ok par); assumption.
    - exact SD.
    - exact HD.
    - intros Lp' X'. rewrite app_assoc. apply H. apply (K q); [exact X'|exact O]. }
  destruct d as [|b d].
  - apply (W []). congruence.
  - destruct G as (c & I & E); [discriminate|]. apply (W c). intros _. split; [apply in_or_app; right; exact I|exact E].
Qed.

Lemma wp_pl_attr : forall par h v1 a p v2 at_ Lr L F (Q : unit -> heaplet -> Prop), pl_at par h v1 a p v2 Lr -> Permutation L (Lr ++ F) ->
  (forall Lr', pl_at par h v1 a (M_Property.uecho_property_setattribute at_ p) v2 Lr' -> Q tt (Lr' ++ F)) ->
  wp (M_Mem.uecho_property_setattribute a at_) L Q.
Proof.
  intros par h v1 a p v2 at_ Lr L F Q AT P H. destruct (pl_focus _ _ _ _ _ _ _ AT) as (pv & nx & q & Lp & R & X & O & PR & K).
  eapply (wp_setattribute_at pv nx q a at_ p Lp L (R ++ F)); [exact X| |].
  - eapply perm_trans; [exact P|]. eapply perm_trans; [apply Permutation_app_tail; exact PR|]. perm.
  - intros Lp' X'. rewrite app_assoc. apply H. apply (K q); [exact X'|exact O].
Qed.

Lemma wp_pl_parent : forall par h v1 a p v2 Lr L F (Q : bool -> heaplet -> Prop), pl_at par h v1 a p v2 Lr -> Permutation L (Lr ++ F) -> 0 < par ->
  (forall Lr', pl_at par h v1 a (M_Property.uecho_property_setparentobject true p) v2 Lr' -> Q true (Lr' ++ F)) ->
  wp (uecho_property_setparentobject a par) L Q.
Proof.
  intros par h v1 a p v2 Lr L F Q AT P PP H. destruct (pl_focus _ _ _ _ _ _ _ AT) as (pv & nx & q & Lp & R & X & O & PR & K).
  destruct X as (s & o & d & Ls & Ld & -> & Rs & Rd & Np & Sp).
  eapply wp_perm; [eapply perm_trans; [exact P|]; eapply perm_trans; [apply Permutation_app_tail; exact PR|apply Permutation_refl]|].
  unfold uecho_property_setparentobject. cbn [app]. nz a. apply wp_bind. eapply wp_load_prop; [inl|]. qs.
  apply wp_bind. apply wp_post. eapply wp_store; [apply pf_here|].
  exists ((((a, BProp (mkCprop pv nx s (p_code p) (p_attr p) d (len (p_data p)) par)) :: Ls ++ Ld) ++ R) ++ F). split; [perm|].
  apply wp_ret. apply H. apply (K par); [|right; reflexivity].
  exists s, o, d, Ls, Ld. split; [reflexivity|]. split; [exact Rs|]. split; [exact Rd|]. split; [|exact Sp].
  rewrite (pos_nz par) by exact PP. reflexivity.
Qed.

(* appending: realloc keeps the old bytes *)
Lemma wp_pl_append : forall par h v1 a p v2 data d Lr L F (Q : bool -> heaplet -> Prop), pl_at par h v1 a p v2 Lr -> Permutation L (Lr ++ F) ->
  there par F -> len (p_data p) + len d < SIZE_MOD -> given_at data d F ->
  (forall Lr', pl_at par h v1 a (fst (M_Property.uecho_property_adddata d p)) v2 Lr' -> Q true (Lr' ++ F)) ->
  wp (M_ObjMem.uecho_property_adddata room junk a data (len d)) L Q.
Proof.
  intros par h v1 a p v2 data d Lr L F Q AT P T SD G H. assert (AT0 := AT).
  destruct (pl_focus _ _ _ _ _ _ _ AT) as (pv & nx & q & Lp & R & X & O & PR & K).
  assert (PO := there_ok par q R F O T).
  assert (PL : Permutation L (Lp ++ R ++ F)).
  { eapply perm_trans; [exact P|]. eapply perm_trans; [apply Permutation_app_tail; exact PR|]. perm. }
  eapply wp_perm; [exact PL|]. clear P PR PL L. assert (X0 := X).
  destruct X as (s & o & dd & Ls & Ld & -> & Rs & Rd & Np & Sp).
  unfold uecho_property_adddata. cbn [app]. nz a.
  pose proof (len_nonneg _ d) as N0. pose proof (len_nonneg _ (p_data p)) as N1.
  destruct (Z.eqb_spec (len d) 0) as [E|E].
  { apply wp_ret. apply len_0_nil in E. subst d. unfold M_Property.uecho_property_adddata in H. cbn [len length Z.of_nat Z.eqb fst] in H.
    replace ((a, BProp (mkCprop pv nx s (p_code p) (p_attr p) dd (len (p_data p)) q)) :: (Ls ++ Ld) ++ R ++ F)
      with ((((a, BProp (mkCprop pv nx s (p_code p) (p_attr p) dd (len (p_data p)) q)) :: Ls ++ Ld) ++ R) ++ F)
      by (cbn [app]; rewrite <- !app_assoc; reflexivity).
    apply H. apply (K q); assumption. }
  destruct G as (c & IC & RC); [intro Y; subst d; apply E; reflexivity|].
  apply wp_bind. eapply wp_load_prop; [inl|]. qs.
  apply wp_bind. unfold uecho_property_addcount. rewrite (pos_nz a) by assumption. rewrite (proj2 (Z.eqb_neq _ _) E).
  apply wp_bind. eapply wp_load_prop; [inl|]. qs. rewrite sz_small by lia. apply wp_bind.
  (* realloc, and all that follows *)
  set (np := put_data (p_data p ++ d) p).
  assert (EN : fst (M_Property.uecho_property_adddata d p) = np).
  { unfold M_Property.uecho_property_adddata. rewrite (proj2 (Z.eqb_neq _ _) E). reflexivity. }
  rewrite EN in H. clear EN.
  assert (GO : forall b rest L', 0 < b -> length rest = length d ->
    Permutation L' ((b, BBytes (map Some (p_data p) ++ rest)) :: (a, BProp (mkCprop pv nx s (p_code p) (p_attr p) dd (len (p_data p)) q)) :: Ls ++ R ++ F) ->
    wp (let! _ := store a (BProp (mkCprop pv nx s (p_code p) (p_attr p) b (len (p_data p)) q)) in
        if b =? 0 then ret false
        else let! _ := store a (BProp (mkCprop pv nx s (p_code p) (p_attr p) b (len (p_data p) + len d) q)) in ret true) L'
      (fun ok L2 => wp (if negb ok then ret false else
         let! q0 := load_prop a in
         let! _ := copy_bytes (q_data q0) (len (p_data p)) data 0 (len d) in
         let! q1 := load_prop a in
         let! _ := (if has_bits (q_attr q1) (Z.lor AttrAnno AttrAnnoRequired) then M_Mem.uecho_property_announce a else ret false) in
         ret true) L2 Q)).
  { intros b rest L' PB LR P'. eapply wp_perm; [exact P'|]. apply wp_bind. eapply wp_store; [find_x|].
    rewrite (pos_nz b) by exact PB. apply wp_bind. eapply wp_store; [apply pf_here|]. apply wp_ret. cbn [negb].
    apply wp_bind. eapply wp_load_prop; [inl|]. qs. apply wp_bind. apply wp_post.
    eapply wp_copy_bytes; [find_x|inl|lia|exact RC| |].
    { replace (map Some (p_data p) ++ rest) with (map Some (p_data p) ++ rest ++ []) by (rewrite app_nil_r; reflexivity).
      apply wr_range_app; [rewrite len_map; reflexivity|]. unfold len. rewrite map_length, LR. reflexivity. }
    rewrite app_nil_r, <- map_app.
    exists (((a, BProp (mkCprop pv nx s (p_code p) (p_attr p) b (len (p_data p) + len d) q)) :: Ls ++ [(b, BBytes (map Some (p_data p ++ d)))]) ++ R ++ F).
    split; [perm|].
    assert (R2 : prop_at pv nx q a np ((a, BProp (mkCprop pv nx s (p_code p) (p_attr p) b (len (p_data p) + len d) q)) :: Ls ++ [(b, BBytes (map Some (p_data p ++ d)))])).
    { exists s, o, b, Ls, [(b, BBytes (map Some (p_data p ++ d)))]. unfold np. cbn [put_data p_code p_attr p_data p_parent]. rewrite len_app.
      split; [reflexivity|]. split; [exact Rs|]. split; [|split; [exact Np|exact SD]]. unfold data_rep.
      destruct (p_data p ++ d) as [|u w] eqn:ED; [|reflexivity]. apply app_eq_nil in ED. destruct ED as [_ ED]. subst d. exfalso. apply E. reflexivity. }
    apply wp_bind. eapply wp_load_prop; [inl|]. qs. apply wp_bind.
    assert (FIN : Q true (((a, BProp (mkCprop pv nx s (p_code p) (p_attr p) b (len (p_data p) + len d) q)) :: Ls ++ [(b, BBytes (map Some (p_data p ++ d)))]) ++ R ++ F)).
    { rewrite app_assoc. apply H. apply (K q); [exact R2|exact O]. }
    destruct (has_bits (p_attr p) (Z.lor AttrAnno AttrAnnoRequired)).
    - eapply wp_announce; [exact R2|apply Permutation_refl|exact PO|]. apply wp_ret. exact FIN.
    - apply wp_ret, wp_ret. exact FIN. }
  unfold realloc_bytes. destruct (p_data p) as [|x0 r0] eqn:ED; cbn [data_rep] in Rd.
  - destruct Rd as [-> ->]. cbn [Z.eqb]. apply wp_malloc; [exact Room|]. intros b PB _.
    eapply (GO b (map (fun i => Some (junk i)) (seq 0 (Z.to_nat (0 + len d))))).
    + exact PB.
    + rewrite map_length, seq_length. unfold len. lia.
    + cbn [map app]. rewrite app_nil_r. apply Permutation_refl.
  - subst Ld. nz dd. apply wp_bind. eapply wp_load_bytes; [inl|]. apply wp_bind. apply wp_malloc; [exact Room|]. intros b PB _.
    rewrite (pos_nz b) by exact PB. apply wp_bind. eapply wp_free; [find_x|]. apply wp_ret.
    rewrite firstn_all2; [|rewrite map_length; unfold len; lia].
    eapply (GO b (map (fun i => Some (junk i)) (seq (length (map Some (x0 :: r0))) (Z.to_nat (len (x0 :: r0) + len d) - length (map Some (x0 :: r0))))));
      [exact PB| |generalize (BBytes (map Some (x0 :: r0) ++ map (fun i => Some (junk i)) (seq (length (map Some (x0 :: r0))) (Z.to_nat (len (x0 :: r0) + len d) - length (map Some (x0 :: r0)))))); intro bb; perm].
    rewrite map_length, seq_length, map_length. unfold len. lia.
Qed.

(* ---- the setters of the list ---- *)

Lemma wp_pl_set : forall par h ps c at_ data d Lr L F (Q : bool -> heaplet -> Prop), plist par h ps Lr -> Permutation L (Lr ++ F) ->
  there par F -> len d < SIZE_MOD -> given_at data d F ->
  (forall Lr', plist par h (fst (M_PropertyList.uecho_propertylist_set ps c at_ d)) Lr' -> Q true (Lr' ++ F)) ->
  wp (uecho_propertylist_set room h c at_ data (len d)) L Q.
Proof.
  intros par h ps c at_ data d Lr L F Q R P T SD G H. eapply wp_perm; [exact P|]. clear L P.
  destruct (rlist_head _ _ _ _ _ R) as (y & z & I). unfold uecho_propertylist_set. nz h.
  apply wp_bind. eapply wp_getbycode; [exact R|apply Permutation_refl|]. intros v1 a p v2 Lr' E OT EC PA AT. rewrite (pos_nz a) by exact PA.
  apply wp_bind. eapply wp_pl_data; [exact AT|apply Permutation_refl|exact T|exact SD|exact G|]. clear Lr' AT. intros Lr' AT.
  apply wp_bind. eapply wp_pl_attr; [exact AT|apply Permutation_refl|]. clear Lr' AT. intros Lr' AT.
  apply wp_ret. apply H. apply rl_at_list in AT. unfold M_PropertyList.uecho_propertylist_set. rewrite E.
  rewrite (surjective_pairing (M_Property.uecho_property_setdata d p)). cbn [fst]. rewrite upd_split by assumption. exact AT.
Qed.

Lemma wp_pl_setdata : forall par h ps c data d Lr L F (Q : bool -> heaplet -> Prop), plist par h ps Lr -> Permutation L (Lr ++ F) ->
  there par F -> len d < SIZE_MOD -> given_at data d F ->
  (forall Lr', plist par h (fst (M_PropertyList.uecho_propertylist_setdata ps c d)) Lr' -> Q true (Lr' ++ F)) ->
  wp (uecho_propertylist_setdata room h c data (len d)) L Q.
Proof.
  intros par h ps c data d Lr L F Q R P T SD G H. eapply wp_perm; [exact P|]. clear L P.
  destruct (rlist_head _ _ _ _ _ R) as (y & z & I). unfold uecho_propertylist_setdata. nz h.
  apply wp_bind. eapply wp_getbycode; [exact R|apply Permutation_refl|]. intros v1 a p v2 Lr' E OT EC PA AT. rewrite (pos_nz a) by exact PA.
  apply wp_bind. eapply wp_pl_data; [exact AT|apply Permutation_refl|exact T|exact SD|exact G|]. clear Lr' AT. intros Lr' AT.
  apply wp_ret. apply H. apply rl_at_list in AT. unfold M_PropertyList.uecho_propertylist_setdata. rewrite E.
  rewrite (surjective_pairing (M_Property.uecho_property_setdata d p)). cbn [fst]. rewrite upd_split by assumption. exact AT.
Qed.

Lemma wp_pl_setbyte : forall par h ps c b Lr L F (Q : bool -> heaplet -> Prop), plist par h ps Lr -> Permutation L (Lr ++ F) ->
  there par F ->
  (forall Lr', plist par h (fst (M_PropertyList.uecho_propertylist_setbytedata ps c b)) Lr' -> Q true (Lr' ++ F)) ->
  wp (uecho_propertylist_setbytedata room h c b) L Q.
Proof.
  intros par h ps c b Lr L F Q R P T H. eapply wp_perm; [exact P|]. clear L P.
  destruct (rlist_head _ _ _ _ _ R) as (y & z & I). unfold uecho_propertylist_setbytedata. nz h.
  apply wp_bind. eapply wp_getbycode; [exact R|apply Permutation_refl|]. intros v1 a p v2 Lr' E OT EC PA AT. rewrite (pos_nz a) by exact PA.
  unfold uecho_property_setbytedata. rewrite (pos_nz a) by exact PA. unfold given.
  apply wp_bind. apply wp_malloc; [reflexivity|]. intros x PX _.
  apply wp_bind. change 1 with (len [to_byte b]).
  eapply (wp_pl_data par h v1 a p v2 x [to_byte b] Lr' _ ((x, BBytes (map Some [to_byte b])) :: F)); [exact AT|perm| |reflexivity| |].
  - destruct T as [o' IO]. exists o'. right. exact IO.
  - intros _. eexists. split; [left; reflexivity|]. reflexivity.
  - clear Lr' AT. intros Lr' AT. apply wp_bind. eapply wp_free; [eapply pf_app_r; apply pf_here|]. apply wp_ret.
    apply H. apply rl_at_list in AT. unfold M_PropertyList.uecho_propertylist_setbytedata. rewrite E. unfold M_Property.uecho_property_setbytedata.
    rewrite (surjective_pairing (M_Property.uecho_property_setdata [to_byte b] p)). cbn [fst]. rewrite upd_split by assumption. exact AT.
Qed.

Lemma wp_pl_setint : forall par h ps c v size l' ann Lr L F (Q : bool -> heaplet -> Prop), plist par h ps Lr -> Permutation L (Lr ++ F) ->
  there par F -> M_PropertyList.uecho_propertylist_setintegerdata ps c v size = Ok (l', ann) -> Z.of_nat size < SIZE_MOD ->
  (forall Lr', plist par h l' Lr' -> Q true (Lr' ++ F)) ->
  wp (uecho_propertylist_setintegerdata room h c v size) L Q.
Proof.
  intros par h ps c v size l' ann Lr L F Q R P T EV SS H. eapply wp_perm; [exact P|]. clear L P.
  destruct (rlist_head _ _ _ _ _ R) as (y & z & I). unfold uecho_propertylist_setintegerdata. nz h.
  apply wp_bind. eapply wp_getbycode; [exact R|apply Permutation_refl|]. intros v1 a p v2 Lr' E OT EC PA AT. rewrite (pos_nz a) by exact PA.
  unfold M_PropertyList.uecho_propertylist_setintegerdata in EV. rewrite E in EV.
  unfold M_Property.uecho_property_setintegerdata in EV.
  destruct (uecho_integer2byte v size) as [bs|] eqn:EB; [|discriminate]. cbn [bind] in EV.
  rewrite (surjective_pairing (M_Property.uecho_property_setdata bs p)) in EV. injection EV as <- _.
  assert (LB : length bs = size).
  { clear - EB. unfold uecho_integer2byte in EB. revert EB. generalize 0%nat. revert bs. induction size as [|k IH]; intros bs n EB; cbn [integer2byte_loop] in EB.
    - injection EB as <-. reflexivity.
    - destruct (int_shr v (Z.of_nat n * 8)) as [sh|]; cbn [bind] in EB; [|discriminate].
      destruct (integer2byte_loop v (S n) k) as [rest|] eqn:ER; cbn [bind] in EB; [|discriminate]. injection EB as <-.
      rewrite app_length, (IH _ _ ER). cbn. lia. }
  unfold uecho_property_setintegerdata. rewrite (pos_nz a) by exact PA.
  apply wp_bind. apply wp_malloc; [exact Room|]. intros x PX _. rewrite (pos_nz x) by exact PX.
  apply wp_bind. eapply wp_lift; [exact EB|]. apply wp_bind. eapply wp_store; [apply pf_here|].
  apply wp_bind. rewrite <- LB. change (Z.of_nat (length bs)) with (len bs).
  eapply (wp_pl_data par h v1 a p v2 x bs Lr' _ ((x, BBytes (map Some bs)) :: F)); [exact AT|perm| | | |].
  - destruct T as [o' IO]. exists o'. right. exact IO.
  - unfold len. rewrite LB. exact SS.
  - intros _. eexists. split; [left; reflexivity|]. apply rd_range_whole. apply len_map.
  - clear Lr' AT. intros Lr' AT. apply wp_bind. eapply wp_free; [eapply pf_app_r; apply pf_here|]. apply wp_ret.
    apply H. apply rl_at_list in AT. rewrite upd_split by assumption. exact AT.
Qed.

Lemma wp_pl_setattr : forall par h ps c at_ Lr L F (Q : bool -> heaplet -> Prop), plist par h ps Lr -> Permutation L (Lr ++ F) ->
  (forall Lr', plist par h (M_PropertyList.uecho_propertylist_setattribute ps c at_) Lr' -> Q true (Lr' ++ F)) ->
  wp (uecho_propertylist_setattribute room h c at_) L Q.
Proof.
  intros par h ps c at_ Lr L F Q R P H. eapply wp_perm; [exact P|]. clear L P.
  destruct (rlist_head _ _ _ _ _ R) as (y & z & I). unfold uecho_propertylist_setattribute. nz h.
  apply wp_bind. eapply wp_getbycode; [exact R|apply Permutation_refl|]. intros v1 a p v2 Lr' E OT EC PA AT. rewrite (pos_nz a) by exact PA.
  apply wp_bind. eapply wp_pl_attr; [exact AT|apply Permutation_refl|]. clear Lr' AT. intros Lr' AT.
  apply wp_ret. apply H. apply rl_at_list in AT. unfold M_PropertyList.uecho_propertylist_setattribute. rewrite E.
  rewrite upd_split by assumption. exact AT.
Qed.

Lemma wp_pl_getsize : forall par h ps c Lr L F (Q : Z -> heaplet -> Prop), plist par h ps Lr -> Permutation L (Lr ++ F) ->
  (forall Lr', plist par h (fst (M_PropertyList.uecho_propertylist_getdatasize ps c)) Lr' ->
     Q (snd (M_PropertyList.uecho_propertylist_getdatasize ps c)) (Lr' ++ F)) ->
  wp (uecho_propertylist_getdatasize room h c) L Q.
Proof.
  intros par h ps c Lr L F Q R P H. eapply wp_perm; [exact P|]. clear L P.
  destruct (rlist_head _ _ _ _ _ R) as (y & z & I). unfold uecho_propertylist_getdatasize. nz h.
  apply wp_bind. eapply wp_getbycode; [exact R|apply Permutation_refl|]. intros v1 a p v2 Lr' E OT EC PA AT. rewrite (pos_nz a) by exact PA.
  unfold M_PropertyList.uecho_propertylist_getdatasize in H. rewrite E in H. cbn [fst snd] in H.
  assert (AT0 := AT). destruct (pl_focus _ _ _ _ _ _ _ AT) as (pv & nx & q & Lp & RR & X & O & PR & K).
  destruct (prop_at_in _ _ _ _ _ _ X) as (qq & IQ & _ & _ & ES & _).
  apply wp_bind. eapply wp_load_prop.
  - apply in_or_app. left. eapply Permutation_in; [apply Permutation_sym; exact PR|]. apply in_or_app. left. exact IQ.
  - apply wp_ret. rewrite ES. apply H. apply rl_at_list in AT0. exact AT0.
Qed.

(* every property is deleted *)
Lemma wp_pl_clear : forall par h ps Lr L F (Q : bool -> heaplet -> Prop), plist par h ps Lr -> Permutation L (Lr ++ F) ->
  Q true ((h, BHead h h) :: F) -> wp (uecho_list_clear h property_destructor) L Q.
Proof.
  intros par h ps Lr L F Q R P H. eapply (wp_clear _ _ property_destructor h ps Lr L F); [exact R|exact P| |exact H].
  intros a k v Lx L' F' S (pv & nx & q & X & O) E _ P' _ HS. unfold property_destructor.
  apply wp_bind. eapply (wp_prop_delete_at q a v ((a, set_links a a k) :: Lx) _ F'); [eapply prop_at_links; exact X|exact P'|].
  apply wp_ret. exact HS.
Qed.
Lemma wp_pl_delete : forall par h ps Lr L F (Q : unit -> heaplet -> Prop), plist par h ps Lr -> Permutation L (Lr ++ F) ->
  Q tt F -> wp (uecho_propertylist_delete h) L Q.
Proof.
  intros par h ps Lr L F Q R P H. eapply wp_perm; [exact P|].
  destruct (rlist_head _ _ _ _ _ R) as (y & z & I). unfold uecho_propertylist_delete. nz h.
  apply wp_bind. eapply wp_pl_clear; [exact R|apply Permutation_refl|]. eapply wp_free; [apply pf_here|exact H].
Qed.
End Room.
