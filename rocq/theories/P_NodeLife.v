(* The life of a node in the heap: the functions of M_NodeLife.v follow those of M_Node.v. *)
From Coq Require Import String Ascii ZArith List Bool Lia Permutation.
From Verif Require Import CSem P_Base M_Const M_Misc M_String M_Property M_PropertyList P_PropertyList M_Log M_Message M_Object M_Node M_NodeListener
  M_Mem M_MemUse M_ObjMem M_Life M_NodeMem M_NodeLife P_Mem P_MemMsg P_MemParse P_MemProp P_MemBytes P_MemCopy P_MemRun P_Ring P_ObjProp P_ObjCache P_ObjMem P_ObjUse P_ObjStd P_ObjRun P_Life
  P_NodeMem P_NodeRecv.
Import ListNotations.
Open Scope Z_scope.

Lemma rl_props : forall nd ol v1 a o v2 Lr, rl_at (nbody nd) ol v1 a o v2 Lr -> exists c Lp R, Permutation Lr (Lp ++ R) /\ In (a, BObj c) R
  /\ plist a (j_props c) (o_props o) Lp
  /\ forall ps' Lp', plist a (j_props c) ps' Lp' -> rl_at (nbody nd) ol v1 a (o_with_props ps' o) v2 (Lp' ++ R).
Proof.
  intros nd ol v1 a o v2 Lr RA. destruct (rl_obj _ _ _ _ _ _ _ RA) as (p0 & n0 & Lo & R0 & OA & PLo & BK).
  destruct (obj_open _ _ _ _ _ OA) as (c & Lp & R & PL & PR & OR & E1 & E2).
  exists c, Lp, ((a, BObj c) :: R ++ R0). split; [|split; [left; reflexivity|split; [exact PR|]]].
  - eapply perm_trans; [exact PLo|]. eapply perm_trans; [apply Permutation_app_tail; exact PL|]. perm.
  - intros ps' Lp' PR'. replace (Lp' ++ (a, BObj c) :: R ++ R0) with ((Lp' ++ (a, BObj c) :: R) ++ R0) by (rewrite <- app_assoc; reflexivity).
    apply BK. rewrite <- E1, <- E2. apply obj_close; [exact PR'|exact OR].
Qed.

Lemma int_bytes : forall v size bs, uecho_integer2byte v size = Ok bs -> length bs = size.
Proof.
  intros v size bs EB. unfold uecho_integer2byte in EB. revert EB. generalize 0%nat. revert bs. induction size as [|k IH]; intros bs n EB; cbn [integer2byte_loop] in EB.
  - injection EB as <-. reflexivity.
  - destruct (int_shr v (Z.of_nat n * 8)) as [sh|]; cbn [bind] in EB; [|discriminate].
    destruct (integer2byte_loop v (S n) k) as [rest|] eqn:ER; cbn [bind] in EB; [|discriminate]. injection EB as <-.
    rewrite app_length, (IH _ _ ER). cbn. lia.
Qed.

Section Room.
Variable room : Z -> bool.
Hypothesis Room : forall n, room n = true.
Variable junk : nat -> Z.
Variable le : bool.
Variable net : post -> bool.

(* ---- stores into an object of the node ---- *)

Lemma wp_nobj_setdata : forall nd pv nx ps n v1 a o v2 Lr code data d n' posts L F (Q : _ -> heaplet -> Prop),
  (node_server ps =? 0) = false -> rl_at (nbody nd) (node_objects ps) v1 a o v2 Lr ->
  Permutation L ((nd, nblk pv nx ps (n_tid n)) :: Lr ++ F) -> len d < SIZE_MOD -> given_at data d F ->
  profiled (n_objs n) = profiled (v1 ++ o :: v2) ->
  node_emit le net n (M_Object.uecho_object_getcode o) (snd (M_Object.uecho_object_setpropertydata o code d)) = Ok (n', posts) ->
  (forall Lr', rl_at (nbody nd) (node_objects ps) v1 a (fst (M_Object.uecho_object_setpropertydata o code d)) v2 Lr' ->
     Q (true, posts) ((nd, nblk pv nx ps (n_tid n')) :: Lr' ++ F)) ->
  wp (uecho_object_setpropertydata room le net a code data (len d)) L Q.
Proof.
  intros nd pv nx ps n v1 a o v2 Lr code data d n' posts L F Q SV RA P LD GD PF E H.
  destruct (rl_props _ _ _ _ _ _ _ RA) as (c & Lp & R & PL & IC & PR & BK).
  eapply wp_perm; [eapply perm_trans; [exact P|apply perm_skip, Permutation_app_tail; exact PL]|]. clear L P.
  assert (IC' : In (a, BObj c) ((nd, nblk pv nx ps (n_tid n)) :: (Lp ++ R) ++ F)) by (right; apply in_or_app; left; apply in_or_app; right; exact IC).
  unfold uecho_object_setpropertydata. eapply (wp_pos _ _ _ _ a); [exact IC'|]. intro PA. rewrite (pos_nz a) by exact PA.
  apply wp_bind. eapply wp_load_obj; [exact IC'|]. unfold uecho_propertylist_setdata.
  destruct (rlist_head _ _ _ _ _ PR) as (y & z & I0).
  eapply (wp_pos _ _ _ _ (j_props c)); [right; apply in_or_app; left; apply in_or_app; left; exact I0|]. intro PH. rewrite (pos_nz (j_props c)) by exact PH.
  apply wp_bind. eapply (wp_getbycode room Room a (j_props c) (o_props o) code Lp _ ((nd, nblk pv nx ps (n_tid n)) :: R ++ F)); [exact PR|perm|].
  intros w1 x p w2 Lp' EG OT EC PX AT. rewrite (pos_nz x) by exact PX.
  unfold M_Object.uecho_object_setpropertydata, M_PropertyList.uecho_propertylist_setdata in *. rewrite EG in *.
  rewrite (surjective_pairing (M_Property.uecho_property_setdata d p)) in *. cbn [fst snd] in *. rewrite upd_split in H by assumption. rewrite setdata_fst in H.
  apply wp_bind. eapply (wp_node_setdata room Room le net nd pv nx ps v1 a o v2 (j_props c) w1 x p w2 data d Lp' R n n' posts _ F);
    [exact SV|exact AT|exact BK|perm|exact LD|exact GD|exact PF|exact E|].
  intros Lpl AT'. apply wp_ret. cbn [snd]. apply H. apply BK. exact (rl_at_list _ _ _ _ _ _ _ _ AT').
Qed.

Lemma wp_nobj_setint : forall nd pv nx ps n v1 a o v2 Lr code v size o' anns n' posts L F (Q : _ -> heaplet -> Prop),
  (node_server ps =? 0) = false -> rl_at (nbody nd) (node_objects ps) v1 a o v2 Lr ->
  Permutation L ((nd, nblk pv nx ps (n_tid n)) :: Lr ++ F) -> Z.of_nat size < SIZE_MOD ->
  M_Object.uecho_object_setpropertyintegerdata o code v size = Ok (o', anns) ->
  profiled (n_objs n) = profiled (v1 ++ o :: v2) ->
  node_emit le net n (M_Object.uecho_object_getcode o) anns = Ok (n', posts) ->
  (forall Lr', rl_at (nbody nd) (node_objects ps) v1 a o' v2 Lr' -> Q (true, posts) ((nd, nblk pv nx ps (n_tid n')) :: Lr' ++ F)) ->
  wp (uecho_object_setpropertyintegerdata room le net a code v size) L Q.
Proof.
  intros nd pv nx ps n v1 a o v2 Lr code v size o' anns n' posts L F Q SV RA P LS EV PF E H.
  destruct (rl_props _ _ _ _ _ _ _ RA) as (c & Lp & R & PL & IC & PR & BK).
  eapply wp_perm; [eapply perm_trans; [exact P|apply perm_skip, Permutation_app_tail; exact PL]|]. clear L P.
  assert (IC' : In (a, BObj c) ((nd, nblk pv nx ps (n_tid n)) :: (Lp ++ R) ++ F)) by (right; apply in_or_app; left; apply in_or_app; right; exact IC).
  unfold uecho_object_setpropertyintegerdata. eapply (wp_pos _ _ _ _ a); [exact IC'|]. intro PA. rewrite (pos_nz a) by exact PA.
  apply wp_bind. eapply wp_load_obj; [exact IC'|]. unfold uecho_propertylist_setintegerdata.
  destruct (rlist_head _ _ _ _ _ PR) as (y & z & I0).
  eapply (wp_pos _ _ _ _ (j_props c)); [right; apply in_or_app; left; apply in_or_app; left; exact I0|]. intro PH. rewrite (pos_nz (j_props c)) by exact PH.
  apply wp_bind. eapply (wp_getbycode room Room a (j_props c) (o_props o) code Lp _ ((nd, nblk pv nx ps (n_tid n)) :: R ++ F)); [exact PR|perm|].
  intros w1 x p w2 Lp' EG OT EC PX AT. unfold uecho_property_setintegerdata. rewrite (pos_nz x) by exact PX.
  unfold M_Object.uecho_object_setpropertyintegerdata, M_PropertyList.uecho_propertylist_setintegerdata in EV. rewrite EG in EV.
  apply bind_ok in EV. destruct EV as ((l1 & an1) & EV & EO). injection EO as <- <-.
  apply bind_ok in EV. destruct EV as ((p1 & an2) & EV & EO). injection EO as <- <-.
  unfold M_Property.uecho_property_setintegerdata in EV. apply bind_ok in EV. destruct EV as (bs & EB & EV).
  rewrite (surjective_pairing (M_Property.uecho_property_setdata bs p)) in EV. injection EV as <- <-. rewrite upd_split in H by assumption. rewrite setdata_fst in H.
  pose proof (int_bytes _ _ _ EB) as LB.
  apply wp_bind. apply wp_malloc; [exact Room|]. intros b PB _. rewrite (pos_nz b) by exact PB.
  apply wp_bind. eapply wp_lift; [exact EB|]. apply wp_bind. eapply wp_store; [apply pf_here|].
  apply wp_bind. rewrite <- LB. change (Z.of_nat (length bs)) with (len bs).
  eapply (wp_node_setdata room Room le net nd pv nx ps v1 a o v2 (j_props c) w1 x p w2 b bs Lp' R n n' posts _ ((b, BBytes (map Some bs)) :: F));
    [exact SV|exact AT|exact BK|perm| | |exact PF|exact E|].
  - unfold len. rewrite LB. exact LS.
  - intros _. eexists. split; [left; reflexivity|]. apply rd_range_whole. apply len_map.
  - intros Lpl AT'. apply wp_bind. eapply wp_free; [find_x|]. apply wp_ret. apply H. apply BK. exact (rl_at_list _ _ _ _ _ _ _ _ AT').
Qed.

(* ---- loops over a list that gather entries in a block ---- *)

Lemma wp_gather : forall V (B : Z -> blk -> V -> heaplet -> Prop) St (loop : nat -> Z -> St -> mm St) (Iv : list V -> St -> heaplet -> Prop) h vs Lr F (Q : St -> heaplet -> Prop),
  rlist B h vs Lr -> (forall n s, loop n 0 s = ret s) ->
  (forall k a kb v Lv done s Lb p nx L (R : St -> heaplet -> Prop), B a kb v Lv -> flag kb = Some false -> In (a, set_links p nx kb) Lr -> incl Lv Lr -> Iv done s Lb ->
     Permutation L (Lb ++ Lr ++ F) ->
     (forall s' Lb', Iv (done ++ [v]) s' Lb' -> wp (let! a' := uecho_list_next a in loop k a' s') (Lb' ++ Lr ++ F) R) -> wp (loop (S k) a s) L R) ->
  forall s Lb L, Iv [] s Lb -> Permutation L (Lb ++ Lr ++ F) -> (forall s' Lb', Iv vs s' Lb' -> Q s' (Lb' ++ Lr ++ F)) ->
  wp (let! a := uecho_list_next h in walk (fun n => loop n a s)) L Q.
Proof.
  intros V B St loop Iv h vs Lr F Q (ns & Lx & I & PR) STOP STEP s Lb L I0 P H. assert (N := items_nodes _ _ _ _ _ I).
  assert (G : forall n2 n1 v1 v2 L1 L2 m s Lb L, ns = n1 ++ n2 -> vs = v1 ++ v2 -> items B n1 v1 L1 -> items B n2 v2 L2 -> Lx = L1 ++ L2 -> (length n2 <= m)%nat ->
    Iv v1 s Lb -> Permutation L (Lb ++ Lr ++ F) -> wp (loop m (fst_of 0 n2) s) L Q).
  { clear s Lb L I0 P. induction n2 as [|[b kb] n2 IH]; intros n1 v1 v2 L1 L2 m s Lb L En Ev I1 I2 EL LM IV P.
    - inversion I2; subst v2 L2. cbn [fst_of]. rewrite STOP. eapply wp_perm; [exact P|]. apply wp_ret. apply H. rewrite app_nil_r in Ev. rewrite Ev. exact IV.
    - inversion I2 as [|b' kb' v Lv ns' vs' L' E X Y]; subst b' kb' ns' v2 L2. cbn [fst_of].
      destruct m as [|m]; [cbn [length] in LM; lia|].
      destruct (ring_in ((h, hblk) :: n1) b kb n2) as [p J].
      eapply (STEP m b kb v Lv v1 s Lb p _ L Q X E); [| |exact IV|exact P|].
      + eapply Permutation_in; [apply Permutation_sym; exact PR|]. apply in_or_app. left. rewrite En. exact J.
      + intros z Jz. eapply Permutation_in; [apply Permutation_sym; exact PR|]. apply in_or_app. right. rewrite EL. apply in_or_app. right. apply in_or_app. left. exact Jz.
      + intros s' Lb' IV'. assert (EN2 : ns = (n1 ++ [(b, kb)]) ++ n2) by (rewrite <- app_assoc; exact En).
        apply wp_bind. replace b with (lst_of h (n1 ++ [(b, kb)])) at 1 by (rewrite lst_of_app; reflexivity).
        eapply (wp_list_next h hblk (n1 ++ [(b, kb)]) n2 _ (Lx ++ Lb' ++ F)); [reflexivity|rewrite <- EN2; exact N| |].
        * rewrite <- EN2. eapply perm_trans; [apply Permutation_app_head, Permutation_app_tail; exact PR|]. rperm.
        * eapply (IH (n1 ++ [(b, kb)]) (v1 ++ [v]) vs' (L1 ++ Lv) L' m); [exact EN2|rewrite <- app_assoc; exact Ev| |exact Y|rewrite <- app_assoc; exact EL|cbn [length] in LM; lia|exact IV'|apply Permutation_refl].
          apply items_app; [exact I1|]. apply items_one; assumption. }
  apply wp_bind. change h with (lst_of h (@nil (Z * blk))) at 1.
  eapply (wp_list_next h hblk [] ns _ (Lx ++ Lb ++ F)); [reflexivity|exact N| |].
  - eapply perm_trans; [exact P|]. cbn [app]. eapply perm_trans; [apply Permutation_app_head, Permutation_app_tail; exact PR|]. rperm.
  - apply wp_walk. intros n LN. eapply (G ns [] [] vs [] Lx n); [reflexivity|reflexivity|apply items_nil|exact I|reflexivity| |exact I0|exact P].
    rewrite (Permutation_length P), !app_length, (Permutation_length PR), app_length, ring_length in LN. cbn [length] in LN. lia.
Qed.

Lemma wp_poke_all : forall e b c pre mid rest i L F (Q : unit -> heaplet -> Prop), i = len (c :: pre) -> length mid = length e ->
  Permutation L ((b, BBytes (c :: pre ++ mid ++ rest)) :: F) ->
  Q tt ((b, BBytes (c :: pre ++ map Some e ++ rest)) :: F) -> wp (poke_all b i e) L Q.
Proof.
  induction e as [|x e IH]; intros b c pre mid rest i L F Q EI LM P H; cbn [poke_all].
  - destruct mid; [|discriminate]. eapply wp_perm; [exact P|]. apply wp_ret. exact H.
  - destruct mid as [|y mid]; [discriminate|]. apply wp_bind. eapply (wp_poke b i x (c :: pre ++ (y :: mid) ++ rest) ((c :: pre) ++ Some x :: mid ++ rest)); [exact P| |].
    + change (c :: pre ++ (y :: mid) ++ rest) with ((c :: pre) ++ y :: mid ++ rest). apply wr_app_cons. exact EI.
    + eapply (IH b c (pre ++ [Some x]) mid rest); [|cbn in LM; lia| |].
      * rewrite EI. unfold len. cbn [length]. rewrite app_length. cbn [length]. lia.
      * rewrite <- app_assoc. cbn [app]. apply Permutation_refl.
      * rewrite <- app_assoc. exact H.
Qed.

Lemma wp_add_entry : forall b c l cnt e L F (Q : Z -> heaplet -> Prop), len l = len e * cnt -> 0 <= cnt ->
  Permutation L ((b, BBytes (c :: map Some l)) :: F) ->
  (forall b', 0 < b' -> Q b' ((b', BBytes (c :: map Some (l ++ e))) :: F)) -> wp (add_entry room junk b cnt e) L Q.
Proof.
  intros b c l cnt e L F Q LE C0 P H. eapply wp_perm; [exact P|]. clear L P. unfold add_entry.
  eapply (wp_pos _ _ _ _ b); [left; reflexivity|]. intro PB. apply wp_bind. unfold realloc_bytes. rewrite (pos_nz b) by exact PB.
  apply wp_bind. apply wp_load_bytes with (l := c :: map Some l); [left; reflexivity|].
  apply wp_bind. apply wp_malloc; [exact Room|]. intros b' PB' _. rewrite (pos_nz b') by exact PB'.
  apply wp_bind. eapply wp_free; [find_x|]. apply wp_ret.
  assert (LN : Z.to_nat (len e * (cnt + 1) + 1) = (S (length l) + length e)%nat) by (unfold len in *; nia).
  rewrite LN. rewrite firstn_all2 by (cbn [length]; rewrite map_length; lia).
  apply wp_bind.
  eapply (wp_poke_all e b' c (map Some l) (map (fun i => Some (junk i)) (seq (S (length l)) (length e))) [] _ _ F).
  - unfold len in *. cbn [length]. rewrite map_length. lia.
  - rewrite map_length, seq_length. reflexivity.
  - cbn [length]. rewrite map_length. replace (S (length l) + length e - S (length l))%nat with (length e) by lia. rewrite app_nil_r. apply Permutation_refl.
  - apply wp_ret. rewrite app_nil_r, <- map_app. apply H. exact PB'.
Qed.

Definition cls_of (v : aelem) : eclass := M_Node.uecho_class_setcode (fst v).
Definition class_bytes (l : list eclass) : list Z := concat (map (fun c => [fst c; snd c]) (filter (fun c => negb (uecho_class_isprofile c)) l)).
Definition object_bytes (l : list obj) : list Z := concat (map (fun x => [o_grp x; o_cls x; o_ins x]) (filter (fun x => negb (uecho_object_isprofile x)) l)).

Lemma class_snoc : forall l c, class_bytes (l ++ [c]) = class_bytes l ++ if uecho_class_isprofile c then [] else [fst c; snd c].
Proof. intros l c. unfold class_bytes. rewrite filter_app, map_app, concat_app. cbn [filter]. destruct (uecho_class_isprofile c); reflexivity. Qed.
Lemma object_snoc : forall l o, object_bytes (l ++ [o]) = object_bytes l ++ if uecho_object_isprofile o then [] else [o_grp o; o_cls o; o_ins o].
Proof. intros l c. unfold object_bytes. rewrite filter_app, map_app, concat_app. cbn [filter]. destruct (uecho_object_isprofile c); reflexivity. Qed.

Lemma concat_len : forall A B (f : A -> list B) w l, (forall x, len (f x) = w) -> len (concat (map f l)) = w * len l.
Proof.
  intros A B f w l H. induction l as [|x l IH]; cbn [map concat]; [cbn; lia|]. specialize (H x). unfold len in *. rewrite app_length. cbn [length]. lia.
Qed.

Lemma wp_class_at : forall a p n c ss L (Q : _ -> heaplet -> Prop), In (a, BElem p n c ss) L -> Q (M_Node.uecho_class_setcode c) L -> wp (class_at a) L Q.
Proof. intros a p n c ss L Q I H. unfold class_at. apply wp_bind. eapply wp_load_elem; [exact I|]. apply wp_ret. exact H. Qed.

Lemma wp_classes : forall h vs Lc F b c L (Q : entries -> heaplet -> Prop), rlist (ebody KClass) h vs Lc -> Permutation L ((b, BBytes [c]) :: Lc ++ F) ->
  (forall b', Q (b', len vs, len (filter (fun c => negb (uecho_class_isprofile c)) (map cls_of vs)))
     ((b', BBytes (c :: map Some (class_bytes (map cls_of vs)))) :: Lc ++ F)) ->
  wp (let! a := uecho_list_next h in walk (fun n => class_loop room junk n a (b, 0, 0))) L Q.
Proof.
  intros h vs Lc F b c L Q R P H.
  eapply (wp_gather _ (ebody KClass) entries (class_loop room junk)
    (fun done s Lb => exists b', s = (b', len done, len (filter (fun c => negb (uecho_class_isprofile c)) (map cls_of done)))
       /\ Lb = [(b', BBytes (c :: map Some (class_bytes (map cls_of done))))]) h vs Lc F Q R).
  - intros n s. destruct n; reflexivity.
  - clear b L P H. intros k a kb v Lv done s Lb p nx L R0 (p0 & n0 & ss & -> & _) _ IA _ (b & -> & ->) P H.
    eapply wp_perm; [exact P|]. clear L P. cbn [set_links] in IA. cbn [class_loop].
    assert (IA' : In (a, BElem p nx (fst v) ss) ([(b, BBytes (c :: map Some (class_bytes (map cls_of done))))] ++ Lc ++ F)).
    { apply in_or_app. right. apply in_or_app. left. exact IA. }
    eapply (wp_pos _ _ _ _ a); [exact IA'|]. intro PA. rewrite (pos_nz a) by exact PA.
    apply wp_bind. eapply wp_class_at; [exact IA'|]. fold (cls_of v).
    assert (ET : len (done ++ [v]) = len done + 1) by (unfold len; rewrite app_length; cbn; lia).
    destruct (uecho_class_isprofile (cls_of v)) eqn:EP.
    + apply wp_bind. apply wp_ret. apply H. exists b. rewrite ET, map_app, filter_app. cbn [map filter]. rewrite EP. cbn [negb]. rewrite app_nil_r.
      unfold class_bytes. rewrite filter_app. cbn [filter]. rewrite EP. cbn [negb]. rewrite app_nil_r. split; reflexivity.
    + apply wp_bind. apply wp_bind. eapply (wp_add_entry b c (class_bytes (map cls_of done)) _ [fst (cls_of v); snd (cls_of v)] _ (Lc ++ F)).
      * unfold class_bytes. rewrite (concat_len _ _ _ 2) by reflexivity. reflexivity.
      * apply len_nonneg.
      * apply Permutation_refl.
      * intros b' PB. apply wp_ret. eapply (H (b', len done + 1, len (filter (fun c0 => negb (uecho_class_isprofile c0)) (map cls_of done)) + 1) [_]).
        exists b'. rewrite ET, map_app, filter_app. cbn [map filter]. rewrite EP. cbn [negb].
        rewrite class_snoc, EP. split; [|reflexivity].
        f_equal. unfold len. rewrite app_length. cbn [length]. lia.
  - exists b. split; reflexivity.
  - exact P.
  - intros s' Lb' (b' & -> & ->). apply H.
Qed.

Lemma body_bytes : forall nd a k o Lx, nbody nd a k o Lx -> exists c, k = BObj c /\ j_grp c = o_grp o /\ j_cls c = o_cls o /\ j_ins c = o_ins o.
Proof.
  intros nd a k o Lx (c & -> & N & (Lp & R & _ & _ & (K & La & Ls & Lg & _ & OK & _))). exists c. split; [reflexivity|].
  destruct OK as (on & Lnm & ol & Lol & _ & _ & _ & G1 & G2 & G3 & _). auto.
Qed.

Lemma wp_instances : forall nd h vs Lc F b c L (Q : entries -> heaplet -> Prop), rlist (nbody nd) h vs Lc -> Permutation L ((b, BBytes [c]) :: Lc ++ F) ->
  (forall b', Q (b', len (filter (fun x => negb (uecho_object_isprofile x)) vs), len (filter (fun x => negb (uecho_object_isprofile x)) vs))
     ((b', BBytes (c :: map Some (object_bytes vs))) :: Lc ++ F)) ->
  wp (let! a := uecho_list_next h in walk (fun n => instance_loop room junk n a (b, 0, 0))) L Q.
Proof.
  intros nd h vs Lc F b c L Q R P H.
  eapply (wp_gather _ (nbody nd) entries (instance_loop room junk)
    (fun done s Lb => exists b', s = (b', len (filter (fun x => negb (uecho_object_isprofile x)) done), len (filter (fun x => negb (uecho_object_isprofile x)) done))
       /\ Lb = [(b', BBytes (c :: map Some (object_bytes done)))]) h vs Lc F Q R).
  - intros n s. destruct n; reflexivity.
  - clear b L P H. intros k a kb v Lv done s Lb p nx L R0 BD _ IA _ (b & -> & ->) P H.
    destruct (body_bytes _ _ _ _ _ BD) as (q & -> & G1 & G2 & G3).
    eapply wp_perm; [exact P|]. clear L P. cbn [set_links] in IA. cbn [instance_loop].
    match type of IA with In (_, BObj ?q') _ => set (q1 := q') in * end.
    assert (IA' : In (a, BObj q1) ([(b, BBytes (c :: map Some (object_bytes done)))] ++ Lc ++ F)) by (apply in_or_app; right; apply in_or_app; left; exact IA).
    eapply (wp_pos _ _ _ _ a); [exact IA'|]. intro PA. rewrite (pos_nz a) by exact PA.
    apply wp_bind. eapply wp_load_obj; [exact IA'|]. subst q1. cbn [j_grp j_cls j_ins]. rewrite G1, G2, G3. fold (uecho_object_isprofile v).
    destruct (uecho_object_isprofile v) eqn:EP.
    + apply wp_bind. apply wp_ret. apply H. exists b. rewrite filter_app. cbn [filter]. rewrite EP. cbn [negb]. rewrite app_nil_r.
      unfold object_bytes. rewrite filter_app. cbn [filter]. rewrite EP. cbn [negb]. rewrite app_nil_r. split; reflexivity.
    + apply wp_bind. apply wp_bind. eapply (wp_add_entry b c (object_bytes done) _ [o_grp v; o_cls v; o_ins v] _ (Lc ++ F)).
      * unfold object_bytes. rewrite (concat_len _ _ _ 3) by reflexivity. reflexivity.
      * apply len_nonneg.
      * apply Permutation_refl.
      * intros b' PB. apply wp_ret. eapply (H (b', len (filter (fun x => negb (uecho_object_isprofile x)) done) + 1, len (filter (fun x => negb (uecho_object_isprofile x)) done) + 1) [_]).
        exists b'. rewrite filter_app. cbn [filter]. rewrite EP. cbn [negb].
        rewrite object_snoc, EP. split; [|reflexivity].
        assert (EQ : len (filter (fun x => negb (uecho_object_isprofile x)) done ++ [v]) = len (filter (fun x => negb (uecho_object_isprofile x)) done) + 1) by (unfold len; rewrite app_length; cbn [length]; lia).
        rewrite EQ. reflexivity.
  - exists b. split; reflexivity.
  - exact P.
  - intros s' Lb' (b' & -> & ->). apply H.
Qed.

(* ---- the node profile ---- *)

Lemma setpd_props : forall o code d, exists ps', fst (M_Object.uecho_object_setpropertydata o code d) = o_with_props ps' o.
Proof.
  intros o code d. unfold M_Object.uecho_object_setpropertydata. destruct (M_PropertyList.uecho_propertylist_setdata (o_props o) code d) as [l a]. exists l. reflexivity.
Qed.
Lemma setint_props : forall o code v size o' anns, M_Object.uecho_object_setpropertyintegerdata o code v size = Ok (o', anns) -> exists ps', o' = o_with_props ps' o.
Proof.
  intros o code v size o' anns E. unfold M_Object.uecho_object_setpropertyintegerdata in E. apply bind_ok in E. destruct E as ((l & a) & _ & E). injection E as <- _.
  exists l. reflexivity.
Qed.
Definition same_obj (o o' : obj) : Prop := exists ps', o' = o_with_props ps' o.
Lemma same_code : forall o o', same_obj o o' -> M_Object.uecho_object_getcode o' = M_Object.uecho_object_getcode o.
Proof. intros o o' (ps & ->). reflexivity. Qed.
Lemma same_bytes : forall v1 o o' v2, same_obj o o' -> object_bytes (v1 ++ o' :: v2) = object_bytes (v1 ++ o :: v2)
  /\ len (filter (fun x => negb (uecho_object_isprofile x)) (v1 ++ o' :: v2)) = len (filter (fun x => negb (uecho_object_isprofile x)) (v1 ++ o :: v2)).
Proof.
  intros v1 o o' v2 (ps & ->). unfold object_bytes. rewrite !filter_app. cbn [filter].
  change (uecho_object_isprofile (o_with_props ps o)) with (uecho_object_isprofile o).
  destruct (uecho_object_isprofile o); cbn [negb]; [split; reflexivity|]. rewrite !map_app. cbn [map]. split; [reflexivity|].
  unfold len. rewrite !app_length. reflexivity.
Qed.
Lemma same_trans : forall a b c, same_obj a b -> same_obj b c -> same_obj a c.
Proof. intros a b c (x & ->) (y & ->). exists y. reflexivity. Qed.

Lemma emit_next : forall n n' code anns posts v1 o o' v2, node_emit le net n code anns = Ok (n', posts) -> profiled (n_objs n) = profiled (v1 ++ o :: v2) ->
  same_obj o o' -> profiled (n_objs n') = profiled (v1 ++ o' :: v2).
Proof.
  intros n n' code anns posts v1 o o' v2 E PF S0. rewrite (emit_objs _ _ _ _ _ _ _ E), PF. apply profiled_mid. symmetry. apply same_code. exact S0.
Qed.

(* a list of entries: the count byte is written, then the property gets the bytes *)
Lemma cut_cnt : forall cnt, (if InstanceListMax <? cnt then InstanceListMax else cnt) < 256.
Proof. intro cnt. change InstanceListMax with 255. destruct (255 <? cnt) eqn:E; lia. Qed.

Lemma wp_nobj_setclasslist : forall nd pv nx ps n v1 a o v2 Lr b c l cnt o' anns n' posts L F (Q : _ -> heaplet -> Prop),
  (node_server ps =? 0) = false -> rl_at (nbody nd) (node_objects ps) v1 a o v2 Lr ->
  Permutation L ((nd, nblk pv nx ps (n_tid n)) :: Lr ++ (b, BBytes (c :: map Some l)) :: F) ->
  M_Node.uecho_nodeprofile_setclasslist o cnt l = Ok (o', anns) ->
  profiled (n_objs n) = profiled (v1 ++ o :: v2) ->
  node_emit le net n (M_Object.uecho_object_getcode o) anns = Ok (n', posts) ->
  (forall Lr' buf, rl_at (nbody nd) (node_objects ps) v1 a o' v2 Lr' -> Q (true, posts) ((nd, nblk pv nx ps (n_tid n')) :: Lr' ++ (b, BBytes buf) :: F)) ->
  wp (uecho_nodeprofile_setclasslist room le net a cnt b) L Q.
Proof.
  intros nd pv nx ps n v1 a o v2 Lr b c l cnt o' anns n' posts L F Q SV RA P EV PF E H.
  unfold uecho_nodeprofile_setclasslist. unfold M_Node.uecho_nodeprofile_setclasslist in EV. pose proof (cut_cnt cnt) as CC. revert CC EV.
  generalize (if InstanceListMax <? cnt then InstanceListMax else cnt). intros m CC EV. apply bind_ok in EV. destruct EV as (d & ED & EV). injection EV as EV.
  destruct (rd_range_map _ _ (@Some Z) _ _ _ _ ED) as [ED' LD].
  apply wp_bind. eapply (wp_poke b 0 (to_byte m) (c :: map Some l) (map Some (to_byte m :: l)) _ ((nd, nblk pv nx ps (n_tid n)) :: Lr ++ F)).
  { eapply perm_trans; [exact P|perm]. }
  { reflexivity. }
  rewrite <- LD. eapply (wp_nobj_setdata nd pv nx ps n v1 a o v2 Lr _ b d n' posts _ ((b, BBytes (map Some (to_byte m :: l))) :: F));
    [exact SV|exact RA|perm| | |exact PF|rewrite EV; exact E|].
  - rewrite LD. unfold SIZE_MOD. lia.
  - intros _. eexists. split; [left; reflexivity|]. rewrite LD. exact ED'.
  - intros Lr' RA'. apply H. rewrite EV in RA'. exact RA'.
Qed.

Lemma wp_nobj_setinstancelist : forall nd pv nx ps n v1 a o v2 Lr b c l cnt o' anns n' posts L F (Q : _ -> heaplet -> Prop),
  (node_server ps =? 0) = false -> rl_at (nbody nd) (node_objects ps) v1 a o v2 Lr ->
  Permutation L ((nd, nblk pv nx ps (n_tid n)) :: Lr ++ (b, BBytes (c :: map Some l)) :: F) ->
  M_Node.uecho_nodeprofile_setinstancelist o cnt l = Ok (o', anns) ->
  profiled (n_objs n) = profiled (v1 ++ o :: v2) ->
  node_emit le net n (M_Object.uecho_object_getcode o) anns = Ok (n', posts) ->
  (forall Lr' buf, rl_at (nbody nd) (node_objects ps) v1 a o' v2 Lr' -> Q (true, posts) ((nd, nblk pv nx ps (n_tid n')) :: Lr' ++ (b, BBytes buf) :: F)) ->
  wp (uecho_nodeprofile_setinstancelist room le net a cnt b) L Q.
Proof.
  intros nd pv nx ps n v1 a o v2 Lr b c l cnt o' anns n' posts L F Q SV RA P EV PF E H.
  unfold uecho_nodeprofile_setinstancelist. unfold M_Node.uecho_nodeprofile_setinstancelist in EV. pose proof (cut_cnt cnt) as CC. revert CC EV.
  generalize (if InstanceListMax <? cnt then InstanceListMax else cnt). intros m CC EV. apply bind_ok in EV. destruct EV as (d & ED & EV).
  destruct (M_Object.uecho_object_setpropertydata o EPC_InstanceListS d) as [o1 a1] eqn:E1.
  destruct (M_Object.uecho_object_setpropertydata o1 EPC_InstanceListNotification d) as [o2 a2] eqn:E2. injection EV as <- <-.
  destruct (emit_app _ _ _ _ _ _ _ _ E) as (n1 & p1 & p2 & M1 & M2 & ->).
  destruct (rd_range_map _ _ (@Some Z) _ _ _ _ ED) as [ED' LD].
  assert (S1 : same_obj o o1). { destruct (setpd_props o EPC_InstanceListS d) as [x X]. rewrite E1 in X. exists x. exact X. }
  apply wp_bind. eapply (wp_poke b 0 (to_byte m) (c :: map Some l) (map Some (to_byte m :: l)) _ ((nd, nblk pv nx ps (n_tid n)) :: Lr ++ F)).
  { eapply perm_trans; [exact P|perm]. }
  { reflexivity. }
  assert (LD' : len d < SIZE_MOD) by (rewrite LD; unfold SIZE_MOD; lia).
  assert (GV : forall G, given_at b d ((b, BBytes (map Some (to_byte m :: l))) :: G)).
  { intros G _. eexists. split; [left; reflexivity|]. rewrite LD. exact ED'. }
  rewrite <- LD. apply wp_bind.
  eapply (wp_nobj_setdata nd pv nx ps n v1 a o v2 Lr _ b d n1 p1 _ ((b, BBytes (map Some (to_byte m :: l))) :: F));
    [exact SV|exact RA|perm|exact LD'|apply GV|exact PF|rewrite E1; exact M1|].
  rewrite E1. cbn [fst]. clear Lr RA P. intros Lr RA.
  apply wp_bind.
  eapply (wp_nobj_setdata nd pv nx ps n1 v1 a o1 v2 Lr _ b d n' p2 _ ((b, BBytes (map Some (to_byte m :: l))) :: F));
    [exact SV|exact RA|apply Permutation_refl|exact LD'|apply GV|eapply emit_next; eassumption|rewrite E2, (same_code _ _ S1); exact M2|].
  rewrite E2. cbn [fst]. clear Lr RA. intros Lr RA. apply wp_ret. cbn [fst snd andb]. apply H. exact RA.
Qed.

Lemma wp_nobj_update : forall nd pv nx ps n cls v1 a o v2 Lr Lc o' anns n' posts L F (Q : _ -> heaplet -> Prop),
  (nd =? 0) = false -> (node_server ps =? 0) = false -> rl_at (nbody nd) (node_objects ps) v1 a o v2 Lr -> rlist (ebody KClass) (node_classes ps) cls Lc ->
  Permutation L ((nd, nblk pv nx ps (n_tid n)) :: Lr ++ Lc ++ F) ->
  M_Node.uecho_nodeprofile_updateinstanceproperties (map cls_of cls) (v1 ++ o :: v2) o = Ok (o', anns) ->
  profiled (n_objs n) = profiled (v1 ++ o :: v2) ->
  node_emit le net n (M_Object.uecho_object_getcode o) anns = Ok (n', posts) ->
  (forall Lr', rl_at (nbody nd) (node_objects ps) v1 a o' v2 Lr' -> Q (true, posts) ((nd, nblk pv nx ps (n_tid n')) :: Lr' ++ Lc ++ F)) ->
  wp (uecho_nodeprofile_updateinstanceproperties room junk le net a) L Q.
Proof.
  intros nd pv nx ps n cls v1 a o v2 Lr Lc o' anns n' posts L F Q ND SV RA RC P EV PF E H. eapply wp_perm; [exact P|]. clear L P.
  unfold M_Node.uecho_nodeprofile_updateinstanceproperties in EV.
  apply bind_ok in EV. destruct EV as ((o1 & a1) & EV1 & EV). apply bind_ok in EV. destruct EV as ((o2 & a2) & EV2 & EV).
  apply bind_ok in EV. destruct EV as ((o3 & a3) & EV3 & EV). apply bind_ok in EV. destruct EV as ((o4 & a4) & EV4 & EV). injection EV as <- <-.
  destruct (emit_app _ _ _ _ _ _ _ _ E) as (n1 & p1 & q1 & M1 & E' & ->). clear E.
  destruct (emit_app _ _ _ _ _ _ _ _ E') as (n2 & p2 & q2 & M2 & E & ->). clear E'.
  destruct (emit_app _ _ _ _ _ _ _ _ E) as (n3 & p3 & p4 & M3 & M4 & ->). clear E.
  assert (S1 : same_obj o o1) by (eapply setint_props; exact EV1).
  assert (S12 : same_obj o1 o2).
  { unfold M_Node.uecho_nodeprofile_setclasslist in EV2. apply bind_ok in EV2. destruct EV2 as (d & _ & X). injection X as X.
    destruct (setpd_props o1 EPC_ClassListS d) as [y Y]. rewrite X in Y. exists y. exact Y. }
  assert (S2 : same_obj o o2) by (eapply same_trans; eassumption).
  assert (S3 : same_obj o o3) by (eapply same_trans; [exact S2|eapply setint_props; exact EV3]).
  pose proof (emit_next _ _ _ _ _ _ _ _ _ M1 PF S1) as PF1. pose proof (emit_next _ _ _ _ _ _ _ _ _ M2 PF1 S12) as PF2.
  assert (S23 : same_obj o2 o3) by (eapply setint_props; exact EV3).
  pose proof (emit_next _ _ _ _ _ _ _ _ _ M3 PF2 S23) as PF3.
  destruct (rl_in _ _ _ _ _ _ _ RA) as (c & IC & NC & _).
  assert (IC' : In (a, BObj c) ((nd, nblk pv nx ps (n_tid n)) :: Lr ++ Lc ++ F)) by (right; apply in_or_app; left; exact IC).
  unfold uecho_nodeprofile_updateinstanceproperties. eapply (wp_pos _ _ _ _ a); [exact IC'|]. intro PA. rewrite (pos_nz a) by exact PA.
  apply wp_bind. unfold uecho_object_getparentnode. rewrite (pos_nz a) by exact PA. apply wp_bind. eapply wp_load_obj; [exact IC'|]. apply wp_ret. rewrite NC, ND.
  clear IC' IC NC c.
  apply wp_bind. unfold realloc_bytes at 1. cbn [Z.eqb]. apply wp_malloc; [exact Room|]. intros b PB _. change (map (fun i => Some (junk i)) (seq 0 (Z.to_nat 1))) with [Some (junk 0)].
  apply wp_bind. eapply (wp_load_elem nd pv nx (n_tid n) ps); [right; left; reflexivity|]. cbn [snd].
  eapply (wp_assoc _ _ _ (uecho_list_next (node_classes ps)) (fun a => walk (fun n => class_loop room junk n a (b, 0, 0)))).
  apply wp_bind. eapply (wp_classes (node_classes ps) cls Lc ((nd, nblk pv nx ps (n_tid n)) :: Lr ++ F) b (Some (junk 0))); [exact RC|perm|].
  clear b PB. intro b. apply wp_bind. unfold uecho_nodeprofile_setclasscount.
  unfold M_Node.uecho_nodeprofile_setclasscount in EV1.
  replace (len (map cls_of cls)) with (len cls) in EV1 by (unfold len; rewrite map_length; reflexivity).
  eapply (wp_nobj_setint nd pv nx ps n v1 a o v2 Lr _ _ 2 o1 a1 n1 p1 _ ((b, BBytes (Some (junk 0) :: map Some (class_bytes (map cls_of cls)))) :: Lc ++ F));
    [exact SV|exact RA|perm|reflexivity|exact EV1|exact PF|exact M1|].
  clear Lr RA. intros Lr RA. apply wp_bind.
  eapply (wp_nobj_setclasslist nd pv nx ps n1 v1 a o1 v2 Lr b (Some (junk 0)) (class_bytes (map cls_of cls)) _ o2 a2 n2 p2 _ (Lc ++ F));
    [exact SV|exact RA|perm|exact EV2|exact PF1|rewrite (same_code _ _ S1); exact M2|].
  clear Lr RA. intros Lr buf RA. apply wp_bind. eapply wp_free; [find_x|].
  apply wp_bind. unfold realloc_bytes at 1. cbn [Z.eqb]. apply wp_malloc; [exact Room|]. clear b buf. intros b PB _. change (map (fun i => Some (junk i)) (seq 0 (Z.to_nat 1))) with [Some (junk 0)].
  apply wp_bind. eapply (wp_load_elem nd pv nx (n_tid n2) ps); [right; left; reflexivity|]. cbn [snd].
  eapply (wp_assoc _ _ _ (uecho_list_next (node_objects ps)) (fun a => walk (fun n => instance_loop room junk n a (b, 0, 0)))).
  apply wp_bind. eapply (wp_instances nd (node_objects ps) (v1 ++ o2 :: v2) Lr ((nd, nblk pv nx ps (n_tid n2)) :: Lc ++ F) b (Some (junk 0))); [exact (rl_at_list _ _ _ _ _ _ _ _ RA)|perm|].
  destruct (same_bytes v1 o o2 v2 S2) as [SB SL]. rewrite SB, SL.
  clear b PB. intro b. apply wp_bind. unfold uecho_nodeprofile_setinstancecount.
  eapply (wp_nobj_setint nd pv nx ps n2 v1 a o2 v2 Lr _ _ 3 o3 a3 n3 p3 _ ((b, BBytes (Some (junk 0) :: map Some (object_bytes (v1 ++ o :: v2)))) :: Lc ++ F));
    [exact SV|exact RA|perm|reflexivity|exact EV3|exact PF2|rewrite (same_code _ _ S2); exact M3|].
  clear Lr RA. intros Lr RA. apply wp_bind.
  eapply (wp_nobj_setinstancelist nd pv nx ps n3 v1 a o3 v2 Lr b (Some (junk 0)) (object_bytes (v1 ++ o :: v2)) _ o4 a4 n' p4 _ (Lc ++ F));
    [exact SV|exact RA|perm|exact EV4|exact PF3|rewrite (same_code _ _ S3); exact M4|].
  clear Lr RA. intros Lr buf RA. apply wp_bind. eapply wp_free; [find_x|]. apply wp_ret. cbn [snd]. apply H. exact RA.
Qed.
End Room.
