(* Property maps of an object that is in a node: the stores may announce. *)
From Coq Require Import String Ascii ZArith List Bool Lia Permutation.
From Coq Require Import ZifyBool ZifyNat.
Ltac Zify.zify_post_hook ::= Z.div_mod_to_equations.
From Verif Require Import CSem P_Base M_Const M_Misc M_String M_Property M_PropertyList P_PropertyList M_Log M_Message M_Object M_Node M_NodeListener
  M_Mem M_MemUse M_ObjMem M_Life M_NodeMem M_NodeLife P_Mem P_MemMsg P_MemParse P_MemProp P_MemBytes P_MemCopy P_MemRun P_Ring P_ObjProp P_ObjCache P_ObjMem P_ObjUse P_ObjStd P_ObjRun P_Life
  P_NodeMem P_NodeRecv P_NodeLife.
From Verif Require Import M_CtrlMem.
Import ListNotations.
Open Scope Z_scope.

(* the object [o] at [a] of a node, without its list of properties [h] *)
Definition rest_of (nd ol : Z) (v1 : list obj) (a : Z) (o : obj) (v2 : list obj) (h : Z) (G : heaplet) : Prop :=
  forall ps' Lr', plist a h ps' Lr' -> rl_at (nbody nd) ol v1 a (o_with_props ps' o) v2 (Lr' ++ G).

Lemma upd_len : forall code f l, length (update_first code f l) = length l.
Proof. intros code f l. induction l as [|q l IH]; [reflexivity|]. cbn [update_first]. destruct (p_code q =? code); cbn [length]; congruence. Qed.
Lemma set_len : forall l code at_ d, (length (fst (M_PropertyList.uecho_propertylist_set l code at_ d)) <= S (length l))%nat.
Proof.
  intros l code at_ d. rewrite pl_set_eq. cbn [fst]. unfold put. rewrite upd_len.
  destruct (find l code); [lia|]. rewrite app_length. cbn [length]. lia.
Qed.
Lemma props_code : forall l o, M_Object.uecho_object_getcode (o_with_props l o) = M_Object.uecho_object_getcode o.
Proof. reflexivity. Qed.

Section Room.
Variable room : Z -> bool.
Hypothesis Room : forall n, room n = true.
Variable le : bool.
Variable snet : post -> bool.

Lemma wp_npl_set : forall nd pv nx ps v1 a o v2 h pl code at_ data d Lp G n n' posts L F (Q : _ -> heaplet -> Prop),
  (node_server ps =? 0) = false -> plist a h pl Lp -> rest_of nd (node_objects ps) v1 a o v2 h G ->
  Permutation L ((nd, nblk pv nx ps (n_tid n)) :: (Lp ++ G) ++ F) ->
  len d < SIZE_MOD -> given_at data d F -> profiled (n_objs n) = profiled (v1 ++ o :: v2) ->
  node_emit le snet n (M_Object.uecho_object_getcode o) (snd (M_PropertyList.uecho_propertylist_set pl code at_ d)) = Ok (n', posts) ->
  (forall Lp', plist a h (fst (M_PropertyList.uecho_propertylist_set pl code at_ d)) Lp' -> Q (true, posts) ((nd, nblk pv nx ps (n_tid n')) :: (Lp' ++ G) ++ F)) ->
  wp (uecho_propertylist_set room le snet h code at_ data (len d)) L Q.
Proof.
  intros nd pv nx ps v1 a o v2 h pl code at_ data d Lp G n n' posts L F Q SV PR BK P LD GD PF E H.
  eapply wp_perm; [exact P|]. clear L P. unfold uecho_propertylist_set.
  destruct (rlist_head _ _ _ _ _ PR) as (y & z & I0).
  eapply (wp_pos _ _ _ _ h); [right; apply in_or_app; left; apply in_or_app; left; exact I0|]. intro PH. rewrite (pos_nz h) by exact PH.
  apply wp_bind. eapply (wp_getbycode room Room a h pl code Lp _ ((nd, nblk pv nx ps (n_tid n)) :: G ++ F)); [exact PR|perm|].
  intros w1 x p w2 Lp' EG OT EC PX AT. rewrite (pos_nz x) by exact PX.
  unfold M_PropertyList.uecho_propertylist_set in *. rewrite EG in *.
  rewrite (surjective_pairing (M_Property.uecho_property_setdata d p)) in *. cbn [fst snd] in *. rewrite upd_split in H by assumption. rewrite setdata_fst in H.
  apply wp_bind. eapply (wp_node_setdata room Room le snet nd pv nx ps v1 a o v2 h w1 x p w2 data d Lp' G n n' posts _ F);
    [exact SV|exact AT|exact BK|perm|exact LD|exact GD|exact PF|exact E|].
  intros Lpl AT'. apply wp_bind.
  eapply (wp_pl_attr a h w1 x (pdata d p) w2 at_ Lpl _ ((nd, nblk pv nx ps (n_tid n')) :: G ++ F)); [exact AT'|perm|].
  intros Lp2 AT2. apply wp_post, wp_ret. eexists. split; [|apply H; exact (rl_at_list _ _ _ _ _ _ _ _ AT2)]. perm.
Qed.

Lemma wp_npl_setdata : forall nd pv nx ps v1 a o v2 h pl code data d Lp G n n' posts L F (Q : _ -> heaplet -> Prop),
  (node_server ps =? 0) = false -> plist a h pl Lp -> rest_of nd (node_objects ps) v1 a o v2 h G ->
  Permutation L ((nd, nblk pv nx ps (n_tid n)) :: (Lp ++ G) ++ F) ->
  len d < SIZE_MOD -> given_at data d F -> profiled (n_objs n) = profiled (v1 ++ o :: v2) ->
  node_emit le snet n (M_Object.uecho_object_getcode o) (snd (M_PropertyList.uecho_propertylist_setdata pl code d)) = Ok (n', posts) ->
  (forall Lp', plist a h (fst (M_PropertyList.uecho_propertylist_setdata pl code d)) Lp' -> Q (true, posts) ((nd, nblk pv nx ps (n_tid n')) :: (Lp' ++ G) ++ F)) ->
  wp (M_NodeLife.uecho_propertylist_setdata room le snet h code data (len d)) L Q.
Proof.
  intros nd pv nx ps v1 a o v2 h pl code data d Lp G n n' posts L F Q SV PR BK P LD GD PF E H.
  eapply wp_perm; [exact P|]. clear L P. unfold M_NodeLife.uecho_propertylist_setdata.
  destruct (rlist_head _ _ _ _ _ PR) as (y & z & I0).
  eapply (wp_pos _ _ _ _ h); [right; apply in_or_app; left; apply in_or_app; left; exact I0|]. intro PH. rewrite (pos_nz h) by exact PH.
  apply wp_bind. eapply (wp_getbycode room Room a h pl code Lp _ ((nd, nblk pv nx ps (n_tid n)) :: G ++ F)); [exact PR|perm|].
  intros w1 x p w2 Lp' EG OT EC PX AT. rewrite (pos_nz x) by exact PX.
  unfold M_PropertyList.uecho_propertylist_setdata in *. rewrite EG in *.
  rewrite (surjective_pairing (M_Property.uecho_property_setdata d p)) in *. cbn [fst snd] in *. rewrite upd_split in H by assumption. rewrite setdata_fst in H.
  apply wp_bind. eapply (wp_node_setdata room Room le snet nd pv nx ps v1 a o v2 h w1 x p w2 data d Lp' G n n' posts _ F);
    [exact SV|exact AT|exact BK|perm|exact LD|exact GD|exact PF|exact E|].
  intros Lpl AT'. apply wp_ret. cbn [snd]. apply H. exact (rl_at_list _ _ _ _ _ _ _ _ AT').
Qed.

Lemma map2_len : forall cs d d', map_format2 cs d = Ok d' -> len d' = len d.
Proof.
  induction cs as [|c0 cs0 IH]; intros d d' E; cbn [map_format2] in E; [injection E as ->; reflexivity|].
  destruct (uecho_propertymap_codetoformat2 c0) as [[row bit]|]; [|apply IH; exact E].
  destruct (rd d row) as [x|]; cbn [bind] in E; [|discriminate].
  destruct (wr d row (to_byte (Z.lor x (Z.land (Z.shiftl 1 bit) 15)))) as [d1|] eqn:EW; cbn [bind] in E; [|discriminate].
  rewrite (IH _ _ E). eapply wr_len. exact EW.
Qed.

Lemma wp_nsetmap : forall nd pv nx ps v1 a o v2 c mapCode cs b o1 o' ann Lr G n n' posts L F (Q : _ -> heaplet -> Prop),
  (node_server ps =? 0) = false -> plist a (j_props c) (o_props o1) Lr -> rest_of nd (node_objects ps) v1 a o v2 (j_props c) G ->
  In (a, BObj c) G -> Permutation L ((nd, nblk pv nx ps (n_tid n)) :: (Lr ++ G) ++ F) ->
  profiled (n_objs n) = profiled (v1 ++ o :: v2) ->
  M_Object.uecho_object_setpropertymap o1 mapCode (Some cs) = Ok (o', ann) ->
  node_emit le snet n (M_Object.uecho_object_getcode o) ann = Ok (n', posts) ->
  (cs <> [] -> In (b, BBytes (map Some cs)) G) -> len cs + 1 < SIZE_MOD ->
  (forall Lr', plist a (j_props c) (o_props o') Lr' -> o' = o_with_props (o_props o') o1 -> Q (true, posts) ((nd, nblk pv nx ps (n_tid n')) :: (Lr' ++ G) ++ F)) ->
  wp (uecho_object_setpropertymap room le snet a mapCode b (len cs)) L Q.
Proof.
  intros nd pv nx ps v1 a o v2 c mapCode cs b o1 o' ann Lr G n n' posts L F Q SV R BK IA P PF EV E IC SC H. eapply wp_perm; [exact P|]. clear L P.
  assert (IA' : forall x, In (a, BObj c) (x :: (Lr ++ G) ++ F)) by (intro x; right; apply in_or_app; left; apply in_or_app; right; exact IA).
  eapply (wp_pos _ _ _ _ a); [apply IA'|]. intro PA.
  unfold uecho_object_setpropertymap. rewrite (pos_nz a) by exact PA. apply wp_bind. apply wp_malloc; [reflexivity|]. intros buf PB _.
  unfold M_Object.uecho_object_setpropertymap in EV. pose proof (len_nonneg _ cs) as NC.
  apply wp_bind. eapply wp_poke; [apply Permutation_refl| |].
  { change (fresh_buf MapFormat2Size) with ([] ++ None :: repeat (@None Z) 16). apply wr_app_cons. reflexivity. }
  cbn [app]. apply wp_bind.
  destruct (Z.leb_spec (len cs) MapFormat1MaxSize) as [LE|LE].
  - (* format 1 *)
    rewrite (surjective_pairing (M_PropertyList.uecho_propertylist_set (o_props o1) mapCode AttrRead (to_byte (len cs) :: cs))) in EV. injection EV as <- <-.
    cbn [o_with_props o_props] in H.
    assert (FIN : forall rest, wp (let! o0 := load_obj a in uecho_propertylist_set room le snet (j_props o0) mapCode AttrRead buf (len cs + 1))
        ((buf, BBytes (map Some (to_byte (len cs) :: cs) ++ rest)) :: (nd, nblk pv nx ps (n_tid n)) :: (Lr ++ G) ++ F)
        (fun r L' => wp (let! _ := mfree buf in ret (true, snd r)) L' Q)).
    { intro rest. apply wp_bind. eapply wp_load_obj; [right; apply IA'|].
      replace (len cs + 1) with (len (to_byte (len cs) :: cs)) by (rewrite len_cons; lia).
      eapply (wp_npl_set nd pv nx ps v1 a o v2 (j_props c) (o_props o1) mapCode AttrRead buf (to_byte (len cs) :: cs) Lr G n n' posts _
               ((buf, BBytes (map Some (to_byte (len cs) :: cs) ++ rest)) :: F)); [exact SV|exact R|exact BK|perm| | |exact PF|exact E|].
      - rewrite len_cons. lia.
      - intros _. eexists. split; [left; reflexivity|].
        change (map Some (to_byte (len cs) :: cs) ++ rest) with ([] ++ map Some (to_byte (len cs) :: cs) ++ rest).
        apply rd_range_app; [reflexivity|]. rewrite len_map. reflexivity.
      - intros Lr' R'. apply wp_bind. eapply wp_free; [find_x|]. apply wp_ret. cbn [snd]. apply H; [exact R'|reflexivity]. }
    destruct cs as [|c1 cs].
    + apply wp_bind. cbn [len length Z.of_nat]. unfold copy_bytes. cbn [Z.eqb]. apply wp_ret. apply (FIN (repeat None 16)).
    + apply wp_bind. eapply (wp_copy_bytes buf 1 b 0 (len (c1 :: cs)) (map Some (c1 :: cs)) (map Some (c1 :: cs)));
        [apply Permutation_refl|right; apply in_or_app; left; apply in_or_app; right; apply IC; discriminate|rewrite len_cons; pose proof (len_nonneg _ cs); lia| | |].
      * apply rd_range_whole. apply len_map.
      * replace (Some (to_byte (len (c1 :: cs))) :: repeat None 16) with ([Some (to_byte (len (c1 :: cs)))] ++ firstn (length (c1 :: cs)) (repeat None 16) ++ skipn (length (c1 :: cs)) (repeat (@None Z) 16))
          by (rewrite firstn_skipn; reflexivity).
        apply wr_range_app; [reflexivity|]. rewrite len_map. unfold len. rewrite firstn_length, repeat_length.
        unfold MapFormat1MaxSize, len in LE. lia.
      * cbn [app map]. apply (FIN (skipn (length (c1 :: cs)) (repeat None 16))).
  - (* format 2 *)
    destruct (map_format2 cs (to_byte (len cs) :: repeat 0 (Z.to_nat MapFormat2MapSize))) as [data|] eqn:EM; cbn [bind] in EV; [|discriminate].
    rewrite (surjective_pairing (M_PropertyList.uecho_propertylist_setdata (o_props o1) mapCode data)) in EV. injection EV as <- <-.
    cbn [o_with_props o_props] in H.
    apply wp_bind. eapply wp_load_bytes; [inl|]. apply wp_bind. eapply wp_lift.
    { replace (Some (to_byte (len cs)) :: repeat None 16) with ([Some (to_byte (len cs))] ++ repeat (@None Z) 16 ++ [])
        by (rewrite app_nil_r; reflexivity).
      apply wr_range_app; [reflexivity|]. reflexivity. }
    apply wp_bind. eapply wp_store; [apply Permutation_refl|].
    replace ([Some (to_byte (len cs))] ++ repeat (Some 0) (Z.to_nat MapFormat2MapSize) ++ []) with (map Some (to_byte (len cs) :: repeat 0 (Z.to_nat MapFormat2MapSize))) by reflexivity.
    apply wp_bind. rewrite to_nat_len. change 0 with (len (@nil Z)) at 2.
    eapply (wp_format2 cs [] b cs _ data); [exact EM|reflexivity|apply Permutation_refl| |].
    { right. apply in_or_app. left. apply in_or_app. right. apply IC. intro X. subst cs. unfold MapFormat1MaxSize, len in LE. cbn in LE. lia. }
    assert (LD : len data = MapFormat2Size) by (rewrite (map2_len _ _ _ EM); reflexivity).
    apply wp_bind. eapply wp_load_obj; [right; apply IA'|]. rewrite <- LD.
    eapply (wp_npl_setdata nd pv nx ps v1 a o v2 (j_props c) (o_props o1) mapCode buf data Lr G n n' posts _ ((buf, BBytes (map Some data)) :: F));
      [exact SV|exact R|exact BK|perm| | |exact PF|exact E|].
    + rewrite LD. reflexivity.
    + intros _. eexists. split; [left; reflexivity|]. apply rd_range_whole. apply len_map.
    + intros Lr' R'. apply wp_bind. eapply wp_free; [find_x|]. apply wp_ret. cbn [snd]. apply H; [exact R'|reflexivity].
Qed.

Variable junk : nat -> Z.

Lemma wp_nupdatemaps : forall nd pv nx ps v1 a o v2 o' ann Lr n n' posts L F (Q : _ -> heaplet -> Prop),
  (node_server ps =? 0) = false -> rl_at (nbody nd) (node_objects ps) v1 a o v2 Lr ->
  Permutation L ((nd, nblk pv nx ps (n_tid n)) :: Lr ++ F) -> profiled (n_objs n) = profiled (v1 ++ o :: v2) ->
  M_Object.uecho_object_updatepropertymaps junk o = Ok (o', ann) -> Z.of_nat (o_getsz o + length (o_props o)) + 1 < SIZE_MOD ->
  node_emit le snet n (M_Object.uecho_object_getcode o) ann = Ok (n', posts) ->
  (forall Lr', rl_at (nbody nd) (node_objects ps) v1 a o' v2 Lr' -> Q (true, posts) ((nd, nblk pv nx ps (n_tid n')) :: Lr' ++ F)) ->
  wp (uecho_object_updatepropertymaps room le snet junk a) L Q.
Proof.
  intros nd pv nx ps v1 a o v2 o' ann Lr n n' posts L F Q SV RA P PF EV SK EM H.
  destruct (rl_obj _ _ _ _ _ _ _ RA) as (p0 & n0 & Lo & RR & OA & PR & BK0).
  destruct (obj_open _ _ _ _ _ OA) as (c & Lp & R & PO & PL & OR & EP0 & <-).
  assert (PP : Permutation L ((nd, nblk pv nx ps (n_tid n)) :: (Lp ++ (a, BObj c) :: R) ++ RR ++ F)).
  { eapply perm_trans; [exact P|]. apply perm_skip. rewrite app_assoc. apply Permutation_app_tail.
    eapply perm_trans; [exact PR|]. apply Permutation_app_tail. exact PO. }
  eapply wp_perm; [exact PP|]. clear P PO PP PR L.
  unfold uecho_object_updatepropertymaps. rewrite <- app_assoc. cbn [app].
  eapply (wp_pos _ _ _ _ a); [right; apply in_or_app; right; left; reflexivity|]. intro PA. rewrite (pos_nz a) by exact PA. apply wp_bind.
  assert (EN : j_getn c = Z.of_nat (o_getsz o)) by (destruct OR as (? & ? & ? & ? & ? & ? & ? & ? & ? & ?); assumption).
  set (nb := (nd, nblk pv nx ps (n_tid n))) in *.
  eapply (wp_clearcaches a c o R _ (Lp ++ nb :: RR ++ F)); [exact OR|perm|]. intros K OK. set (c0 := j_bare c) in *.
  apply wp_assoc. apply wp_bind.
  unfold uecho_object_getproperties. rewrite (pos_nz a) by assumption. apply wp_assoc'.
  apply wp_bind. eapply wp_load_obj; [left; reflexivity|].
  eapply (wp_cache_loop room Room junk a (o_getsz o) (j_props c0) (o_props o) Lp a c0 c0 []); [exact PL| |lia| |].
  { exists 0, 0, 0, [], [], []. split; [reflexivity|]. split; [split; [cbn [length rcodes filter map]; rewrite Nat.add_0_r; exact EN|split; reflexivity]|].
    split; [split; [reflexivity|split; reflexivity]|]. split; [split; [reflexivity|split; reflexivity]|]. reflexivity. }
  { instantiate (1 := K ++ nb :: RR ++ F). cbn [app]. perm. }
  intros c' Lc (gb & sb & ab & Lg & Ls & La & -> & CG & CS & CA & EC).
  unfold M_Object.uecho_object_updatepropertymaps, M_Object.uecho_object_clearpropertymapcaches in EV.
  set (o1 := o_with_getsz (o_getsz o + length (filter uecho_property_isreadable (o_props o))) o) in *.
  apply bind_ok in EV. destruct EV as ([o2 a1] & E1 & EV). apply bind_ok in EV. destruct EV as ([o3 a2] & E2 & EV).
  apply bind_ok in EV. destruct EV as ([o4 a3] & E3 & EV). injection EV as -> <-.
  apply emit_app in EM. destruct EM as (n1 & q1 & qx & M1 & EM & ->). apply emit_app in EM. destruct EM as (n2 & q2 & q3 & M2 & M3 & ->).
  assert (FB : (o_getsz o = 0%nat \/ rcodes (o_props o) <> []) /\ get_cache junk (o_getsz o) (o_props o) = Some (map junk (seq 0 (o_getsz o)) ++ rcodes (o_props o))).
  { unfold get_cache in *. fold (rcodes (o_props o)) in *. destruct (rcodes (o_props o)) as [|x l]; [|split; [right; discriminate|reflexivity]].
    destruct (o_getsz o); [|discriminate E1]. split; [left; reflexivity|reflexivity]. }
  destruct FB as [FB EG]. rewrite EG in E1.
  set (GG := (a, BObj c') :: (K ++ La ++ Ls ++ Lg) ++ RR).
  assert (IG : incl Lg GG) by (unfold GG; intros x X; right; apply in_or_app; left; apply in_or_app; right; apply in_or_app; right; apply in_or_app; right; exact X).
  assert (IS : incl Ls GG) by (unfold GG; intros x X; right; apply in_or_app; left; apply in_or_app; right; apply in_or_app; right; apply in_or_app; left; exact X).
  assert (IA : incl La GG) by (unfold GG; intros x X; right; apply in_or_app; left; apply in_or_app; right; apply in_or_app; left; exact X).
  destruct (cachev_codes room Room junk _ _ _ _ _ GG CG FB IG) as [I1 N1].
  destruct (cachev_codes room Room junk _ _ _ _ _ GG CS (or_introl eq_refl) IS) as [I2 N2].
  destruct (cachev_codes room Room junk _ _ _ _ _ GG CA (or_introl eq_refl) IA) as [I3 N3].
  cbn [seq map app] in I2, N2, I3, N3.
  assert (B1 : len (map junk (seq 0 (o_getsz o)) ++ rcodes (o_props o)) + 1 < SIZE_MOD).
  { rewrite len_app, len_map. unfold len. rewrite seq_length. pose proof (codes_len uecho_property_isreadable (o_props o)). unfold rcodes. lia. }
  assert (B2 : len (wcodes (o_props o)) + 1 < SIZE_MOD) by (unfold len, wcodes; pose proof (codes_len uecho_property_iswritable (o_props o)); lia).
  assert (B3 : len (acodes (o_props o)) + 1 < SIZE_MOD) by (unfold len, acodes; pose proof (codes_len uecho_property_isannounceable (o_props o)); lia).
  assert (J1 : j_get c' = gb) by (rewrite EC; reflexivity).
  assert (J2 : j_set c' = sb) by (rewrite EC; reflexivity).
  assert (J3 : j_anno c' = ab) by (rewrite EC; reflexivity).
  assert (JP : j_props c' = j_props c) by (rewrite EC; reflexivity).
  assert (PL1 : plist a (j_props c') (o_props o1) Lp) by (rewrite JP; exact PL).
  assert (EP : j_prev c' = j_prev c /\ j_next c' = j_next c /\ j_node c' = j_node c) by (rewrite EC; split; [|split]; reflexivity).
  assert (BK : rest_of nd (node_objects ps) v1 a o1 v2 (j_props c') GG).
  { intros ps' Lr' PL'. eapply rl_at_perm; [apply (BK0 (o_with_props ps' o1) (Lr' ++ (a, BObj c') :: K ++ La ++ Ls ++ Lg))|unfold GG; perm].
    destruct EP as (X1 & X2 & X3). rewrite <- EP0, <- X1, <- X2, <- X3.
    apply obj_close; [exact PL'|]. exists K, La, Ls, Lg. split; [apply Permutation_refl|].
    split; [rewrite EC; exact OK|]. rewrite J1, J2, J3. split; [eapply cachev_rep; exact CA|]. split; [eapply cachev_rep; exact CS|].
    split; [eapply cachev_rep; exact CG|]. cbn [o_with_props o_getsz]. unfold o1. cbn [o_with_getsz o_getsz].
    destruct CG as [CG _]. rewrite CG. unfold rcodes. rewrite map_length. reflexivity. }
  assert (PF1 : forall m, profiled (n_objs m) = profiled (n_objs n) -> profiled (n_objs m) = profiled (v1 ++ o1 :: v2)).
  { intros m X. rewrite X, PF. apply profiled_mid. reflexivity. }
  assert (IGG : In (a, BObj c') GG) by (left; reflexivity).
  eapply (wp_perm _ _ _ (nb :: (Lp ++ GG) ++ F)); [unfold GG; perm|].
  assert (LI : forall x Lq, In (a, BObj c') (x :: (Lq ++ GG) ++ F)) by (intros x Lq; right; apply in_or_app; left; apply in_or_app; right; exact IGG).
  apply wp_bind. eapply wp_load_obj; [apply LI|].
  apply wp_bind. rewrite N1, J1. unfold nb.
  eapply (wp_nsetmap nd pv nx ps v1 a o1 v2 c' EPC_GetMap _ gb o1 o2 a1 Lp GG n n1 q1 _ F);
    [exact SV|exact PL1|exact BK|exact IGG|apply Permutation_refl|apply PF1; reflexivity|exact E1|exact M1|exact I1|exact B1|].
  intros Lp2 PL2 EO2. apply wp_bind. eapply wp_load_obj; [apply LI|].
  apply wp_bind. rewrite N2, J2.
  eapply (wp_nsetmap nd pv nx ps v1 a o1 v2 c' EPC_SetMap _ sb o2 o3 a2 Lp2 GG n1 n2 q2 _ F);
    [exact SV|exact PL2|exact BK|exact IGG|apply Permutation_refl|apply PF1; rewrite (emit_objs le snet _ _ _ _ _ M1); reflexivity|exact E2|exact M2|exact I2|exact B2|].
  intros Lp3 PL3 EO3. apply wp_bind. eapply wp_load_obj; [apply LI|].
  apply wp_bind. rewrite N3, J3.
  eapply (wp_nsetmap nd pv nx ps v1 a o1 v2 c' EPC_AnnoMap _ ab o3 o' a3 Lp3 GG n2 n' q3 _ F);
    [exact SV|exact PL3|exact BK|exact IGG|apply Permutation_refl|apply PF1; rewrite (emit_objs le snet _ _ _ _ _ M2), (emit_objs le snet _ _ _ _ _ M1); reflexivity|exact E3|exact M3|exact I3|exact B3|].
  intros Lp4 PL4 EO4. apply wp_ret. cbn [snd]. apply H.
  assert (EO : o' = o_with_props (o_props o') o1) by (rewrite EO4 at 1; rewrite EO3; rewrite EO2; reflexivity).
  rewrite EO. apply BK. exact PL4.
Qed.

Lemma wp_nsetproperty : forall nd pv nx ps v1 a o v2 code at_ o' ann Lr n n' posts L F (Q : _ -> heaplet -> Prop),
  (node_server ps =? 0) = false -> rl_at (nbody nd) (node_objects ps) v1 a o v2 Lr ->
  Permutation L ((nd, nblk pv nx ps (n_tid n)) :: Lr ++ F) -> profiled (n_objs n) = profiled (v1 ++ o :: v2) ->
  M_Object.uecho_object_setproperty junk o code at_ = Ok (o', ann) -> Z.of_nat (o_getsz o + length (o_props o)) + 2 < SIZE_MOD ->
  node_emit le snet n (M_Object.uecho_object_getcode o) ann = Ok (n', posts) ->
  (forall Lr', rl_at (nbody nd) (node_objects ps) v1 a o' v2 Lr' -> Q (true, posts) ((nd, nblk pv nx ps (n_tid n')) :: Lr' ++ F)) ->
  wp (uecho_object_setproperty room le snet junk a code at_) L Q.
Proof.
  intros nd pv nx ps v1 a o v2 code at_ o' ann Lr n n' posts L F Q SV RA P PF E SK EM H.
  destruct (rl_props _ _ _ _ _ _ _ RA) as (c & Lp & R & PL & IC & PR & BK).
  eapply wp_perm; [eapply perm_trans; [exact P|apply perm_skip, Permutation_app_tail; exact PL]|]. clear L P.
  assert (IC' : forall x Lq, In (a, BObj c) (x :: (Lq ++ R) ++ F)) by (intros x Lq; right; apply in_or_app; left; apply in_or_app; right; exact IC).
  unfold uecho_object_setproperty. eapply (wp_pos _ _ _ _ a); [apply IC'|]. intro PA. rewrite (pos_nz a) by exact PA.
  apply wp_bind. eapply wp_load_obj; [apply IC'|].
  unfold M_Object.uecho_object_setproperty in E. pose proof (find_set (o_props o) code at_ []) as FS.
  pose proof (set_len (o_props o) code at_ []) as LS.
  destruct (M_PropertyList.uecho_propertylist_set (o_props o) code at_ []) as [l an] eqn:ES. cbn [fst] in *.
  apply bind_ok in E. destruct E as ([o2 an2] & E & E'). injection E' as <- <-.
  apply emit_app in EM. destruct EM as (n1 & q1 & q2 & M1 & M2 & ->).
  apply wp_bind. change 0 with (len (@nil Z)) at 2.
  eapply (wp_npl_set nd pv nx ps v1 a o v2 (j_props c) (o_props o) code at_ 0 [] Lp R n n1 q1 _ F);
    [exact SV|exact PR|exact BK|apply Permutation_refl|reflexivity|intro X; congruence|exact PF|rewrite ES; exact M1|].
  rewrite ES. cbn [fst]. intros Lp1 PR1. cbn [negb fst snd]. apply wp_bind.
  unfold M_ObjMem.uecho_object_getproperty. rewrite (pos_nz a) by exact PA. apply wp_bind. eapply wp_load_obj; [apply IC'|].
  eapply (wp_findbycode a (j_props c) l code Lp1 _ ((nd, nblk pv nx ps (n_tid n1)) :: R ++ F)); [exact PR1|perm| |].
  { intro OT. exfalso. apply FS. apply find_others. exact OT. }
  intros w1 x p w2 EP OT EB PX AT. rewrite (pos_nz x) by exact PX.
  apply wp_bind. eapply (wp_pl_parent a (j_props c) w1 x p w2 Lp1 _ ((nd, nblk pv nx ps (n_tid n1)) :: R ++ F)); [exact AT|perm|exact PA|].
  intros Lp2 AT2. cbn [negb]. apply rl_at_list in AT2.
  assert (EL : update_first code (M_Property.uecho_property_setparentobject true) l = w1 ++ M_Property.uecho_property_setparentobject true p :: w2).
  { rewrite EP. apply upd_split; assumption. }
  assert (EU := upd_len code (M_Property.uecho_property_setparentobject true) l). rewrite EL in E, EU.
  apply wp_bind. eapply (wp_nupdatemaps nd pv nx ps v1 a _ v2 _ an2 (Lp2 ++ R) n1 n' q2 _ F); [exact SV|apply BK; exact AT2|perm| |exact E| |exact M2|].
  - rewrite (emit_objs le snet _ _ _ _ _ M1), PF. apply profiled_mid. reflexivity.
  - cbn [o_with_props o_props o_getsz]. rewrite EU. lia.
  - intros Lr' RA'. apply wp_ret. cbn [fst snd]. apply H. exact RA'.
Qed.
End Room.
