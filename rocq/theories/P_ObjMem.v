(* Objects in the heap. *)
From Coq Require Import String ZArith List Bool Lia Permutation.
From Verif Require Import CSem P_Base M_Const M_Misc M_Property M_PropertyList P_PropertyList M_Object M_Mem M_MemUse M_ObjMem
  P_Mem P_MemProp P_MemCopy P_MemRun P_MemPkt P_Ring P_ObjProp P_ObjCache.
Import ListNotations.
Open Scope Z_scope.

Lemma wp_assoc : forall A B C (m : mm A) (f : A -> mm B) (g : B -> mm C) L Q,
  wp (mbind (mbind m f) g) L Q -> wp (mbind m (fun a => mbind (f a) g)) L Q.
Proof.
  intros A B C m f g L Q H h J. destruct (H h J) as (c & h' & L' & E & R). exists c, h', L'. split; [|exact R].
  rewrite <- E. unfold mbind. destruct (m h) as [[a h1]|]; reflexivity.
Qed.

Lemma wp_assoc' : forall A B C (m : mm A) (f : A -> mm B) (g : B -> mm C) L Q,
  wp (mbind m (fun a => mbind (f a) g)) L Q -> wp (mbind (mbind m f) g) L Q.
Proof.
  intros A B C m f g L Q H h J. destruct (H h J) as (c & h' & L' & E & R). exists c, h', L'. split; [|exact R].
  rewrite <- E. unfold mbind. destruct (m h) as [[a h1]|]; reflexivity.
Qed.

Definition cache_rep (b : Z) (L : heaplet) : Prop := (b = 0 /\ L = []) \/ exists l, L = [(b, BBytes l)].
Definition obsbody (a : Z) (k : blk) (w : observer) (Lx : heaplet) : Prop :=
  exists pv nx, k = BObs (mkCobs pv nx (ob_esv w) (ob_code w) (ob_handler w)) /\ Lx = [].

(* the name and the observers of the object whose block is [c] *)
Definition okeep (c : cobj) (o : obj) (K : heaplet) : Prop :=
  exists on Lnm ol Lol, Permutation K (Lnm ++ (j_mgr c, BMgr ol) :: Lol) /\ str_rep (j_name c) on Lnm /\ rlist obsbody ol (o_obs o) Lol
    /\ j_grp c = o_grp o /\ j_cls c = o_cls o /\ j_ins c = o_ins o /\ j_listener c = o_listener o /\ o_attached o = negb (j_node c =? 0).
(* everything but the properties *)
Definition orest (c : cobj) (o : obj) (R : heaplet) : Prop :=
  exists K La Ls Lg, Permutation R (K ++ La ++ Ls ++ Lg) /\ okeep c o K /\ cache_rep (j_anno c) La /\ cache_rep (j_set c) Ls
    /\ cache_rep (j_get c) Lg /\ j_getn c = Z.of_nat (o_getsz o).
Definition odesc (a : Z) (c : cobj) (o : obj) (Lx : heaplet) : Prop :=
  exists Lp R, Permutation Lx (Lp ++ R) /\ plist a (j_props c) (o_props o) Lp /\ orest c o R.
(* an object in a list; its parent node is [nd] *)
Definition nbody (nd a : Z) (k : blk) (o : obj) (Lx : heaplet) : Prop := exists c, k = BObj c /\ j_node c = nd /\ odesc a c o Lx.
Definition obody := nbody 0.
(* the object at [a], with its links and its parent node: [pv] is the element before it and the node *)
Definition obj_at (pv : Z * Z) (nx a : Z) (o : obj) (L : heaplet) : Prop :=
  exists c Lx, Permutation L ((a, BObj c) :: Lx) /\ (j_prev c, j_node c) = pv /\ j_next c = nx /\ odesc a c o Lx.

Lemma obj_at_perm : forall pv nx a o L L', obj_at pv nx a o L -> Permutation L L' -> obj_at pv nx a o L'.
Proof.
  intros pv nx a o L L' (c & Lx & P & R) Q. exists c, Lx. split; [eapply perm_trans; [apply Permutation_sym; exact Q|exact P]|exact R].
Qed.
Lemma obj_open : forall pv nx a o L, obj_at pv nx a o L -> exists c Lp R, Permutation L (Lp ++ (a, BObj c) :: R)
  /\ plist a (j_props c) (o_props o) Lp /\ orest c o R /\ (j_prev c, j_node c) = pv /\ j_next c = nx.
Proof.
  intros pv nx a o L (c & Lx & P & E1 & E2 & Lp & R & PX & PL & OR). exists c, Lp, R. split; [|auto].
  eapply perm_trans; [exact P|]. eapply perm_trans; [apply perm_skip; exact PX|]. perm.
Qed.
Lemma obj_close : forall a c o Lp R, plist a (j_props c) (o_props o) Lp -> orest c o R ->
  obj_at (j_prev c, j_node c) (j_next c) a o (Lp ++ (a, BObj c) :: R).
Proof.
  intros a c o Lp R PL OR. exists c, (Lp ++ R). split; [perm|]. split; [reflexivity|]. split; [reflexivity|].
  exists Lp, R. split; [apply Permutation_refl|]. split; assumption.
Qed.
Lemma orest_props : forall c o l R, orest c o R -> orest c (o_with_props l o) R.
Proof. intros c o l R H. exact H. Qed.
Lemma orest_perm : forall c o R R', orest c o R -> Permutation R R' -> orest c o R'.
Proof.
  intros c o R R' (K & La & Ls & Lg & P & H) Q. exists K, La, Ls, Lg. split; [eapply perm_trans; [apply Permutation_sym; exact Q|exact P]|exact H].
Qed.
Lemma obj_at_in : forall pv nx a o L, obj_at pv nx a o L -> exists c, In (a, BObj c) L.
Proof. intros pv nx a o L (c & Lx & P & _). exists c. eapply Permutation_in; [apply Permutation_sym; exact P|left; reflexivity]. Qed.
Lemma odesc_links : forall a c o p n Lx, odesc a c o Lx ->
  odesc a (mkCobj p n (j_name c) (j_grp c) (j_cls c) (j_ins c) (j_props c) (j_annon c) (j_anno c) (j_setn c) (j_set c) (j_getn c) (j_get c)
            (j_listener c) (j_mgr c) (j_node c)) o Lx.
Proof. intros a c o p n Lx H. exact H. Qed.
Lemma nbody_at : forall nd a k o Lx p n, nbody nd a k o Lx -> obj_at (p, nd) n a o ((a, set_links p n k) :: Lx).
Proof.
  intros nd a k o Lx p n (c & -> & <- & D). eexists. exists Lx. split; [apply Permutation_refl|]. split; [reflexivity|]. split; [reflexivity|].
  apply odesc_links. exact D.
Qed.
Lemma nbody_flag : forall nd a k o Lx, nbody nd a k o Lx -> flag k = Some false.
Proof. intros nd a k o Lx (c & -> & _). reflexivity. Qed.

(* without its caches *)
Definition j_bare (c : cobj) : cobj := j_with_get (j_getn c) 0 (j_with_set 0 0 (j_with_anno 0 0 c)).
Lemma wp_free_cache : forall b Lc L F (Q : unit -> heaplet -> Prop), cache_rep b Lc -> Permutation L (Lc ++ F) -> Q tt F ->
  wp (if b =? 0 then ret tt else mfree b) L Q.
Proof.
  intros b Lc L F Q [[-> ->]|[l ->]] P H; eapply wp_perm; try exact P; cbn [app].
  - apply wp_ret. exact H.
  - nz b. eapply wp_free; [apply pf_here|exact H].
Qed.
Lemma wp_free_caches : forall a c La Ls Lg L F (Q : unit -> heaplet -> Prop), cache_rep (j_anno c) La -> cache_rep (j_set c) Ls -> cache_rep (j_get c) Lg ->
  Permutation L ((a, BObj c) :: La ++ Ls ++ Lg ++ F) -> Q tt ((a, BObj (j_bare c)) :: F) -> wp (uecho_object_clearpropertymapcaches a) L Q.
Proof.
  intros a c La Ls Lg L F Q C1 C2 C3 PL H.
  eapply wp_perm; [exact PL|]. unfold uecho_object_clearpropertymapcaches. nz a.
  apply wp_bind. eapply wp_load_obj; [inl|].
  apply wp_bind. eapply (wp_free_cache _ La _ ((a, BObj c) :: Ls ++ Lg ++ F)); [exact C1|perm|].
  apply wp_bind. eapply wp_store; [apply pf_here|].
  apply wp_bind. eapply wp_load_obj; [inl|]. js.
  apply wp_bind. eapply (wp_free_cache _ Ls _ (_ :: Lg ++ F)); [exact C2|perm|].
  apply wp_bind. eapply wp_store; [apply pf_here|].
  apply wp_bind. eapply wp_load_obj; [inl|]. js.
  apply wp_bind. eapply (wp_free_cache _ Lg _ (_ :: F)); [exact C3|perm|].
  eapply wp_store; [apply pf_here|]. exact H.
Qed.
Lemma wp_clearcaches : forall a c o R L F (Q : unit -> heaplet -> Prop), orest c o R -> Permutation L ((a, BObj c) :: R ++ F) ->
  (forall K, okeep (j_bare c) o K -> Q tt ((a, BObj (j_bare c)) :: K ++ F)) ->
  wp (uecho_object_clearpropertymapcaches a) L Q.
Proof.
  intros a c o R L F Q (K & La & Ls & Lg & P & OK & C1 & C2 & C3 & EN) PL H.
  eapply (wp_free_caches a c La Ls Lg _ (K ++ F)); [exact C1|exact C2|exact C3| |apply H; exact OK].
  eapply perm_trans; [exact PL|]. apply perm_skip. eapply perm_trans; [apply Permutation_app_tail; exact P|]. perm.
Qed.

Lemma cachev_rep : forall junk k cs n b L, cachev junk k cs n b L -> cache_rep b L.
Proof. intros junk k [|x cs] n b L [_ H]; [left; exact H|]. right. eexists. exact H. Qed.

Section Room.
Variable room : Z -> bool.
Hypothesis Room : forall n, room n = true.
Variable junk : nat -> Z.

(* a cache of codes that are initialised *)
Lemma cachev_codes : forall k cs n b L F, cachev junk k cs n b L -> (k = 0%nat \/ cs <> []) -> incl L F ->
  (map junk (seq 0 k) ++ cs <> [] -> In (b, BBytes (map Some (map junk (seq 0 k) ++ cs))) F) /\ n = len (map junk (seq 0 k) ++ cs).
Proof.
  intros k cs n b L F [En E] [->|NE] I.
  - cbn [seq map app]. split; [|exact En]. intro NE. destruct cs; [congruence|]. subst L. apply I. left. reflexivity.
  - split; [|rewrite len_app, len_map; unfold len; rewrite seq_length; lia]. intros _. destruct cs; [congruence|]. subst L. apply I. left. reflexivity.
Qed.

Lemma wp_updatemaps : forall pv nx a o o' ann Lo L F (Q : bool -> heaplet -> Prop), obj_at pv nx a o Lo -> Permutation L (Lo ++ F) ->
  M_Object.uecho_object_updatepropertymaps junk o = Ok (o', ann) -> Z.of_nat (o_getsz o + length (o_props o)) + 1 < SIZE_MOD ->
  (forall Lo', obj_at pv nx a o' Lo' -> Q true (Lo' ++ F)) -> wp (uecho_object_updatepropertymaps room junk a) L Q.
Proof.
  intros pv nx a o o' ann Lo L F Q OA P EV SK H.
  destruct (obj_open _ _ _ _ _ OA) as (c & Lp & R & PO & PL & OR & <- & <-).
  eapply wp_perm; [eapply perm_trans; [exact P|apply Permutation_app_tail; exact PO]|]. clear P PO.
  unfold uecho_object_updatepropertymaps. rewrite <- app_assoc. cbn [app]. nz a. apply wp_bind.
  assert (EN : j_getn c = Z.of_nat (o_getsz o)) by (destruct OR as (? & ? & ? & ? & ? & ? & ? & ? & ? & ?); assumption).
  eapply (wp_clearcaches a c o R _ (Lp ++ F)); [exact OR|perm|]. intros K OK. set (c0 := j_bare c) in *.
  apply wp_assoc. apply wp_bind.
  unfold uecho_object_getproperties. rewrite (pos_nz a) by assumption. apply wp_assoc'.
  apply wp_bind. eapply wp_load_obj; [left; reflexivity|].
  eapply (wp_cache_loop room Room junk a (o_getsz o) (j_props c0) (o_props o) Lp a c0 c0 []); [exact PL| |lia| |].
  { exists 0, 0, 0, [], [], []. split; [reflexivity|]. split; [split; [cbn [length rcodes filter map]; rewrite Nat.add_0_r; exact EN|split; reflexivity]|].
    split; [split; [reflexivity|split; reflexivity]|]. split; [split; [reflexivity|split; reflexivity]|]. reflexivity. }
  { instantiate (1 := K ++ F). cbn [app]. perm. }
  intros c' Lc (gb & sb & ab & Lg & Ls & La & -> & CG & CS & CA & EC).
  unfold M_Object.uecho_object_updatepropertymaps, M_Object.uecho_object_clearpropertymapcaches in EV.
  set (o1 := o_with_getsz (o_getsz o + length (filter uecho_property_isreadable (o_props o))) o) in *.
  apply bind_ok in EV. destruct EV as ([o2 a1] & E1 & EV). apply bind_ok in EV. destruct EV as ([o3 a2] & E2 & EV).
  apply bind_ok in EV. destruct EV as ([o4 a3] & E3 & EV). injection EV as -> _.
  assert (FB : (o_getsz o = 0%nat \/ rcodes (o_props o) <> []) /\ get_cache junk (o_getsz o) (o_props o) = Some (map junk (seq 0 (o_getsz o)) ++ rcodes (o_props o))).
  { unfold get_cache in *. fold (rcodes (o_props o)) in *. destruct (rcodes (o_props o)) as [|x l]; [|split; [right; discriminate|reflexivity]].
    destruct (o_getsz o); [|discriminate E1]. split; [left; reflexivity|reflexivity]. }
  destruct FB as [FB EG]. rewrite EG in E1.
  set (FF := (Lg ++ Ls ++ La) ++ K ++ F).
  assert (IG : incl Lg FF) by (unfold FF; intros x X; apply in_or_app; left; apply in_or_app; left; exact X).
  assert (IS : incl Ls FF) by (unfold FF; intros x X; apply in_or_app; left; apply in_or_app; right; apply in_or_app; left; exact X).
  assert (IA : incl La FF) by (unfold FF; intros x X; apply in_or_app; left; apply in_or_app; right; apply in_or_app; right; exact X).
  destruct (cachev_codes _ _ _ _ _ FF CG FB IG) as [I1 N1].
  destruct (cachev_codes _ _ _ _ _ FF CS (or_introl eq_refl) IS) as [I2 N2].
  destruct (cachev_codes _ _ _ _ _ FF CA (or_introl eq_refl) IA) as [I3 N3].
  cbn [seq map app] in I2, N2, I3, N3.
  assert (B1 : len (map junk (seq 0 (o_getsz o)) ++ rcodes (o_props o)) + 1 < SIZE_MOD).
  { rewrite len_app, len_map. unfold len. rewrite seq_length. pose proof (codes_len uecho_property_isreadable (o_props o)). unfold rcodes. lia. }
  assert (B2 : len (wcodes (o_props o)) + 1 < SIZE_MOD) by (unfold len, wcodes; pose proof (codes_len uecho_property_iswritable (o_props o)); lia).
  assert (B3 : len (acodes (o_props o)) + 1 < SIZE_MOD) by (unfold len, acodes; pose proof (codes_len uecho_property_isannounceable (o_props o)); lia).
  assert (J1 : j_get c' = gb) by (rewrite EC; reflexivity).
  assert (J2 : j_set c' = sb) by (rewrite EC; reflexivity).
  assert (J3 : j_anno c' = ab) by (rewrite EC; reflexivity).
  assert (JP : j_props c' = j_props c) by (rewrite EC; reflexivity).
  assert (PL1 : plist a (j_props c') (o_props o1) Lp) by (rewrite JP; exact PL).
  fold FF. apply wp_bind. eapply wp_load_obj; [inl|].
  apply wp_bind. rewrite N1, J1.
  eapply (wp_setpropertymap room Room a c' (o_props o1) EPC_GetMap _ gb o1 o2 a1 Lp _ FF); [exact E1|reflexivity|exact PL1|apply Permutation_refl|exact I1|exact B1|].
  intros Lp2 PL2 EO2. apply wp_bind. eapply wp_load_obj; [inl|].
  apply wp_bind. rewrite N2, J2.
  eapply (wp_setpropertymap room Room a c' (o_props o2) EPC_SetMap _ sb o2 o3 a2 Lp2 _ FF); [exact E2|reflexivity|exact PL2|apply Permutation_refl|exact I2|exact B2|].
  intros Lp3 PL3 EO3. apply wp_bind. eapply wp_load_obj; [inl|].
  apply wp_bind. rewrite N3, J3.
  eapply (wp_setpropertymap room Room a c' (o_props o3) EPC_AnnoMap _ ab o3 o' a3 Lp3 _ FF); [exact E3|reflexivity|exact PL3|apply Permutation_refl|exact I3|exact B3|].
  intros Lp4 PL4 EO4. apply wp_post, wp_ret.
  exists ((Lp4 ++ (a, BObj c') :: (K ++ La ++ Ls ++ Lg)) ++ F). split; [unfold FF; perm|]. apply H.
  assert (EP : j_prev c' = j_prev c /\ j_next c' = j_next c /\ j_node c' = j_node c) by (rewrite EC; split; [|split]; reflexivity). destruct EP as (<- & <- & <-).
  apply obj_close; [exact PL4|]. exists K, La, Ls, Lg. split; [apply Permutation_refl|].
  assert (EO : o' = o_with_props (o_props o') o1) by (rewrite EO4 at 1; rewrite EO3; rewrite EO2; reflexivity).
  split; [rewrite EO, EC; exact OK|]. rewrite J1, J2, J3. split; [eapply cachev_rep; exact CA|]. split; [eapply cachev_rep; exact CS|].
  split; [eapply cachev_rep; exact CG|]. rewrite EO. cbn [o_with_props o_getsz]. unfold o1. cbn [o_with_getsz o_getsz].
  destruct CG as [CG _]. rewrite CG. unfold rcodes. rewrite map_length. reflexivity.
Qed.
End Room.
