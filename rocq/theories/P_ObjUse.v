(* What the functions of objects do to an object in the heap. *)
From Coq Require Import String ZArith List Bool Lia Permutation.
From Verif Require Import CSem P_Base M_Const M_Misc M_Property M_PropertyList P_PropertyList M_Object M_Mem M_MemUse M_ObjMem
  P_Mem P_MemProp P_MemCopy P_MemRun P_MemPkt P_Ring P_ObjProp P_ObjCache P_ObjMem.
Import ListNotations.
Open Scope Z_scope.

Lemma there_at : forall a c F, In (a, BObj c) F -> there a F.
Proof. intros a c F I. exists c. exact I. Qed.

(* a function of the property list *)
Lemma wp_on_props : forall X (f : Z -> mm X) ps' r pv nx a o Lo L F (Q : X -> heaplet -> Prop),
  obj_at pv nx a o Lo -> Permutation L (Lo ++ F) ->
  (forall h Lp L' F' (Q' : X -> heaplet -> Prop), plist a h (o_props o) Lp -> Permutation L' (Lp ++ F') -> there a F' -> incl F F' ->
     (forall Lp', plist a h ps' Lp' -> Q' r (Lp' ++ F')) -> wp (f h) L' Q') ->
  (forall Lo', obj_at pv nx a (o_with_props ps' o) Lo' -> Q r (Lo' ++ F)) ->
  wp (let! c := load_obj a in f (j_props c)) L Q.
Proof.
  intros X f ps' r pv nx a o Lo L F Q OA P HF H. destruct (obj_open _ _ _ _ _ OA) as (c & Lp & R & PO & PL & OR & <- & <-).
  eapply wp_perm; [eapply perm_trans; [exact P|apply Permutation_app_tail; exact PO]|]. rewrite <- app_assoc. cbn [app].
  apply wp_bind. eapply wp_load_obj; [inl|]. apply wp_post. eapply (HF (j_props c) Lp _ ((a, BObj c) :: R ++ F)); [exact PL|apply Permutation_refl| | |].
  - exists c. left. reflexivity.
  - intros x I. right. apply in_or_app. right. exact I.
  - intros Lp' PL'. exists ((Lp' ++ (a, BObj c) :: R) ++ F). split; [perm|]. apply H. apply obj_close; [exact PL'|exact OR].
Qed.
Lemma given_incl : forall data d F F', given_at data d F -> incl F F' -> given_at data d F'.
Proof. intros data d F F' G I N. destruct (G N) as (c & J & E). exists c. split; [apply I; exact J|exact E]. Qed.

Lemma find_set : forall l c a d, M_PropertyList.uecho_propertylist_findbycode (fst (M_PropertyList.uecho_propertylist_set l c a d)) c <> None.
Proof.
  intros l c a d. rewrite pl_set_eq. cbn [fst]. rewrite put_find.
  - rewrite Z.eqb_refl. discriminate.
  - intros p E. unfold M_Property.uecho_property_setattribute, put_data. destruct d; exact E.
Qed.

Section Room.
Variable room : Z -> bool.
Hypothesis Room : forall n, room n = true.
Variable junk : nat -> Z.

Ltac pos_obj a OA P := let c := fresh "c" in let I := fresh "I" in
  destruct (obj_at_in _ _ _ _ _ OA) as [c I];
  eapply (wp_pos _ _ _ _ a); [eapply Permutation_in; [apply Permutation_sym; exact P|apply in_or_app; left; exact I]|intro]; rewrite (pos_nz a) by assumption; clear c I.

Lemma wp_obj_setdata : forall pv nx a o code data d Lo L F (Q : bool -> heaplet -> Prop), obj_at pv nx a o Lo -> Permutation L (Lo ++ F) ->
  len d < SIZE_MOD -> given_at data d F ->
  (forall Lo', obj_at pv nx a (fst (M_Object.uecho_object_setpropertydata o code d)) Lo' -> Q true (Lo' ++ F)) ->
  wp (uecho_object_setpropertydata room a code data (len d)) L Q.
Proof.
  intros pv nx a o code data d Lo L F Q OA P SD G H. unfold uecho_object_setpropertydata. pos_obj a OA P.
  unfold M_Object.uecho_object_setpropertydata in H. rewrite (surjective_pairing (M_PropertyList.uecho_propertylist_setdata _ _ _)) in H.
  eapply (wp_on_props _ (fun h => uecho_propertylist_setdata room h code data (len d))); [exact OA|exact P| |exact H].
  intros h Lp L' F' Q' PL P' T I H'. eapply (wp_pl_setdata room Room a); [exact PL|exact P'|exact T|exact SD|eapply given_incl; [exact G|exact I]|exact H'].
Qed.
Lemma wp_obj_setbyte : forall pv nx a o code b Lo L F (Q : bool -> heaplet -> Prop), obj_at pv nx a o Lo -> Permutation L (Lo ++ F) ->
  (forall Lo', obj_at pv nx a (fst (M_Object.uecho_object_setpropertybytedata o code b)) Lo' -> Q true (Lo' ++ F)) ->
  wp (uecho_object_setpropertybytedata room a code b) L Q.
Proof.
  intros pv nx a o code b Lo L F Q OA P H. unfold uecho_object_setpropertybytedata. pos_obj a OA P.
  unfold M_Object.uecho_object_setpropertybytedata in H. rewrite (surjective_pairing (M_PropertyList.uecho_propertylist_setbytedata _ _ _)) in H.
  eapply (wp_on_props _ (fun h => uecho_propertylist_setbytedata room h code b)); [exact OA|exact P| |exact H].
  intros h Lp L' F' Q' PL P' T I H'. eapply (wp_pl_setbyte room Room a); [exact PL|exact P'|exact T|exact H'].
Qed.
Lemma wp_obj_setint : forall pv nx a o code v size o' ann Lo L F (Q : bool -> heaplet -> Prop), obj_at pv nx a o Lo -> Permutation L (Lo ++ F) ->
  M_Object.uecho_object_setpropertyintegerdata o code v size = Ok (o', ann) -> Z.of_nat size < SIZE_MOD ->
  (forall Lo', obj_at pv nx a o' Lo' -> Q true (Lo' ++ F)) ->
  wp (uecho_object_setpropertyintegerdata room a code v size) L Q.
Proof.
  intros pv nx a o code v size o' ann Lo L F Q OA P E SZ H. unfold uecho_object_setpropertyintegerdata. pos_obj a OA P.
  unfold M_Object.uecho_object_setpropertyintegerdata in E. apply bind_ok in E. destruct E as ([l an] & E & E'). injection E' as <- _.
  eapply (wp_on_props _ (fun h => uecho_propertylist_setintegerdata room h code v size)); [exact OA|exact P| |exact H].
  intros h Lp L' F' Q' PL P' T I H'. eapply (wp_pl_setint room Room a); [exact PL|exact P'|exact T|exact E|exact SZ|exact H'].
Qed.
Lemma wp_obj_setattr : forall pv nx a o code at_ Lo L F (Q : bool -> heaplet -> Prop), obj_at pv nx a o Lo -> Permutation L (Lo ++ F) ->
  (forall Lo', obj_at pv nx a (M_Object.uecho_object_setpropertyattribute o code at_) Lo' -> Q true (Lo' ++ F)) ->
  wp (uecho_object_setpropertyattribute room a code at_) L Q.
Proof.
  intros pv nx a o code at_ Lo L F Q OA P H. unfold uecho_object_setpropertyattribute. pos_obj a OA P.
  eapply (wp_on_props _ (fun h => uecho_propertylist_setattribute room h code at_)); [exact OA|exact P| |exact H].
  intros h Lp L' F' Q' PL P' T I H'. eapply (wp_pl_setattr room Room a); [exact PL|exact P'|exact H'].
Qed.
Lemma wp_obj_getsize : forall pv nx a o code Lo L F (Q : Z -> heaplet -> Prop), obj_at pv nx a o Lo -> Permutation L (Lo ++ F) ->
  (forall Lo', obj_at pv nx a (fst (M_Object.uecho_object_getpropertydatasize o code)) Lo' ->
     Q (snd (M_Object.uecho_object_getpropertydatasize o code)) (Lo' ++ F)) ->
  wp (uecho_object_getpropertydatasize room a code) L Q.
Proof.
  intros pv nx a o code Lo L F Q OA P H. unfold uecho_object_getpropertydatasize. pos_obj a OA P.
  unfold M_Object.uecho_object_getpropertydatasize in H. rewrite (surjective_pairing (M_PropertyList.uecho_propertylist_getdatasize _ _)) in H.
  eapply (wp_on_props _ (fun h => uecho_propertylist_getdatasize room h code)); [exact OA|exact P| |exact H].
  intros h Lp L' F' Q' PL P' T I H'. eapply (wp_pl_getsize room Room a); [exact PL|exact P'|exact H'].
Qed.

(* ---- a property found in the object ---- *)

Lemma wp_obj_find : forall pv nx a o code Lo L F (Q : Z -> heaplet -> Prop), obj_at pv nx a o Lo -> Permutation L (Lo ++ F) ->
  (others code (o_props o) -> Q 0 L) ->
  (forall h v1 x p v2 Lr G, o_props o = v1 ++ p :: v2 -> others code v1 -> (p_code p =? code) = true -> 0 < x ->
     pl_at a h v1 x p v2 Lr -> Permutation L (Lr ++ G ++ F) -> there a G -> 
     (forall ps' Lr', plist a h ps' Lr' -> obj_at pv nx a (o_with_props ps' o) (Lr' ++ G)) -> Q x L) ->
  wp (uecho_object_getproperty a code) L Q.
Proof.
  intros pv nx a o code Lo L F Q OA P H0 H1. unfold uecho_object_getproperty. pos_obj a OA P.
  destruct (obj_open _ _ _ _ _ OA) as (c & Lp & R & PO & PL & OR & <- & <-).
  assert (P' : Permutation L (Lp ++ ((a, BObj c) :: R) ++ F)).
  { eapply perm_trans; [exact P|]. eapply perm_trans; [apply Permutation_app_tail; exact PO|]. perm. }
  apply wp_bind. eapply wp_load_obj; [eapply Permutation_in; [apply Permutation_sym; exact P'|]; apply in_or_app; right; left; reflexivity|].
  eapply (wp_findbycode a (j_props c) (o_props o) code Lp _ (((a, BObj c) :: R) ++ F)); [exact PL|exact P'|exact H0|].
  intros v1 x p v2 E OT EB PX AT. eapply (H1 (j_props c) v1 x p v2 Lp ((a, BObj c) :: R)); [exact E|exact OT|exact EB|exact PX|exact AT|exact P'| |].
  - exists c. left. reflexivity.
  - intros ps' Lr' PL'. apply obj_close; [exact PL'|exact OR].
Qed.

Lemma wp_obj_setproperty : forall pv nx a o code at_ o' ann Lo L F (Q : bool -> heaplet -> Prop), obj_at pv nx a o Lo -> Permutation L (Lo ++ F) ->
  M_Object.uecho_object_setproperty junk o code at_ = Ok (o', ann) -> Z.of_nat (o_getsz o + length (o_props o)) + 2 < SIZE_MOD ->
  (forall Lo', obj_at pv nx a o' Lo' -> Q true (Lo' ++ F)) ->
  wp (uecho_object_setproperty room junk a code at_) L Q.
Proof.
  intros pv nx a o code at_ o' ann Lo L F Q OA P E SK H. unfold uecho_object_setproperty. pos_obj a OA P.
  unfold M_Object.uecho_object_setproperty in E. pose proof (find_set (o_props o) code at_ []) as FS.
  assert (LS : (length (fst (M_PropertyList.uecho_propertylist_set (o_props o) code at_ [])) <= S (length (o_props o)))%nat).
  { rewrite pl_set_eq. cbn [fst]. unfold put.
    assert (U : forall f l, length (update_first code f l) = length l) by (intros f l; induction l as [|q l IH]; [reflexivity|]; cbn [update_first]; destruct (p_code q =? code); cbn [length]; congruence).
    rewrite U. destruct (find (o_props o) code); [lia|]. rewrite app_length. cbn [length]. lia. }
  destruct (M_PropertyList.uecho_propertylist_set (o_props o) code at_ []) as [l an] eqn:ES. cbn [fst] in *.
  apply bind_ok in E. destruct E as ([o2 an2] & E & E'). injection E' as -> _.
  apply wp_assoc. apply wp_bind.
  eapply (wp_on_props _ (fun h => uecho_propertylist_set room h code at_ 0 0) l true); [exact OA|exact P| |].
  { intros h Lp L' F' Q' PL P' T I H'. change 0 with (len (@nil Z)) at 2.
    eapply (wp_pl_set room Room a); [exact PL|exact P'|exact T|reflexivity|intro X; congruence|]. rewrite ES. exact H'. }
  intros Lo1 OA1. cbn [negb]. apply wp_bind. eapply wp_obj_find; [exact OA1|apply Permutation_refl| |].
  { intro OT. exfalso. apply FS. apply find_others. exact OT. }
  cbn [o_with_props o_props]. intros h v1 x p v2 Lr G EP OT EB PX AT PG T CL. rewrite (pos_nz x) by exact PX.
  eapply wp_perm; [exact PG|]. apply wp_bind. eapply (wp_pl_parent a h v1 x p v2 Lr _ (G ++ F)); [exact AT|apply Permutation_refl|assumption|].
  intros Lr' AT'. cbn [negb]. apply rl_at_list in AT'. specialize (CL _ _ AT').
  assert (EL : update_first code (M_Property.uecho_property_setparentobject true) l = v1 ++ M_Property.uecho_property_setparentobject true p :: v2).
  { rewrite EP. apply upd_split; assumption. }
  rewrite EL in E.
  eapply (wp_updatemaps room Room junk pv nx a _ o' an2 (Lr' ++ G) _ F); [exact CL|perm|exact E| |exact H].
  cbn [o_with_props o_props o_getsz]. rewrite <- EL.
  assert (U : forall f l, length (update_first code f l) = length l) by (intros f l0; induction l0 as [|q l0 IH]; [reflexivity|]; cbn [update_first]; destruct (p_code q =? code); cbn [length]; congruence).
  rewrite U. lia.
Qed.

Lemma wp_obj_addproperty : forall pv nx a o x p Lx Lo L F (Q : bool -> heaplet -> Prop), obj_at pv nx a o Lo -> prop_rep x p Lx ->
  Permutation L (Lx ++ Lo ++ F) ->
  (forall Lo', obj_at pv nx a (M_Object.uecho_object_addproperty o p) Lo' -> Q true (Lo' ++ F)) ->
  wp (uecho_object_addproperty a x) L Q.
Proof.
  intros pv nx a o x p Lx Lo L F Q OA X P H. unfold uecho_object_addproperty.
  assert (P2 : Permutation L (Lo ++ Lx ++ F)) by (eapply perm_trans; [exact P|perm]).
  pos_obj a OA P2. eapply wp_perm; [exact P|]. clear L P P2.
  destruct X as (s & on & d & Ls & Ld & -> & Rs & Rd & Np & Sp). cbn [app]. nz x. cbn [orb].
  apply wp_bind. unfold uecho_property_setparentobject. rewrite (pos_nz x) by assumption.
  apply wp_bind. eapply wp_load_prop; [left; reflexivity|]. qs.
  apply wp_bind. eapply wp_store; [apply pf_here|]. apply wp_ret. cbn [negb].
  assert (PA : prop_at x x a x (M_Property.uecho_property_setparentobject true p)
     ((x, BProp (mkCprop x x s (p_code p) (p_attr p) d (len (p_data p)) a)) :: Ls ++ Ld)).
  { exists s, on, d, Ls, Ld. split; [reflexivity|]. split; [exact Rs|]. split; [exact Rd|]. split; [|exact Sp].
    rewrite (pos_nz a) by assumption. reflexivity. }
  destruct (obj_open _ _ _ _ _ OA) as (c & Lp & R & PO & PL & OR & <- & <-).
  set (Bx := (x, BProp (mkCprop x x s (p_code p) (p_attr p) d (len (p_data p)) a)) :: Ls ++ Ld) in *.
  eapply (wp_perm _ _ _ (Bx ++ Lp ++ (a, BObj c) :: R ++ F)).
  { unfold Bx. cbn [app]. apply perm_skip. rewrite <- !app_assoc. apply Permutation_app_head. apply Permutation_app_head.
    eapply perm_trans; [apply Permutation_app_tail; exact PO|]. perm. }
  apply wp_bind. eapply wp_load_obj; [clearbody Bx; inl|]. apply wp_post.
  eapply (wp_pl_add a (j_props c) (o_props o) x a _ Bx Lp _ ((a, BObj c) :: R ++ F)); [exact PL|exact PA|right; reflexivity|apply Permutation_refl|].
  intros v1 Lr' E AT _. exists ((Lr' ++ (a, BObj c) :: R) ++ F). split; [perm|]. apply H. apply obj_close; [|exact OR].
  unfold M_Object.uecho_object_addproperty. cbn [o_with_props o_props]. rewrite E. apply rl_at_list in AT. exact AT.
Qed.

(* functions of a property that uecho_object_getproperty returned *)
Lemma wp_obj_prop_setdata : forall pv nx a o code data d Lo L F (Q : bool -> heaplet -> Prop), obj_at pv nx a o Lo -> Permutation L (Lo ++ F) ->
  len d < SIZE_MOD -> given_at data d F ->
  (forall Lo' b, obj_at pv nx a (fst (M_Object.object_property_setdata o code d)) Lo' ->
     b = M_Object.uecho_object_hasproperty o code -> Q b (Lo' ++ F)) ->
  wp (let! p := uecho_object_getproperty a code in M_Mem.uecho_property_setdata room p data 0 (len d)) L Q.
Proof.
  intros pv nx a o code data d Lo L F Q OA P SD G H. eapply wp_perm; [exact P|]. clear L P. apply wp_bind.
  unfold M_Object.object_property_setdata, M_Object.uecho_object_hasproperty, M_Object.uecho_object_getproperty in H.
  eapply wp_obj_find; [exact OA|apply Permutation_refl| |].
  - intro OT. rewrite find_others in H by exact OT. unfold M_Mem.uecho_property_setdata. cbn [Z.eqb]. apply wp_ret. apply H; [exact OA|reflexivity].
  - intros h v1 x p v2 Lr GG EP OT EB PX AT PG T CL. rewrite EP, find_split in H by assumption.
    rewrite (surjective_pairing (M_Property.uecho_property_setdata d p)) in H. rewrite upd_split in H by assumption. rewrite setdata_fst in H. cbn [fst] in H.
    eapply wp_perm; [exact PG|]. apply wp_post. eapply (wp_pl_data room Room a h v1 x p v2 data d Lr _ (GG ++ F)); [exact AT|apply Permutation_refl| |exact SD| |].
    + destruct T as [c T]. exists c. apply in_or_app. left. exact T.
    + eapply given_incl; [exact G|]. intros y Y. apply in_or_app. right. exact Y.
    + intros Lr' AT'. exists ((Lr' ++ GG) ++ F). split; [perm|]. apply H; [|reflexivity]. apply CL. apply rl_at_list in AT'. exact AT'.
Qed.
Lemma wp_obj_prop_adddata : forall pv nx a o code data d Lo L F (Q : bool -> heaplet -> Prop), obj_at pv nx a o Lo -> Permutation L (Lo ++ F) ->
  (forall p, M_Object.uecho_object_getproperty o code = Some p -> len (p_data p) + len d < SIZE_MOD) -> given_at data d F ->
  (forall Lo' b, obj_at pv nx a (fst (M_Object.object_property_adddata o code d)) Lo' ->
     b = M_Object.uecho_object_hasproperty o code -> Q b (Lo' ++ F)) ->
  wp (let! p := uecho_object_getproperty a code in M_ObjMem.uecho_property_adddata room junk p data (len d)) L Q.
Proof.
  intros pv nx a o code data d Lo L F Q OA P SD G H. eapply wp_perm; [exact P|]. clear L P. apply wp_bind.
  unfold M_Object.object_property_adddata, M_Object.uecho_object_hasproperty, M_Object.uecho_object_getproperty in *.
  eapply wp_obj_find; [exact OA|apply Permutation_refl| |].
  - intro OT. rewrite find_others in H by exact OT. unfold M_ObjMem.uecho_property_adddata. cbn [Z.eqb]. apply wp_ret. apply H; [exact OA|reflexivity].
  - intros h v1 x p v2 Lr GG EP OT EB PX AT PG T CL. rewrite EP, find_split in * by assumption.
    rewrite (surjective_pairing (M_Property.uecho_property_adddata d p)) in H. rewrite upd_split in H by assumption. cbn [fst] in H.
    eapply wp_perm; [exact PG|]. apply wp_post.
    eapply (wp_pl_append room Room junk a h v1 x p v2 data d Lr _ (GG ++ F)); [exact AT|apply Permutation_refl| |apply SD; reflexivity| |].
    + destruct T as [c T]. exists c. apply in_or_app. left. exact T.
    + eapply given_incl; [exact G|]. intros y Y. apply in_or_app. right. exact Y.
    + intros Lr' AT'. exists ((Lr' ++ GG) ++ F). split; [perm|]. apply H; [|reflexivity]. apply CL. apply rl_at_list in AT'. exact AT'.
Qed.

(* ---- clearing, creating, deleting ---- *)

Lemma wp_obj_clear : forall pv nx a o Lo L F (Q : unit -> heaplet -> Prop), obj_at pv nx a o Lo -> Permutation L (Lo ++ F) ->
  (forall Lo', obj_at pv nx a (M_Object.uecho_object_clearproperties o) Lo' -> Q tt (Lo' ++ F)) ->
  wp (uecho_object_clearproperties a) L Q.
Proof.
  intros pv nx a o Lo L F Q OA P H. unfold uecho_object_clearproperties. pos_obj a OA P.
  destruct (obj_open _ _ _ _ _ OA) as (c & Lp & R & PO & PL & OR & <- & <-).
  eapply wp_perm; [eapply perm_trans; [exact P|apply Permutation_app_tail; exact PO]|]. rewrite <- app_assoc. cbn [app].
  apply wp_bind. eapply wp_load_obj; [inl|].
  apply wp_bind. eapply (wp_pl_clear a (j_props c) (o_props o) Lp _ ((a, BObj c) :: R ++ F)); [exact PL|apply Permutation_refl|].
  apply wp_post. eapply (wp_clearcaches a c o R _ ((j_props c, BHead (j_props c) (j_props c)) :: F)); [exact OR|perm|].
  intros K OK. exists (([(j_props c, BHead (j_props c) (j_props c))] ++ (a, BObj (j_bare c)) :: K) ++ F). split; [perm|]. apply H.
  change (obj_at (j_prev (j_bare c), j_node (j_bare c)) (j_next (j_bare c)) a (M_Object.uecho_object_clearproperties o)
    ([(j_props (j_bare c), BHead (j_props (j_bare c)) (j_props (j_bare c)))] ++ (a, BObj (j_bare c)) :: K)).
  apply obj_close; [apply rlist_new|]. exists K, [], [], []. split; [rewrite !app_nil_r; apply Permutation_refl|]. split; [exact OK|].
  split; [left; split; reflexivity|]. split; [left; split; reflexivity|]. split; [left; split; reflexivity|].
  destruct OR as (? & ? & ? & ? & ? & ? & ? & ? & ? & EN). exact EN.
Qed.

Lemma wp_obj_listener : forall pv nx a o b Lo L F (Q : unit -> heaplet -> Prop), obj_at pv nx a o Lo -> Permutation L (Lo ++ F) ->
  (forall Lo', obj_at pv nx a (M_Object.uecho_object_setmessagelistener b o) Lo' -> Q tt (Lo' ++ F)) ->
  wp (uecho_object_setmessagelistener a b) L Q.
Proof.
  intros pv nx a o b Lo L F Q OA P H. unfold uecho_object_setmessagelistener. pos_obj a OA P.
  destruct (obj_open _ _ _ _ _ OA) as (c & Lp & R & PO & PL & OR & <- & <-).
  eapply wp_perm; [eapply perm_trans; [exact P|apply Permutation_app_tail; exact PO]|]. rewrite <- app_assoc. cbn [app].
  apply wp_bind. eapply wp_load_obj; [inl|]. apply wp_post. eapply wp_store; [eapply pf_app_r; apply pf_here|].
  exists ((Lp ++ (a, BObj (j_with_listener b c)) :: R) ++ F). split; [perm|]. apply H.
  change (obj_at (j_prev (j_with_listener b c), j_node (j_with_listener b c)) (j_next (j_with_listener b c)) a (M_Object.uecho_object_setmessagelistener b o) (Lp ++ (a, BObj (j_with_listener b c)) :: R)).
  apply obj_close; [exact PL|]. destruct OR as (K & La & Ls & Lg & PR & (on & Lnm & ol & Lol & PK & N1 & N2 & G1 & G2 & G3 & G4 & G5) & C).
  exists K, La, Ls, Lg. split; [exact PR|]. split; [|exact C]. exists on, Lnm, ol, Lol.
  split; [exact PK|]. split; [exact N1|]. split; [exact N2|]. split; [exact G1|]. split; [exact G2|]. split; [exact G3|]. split; [reflexivity|exact G5].
Qed.

(* the codes alone *)
Lemma wp_obj_code : forall pv nx a o (f : cobj -> cobj) g k i Lo L F (Q : unit -> heaplet -> Prop), obj_at pv nx a o Lo -> Permutation L (Lo ++ F) ->
  (forall c, j_grp c = o_grp o -> j_cls c = o_cls o -> j_ins c = o_ins o -> f c = j_with_code g k i c) ->
  (forall Lo', obj_at pv nx a (o_with_code g k i o) Lo' -> Q tt (Lo' ++ F)) ->
  wp (let! c := load_obj a in store a (BObj (f c))) L Q.
Proof.
  intros pv nx a o f g k i Lo L F Q OA P EF H.
  destruct (obj_open _ _ _ _ _ OA) as (c & Lp & R & PO & PL & OR & <- & <-).
  eapply wp_perm; [eapply perm_trans; [exact P|apply Permutation_app_tail; exact PO]|]. rewrite <- app_assoc. cbn [app].
  apply wp_bind. eapply wp_load_obj; [inl|]. apply wp_post. eapply wp_store; [eapply pf_app_r; apply pf_here|].
  destruct OR as (K & La & Ls & Lg & PR & (on & Lnm & ol & Lol & PK & N1 & N2 & G1 & G2 & G3 & G4 & G5) & C).
  rewrite (EF c G1 G2 G3).
  exists ((Lp ++ (a, BObj (j_with_code g k i c)) :: R) ++ F). split; [perm|]. apply H.
  change (obj_at (j_prev (j_with_code g k i c), j_node (j_with_code g k i c)) (j_next (j_with_code g k i c)) a (o_with_code g k i o) (Lp ++ (a, BObj (j_with_code g k i c)) :: R)).
  apply obj_close; [exact PL|].
  exists K, La, Ls, Lg. split; [exact PR|]. split; [|exact C]. exists on, Lnm, ol, Lol.
  split; [exact PK|]. split; [exact N1|]. split; [exact N2|]. split; [reflexivity|]. split; [reflexivity|]. split; [reflexivity|]. split; [exact G4|exact G5].
Qed.

Lemma wp_obj_new : forall L (Q : Z -> heaplet -> Prop),
  (forall a Lo, 0 < a -> obj_at (a, 0) a a M_Object.uecho_object_new Lo -> Q a (Lo ++ L)) -> wp (uecho_object_new room) L Q.
Proof.
  intros L Q H. unfold uecho_object_new. apply wp_bind. apply wp_malloc; [exact Room|]. intros a PA _. rewrite (pos_nz a) by exact PA.
  apply wp_bind. apply wp_string_new; [exact Room|]. intros nm PN.
  apply wp_bind. unfold uecho_propertylist_new. apply wp_malloc; [exact Room|]. intros pl PP _.
  apply wp_bind. unfold uecho_object_property_observer_manager_new.
  apply wp_bind. apply wp_malloc; [exact Room|]. intros mg PM _. rewrite (pos_nz mg) by exact PM.
  apply wp_bind. apply wp_malloc; [exact Room|]. intros ol PO _.
  apply wp_bind. eapply wp_store; [eapply pf_cons; apply pf_here|]. apply wp_ret.
  apply wp_bind. eapply wp_store; [find_x|].
  rewrite (pos_nz nm), (pos_nz pl), (pos_nz mg) by assumption. cbn [orb]. apply wp_post, wp_ret.
  set (c := mkCobj a a nm 0 0 0 pl 0 0 0 0 0 0 false mg 0).
  exists (([(pl, BHead pl pl)] ++ (a, BObj c) :: ([(nm, BStr (mkCstring 0 0 0))] ++ (mg, BMgr ol) :: [(ol, BHead ol ol)]) ++ [] ++ [] ++ []) ++ L).
  split; [cbn [app]; perm|]. apply H; [exact PA|].
  change a with (j_prev c) at 1. change a with (j_next c) at 2. apply obj_close; [apply rlist_new|].
  exists ([(nm, BStr (mkCstring 0 0 0))] ++ (mg, BMgr ol) :: [(ol, BHead ol ol)]), [], [], []. split; [apply Permutation_refl|].
  split; [|repeat split; left; split; reflexivity].
  exists None, [(nm, BStr (mkCstring 0 0 0))], ol, [(ol, BHead ol ol)]. split; [apply Permutation_refl|]. split; [reflexivity|].
  split; [apply rlist_new|]. repeat split.
Qed.

Lemma wp_obs_clear : forall l ws Lr L F (Q : bool -> heaplet -> Prop), rlist obsbody l ws Lr -> Permutation L (Lr ++ F) ->
  Q true ((l, BHead l l) :: F) -> wp (uecho_list_clear l uecho_object_property_observer_delete) L Q.
Proof.
  intros l ws Lr L F Q R P H. eapply (wp_clear _ _ _ l ws Lr _ F); [exact R|exact P| |exact H].
  intros a k v Lx L' F' R' (pv & nx & -> & ->) FK IV P' IF HR. cbn [app set_links w_esv w_code w_handler] in P'.
  unfold uecho_object_property_observer_delete. apply wp_bind. eapply wp_remove_self; [exact P'|reflexivity|].
  eapply wp_free; [apply pf_here|exact HR].
Qed.

Lemma wp_obj_delete : forall nd a o Lo L F (Q : bool -> heaplet -> Prop), obj_at (a, nd) a a o Lo -> Permutation L (Lo ++ F) ->
  Q true F -> wp (uecho_object_delete a) L Q.
Proof.
  intros nd a o Lo L F Q OA P H. unfold uecho_object_delete. pos_obj a OA P.
  destruct (obj_open _ _ _ _ _ OA) as (c & Lp & R & PO & PL & OR & E0 & E2). injection E0 as E1 E3.
  eapply (wp_perm _ _ _ ((a, BObj c) :: Lp ++ R ++ F)).
  { eapply perm_trans; [exact P|]. eapply perm_trans; [apply Permutation_app_tail; exact PO|]. perm. }
  apply wp_bind. eapply wp_remove_self; [apply pf_here|cbn [links]; rewrite E1, E2; reflexivity|].
  apply wp_bind. eapply wp_load_obj; [inl|].
  destruct OR as (K & La & Ls & Lg & PR & (on & Lnm & ol & Lol & PK & N1 & N2 & _) & C1 & C2 & C3 & _).
  eapply (wp_perm _ _ _ (Lnm ++ (a, BObj c) :: Lp ++ ((j_mgr c, BMgr ol) :: Lol) ++ (La ++ Ls ++ Lg) ++ F)).
  { eapply (perm_trans (l' := (a, BObj c) :: Lp ++ ((Lnm ++ (j_mgr c, BMgr ol) :: Lol) ++ La ++ Ls ++ Lg) ++ F)); [|perm].
    apply perm_skip, Permutation_app_head, Permutation_app_tail. eapply perm_trans; [exact PR|]. apply Permutation_app_tail. exact PK. }
  destruct (str_rep_in _ _ _ N1) as [cs IS]. eapply (wp_pos _ _ _ _ (j_name c)); [apply in_or_app; left; exact IS|intro PN]. rewrite (pos_nz (j_name c)) by exact PN.
  apply wp_bind. eapply wp_string_delete; [exact N1|apply Permutation_refl|].
  apply wp_bind.
  eapply (wp_free_caches a c La Ls Lg _ (Lp ++ ((j_mgr c, BMgr ol) :: Lol) ++ F)); [exact C1|exact C2|exact C3|perm|].
  apply wp_bind. eapply wp_load_obj; [left; reflexivity|]. change (j_props (j_bare c)) with (j_props c). change (j_mgr (j_bare c)) with (j_mgr c).
  destruct (rlist_head _ _ _ _ _ PL) as (u & v & IH).
  eapply (wp_pos _ _ _ _ (j_props c)); [right; apply in_or_app; left; exact IH|intro PP]. rewrite (pos_nz (j_props c)) by exact PP.
  apply wp_bind. eapply (wp_pl_delete a (j_props c) (o_props o) Lp _ ((a, BObj (j_bare c)) :: ((j_mgr c, BMgr ol) :: Lol) ++ F)); [exact PL|perm|].
  eapply (wp_pos _ _ _ _ (j_mgr c)); [right; left; reflexivity|intro PM]. rewrite (pos_nz (j_mgr c)) by exact PM.
  apply wp_bind. unfold uecho_object_property_observer_manager_delete. apply wp_bind. unfold load_mgr.
  apply wp_bind. eapply wp_load; [right; left; reflexivity|]. apply wp_ret.
  apply wp_bind. eapply (wp_obs_clear ol (o_obs o) Lol _ ((a, BObj (j_bare c)) :: (j_mgr c, BMgr ol) :: F)); [exact N2|perm|].
  apply wp_bind. eapply wp_free; [apply pf_here|]. eapply wp_free; [eapply pf_cons; apply pf_here|].
  apply wp_bind. eapply wp_free; [apply pf_here|]. apply wp_ret. exact H.
Qed.

(* ---- observers ---- *)

Lemma obs_open : forall pv nx a o L, obj_at pv nx a o L -> exists c ol Lol R, Permutation L (Lol ++ (a, BObj c) :: (j_mgr c, BMgr ol) :: R)
  /\ rlist obsbody ol (o_obs o) Lol
  /\ forall ws Lol', rlist obsbody ol ws Lol' -> obj_at pv nx a (o_with_obs ws o) (Lol' ++ (a, BObj c) :: (j_mgr c, BMgr ol) :: R).
Proof.
  intros pv nx a o L OA. destruct (obj_open _ _ _ _ _ OA) as (c & Lp & R & PO & PL & OR & <- & <-).
  destruct OR as (K & La & Ls & Lg & PR & (on & Lnm & ol & Lol & PK & N1 & N2 & N3) & C).
  exists c, ol, Lol, (Lp ++ Lnm ++ La ++ Ls ++ Lg). split; [|split; [exact N2|]].
  - eapply perm_trans; [exact PO|]. eapply (perm_trans (l' := Lp ++ (a, BObj c) :: (Lnm ++ (j_mgr c, BMgr ol) :: Lol) ++ La ++ Ls ++ Lg)); [|perm].
    apply Permutation_app_head, perm_skip. eapply perm_trans; [exact PR|]. apply Permutation_app_tail. exact PK.
  - intros ws Lol' RW. apply (obj_at_perm _ _ _ _ (Lp ++ (a, BObj c) :: (Lnm ++ (j_mgr c, BMgr ol) :: Lol') ++ La ++ Ls ++ Lg)); [|perm].
    apply obj_close; [exact PL|]. exists (Lnm ++ (j_mgr c, BMgr ol) :: Lol'), La, Ls, Lg. split; [apply Permutation_refl|]. split; [|exact C].
    exists on, Lnm, ol, Lol'. split; [apply Permutation_refl|]. split; [exact N1|]. split; [exact RW|exact N3].
Qed.

Definition watches (esv code : Z) (w : observer) : bool := (ob_esv w =? esv) && (ob_code w =? code).
Lemma obs_find_split : forall v1 w v2 e c, Forall (fun v => watches e c v = false) v1 -> watches e c w = true -> obs_find (v1 ++ w :: v2) e c = Some w.
Proof.
  induction v1 as [|x v1 IH]; intros w v2 e c FA ET; cbn [app obs_find].
  - unfold watches in ET. rewrite ET. reflexivity.
  - apply Forall_cons_iff in FA. destruct FA as [F1 F2]. unfold watches in F1 at 1. rewrite F1. apply IH; assumption.
Qed.
Lemma obs_find_others : forall l e c, Forall (fun v => watches e c v = false) l -> obs_find l e c = None.
Proof.
  induction l as [|x l IH]; intros e c FA; [reflexivity|]. apply Forall_cons_iff in FA. destruct FA as [F1 F2].
  cbn [obs_find]. unfold watches in F1. rewrite F1. apply IH. exact F2.
Qed.
Lemma obs_remove_split : forall v1 w v2 e c, Forall (fun v => watches e c v = false) v1 -> watches e c w = true -> obs_remove (v1 ++ w :: v2) e c = v1 ++ v2.
Proof.
  induction v1 as [|x v1 IH]; intros w v2 e c FA ET; cbn [app obs_remove].
  - unfold watches in ET. rewrite ET. reflexivity.
  - apply Forall_cons_iff in FA. destruct FA as [F1 F2]. unfold watches in F1 at 1. rewrite F1. f_equal. apply IH; assumption.
Qed.

Lemma wp_getobserver : forall m ol ws esv code Lol L F (Q : Z -> heaplet -> Prop), rlist obsbody ol ws Lol -> Permutation L (Lol ++ F) -> In (m, BMgr ol) F ->
  (Forall (fun v => watches esv code v = false) ws -> Q 0 L) ->
  (forall v1 x w v2, ws = v1 ++ w :: v2 -> Forall (fun v => watches esv code v = false) v1 -> watches esv code w = true -> 0 < x ->
     rl_at obsbody ol v1 x w v2 Lol -> Q x L) ->
  wp (uecho_object_property_observer_manager_getobserver m esv code) L Q.
Proof.
  intros m ol ws esv code Lol L F Q R P IM H0 H1. unfold uecho_object_property_observer_manager_getobserver.
  apply wp_bind. unfold load_mgr. apply wp_bind. eapply wp_load; [eapply Permutation_in; [apply Permutation_sym; exact P|]; apply in_or_app; right; exact IM|]. apply wp_ret.
  eapply (wp_find _ _ _ (watches esv code) ol ws Lol _ F); [exact R|exact P| |exact H0|exact H1].
  intros a k v Lx p n R' (pv & nx & -> & ->) FK IV IA _ HR. cbn [set_links w_esv w_code w_handler] in IA.
  apply wp_bind. unfold load_obs. apply wp_bind. eapply wp_load; [exact IA|]. apply wp_ret. apply wp_ret. exact HR.
Qed.

Lemma wp_obj_handler : forall pv nx a o esv code hd Lo L F (Q : bool -> heaplet -> Prop), obj_at pv nx a o Lo -> Permutation L (Lo ++ F) ->
  (forall Lo', obj_at pv nx a (M_Object.uecho_object_setpropertyrequesthandler o esv code hd) Lo' -> Q true (Lo' ++ F)) ->
  wp (uecho_object_setpropertyrequesthandler room a esv code hd) L Q.
Proof.
  intros pv nx a o esv code hd Lo L F Q OA P H. unfold uecho_object_setpropertyrequesthandler. pos_obj a OA P.
  destruct (obs_open _ _ _ _ _ OA) as (c & ol & Lol & R & PO & RO & CL).
  eapply wp_perm; [eapply perm_trans; [exact P|apply Permutation_app_tail; exact PO]|]. rewrite <- app_assoc. cbn [app].
  apply wp_bind. eapply wp_load_obj; [inl|]. unfold uecho_object_property_observer_manager_setobserver.
  set (G := (a, BObj c) :: (j_mgr c, BMgr ol) :: R ++ F).
  assert (IM : In (j_mgr c, BMgr ol) G) by (right; left; reflexivity).
  assert (ADD : forall ws Lol1, rlist obsbody ol ws Lol1 ->
     M_Object.uecho_object_property_observer_manager_setobserver (o_obs o) esv code hd = ws ++ [mkObs esv code hd] ->
     wp (let! w := malloc room (fun x => BObs (mkCobs x x esv code hd)) in
         if w =? 0 then ret false else let! l := load_mgr (j_mgr c) in uecho_list_add l w) (Lol1 ++ G) Q).
  { intros ws Lol1 R1 EW. apply wp_bind. apply wp_malloc; [exact Room|]. intros w PW _. rewrite (pos_nz w) by exact PW.
    apply wp_bind. unfold load_mgr. apply wp_bind. eapply wp_load; [right; apply in_or_app; right; exact IM|]. apply wp_ret. apply wp_post.
    eapply (wp_rl_add _ _ ol ws Lol1 w (BObs (mkCobs w w esv code hd)) (mkObs esv code hd) [] _ G); [exact R1|reflexivity|exists w, w; split; reflexivity|apply Permutation_refl|].
    intros Lol2 AT. exists ((Lol2 ++ (a, BObj c) :: (j_mgr c, BMgr ol) :: R) ++ F). split; [unfold G; perm|]. apply H.
    unfold M_Object.uecho_object_setpropertyrequesthandler. rewrite EW. apply CL. apply rl_at_list in AT. exact AT. }
  apply wp_bind. eapply (wp_getobserver (j_mgr c) ol (o_obs o) esv code Lol _ G); [exact RO|apply Permutation_refl|exact IM| |].
  - intro FA. cbn [Z.eqb]. apply wp_bind, wp_ret. apply (ADD (o_obs o)); [exact RO|]. unfold M_Object.uecho_object_property_observer_manager_setobserver.
    rewrite obs_find_others by exact FA. reflexivity.
  - intros v1 x w v2 E FA ET PX AT. rewrite (pos_nz x) by exact PX. apply wp_bind. apply wp_bind.
    eapply (wp_rl_remove _ _ ol v1 x w v2 Lol _ G); [exact AT|apply Permutation_refl|].
    intros k Lx R1 FK (pv0 & nx0 & -> & ->) RL. cbn [app set_links w_esv w_code w_handler].
    unfold uecho_object_property_observer_delete. apply wp_bind. eapply wp_remove_self; [apply pf_here|reflexivity|].
    eapply wp_free; [apply pf_here|]. apply (ADD (v1 ++ v2)); [exact RL|]. unfold M_Object.uecho_object_property_observer_manager_setobserver.
    rewrite E, obs_find_split, obs_remove_split by assumption. reflexivity.
Qed.
Lemma wp_obj_gethandler : forall pv nx a o esv code Lo L F (Q : option nat -> heaplet -> Prop), obj_at pv nx a o Lo -> Permutation L (Lo ++ F) ->
  Q (M_Object.uecho_object_getpropertyrequestlistener o esv code) L ->
  wp (uecho_object_getpropertyrequestlistener a esv code) L Q.
Proof.
  intros pv nx a o esv code Lo L F Q OA P H. unfold uecho_object_getpropertyrequestlistener. pos_obj a OA P.
  destruct (obs_open _ _ _ _ _ OA) as (c & ol & Lol & R & PO & RO & _).
  assert (P' : Permutation L (Lol ++ (a, BObj c) :: (j_mgr c, BMgr ol) :: R ++ F)).
  { eapply perm_trans; [exact P|]. eapply perm_trans; [apply Permutation_app_tail; exact PO|]. perm. }
  apply wp_bind. eapply wp_load_obj; [eapply Permutation_in; [apply Permutation_sym; exact P'|]; apply in_or_app; right; left; reflexivity|].
  unfold M_Object.uecho_object_getpropertyrequestlistener in H.
  apply wp_bind. eapply (wp_getobserver (j_mgr c) ol (o_obs o) esv code Lol _ _); [exact RO|exact P'|right; left; reflexivity| |].
  - intro FA. cbn [Z.eqb]. apply wp_ret. rewrite obs_find_others in H by exact FA. exact H.
  - intros v1 x w v2 E FA ET PX AT. rewrite (pos_nz x) by exact PX. rewrite E, obs_find_split in H by assumption.
    destruct (rl_focus _ _ _ _ _ _ _ _ AT) as (pv0 & nx0 & k & Lx & R1 & FK & (p1 & n1 & -> & ->) & PF & _).
    apply wp_bind. unfold load_obs. apply wp_bind. eapply wp_load.
    + eapply Permutation_in; [apply Permutation_sym; exact P'|]. apply in_or_app. left.
      eapply Permutation_in; [apply Permutation_sym; exact PF|]. left. reflexivity.
    + cbn [set_links w_esv w_code w_handler]. apply wp_ret. apply wp_ret. exact H.
Qed.
End Room.
