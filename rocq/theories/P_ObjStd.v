(* Standard properties and the database of objects in the heap. *)
From Coq Require Import String ZArith List Bool Lia Permutation.
From Verif Require Import CSem P_Base M_Const M_Misc M_Property M_PropertyList P_PropertyList M_Object M_Mem M_MemUse M_ObjMem
  P_Mem P_MemProp P_MemCopy P_MemRun P_MemPkt P_Ring P_ObjProp P_ObjCache P_ObjMem P_ObjUse.
Import ListNotations.
Open Scope Z_scope.

Lemma name_open : forall pv nx a o L, obj_at pv nx a o L -> exists c on Lnm R, Permutation L (Lnm ++ (a, BObj c) :: R)
  /\ str_rep (j_name c) on Lnm
  /\ forall on' Lnm', str_rep (j_name c) on' Lnm' -> obj_at pv nx a o (Lnm' ++ (a, BObj c) :: R).
Proof.
  intros pv nx a o L OA. destruct (obj_open _ _ _ _ _ OA) as (c & Lp & R & PO & PL & OR & <- & <-).
  destruct OR as (K & La & Ls & Lg & PR & (on & Lnm & ol & Lol & PK & N1 & N2) & C).
  exists c, on, Lnm, (Lp ++ ((j_mgr c, BMgr ol) :: Lol) ++ La ++ Ls ++ Lg). split; [|split; [exact N1|]].
  - eapply perm_trans; [exact PO|]. eapply (perm_trans (l' := Lp ++ (a, BObj c) :: (Lnm ++ (j_mgr c, BMgr ol) :: Lol) ++ La ++ Ls ++ Lg)); [|perm].
    apply Permutation_app_head, perm_skip. eapply perm_trans; [exact PR|]. apply Permutation_app_tail. exact PK.
  - intros on' Lnm' RN. apply (obj_at_perm _ _ _ _ (Lp ++ (a, BObj c) :: (Lnm' ++ (j_mgr c, BMgr ol) :: Lol) ++ La ++ Ls ++ Lg)); [|perm].
    apply obj_close; [exact PL|]. exists (Lnm' ++ (j_mgr c, BMgr ol) :: Lol), La, Ls, Lg. split; [apply Permutation_refl|]. split; [|exact C].
    exists on', Lnm', ol, Lol. split; [apply Permutation_refl|]. split; [exact RN|exact N2].
Qed.

Section Room.
Variable room : Z -> bool.
Hypothesis Room : forall n, room n = true.
Variable junk : nat -> Z.

Ltac pos_obj a OA P := let c := fresh "c" in let I := fresh "I" in
  destruct (obj_at_in _ _ _ _ _ OA) as [c I];
  eapply (wp_pos _ _ _ _ a); [eapply Permutation_in; [apply Permutation_sym; exact P|apply in_or_app; left; exact I]|intro]; rewrite (pos_nz a) by assumption; clear c I.

Lemma wp_obj_setname : forall pv nx a o name Lo L F (Q : unit -> heaplet -> Prop), obj_at pv nx a o Lo -> Permutation L (Lo ++ F) ->
  (name = 0 \/ exists t, In (name, BBytes (map Some t ++ [Some 0])) F /\ plain t /\ len t + 1 < SIZE_MOD) ->
  (forall Lo', obj_at pv nx a o Lo' -> Q tt (Lo' ++ F)) ->
  wp (uecho_object_setname room a name) L Q.
Proof.
  intros pv nx a o name Lo L F Q OA P N H. unfold uecho_object_setname. pos_obj a OA P.
  destruct (name_open _ _ _ _ _ OA) as (c & on & Lnm & R & PO & RN & CL).
  eapply wp_perm; [eapply perm_trans; [exact P|apply Permutation_app_tail; exact PO]|]. rewrite <- app_assoc. cbn [app].
  apply wp_bind. eapply wp_load_obj; [inl|]. apply wp_post. destruct N as [->|(t & I & PT & SL)].
  - destruct (str_rep_in _ _ _ RN) as [cs IS]. unfold uecho_string_setvalue.
    eapply (wp_pos _ _ _ _ (j_name c)); [apply in_or_app; left; exact IS|intro PN]. rewrite (pos_nz (j_name c)) by exact PN. cbn [Z.eqb orb].
    apply wp_ret. exists ((Lnm ++ (a, BObj c) :: R) ++ F). split; [perm|]. apply H. eapply CL. exact RN.
  - eapply (wp_string_setvalue room Room (j_name c) on Lnm name _ t _ ((a, BObj c) :: R ++ F)); [exact RN|apply Permutation_refl| |exact PT|exact SL|reflexivity|].
    + right. apply in_or_app. right. exact I.
    + intros Ln' RN'. exists ((Ln' ++ (a, BObj c) :: R) ++ F). split; [perm|]. apply H. eapply CL. exact RN'.
Qed.

Lemma wp_missing : forall pv nx a o pv2 nx2 src os Lo Ls L F (Q : bool -> heaplet -> Prop), obj_at pv nx a o Lo -> obj_at pv2 nx2 src os Ls ->
  Permutation L (Lo ++ Ls ++ F) ->
  (forall Lo', obj_at pv nx a (M_Object.uecho_object_addmissingobjectproperties o os) Lo' -> Q true (Lo' ++ Ls ++ F)) ->
  wp (uecho_object_addmissingobjectproperties room a src) L Q.
Proof.
  intros pv nx a o pv2 nx2 src os Lo Ls L F Q OA OS P H. unfold uecho_object_addmissingobjectproperties. pos_obj a OA P.
  unfold uecho_object_getproperties.
  assert (P2 : Permutation L (Ls ++ Lo ++ F)) by (eapply perm_trans; [exact P|perm]).
  pos_obj src OS P2. clear P2.
  destruct (obj_open _ _ _ _ _ OS) as (c & Lr & R & PO & (ns & Ln & I & PR) & OR & _ & _). clear OS.
  set (h := j_props c) in *.
  assert (PS : Permutation Ls (ring ((h, hblk) :: ns) ++ Ln ++ (src, BObj c) :: R)).
  { eapply perm_trans; [exact PO|]. eapply perm_trans; [apply Permutation_app_tail; exact PR|]. rperm. }
  assert (PL : Permutation L (ring ((h, hblk) :: ns) ++ Ln ++ (src, BObj c) :: R ++ Lo ++ F)).
  { eapply perm_trans; [exact P|]. eapply perm_trans; [apply Permutation_app_head, Permutation_app_tail; exact PS|]. rperm. }
  assert (N := items_nodes _ _ _ _ _ I).
  apply wp_assoc'. apply wp_bind.
  eapply wp_load_obj; [eapply Permutation_in; [apply Permutation_sym; exact PL|]; apply in_or_app; right; apply in_or_app; right; left; reflexivity|].
  fold h. apply wp_bind. change h with (lst_of h []). eapply (wp_list_next h hblk [] ns); [reflexivity|exact N|exact PL|].
  apply wp_walk. intros n LN.
  assert (LE : (length ns <= n)%nat).
  { pose proof (Permutation_length PL) as X. rewrite app_length in X. rewrite ring_length in X. cbn [length] in X. lia. }
  clear LN.
  assert (G : forall n2 n1 v1 v2 L1 L2 m o Lo L, ns = n1 ++ n2 -> o_props os = v1 ++ v2 -> items (pbody src) n1 v1 L1 -> items (pbody src) n2 v2 L2 -> Ln = L1 ++ L2 ->
     obj_at pv nx a o Lo -> Permutation L (Lo ++ ring ((h, hblk) :: ns) ++ Ln ++ (src, BObj c) :: R ++ F) -> (length n2 <= m)%nat ->
     (forall Lo', obj_at pv nx a (addmissing o v2) Lo' -> Q true (Lo' ++ Ls ++ F)) ->
     wp (missing_loop room a m (fst_of 0 n2)) L Q).
  { clear o OA Lo L P PL H n LE. induction n2 as [|[b kb] n2 IH]; intros n1 v1 v2 L1 L2 m o Lo L En Ev I1 I2 EL OA P LM H.
    - inversion I2; subst v2 L2. destruct m; cbn [missing_loop fst_of Z.eqb]; apply wp_post, wp_ret;
        (exists (Lo ++ Ls ++ F); split; [|apply H; exact OA]; eapply perm_trans; [exact P|]; apply Permutation_app_head;
         apply Permutation_sym; eapply perm_trans; [apply Permutation_app_tail; exact PS|]; rperm).
    - inversion I2 as [|b' kb' v Lx ns' vs' L' E X Y]; subst b' kb' ns' v2 L2. cbn [fst_of].
      pose proof (ring_at ((h, hblk) :: n1) b kb n2) as RA. cbn [app] in RA. rewrite <- En in RA.
      set (pb := lst_of b (n2 ++ (h, hblk) :: n1)) in *. set (nb := fst_of b (n2 ++ (h, hblk) :: n1)) in *.
      destruct X as (pv0 & nx0 & q & X & O). pose proof (prop_at_links _ _ _ _ _ _ _ pb nb X) as X'.
      set (Bb := (b, set_links pb nb kb) :: Lx) in *.
      assert (RB : Permutation (ring ((h, hblk) :: ns) ++ Ln) (Bb ++ chain b (n2 ++ (h, hblk) :: n1) b ++ L1 ++ L')).
      { rewrite EL. eapply perm_trans; [apply Permutation_app_tail; exact RA|]. unfold Bb. perm. }
      assert (PB : Permutation L (Lo ++ Bb ++ (chain b (n2 ++ (h, hblk) :: n1) b ++ L1 ++ L') ++ (src, BObj c) :: R ++ F)).
      { eapply perm_trans; [exact P|]. apply Permutation_app_head. rewrite !app_assoc.
        apply (Permutation_app_tail ((src, BObj c) :: R ++ F)) in RB. rewrite !app_assoc in RB. exact RB. }
      set (CH := chain b (n2 ++ (h, hblk) :: n1) b ++ L1 ++ L') in *.
      destruct (prop_at_in _ _ _ _ _ _ X') as (qb & IB & EC & _).
      assert (IL : In (b, BProp qb) L) by (eapply Permutation_in; [apply Permutation_sym; exact PB|]; apply in_or_app; right; apply in_or_app; left; exact IB).
      destruct m as [|m]; [cbn [length] in LM; lia|]. cbn [missing_loop].
      eapply (wp_pos _ _ _ _ b); [exact IL|intro PBp]. rewrite (pos_nz b) by exact PBp.
      apply wp_bind. eapply wp_load_prop; [exact IL|]. rewrite EC.
      assert (NEXT : forall o1 Lo1 L1', obj_at pv nx a o1 Lo1 -> Permutation L1' (Lo1 ++ Bb ++ CH ++ (src, BObj c) :: R ++ F) ->
          (forall Lo', obj_at pv nx a (addmissing o1 vs') Lo' -> Q true (Lo' ++ Ls ++ F)) ->
          wp (let! src' := uecho_list_next b in missing_loop room a m src') L1' Q).
      { intros o1 Lo1 L1' OA1 P1 HN.
        assert (P1' : Permutation L1' (Lo1 ++ ring ((h, hblk) :: ns) ++ Ln ++ (src, BObj c) :: R ++ F)).
        { eapply perm_trans; [exact P1|]. apply Permutation_app_head. apply Permutation_sym.
          rewrite (app_assoc (ring _)), (app_assoc Bb). apply Permutation_app_tail. exact RB. }
        apply wp_bind. assert (EN2 : ns = (n1 ++ [(b, kb)]) ++ n2) by (rewrite <- app_assoc; exact En).
        replace b with (lst_of h (n1 ++ [(b, kb)])) by (rewrite lst_of_app; reflexivity).
        eapply (wp_list_next h hblk (n1 ++ [(b, kb)]) n2 _ (Lo1 ++ Ln ++ (src, BObj c) :: R ++ F));
          [reflexivity|rewrite <- EN2; exact N|rewrite <- EN2; eapply perm_trans; [exact P1'|]; rperm|].
        eapply (IH (n1 ++ [(b, kb)]) (v1 ++ [v]) vs' (L1 ++ Lx) L' m o1 Lo1).
        - exact EN2.
        - rewrite <- app_assoc. exact Ev.
        - apply items_app; [exact I1|]. apply items_one; [exact E|]. exists pv0, nx0, q. split; assumption.
        - exact Y.
        - rewrite <- app_assoc. exact EL.
        - exact OA1.
        - exact P1'.
        - cbn [length] in LM. lia.
        - exact HN. }
      cbn [addmissing] in H. unfold M_Object.uecho_object_hasproperty, M_Object.uecho_object_getproperty in H.
      apply wp_bind. eapply (wp_obj_find pv nx a o (p_code v) Lo _ (Bb ++ CH ++ (src, BObj c) :: R ++ F)); [exact OA|exact PB| |].
      + intro OT. rewrite find_others in H by exact OT. cbn [Z.eqb negb]. apply wp_bind. apply wp_bind.
        eapply (wp_prop_copy_at room Room pb nb q b v Bb _ (Lo ++ CH ++ (src, BObj c) :: R ++ F)); [exact X'|eapply perm_trans; [exact PB|]; clearbody Bb CH; perm|].
        intros x Lc PX RX. rewrite (pos_nz x) by exact PX. apply wp_bind.
        eapply (wp_obj_addproperty pv nx a o x _ Lc Lo _ (Bb ++ CH ++ (src, BObj c) :: R ++ F)); [exact OA|exact RX|clearbody Bb CH; perm|].
        intros Lo1 OA1. apply wp_ret. cbn [negb]. eapply NEXT; [exact OA1|apply Permutation_refl|exact H].
      + intros hh w1 x p w2 Lw GG EP OT EB PX AT PG T CL. rewrite EP, find_split in H by assumption. rewrite (pos_nz x) by exact PX. cbn [negb].
        apply wp_bind, wp_ret. cbn [negb]. eapply NEXT; [exact OA|exact PB|exact H]. }
  eapply (G ns [] [] (o_props os) [] Ln n o Lo L); try reflexivity; [constructor|exact I|exact OA| |exact LE|exact H].
  eapply perm_trans; [exact PL|]. rperm.
Qed.

(* ---- the database ---- *)

Variable db : Z.
Definition dlist := rlist obody db.

Definition is_class (g c : Z) (o : obj) : bool := (o_grp o =? g) && (o_cls o =? c).
Lemma db_split : forall v1 o v2 g c, Forall (fun v => is_class g c v = false) v1 -> is_class g c o = true -> uecho_database_getobject (v1 ++ o :: v2) g c = Some o.
Proof.
  induction v1 as [|x v1 IH]; intros o v2 g c FA ET; cbn [app uecho_database_getobject].
  - unfold is_class in ET. rewrite ET. reflexivity.
  - apply Forall_cons_iff in FA. destruct FA as [F1 F2]. unfold is_class in F1 at 1. rewrite F1. apply IH; assumption.
Qed.
Lemma db_others : forall l g c, Forall (fun v => is_class g c v = false) l -> uecho_database_getobject l g c = None.
Proof.
  induction l as [|x l IH]; intros g c FA; [reflexivity|]. apply Forall_cons_iff in FA. destruct FA as [F1 F2].
  cbn [uecho_database_getobject]. unfold is_class in F1. rewrite F1. apply IH. exact F2.
Qed.

Lemma wp_db_find : forall ds g c Ld L F (Q : Z -> heaplet -> Prop), dlist ds Ld -> Permutation L (Ld ++ F) ->
  (Forall (fun v => is_class g c v = false) ds -> Q 0 L) ->
  (forall v1 x o v2, ds = v1 ++ o :: v2 -> Forall (fun v => is_class g c v = false) v1 -> is_class g c o = true -> 0 < x ->
     rl_at obody db v1 x o v2 Ld -> Q x L) ->
  wp (uecho_objectlist_getbygroupclasscode db g c) L Q.
Proof.
  intros ds g c Ld L F Q R P H0 H1. unfold uecho_objectlist_getbygroupclasscode.
  destruct (rlist_head _ _ _ _ _ R) as (u & v & IH). eapply (wp_pos _ _ _ _ db); [eapply Permutation_in; [apply Permutation_sym; exact P|]; apply in_or_app; left; exact IH|intro PD].
  rewrite (pos_nz db) by exact PD.
  eapply (wp_find _ _ _ (is_class g c) db ds Ld _ F); [exact R|exact P| |exact H0|exact H1].
  intros a k o Lx p n R' OB FK IV IA _ HR. destruct OB as (co & -> & _ & (Lp & R1 & _ & _ & (K & La & Ls & Lg & _ & (on & Lnm & ol & Lol & _ & _ & _ & G1 & G2 & _) & _))).
  cbn [set_links] in IA. apply wp_bind. eapply wp_load_obj; [exact IA|]. js. apply wp_ret. unfold is_class in HR. rewrite G1, G2. exact HR.
Qed.

Lemma wp_addstd1 : forall pv nx a o ds g c Lo Ld L F (Q : bool -> heaplet -> Prop), obj_at pv nx a o Lo -> dlist ds Ld -> Permutation L (Lo ++ Ld ++ F) ->
  (forall Lo' b, obj_at pv nx a (fst (M_Object.uecho_object_addstandardpropertieswithcode ds o g c)) Lo' -> Q b (Lo' ++ Ld ++ F)) ->
  wp (uecho_object_addstandardpropertieswithcode room db a g c) L Q.
Proof.
  intros pv nx a o ds g c Lo Ld L F Q OA DL P H. unfold uecho_object_addstandardpropertieswithcode. pos_obj a OA P.
  unfold M_Object.uecho_object_addstandardpropertieswithcode in H. eapply wp_perm; [exact P|]. clear L P.
  apply wp_bind. eapply (wp_db_find ds g c Ld _ (Lo ++ F)); [exact DL|perm| |].
  - intro FA. rewrite db_others in H by exact FA. cbn [Z.eqb]. apply wp_ret. apply H. exact OA.
  - intros v1 s os v2 E FA ET PX AT. rewrite (pos_nz s) by exact PX. rewrite E, db_split in H by assumption. cbn [fst] in H.
    destruct (rl_focus _ _ _ _ _ _ _ _ AT) as (p & n & k & Lx & R & FK & OB & PF & _).
    pose proof (nbody_at _ _ _ _ _ p n OB) as OS. set (Bs := (s, set_links p n k) :: Lx) in *.
    assert (PF' : Permutation Ld (Bs ++ R)) by exact PF. clearbody Bs.
    assert (PP : Permutation (Lo ++ Ld ++ F) (Lo ++ Bs ++ R ++ F)).
    { apply Permutation_app_head. rewrite (app_assoc Bs). apply Permutation_app_tail. exact PF'. }
    eapply wp_perm; [exact PP|]. apply wp_bind. unfold uecho_object_getname.
    destruct (name_open _ _ _ _ _ OS) as (cs & on & Lnm & R2 & PO & RN & _). rewrite (pos_nz s) by exact PX.
    assert (IN : incl (Lnm ++ (s, BObj cs) :: R2) Bs) by (intros y Y; eapply Permutation_in; [apply Permutation_sym; exact PO|exact Y]).
    assert (IB : incl Bs (Lo ++ Bs ++ R ++ F)) by (intros y Y; apply in_or_app; right; apply in_or_app; left; exact Y).
    apply wp_bind. eapply wp_load_obj; [apply IB, IN; apply in_or_app; right; left; reflexivity|].
    assert (GO : forall name, (name = 0 \/ exists t, In (name, BBytes (map Some t ++ [Some 0])) (Bs ++ R ++ F) /\ plain t /\ len t + 1 < SIZE_MOD) ->
       wp (let! _ := uecho_object_setname room a name in uecho_object_addmissingobjectproperties room a s) (Lo ++ Bs ++ R ++ F) Q).
    { intros name NN. apply wp_bind. eapply wp_obj_setname; [exact OA|apply Permutation_refl|exact NN|].
      intros Lo1 OA1. apply wp_post. eapply (wp_missing pv nx a o (p, 0) n s os Lo1 Bs _ (R ++ F)); [exact OA1|exact OS|apply Permutation_refl|].
      intros Lo2 OA2. exists (Lo2 ++ Ld ++ F). split; [|apply H; exact OA2]. apply Permutation_app_head. rewrite (app_assoc Bs).
      apply Permutation_app_tail. apply Permutation_sym. exact PF'. }
    eapply wp_string_getvalue; [exact RN|intros y Y; apply IB, IN; apply in_or_app; left; exact Y|].
    destruct on as [t|].
    + intros v IV. apply GO. right. exists t. split; [|split; apply RN]. apply in_or_app. left. apply IN. apply in_or_app. left. exact IV.
    + apply GO. left. reflexivity.
Qed.

Lemma wp_addstd : forall pv nx a o ds Lo Ld L F (Q : bool -> heaplet -> Prop), obj_at pv nx a o Lo -> dlist ds Ld -> Permutation L (Lo ++ Ld ++ F) ->
  (forall Lo' b, obj_at pv nx a (fst (M_Object.uecho_object_addstandardproperties ds o)) Lo' -> Q b (Lo' ++ Ld ++ F)) ->
  wp (uecho_object_addstandardproperties room db a) L Q.
Proof.
  intros pv nx a o ds Lo Ld L F Q OA DL P H. unfold uecho_object_addstandardproperties.
  apply wp_bind. eapply wp_addstd1; [exact OA|exact DL|exact P|]. intros Lo1 b1 OA1.
  unfold M_Object.uecho_object_addstandardproperties in H.
  destruct (M_Object.uecho_object_addstandardpropertieswithcode ds o 0 0) as [o1 r1]. cbn [fst] in OA1.
  destruct (obj_open _ _ _ _ _ OA1) as (c & Lp & R & PO & _ & (K & La & Ls & Lg & _ & (on & Lnm & ol & Lol & _ & _ & _ & G1 & G2 & _) & _) & _ & _).
  apply wp_bind. eapply (wp_load_obj a c); [apply in_or_app; left; eapply Permutation_in; [apply Permutation_sym; exact PO|]; apply in_or_app; right; left; reflexivity|].
  rewrite G1, G2. apply wp_bind. eapply wp_addstd1; [exact OA1|exact DL|apply Permutation_refl|]. intros Lo2 b2 OA2.
  destruct (M_Object.uecho_object_addstandardpropertieswithcode ds o1 (o_grp o1) (o_cls o1)) as [o2 r2]. cbn [fst] in *.
  apply wp_ret. apply H. exact OA2.
Qed.


(* ---- codes ---- *)

Ltac code_step a OA DL P o f :=
  match goal with |- wp (mbind _ (fun c => mbind _ ?g)) _ _ => apply (wp_assoc _ _ _ (load_obj a) (fun c => store a (BObj (f c))) g) end;
  apply wp_bind; eapply (wp_obj_code _ _ a o f); [exact OA|exact P| |].

Lemma wp_obj_setcode : forall pv nx a o ds v o' ann Lo Ld L F (Q : unit -> heaplet -> Prop), obj_at pv nx a o Lo -> dlist ds Ld -> Permutation L (Lo ++ Ld ++ F) ->
  M_Object.uecho_object_setcode ds junk o v = Ok (o', ann) ->
  (forall g c i, let o1 := fst (M_Object.uecho_object_addstandardproperties ds (o_with_code g c i o)) in Z.of_nat (o_getsz o1 + length (o_props o1)) + 1 < SIZE_MOD) ->
  (forall Lo', obj_at pv nx a o' Lo' -> Q tt (Lo' ++ Ld ++ F)) ->
  wp (uecho_object_setcode room junk db a v) L Q.
Proof.
  intros pv nx a o ds v o' ann Lo Ld L F Q OA DL P E SK H. unfold uecho_object_setcode. pos_obj a OA P.
  unfold M_Object.uecho_object_setcode in E.
  code_step a OA DL P o (fun c => j_with_code (Z.shiftr (Z.land v 16711680) 16) (Z.shiftr (Z.land v 65280) 8) (Z.land v 255) c); [reflexivity|].
  intros Lo1 OA1.
  apply wp_bind. eapply wp_addstd; [exact OA1|exact DL|apply Permutation_refl|]. intros Lo2 b OA2.
  apply wp_bind. eapply (wp_updatemaps room Room junk pv nx a _ o' ann Lo2 _ (Ld ++ F)); [exact OA2|apply Permutation_refl|exact E|apply SK|].
  intros Lo3 OA3. apply wp_ret. apply H. exact OA3.
Qed.

Lemma wp_obj_setgroup : forall pv nx a o ds v Lo Ld L F (Q : unit -> heaplet -> Prop), obj_at pv nx a o Lo -> dlist ds Ld -> Permutation L (Lo ++ Ld ++ F) ->
  (forall Lo', obj_at pv nx a (M_Object.uecho_object_setgroupcode ds o v) Lo' -> Q tt (Lo' ++ Ld ++ F)) ->
  wp (uecho_object_setgroupcode room db a v) L Q.
Proof.
  intros pv nx a o ds v Lo Ld L F Q OA DL P H. unfold uecho_object_setgroupcode. pos_obj a OA P.
  code_step a OA DL P o (fun c => j_with_code v (j_cls c) (j_ins c) c); [intros c G C I; rewrite C, I; reflexivity|].
  intros Lo1 OA1.
  apply wp_bind. eapply wp_addstd; [exact OA1|exact DL|apply Permutation_refl|]. intros Lo2 b OA2. apply wp_ret. apply H. exact OA2.
Qed.
Lemma wp_obj_setclass : forall pv nx a o ds v Lo Ld L F (Q : unit -> heaplet -> Prop), obj_at pv nx a o Lo -> dlist ds Ld -> Permutation L (Lo ++ Ld ++ F) ->
  (forall Lo', obj_at pv nx a (M_Object.uecho_object_setclasscode ds o v) Lo' -> Q tt (Lo' ++ Ld ++ F)) ->
  wp (uecho_object_setclasscode room db a v) L Q.
Proof.
  intros pv nx a o ds v Lo Ld L F Q OA DL P H. unfold uecho_object_setclasscode. pos_obj a OA P.
  code_step a OA DL P o (fun c => j_with_code (j_grp c) v (j_ins c) c); [intros c G C I; rewrite G, I; reflexivity|].
  intros Lo1 OA1.
  apply wp_bind. eapply wp_addstd; [exact OA1|exact DL|apply Permutation_refl|]. intros Lo2 b OA2. apply wp_ret. apply H. exact OA2.
Qed.
Lemma wp_obj_setinstance : forall pv nx a o v Lo L F (Q : unit -> heaplet -> Prop), obj_at pv nx a o Lo -> Permutation L (Lo ++ F) ->
  (forall Lo', obj_at pv nx a (M_Object.uecho_object_setinstancecode o v) Lo' -> Q tt (Lo' ++ F)) ->
  wp (uecho_object_setinstancecode a v) L Q.
Proof.
  intros pv nx a o v Lo L F Q OA P H. unfold uecho_object_setinstancecode. pos_obj a OA P.
  eapply (wp_obj_code _ _ a o (fun c => j_with_code (j_grp c) (j_cls c) v c)); [exact OA|exact P|intros c G C I; rewrite G, C; reflexivity|exact H].
Qed.
End Room.
