(* Programs that use objects: the heap run follows the run on values. *)
From Coq Require Import String ZArith List Bool Lia Permutation.
From Verif Require Import CSem P_Base M_Const M_Misc M_Property M_PropertyList P_PropertyList M_Object Spec_Object Run_Object
  Spec_Map P_Misc P_Map P_MapProps P_Object P_ObjectRun P_ObjectReach Spec_Message M_Mem M_MemUse M_ObjMem M_ObjUse Spec_ObjMem
  P_Mem P_MemProp P_MemCopy P_MemPkt P_MemRun P_Ring P_ObjProp P_ObjCache P_ObjMem P_ObjUse P_ObjStd.
Import ListNotations.
Open Scope Z_scope.

(* ---- reading ---- *)

Lemma wp_read_at : forall pv nx par a p L0 L (Q : _ -> heaplet -> Prop), prop_at pv nx par a p L0 -> incl L0 L ->
  Q (p_code p, p_attr p, p_data p) L -> wp (read_property a) L Q.
Proof.
  intros pv nx par a p L0 L Q (s & o & d & Ls & Ld & -> & _ & Rd & _ & SD) I H. unfold read_property.
  apply wp_bind. eapply wp_load_prop; [apply I; left; reflexivity|]. cbn [q_size q_data q_code q_attr].
  apply wp_bind. pose proof (len_nonneg _ (p_data p)) as N. destruct (Z.leb_spec (len (p_data p)) 0) as [C|C].
  - assert (E : len (p_data p) = 0) by lia. apply len_0_nil in E. rewrite E in H. apply wp_ret, wp_ret. exact H.
  - assert (ID : In (d, BBytes (map Some (p_data p))) L).
    { apply I. right. apply in_or_app. right. destruct (p_data p); [discriminate C|]. cbn [data_rep] in Rd. subst Ld. left. reflexivity. }
    apply wp_bind. eapply wp_load_bytes; [exact ID|].
    apply wp_bind. eapply wp_lift; [apply rd_range_whole; apply len_map|].
    eapply wp_lift; [apply init_bytes_map_Some|]. apply wp_ret. exact H.
Qed.

Definition shown (l : list prop) : list (Z * Z * list Z) := map (fun p => (p_code p, p_attr p, p_data p)) l.

Lemma wp_read_list : forall par h ns ps Ln L F, items (pbody par) ns ps Ln -> Permutation L (ring ((h, hblk) :: ns) ++ Ln ++ F) ->
  forall n2 n1 v1 v2 L1 L2 m (Q : _ -> heaplet -> Prop), ns = n1 ++ n2 -> ps = v1 ++ v2 -> items (pbody par) n1 v1 L1 -> items (pbody par) n2 v2 L2 -> Ln = L1 ++ L2 ->
  (length n2 <= m)%nat -> Q (shown v2) L -> wp (read_list m (fst_of 0 n2)) L Q.
Proof.
  intros par h ns ps Ln L F I PL. assert (N := items_nodes _ _ _ _ _ I).
  induction n2 as [|[b kb] n2 IH]; intros n1 v1 v2 L1 L2 m Q En Ev I1 I2 EL LM H.
  - inversion I2; subst v2 L2. destruct m; cbn [read_list fst_of Z.eqb]; apply wp_ret; exact H.
  - inversion I2 as [|b' kb' v Lx ns' vs' L' E X Y]; subst b' kb' ns' v2 L2. cbn [fst_of].
    pose proof (ring_at ((h, hblk) :: n1) b kb n2) as RA. cbn [app] in RA. rewrite <- En in RA.
    set (pb := lst_of b (n2 ++ (h, hblk) :: n1)) in *. set (nb := fst_of b (n2 ++ (h, hblk) :: n1)) in *.
    destruct X as (pv0 & nx0 & q & X & O). pose proof (prop_at_links _ _ _ _ _ _ _ pb nb X) as X'.
    assert (IN : incl ((b, set_links pb nb kb) :: Lx) L).
    { intros y [<-|IX]; (eapply Permutation_in; [apply Permutation_sym; exact PL|]).
      - apply in_or_app. left. eapply Permutation_in; [apply Permutation_sym; exact RA|]. left. reflexivity.
      - apply in_or_app. right. apply in_or_app. left. rewrite EL. apply in_or_app. right. apply in_or_app. left. exact IX. }
    destruct (prop_at_in _ _ _ _ _ _ X') as (qb & IB & _).
    destruct m as [|m]; [cbn [length] in LM; lia|]. cbn [read_list].
    eapply (wp_pos _ _ _ _ b); [apply IN; exact IB|intro PB]. rewrite (pos_nz b) by exact PB.
    apply wp_bind. eapply wp_read_at; [exact X'|exact IN|].
    apply wp_bind. assert (EN2 : ns = (n1 ++ [(b, kb)]) ++ n2) by (rewrite <- app_assoc; exact En).
    replace b with (lst_of h (n1 ++ [(b, kb)])) by (rewrite lst_of_app; reflexivity).
    eapply (wp_list_next h hblk (n1 ++ [(b, kb)]) n2 _ (Ln ++ F)); [reflexivity|rewrite <- EN2; exact N|rewrite <- EN2; exact PL|].
    apply wp_bind. eapply (IH (n1 ++ [(b, kb)]) (v1 ++ [v]) vs' (L1 ++ Lx) L' m).
    + exact EN2.
    + rewrite <- app_assoc. exact Ev.
    + apply items_app; [exact I1|]. apply items_one; [exact E|]. exists pv0, nx0, q. split; assumption.
    + exact Y.
    + rewrite <- app_assoc. exact EL.
    + cbn [length] in LM. lia.
    + apply wp_ret. exact H.
Qed.

Lemma wp_read_object : forall pv nx a o Lo L F (Q : _ -> heaplet -> Prop), obj_at pv nx a o Lo -> Permutation L (Lo ++ F) ->
  Q (look o) L -> wp (read_object a) L Q.
Proof.
  intros pv nx a o Lo L F Q OA P H. unfold read_object, uecho_object_getproperties.
  destruct (obj_open _ _ _ _ _ OA) as (c & Lr & R & PO & (ns & Ln & I & PR) & OR & _ & _).
  destruct OR as (K & La & Ls & Lg & _ & (on & Lnm & ol & Lol & _ & _ & _ & G1 & G2 & G3 & G4 & _) & _).
  set (h := j_props c) in *.
  assert (PL : Permutation L (ring ((h, hblk) :: ns) ++ Ln ++ (a, BObj c) :: R ++ F)).
  { eapply perm_trans; [exact P|]. eapply perm_trans; [apply Permutation_app_tail; exact PO|].
    eapply perm_trans; [apply Permutation_app_tail, Permutation_app_tail; exact PR|]. rperm. }
  assert (IA : In (a, BObj c) L).
  { eapply Permutation_in; [apply Permutation_sym; exact PL|]; apply in_or_app; right; apply in_or_app; right; left; reflexivity. }
  assert (N := items_nodes _ _ _ _ _ I).
  apply wp_bind. eapply wp_load_obj; [exact IA|]. eapply (wp_pos _ _ _ _ a); [exact IA|intro PA]. rewrite (pos_nz a) by exact PA.
  apply wp_bind. apply wp_bind. eapply wp_load_obj; [exact IA|]. fold h.
  change h with (lst_of h []). eapply (wp_list_next h hblk [] ns); [reflexivity|exact N|exact PL|].
  apply wp_bind. apply wp_walk. intros n LN.
  assert (LE : (length ns <= n)%nat).
  { pose proof (Permutation_length PL) as X. rewrite app_length in X. rewrite ring_length in X. cbn [length] in X. lia. }
  eapply (wp_read_list a h ns (o_props o) Ln L _ I PL ns [] [] (o_props o) [] Ln n); try reflexivity; [constructor|exact I|exact LE|].
  apply wp_ret. rewrite G1, G2, G3, G4. exact H.
Qed.

(* ---- the caller's objects ---- *)

Fixpoint all_objs (ps : list Z) (st : list (option obj)) (L : heaplet) : Prop :=
  match ps, st with
  | [], [] => L = []
  | a :: ps', Some o :: st' => exists L1 L2, Permutation L (L1 ++ L2) /\ obj_at (a, 0) a a o L1 /\ all_objs ps' st' L2
  | _ :: ps', None :: st' => all_objs ps' st' L
  | _, _ => False
  end.

Lemma all_objs_new : forall ps st L a o Lm, all_objs ps st L -> obj_at (a, 0) a a o Lm -> all_objs (ps ++ [a]) (st ++ [Some o]) (Lm ++ L).
Proof.
  induction ps as [|b ps IH]; intros [|[x|] st] L a o Lm R RM; cbn [all_objs app] in *; try contradiction.
  - subst L. exists Lm, []. split; [apply Permutation_refl|]. split; [exact RM|reflexivity].
  - destruct R as (L1 & L2 & P1 & R1 & R2). exists L1, (Lm ++ L2). split; [|split; [exact R1|eapply IH; eauto]].
    eapply perm_trans; [apply Permutation_app_head; exact P1|]. perm.
  - eapply IH; eauto.
Qed.

Lemma objs_take : forall i ps st L o, all_objs ps st L -> nth_error st i = Some (Some o) -> exists a L1 L2,
  nth_error ps i = Some a /\ Permutation L (L1 ++ L2) /\ obj_at (a, 0) a a o L1 /\ all_objs ps (place i None st) L2.
Proof.
  induction i as [|i IH]; intros [|b ps] [|[x|] st] L o R E; cbn [all_objs nth_error place] in *; try contradiction; try discriminate.
  - injection E as ->. destruct R as (L1 & L2 & P & R1 & R2). exists b, L1, L2. auto.
  - destruct R as (L1 & L2 & P1 & R1 & R2). destruct (IH ps st L2 o R2 E) as (a & K1 & K2 & EA & P & RM & RR).
    exists a, K1, (L1 ++ K2). split; [exact EA|]. split.
    + eapply perm_trans; [exact P1|]. eapply perm_trans; [apply Permutation_app_head; exact P|]. perm.
    + split; [exact RM|]. exists L1, K2. split; [apply Permutation_refl|auto].
  - destruct (IH ps st L o R E) as (a & K1 & K2 & EA & P & RM & RR). exists a, K1, K2. auto.
Qed.

Lemma objs_back : forall i ps st L a o Lm, all_objs ps st L -> nth_error ps i = Some a -> nth_error st i = Some None ->
  obj_at (a, 0) a a o Lm -> all_objs ps (place i (Some o) st) (Lm ++ L).
Proof.
  induction i as [|i IH]; intros [|b ps] [|[x|] st] L a o Lm R EA E RM; cbn [all_objs nth_error place] in *; try contradiction; try discriminate.
  - injection EA as ->. exists Lm, L. split; [apply Permutation_refl|auto].
  - destruct R as (L1 & L2 & P1 & R1 & R2). exists L1, (Lm ++ L2). split; [|split; [exact R1|eapply IH; eauto]].
    eapply perm_trans; [apply Permutation_app_head; exact P1|]. perm.
  - eapply IH; eauto.
Qed.
Lemma place_place : forall i x y st, place i x (place i y st) = place i x st.
Proof. induction i as [|i IH]; intros x y [|z st]; cbn [place]; try reflexivity. f_equal. apply IH. Qed.
Lemma place_nth : forall i x y st, nth_error st i = Some y -> nth_error (place i x st) i = Some x.
Proof. induction i as [|i IH]; intros x y [|z st] N; cbn [place nth_error] in *; try discriminate; [reflexivity|]. eapply IH. exact N. Qed.
Lemma objs_gone : forall ps st L, all_objs ps st L -> Forall (fun x => x = None) st -> L = [].
Proof.
  induction ps as [|a ps IH]; intros [|[o|] st] L R D; cbn [all_objs] in *; try contradiction; [exact R| |].
  - apply Forall_cons_iff in D. destruct D as [D _]. discriminate.
  - apply Forall_cons_iff in D. eapply IH; [exact R|apply D].
Qed.

Lemma mine_one : forall i ps st L o, all_objs ps (s_objs st) L -> mine st i = Some o -> exists a L1 L2,
  nth_error ps i = Some a /\ Permutation L (L1 ++ L2) /\ obj_at (a, 0) a a o L1 /\ all_objs ps (place i None (s_objs st)) L2
  /\ forall o' L1', obj_at (a, 0) a a o' L1' -> all_objs ps (s_objs (becomes st i o')) (L1' ++ L2).
Proof.
  intros i ps st L o R E.
  assert (E' : nth_error (s_objs st) i = Some (Some o)).
  { unfold mine in E. destruct (nth_error (s_objs st) i) as [[x|]|]; try discriminate. congruence. }
  destruct (objs_take i ps _ L o R E') as (a & L1 & L2 & EA & P & RM & RR).
  exists a, L1, L2. split; [exact EA|]. split; [exact P|]. split; [exact RM|]. split; [exact RR|].
  intros o' L1' RM'. cbn [becomes s_objs]. rewrite <- (place_place i (Some o') None). eapply objs_back; [exact RR|exact EA| |exact RM'].
  eapply place_nth. exact E'.
Qed.

(* ---- sizes ---- *)

Lemma einv_count : forall o, einv o -> (length (o_props o) <= 128)%nat.
Proof.
  intros o [[ND _] E]. rewrite <- (map_length p_code). 
  assert (I : incl (map p_code (o_props o)) (map (fun k => 128 + Z.of_nat k) (seq 0 128))).
  { intros c IC. apply in_map_iff in IC. destruct IC as (p & <- & IP). unfold epl in E. rewrite Forall_forall in E. specialize (E p IP).
    unfold epc in E. apply in_map_iff. exists (Z.to_nat (p_code p - 128)). split; [lia|]. apply in_seq. lia. }
  apply NoDup_incl_length in I; [|exact ND]. rewrite !map_length, seq_length in I. rewrite map_length. exact I.
Qed.

Definition ginv (st : ostate) : Prop := (forall i o, mine st i = Some o -> einv o) /\ Forall einv (s_db st).

Lemma ginv_db : forall l, Forall einv l -> db_ok l.
Proof.
  intros l H. unfold db_ok. eapply Forall_impl; [|exact H]. intros o [[_ PO] EP]. apply Forall_forall. intros p IP.
  unfold plist_ok in PO. unfold epl in EP. rewrite Forall_forall in PO, EP. specialize (PO p IP). specialize (EP p IP).
  split; [exact EP|apply PO].
Qed.

Section Room.
Variable room : Z -> bool.
Hypothesis Room : forall n, room n = true.
Variable junk : nat -> Z.
Variable db : Z.

Definition world (ps : list Z) (st : ostate) (L : heaplet) : Prop :=
  exists Ls Ld, Permutation L (Ls ++ Ld) /\ all_objs ps (s_objs st) Ls /\ dlist db (s_db st) Ld.
Definition after (v : uobs) (st : ostate) (F : heaplet) (r : uobs * list Z) (L : heaplet) : Prop :=
  fst r = v /\ exists W, Permutation L (W ++ F) /\ world (snd r) st W.

Lemma buffer_size : forall d, buffer d -> len d < SIZE_MOD.
Proof. intros d [_ B]. unfold OBJ_MAX, SIZE_MOD in *. lia. Qed.
Lemma given_self : forall p d (G : heaplet), given_at p d ((p, BBytes (map Some d)) :: G).
Proof. intros p d G _. exists (map Some d). split; [left; reflexivity|]. apply rd_range_whole. apply len_map. Qed.

Lemma after_perm : forall v st F r L L', after v st F r L -> Permutation L L' -> after v st F r L'.
Proof. intros v st F r L L' (A & W & PW & B) P. split; [exact A|]. exists W. split; [eapply perm_trans; [apply Permutation_sym; exact P|exact PW]|exact B]. Qed.
Lemma addstd_getsz : forall l o, o_getsz (fst (M_Object.uecho_object_addstandardproperties l o)) = o_getsz o.
Proof.
  intros l o. rewrite addstd_eq. destruct (addmissing_spec (db_props l (o_grp o) (o_cls o)) (addmissing o (db_props l 0 0))) as (_ & _ & _ & G & _).
  destruct (addmissing_spec (db_props l 0 0) o) as (_ & _ & _ & G' & _). rewrite G. exact G'.
Qed.

Lemma wp_hprops : forall a o op o' ann L Lo F (Q : uobs -> heaplet -> Prop), obj_at (a, 0) a a o Lo -> Permutation L (Lo ++ F) -> einv o ->
  ostep junk o op = Ok (o', ann) ->
  (match op with OSetProperty c _ => map_room o | OPropAppend c d => forall p, M_Object.uecho_object_getproperty o c = Some p -> len (p_data p) + len d <= OBJ_MAX | _ => True end) ->
  (match op with OSetData _ d | OAdd _ _ d | OPropData _ d | OPropAppend _ d => buffer d | _ => True end) ->
  (forall Lo', obj_at (a, 0) a a o' Lo' -> Q (answer o op) (Lo' ++ F)) -> wp (hprops room junk a op) L Q.
Proof.
  intros a o op o' ann L Lo F Q OA P EI E RU AR H. eapply wp_perm; [exact P|]. clear L P.
  destruct op; cbn [ostep hprops answer] in *.
  - apply wp_bind. eapply wp_obj_setproperty; [exact Room|exact OA|apply Permutation_refl|exact E| |intros Lo' X; apply wp_ret, H; exact X].
    pose proof (einv_count o EI). unfold map_room, OBJ_MAX, SIZE_MOD in *. lia.
  - apply wp_bind. injection E as <- _. eapply wp_obj_setattr; [exact Room|exact OA|apply Permutation_refl|]. intros Lo' X. apply wp_ret, H. exact X.
  - apply wp_bind. apply wp_given. intros p P0. injection E as E.
    eapply (wp_obj_setdata room Room (a, 0) a a o c p d Lo _ ((p, BBytes (map Some d)) :: F)); [exact OA|perm|apply buffer_size; exact AR|apply given_self|].
    intros Lo' X. exists (Lo' ++ F). split; [perm|]. apply wp_ret, H. rewrite E in X. exact X.
  - apply wp_bind. injection E as E. eapply wp_obj_setbyte; [exact Room|exact OA|apply Permutation_refl|]. intros Lo' X. apply wp_ret, H. rewrite E in X. exact X.
  - injection E as <- _. rewrite <- (prop_built c a0 d) in H.
    apply wp_bind. apply (wp_prop_new room Room). intros q Lq _ Rq.
    apply wp_bind. eapply wp_setcode; [exact Rq|apply Permutation_refl|]. clear Lq Rq. intros Lq Rq.
    apply wp_bind. eapply wp_setattribute; [exact Rq|apply Permutation_refl|]. clear Lq Rq. intros Lq Rq.
    apply wp_bind. apply wp_given. intros p P0.
    eapply (wp_setdata room Room q _ Lq p 0 d (map Some d) _ ((p, BBytes (map Some d)) :: Lo ++ F)); [exact Rq|perm|apply buffer_size; exact AR| |].
    { intros _. split; [left; reflexivity|]. apply rd_range_whole. apply len_map. }
    clear Lq Rq. intros Lq Rq. exists (Lq ++ Lo ++ F). split; [perm|].
    apply wp_bind. eapply (wp_obj_addproperty (a, 0) a a o q _ Lq Lo _ F); [exact OA|exact Rq|apply Permutation_refl|].
    intros Lo' X. apply wp_ret, H. exact X.
  - apply wp_bind. apply wp_given. intros p P0. injection E as E.
    eapply (wp_obj_prop_setdata room Room (a, 0) a a o c p d Lo _ ((p, BBytes (map Some d)) :: F)); [exact OA|perm|apply buffer_size; exact AR|apply given_self|].
    intros Lo' b X EB. exists (Lo' ++ F). split; [perm|]. apply wp_ret. rewrite EB. apply H. rewrite E in X. exact X.
  - apply wp_bind. apply wp_given. intros p P0. injection E as E.
    eapply (wp_obj_prop_adddata room Room junk (a, 0) a a o c p d Lo _ ((p, BBytes (map Some d)) :: F)); [exact OA|perm| |apply given_self|].
    { intros q G. specialize (RU q G). unfold OBJ_MAX, SIZE_MOD in *. lia. }
    intros Lo' b X EB. exists (Lo' ++ F). split; [perm|]. apply wp_ret. rewrite EB. apply H. rewrite E in X. exact X.
  - apply wp_bind. injection E as <- _. eapply wp_obj_clear; [exact OA|apply Permutation_refl|]. intros Lo' X. apply wp_ret, H. exact X.
Qed.

Lemma wp_ustep : forall op ps st v st' L W F, vstep junk op st = Some (v, st') -> args_ok op -> rules op st -> ginv st -> world ps st W ->
  Permutation L (W ++ F) -> wp (ustep room junk db op ps) L (after v st' F).
Proof.
  intros op ps st v st' L W F E OK RU [GI GD] (Ls & Ld & PW & R & D) P.
  assert (PP : Permutation L (Ls ++ Ld ++ F)).
  { eapply perm_trans; [exact P|]. rewrite app_assoc. apply Permutation_app_tail. exact PW. }
  clear W P PW. eapply wp_perm; [exact PP|]. clear L PP.
  destruct op as [|i|i op|i c v0 size|i c|i v0|i v0|i v0|i v0|i b|i esv c hd|i esv c|i|i].
  { (* new *) cbn [vstep] in E. injection E as <- <-. cbn [ustep]. apply wp_bind. apply (wp_obj_new room Room). intros a Lo _ OA. apply wp_ret.
    split; [reflexivity|]. cbn [snd]. exists (Lo ++ Ls ++ Ld). split; [perm|]. exists (Lo ++ Ls), Ld. split; [perm|]. cbn [s_objs s_db].
    split; [apply all_objs_new; assumption|exact D]. }
  all: cbn [vstep target] in E; destruct (mine st i) as [o|] eqn:EM; [|discriminate].
  all: destruct (mine_one i ps st Ls o R EM) as (a & L1 & L2 & EA & PL & OA & RD & BACK).
  all: assert (EI := GI i o EM).
  all: cbn [ustep]; unfold handle; rewrite EA; apply wp_bind, wp_ret.
  all: eapply wp_perm; [apply Permutation_app_tail; exact PL|]; rewrite <- app_assoc.
  all: assert (DONE : forall o' r La, obj_at (a, 0) a a o' La -> after r (becomes st i o') F (r, ps) (La ++ L2 ++ Ld ++ F))
    by (intros o' r La X; split; [reflexivity|]; exists (La ++ L2 ++ Ld); split; [perm|]; exists (La ++ L2), Ld; split; [perm|]; split; [apply BACK; exact X|exact D]).
  all: assert (SAME : becomes st i o = st -> forall r, after r st F (r, ps) (L1 ++ L2 ++ Ld ++ F))
    by (intros ES r; rewrite <- ES; apply DONE; exact OA).
  all: cbn [rules target value_of args_ok] in *; try (destruct RU as (o0 & EM0 & RU); rewrite EM in EM0; injection EM0 as <-).
  - (* delete *) injection E as <- <-. apply wp_bind. eapply wp_obj_delete; [exact OA|apply Permutation_refl|]. apply wp_ret.
    split; [reflexivity|]. exists (L2 ++ Ld). split; [perm|]. exists L2, Ld. split; [apply Permutation_refl|]. split; [exact RD|exact D].
  - (* properties *) destruct (ostep junk o op) as [[o' ann]|] eqn:EO; [|discriminate]. cbn [bind fst] in E. injection E as <- <-.
    apply wp_bind. eapply wp_hprops; [exact OA|apply Permutation_refl|exact EI|exact EO| | |].
    + destruct op; try exact Logic.I; try apply RU; exact RU.
    + destruct op; try exact Logic.I; apply OK.
    + intros La X. apply wp_ret. apply DONE. exact X.
  - (* integer *) destruct (M_Object.uecho_object_setpropertyintegerdata o c v0 size) as [[o' ann]|] eqn:EO; [|discriminate]. cbn [bind fst] in E. injection E as <- <-.
    apply wp_bind. eapply wp_obj_setint; [exact Room|exact OA|apply Permutation_refl|exact EO| |].
    + unfold SIZE_MOD. destruct OK as (_ & O2 & _). lia.
    + intros La X. apply wp_ret. apply DONE. exact X.
  - (* size *) injection E as <- <-. apply wp_bind. eapply wp_obj_getsize; [exact Room|exact OA|apply Permutation_refl|].
    intros La X. apply wp_ret. apply DONE. exact X.
  - (* code *) destruct (M_Object.uecho_object_setcode (s_db st) junk o v0) as [[o' ann]|] eqn:EO; [|discriminate]. cbn [bind fst] in E. injection E as <- <-.
    apply wp_bind. eapply (wp_obj_setcode room Room junk db (a, 0) a a o (s_db st) v0 o' ann L1 Ld _ (L2 ++ F)); [exact OA|exact D|perm|exact EO| |].
    + intros g k j. cbv zeta. pose proof (einv_count _ (addstd_einv (s_db st) _ (ginv_db _ GD) (with_code_einv g k j o EI))) as C.
      destruct RU as [MR _]. unfold map_room in MR.
      rewrite addstd_getsz. cbn [o_with_code o_getsz]. unfold OBJ_MAX, SIZE_MOD in *. lia.
    + intros La X. apply wp_ret. eapply after_perm; [apply DONE; exact X|perm].
  - (* group *) injection E as <- <-. apply wp_bind. eapply (wp_obj_setgroup room Room junk db (a, 0) a a o (s_db st) v0 L1 Ld _ (L2 ++ F)); [exact OA|exact D|perm|].
    intros La X. apply wp_ret. eapply after_perm; [apply DONE; exact X|perm].
  - (* class *) injection E as <- <-. apply wp_bind. eapply (wp_obj_setclass room Room junk db (a, 0) a a o (s_db st) v0 L1 Ld _ (L2 ++ F)); [exact OA|exact D|perm|].
    intros La X. apply wp_ret. eapply after_perm; [apply DONE; exact X|perm].
  - (* instance *) injection E as <- <-. apply wp_bind. eapply wp_obj_setinstance; [exact OA|apply Permutation_refl|].
    intros La X. apply wp_ret. apply DONE. exact X.
  - (* listener *) injection E as <- <-. apply wp_bind. eapply wp_obj_listener; [exact OA|apply Permutation_refl|].
    intros La X. apply wp_ret. apply DONE. exact X.
  - (* handler *) injection E as <- <-. apply wp_bind. eapply wp_obj_handler; [exact Room|exact OA|apply Permutation_refl|].
    intros La X. apply wp_ret. apply DONE. exact X.
  - (* find *) injection E as <- <-. apply wp_bind. eapply wp_obj_gethandler; [exact OA|apply Permutation_refl|].
    apply wp_ret. apply DONE. exact OA.
  - (* read *) injection E as <- <-. apply wp_bind. eapply wp_read_object; [exact OA|apply Permutation_refl|].
    apply wp_ret. apply DONE. exact OA.
  - (* share *) injection E as <- <-. apply wp_bind. destruct OA as (c & Lx & PX & N0 & _ & OD). injection N0 as _ Nc.
    eapply (wp_rl_add _ obody db (s_db st) Ld a (BObj c) o Lx _ (L2 ++ F)); [exact D|reflexivity|exists c; split; [reflexivity|split; [exact Nc|exact OD]]| |].
    + eapply perm_trans; [apply Permutation_app_tail; exact PX|]. cbn [app]. perm.
    + intros Lr X. apply wp_ret. split; [reflexivity|]. exists (L2 ++ Lr). split; [perm|]. exists L2, Lr. split; [apply Permutation_refl|].
      split; [exact RD|]. cbn [s_db]. apply rl_at_list in X. exact X.
Qed.
End Room.

Lemma wp_db_delete : forall db ds Ld L F (Q : unit -> heaplet -> Prop), dlist db ds Ld -> Permutation L (Ld ++ F) -> Q tt F ->
  wp (uecho_objectlist_delete db) L Q.
Proof.
  intros db ds Ld L F Q D P H. unfold uecho_objectlist_delete.
  destruct (rlist_head _ _ _ _ _ D) as (u & v & IH).
  eapply (wp_pos _ _ _ _ db); [eapply Permutation_in; [apply Permutation_sym; exact P|]; apply in_or_app; left; exact IH|intro PD].
  rewrite (pos_nz db) by exact PD. apply wp_bind. eapply (P_Ring.wp_clear _ _ object_destructor db ds Ld L F); [exact D|exact P| |].
  - intros a k o Lx L' F' R OB FK _ P' _ HR. unfold object_destructor. apply wp_bind.
    eapply (wp_obj_delete _ a o ((a, set_links a a k) :: Lx) _ F'); [apply nbody_at; exact OB|exact P'|]. apply wp_ret. exact HR.
  - eapply wp_free; [apply pf_here|exact H].
Qed.
