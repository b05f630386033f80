(* A response stores its properties in an object of a node: the functions of M_CtrlMem.v follow those of M_Controller.v. *)
From Coq Require Import String Ascii ZArith List Bool Lia Permutation.
From Coq Require Import ZifyBool ZifyNat.
Ltac Zify.zify_post_hook ::= Z.div_mod_to_equations.
From Verif Require Import CSem P_Base M_Const M_Misc M_String M_Property M_PropertyList P_PropertyList M_Log M_Message M_Object M_Node M_NodeListener M_Controller
  M_Mem M_MemUse M_ObjMem M_Life M_NodeMem M_NodeLife M_CtrlMem Spec_Message P_Mem P_MemMsg P_MemParse P_MemProp P_MemBytes P_MemCopy P_MemPkt P_MemRun P_Ring P_ObjProp P_ObjCache P_ObjMem P_ObjUse P_ObjStd
  P_Object P_ObjectRun P_ObjectReach P_ObjRun P_Life P_LifeRun P_NodeMem P_NodeRecv P_NodeLife P_NodeBuild P_NodeAlive P_NodeWhole P_CtrlProp.
From Verif Require P_MemRecv Spec_Mem.
Import ListNotations.
Open Scope Z_scope.

(* ---- how an object grows ---- *)

Definition SMALL : Z := 1099511627776.
Definition small_obj (o : obj) : Prop := Z.of_nat (o_getsz o + length (o_props o)) <= SMALL.
(* after [k] turns of a loop *)
Definition sized (k : Z) (o : obj) : Prop :=
  Z.of_nat (length (o_props o)) <= SMALL + 4 * k /\ Z.of_nat (o_getsz o) <= SMALL + k * (SMALL + 2000).
Lemma sized_small : forall o, small_obj o -> sized 0 o.
Proof. intros o H. unfold small_obj, sized in *. lia. Qed.
Lemma sized_room : forall k o, 0 <= k <= 256 -> sized k o -> Z.of_nat (o_getsz o + length (o_props o)) + 2 < SIZE_MOD.
Proof. intros k o K [A B]. unfold SIZE_MOD, SMALL in *. nia. Qed.

Lemma setdata_len : forall l code d, (length (fst (M_PropertyList.uecho_propertylist_setdata l code d)) <= S (length l))%nat.
Proof.
  intros l code d. rewrite pl_setdata_eq. cbn [fst]. unfold put. rewrite upd_len.
  destruct (find l code); [lia|]. rewrite app_length. cbn [length]. lia.
Qed.
Lemma setmap_len : forall o m cs o' ann, M_Object.uecho_object_setpropertymap o m cs = Ok (o', ann) -> (length (o_props o') <= S (length (o_props o)))%nat.
Proof.
  intros o m cs o' ann H. unfold M_Object.uecho_object_setpropertymap in H. destruct cs as [cs|]; [|discriminate].
  destruct (len cs <=? MapFormat1MaxSize).
  - rewrite (surjective_pairing (M_PropertyList.uecho_propertylist_set (o_props o) m AttrRead (to_byte (len cs) :: cs))) in H. injection H as <- _.
    cbn [o_with_props o_props]. apply set_len.
  - apply bind_ok in H. destruct H as (dd & _ & H). rewrite (surjective_pairing (M_PropertyList.uecho_propertylist_setdata (o_props o) m dd)) in H. injection H as <- _.
    cbn [o_with_props o_props]. apply setdata_len.
Qed.
Lemma setproperty_grow : forall junk o c a o' ann, M_Object.uecho_object_setproperty junk o c a = Ok (o', ann) ->
  (length (o_props o') <= length (o_props o) + 4)%nat /\ (o_getsz o' <= o_getsz o + length (o_props o) + 1)%nat
  /\ M_Object.uecho_object_getcode o' = M_Object.uecho_object_getcode o /\ o_attached o' = o_attached o.
Proof.
  intros junk o c a o' ann E. destruct (setproperty_shape _ _ _ _ _ _ E) as (l0 & n0 & EO).
  assert (T : M_Object.uecho_object_getcode o' = M_Object.uecho_object_getcode o /\ o_attached o' = o_attached o) by (rewrite EO; split; reflexivity).
  unfold M_Object.uecho_object_setproperty in E. pose proof (set_len (o_props o) c a []) as LS.
  destruct (M_PropertyList.uecho_propertylist_set (o_props o) c a []) as [l an]. cbn [fst] in LS.
  apply bind_ok in E. destruct E as ([o1 an1] & E & E'). injection E' as <- _.
  set (l' := update_first c (M_Property.uecho_property_setparentobject true) l) in *.
  assert (LL : length l' = length l) by apply upd_len.
  unfold M_Object.uecho_object_updatepropertymaps, M_Object.uecho_object_clearpropertymapcaches in E. cbv zeta in E.
  apply bind_ok in E. destruct E as ([o2 a1] & E1 & E). apply bind_ok in E. destruct E as ([o3 a2] & E2 & E). apply bind_ok in E. destruct E as ([o4 a3] & E3 & E).
  injection E as -> _. pose proof (setmap_len _ _ _ _ _ E1) as X1. pose proof (setmap_len _ _ _ _ _ E2) as X2. pose proof (setmap_len _ _ _ _ _ E3) as X3.
  apply setmap_code in E1. apply setmap_code in E2. apply setmap_code in E3. destruct E1 as [m1 E1]. destruct E2 as [m2 E2]. destruct E3 as [m3 E3].
  cbn [o_with_getsz o_with_props o_props] in X1.
  assert (GG : o_getsz o1 = (o_getsz o + length (filter uecho_property_isreadable l'))%nat) by (rewrite E3, E2, E1; reflexivity).
  pose proof (codes_len uecho_property_isreadable l') as CL. rewrite map_length in CL.
  split; [lia|]. split; [lia|exact T].
Qed.
Lemma store_grow : forall o c d, let o' := fst (object_property_setdata o c d) in
  length (o_props o') = length (o_props o) /\ o_getsz o' = o_getsz o /\ M_Object.uecho_object_getcode o' = M_Object.uecho_object_getcode o /\ o_attached o' = o_attached o.
Proof.
  intros o c d. unfold object_property_setdata. destruct (M_Object.uecho_object_getproperty o c) as [p|]; [|repeat split].
  rewrite (surjective_pairing (M_Property.uecho_property_setdata d p)). cbn [fst o_with_props o_props o_getsz]. rewrite upd_len. repeat split.
Qed.

(* one turn of the loop on values *)
Section Val.
Variable le : bool.
Variable snet : post -> bool.
Definition one (fr : fresh) (j : nat) (n : node) (oc : Z) (p : prop) (updated : bool) : res (node * bool) :=
  match M_Node.uecho_node_getobjectbycode n oc with
  | None => Undef UB_null
  | Some o =>
      do x <- (if M_Object.uecho_object_hasproperty o (p_code p) then Ok (n, [])
               else node_object_op le snet (fun o => M_Object.uecho_object_setproperty (fr_more fr j) o (p_code p) AttrNone) n oc) ;;
      match M_Node.uecho_node_getobjectbycode (fst x) oc with
      | None => Undef UB_null
      | Some o1 =>
          match M_Object.uecho_object_getproperty o1 (p_code p) with
          | None => Ok (fst x, updated)
          | Some q =>
              if M_Property.uecho_property_isdataequal q (p_data p) then Ok (fst x, updated)
              else do y <- node_object_op le snet (fun o => Ok (object_property_setdata o (p_code p) (p_data p))) (fst x) oc ;; Ok (fst y, true)
          end
      end
  end.
Lemma one_eq : forall fr j n oc p r updated, M_Controller.update_loop le snet fr j n oc (p :: r) updated =
  do y <- one fr j n oc p updated ;; M_Controller.update_loop le snet fr (S j) (fst y) oc r (snd y).
Proof.
  intros fr j n oc p r updated. unfold one. cbn [M_Controller.update_loop]. destruct (M_Node.uecho_node_getobjectbycode n oc) as [o|]; [|reflexivity].
  match goal with |- bind ?e _ = _ => destruct e as [x|] end; [|reflexivity]. cbn [bind].
  destruct (M_Node.uecho_node_getobjectbycode (fst x) oc) as [o1|]; [|reflexivity].
  destruct (M_Object.uecho_object_getproperty o1 (p_code p)) as [q|]; [|reflexivity].
  destruct (M_Property.uecho_property_isdataequal q (p_data p)); [reflexivity|].
  match goal with |- bind ?e _ = _ => destruct e as [y|] end; reflexivity.
Qed.
End Val.

Section Room.
Variable room : Z -> bool.
Hypothesis Room : forall n, room n = true.
Variable le : bool.
Variable snet : post -> bool.

(* finding a property of an object of the node *)
Lemma wp_nobj_find : forall nd ol v1 a o v2 Lr code L F (Q : Z -> heaplet -> Prop), rl_at (nbody nd) ol v1 a o v2 Lr -> Permutation L (Lr ++ F) ->
  (M_Object.uecho_object_getproperty o code = None -> Q 0 L) ->
  (forall h w1 x p w2 Lp R, M_Object.uecho_object_getproperty o code = Some p -> o_props o = w1 ++ p :: w2 -> others code w1 -> (p_code p =? code) = true -> 0 < x ->
     pl_at a h w1 x p w2 Lp -> rest_of nd ol v1 a o v2 h R -> Permutation Lr (Lp ++ R) -> Permutation L ((Lp ++ R) ++ F) -> Q x L) ->
  wp (M_ObjMem.uecho_object_getproperty a code) L Q.
Proof.
  intros nd ol v1 a o v2 Lr code L F Q RA P H0 H1. destruct (rl_props _ _ _ _ _ _ _ RA) as (c & Lp & R & PL & IC & PR & BK).
  assert (P' : Permutation L ((Lp ++ R) ++ F)) by (eapply perm_trans; [exact P|apply Permutation_app_tail; exact PL]).
  assert (IC' : In (a, BObj c) L) by (eapply Permutation_in; [apply Permutation_sym; exact P'|]; apply in_or_app; left; apply in_or_app; right; exact IC).
  unfold M_ObjMem.uecho_object_getproperty. eapply (wp_pos _ _ _ _ a); [exact IC'|]. intro PA. rewrite (pos_nz a) by exact PA.
  apply wp_bind. eapply wp_load_obj; [exact IC'|].
  eapply (wp_findbycode a (j_props c) (o_props o) code Lp L (R ++ F)); [exact PR|eapply perm_trans; [exact P'|perm]| |].
  - intro OT. apply H0. unfold M_Object.uecho_object_getproperty. apply find_others. exact OT.
  - intros w1 x p w2 EP OT EB PX AT. eapply (H1 (j_props c) w1 x p w2 Lp R); [|exact EP|exact OT|exact EB|exact PX|exact AT|exact BK|exact PL|exact P'].
    unfold M_Object.uecho_object_getproperty. rewrite EP. apply find_split; assumption.
Qed.

Lemma wp_isdataequal : forall pv nx q x p Lp y d L (Q : bool -> heaplet -> Prop), prop_at pv nx q x p Lp -> incl Lp L -> given_at y d L ->
  Q (M_Property.uecho_property_isdataequal p d) L -> wp (uecho_property_isdataequal x y (len d)) L Q.
Proof.
  intros pv nx q x p Lp y d L Q X I G H. destruct (prop_at_data _ _ _ _ _ _ X) as (c & IX & _ & _ & ES & _ & _ & GX).
  unfold uecho_property_isdataequal. eapply (wp_pos _ _ _ _ x); [apply I; exact IX|]. intro PX. rewrite (pos_nz x) by exact PX.
  apply wp_bind. eapply wp_load_prop; [apply I; exact IX|]. rewrite ES.
  unfold M_Property.uecho_property_isdataequal, uecho_property_getdatasize in H.
  destruct (Z.eqb_spec (len (p_data p)) (len d)) as [E|E]; cbn [negb andb] in *; [|apply wp_ret; exact H].
  destruct (Z.eqb_spec (len d) 0) as [Z0|NZ].
  - apply wp_ret. apply len_0_nil in Z0. subst d. apply len_0_nil in E. rewrite E in H. exact H.
  - assert (ND : d <> []) by (intro Y; subst d; apply NZ; reflexivity).
    assert (NP : p_data p <> []) by (intro Y; rewrite Y in E; apply NZ; rewrite <- E; reflexivity).
    destruct (GX NP) as (bx & IBX & RX). destruct (G ND) as (b & IB & RB). rewrite E in RX.
    assert (RD : forall t e b0 (R : _ -> heaplet -> Prop), In (t, BBytes b0) L -> rd_range b0 0 (len d) = Ok (map Some e) -> R e L -> wp (read_bytes t (len d)) L R).
    { intros t e b0 R IT RT HR. unfold read_bytes. apply wp_bind. eapply wp_load_bytes; [exact IT|]. apply wp_bind. eapply wp_lift; [exact RT|].
      eapply wp_lift; [apply init_bytes_map_Some|exact HR]. }
    apply wp_bind. eapply RD; [apply I; exact IBX|exact RX|]. apply wp_bind. eapply RD; [exact IB|exact RB|]. apply wp_ret.
    exact H.
Qed.

(* what holds of the object while the loop runs *)
Definition at_code (oc : Z) (n : node) (v1 : list obj) (o : obj) (v2 : list obj) : Prop :=
  n_objs n = v1 ++ o :: v2 /\ differ oc v1 /\ (M_Object.uecho_object_getcode o =? oc) = true.
Lemma at_code_find : forall oc n v1 o v2, at_code oc n v1 o v2 -> M_Node.uecho_node_getobjectbycode n oc = Some o.
Proof. intros oc n v1 o v2 (E & D & H). unfold M_Node.uecho_node_getobjectbycode. rewrite E. apply value_find; assumption. Qed.

Lemma wp_update_one : forall fr j oc k nd pv nx ps v1 a o v2 y mp pvy nxy qy Ly u n r Lr L F (Q : bool -> heaplet -> Prop),
  (nd =? 0) = false -> (node_server ps =? 0) = false -> rl_at (nbody nd) (node_objects ps) v1 a o v2 Lr -> at_code oc n v1 o v2 ->
  prop_at pvy nxy qy y mp Ly -> incl Ly F -> 0 <= k <= 255 -> sized k o ->
  Permutation L ((nd, nblk pv nx ps (n_tid n)) :: Lr ++ F) -> one le snet fr j n oc mp u = Ok r ->
  (forall o' Lr', rl_at (nbody nd) (node_objects ps) v1 a o' v2 Lr' -> at_code oc (fst r) v1 o' v2 -> keeps n (fst r) -> sized (k + 1) o' ->
     Q (snd r) ((nd, nblk pv nx ps (n_tid (fst r))) :: Lr' ++ F)) ->
  wp (update_one room le snet fr j a y u) L Q.
Proof.
  intros fr j oc k nd pv nx ps v1 a o v2 y mp pvy nxy qy Ly u n r Lr L F Q ND SV RA AC PY IY KB SZ P E H. eapply wp_perm; [exact P|]. clear L P.
  destruct (prop_at_data _ _ _ _ _ _ PY) as (c & IC & EC & _ & ES & SB & _ & GD).
  assert (IC' : forall x L0, In (y, BProp c) (x :: L0 ++ F)) by (intros x L0; right; apply in_or_app; right; apply IY; exact IC).
  assert (GF : given_at (q_data c) (p_data mp) F).
  { intro X. destruct (GD X) as (b & IB & RB). exists b. split; [apply IY; exact IB|exact RB]. }
  unfold update_one. eapply (wp_pos _ _ _ _ y); [apply IC'|]. intro PPY. rewrite (pos_nz y) by exact PPY.
  apply wp_bind. eapply wp_load_prop; [apply IC'|]. rewrite EC.
  unfold one in E. rewrite (at_code_find _ _ _ _ _ AC) in E. apply bind_ok in E. destruct E as ([n1 q1] & E1 & E). cbn [fst] in E.
  (* the second half, on the object as it is after the property was added *)
  assert (REST : forall o1 Lr1, rl_at (nbody nd) (node_objects ps) v1 a o1 v2 Lr1 -> at_code oc n1 v1 o1 v2 -> keeps n n1 -> sized (k + 1) o1 ->
    wp (let! op := M_ObjMem.uecho_object_getproperty a (p_code mp) in
        if op =? 0 then ret u
        else let! m := load_prop y in let! same := uecho_property_isdataequal op (q_data m) (q_size m) in
             if same then ret u else let! _ := M_NodeMem.uecho_property_setdata room le snet op (q_data m) (q_size m) in ret true)
       ((nd, nblk pv nx ps (n_tid n1)) :: Lr1 ++ F) Q).
  { clear E1. intros o1 Lr1 RA1 AC1 K1 SZ1. rewrite (at_code_find _ _ _ _ _ AC1) in E. apply wp_bind.
    eapply (wp_nobj_find nd _ v1 a o1 v2 Lr1 (p_code mp) _ ((nd, nblk pv nx ps (n_tid n1)) :: F)); [exact RA1|perm| |].
    - intro NO. rewrite NO in E. injection E as <-. cbn [Z.eqb]. apply wp_ret. apply (H o1); assumption.
    - intros h w1 x p w2 Lp R EG EP OT EB PX AT BK PLR PL. rewrite (pos_nz x) by exact PX. rewrite EG in E.
      apply wp_bind. eapply wp_load_prop; [apply IC'|]. rewrite ES.
      destruct (pl_focus _ _ _ _ _ _ _ AT) as (pv0 & nx0 & q0 & Lx & RR & X & _ & PX0 & _).
      apply wp_bind. eapply (wp_isdataequal pv0 nx0 q0 x p Lx); [exact X| | |].
      + intros z Z0. right. apply in_or_app. left. eapply Permutation_in; [apply Permutation_sym; exact PLR|]. apply in_or_app. left.
        eapply Permutation_in; [apply Permutation_sym; exact PX0|]. apply in_or_app. left. exact Z0.
      + intro Y. destruct (GF Y) as (b & IB & RB). exists b. split; [right; apply in_or_app; right; exact IB|exact RB].
      + destruct (M_Property.uecho_property_isdataequal p (p_data mp)).
        { injection E as <-. apply wp_ret. apply (H o1); assumption. }
        apply bind_ok in E. destruct E as ([n2 q2] & E2 & E). injection E as <-. cbn [fst snd] in H.
        destruct AC1 as (EO & DF & HIT). pose proof (store_grow o1 (p_code mp) (p_data mp)) as (G1 & G2 & G3 & G4).
        assert (AT1 : o_attached (fst (object_property_setdata o1 (p_code mp) (p_data mp))) = true) by (rewrite G4; exact (attached_at _ _ _ _ _ _ _ ND RA1)).
        destruct (op_at le snet _ n1 oc v1 o1 v2 _ _ n2 q2 EO DF HIT (f_equal Ok (surjective_pairing _)) AT1 E2) as (EM & K & EO').
        rewrite G3 in EM.
        assert (OS : fst (object_property_setdata o1 (p_code mp) (p_data mp)) = o_with_props (w1 ++ pdata (p_data mp) p :: w2) o1
                     /\ snd (object_property_setdata o1 (p_code mp) (p_data mp)) = snd (M_Property.uecho_property_setdata (p_data mp) p)).
        { unfold object_property_setdata. rewrite EG, (surjective_pairing (M_Property.uecho_property_setdata (p_data mp) p)). cbn [fst snd].
          split; [|reflexivity]. rewrite EP, upd_split by assumption. rewrite setdata_fst. reflexivity. }
        destruct OS as [OS1 OS2]. rewrite OS2 in EM. set (o2 := fst (object_property_setdata o1 (p_code mp) (p_data mp))) in *.
        eapply (wp_perm _ _ _ ((nd, nblk pv nx ps (n_tid n1)) :: (Lp ++ R) ++ F)); [apply perm_skip, Permutation_app_tail; exact PLR|].
        apply wp_bind.
        eapply (wp_node_setdata room Room le snet nd pv nx ps v1 a o1 v2 h w1 x p w2 (q_data c) (p_data mp) Lp R (n_with_objs (v1 ++ o2 :: v2) n1) n2 q2 _ F);
          [exact SV|exact AT|exact BK|apply Permutation_refl|exact SB|exact GF| |exact EM|].
        * cbn [n_with_objs n_objs]. apply profiled_mid. exact G3.
        * intros Lp' AT'. apply wp_ret. apply (H o2).
          -- rewrite OS1. apply BK. exact (rl_at_list _ _ _ _ _ _ _ _ AT').
          -- split; [exact EO'|]. split; [exact DF|]. rewrite G3. exact HIT.
          -- eapply keeps_trans; [exact K1|exact K].
          -- destruct SZ1 as [Z1 Z2]. unfold sized. rewrite G1, G2. split; assumption. }
  apply wp_bind. eapply (wp_nobj_find nd _ v1 a o v2 Lr (p_code mp) _ ((nd, nblk pv nx ps (n_tid n)) :: F)); [exact RA|perm| |].
  - intro NO. cbn [Z.eqb]. unfold M_Object.uecho_object_hasproperty in E1. rewrite NO in E1. destruct AC as (EO & DF & HIT).
    assert (X : exists o' anns, M_Object.uecho_object_setproperty (fr_more fr j) o (p_code mp) AttrNone = Ok (o', anns)).
    { unfold node_object_op, M_Node.uecho_node_getobjectbycode in E1. rewrite EO, (value_find _ _ _ _ DF HIT) in E1. apply bind_ok in E1. destruct E1 as ([o' anns] & E1 & _). eauto. }
    destruct X as (o' & anns & EI). destruct (setproperty_grow _ _ _ _ _ _ EI) as (G1 & G2 & G3 & G4).
    assert (AT1 : o_attached o' = true) by (rewrite G4; exact (attached_at _ _ _ _ _ _ _ ND RA)).
    destruct (op_at le snet _ n oc v1 o v2 _ _ n1 q1 EO DF HIT EI AT1 E1) as (EM & K & EO'). rewrite G3 in EM.
    apply wp_bind. eapply (wp_nsetproperty room Room le snet (fr_more fr j) nd pv nx ps v1 a o v2 (p_code mp) AttrNone o' anns Lr (n_with_objs (v1 ++ o' :: v2) n) n1 q1 _ F);
      [exact SV|exact RA|apply Permutation_refl| |exact EI|eapply (sized_room k); [lia|exact SZ]|exact EM|].
    + cbn [n_with_objs n_objs]. apply profiled_mid. exact G3.
    + intros Lr' RA'. apply (REST o'); [exact RA'| |exact K|].
      * split; [exact EO'|]. split; [exact DF|]. rewrite G3. exact HIT.
      * destruct SZ as [Z1 Z2]. unfold sized, SMALL in *. split; nia.
  - intros h w1 x p w2 Lp R EG EP OT EB PX AT BK PLR PL. rewrite (pos_nz x) by exact PX. apply wp_bind, wp_ret.
    unfold M_Object.uecho_object_hasproperty in E1. rewrite EG in E1. injection E1 as <- <-.
    apply (REST o); [exact RA|exact AC|apply keeps_refl|]. destruct SZ as [Z1 Z2]. unfold sized, SMALL in *. split; nia.
Qed.

Lemma wp_update_loop : forall fr oc nd pv nx ps v1 a v2 ep ads ps0 Lp0 F, (nd =? 0) = false -> (node_server ps =? 0) = false ->
  In (ep, BPtrs (map Some ads)) F -> props_rep ads ps0 Lp0 -> incl Lp0 F -> forall l j pre o u n r Lr L (Q : bool -> heaplet -> Prop),
  ps0 = pre ++ l -> rl_at (nbody nd) (node_objects ps) v1 a o v2 Lr -> at_code oc n v1 o v2 -> sized (len pre) o -> len ps0 <= 255 ->
  Permutation L ((nd, nblk pv nx ps (n_tid n)) :: Lr ++ F) -> M_Controller.update_loop le snet fr j n oc l u = Ok r ->
  (forall o' Lr', rl_at (nbody nd) (node_objects ps) v1 a o' v2 Lr' -> at_code oc (fst r) v1 o' v2 -> keeps n (fst r) ->
     Q (snd r) ((nd, nblk pv nx ps (n_tid (fst r))) :: Lr' ++ F)) ->
  wp (update_loop room le snet fr j a ep (len pre) (length l) u) L Q.
Proof.
  intros fr oc nd pv nx ps v1 a v2 ep ads ps0 Lp0 F ND SV IE RP IP.
  induction l as [|mp l IH]; intros j pre o u n r Lr L Q EP RA AC SZ LN P E H; cbn [length update_loop].
  - cbn [M_Controller.update_loop] in E. injection E as <-. apply wp_post, wp_ret. eexists. split; [exact P|]. apply (H o); [exact RA|exact AC|apply keeps_refl].
  - rewrite one_eq in E. apply bind_ok in E. destruct E as (y0 & E1 & E).
    assert (X : exists y Ly, rd (map Some ads) (len pre) = Ok (Some y) /\ prop_rep y mp Ly /\ incl Ly Lp0).
    { rewrite EP in RP. destruct (props_rep_split _ _ _ _ RP) as (ads1 & ads2 & L1 & L2 & Ea & EL & R1 & R2).
      destruct (props_rep_cons_inv _ _ _ _ R2) as (y & ads' & L3 & L4 & Ey & EL2 & R3 & R4). exists y, L3. subst ads ads2 Lp0 L2.
      split; [|split; [exact R3|intros z Z0; apply in_or_app; right; apply in_or_app; left; exact Z0]].
      rewrite map_app. apply rd_app_cons. unfold len. rewrite map_length, (props_rep_len _ _ _ R1). reflexivity. }
    destruct X as (y & Ly & RD & PY & IY).
    apply wp_bind. eapply wp_ptr_at; [eapply Permutation_in; [apply Permutation_sym; exact P|]; right; apply in_or_app; right; exact IE|exact RD|].
    apply wp_bind. assert (LP : len pre < 255) by (rewrite EP, len_app, len_cons in LN; pose proof (len_nonneg _ l); lia).
    eapply (wp_update_one fr j oc (len pre) nd pv nx ps v1 a o v2 y mp y y 0 Ly u n y0 Lr L F);
      [exact ND|exact SV|exact RA|exact AC|exact PY|intros z Z0; apply IP, IY; exact Z0|pose proof (len_nonneg _ pre); lia|exact SZ|exact P|exact E1|].
    intros o' Lr' RA' AC' K' SZ'. replace (len pre + 1) with (len (pre ++ [mp])) in * by (rewrite len_app; reflexivity).
    eapply (IH (S j) (pre ++ [mp]) o' (snd y0) (fst y0) r Lr'); [rewrite <- app_assoc; exact EP|exact RA'|exact AC'|exact SZ'|exact LN|apply Permutation_refl|exact E|].
    intros o2 Lr2 RA2 AC2 K2. apply (H o2); [exact RA2|exact AC2|]. eapply keeps_trans; [exact K'|exact K2].
Qed.
End Room.
