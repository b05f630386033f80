(* The instance properties of the node profile object. *)
From Coq Require Import String ZArith List Bool Lia ZifyBool ZifyNat.
From Verif Require Import CSem M_Const M_Misc M_Property M_Message M_PropertyList M_Object M_Node M_NodeListener
  Spec_Frame Spec_Message Spec_Object Spec_Node Run_Object Run_Node P_Base P_Misc P_Message P_Encode P_MsgApi P_PropertyList
  P_Object P_ObjectRun P_ObjectReach P_Node P_Request Properties_Object P_NodeReach.
Import ListNotations.
Open Scope Z_scope.
Ltac Zify.zify_post_hook ::= Z.div_mod_to_equations.

Lemma concat_firstn : forall A B (f : A -> list B) (k : nat) l n, (forall x, length (f x) = k) ->
  firstn (n * k) (concat (map f l)) = concat (map f (firstn n l)).
Proof.
  intros A B f k. induction l as [|x l IH]; intros n Hf.
  - cbn. rewrite !firstn_nil. reflexivity.
  - destruct n; [reflexivity|]. cbn [map concat firstn]. rewrite <- IH by assumption.
    replace (S n * k)%nat with (length (f x) + n * k)%nat by (rewrite Hf; lia). apply firstn_app_2.
Qed.

Lemma concat_len : forall A B (f : A -> list B) (k : nat) l, (forall x, length (f x) = k) ->
  len (concat (map f l)) = len l * Z.of_nat k.
Proof.
  intros A B f k l Hf. induction l as [|x l IH]; [reflexivity|]. cbn [map concat].
  rewrite len_app, len_cons, IH. unfold len at 1. rewrite Hf. lia.
Qed.

(* the count byte and the entries of an instance or class list property *)
Lemma list_bytes : forall A (f : A -> list Z) (k : nat) l, (forall x, length (f x) = k) ->
  let n := if InstanceListMax <? len l then InstanceListMax else len l in
  rd_range (to_byte n :: concat (map f l)) 0 (n * Z.of_nat k + 1)
  = Ok (Z.of_nat (length (firstn 255 l)) :: concat (map f (firstn 255 l))).
Proof.
  intros A f k l Hf n. unfold InstanceListMax in n.
  assert (Hn : 0 <= n <= 255 /\ n <= len l /\ n = Z.of_nat (length (firstn 255 l))).
  { pose proof (len_nonneg _ l). subst n. rewrite firstn_length. unfold len in *. destruct (Z.ltb_spec 255 (Z.of_nat (length l))); lia. }
  destruct Hn as (H1 & H2 & H3).
  assert (E : firstn 255 l = firstn (Z.to_nat n) l).
  { rewrite H3, Nat2Z.id, firstn_length. destruct (Nat.le_ge_cases 255 (length l)).
    - rewrite Nat.min_l by assumption. reflexivity.
    - rewrite Nat.min_r by assumption. rewrite !firstn_all2; [reflexivity|lia|lia]. }
  rewrite <- H3, E. rewrite <- (concat_firstn _ _ f k l (Z.to_nat n) Hf).
  clear E H3. clearbody n.
  set (w := concat (map f l)).
  assert (W : len w = len l * Z.of_nat k) by (apply concat_len; assumption). clearbody w.
  pose proof (rd_range_app Z [] (to_byte n :: firstn (Z.to_nat n * k) w) (skipn (Z.to_nat n * k) w) 0 (n * Z.of_nat k + 1)) as R.
  cbn [app] in R. rewrite firstn_skipn in R. rewrite R.
  - unfold to_byte. rewrite (Z.mod_small n 256) by lia. reflexivity.
  - reflexivity.
  - rewrite len_cons. unfold len in *. rewrite firstn_length_le by nia. nia.
Qed.

(* data stored in sequence *)
Fixpoint put_all (l : list prop) (kvs : list (Z * list Z)) : list prop :=
  match kvs with
  | [] => l
  | (c, d) :: r => put_all (put l c (put_data d)) r
  end.
Fixpoint ann_all (l : list prop) (kvs : list (Z * list Z)) : list prop :=
  match kvs with
  | [] => []
  | (c, d) :: r => announced (got l c) d ++ ann_all (put l c (put_data d)) r
  end.

Definition prof_kvs (classes : list eclass) (es : list (Z * Z * Z)) : list (Z * list Z) :=
  let cl := firstn 255 (filter (fun c => negb (is_profile_class c)) classes) in
  [(212, be2 (len classes)); (215, Z.of_nat (length cl) :: concat (map (fun c => [fst c; snd c]) cl));
   (211, prof_D3 es); (214, prof_D6 es); (213, prof_D6 es)].

Definition eoj_of (o : obj) : Z * Z * Z := (o_grp o, o_cls o, o_ins o).

Lemma set_int_eq : forall o c v size bs, uecho_integer2byte v size = Ok bs ->
  uecho_object_setpropertyintegerdata o c v size = Ok (uecho_object_setpropertydata o c bs).
Proof.
  intros o c v size bs H. unfold uecho_object_setpropertyintegerdata, uecho_propertylist_setintegerdata,
    uecho_property_setintegerdata, uecho_object_setpropertydata, uecho_propertylist_setdata.
  rewrite getbycode_eq. rewrite H. cbn [bind]. destruct (uecho_property_setdata bs (got (o_props o) c)). reflexivity.
Qed.

Lemma int2 : forall v, uecho_integer2byte v 2 = Ok (be2 v).
Proof.
  intros. transitivity (@Ok (list Z) [byte_of v 1; byte_of v 0]); [apply integer2byte_iff; split; [lia|reflexivity]|].
  unfold be2, byte_of. change (256 ^ 1) with 256. change (256 ^ 0) with 1. rewrite Z.div_1_r. reflexivity.
Qed.
Lemma int3 : forall v, uecho_integer2byte v 3 = Ok (be3 v).
Proof.
  intros. rewrite integer2byte_3. unfold be3, byte_of. change (256 ^ 2) with 65536. change (256 ^ 1) with 256.
  change (256 ^ 0) with 1. rewrite Z.div_1_r. reflexivity.
Qed.

Lemma filter_map_eojs : forall objs,
  map eoj_of (filter (fun x => negb (uecho_object_isprofile x)) objs) = devices (map eoj_of objs).
Proof.
  induction objs as [|o l IH]; [reflexivity|]. unfold devices in *. cbn [filter map].
  unfold is_profile_eoj at 1. cbn [eoj_of fst]. unfold uecho_object_isprofile at 1, uecho_isprofileclassgroupcode, ClassGroupProfile.
  rewrite (Z.eqb_sym 14). destruct (o_grp o =? 14); cbn [negb]; [exact IH|]. cbn [map]. rewrite IH. reflexivity.
Qed.

Ltac rw_range B := match goal with |- context [rd_range ?a ?b ?c] =>
  match type of B with ?l = _ => change (rd_range a b c) with l; rewrite B end end.

Lemma updateinstance_eq : forall classes objs o,
  uecho_nodeprofile_updateinstanceproperties classes objs o
  = let kvs := prof_kvs classes (map eoj_of objs) in
    Ok (o_with_props (put_all (o_props o) kvs) o, ann_all (o_props o) kvs).
Proof.
  intros classes objs o. unfold uecho_nodeprofile_updateinstanceproperties.
  unfold uecho_nodeprofile_setclasscount, EPC_ClassCount. rewrite (set_int_eq _ _ _ _ _ (int2 _)). cbn [bind].
  unfold uecho_object_setpropertydata at 1. rewrite pl_setdata_eq.
  replace (filter (fun c => negb (uecho_class_isprofile c)) classes)
    with (filter (fun c => negb (is_profile_class c)) classes)
    by (apply filter_ext; intros; unfold uecho_class_isprofile, uecho_isprofileclassgroupcode, is_profile_class, ClassGroupProfile;
        rewrite Z.eqb_sym; reflexivity).
  set (cl := filter (fun c => negb (is_profile_class c)) classes).
  unfold uecho_nodeprofile_setclasslist at 1.
  pose proof (list_bytes _ (fun c : eclass => [fst c; snd c]) 2 cl (fun _ => eq_refl)) as B. cbv zeta in B.
  change (Z.of_nat 2) with 2 in B. cbv beta iota zeta. rw_range B. clear B. cbn [bind].
  unfold uecho_object_setpropertydata at 1. rewrite pl_setdata_eq. cbn [obj_props_with].
  set (ins := filter _ objs).
  unfold uecho_nodeprofile_setinstancecount, EPC_InstanceCount. rewrite (set_int_eq _ _ _ _ _ (int3 _)). cbn [bind].
  unfold uecho_object_setpropertydata at 1. rewrite pl_setdata_eq.
  unfold uecho_nodeprofile_setinstancelist at 1.
  pose proof (list_bytes _ (fun x => [o_grp x; o_cls x; o_ins x]) 3 ins (fun _ => eq_refl)) as B. cbv zeta in B.
  change (Z.of_nat 3) with 3 in B. cbv beta iota zeta. rw_range B. clear B. cbn [bind].
  unfold uecho_object_setpropertydata. rewrite !pl_setdata_eq. rewrite !obj_props_with.
  assert (Ei : map eoj_of ins = devices (map eoj_of objs)) by apply filter_map_eojs.
  assert (E3 : be3 (len ins) = prof_D3 (map eoj_of objs)).
  { unfold prof_D3. rewrite <- Ei, map_length. reflexivity. }
  assert (E6 : Z.of_nat (length (firstn 255 ins)) :: concat (map (fun x => [o_grp x; o_cls x; o_ins x]) (firstn 255 ins))
               = prof_D6 (map eoj_of objs)).
  { unfold prof_D6. rewrite <- Ei, firstn_map, map_length. cbv zeta. f_equal. rewrite map_map. reflexivity. }
  rewrite E3, E6. clear E3 E6 Ei. clearbody ins.
  unfold EPC_InstanceListS, EPC_InstanceListNotification, EPC_ClassListS.
  unfold prof_kvs. cbv zeta. fold cl. cbn [put_all ann_all]. rewrite app_nil_r. reflexivity.
Qed.
