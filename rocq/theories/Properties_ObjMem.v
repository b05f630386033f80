(* C75: objects, their properties, handlers and caches, and the database of objects in memory. *)
From Coq Require Import String ZArith List Bool Lia Permutation.
From Verif Require Import CSem P_Base M_Const M_Misc M_Property M_PropertyList M_Object Spec_Object Spec_Message M_Mem M_MemUse Spec_Mem
  M_ObjMem M_ObjUse Spec_ObjMem P_Object P_Mem Properties_Mem P_ObjMem P_ObjStd P_ObjRun P_ObjLegal P_Ring.
Import ListNotations.
Open Scope Z_scope.

Lemma wp_urun : forall room junk db ops, (forall n, room n = true) -> junk_ok junk -> forall ps st L W F, legal junk ops st -> ginv st -> world db ps st W ->
  Permutation L (W ++ F) -> exists vs st', vrun junk ops st = Some (vs, st')
  /\ wp (urun room junk db ops ps) L (fun r L' => fst r = vs /\ exists W', Permutation L' (W' ++ F) /\ world db (snd r) st' W').
Proof.
  intros room junk db ops Room Hj. induction ops as [|op ops IH]; intros ps st L W F LG G WO P; cbn [legal vrun urun] in *.
  - do 2 eexists. split; [reflexivity|]. apply wp_ret. split; [reflexivity|]. exists W. auto.
  - destruct LG as (O & R & LG). destruct (legal_step junk op st Hj G O R) as (v & st1 & E & G1). rewrite E.
    specialize (LG _ _ E).
    assert (V : exists vs st2, vrun junk ops st1 = Some (vs, st2)).
    { clear - LG G1 Hj. revert st1 LG G1. induction ops as [|op ops IH]; intros st1 LG G1; cbn [legal vrun] in *; [do 2 eexists; reflexivity|].
      destruct LG as (O & R & LG). destruct (legal_step junk op st1 Hj G1 O R) as (v & st2 & E & G2). rewrite E.
      destruct (IH st2 (LG _ _ E) G2) as (vs & st3 & E3). rewrite E3. do 2 eexists. reflexivity. }
    destruct V as (vs & st2 & V). rewrite V. do 2 eexists. split; [reflexivity|].
    apply wp_bind. eapply wp_conseq; [eapply (wp_ustep room Room junk db op ps st v st1 L W F); eassumption|]. cbv beta.
    intros [r ps'] L' (EO & W' & P' & WO'). cbn [fst snd] in *.
    destruct (IH ps' st1 L' W' F LG G1 WO' P') as (vs' & st' & E' & WP). rewrite V in E'. injection E' as <- <-.
    apply wp_bind. eapply wp_conseq; [exact WP|]. cbv beta. intros r2 L2 (EO2 & W2 & P2 & R2).
    apply wp_ret. cbn [fst snd]. split; [congruence|]. exists W2. auto.
Qed.

(* ---------- C75: a program that keeps to the rules sees objects as values and leaks nothing ---------- *)

Theorem C75_histories_partial : forall room junk ops, (forall n, room n = true) -> (forall i, is_byte (junk i)) -> legal junk ops nothing ->
  exists vs st, vrun junk ops nothing = Some (vs, st)
  /\ forall h, well h -> exists h', umain room junk ops h = Ok (vs, h')
     /\ (forall a b, h_mem h a = Some b -> h_mem h' a = Some b)
     /\ (all_gone st -> forall a, h_mem h' a = h_mem h a).
Proof.
  intros room junk ops Room Hj LG.
  assert (G0 : ginv nothing) by (split; [intros [|i] o E; discriminate|constructor]).
  assert (W0 : forall db, world db [] nothing [(db, BHead db db)]).
  { intro db. exists [], [(db, BHead db db)]. split; [apply Permutation_refl|]. split; [reflexivity|]. apply rlist_new. }
  destruct (wp_urun room junk 1 ops Room Hj [] nothing _ _ [] LG G0 (W0 1) (Permutation_refl _)) as (vs & st & E & _).
  exists vs, st. split; [exact E|]. intros h W. destruct (well_is h W) as (F & J).
  assert (M : wp (umain room junk ops) F (fun r L' => r = vs /\ exists ps Ls, Permutation L' (Ls ++ F) /\ all_objs ps (s_objs st) Ls)).
  { unfold umain. apply wp_bind. unfold uecho_objectlist_new. apply wp_malloc; [apply Room|]. intros db _ _.
    destruct (wp_urun room junk db ops Room Hj [] nothing ((db, BHead db db) :: F) _ F LG G0 (W0 db) (Permutation_refl _)) as (vs' & st' & E' & WP).
    rewrite E in E'. injection E' as <- <-. apply wp_bind. eapply wp_conseq; [exact WP|]. cbv beta. intros [r ps] L (EO & W' & P & (Ls & Ld & PW & R & D)). cbn [fst snd] in *.
    apply wp_bind. eapply (wp_db_delete db (s_db st) Ld L (Ls ++ F)); [exact D| |].
    - eapply perm_trans; [exact P|]. eapply perm_trans; [apply Permutation_app_tail; exact PW|]. perm.
    - apply wp_ret. split; [exact EO|]. exists ps, Ls. split; [apply Permutation_refl|exact R]. }
  destruct (M h J) as (r & h' & L' & EX & J' & -> & ps & Ls & P & R).
  exists h'. split; [exact EX|]. apply (heap_perm _ _ _ J') in P. split.
  - intros a b X. apply P. apply in_or_app. right. apply J. exact X.
  - intros D. apply objs_gone in R; [|exact D]. subst Ls. exact (heap_same h h' F J P).
Qed.
Print Assumptions C75_histories_partial.

(* a standard object is given to the database; another one takes its codes, gets its properties and is used in all ways *)
Definition zero (n : nat) : Z := 0.
Definition an_object_program : list uop :=
  [UNew; UGroup 0 2; UClass 0 144; UProps 0 (OSetProperty 128 3); UProps 0 (OAdd 176 1 [65; 66]); UShare 0;
   UNew; UProps 1 (OSetData 224 [1; 2; 3]); UCode 1 167937; URead 1;
   UProps 1 (OSetByte 128 48); UProps 1 (OSetAttr 129 1); UProps 1 (OPropData 176 [7]); UProps 1 (OPropAppend 176 [8; 9]);
   UProps 1 (OPropAppend 200 [1]); UInt 1 138 5 3; USize 1 138; UInstance 1 2; UListener 1 true;
   UHandler 1 97 128 (Some 4%nat); UHandler 1 97 128 (Some 5%nat); UFind 1 97 128; UFind 1 98 128;
   UProps 1 (OSetProperty 176 16); URead 1; UNew; UProps 1 OClear; URead 1; UDelete 1; UDelete 2].
Ltac arg_tac := cbn [args_ok oop_code]; unfold is_byte; first
  [ exact Logic.I | lia
  | split; [let c := fresh in let E := fresh in intros c E; first [discriminate E | injection E as <-; lia]|first [exact Logic.I | lia | split; [bytes_tac|unfold OBJ_MAX; vm_compute; discriminate]]]
  | unfold INT_MAX; lia ].
Ltac rule_tac := cbn [rules target]; first
  [ exact Logic.I
  | eexists; split; [vm_compute; reflexivity|]; first
     [ exact Logic.I
     | split; [vm_compute; reflexivity|first [left; reflexivity|right; left; vm_compute; discriminate|right; eexists; split; [vm_compute; left; reflexivity|vm_compute; discriminate]]]
     | let p := fresh in let E := fresh in intros p E; vm_compute in E; first [discriminate E | injection E as <-; vm_compute; discriminate] ] ].
Example C75_example : legal zero an_object_program nothing /\
  match vrun zero an_object_program nothing with
  | Some (vs, st) => all_gone st
     /\ nth_error vs 9 = Some (VSeen (mkOseen (2, 144, 1)
          [(224, 3, [1; 2; 3]); (128, 3, []); (159, 1, [6; 224; 128; 159; 158; 157; 176]); (158, 1, [2; 224; 128]); (157, 1, [0]); (176, 1, [65; 66])] false))
     /\ nth_error vs 14 = Some (VBool false) /\ nth_error vs 21 = Some (VHandler (Some 5%nat))
  | None => False
  end.
Proof.
  split.
  - unfold an_object_program. cbn [legal].
    repeat (split; [arg_tac|]; split; [rule_tac|]; let v := fresh "v" in let st := fresh "st" in let E := fresh "E" in intros v st E;
      vm_compute in E; injection E as <- <-).
    exact Logic.I.
  - vm_compute. split; [repeat constructor|]. repeat split.
Qed.

(* ---------- what a program may not do ---------- *)

Definition mk (c : Z) : mm Z := let! p := M_Mem.uecho_property_new plenty in let! _ := M_Mem.uecho_property_setcode p c in ret p.

(* a property is added to its object a second time: it is released and linked in again *)
Theorem C75_added_twice_refuted : outcome (
  let! o := M_ObjMem.uecho_object_new plenty in
  let! p := mk 128 in
  let! _ := M_ObjMem.uecho_object_addproperty o p in
  M_ObjMem.uecho_object_addproperty o p) = Some UB_free.
Proof. vm_compute. reflexivity. Qed.
Print Assumptions C75_added_twice_refuted.

(* one property in two objects; both are deleted *)
Theorem C75_two_owners_refuted : outcome (
  let! o1 := M_ObjMem.uecho_object_new plenty in
  let! o2 := M_ObjMem.uecho_object_new plenty in
  let! p := mk 128 in
  let! _ := M_ObjMem.uecho_object_addproperty o1 p in
  let! _ := M_ObjMem.uecho_object_addproperty o2 p in
  let! _ := M_ObjMem.uecho_object_delete o2 in
  M_ObjMem.uecho_object_delete o1) = Some UB_free.
Proof. vm_compute. reflexivity. Qed.
Print Assumptions C75_two_owners_refuted.

(* a property that a caller looked up, after another one with its code was added *)
Theorem C75_property_kept_refuted : outcome (
  let! o := M_ObjMem.uecho_object_new plenty in
  let! _ := M_ObjMem.uecho_object_setproperty plenty zero o 128 1 in
  let! p := M_ObjMem.uecho_object_getproperty o 128 in
  let! p' := mk 128 in
  let! _ := M_ObjMem.uecho_object_addproperty o p' in
  load_prop p) = Some UB_free.
Proof. vm_compute. reflexivity. Qed.
Print Assumptions C75_property_kept_refuted.

(* the data of a property given back to the property *)
Theorem C75_own_data_refuted : outcome (
  let! o := M_ObjMem.uecho_object_new plenty in
  let! _ := M_ObjMem.uecho_object_setproperty plenty zero o 128 1 in
  let! _ := given [1; 2] (fun d => M_ObjMem.uecho_object_setpropertydata plenty o 128 d 2) in
  let! p := M_ObjMem.uecho_object_getproperty o 128 in
  let! q := load_prop p in
  M_ObjMem.uecho_object_setpropertydata plenty o 128 (q_data q) 2) = Some UB_free.
Proof. vm_compute. reflexivity. Qed.
Print Assumptions C75_own_data_refuted.

Theorem C75_deleted_twice_refuted : umain plenty zero [UNew; UDelete 0; UDelete 0] empty_heap = Undef UB_free.
Proof. vm_compute. reflexivity. Qed.
Print Assumptions C75_deleted_twice_refuted.

(* an object added to the database twice, with none or with one object in between *)
Theorem C75_shared_twice_refuted : umain plenty zero [UNew; UShare 0; UShare 0] empty_heap = Undef UB_free
  /\ exists vs h a b, umain plenty zero [UNew; UNew; UShare 0; UShare 1; UShare 0] empty_heap = Ok (vs, h) /\ h_mem h a = Some b.
Proof. split; [vm_compute; reflexivity|]. do 2 eexists. exists 7. eexists. split; vm_compute; reflexivity. Qed.
Print Assumptions C75_shared_twice_refuted.

(* the number of readable properties is kept when the properties are cleared, their codes are not *)
Theorem C75_clear_then_add_refuted :
  umain plenty zero [UNew; UProps 0 (OSetProperty 128 1); UProps 0 OClear; UProps 0 (OSetProperty 129 2)] empty_heap = Undef UB_null.
Proof. vm_compute. reflexivity. Qed.
Print Assumptions C75_clear_then_add_refuted.

(* an allocation fails while a property is added *)
Theorem C75_no_memory_refuted : exists room, outcome (
  let! o := M_ObjMem.uecho_object_new plenty in
  M_ObjMem.uecho_object_setproperty room zero o 128 1) = Some UB_null.
Proof. exists (fun n => negb (n =? 8)). vm_compute. reflexivity. Qed.
Print Assumptions C75_no_memory_refuted.
