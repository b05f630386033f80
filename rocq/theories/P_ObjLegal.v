(* A program that keeps to the rules is defined on values, and its objects keep their invariant. *)
From Coq Require Import String ZArith List Bool Lia.
From Verif Require Import CSem P_Base M_Const M_Misc M_Property M_PropertyList P_PropertyList M_Object Spec_Object Run_Object
  Spec_Map P_Misc P_Map P_MapProps P_Object P_ObjectRun P_ObjectReach Spec_Message M_ObjUse Spec_ObjMem P_ObjRun.
Import ListNotations.
Open Scope Z_scope.

Lemma mine_some : forall st i o, mine st i = Some o <-> nth_error (s_objs st) i = Some (Some o).
Proof. intros st i o. unfold mine. destruct (nth_error (s_objs st) i) as [[x|]|]; split; intro E; congruence. Qed.
Lemma place_other : forall i j x st, i <> j -> nth_error (place i x st) j = nth_error st j.
Proof.
  induction i as [|i IH]; intros [|j] x [|z st] N; cbn [place nth_error]; try reflexivity; try contradiction.
  apply IH. congruence.
Qed.
Lemma place_same : forall i x st y, nth_error (place i x st) i = Some y -> y = x.
Proof. induction i as [|i IH]; intros x [|z st] y E; cbn [place nth_error] in E; try discriminate; [congruence|]. eapply IH. exact E. Qed.

Lemma ginv_place : forall st i x l, ginv st -> (forall o, x = Some o -> einv o) -> Forall einv l -> ginv (mkOstate (place i x (s_objs st)) l).
Proof.
  intros st i x l [G1 G2] HX HL. split; [|exact HL]. intros j o E. apply mine_some in E. cbn [s_objs] in E.
  destruct (Nat.eq_dec i j) as [<-|N].
  - apply place_same in E. apply HX. congruence.
  - rewrite place_other in E by exact N. apply (G1 j). apply mine_some. exact E.
Qed.

Lemma isreadable_readable : forall p, readable p -> uecho_property_isreadable p = true.
Proof. intros p H. unfold readable in H. change (negb (Z.land (p_attr p) 17 =? 0) = true). apply negb_true_iff, Z.eqb_neq. exact H. Qed.

Lemma setproperty_defined : forall junk o c a, junk_ok junk -> einv o -> epc c ->
  (o_getsz o = O \/ Z.land a 17 <> 0 \/ exists p, In p (o_props o) /\ p_code p <> c /\ readable p) ->
  exists r, uecho_object_setproperty junk o c a = Ok r.
Proof.
  intros junk o c a Hj [Hi He] Hc H.
  unfold uecho_object_setproperty. rewrite pl_set_eq, put_put by (intros; assumption).
  set (f := fun p => uecho_property_setparentobject true (uecho_property_setattribute a (put_data [] p))) in *.
  assert (Hf : forall p, p_code p = c -> p_code (f p) = c) by (intros; assumption).
  set (o1 := o_with_props (put (o_props o) c f) o).
  assert (I1 : inv o1) by (apply put_inv; auto; [unfold epc in Hc; unfold is_byte; lia|intros; constructor]).
  assert (U : exists r, uecho_object_updatepropertymaps junk o1 = Ok r).
  { apply (update_ok_iff junk o1 Hj (proj2 I1)).
    destruct H as [E|[E|(p & IP & N & R)]]; [left; exact E| |]; right.
    - exists (f (got (o_props o) c)). split; [|apply isreadable_readable; exact E].
      assert (F : find (o_props o1) c = Some (f (got (o_props o) c)))
        by (unfold o1; rewrite obj_props_with, put_find, Z.eqb_refl by assumption; reflexivity).
      apply find_code in F. tauto.
    - exists p. split; [|apply isreadable_readable; exact R]. apply (find_in_nodup _ _ (proj1 Hi)) in IP.
      assert (F1 : find (o_props o1) (p_code p) = Some p).
      { unfold o1. rewrite obj_props_with, put_find by assumption. rewrite (proj2 (Z.eqb_neq _ _)) by exact N. exact IP. }
      apply find_code in F1. tauto. }
  destruct U as [[o2 a2] E]. rewrite E. cbn [bind]. eexists. reflexivity.
Qed.

Lemma value_ok : forall junk l op o st, junk_ok junk -> s_db st = l -> mine st (target op) = Some o -> op <> UNew -> einv o -> Forall einv l -> args_ok op -> rules op st ->
  exists v o', value_of junk l op o = Ok (v, o') /\ einv o'.
Proof.
  intros junk l op o st Hj <- EM NN EI GD OK RU.
  destruct op as [|i|i op|i c v0 size|i c|i v0|i v0|i v0|i v0|i b|i esv c hd|i esv c|i|i]; cbn [rules target value_of args_ok] in *;
    try (exfalso; apply NN; reflexivity); destruct RU as (o0 & EM0 & RU); rewrite EM in EM0; injection EM0 as <-;
    try (do 2 eexists; split; [reflexivity|exact EI]).
  - (* properties *) destruct OK as [O1 O2].
    assert (T : exists r, ostep junk o op = Ok r).
    { destruct op; cbn [ostep]; try (eexists; reflexivity). apply setproperty_defined; [exact Hj|exact EI|apply O1; reflexivity|apply RU]. }
    destruct T as [[o' ann] T]. rewrite T. cbn [bind fst]. do 2 eexists. split; [reflexivity|].
    eapply step_einv; [exact Hj|exact EI| |exact O1|exact T]. split.
    + destruct (oop_code op) as [c|] eqn:EC; [|exact I]. specialize (O1 c eq_refl). lia.
    + destruct op; try exact I; try (destruct O2 as [O2 _]; exact O2). exact O2.
  - (* integer *) destruct OK as (O1 & O2 & _).
    assert (EB : uecho_integer2byte v0 size = Ok (rev (map (fun k => byte_of v0 (Z.of_nat k)) (seq 0 size)))) by (apply integer2byte_iff; split; [exact O2|reflexivity]).
    assert (T : exists r, uecho_object_setpropertyintegerdata o c v0 size = Ok r).
    { unfold uecho_object_setpropertyintegerdata, uecho_propertylist_setintegerdata, uecho_property_setintegerdata.
      destruct (uecho_propertylist_getbycode (o_props o) c) as [l1 p]. rewrite EB. cbn [bind].
      destruct (uecho_property_setdata _ p). cbn [bind]. eexists. reflexivity. }
    destruct T as [[o' ann] T]. rewrite T. cbn [bind fst]. do 2 eexists. split; [reflexivity|].
    apply setint_eq in T. destruct T as (bs & _ & B & T).
    eapply (step_einv junk o (OSetData c bs)); [exact Hj|exact EI| | |cbn [ostep]; rewrite <- T; reflexivity].
    + split; [cbn; lia|exact B].
    + intros c' E. injection E as <-. exact O1.
  - (* size *) do 2 eexists. split; [reflexivity|]. unfold uecho_object_getpropertydatasize, uecho_propertylist_getdatasize.
    rewrite getbycode_eq. cbn [fst]. apply getbycode_einv; [exact EI|exact OK].
  - (* code *) unfold uecho_object_setcode.
    match goal with |- context [uecho_object_updatepropertymaps junk ?x] => set (o1 := x) in * end.
    assert (E1 : einv o1) by (apply addstd_einv; [apply ginv_db; exact GD|exact EI]).
    assert (T : exists r, uecho_object_updatepropertymaps junk o1 = Ok r).
    { apply update_ok_iff; [exact Hj|apply E1|]. destruct RU as [_ [Z0|(p & IP & R)]].
      - left. unfold o1. rewrite addstd_getsz. exact Z0.
      - right. exists p. split; [exact IP|apply isreadable_readable; exact R]. }
    destruct T as [[o' ann] T]. rewrite T. cbn [bind fst]. do 2 eexists. split; [reflexivity|]. eapply update_einv; [exact Hj|exact E1|exact T].
  - do 2 eexists. split; [reflexivity|]. apply addstd_einv; [apply ginv_db; exact GD|exact EI].
  - do 2 eexists. split; [reflexivity|]. apply addstd_einv; [apply ginv_db; exact GD|exact EI].
Qed.

Lemma legal_step : forall junk op st, junk_ok junk -> ginv st -> args_ok op -> rules op st ->
  exists v st', vstep junk op st = Some (v, st') /\ ginv st'.
Proof.
  intros junk op st Hj G OK RU. destruct (G) as [G1 G2].
  assert (D : op = UNew \/ op <> UNew) by (destruct op; [left; reflexivity|right; discriminate..]).
  destruct D as [->|NN].
  - do 2 eexists. split; [reflexivity|]. split; [|exact G2]. intros j o E. apply mine_some in E. cbn [s_objs] in E.
    destruct (Nat.lt_ge_cases j (length (s_objs st))) as [LT|GE].
    + rewrite nth_error_app1 in E by exact LT. apply (G1 j). apply mine_some. exact E.
    + rewrite nth_error_app2 in E by exact GE. destruct (j - length (s_objs st))%nat as [|k]; cbn [nth_error] in E; [|destruct k; discriminate].
      injection E as <-. split; [apply inv_new|constructor].
  - assert (EX : exists o, mine st (target op) = Some o) by (destruct op; [contradiction|cbn [rules] in RU; destruct RU as (o & E & _); exists o; exact E..]).
    destruct EX as [o EM]. pose proof (G1 _ _ EM) as EI.
    destruct (value_ok junk (s_db st) op o st Hj eq_refl EM NN EI G2 OK RU) as (v & o' & EV & EI').
    destruct op as [|i|i op|i c v0 size|i c|i v0|i v0|i v0|i v0|i b|i esv c hd|i esv c|i|i]; [contradiction|..]; cbn [vstep]; rewrite EM, ?EV;
      do 2 eexists; (split; [reflexivity|]); unfold becomes; apply ginv_place; try exact G; try exact G2.
    all: try (intros x X; injection X as <-; exact EI').
    all: try (intros x X; discriminate X).
    apply Forall_app. split; [exact G2|]. constructor; [exact EI|constructor].
Qed.
