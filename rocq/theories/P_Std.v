(* The standard database, as loaded, holds the listed rules. *)
From Coq Require Import ZArith List Bool Lia ZifyBool ZifyNat.
From Verif Require Import CSem M_Const M_Misc M_Property M_PropertyList M_Object StdDB_Data M_Std Spec_Map Spec_Object
  Spec_Std Run_Object P_Base P_Misc P_Map P_PropertyList P_MapProps P_Object P_ObjectRun P_ObjectReach.
Import ListNotations.
Open Scope Z_scope.

Notation newp := uecho_standard_object_property_new.

Lemma newp_code : forall r, p_code (newp r) = row_code r.
Proof. intros [[[c g] s] a]. reflexivity. Qed.

Lemma addrows_spec : forall rows o, NoDup (codes (o_props o)) ->
  let o' := fold_left (fun o r => uecho_object_addproperty o (newp r)) rows o in
  NoDup (codes (o_props o')) /\
  forall c, find (o_props o') c =
    match List.find (fun r => row_code r =? c) (rev rows) with
    | Some r => Some (uecho_property_setparentobject true (newp r))
    | None => find (o_props o) c
    end.
Proof.
  induction rows as [|r rows IH]; intros o N; [cbn; auto|]. cbn [fold_left rev].
  destruct (add_spec (o_props o) (uecho_property_setparentobject true (newp r)) N) as [F N'].
  specialize (IH (uecho_object_addproperty o (newp r)) N'). cbv zeta in IH. destruct IH as [N'' F'].
  cbv zeta. split; [exact N''|]. intros c. rewrite F'.
  assert (G : forall l, List.find (fun r => row_code r =? c) (l ++ [r]) =
     match List.find (fun r => row_code r =? c) l with Some x => Some x
     | None => if row_code r =? c then Some r else None end).
  { induction l; cbn; [reflexivity|]. destruct (row_code a =? c); [reflexivity|assumption]. }
  rewrite G. destruct (List.find (fun r0 => row_code r0 =? c) (rev rows)); [reflexivity|].
  unfold uecho_object_addproperty. rewrite obj_props_with, F. cbn [p_code uecho_property_setparentobject].
  rewrite newp_code, Z.eqb_sym. destruct (row_code r =? c); reflexivity.
Qed.

Lemma std_object_code : forall g c ps, o_grp (std_object (g, c, ps)) = to_byte g /\ o_cls (std_object (g, c, ps)) = to_byte c.
Proof.
  intros. cbn [std_object].
  assert (G : forall ps o, o_grp (fold_left (fun o r => uecho_object_addproperty o (newp r)) ps o) = o_grp o
     /\ o_cls (fold_left (fun o r => uecho_object_addproperty o (newp r)) ps o) = o_cls o).
  { induction ps0 as [|r ps0 IH]; intros o; [cbn; auto|]. cbn [fold_left].
    destruct (IH (uecho_object_addproperty o (newp r))) as [-> ->]. auto. }
  destruct (G ps (uecho_standard_object_new g c)) as [-> ->]. auto.
Qed.

Lemma rows_bytes : forallb (fun e => (0 <=? fst (fst e)) && (fst (fst e) <? 256) && (0 <=? snd (fst e)) && (snd (fst e) <? 256)
   && forallb (fun r => (128 <=? row_code r) && (row_code r <=? 255)) (snd e)) std_rows = true.
Proof. vm_compute. reflexivity. Qed.

Lemma db_getobject : forall rows g c,
  Forall (fun e => is_byte (fst (fst e)) /\ is_byte (snd (fst e))) rows ->
  uecho_database_getobject (map std_object rows) g c
  = option_map std_object (List.find (fun e => (fst (fst e) =? g) && (snd (fst e) =? c)) rows).
Proof.
  induction rows as [|[[g0 c0] ps] rows IH]; intros g c H; [reflexivity|].
  inversion H as [|? ? [H1 H2] H3]; subst. cbn [map uecho_database_getobject List.find fst snd] in *.
  destruct (std_object_code g0 c0 ps) as [-> ->]. rewrite !to_byte_id by assumption.
  destruct ((g0 =? g) && (c0 =? c)); [reflexivity|]. apply IH. assumption.
Qed.

Lemma rows_ok : Forall (fun e => is_byte (fst (fst e)) /\ is_byte (snd (fst e))) std_rows.
Proof.
  apply Forall_forall. intros e I. pose proof rows_bytes as R. rewrite forallb_forall in R.
  specialize (R e I). unfold is_byte. lia.
Qed.

Definition std_prop (c : Z) (r : rule * rule * rule) : prop :=
  let '(g, s, a) := r in uecho_property_setparentobject true (newp (c, g, s, a)).

Lemma std_find : forall g cls c,
  find (db_props std_db g cls) c = option_map (std_prop c) (listed g cls c).
Proof.
  intros. unfold db_props, std_db. rewrite db_getobject by apply rows_ok. unfold listed, class_rows.
  destruct (List.find (fun e => (fst (fst e) =? g) && (snd (fst e) =? cls)) std_rows) as [[[g0 c0] ps]|]; [|reflexivity].
  cbn [option_map snd std_object].
  destruct (addrows_spec ps (uecho_standard_object_new g0 c0)) as [_ F]; [constructor|]. rewrite F.
  destruct (List.find (fun r => row_code r =? c) (rev ps)) as [[[[c1 g1] s1] a1]|] eqn:E; [|reflexivity].
  apply find_some in E. destruct E as [_ E]. cbn in E. apply Z.eqb_eq in E. subst c1. reflexivity.
Qed.

Lemma std_db_ok : db_ok std_db.
Proof.
  assert (H : forallb (fun o => forallb (fun p => (128 <=? p_code p) && (p_code p <=? 255)
     && match p_data p with [] => true | _ => false end) (o_props o)) std_db = true) by (vm_compute; reflexivity).
  rewrite forallb_forall in H. apply Forall_forall. intros o Io. specialize (H o Io).
  rewrite forallb_forall in H. apply Forall_forall. intros p Ip. specialize (H p Ip).
  destruct (p_data p); [|lia]. split; [lia|constructor].
Qed.

(* everything about one entry *)
Lemma std_prop_spec : forall c g s a, let p := owned (std_prop c (g, s, a)) in
  p_data p = [] /\ p_code p = c /\ p_parent p = true
  /\ uecho_property_isreadable p = grants g /\ uecho_property_iswritable p = grants s
  /\ uecho_property_isannounceable p = grants a
  /\ uecho_property_isreadrequired p = required g /\ uecho_property_iswriterequired p = required s
  /\ uecho_property_isannouncerequired p = required a.
Proof. intros. destruct g, s, a; cbv; auto 20. Qed.
