(* Lemmas about lookups. *)
From Coq Require Import String ZArith List Bool Lia ZifyBool ZifyNat.
From Verif Require Import CSem M_Const M_Misc M_Property M_Message M_PropertyList M_Object M_Node M_NodeListener M_Controller M_Lookup
  Spec_Frame Spec_Message Spec_Map Spec_Object Spec_Node Run_Object Run_Node Run_Controller P_Base P_Misc P_Message P_Encode P_MsgApi
  P_PropertyList P_Object P_ObjectRun P_ObjectReach P_Node P_Request Properties_Object P_NodeReach P_NodeProfile P_NodeInv P_NodeRun
  P_NodeProps P_Controller.
Import ListNotations.
Open Scope Z_scope.
Ltac Zify.zify_post_hook ::= Z.div_mod_to_equations.

(* ---- objects ---- *)

Lemma ocode : forall o, codes_byte o -> uecho_object_getcode o = eoj_code (eoj_of o).
Proof. intros o (A & B & C). apply getcode_eq. exact (conj A (conj B C)). Qed.

Lemma oget_in : forall l, NoDup (map uecho_object_getcode l) -> forall o, In o l -> oget l (uecho_object_getcode o) = Some o.
Proof.
  induction l as [|x l IH]; intros N o I; [contradiction|]. cbn [uecho_objectlist_getbycode map] in *.
  inversion N as [|? ? Nx Nl]; subst. destruct I as [->|I]; [rewrite Z.eqb_refl; reflexivity|].
  destruct (Z.eqb_spec (uecho_object_getcode x) (uecho_object_getcode o)) as [E|E]; [|apply IH; assumption].
  exfalso. apply Nx. rewrite E. apply in_map. exact I.
Qed.

Lemma eojs_codes : forall n, ninv n -> map uecho_object_getcode (n_objs n) = map eoj_code (eojs n).
Proof.
  intros n (_ & O & _). rewrite eojs_eq, map_map. apply map_ext_in. intros o I. rewrite Forall_forall in O.
  apply ocode. apply O in I. apply I.
Qed.

(* ---- classes ---- *)

Definition class_code_of (e : Z * Z * Z) : Z := let '(g, c, _) := e in g * 256 + c.

Lemma class_eqb_iff : forall a b, class_eqb a b = true <-> a = b.
Proof.
  intros [a1 a2] [b1 b2]. unfold class_eqb. cbn [fst snd]. rewrite andb_true_iff, !Z.eqb_eq. split; [intros [-> ->]; reflexivity|].
  intros E. injection E. auto.
Qed.

Lemma distinct_in : forall l seen x, In x (distinct class_eqb l seen) <-> In x l \/ In x seen.
Proof.
  induction l as [|y l IH]; intros seen x; cbn [distinct]; [cbn; tauto|]. rewrite IH. cbn [In].
  destruct (existsb (class_eqb y) seen) eqn:E.
  - apply existsb_exists in E. destruct E as (z & I & Ez). apply class_eqb_iff in Ez. subst z. split; [tauto|].
    intros [[<-|H]|H]; tauto.
  - rewrite in_app_iff. cbn [In]. tauto.
Qed.

Lemma distinct_nodup : forall l seen, NoDup seen -> NoDup (distinct class_eqb l seen).
Proof.
  induction l as [|y l IH]; intros seen N; cbn [distinct]; [exact N|]. apply IH.
  destruct (existsb (class_eqb y) seen) eqn:E; [exact N|]. apply nodup_snoc; [exact N|]. intros I.
  assert (T : existsb (class_eqb y) seen = true) by (apply existsb_exists; exists y; split; [exact I|apply class_eqb_iff; reflexivity]).
  congruence.
Qed.

Lemma classes_in : forall n, ninv n -> forall x, In x (map uecho_class_getcode (n_classes n)) <-> exists e, In e (eojs n) /\ class_code_of e = x.
Proof.
  intros n (_ & O & _ & C) x. rewrite C. apply oinv_eoj in O. rewrite <- eojs_eq in O. rewrite in_map_iff. unfold node_classes.
  rewrite Forall_forall in O. split.
  - intros (k & E & I). apply distinct_in in I. destruct I as [I|[]]. apply in_map_iff in I. destruct I as ([[g c] i] & <- & I).
    exists (g, c, i). split; [exact I|]. apply O in I. destruct I as (A & B & _). cbn [eoj_class fst class_code_of] in *.
    rewrite class_code in E by (apply is_byte_val; assumption). exact E.
  - intros ([[g c] i] & I & E). exists (g, c). pose proof (O _ I) as (A & B & _).
    split; [rewrite class_code by (apply is_byte_val; assumption); exact E|]. apply distinct_in. left.
    apply in_map_iff. exists (g, c, i). split; [reflexivity|exact I].
Qed.

Lemma classes_nodup : forall n, ninv n -> NoDup (map uecho_class_getcode (n_classes n)).
Proof.
  intros n (_ & O & _ & C). rewrite C. apply oinv_eoj in O. rewrite <- eojs_eq in O.
  pose proof (node_classes_ok _ O) as K. assert (N : NoDup (node_classes (eojs n))) by (apply distinct_nodup; constructor).
  clear C O. induction N as [|[a b] l Nx N IH]; cbn [map]; [constructor|]. inversion K as [|? ? [Ka Kb] Kl]; subst.
  constructor; [|apply IH; exact Kl]. intros I. apply in_map_iff in I. destruct I as ([g c] & E & I).
  rewrite Forall_forall in Kl. pose proof (Kl _ I) as [Kg Kc]. cbn [fst snd] in *. rewrite !class_code in E by assumption.
  unfold is_byte in *. assert (g = a) by lia. assert (c = b) by lia. subst. contradiction.
Qed.

Lemma cget_some : forall l code c, uecho_classlist_getbycode l code = Some c -> In c l /\ uecho_class_getcode c = code.
Proof.
  induction l as [|x l IH]; intros code c H; cbn [uecho_classlist_getbycode] in H; [discriminate|].
  destruct (Z.eqb_spec (uecho_class_getcode x) code) as [E|E].
  - injection H as <-. split; [left; reflexivity|exact E].
  - apply IH in H. split; [right|]; tauto.
Qed.
Lemma cget_none : forall l code, uecho_classlist_getbycode l code = None <-> ~ In code (map uecho_class_getcode l).
Proof.
  induction l as [|x l IH]; intros code; cbn [uecho_classlist_getbycode map]; [cbn; tauto|].
  destruct (Z.eqb_spec (uecho_class_getcode x) code) as [E|E].
  - split; [discriminate|]. intros H. exfalso. apply H. left. exact E.
  - rewrite IH. cbn. tauto.
Qed.

(* ---- nodes ---- *)

Lemma nodes_getobject_some : forall l code o, nodes_getobject l code = Some o ->
  exists l1 n l2, l = l1 ++ n :: l2 /\ uecho_node_getobjectbycode n code = Some o
  /\ Forall (fun x => uecho_node_getobjectbycode x code = None) l1.
Proof.
  induction l as [|x l IH]; intros code o H; cbn [nodes_getobject] in H; [discriminate|].
  destruct (uecho_node_getobjectbycode x code) as [y|] eqn:E.
  - injection H as ->. exists [], x, l. split; [reflexivity|]. split; [exact E|constructor].
  - apply IH in H. destruct H as (l1 & n & l2 & -> & G & F). exists (x :: l1), n, l2. split; [reflexivity|]. split; [exact G|].
    constructor; assumption.
Qed.
Lemma nodes_getobject_none : forall l code, nodes_getobject l code = None <-> Forall (fun x => uecho_node_getobjectbycode x code = None) l.
Proof.
  induction l as [|x l IH]; intros code; cbn [nodes_getobject]; [split; constructor|].
  destruct (uecho_node_getobjectbycode x code) as [y|] eqn:E.
  - split; [discriminate|]. intros F. inversion F; congruence.
  - rewrite IH. split; [intros; constructor; assumption|]. intros F. inversion F; assumption.
Qed.

Lemma nodelist_byaddress : forall l a, uecho_nodelist_getbyaddress l a = node_byaddress l a.
Proof.
  intros l [a|]; [|rewrite byaddress_null; destruct l; reflexivity].
  induction l as [|x l IH]; [reflexivity|]. cbn [uecho_nodelist_getbyaddress node_byaddress]. rewrite IH. unfold uecho_node_isaddress.
  destruct (n_addr x); reflexivity.
Qed.

(* ---- waiting ---- *)

Section Poll.
Context {A : Type}.
Variable seen : Z -> option A.
Variable late : nat -> Z.
Hypothesis Hl : forall i, 0 <= late i.
Variable us : Z.
Hypothesis Hu : 0 <= us.

Lemma poll_found : forall n i t x t', poll seen late us n i t = (Some x, t') -> seen t' = Some x /\ t + us <= t'.
Proof.
  induction n as [|n IH]; intros i t x t' H; cbn [poll] in H; [discriminate|]. pose proof (Hl i).
  destruct (seen (t + us + late i)) as [y|] eqn:E.
  - injection H as <- <-. split; [exact E|lia].
  - apply IH in H. split; [apply H|lia].
Qed.

Lemma poll_none : forall n i t t', poll seen late us n i t = (None, t') -> t + Z.of_nat n * us <= t'.
Proof.
  induction n as [|n IH]; intros i t t' H; cbn [poll] in H; [injection H as <-; lia|]. pose proof (Hl i).
  destruct (seen (t + us + late i)) as [y|] eqn:E; [discriminate|]. apply IH in H. lia.
Qed.

(* known from [t0] on *)
Lemma poll_some : forall n i t t0, (n > 0)%nat -> (forall s, t0 <= s -> seen s <> None) -> t0 <= t + Z.of_nat n * us ->
  exists x t', poll seen late us n i t = (Some x, t').
Proof.
  induction n as [|n IH]; intros i t t0 Hn Hs Ht; [lia|]. cbn [poll]. pose proof (Hl i).
  destruct (seen (t + us + late i)) as [y|] eqn:E; [eauto|].
  destruct n as [|n]; [exfalso; apply (Hs (t + us + late i)); [lia|exact E]|].
  apply IH with t0; [lia|exact Hs|lia].
Qed.

Variable L : Z.
Hypothesis HL : forall i, late i <= L.
Lemma poll_soon : forall n i t t0, (forall s, t0 <= s -> seen s <> None) ->
  forall r t', poll seen late us n i t = (r, t') -> t' <= Z.max t t0 + us + Z.of_nat n * L.
Proof.
  induction n as [|n IH]; intros i t t0 Hs r t' H; cbn [poll] in H; [injection H as <- <-; lia|].
  pose proof (Hl i). pose proof (HL i). destruct (seen (t + us + late i)) as [y|] eqn:E.
  - injection H as <- <-. nia.
  - assert (B : t + us + late i < t0) by (destruct (Z.lt_ge_cases (t + us + late i) t0); [assumption|exfalso; eapply Hs; eauto]).
    apply (IH (S i) _ t0 Hs) in H. nia.
Qed.
End Poll.
