(* C69: names of objects and properties.  C70: manufacturers and enumerations. *)
From Coq Require Import String ZArith Lia List Bool.
From Coq Require Import ZifyBool ZifyNat.
From Verif Require Import CSem P_Base StdNames_Data M_Names Spec_Names P_Names M_Const M_Property M_PropertyList M_Object StdDB_Data M_Std P_PropertyList P_Misc P_ObjectReach.
Import ListNotations.
Open Scope Z_scope.
Ltac Zify.zify_post_hook ::= Z.div_mod_to_equations.

(* ---------- C69 ---------- *)

Lemma code_parts : forall v, Z.shiftr (Z.land v 16711680) 16 = group_of v /\ Z.shiftr (Z.land v 65280) 8 = class_of v.
Proof. intros v. rewrite mask16, mask8. unfold byte_of, group_of, class_of. split; reflexivity. Qed.

(* After an object has been given the code of a class of the tables it has the name of that class.  The full property
   says too that an object of another class has no such name; see C69_unknown_refuted. *)
Theorem C69_object_name_partial : forall ops v name, class_name std_names (group_of v) (class_of v) = Some name ->
  nobj_getname (nrun nobj_new (ops ++ [NCode v])) = Some name.
Proof.
  intros ops v name H. unfold nrun. rewrite fold_left_app. cbn [fold_left nstep]. set (o := fold_left nstep ops nobj_new). clearbody o.
  unfold nobj_setcode, nobj_getname, nupdate_maps. cbn [no_with_props no_name]. destruct (code_parts v) as [-> ->].
  destruct (standard_spec std_names (no_with_code (group_of v) (class_of v) (Z.land v 255) o)) as (_ & _ & _ & N & _). unfold nstd_db. rewrite N. cbn [no_with_code no_grp no_cls]. rewrite H. reflexivity.
Qed.
Print Assumptions C69_object_name_partial.
Example C69_object_name_example : class_name std_names (group_of 0x029001) (class_of 0x029001) = Some "General lighting"%string
  /\ nobj_getname (nrun nobj_new [NName (Some "lamp"%string); NCode 0x013001; NCode 0x029001]) = Some "General lighting"%string.
Proof. split; vm_compute; reflexivity. Qed.

(* ... and every property that it did not have before has the name the tables give it, the super class first; the names
   of the properties that it had are kept, and it gets no other property *)
Theorem C69_property_names : forall o v epc, nobj_propertyname (nobj_setcode nstd_db o v) epc
  = match nobj_propertyname o epc with
    | Some n => Some n
    | None => option_map Some (standard_name std_names (group_of v) (class_of v) epc)
    end.
Proof.
  intros o v epc. unfold nobj_propertyname, nobj_setcode. rewrite maps_find. destruct (code_parts v) as [-> ->].
  destruct (standard_spec std_names (no_with_code (group_of v) (class_of v) (Z.land v 255) o)) as (_ & _ & _ & _ & F). unfold nstd_db. rewrite F. cbn [no_with_code no_grp no_cls no_props].
  destruct (nfind (no_props o) epc); [reflexivity|]. unfold standard_name.
  assert (M : forall e, (e =? 157) || (e =? 158) || (e =? 159) = true -> class_property std_names 0 0 e <> None).
  { intros e H. assert (X : e = 157 \/ e = 158 \/ e = 159) by lia. destruct X as [->|[->| ->]]; vm_compute; discriminate. }
  specialize (M epc). destruct (class_property std_names 0 0 epc); [reflexivity|]. destruct (class_property std_names (group_of v) (class_of v) epc); [reflexivity|]. cbn [option_map].
  destruct ((epc =? 157) || (epc =? 158) || (epc =? 159)); [exfalso; apply M; reflexivity|reflexivity].
Qed.
Print Assumptions C69_property_names.
Example C69_property_names_example :
  nobj_propertyname (nobj_setcode nstd_db nobj_new 0x029001) 0xB0 = Some (Some "Light level"%string)
  /\ nobj_propertyname (nobj_setcode nstd_db nobj_new 0x029001) 0x80 = Some (Some "Operation status"%string)
  /\ nobj_propertyname (nobj_setcode nstd_db nobj_new 0x029001) 0xF0 = None.
Proof. repeat split; vm_compute; reflexivity. Qed.

(* the name of a property changes only by an operation that names it *)
Theorem C69_names_kept : forall ops o epc n, nobj_propertyname o epc = Some n -> forallb (fun op => negb (names_property epc op)) ops = true ->
  nobj_propertyname (nrun o ops) epc = Some n.
Proof.
  induction ops as [|op ops IH]; intros o epc n H K; [exact H|]. cbn [forallb] in K. apply andb_true_iff in K. destruct K as [K1 K2]. cbn [nrun fold_left]. apply IH; [|exact K2].
  apply negb_true_iff in K1. destruct op as [name|v|v|v|e|e name|e name]; cbn [nstep names_property] in *.
  - exact H.
  - rewrite C69_property_names, H. reflexivity.
  - unfold nobj_propertyname, nobj_setgroupcode in *. destruct (standard_spec std_names (no_with_code v (no_cls o) (no_ins o) o)) as (_ & _ & _ & _ & F). unfold nstd_db. rewrite F. cbn [no_with_code no_props]. rewrite H. reflexivity.
  - unfold nobj_propertyname, nobj_setclasscode in *. destruct (standard_spec std_names (no_with_code (no_grp o) v (no_ins o) o)) as (_ & _ & _ & _ & F). unfold nstd_db. rewrite F. cbn [no_with_code no_props]. rewrite H. reflexivity.
  - unfold nobj_propertyname, nobj_setproperty in *. rewrite maps_find. cbn [no_with_props no_props]. rewrite getbycode_find, H. reflexivity.
  - unfold nobj_propertyname, nobj_addproperty in *. cbn [no_with_props no_props]. rewrite add_other by lia. exact H.
  - unfold nobj_propertyname, nobj_setpropertyname in *. cbn [no_with_props no_props]. rewrite rename_find, K1. exact H.
Qed.
Print Assumptions C69_names_kept.
Example C69_names_kept_example : nobj_propertyname (nrun nobj_new [NAdd 0xB0 (Some "brightness"%string); NCode 0x029001; NSet 0xB0; NClass 0x91]) 0xB0 = Some (Some "brightness"%string).
Proof. vm_compute. reflexivity. Qed.

(* a name that is set is returned, until a code is set *)
Theorem C69_set_name : forall ops o name, Forall (fun op => match op with NName _ | NCode _ | NGroup _ | NClass _ => False | _ => True end) ops ->
  nobj_getname (nrun (nstep o (NName name)) ops) = name.
Proof.
  intros ops o name F. assert (G : forall o, nobj_getname (nrun o ops) = nobj_getname o).
  { clear o. induction F as [|op ops P F IH]; intros o; [reflexivity|]. cbn [nrun fold_left]. fold (nrun (nstep o op) ops). rewrite IH. destruct op; try destruct P; reflexivity. }
  rewrite G. reflexivity.
Qed.
Print Assumptions C69_set_name.
Example C69_set_name_example : nobj_getname (nrun (nstep nobj_new (NName (Some "lamp"%string))) [NSet 0xB0; NAdd 0xF0 None]) = Some "lamp"%string.
Proof. vm_compute. reflexivity. Qed.

(* an object of a class that is not in the tables gets the name of the super class, also in place of a name of the user *)
Theorem C69_unknown_refuted : forall o v, class_name std_names (group_of v) (class_of v) = None -> nobj_getname (nobj_setcode nstd_db o v) = Some "Super class"%string.
Proof.
  intros o v H. unfold nobj_setcode, nobj_getname, nupdate_maps. cbn [no_with_props no_name]. destruct (code_parts v) as [-> ->].
  destruct (standard_spec std_names (no_with_code (group_of v) (class_of v) (Z.land v 255) o)) as (_ & _ & _ & N & _). unfold nstd_db. rewrite N. cbn [no_with_code no_grp no_cls]. rewrite H. reflexivity.
Qed.
Print Assumptions C69_unknown_refuted.
Example C69_unknown_example : class_name std_names (group_of 0x01FF01) (class_of 0x01FF01) = None.
Proof. vm_compute. reflexivity. Qed.

(* changing the class keeps the properties of the old class: the object offers, under the names of another class,
   properties its class does not have, and properties its class calls differently *)
Theorem C69_stale_refuted : exists first second epc1 epc2 old new,
  let o := nrun nobj_new [NCode first; NCode second] in
  class_name std_names (group_of second) (class_of second) <> None
  /\ standard_name std_names (group_of second) (class_of second) epc1 = None /\ nobj_propertyname o epc1 <> None
  /\ standard_name std_names (group_of second) (class_of second) epc2 = Some new /\ nobj_propertyname o epc2 = Some (Some old) /\ old <> new.
Proof.
  exists 0x013001, 0x029001, 0xA0, 0xB0. eexists. eexists. cbn zeta. split; [vm_compute; discriminate|]. split; [vm_compute; reflexivity|]. split; [vm_compute; discriminate|].
  split; [vm_compute; reflexivity|]. split; [vm_compute; reflexivity|]. discriminate.
Qed.
Print Assumptions C69_stale_refuted.
(* setting the class code and then the group code of a new object passes through another class *)
Theorem C69_by_parts_refuted : exists group class, 
  let o := nrun nobj_new [NClass class; NGroup group] in
  no_grp o = group /\ no_cls o = class /\ exists epc, standard_name std_names group class epc = None /\ nobj_propertyname o epc <> None.
Proof.
  exists 0x02, 0x11. cbn zeta. split; [vm_compute; reflexivity|]. split; [vm_compute; reflexivity|]. exists 0xE0. split; [vm_compute; reflexivity|]. vm_compute. discriminate.
Qed.
Print Assumptions C69_by_parts_refuted.

(* this model of the names and the model of objects have the same properties in the same order *)
Theorem C69_agree : forall n o, agree n o ->
  (forall junk v o' ann, uecho_object_setcode std_db junk o v = Ok (o', ann) -> agree (nobj_setcode nstd_db n v) o')
  /\ (forall v, agree (nobj_setgroupcode nstd_db n v) (uecho_object_setgroupcode std_db o v))
  /\ (forall v, agree (nobj_setclasscode nstd_db n v) (uecho_object_setclasscode std_db o v))
  /\ (forall junk c a o' ann, uecho_object_setproperty junk o c a = Ok (o', ann) -> agree (nobj_setproperty n c) o')
  /\ (forall p name, agree (nobj_addproperty n (p_code p) name) (uecho_object_addproperty o p)).
Proof.
  assert (DB : agree_db nstd_db std_db).
  { assert (C : forallb (fun x => (no_grp (fst x) =? o_grp (snd x)) && (no_cls (fst x) =? o_cls (snd x)) && (no_ins (fst x) =? o_ins (snd x))
       && (if list_eq_dec Z.eq_dec (ncodes (no_props (fst x))) (codes (o_props (snd x))) then true else false)) (combine nstd_db std_db) = true) by (vm_compute; reflexivity).
    assert (L : length nstd_db = length std_db) by (vm_compute; reflexivity). revert C L. generalize nstd_db std_db. induction l as [|n l IH]; intros [|o m] C L; try discriminate L; [constructor|].
    cbn [combine forallb fst snd] in C. apply andb_true_iff in C. destruct C as [C C2]. constructor; [|apply IH; [exact C2|injection L as L; exact L]].
    destruct (list_eq_dec Z.eq_dec (ncodes (no_props n)) (codes (o_props o))); [|rewrite andb_false_r in C; discriminate C]. unfold agree. split; [lia|]. split; [lia|]. split; [lia|assumption]. }
  revert DB. generalize nstd_db std_db. intros ndb db DB n o A. split; [|split; [|split; [|split]]].
  - intros junk v o' ann H. unfold uecho_object_setcode in H. unfold nobj_setcode. eapply update_same; [|exact H]. apply standard_same; [exact DB|]. destruct A as (_ & _ & _ & D). repeat split. exact D.
  - intros v. apply standard_same; [exact DB|]. destruct A as (G & C & I & D). repeat split; assumption.
  - intros v. apply standard_same; [exact DB|]. destruct A as (G & C & I & D). repeat split; assumption.
  - intros junk c a o' ann H. unfold uecho_object_setproperty in H. rewrite pl_set_eq in H. apply bind_ok in H. destruct H as ([o1 a1] & H & E). injection E as <- _.
    unfold nobj_setproperty. eapply update_same; [|exact H]. destruct A as (G & C & I & D). repeat split; try assumption. cbn [no_with_props no_props o_with_props o_props].
    rewrite codes_update_first by (intros p P; exact P). apply put_same; [reflexivity|exact D].
  - intros p name. destruct A as (G & C & I & D). repeat split; try assumption. cbn [no_with_props no_props o_with_props o_props nobj_addproperty]. unfold uecho_object_addproperty. cbn [o_with_props o_props].
    exact (add_same _ _ (uecho_property_setparentobject true p) name D).
Qed.
Print Assumptions C69_agree.
Example C69_agree_example : agree nobj_new uecho_object_new.
Proof. repeat split. Qed.

(* ---------- C70 ---------- *)
Lemma first_next : forall k l, (k < length l)%nat -> firstn (S k) l = firstn k l ++ [nth k l 0].
Proof. induction k as [|k IH]; intros [|x l] H; cbn in H; try lia; [reflexivity|]. cbn [firstn nth app]. f_equal. apply IH. lia. Qed.

(* every manufacturer of the table is found under its code, with its name; no other code is found *)
Theorem C70_manufacturers : forall code name, man_get man_standard code = Some name <-> In (code, name) man_rows.
Proof.
  assert (E : man_standard = man_rows) by (vm_compute; reflexivity). assert (N : NoDup (map fst man_rows)).
  { assert (C : forallb (fun i => negb (existsb (Z.eqb (nth i (map fst man_rows) 0)) (firstn i (map fst man_rows)))) (seq 0 (length man_rows)) = true) by (vm_compute; reflexivity).
    rewrite forallb_forall in C. assert (G : forall k, (k <= length (map fst man_rows))%nat -> NoDup (firstn k (map fst man_rows))).
    { induction k as [|k IH]; intros K; [constructor|]. rewrite (first_next k (map fst man_rows)) by lia. apply nodup_snoc; [apply IH; lia|]. intros I.
      specialize (C k). rewrite negb_true_iff in C. rewrite map_length in K. rewrite <- (existsb_in) in I. rewrite C in I; [discriminate I|]. apply in_seq. lia. }
    specialize (G _ (Nat.le_refl _)). rewrite firstn_all in G. exact G. }
  rewrite E. clear E. revert N. generalize man_rows. induction l as [|[c n] l IH]; intros N code name; [split; [discriminate|intros []]|]. inversion N as [|? ? NI N']; subst.
  cbn [man_get In]. destruct (Z.eqb_spec c code) as [->|D].
  - split; [intros [= ->]; left; reflexivity|]. intros [[= ->]|I]; [reflexivity|]. exfalso. apply NI. apply in_map_iff. exists (code, name). split; [reflexivity|exact I].
  - rewrite IH by exact N'. split; [intros I; right; exact I|]. intros [[= X _]|I]; [congruence|exact I].
Qed.
Print Assumptions C70_manufacturers.
Example C70_manufacturers_example : man_get man_standard 0x00002F = Some "AIPHONE CO., LTD."%string /\ man_get man_standard 0x123456 = None.
Proof. split; vm_compute; reflexivity. Qed.

(* a manufacturer that is added does not change the one found under any other code, and is found unless its code was
   taken already *)
Theorem C70_add : forall l code name c, man_get (man_add l code name) c
  = match man_get l c with Some n => Some n | None => if code =? c then Some name else None end.
Proof. intros l code name c. unfold man_add. induction l as [|[k n] l IH]; cbn; [reflexivity|]. destruct (k =? c); [reflexivity|exact IH]. Qed.
Print Assumptions C70_add.
(* one added later under a code that is taken is never found *)
Theorem C70_add_refuted : exists code name, man_get (man_add man_standard code name) code <> Some name.
Proof. exists 0x00002F, "other"%string. vm_compute. discriminate. Qed.
Print Assumptions C70_add_refuted.

(* enumerations: after any additions the entry found under a code is the one added last with that code, and there is at
   most one entry for each code *)
Theorem C70_enums : forall es, let l := fold_left uecho_property_enumlist_add es [] in
  NoDup (map enum_code l) /\ forall code, uecho_property_enumlist_findbycode l code = List.find (fun e => enum_code e =? code) (rev es).
Proof.
  assert (R : forall l k, NoDup (map enum_code l) -> NoDup (map enum_code (enum_remove l k)) /\ ~ In k (map enum_code (enum_remove l k)) /\ (forall c, In c (map enum_code (enum_remove l k)) -> In c (map enum_code l))
     /\ forall c, uecho_property_enumlist_findbycode (enum_remove l k) c = if k =? c then None else uecho_property_enumlist_findbycode l c).
  { assert (FN : forall l c, ~ In c (map enum_code l) -> uecho_property_enumlist_findbycode l c = None).
    { induction l as [|e l IH]; intros c X; [reflexivity|]. cbn. destruct (Z.eqb_spec (enum_code e) c); [destruct X; left; assumption|]. apply IH. intros I. apply X. right. exact I. }
    induction l as [|e l IH]; intros k N; cbn [enum_remove]; [split; [constructor|]; split; [tauto|]; split; [tauto|]; intros c; destruct (k =? c); reflexivity|].
    inversion N as [|? ? NI N']; subst. destruct (Z.eqb_spec (enum_code e) k) as [<-|D].
    - split; [exact N'|]. split; [exact NI|]. split; [intros c I; right; exact I|]. intros c. cbn [uecho_property_enumlist_findbycode]. destruct (Z.eqb_spec (enum_code e) c) as [<-|]; [apply FN; exact NI|reflexivity].
    - destruct (IH k N') as (A & B & C & F). cbn [map]. split; [constructor; [intros I; apply NI; apply C; exact I|exact A]|]. split; [intros [I|I]; [congruence|tauto]|].
      split; [intros c [I|I]; [left; exact I|right; apply C; exact I]|]. intros c. cbn [uecho_property_enumlist_findbycode]. rewrite F. destruct (Z.eqb_spec (enum_code e) c) as [<-|]; [|reflexivity]. replace (k =? enum_code e) with false by lia. reflexivity. }
  assert (FA : forall l m c, uecho_property_enumlist_findbycode (l ++ m) c = match uecho_property_enumlist_findbycode l c with Some e => Some e | None => uecho_property_enumlist_findbycode m c end).
  { induction l as [|e l IH]; intros m c; cbn; [reflexivity|]. destruct (enum_code e =? c); [reflexivity|apply IH]. }
  assert (FI : forall l c, uecho_property_enumlist_findbycode l c = None -> ~ In c (map enum_code l)).
  { induction l as [|e l IH]; intros c X; [tauto|]. cbn in X. destruct (Z.eqb_spec (enum_code e) c); [discriminate|]. intros [I|I]; [congruence|]. exact (IH c X I). }
  intros es l. unfold l. clear l. induction es as [|e es IH] using rev_ind; [split; [constructor|reflexivity]|]. rewrite fold_left_app, rev_app_distr. cbn [fold_left rev app List.find].
  set (l := fold_left _ es []) in *. clearbody l. destruct IH as [N F]. unfold uecho_property_enumlist_add. destruct (uecho_property_enumlist_findbycode l (enum_code e)) eqn:X.
  - destruct (R l (enum_code e) N) as (A & B & _ & G). split; [rewrite map_app; apply nodup_snoc; assumption|]. intros code. rewrite FA, G. cbn [uecho_property_enumlist_findbycode].
    destruct (Z.eqb_spec (enum_code e) code) as [E|E]; [reflexivity|]. rewrite F. destruct (List.find _ (rev es)); reflexivity.
  - split; [rewrite map_app; apply nodup_snoc; [exact N|apply FI; exact X]|]. intros code. rewrite FA. cbn [uecho_property_enumlist_findbycode].
    destruct (Z.eqb_spec (enum_code e) code) as [E|E]; [rewrite E in X; rewrite X; reflexivity|]. rewrite F. destruct (List.find _ (rev es)); reflexivity.
Qed.
Print Assumptions C70_enums.
Example C70_enums_example : uecho_property_enumlist_findbycode (fold_left uecho_property_enumlist_add
  [(48, Some "on"%string, None); (49, Some "off"%string, None); (48, Some "ON"%string, None)] []) 48 = Some (48, Some "ON"%string, None).
Proof. vm_compute. reflexivity. Qed.
