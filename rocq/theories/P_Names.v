From Coq Require Import String ZArith Lia List Bool.
From Coq Require Import ZifyBool ZifyNat.
From Verif Require Import CSem P_Base StdNames_Data M_Names Spec_Names M_Const M_Property M_PropertyList M_Object P_PropertyList P_Misc P_ObjectReach.
Import ListNotations.
Open Scope Z_scope.
Ltac Zify.zify_post_hook ::= Z.div_mod_to_equations.

Definition ncodes (l : list nprop) : list Z := map fst l.

Lemma nfind_app : forall l m c, nfind (l ++ m) c = match nfind l c with Some n => Some n | None => nfind m c end.
Proof. induction l as [|[k n] l IH]; intros m c; cbn; [reflexivity|]. destruct (k =? c); [reflexivity|apply IH]. Qed.
Lemma nfind_none : forall l c, nfind l c = None <-> ~ In c (ncodes l).
Proof.
  induction l as [|[k n] l IH]; intros c; cbn; [tauto|]. destruct (Z.eqb_spec k c); [split; [discriminate|intuition congruence]|]. rewrite IH. unfold ncodes. tauto.
Qed.
Lemma nremove_find : forall l k c, NoDup (ncodes l) -> nfind (nremove l k) c = if k =? c then None else nfind l c.
Proof.
  induction l as [|[j n] l IH]; intros k c N; cbn [nremove nfind]; [destruct (k =? c); reflexivity|].
  inversion N as [|? ? NI N']; subst. destruct (Z.eqb_spec j k) as [->|D].
  - destruct (Z.eqb_spec k c) as [->|]; [apply nfind_none; exact NI|reflexivity].
  - cbn [nfind]. rewrite IH by exact N'. destruct (Z.eqb_spec j c) as [->|]; [|reflexivity]. replace (k =? c) with false by lia. reflexivity.
Qed.
Lemma nremove_in : forall l k c, In c (ncodes (nremove l k)) -> In c (ncodes l).
Proof. induction l as [|[j n] l IH]; intros k c; cbn [nremove]; [tauto|]. destruct (j =? k); cbn; [tauto|]. intros [?|?]; [tauto|]. right. eapply IH. eassumption. Qed.
Lemma nremove_nodup : forall l k, NoDup (ncodes l) -> NoDup (ncodes (nremove l k)) /\ ~ In k (ncodes (nremove l k)).
Proof.
  induction l as [|[j n] l IH]; intros k N; cbn [nremove]; [split; [constructor|tauto]|]. inversion N as [|? ? NI N']; subst. destruct (Z.eqb_spec j k) as [->|D]; [split; assumption|].
  destruct (IH k N') as [A B]. split; [cbn; constructor; [intros X; apply NI; eapply nremove_in; exact X|exact A]|]. cbn. intros [?|?]; [congruence|tauto].
Qed.
Lemma nadd_spec : forall l p, NoDup (ncodes l) -> NoDup (ncodes (nadd l p)) /\ forall c, nfind (nadd l p) c = if fst p =? c then Some (snd p) else nfind l c.
Proof.
  intros l [k n] N. unfold nadd. cbn [fst snd]. destruct (nfind l k) eqn:E.
  - destruct (nremove_nodup l k N) as [A B]. split.
    + unfold ncodes in *. rewrite map_app. apply nodup_snoc; assumption.
    + intros c. rewrite nfind_app, nremove_find by exact N. cbn [nfind]. destruct (k =? c); [reflexivity|]. destruct (nfind l c); reflexivity.
  - split.
    + unfold ncodes in *. rewrite map_app. apply nodup_snoc; [exact N|]. apply nfind_none. exact E.
    + intros c. rewrite nfind_app. cbn [nfind]. destruct (Z.eqb_spec k c) as [->|]; [rewrite E; reflexivity|]. destruct (nfind l c); reflexivity.
Qed.

Lemma missing_find : forall src l c, nfind (nmissing l src) c = match nfind l c with Some n => Some n | None => nfind src c end.
Proof.
  induction src as [|[k n] src IH]; intros l c; cbn [nmissing]; [destruct (nfind l c); reflexivity|]. cbn [fst]. destruct (nfind l k) eqn:E.
  - rewrite IH. cbn [nfind]. destruct (Z.eqb_spec k c) as [->|]; [rewrite E; reflexivity|reflexivity].
  - rewrite IH. unfold nadd. cbn [fst]. rewrite E, nfind_app. cbn [nfind]. destruct (nfind l c) eqn:F; [reflexivity|]. destruct (k =? c); reflexivity.
Qed.
Lemma getbycode_find : forall l k c, nfind (ngetbycode l k) c = match nfind l c with Some n => Some n | None => if k =? c then Some None else None end.
Proof.
  intros l k c. unfold ngetbycode. destruct (nfind l k) eqn:E.
  - destruct (nfind l c) eqn:F; [reflexivity|]. destruct (Z.eqb_spec k c); [congruence|reflexivity].
  - unfold nadd. cbn [fst]. rewrite E, nfind_app. cbn [nfind]. reflexivity.
Qed.
Lemma maps_find : forall o c, nfind (no_props (nupdate_maps o)) c
  = match nfind (no_props o) c with Some n => Some n | None => if (c =? 157) || (c =? 158) || (c =? 159) then Some None else None end.
Proof.
  intros o c. unfold nupdate_maps. cbn [no_with_props no_props]. rewrite !getbycode_find. destruct (nfind (no_props o) c); [reflexivity|].
  destruct (Z.eqb_spec 159 c), (Z.eqb_spec 158 c), (Z.eqb_spec 157 c), (Z.eqb_spec c 157), (Z.eqb_spec c 158), (Z.eqb_spec c 159); cbn; congruence.
Qed.

(* the table and the database made from it *)
Lemma last_name_cons : forall p ps c, last_name (p :: ps) c = match last_name ps c with Some n => Some n | None => if fst p =? c then Some (snd p) else None end.
Proof.
  intros p ps c. unfold last_name. cbn [rev]. assert (G : forall (f : Z * string -> bool) l, List.find f (l ++ [p]) = match List.find f l with Some x => Some x | None => if f p then Some p else None end).
  { intros f. induction l as [|x l IH]; cbn; [reflexivity|]. destruct (f x); [reflexivity|exact IH]. }
  rewrite G. destruct (List.find _ (rev ps)); cbn; [reflexivity|]. destruct (fst p =? c); reflexivity.
Qed.
Lemma row_find : forall ps l, NoDup (ncodes l) -> NoDup (ncodes (fold_left (fun l p => nadd l (fst p, Some (snd p))) ps l))
  /\ forall c, nfind (fold_left (fun l (p : Z * string) => nadd l (fst p, Some (snd p))) ps l) c = match last_name ps c with Some n => Some (Some n) | None => nfind l c end.
Proof.
  induction ps as [|p ps IH]; intros l N; cbn [fold_left]; [split; [exact N|reflexivity]|]. destruct (nadd_spec l (fst p, Some (snd p)) N) as [N' F]. destruct (IH _ N') as [N2 F2]. split; [exact N2|].
  intros c. rewrite F2, F, last_name_cons. cbn [fst snd]. destruct (last_name ps c); [reflexivity|]. destruct (fst p =? c); reflexivity.
Qed.
Lemma db_get : forall table g c, match ndb_getobject (map nstd_object table) g c with
  | Some s => exists name ps, entry table g c = Some (name, ps) /\ no_name s = Some name /\ forall e, nfind (no_props s) e = option_map Some (last_name ps e)
  | None => entry table g c = None
  end.
Proof.
  induction table as [|[[[g' c'] name] ps] table IH]; intros g c; [reflexivity|]. cbn [map ndb_getobject nstd_object no_grp no_cls]. unfold entry. cbn [List.find fst snd].
  destruct ((g' =? g) && (c' =? c)).
  - exists name, ps. split; [reflexivity|]. split; [reflexivity|]. intros e. cbn [no_props]. destruct (row_find ps [] (NoDup_nil _)) as [_ F]. rewrite F. cbn. destruct (last_name ps e); reflexivity.
  - apply IH.
Qed.
Lemma with_code_spec : forall table o g c, let o' := nadd_with_code (map nstd_object table) o g c in
  no_grp o' = no_grp o /\ no_cls o' = no_cls o /\ no_ins o' = no_ins o
  /\ no_name o' = match class_name table g c with Some n => Some n | None => no_name o end
  /\ forall e, nfind (no_props o') e = match nfind (no_props o) e with Some n => Some n | None => option_map Some (class_property table g c e) end.
Proof.
  intros table o g c. cbn zeta. unfold nadd_with_code. pose proof (db_get table g c) as D. unfold class_name, class_property. destruct (ndb_getobject _ g c) as [s|].
  - destruct D as (name & ps & E & N & F). rewrite E. cbn [no_with_props nobj_setname nobj_getname no_grp no_cls no_ins no_name no_props option_map fst]. repeat (split; [first [reflexivity|exact N]|]).
    intros e. rewrite missing_find, F. reflexivity.
  - rewrite D. cbn [option_map]. repeat (split; [reflexivity|]). intros e. destruct (nfind (no_props o) e); reflexivity.
Qed.
Lemma standard_spec : forall table o, let o' := nadd_standard (map nstd_object table) o in
  no_grp o' = no_grp o /\ no_cls o' = no_cls o /\ no_ins o' = no_ins o
  /\ no_name o' = match class_name table (no_grp o) (no_cls o) with Some n => Some n | None => match class_name table 0 0 with Some n => Some n | None => no_name o end end
  /\ forall e, nfind (no_props o') e = match nfind (no_props o) e with Some n => Some n | None => option_map Some (standard_name table (no_grp o) (no_cls o) e) end.
Proof.
  intros table o. cbn zeta. unfold nadd_standard. destruct (with_code_spec table o 0 0) as (G & C & I & N & F). set (o1 := nadd_with_code _ o 0 0) in *. clearbody o1.
  destruct (with_code_spec table o1 (no_grp o1) (no_cls o1)) as (G2 & C2 & I2 & N2 & F2). set (o2 := nadd_with_code _ o1 _ _) in *. clearbody o2. rewrite G, C in *.
  split; [congruence|]. split; [congruence|]. split; [congruence|]. split; [rewrite N2, N; reflexivity|]. intros e. rewrite F2, F. unfold standard_name.
  destruct (nfind (no_props o) e); [reflexivity|]. destruct (class_property table 0 0 e); reflexivity.
Qed.
Lemma rename_find : forall l k n c, nfind (nrename l k n) c = if k =? c then match nfind l c with Some _ => Some n | None => None end else nfind l c.
Proof.
  induction l as [|[j m] l IH]; intros k n c; cbn [nrename nfind]; [destruct (k =? c); reflexivity|]. destruct (Z.eqb_spec j k) as [->|D]; cbn [nfind].
  - destruct (k =? c); reflexivity.
  - rewrite IH. destruct (Z.eqb_spec j c) as [->|]; [|reflexivity]. replace (k =? c) with false by lia. reflexivity.
Qed.
Lemma add_other : forall l k n c, k <> c -> nfind (nadd l (k, n)) c = nfind l c.
Proof.
  intros l k n c D. unfold nadd. cbn [fst]. assert (R : nfind (nremove l k) c = nfind l c).
  { induction l as [|[j m] l IH]; cbn [nremove nfind]; [reflexivity|]. destruct (Z.eqb_spec j k) as [->|]; [replace (k =? c) with false by lia; reflexivity|]. cbn [nfind]. destruct (j =? c); [reflexivity|exact IH]. }
  destruct (nfind l k); rewrite nfind_app; [rewrite R|]; cbn [nfind]; replace (k =? c) with false by lia; destruct (nfind l c); reflexivity.
Qed.

(* ---- the same properties as in M_Object ---- *)
Definition agree (n : nobj) (o : obj) : Prop :=
  no_grp n = o_grp o /\ no_cls n = o_cls o /\ no_ins n = o_ins o /\ ncodes (no_props n) = codes (o_props o).
Lemma ncodes_app : forall l m, ncodes (l ++ m) = ncodes l ++ ncodes m.
Proof. intros. apply map_app. Qed.
Lemma codes_app_ : forall l m, codes (l ++ m) = codes l ++ codes m.
Proof. intros. apply map_app. Qed.
Lemma found_same : forall l m c, ncodes l = codes m -> (nfind l c = None <-> uecho_propertylist_findbycode m c = None).
Proof. intros l m c E. rewrite nfind_none, find_none, E. reflexivity. Qed.
Lemma remove_same : forall l m c, ncodes l = codes m -> ncodes (nremove l c) = codes (remove_first c m).
Proof.
  induction l as [|[k n] l IH]; intros [|p m] c E; try discriminate E; [reflexivity|]. cbn [ncodes codes map fst] in E. injection E as -> E. cbn [nremove remove_first]. destruct (p_code p =? c); [exact E|].
  cbn [ncodes codes map fst]. f_equal. apply IH. exact E.
Qed.
Lemma add_same : forall l m p n, ncodes l = codes m -> ncodes (nadd l (p_code p, n)) = codes (uecho_propertylist_add m p).
Proof.
  intros l m p n E. unfold nadd, uecho_propertylist_add. cbn [fst]. pose proof (found_same l m (p_code p) E) as F.
  destruct (nfind l (p_code p)), (uecho_propertylist_findbycode m (p_code p)).
  - rewrite ncodes_app, codes_app_, (remove_same l m (p_code p) E). reflexivity.
  - exfalso. destruct F as [_ F]. specialize (F eq_refl). discriminate F.
  - exfalso. destruct F as [F _]. specialize (F eq_refl). discriminate F.
  - rewrite ncodes_app, codes_app_, E. reflexivity.
Qed.
Lemma get_codes : forall l c, ncodes (ngetbycode l c) = add_end c (ncodes l).
Proof.
  intros l c. unfold ngetbycode, nadd, add_end. cbn [fst]. destruct (nfind l c) eqn:E; destruct (existsb (Z.eqb c) (ncodes l)) eqn:X; try reflexivity.
  - exfalso. assert (~ In c (ncodes l)) by (intros I; apply existsb_in in I; congruence). apply nfind_none in H. congruence.
  - exfalso. apply existsb_in in X. apply nfind_none in E. tauto.
  - rewrite ncodes_app. reflexivity.
Qed.
Lemma put_same : forall l m c f, (forall p, p_code (f p) = p_code p) -> ncodes l = codes m -> ncodes (ngetbycode l c) = codes (put m c f).
Proof. intros l m c f H E. rewrite get_codes, put_codes, E; [reflexivity|]. intros p P. rewrite H. exact P. Qed.
Lemma setmap_same : forall n o m cs o' ann, agree n o -> uecho_object_setpropertymap o m cs = Ok (o', ann) -> agree (no_with_props (ngetbycode (no_props n) m) n) o'.
Proof.
  intros n o m cs o' ann (A & B & C & D) H. unfold uecho_object_setpropertymap in H. destruct cs as [cs|]; [|discriminate].
  assert (G : exists f, (forall p, p_code (f p) = p_code p) /\ o' = o_with_props (put (o_props o) m f) o).
  { destruct (len cs <=? MapFormat1MaxSize).
    - rewrite pl_set_eq in H. injection H as <- _. eexists. split; [|reflexivity]. reflexivity.
    - destruct (map_format2 cs _) as [dd|]; cbn [bind] in H; [|discriminate]. rewrite pl_setdata_eq in H. injection H as <- _. eexists. split; [|reflexivity]. reflexivity. }
  destruct G as (f & G & ->). split; [exact A|]. split; [exact B|]. split; [exact C|]. cbn [no_with_props no_props o_with_props o_props]. apply put_same; assumption.
Qed.
Lemma update_same : forall junk n o o' ann, agree n o -> uecho_object_updatepropertymaps junk o = Ok (o', ann) -> agree (nupdate_maps n) o'.
Proof.
  intros junk n o o' ann A H. unfold uecho_object_updatepropertymaps, uecho_object_clearpropertymapcaches in H. cbv zeta in H.
  apply bind_ok in H. destruct H as ([o1 a1] & E1 & H). apply bind_ok in H. destruct H as ([o2 a2] & E2 & H). apply bind_ok in H. destruct H as ([o3 a3] & E3 & H). injection H as <- _.
  apply (setmap_same n) in E1; [|exact A]. apply (setmap_same _ _ _ _ _ _ E1) in E2. apply (setmap_same _ _ _ _ _ _ E2) in E3. exact E3.
Qed.
Lemma missing_same : forall src nsrc n o, agree n o -> ncodes nsrc = codes src -> agree (no_with_props (nmissing (no_props n) nsrc) n) (addmissing o src).
Proof.
  induction src as [|p src IH]; intros [|[k x] nsrc] n o A E; try discriminate E; [destruct n; exact A|]. cbn [ncodes codes map fst] in E. injection E as -> E. cbn [nmissing addmissing fst].
  destruct A as (A & B & C & D). unfold uecho_object_hasproperty, uecho_object_getproperty. pose proof (found_same _ _ (p_code p) D) as F.
  destruct (nfind (no_props n) (p_code p)) eqn:X, (uecho_propertylist_findbycode (o_props o) (p_code p)) eqn:Y.
  - apply IH; [repeat split; assumption|exact E].
  - exfalso. destruct F as [_ F]. specialize (F eq_refl). discriminate F.
  - exfalso. destruct F as [F _]. specialize (F eq_refl). discriminate F.
  - specialize (IH nsrc (no_with_props (nadd (no_props n) (p_code p, x)) n) (uecho_object_addproperty o (uecho_property_copy p))). apply IH; [|exact E].
    split; [exact A|]. split; [exact B|]. split; [exact C|].
    cbn [no_with_props no_props]. unfold uecho_object_addproperty. rewrite copy_eq. exact (add_same _ _ (uecho_property_setparentobject true (mkProp (p_code p) (p_attr p) (p_data p) false)) x D).
Qed.

Definition agree_db (ndb : list nobj) (db : list obj) : Prop := Forall2 agree ndb db.
Lemma getobject_same : forall ndb db, agree_db ndb db -> forall g c,
  match ndb_getobject ndb g c, uecho_database_getobject db g c with Some n, Some o => agree n o | None, None => True | _, _ => False end.
Proof.
  intros ndb db F g c. induction F as [|n o ndb db A F IH]; [exact Logic.I|]. cbn [ndb_getobject uecho_database_getobject]. destruct A as (A & B & C & D). rewrite A, B.
  destruct ((o_grp o =? g) && (o_cls o =? c)); [repeat split; assumption|exact IH].
Qed.
Lemma with_code_same : forall ndb db n o g c, agree_db ndb db -> agree n o -> agree (nadd_with_code ndb n g c) (fst (uecho_object_addstandardpropertieswithcode db o g c)).
Proof.
  intros ndb db n o g c F A. pose proof (getobject_same ndb db F g c) as G. unfold nadd_with_code, uecho_object_addstandardpropertieswithcode.
  destruct (ndb_getobject ndb g c) as [s|], (uecho_database_getobject db g c) as [s'|]; try destruct G; [|exact A]. destruct H0 as (_ & _ & K). cbn [fst].
  exact (missing_same (o_props s') (no_props s) (nobj_setname n (nobj_getname s)) o A K).
Qed.
Lemma standard_same : forall ndb db n o, agree_db ndb db -> agree n o -> agree (nadd_standard ndb n) (fst (uecho_object_addstandardproperties db o)).
Proof.
  intros ndb db n o F A. unfold nadd_standard, uecho_object_addstandardproperties. pose proof (with_code_same ndb db n o 0 0 F A) as A1.
  destruct (uecho_object_addstandardpropertieswithcode db o 0 0) as [o1 b1]. cbn [fst] in A1. set (n1 := nadd_with_code ndb n 0 0) in *. clearbody n1.
  pose proof (with_code_same ndb db n1 o1 (no_grp n1) (no_cls n1) F A1) as A2. destruct A1 as (G & C & _). rewrite G, C in *.
  destruct (uecho_object_addstandardpropertieswithcode db o1 (o_grp o1) (o_cls o1)) as [o2 b2]. exact A2.
Qed.
