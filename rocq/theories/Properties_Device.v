(* C49: the device helpers. *)
From Coq Require Import ZArith List Bool Lia ZifyBool ZifyNat.
From Verif Require Import CSem M_Const M_Misc M_Property M_PropertyList M_Object StdDB_Data M_Std Spec_Map Spec_Object
  Spec_Std Run_Object P_Base P_Misc P_Map P_PropertyList P_MapProps P_Object P_ObjectRun P_ObjectReach P_Std
  P_NodeProfile Properties_Object M_Device Spec_Device.
Import ListNotations.
Open Scope Z_scope.
Ltac Zify.zify_post_hook ::= Z.div_mod_to_equations.

(* The model of each call *)
Definition dstep (junk : nat -> Z) (o : obj) (d : dop) : res (obj * list prop) :=
  match d with
  | DOperating b => uecho_device_setoperatingstatus o b
  | DLocation l => uecho_device_setinstallationlocation o l
  | DVersion v => uecho_device_setstandardversion o v
  | DFault b => uecho_device_setfaultstatus o b
  | DManufacturer c => uecho_device_setmanufacturercode o c
  | DOther op => ostep junk o op
  end.

Fixpoint drun (o : obj) (h : list (dop * (nat -> Z))) : res obj :=
  match h with
  | [] => Ok o
  | (d, junk) :: r => do x <- dstep junk o d ;; drun (fst x) r
  end.

Definition dhist_ok (signed : bool) (h : list (dop * (nat -> Z))) : Prop :=
  Forall (fun x => dop_ok signed (fst x) /\ forall i, is_byte (snd x i)) h.

(* the getters all return the values of [s] and leave the object as it is *)
Definition shows_settings (signed : bool) (o : obj) (s : settings) : Prop :=
  uecho_device_isoperatingstatus o = Ok (o, s_operating s)
  /\ uecho_device_getinstallationlocation o = Ok (o, s_location s)
  /\ uecho_device_getstandardversion signed o = Ok (s_version s)
  /\ uecho_device_isfaultstatus o = Ok (o, s_fault s)
  /\ uecho_device_getmanufacturercode o = Ok (o, s_manufacturer s).

(* a device call is a store of the specified bytes *)
Lemma dstep_ostep : forall signed junk o d, dop_ok signed d -> dstep junk o d = ostep junk o (as_oop d).
Proof.
  intros signed junk o d H. destruct d; cbn [dstep as_oop writes ostep]; try reflexivity.
  - cbn [dop_ok] in H. unfold uecho_device_setinstallationlocation. rewrite to_byte_id by exact H. reflexivity.
  - unfold uecho_device_setmanufacturercode, uecho_object_setmanufacturercode.
    rewrite (set_int_eq _ _ _ _ _ (int3 code)). reflexivity.
Qed.

Lemma as_oop_ok : forall signed d, dop_ok signed d -> oop_ok (as_oop d).
Proof.
  intros signed d H. destruct d; cbn [as_oop writes]; try (split; [cbn; lia|]; unfold byte_list; repeat constructor; try lia).
  - destruct b; lia.
  - destruct b; lia.
  - cbn in H; lia.
  - cbn in H; lia.
  - destruct b; lia.
  - destruct b; lia.
  - apply H.
Qed.

Lemma as_oop_code : forall signed d c, dop_ok signed d -> oop_code (as_oop d) = Some c -> 128 <= c <= 255.
Proof.
  intros signed d c H E. destruct d; cbn [as_oop writes oop_code] in E; try (injection E as <-; lia).
  cbn [dop_ok] in H. destruct H as (_ & c' & E' & R & _). rewrite E' in E. injection E as <-. exact R.
Qed.

Lemma drun_orun : forall signed h o, dhist_ok signed h ->
  drun o h = orun o (map (fun x => (as_oop (fst x), snd x)) h).
Proof.
  induction h as [|[d junk] h IH]; intros o H; [reflexivity|].
  inversion H as [|? ? [H1 H2] H3]; subst. cbn [drun map orun fst snd] in *.
  rewrite (dstep_ostep _ _ _ _ H1). destruct (ostep junk o (as_oop d)) as [x|]; cbn [bind]; [apply IH; exact H3|reflexivity].
Qed.

(* what the getters return, in terms of the entries of the five properties *)
Definition dec_byte (d : list Z) : option Z := match d with [x] => Some x | _ => None end.
Definition decodes (signed : bool) (m : pmap) (s : settings) : Prop :=
  (exists a d, m 128 = Some (a, d) /\ s_operating s = match dec_byte d with Some b => b =? 48 | None => false end)
  /\ (exists a d, m 129 = Some (a, d) /\ s_location s = match dec_byte d with Some b => b | None => 0 end)
  /\ (exists a d, m 130 = Some (a, d) /\ s_version s = match d with [_; _; v; _] => to_char signed v | _ => 0 end)
  /\ (exists a d, m 136 = Some (a, d) /\ s_fault s = match dec_byte d with Some b => b =? 65 | None => false end)
  /\ (exists a d, m 138 = Some (a, d) /\ uecho_byte2integer d = Ok (s_manufacturer s)).

Lemma getters_decode : forall signed o s, decodes signed (view o) s <->
  (shows_settings signed o s /\ forall c, setting_code c -> uecho_object_hasproperty o c = true).
Proof.
  intros signed o s.
  assert (W : o_with_props (o_props o) o = o) by (destruct o; reflexivity).
  assert (V : forall c a d, view o c = Some (a, d) -> exists p, find (o_props o) c = Some p /\ p_attr p = a /\ p_data p = d).
  { intros c a d E. unfold view, uecho_object_getproperty in E. destruct (find (o_props o) c) as [p|]; [|discriminate].
    injection E as E1 E2. eauto. }
  assert (I : forall c a d, view o c = Some (a, d) ->
      uecho_object_getpropertyintegerdata o c = do v <- uecho_byte2integer d ;; Ok (o, v)).
  { intros c a d E. destruct (V _ _ _ E) as (p & P1 & P2 & P3).
    unfold uecho_object_getpropertyintegerdata, uecho_propertylist_getintegerdata, uecho_property_getintegerdata.
    rewrite getbycode_eq. unfold got. rewrite P1, P3. destruct (uecho_byte2integer d); cbn [bind]; [rewrite W|]; reflexivity. }
  assert (S4 : forall a d, view o 130 = Some (a, d) ->
      uecho_device_getstandardversion signed o = Ok match d with [_; _; v; _] => to_char signed v | _ => 0 end).
  { intros a d E. destruct (V _ _ _ E) as (p & P1 & P2 & P3).
    unfold uecho_device_getstandardversion, DEV_StandardVersion, DEV_VersionUnknown, uecho_object_getproperty, uecho_property_getdatasize.
    rewrite P1, P3. destruct d as [|d0 [|d1 [|d2 [|d3 [|d4 r]]]]]; try reflexivity.
    rewrite !len_cons. pose proof (len_nonneg _ r). replace (1 + (1 + (1 + (1 + (1 + len r)))) =? 4) with false by lia. reflexivity. }
  assert (H : forall c, setting_code c -> uecho_object_hasproperty o c = match view o c with Some _ => true | None => false end).
  { intros c _. unfold uecho_object_hasproperty, view. destruct (uecho_object_getproperty o c); reflexivity. }
  split.
  - intros ((a1 & d1 & E1 & F1) & (a2 & d2 & E2 & F2) & (a3 & d3 & E3 & F3) & (a4 & d4 & E4 & F4) & (a5 & d5 & E5 & F5)).
    split.
    + unfold shows_settings, uecho_device_isoperatingstatus, uecho_device_getinstallationlocation, uecho_device_isfaultstatus,
        uecho_device_getmanufacturercode, uecho_object_getmanufacturercode, DEV_OperatingStatus, DEV_InstallationLocation,
        DEV_FaultStatus, EPC_ManufacturerCode.
      destruct (C15_getters_partial _ _ _ _ E1) as (_ & _ & _ & ->). destruct (C15_getters_partial _ _ _ _ E2) as (_ & _ & _ & ->).
      destruct (C15_getters_partial _ _ _ _ E4) as (_ & _ & _ & ->). rewrite (S4 _ _ E3), (I _ _ _ E5), F5.
      cbn [bind fst snd]. rewrite F1, F2, F3, F4. auto 10.
    + intros c Hc. rewrite (H c Hc). unfold setting_code in Hc. cbn in Hc.
      destruct Hc as [<-|[<-|[<-|[<-|[<-|[]]]]]]; [rewrite E1|rewrite E2|rewrite E3|rewrite E4|rewrite E5]; reflexivity.
  - intros [(G1 & G2 & G3 & G4 & G5) Hp].
    assert (X : forall c, setting_code c -> exists a d, view o c = Some (a, d)).
    { intros c Hc. specialize (Hp c Hc). rewrite (H c Hc) in Hp. destruct (view o c) as [[a d]|]; [eauto|discriminate]. }
    destruct (X 128) as (a1 & d1 & E1); [cbn; auto|]. destruct (X 129) as (a2 & d2 & E2); [cbn; auto|].
    destruct (X 130) as (a3 & d3 & E3); [cbn; auto|]. destruct (X 136) as (a4 & d4 & E4); [cbn; auto|].
    destruct (X 138) as (a5 & d5 & E5); [cbn; auto 10|].
    unfold uecho_device_isoperatingstatus, DEV_OperatingStatus in G1. destruct (C15_getters_partial _ _ _ _ E1) as (_ & _ & _ & R1). rewrite R1 in G1.
    unfold uecho_device_getinstallationlocation, DEV_InstallationLocation in G2. destruct (C15_getters_partial _ _ _ _ E2) as (_ & _ & _ & R2). rewrite R2 in G2.
    unfold uecho_device_isfaultstatus, DEV_FaultStatus in G4. destruct (C15_getters_partial _ _ _ _ E4) as (_ & _ & _ & R4). rewrite R4 in G4.
    rewrite (S4 _ _ E3) in G3. unfold uecho_device_getmanufacturercode, uecho_object_getmanufacturercode, EPC_ManufacturerCode in G5.
    rewrite (I _ _ _ E5) in G5. cbn [bind fst snd] in G1, G2, G4.
    unfold decodes. split; [exists a1, d1; split; [exact E1|injection G1 as G1; symmetry; exact G1]|].
    split; [exists a2, d2; split; [exact E2|injection G2 as G2; symmetry; exact G2]|].
    split; [exists a3, d3; split; [exact E3|congruence]|].
    split; [exists a4, d4; split; [exact E4|injection G4 as G4; symmetry; exact G4]|].
    exists a5, d5. split; [exact E5|]. destruct (uecho_byte2integer d5); cbn [bind] in G5; congruence.
Qed.

Lemma char_id : forall signed v, char_ok signed v -> to_char signed (v mod 256) = v.
Proof. intros signed v H. unfold to_char, char_ok in *. destruct signed; cbn [andb]; [destruct (128 <=? v mod 256) eqn:E|]; lia. Qed.

Lemma man_id : forall c, uecho_byte2integer [c / 65536 mod 256; c / 256 mod 256; c mod 256] = Ok (c mod 16777216).
Proof.
  intros c. apply byte2integer_iff; [repeat constructor; unfold is_byte; lia|]. split; [cbn; lia|].
  unfold be_val, INT_MAX. cbn [rev app le_val]. lia.
Qed.

Lemma set_eq : forall m c e, pm_set m c e c = Some e.
Proof. intros. unfold pm_set. rewrite Z.eqb_refl. reflexivity. Qed.
Lemma set_ne : forall m c e x, x <> c -> pm_set m c e x = m x.
Proof. intros. unfold pm_set. destruct (Z.eqb_spec x c); [contradiction|reflexivity]. Qed.

Lemma decodes_ext : forall signed m m' s, (forall c, setting_code c -> m' c = m c) -> decodes signed m s -> decodes signed m' s.
Proof. intros signed m m' s E H. unfold decodes in *. rewrite !E by (cbn; auto 10). exact H. Qed.

(* one call, on the map of properties *)
Lemma step_decodes : forall signed m d s, dop_ok signed d -> decodes signed m s ->
  decodes signed (pm_step m (as_oop d)) (set_step s d).
Proof.
  intros signed m d s H D.
  destruct d as [b|l|v|b|c|op].
  6:{ cbn [as_oop set_step]. apply (decodes_ext signed m); [|exact D].
      cbn [dop_ok] in H. destruct H as (_ & c & E & _ & N). intros x Hx.
      assert (x <> c) by (intros ->; auto).
      destruct op; cbn [oop_code] in E; try discriminate; injection E as ->; cbn [pm_step];
        try (apply set_ne; assumption); destruct (m c) as [[? ?]|]; try reflexivity; apply set_ne; assumption. }
  all: destruct D as (D1 & D2 & D3 & D4 & D5); cbn [as_oop writes pm_step set_step]; unfold decodes;
    cbn [s_operating s_location s_version s_fault s_manufacturer].
  all: rewrite ?set_eq; rewrite !set_ne by lia.
  - split; [eexists _, _; split; [reflexivity|]; cbn [dec_byte]; destruct b; reflexivity|]. auto 10.
  - split; [exact D1|]. split; [eexists _, _; split; [reflexivity|]; reflexivity|]. auto 10.
  - split; [exact D1|]. split; [exact D2|]. split; [eexists _, _; split; [reflexivity|]; symmetry; apply char_id; exact H|]. auto 10.
  - split; [exact D1|]. split; [exact D2|]. split; [exact D3|]. split; [eexists _, _; split; [reflexivity|]; cbn [dec_byte]; destruct b; reflexivity|exact D5].
  - split; [exact D1|]. split; [exact D2|]. split; [exact D3|]. split; [exact D4|].
    eexists _, _. split; [reflexivity|]. apply man_id.
Qed.

Lemma run_decodes : forall signed h m s, Forall (dop_ok signed) h -> decodes signed m s ->
  decodes signed (pm_run m (map as_oop h)) (set_run s h).
Proof.
  induction h as [|d h IH]; intros m s H D; [exact D|]. inversion H; subst. cbn [map pm_run fold_left set_run].
  apply IH; [assumption|]. apply step_decodes; assumption.
Qed.

Lemma drun_view : forall signed o h o', api_obj std_db o -> dhist_ok signed h -> drun o h = Ok o' ->
  forall c, ~ map_epc c -> view o' c = pm_run (view o) (map as_oop (map fst h)) c.
Proof.
  intros signed o h o' Ho Hh H c Hc. rewrite (drun_orun signed) in H by exact Hh.
  destruct (C15_finite_map o (map (fun x => (as_oop (fst x), snd x)) h) o' Ho) as (_ & V & _); [|exact H|].
  - unfold hist_ok, dhist_ok in *. rewrite Forall_forall in *. intros x Hx. apply in_map_iff in Hx.
    destruct Hx as (y & <- & Hy). cbn [fst snd]. destruct (Hh y Hy). split; [eapply as_oop_ok; eauto|assumption].
  - rewrite (V c Hc), !map_map. reflexivity.
Qed.

(* Whatever calls are made on a device, in any order, each getter returns the value most
   recently set (a manufacturer code modulo 2^24), or the earlier value if it was not set. *)
Theorem C49_read_back : forall signed o h o' s,
  api_obj std_db o -> (forall c, setting_code c -> uecho_object_hasproperty o c = true) ->
  shows_settings signed o s -> dhist_ok signed h -> drun o h = Ok o' ->
  shows_settings signed o' (set_run s (map fst h))
  /\ (forall c, setting_code c -> uecho_object_hasproperty o' c = true).
Proof.
  intros signed o h o' s Ho Hp Hs Hh H. apply getters_decode.
  assert (D : decodes signed (view o) s) by (apply getters_decode; auto).
  apply (decodes_ext signed (pm_run (view o) (map as_oop (map fst h)))).
  - intros c Hc. apply (drun_view signed o h o' Ho Hh H). intros M. unfold map_epc, setting_code in *. cbn in Hc. lia.
  - apply run_decodes; [|exact D]. unfold dhist_ok in Hh. rewrite Forall_forall in *. intros d Hd.
    apply in_map_iff in Hd. destruct Hd as (x & <- & Hx). apply Hh. exact Hx.
Qed.
Print Assumptions C49_read_back.

(* A setter stores the specified bytes in its property, keeps the property's access rules
   and changes no other property, on any object at all. *)
Theorem C49_setter : forall signed o d c bs junk,
  api_obj std_db o -> dop_ok signed d -> writes d = Some (c, bs) ->
  exists o' ann, dstep junk o d = Ok (o', ann)
    /\ view o' c = Some (match view o c with Some (a, _) => a | None => rw end, bs)
    /\ (forall x, x <> c -> view o' x = view o x).
Proof.
  intros signed o d c bs junk Ho Hd Hw. rewrite (dstep_ostep signed) by exact Hd.
  assert (E : as_oop d = OSetData c bs) by (destruct d; cbn [as_oop]; rewrite ?Hw; try reflexivity; discriminate).
  pose proof (as_oop_ok _ _ Hd) as Hok. rewrite E in *. cbn [ostep].
  destruct (uecho_object_setpropertydata o c bs) as [o' ann] eqn:S. exists o', ann. split; [reflexivity|].
  destruct (api_einv _ _ std_db_ok Ho) as [[Hi _] _].
  destruct (step_spec zeros o (OSetData c bs) o' ann zeros_ok Hi Hok) as [_ V]; [cbn [ostep]; rewrite S; reflexivity|].
  assert (V' : forall x, view o' x = pm_set (view o) c (attr_of (view o) c, bs) x).
  { intros x. apply V. right. intros. discriminate. }
  split; [rewrite V', set_eq; reflexivity|]. intros x Hx. rewrite V', set_ne by exact Hx. reflexivity.
Qed.
Print Assumptions C49_setter.

(* Whatever calls are made, the properties other than the five (and the three maps) hold
   what the other calls wrote. *)
Theorem C49_other_properties : forall signed o h o' c,
  api_obj std_db o -> dhist_ok signed h -> drun o h = Ok o' -> ~ setting_code c -> ~ map_epc c ->
  view o' c = pm_run (view o) (flat_map (fun d => match d with DOther op => [op] | _ => [] end) (map fst h)) c.
Proof.
  intros signed o h o' c Ho Hh H Hc Hm. rewrite (drun_view signed o h o' Ho Hh H c Hm).
  generalize (map fst h) (view o). clear - Hc. induction l as [|d l IH]; intros m; [reflexivity|].
  cbn [map pm_run fold_left flat_map]. unfold pm_run in IH. rewrite IH. rewrite fold_left_app.
  apply (pm_run_local (flat_map _ l)).
  assert (N : forall k e, In k [128; 129; 130; 136; 138] -> pm_set m k e c = m c) by (intros k e Hk; apply set_ne; intros ->; auto).
  destruct d; cbn [as_oop writes pm_step fold_left]; try (apply N; cbn; auto 10). reflexivity.
Qed.
Print Assumptions C49_other_properties.

(* ---------- uecho_device_new ---------- *)

Definition device : obj := match uecho_device_new std_db with Ok (Some o) => o | _ => uecho_object_new end.

Lemma device_eq : uecho_device_new std_db = Ok (Some device).
Proof. vm_compute. reflexivity. Qed.

Lemma addmissing_same : forall src o, (forall q, In q src -> find (o_props o) (p_code q) <> None) -> addmissing o src = o.
Proof.
  induction src as [|q src IH]; intros o H; [reflexivity|]. cbn [addmissing]. rewrite has_find.
  destruct (find (o_props o) (p_code q)) eqn:E; [|exfalso; apply (H q); [left; reflexivity|exact E]].
  apply IH. intros; apply H; right; assumption.
Qed.

Definition base_device (db : list obj) : obj := addmissing uecho_object_new (db_props db 0 0).

Lemma find_member : forall l q, In q l -> find l (p_code q) <> None.
Proof.
  induction l as [|x l IH]; intros q H; [contradiction|]. cbn [uecho_propertylist_findbycode].
  destruct (Z.eqb_spec (p_code x) (p_code q)); [discriminate|]. destruct H as [->|H]; [contradiction|auto].
Qed.

Lemma base_api : forall db, api_obj db (base_device db).
Proof.
  intros db. replace (base_device db) with (uecho_object_setclasscode db uecho_object_new 0).
  - apply ao_setclass; [constructor|unfold is_byte; lia].
  - unfold uecho_object_setclasscode. rewrite addstd_eq.
    change (o_with_code (o_grp uecho_object_new) 0 (o_ins uecho_object_new) uecho_object_new) with uecho_object_new.
    change (o_grp uecho_object_new) with 0. change (o_cls uecho_object_new) with 0.
    apply addmissing_same. intros q Hq.
    destruct (addmissing_spec (db_props db 0 0) uecho_object_new) as (F & _). rewrite F.
    change (find (o_props uecho_object_new) (p_code q)) with (@None prop). cbv iota.
    pose proof (find_member _ _ Hq). destruct (find (db_props db 0 0) (p_code q)); [discriminate|contradiction].
Qed.

Lemma base_view : forall db c, view (base_device db) c = option_map ent (option_map owned (find (db_props db 0 0) c)).
Proof.
  intros db c. rewrite view_lview. unfold lview, base_device.
  destruct (addmissing_spec (db_props db 0 0) uecho_object_new) as (F & _). rewrite F. reflexivity.
Qed.

Definition new_calls : list dop := [DOperating true; DFault false; DVersion 78; DLocation 0; DManufacturer 16777200].

Lemma device_new_run : forall db o, uecho_device_new db = Ok (Some o) ->
  drun (base_device db) (map (fun d => (d, zeros)) new_calls) = Ok o.
Proof.
  intros db o H. unfold uecho_device_new, uecho_device_addmandatoryproperties in H.
  unfold base_device, db_props. destruct (uecho_database_getobject db 0 0) as [sup|]; [|discriminate].
  unfold uecho_object_addmissingobjectproperties in H. cbn [map new_calls drun dstep].
  unfold uecho_device_setmanufacturercode.
  unfold uecho_device_setoperatingstatus, uecho_device_setfaultstatus, uecho_device_setstandardversion,
    uecho_device_setinstallationlocation, MAN_Default, DEV_VersionDefault, DEV_LocationUnknown in *. cbn [bind] in *.
  destruct (uecho_object_setmanufacturercode _ _) as [x5|]; cbn [bind] in *; [|discriminate].
  cbn [option_map fst] in H. congruence.
Qed.

Lemma new_calls_ok : forall signed, dhist_ok signed (map (fun d => (d, zeros)) new_calls).
Proof.
  intros signed. unfold dhist_ok, new_calls. cbn [map].
  repeat (apply Forall_cons; [split; [|apply zeros_ok]|]); try apply Forall_nil; cbn [fst dop_ok]; try exact I; try lia.
  unfold char_ok. destruct signed; lia.
Qed.

Lemma drun_api : forall db signed h o o', api_obj db o -> dhist_ok signed h -> drun o h = Ok o' -> api_obj db o'.
Proof.
  induction h as [|[d junk] h IH]; intros o o' Ho Hh H; [injection H as <-; exact Ho|].
  inversion Hh as [|? ? [H1 H2] H3]; subst. cbn [fst snd drun] in *. rewrite (dstep_ostep signed) in H by exact H1.
  destruct (ostep junk o (as_oop d)) as [[o1 ann]|] eqn:E; [|discriminate]. cbn [bind fst] in H.
  apply (IH o1 o'); [|exact H3|exact H].
  apply (ao_step db o junk (as_oop d) o1 ann Ho); [eapply as_oop_ok; eauto| |exact H2|exact E].
  intros c Hc. eapply as_oop_code; eauto.
Qed.

(* the data of a new device *)
Definition factory_data (c : Z) : list Z :=
  if c =? 128 then [48] else if c =? 129 then [0] else if c =? 130 then [0; 0; 78; 0]
  else if c =? 136 then [66] else if c =? 138 then [255; 255; 240] else [].

Lemma new_run : forall m c, (forall x, setting_code x -> m x <> None) -> (forall x, data_of m x = []) ->
  pm_run m (map as_oop new_calls) c = option_map (fun e => (fst e, factory_data c)) (m c).
Proof.
  intros m c Hs Hd. unfold pm_run, new_calls. cbn [map as_oop writes fold_left pm_step].
  change (16777200 / 65536 mod 256) with 255. change (16777200 / 256 mod 256) with 255. change (16777200 mod 256) with 240.
  change (78 mod 256) with 78. unfold factory_data.
  assert (E : forall x, setting_code x -> m x = Some (attr_of m x, [])).
  { intros x Hx. specialize (Hs x Hx). specialize (Hd x). unfold data_of, attr_of in *. destruct (m x) as [[a d]|]; [|contradiction]. cbn in Hd. subst d. reflexivity. }
  assert (S : forall x, setting_code x -> In x [128; 129; 130; 136; 138]) by (intros; assumption).
  destruct (Z.eqb_spec c 138); [subst c; rewrite set_eq, E by (cbn; auto 10); reflexivity|]. rewrite set_ne by assumption.
  destruct (Z.eqb_spec c 129); [subst c; rewrite set_eq, E by (cbn; auto 10); reflexivity|]. rewrite set_ne by assumption.
  destruct (Z.eqb_spec c 130); [subst c; rewrite set_eq, E by (cbn; auto 10); reflexivity|]. rewrite set_ne by assumption.
  destruct (Z.eqb_spec c 136); [subst c; rewrite set_eq, E by (cbn; auto 10); reflexivity|]. rewrite set_ne by assumption.
  destruct (Z.eqb_spec c 128); [subst c; rewrite set_eq, E by (cbn; auto 10); reflexivity|]. rewrite set_ne by assumption.
  specialize (Hd c). unfold data_of in Hd. destruct (m c) as [[a d]|]; [|reflexivity]. subst d. reflexivity.
Qed.

Lemma device_view : forall o c, uecho_device_new std_db = Ok (Some o) -> ~ map_epc c ->
  view o c = option_map (fun e => (p_attr (std_prop c e), factory_data c)) (listed 0 0 c).
Proof.
  intros o c H Hc. pose proof (device_new_run _ _ H) as R.
  rewrite (drun_view true _ _ _ (base_api std_db) (new_calls_ok true) R c Hc).
  rewrite map_map. change (map (fun x => fst (x, zeros)) new_calls) with new_calls.
  assert (B : forall x, view (base_device std_db) x = option_map (fun e => (p_attr (std_prop x e), [])) (listed 0 0 x)).
  { intros x. rewrite base_view, std_find. destruct (listed 0 0 x) as [[[g s] a]|]; [|reflexivity].
    cbn [option_map]. unfold ent, owned. cbn [p_attr p_data]. destruct (std_prop_spec x g s a) as (D & _).
    change (p_data (std_prop x (g, s, a))) with (p_data (owned (std_prop x (g, s, a)))). rewrite <- D. reflexivity. }
  rewrite new_run.
  - rewrite B. destruct (listed 0 0 c); reflexivity.
  - intros x Hx. rewrite B. unfold setting_code in Hx. cbn in Hx.
    assert (L : forallb (fun x => match listed 0 0 x with Some _ => true | None => false end) [128; 129; 130; 136; 138] = true)
      by (vm_compute; reflexivity).
    rewrite forallb_forall in L. specialize (L x Hx). destruct (listed 0 0 x); [discriminate|discriminate].
  - intros x. unfold data_of. rewrite B. destruct (listed 0 0 x); reflexivity.
Qed.

(* uecho_device_new succeeds, and the device has exactly the properties listed for the
   super class, with their access rules and the documented default values. *)
Theorem C49_new : exists o, uecho_device_new std_db = Ok (Some o)
  /\ (forall signed, shows_settings signed o factory)
  /\ (forall c, ~ map_epc c ->
       match listed 0 0 c with
       | Some (g, s, a) => exists p, uecho_object_getproperty o c = Some p /\ p_data p = factory_data c
           /\ uecho_property_isreadable p = grants g /\ uecho_property_isreadrequired p = required g
           /\ uecho_property_iswritable p = grants s /\ uecho_property_iswriterequired p = required s
           /\ uecho_property_isannounceable p = grants a /\ uecho_property_isannouncerequired p = required a
       | None => uecho_object_getproperty o c = None
       end).
Proof.
  exists device. split; [exact device_eq|].
  split; [intros signed; unfold shows_settings; destruct signed; (split; [|split; [|split; [|split]]]); vm_compute; reflexivity|].
  intros c Hc. pose proof (device_view device c device_eq Hc) as V. unfold view in V.
  generalize dependent device. intros o V.
  destruct (listed 0 0 c) as [[[g s] a]|]; cbn [option_map] in V; destruct (uecho_object_getproperty o c) as [p|]; try discriminate; [|reflexivity].
  exists p. split; [reflexivity|]. injection V as E1 E2. split; [exact E2|].
  destruct (std_prop_spec c g s a) as (_ & _ & _ & R1 & R2 & R3 & R4 & R5 & R6).
  revert R1 R2 R3 R4 R5 R6. unfold uecho_property_isreadable, uecho_property_isreadrequired, uecho_property_iswritable,
    uecho_property_iswriterequired, uecho_property_isannounceable, uecho_property_isannouncerequired.
  change (p_attr (owned (std_prop c (g, s, a)))) with (p_attr (std_prop c (g, s, a))). rewrite E1. auto 10.
Qed.
Print Assumptions C49_new.

(* From the creation of a device on, each getter returns what was set last, or the default. *)
Theorem C49_device_history : forall signed h o o',
  uecho_device_new std_db = Ok (Some o) -> dhist_ok signed h -> drun o h = Ok o' ->
  shows_settings signed o' (set_run factory (map fst h)) /\ api_obj std_db o'.
Proof.
  intros signed h o o' H Hh R.
  assert (Ho : api_obj std_db o) by (exact (drun_api _ true _ _ _ (base_api std_db) (new_calls_ok true) (device_new_run _ _ H))).
  assert (S : shows_settings signed o factory) by (destruct C49_new as (o2 & E & S & _); rewrite H in E; injection E as <-; apply S).
  assert (P : forall c, setting_code c -> uecho_object_hasproperty o c = true).
  { intros c Hc. assert (M : ~ map_epc c) by (unfold map_epc, setting_code in *; cbn in Hc; lia).
    pose proof (device_view o c H M) as V. unfold view in V. unfold uecho_object_hasproperty.
    destruct (uecho_object_getproperty o c); [reflexivity|].
    assert (L : forallb (fun x => match listed 0 0 x with Some _ => true | None => false end) [128; 129; 130; 136; 138] = true)
      by (vm_compute; reflexivity).
    rewrite forallb_forall in L. specialize (L c Hc). destruct (listed 0 0 c); discriminate. }
  split; [apply (C49_read_back signed o h o' factory Ho P S Hh R)|apply (drun_api _ signed h o o' Ho Hh R)].
Qed.
Print Assumptions C49_device_history.

(* The property maps are part of the mandatory properties, but uecho_device_new leaves
   them empty: the Get map (0x9F) has no data although operating status can be read. *)
Theorem C49_new_maps_refuted : exists o p q,
  uecho_device_new std_db = Ok (Some o)
  /\ uecho_object_getproperty o 128 = Some p /\ uecho_property_isreadable p = true
  /\ uecho_object_getproperty o 159 = Some q /\ uecho_property_isreadrequired q = true
  /\ p_data q = [] /\ uecho_object_getpropertydatasize o 159 = (o, 0).
Proof.
  exists device. eexists _, _. split; [exact device_eq|]. split; [vm_compute; reflexivity|]. split; [reflexivity|].
  split; [vm_compute; reflexivity|]. split; [reflexivity|]. split; [reflexivity|]. vm_compute. reflexivity.
Qed.
Print Assumptions C49_new_maps_refuted.

(* A profile's manufacturer code does not read back: every code but 0 reads as true. *)
Theorem C49_profile_manufacturer_partial : forall o c, api_obj std_db o ->
  exists o' ann, uecho_profile_setmanufacturercode o c = Ok (o', ann)
    /\ uecho_object_getmanufacturercode o' = Ok (o', c mod 16777216)
    /\ uecho_profile_getmanufacturercode o' = Ok (o', negb (c mod 16777216 =? 0)).
Proof.
  intros o c Ho. destruct (C49_setter true o (DManufacturer c) 138 _ zeros Ho I eq_refl) as (o' & ann & S & V & _).
  exists o', ann. split; [exact S|].
  assert (G : uecho_object_getmanufacturercode o' = Ok (o', c mod 16777216)).
  { destruct (C15_getters_partial _ _ _ _ V) as ((p & P1 & P2 & P3 & P4 & _) & _).
    unfold uecho_object_getmanufacturercode, EPC_ManufacturerCode, uecho_object_getpropertyintegerdata,
      uecho_propertylist_getintegerdata, uecho_property_getintegerdata. rewrite getbycode_eq. unfold got.
    unfold uecho_object_getproperty in P1. rewrite P1, P4, man_id. cbn [bind]. destruct o'; reflexivity. }
  split; [exact G|]. unfold uecho_profile_getmanufacturercode. rewrite G. reflexivity.
Qed.
Print Assumptions C49_profile_manufacturer_partial.

Theorem C49_profile_manufacturer_refuted : exists o1 o2 a1 a2,
  uecho_profile_setmanufacturercode uecho_profile_new 1 = Ok (o1, a1)
  /\ uecho_profile_setmanufacturercode uecho_profile_new 16777200 = Ok (o2, a2)
  /\ (exists b, uecho_profile_getmanufacturercode o1 = Ok (o1, b) /\ uecho_profile_getmanufacturercode o2 = Ok (o2, b)).
Proof.
  eexists _, _, _, _. split; [vm_compute; reflexivity|]. split; [vm_compute; reflexivity|].
  exists true. split; vm_compute; reflexivity.
Qed.
Print Assumptions C49_profile_manufacturer_refuted.

(* a history that changes all five settings and another property *)
Definition device_calls : list (dop * (nat -> Z)) :=
  map (fun d => (d, zeros))
    [DOperating false; DOther (OSetData 179 [25]); DLocation 17; DVersion 65; DManufacturer 255; DFault true; DLocation 18;
     DManufacturer (-1); DOperating true].

Example C49_example : exists o', drun device device_calls = Ok o'
  /\ dhist_ok true device_calls
  /\ set_run factory (map fst device_calls) = mkSet true 18 65 true 16777215
  /\ shows_settings true o' (mkSet true 18 65 true 16777215).
Proof.
  eexists. split; [vm_compute; reflexivity|]. split.
  - unfold dhist_ok, device_calls. cbn [map].
    repeat (apply Forall_cons; [split; [|apply zeros_ok]|]); try apply Forall_nil; cbn [fst dop_ok]; try exact I; try (cbn; lia).
    split; [split; [cbn; lia|unfold byte_list; repeat constructor; lia]|]. exists 179. split; [reflexivity|]. split; [lia|].
    unfold setting_code. cbn. lia.
  - split; [reflexivity|]. unfold shows_settings. (split; [|split; [|split; [|split]]]); vm_compute; reflexivity.
Qed.
