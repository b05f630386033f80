(* Lemmas about objects. *)
From Coq Require Import ZArith List Bool Lia ZifyBool ZifyNat.
From Verif Require Import CSem M_Const M_Misc M_Property M_PropertyList M_Object Spec_Map Spec_Object
  P_Base P_Map P_PropertyList P_MapProps.
Import ListNotations.
Open Scope Z_scope.
Ltac Zify.zify_post_hook ::= Z.div_mod_to_equations.

(* ---- map stores for arbitrary (junk) codes ---- *)

Lemma codetoformat2_any : forall c,
  match uecho_propertymap_codetoformat2 c with
  | Some (row, bit) => 1 <= row <= 16
  | None => True
  end.
Proof.
  intros. unfold uecho_propertymap_codetoformat2.
  destruct ((c <? uEchoPropertyCodeMin) || (255 <? c)); [exact I|].
  rewrite (Z.land_ones _ 4) by lia. change (2 ^ 4) with 16. lia.
Qed.

Lemma format2_total : forall cs data, length data = 17%nat -> bytes_ok data ->
  exists data', map_format2 cs data = Ok data' /\ length data' = 17%nat /\ bytes_ok data' /\
    nth_error data' 0 = nth_error data 0.
Proof.
  induction cs as [|c cs IH]; intros data Hl Hb; [exists data; auto|].
  cbn [map_format2]. pose proof (codetoformat2_any c) as Hc.
  destruct (uecho_propertymap_codetoformat2 c) as [[row bit]|]; [|apply IH; assumption].
  destruct (rd_in _ data row) as (x & E & En); [unfold len; lia|]. rewrite E. cbn [bind].
  set (y := to_byte _). destruct (wr_total _ data row y) as (d1 & E1); [unfold len; lia|].
  rewrite E1. cbn [bind]. pose proof (wr_nth _ _ _ _ _ E1) as Hn. pose proof (wr_len _ _ _ _ _ E1) as Hl1.
  destruct (IH d1) as (d2 & F1 & F2 & F3 & F4); [unfold len in Hl1; lia| |].
  - apply Forall_forall. intros z Iz. apply In_nth_error in Iz. destruct Iz as (k & Ek).
    rewrite Hn in Ek. destruct (Nat.eqb k (Z.to_nat row)).
    + inversion Ek; subst z. apply to_byte_range.
    + apply nth_error_In in Ek. eapply Forall_forall in Hb; eauto.
  - exists d2. split; [assumption|]. split; [assumption|]. split; [assumption|].
    rewrite F4, Hn. destruct (Nat.eqb_spec 0 (Z.to_nat row)); [lia|reflexivity].
Qed.

(* the effect of storing map bytes [d] for [n] codes *)
Definition map_store (n : Z) (d : list Z) (p : prop) : prop :=
  if n <=? 15 then uecho_property_setattribute AttrRead (put_data d p) else put_data d p.

Lemma map_store_code : forall n d p, p_code (map_store n d p) = p_code p.
Proof. intros. unfold map_store. destruct (n <=? 15); reflexivity. Qed.
Lemma map_store_data : forall n d p, p_data (map_store n d p) = d.
Proof. intros. unfold map_store. destruct (n <=? 15); reflexivity. Qed.
Lemma map_store_parent : forall n d p, p_parent (map_store n d p) = p_parent p.
Proof. intros. unfold map_store. destruct (n <=? 15); reflexivity. Qed.

Lemma setmap_total : forall o m cs, bytes_ok cs ->
  exists d, uecho_object_setpropertymap o m (Some cs)
      = Ok (o_with_props (put (o_props o) m (map_store (len cs) d)) o, announced (got (o_props o) m) d)
    /\ bytes_ok d /\ nth_error d 0 = Some (to_byte (len cs)).
Proof.
  intros o m cs Hc. unfold uecho_object_setpropertymap, MapFormat1MaxSize, MapFormat2MapSize, map_store.
  destruct (Z.leb_spec (len cs) 15).
  - exists (to_byte (len cs) :: cs). rewrite pl_set_eq. split; [reflexivity|].
    split; [apply bytes_ok_cons; split; [apply to_byte_range|assumption]|]. reflexivity.
  - set (d0 := to_byte (len cs) :: repeat 0 (Z.to_nat 16)).
    destruct (format2_total cs d0) as (d & E1 & E2 & E3 & E4); [reflexivity| |].
    { unfold d0. apply bytes_ok_cons. split; [apply to_byte_range|].
      apply Forall_forall. intros x I. apply repeat_spec in I. subst. unfold is_byte. lia. }
    rewrite E1. cbn [bind]. exists d. rewrite pl_setdata_eq.
    split; [reflexivity|]. split; [assumption|]. rewrite E4. reflexivity.
Qed.

Lemma setmap_det : forall o m cs d1 d2 r1 r2,
  uecho_object_setpropertymap o m (Some cs)
    = Ok (o_with_props (put (o_props o) m (map_store (len cs) d1)) o, r1) ->
  uecho_object_setpropertymap o m (Some cs)
    = Ok (o_with_props (put (o_props o) m (map_store (len cs) d2)) o, r2) -> d1 = d2.
Proof.
  intros o m cs d1 d2 r1 r2 E1 E2. rewrite E1 in E2. inversion E2.
  assert (F : find (put (o_props o) m (map_store (len cs) d1)) m
            = find (put (o_props o) m (map_store (len cs) d2)) m) by congruence.
  rewrite !put_find in F by (intros; rewrite map_store_code; assumption).
  rewrite Z.eqb_refl in F. inversion F as [F1].
  apply (f_equal p_data) in F1. rewrite !map_store_data in F1. assumption.
Qed.

Definition junk_ok (junk : nat -> Z) : Prop := forall i, is_byte (junk i).
Definition plist_ok (l : list prop) : Prop :=
  Forall (fun p => is_byte (p_code p) /\ bytes_ok (p_data p)) l.

Lemma codes_bytes : forall l (f : prop -> bool), plist_ok l -> bytes_ok (map p_code (filter f l)).
Proof.
  intros l f H. apply Forall_forall. intros c I. apply in_map_iff in I. destruct I as (p & E & I).
  apply filter_In in I. destruct I as [I _]. unfold plist_ok in H. rewrite Forall_forall in H.
  apply H in I. subst. tauto.
Qed.

Definition wcodes (l : list prop) : list Z := map p_code (filter uecho_property_iswritable l).
Definition acodes (l : list prop) : list Z := map p_code (filter uecho_property_isannounceable l).
Definition rcodes (l : list prop) : list Z := map p_code (filter uecho_property_isreadable l).

(* The whole of updatepropertymaps.  [gs] is the content of the get cache. *)
Lemma update_spec : forall junk o o' ann, junk_ok junk -> plist_ok (o_props o) ->
  uecho_object_updatepropertymaps junk o = Ok (o', ann) ->
  exists gs dg ds da,
    get_cache junk (o_getsz o) (o_props o) = Some gs /\
    let l := o_props o in
    let l1 := put l 159 (map_store (len gs) dg) in
    let l2 := put l1 158 (map_store (len (wcodes l)) ds) in
    let l3 := put l2 157 (map_store (len (acodes l)) da) in
    o' = o_with_props l3 (o_with_getsz (o_getsz o + length (rcodes l)) o)
    /\ ann = announced (got l 159) dg ++ announced (got l1 158) ds ++ announced (got l2 157) da
    /\ bytes_ok dg /\ bytes_ok ds /\ bytes_ok da
    /\ nth_error dg 0 = Some (to_byte (len gs))
    /\ (forall oo, o_props oo = l -> exists r, uecho_object_setpropertymap oo 159 (Some gs)
           = Ok (o_with_props (put l 159 (map_store (len gs) dg)) oo, r))
    /\ (forall oo, o_props oo = l1 -> exists r, uecho_object_setpropertymap oo 158 (Some (wcodes l))
           = Ok (o_with_props (put l1 158 (map_store (len (wcodes l)) ds)) oo, r))
    /\ (forall oo, o_props oo = l2 -> exists r, uecho_object_setpropertymap oo 157 (Some (acodes l))
           = Ok (o_with_props (put l2 157 (map_store (len (acodes l)) da)) oo, r)).
Proof.
  intros junk o o' ann Hj Hl H. unfold uecho_object_updatepropertymaps in H.
  unfold uecho_object_clearpropertymapcaches in H. cbv zeta in H.
  destruct (get_cache junk (o_getsz o) (o_props o)) as [gs|] eqn:Eg; [|discriminate H].
  assert (Hgs : bytes_ok gs).
  { unfold get_cache in Eg. cbv zeta in Eg.
    pose proof (codes_bytes (o_props o) uecho_property_isreadable Hl) as Hr.
    destruct (map p_code (filter uecho_property_isreadable (o_props o))) as [|x r].
    - destruct (o_getsz o); [|discriminate]. inversion Eg. constructor.
    - inversion Eg. apply bytes_ok_app. split; [|assumption].
      apply Forall_forall. intros y I. apply in_map_iff in I. destruct I as (k & <- & _). apply Hj. }
  unfold EPC_GetMap, EPC_SetMap, EPC_AnnoMap in H.
  set (o1 := o_with_getsz (o_getsz o + length (filter uecho_property_isreadable (o_props o))) o) in *.
  destruct (setmap_total o1 159 gs Hgs) as (dg & E1 & B1 & N1).
  rewrite E1 in H. cbn [bind] in H.
  set (o2 := o_with_props (put (o_props o1) 159 (map_store (len gs) dg)) o1) in *.
  destruct (setmap_total o2 158 (wcodes (o_props o)) (codes_bytes _ _ Hl)) as (ds & E2 & B2 & N2).
  unfold wcodes in E2 at 1. rewrite E2 in H. cbn [bind] in H.
  set (o3 := o_with_props (put (o_props o2) 158 (map_store (len (wcodes (o_props o))) ds)) o2) in *.
  destruct (setmap_total o3 157 (acodes (o_props o)) (codes_bytes _ _ Hl)) as (da & E3 & B3 & N3).
  unfold acodes in E3 at 1. rewrite E3 in H. cbn [bind] in H.
  inversion H; subst o' ann. clear H.
  exists gs, dg, ds, da. split; [reflexivity|]. cbv zeta.
  split. { unfold o3, o2, o1, rcodes. rewrite map_length. reflexivity. }
  split; [reflexivity|]. split; [assumption|]. split; [assumption|]. split; [assumption|].
  split; [assumption|].
  assert (G : forall oo oo' m cs d, o_props oo' = o_props oo ->
     uecho_object_setpropertymap oo m (Some cs)
       = Ok (o_with_props (put (o_props oo) m (map_store (len cs) d)) oo, announced (got (o_props oo) m) d) ->
     exists r, uecho_object_setpropertymap oo' m (Some cs)
       = Ok (o_with_props (put (o_props oo) m (map_store (len cs) d)) oo', r)).
  { intros oo oo' m cs d E F. revert F. unfold uecho_object_setpropertymap. rewrite E.
    destruct (len cs <=? MapFormat1MaxSize).
    - destruct (uecho_propertylist_set (o_props oo) m AttrRead (to_byte (len cs) :: cs)) as [l a].
      intros F. apply (f_equal (fun r => match r with Ok (x, _) => o_props x | _ => [] end)) in F.
      cbn in F. subst l. eexists. reflexivity.
    - destruct (map_format2 cs _) as [dd|]; cbn [bind]; [|discriminate].
      destruct (uecho_propertylist_setdata (o_props oo) m dd) as [l a].
      intros F. apply (f_equal (fun r => match r with Ok (x, _) => o_props x | _ => [] end)) in F.
      cbn in F. subst l. eexists. reflexivity. }
  split; [intros oo E; apply (G o1); [assumption|exact E1]|].
  split; [intros oo E; apply (G o2); [assumption|exact E2]|].
  intros oo E; apply (G o3); [assumption|exact E3].
Qed.

(* when the update is defined *)
Lemma update_ok_iff : forall junk o, junk_ok junk -> plist_ok (o_props o) ->
  ((exists r, uecho_object_updatepropertymaps junk o = Ok r)
   <-> o_getsz o = O \/ exists p, In p (o_props o) /\ uecho_property_isreadable p = true).
Proof.
  intros junk o Hj Hl.
  assert (C : get_cache junk (o_getsz o) (o_props o) <> None
              <-> o_getsz o = O \/ exists p, In p (o_props o) /\ uecho_property_isreadable p = true).
  { unfold get_cache. cbv zeta.
    destruct (filter uecho_property_isreadable (o_props o)) as [|p r] eqn:E; cbn [map].
    - destruct (o_getsz o) as [|k].
      + split; [intros; left; reflexivity|intros; discriminate].
      + split; [congruence|]. intros [?|(p & I & R)]; [discriminate|].
        assert (In p (filter uecho_property_isreadable (o_props o))) by (apply filter_In; auto).
        rewrite E in H. destruct H.
    - split; [|discriminate]. intros _. right. exists p. apply filter_In. rewrite E. cbn. auto. }
  rewrite <- C. split.
  - intros ([o' ann] & H). destruct (update_spec _ _ _ _ Hj Hl H) as (gs & _ & _ & _ & E & _). congruence.
  - intros H. unfold uecho_object_updatepropertymaps, uecho_object_clearpropertymapcaches. cbv zeta.
    destruct (get_cache junk (o_getsz o) (o_props o)) as [gs|] eqn:Eg; [|congruence].
    assert (Hgs : bytes_ok gs).
    { unfold get_cache in Eg. cbv zeta in Eg.
      pose proof (codes_bytes (o_props o) uecho_property_isreadable Hl) as Hr.
      destruct (map p_code (filter uecho_property_isreadable (o_props o))) as [|x r].
      - destruct (o_getsz o); [|discriminate]. inversion Eg. constructor.
      - inversion Eg. apply bytes_ok_app. split; [|assumption].
        apply Forall_forall. intros y I. apply in_map_iff in I. destruct I as (k & <- & _). apply Hj. }
    edestruct setmap_total as (dg & E1 & _); [exact Hgs|]. rewrite E1. cbn [bind].
    edestruct setmap_total as (ds & E2 & _); [apply (codes_bytes _ uecho_property_iswritable Hl)|]. rewrite E2. cbn [bind].
    edestruct setmap_total as (da & E3 & _); [apply (codes_bytes _ uecho_property_isannounceable Hl)|]. rewrite E3. cbn [bind].
    eexists. reflexivity.
Qed.

Lemma put_plist_ok : forall l c f, (forall p, p_code p = c -> p_code (f p) = c) ->
  plist_ok l -> is_byte c -> (forall p, is_byte (p_code p) /\ bytes_ok (p_data p) -> bytes_ok (p_data (f p))) ->
  plist_ok (put l c f).
Proof.
  intros l c f Hc Hl Hb Hd. unfold put.
  assert (G : forall l', plist_ok l' -> plist_ok (update_first c f l')).
  { induction l'; cbn; intros H; [constructor|]. inversion H; subst.
    destruct (Z.eqb_spec (p_code a) c).
    - constructor; [|assumption]. split; [rewrite Hc by assumption; assumption|apply Hd; assumption].
    - constructor; [assumption|]. apply IHl'. assumption. }
  apply G. destruct (find l c); [assumption|]. apply Forall_app. split; [assumption|].
  constructor; [|constructor]. split; [exact Hb|constructor].
Qed.
