(* C17, C18, C19: attribute predicates and property maps. *)
From Coq Require Import ZArith List Bool Lia ZifyBool ZifyNat Permutation.
From Verif Require Import CSem M_Const M_Misc M_Property M_PropertyList M_Object Spec_Map
  P_Base P_Map P_PropertyList P_MapProps.
Import ListNotations.
Open Scope Z_scope.
Ltac Zify.zify_post_hook ::= Z.div_mod_to_equations.

(* ------------------------------------------------------------------ C17 *)

(* Attribute bits as include/uecho/property.h documents them. *)
Definition bit_read (a : Z) := Z.testbit a 0 = true.
Definition bit_write (a : Z) := Z.testbit a 1 = true.
Definition bit_anno (a : Z) := Z.testbit a 2 = true.
Definition bit_read_req (a : Z) := Z.testbit a 4 = true.
Definition bit_write_req (a : Z) := Z.testbit a 5 = true.
Definition bit_anno_req (a : Z) := Z.testbit a 6 = true.

Lemma land_bit : forall a k, 0 <= k -> (Z.land a (2 ^ k) =? 0) = negb (Z.testbit a k).
Proof.
  intros a k Hk. destruct (Z.testbit a k) eqn:E; cbn; apply Bool.not_true_iff_false || apply Z.eqb_eq.
  - intros H. apply Z.eqb_eq in H. assert (T : Z.testbit (Z.land a (2 ^ k)) k = false) by (rewrite H; apply Z.bits_0).
    rewrite Z.land_spec, E, Z.pow2_bits_true in T by assumption. discriminate.
  - apply Z.bits_inj. intros i. rewrite Z.land_spec, Z.bits_0.
    destruct (Z.eq_dec i k); [subst; rewrite E; reflexivity|].
    rewrite Z.pow2_bits_false by lia. apply andb_false_r.
Qed.

Lemma has_bits_1 : forall a k, 0 <= k -> has_bits a (2 ^ k) = Z.testbit a k.
Proof. intros. unfold has_bits. rewrite land_bit by assumption. apply negb_involutive. Qed.

Lemma has_bits_2 : forall a x y, has_bits a (Z.lor x y) = has_bits a x || has_bits a y.
Proof.
  intros. unfold has_bits. rewrite Z.land_lor_distr_r.
  destruct (Z.eqb_spec (Z.lor (Z.land a x) (Z.land a y)) 0) as [E|E].
  - apply Z.lor_eq_0_iff in E. destruct E as [E1 E2]. rewrite E1, E2. reflexivity.
  - destruct (Z.eqb_spec (Z.land a x) 0) as [E1|E1]; [|reflexivity].
    destruct (Z.eqb_spec (Z.land a y) 0) as [E2|E2]; [|reflexivity].
    rewrite E1, E2 in E. cbn in E. lia.
Qed.


Lemma readable_eq : forall p, uecho_property_isreadable p = Z.testbit (p_attr p) 0 || Z.testbit (p_attr p) 4.
Proof.
  intros. unfold uecho_property_isreadable, AttrRead, AttrReadRequired. rewrite has_bits_2.
  f_equal; [exact (has_bits_1 _ 0 ltac:(lia))|exact (has_bits_1 _ 4 ltac:(lia))].
Qed.
Lemma writable_eq : forall p, uecho_property_iswritable p = Z.testbit (p_attr p) 1 || Z.testbit (p_attr p) 5.
Proof.
  intros. unfold uecho_property_iswritable, AttrWrite, AttrWriteRequired. rewrite has_bits_2.
  f_equal; [exact (has_bits_1 _ 1 ltac:(lia))|exact (has_bits_1 _ 5 ltac:(lia))].
Qed.
Lemma announceable_eq : forall p, uecho_property_isannounceable p = Z.testbit (p_attr p) 2 || Z.testbit (p_attr p) 6.
Proof.
  intros. unfold uecho_property_isannounceable, AttrAnno, AttrAnnoRequired. rewrite has_bits_2.
  f_equal; [exact (has_bits_1 _ 2 ltac:(lia))|exact (has_bits_1 _ 6 ltac:(lia))].
Qed.

(* For every property, whatever its attribute value. *)
Theorem C17_attribute_predicates : forall p,
  let a := p_attr p in
  (uecho_property_isreadable p = true <-> bit_read a \/ bit_read_req a)
  /\ (uecho_property_iswritable p = true <-> bit_write a \/ bit_write_req a)
  /\ (uecho_property_isannounceable p = true <-> bit_anno a \/ bit_anno_req a)
  /\ (uecho_property_isreadrequired p = true <-> bit_read_req a)
  /\ (uecho_property_iswriterequired p = true <-> bit_write_req a)
  /\ (uecho_property_isannouncerequired p = true <-> bit_anno_req a)
  /\ (uecho_property_isreadonly p = true <->
        (bit_read a \/ bit_read_req a) /\ ~ (bit_write a \/ bit_write_req a))
  /\ (uecho_property_iswriteonly p = true <->
        (bit_write a \/ bit_write_req a) /\ ~ (bit_read a \/ bit_read_req a)).
Proof.
  intros p a. unfold uecho_property_isreadonly, uecho_property_iswriteonly.
  rewrite readable_eq, writable_eq, announceable_eq. fold a.
  replace (uecho_property_isreadrequired p) with (Z.testbit a 4)
    by (symmetry; exact (has_bits_1 _ 4 ltac:(lia))).
  replace (uecho_property_iswriterequired p) with (Z.testbit a 5)
    by (symmetry; exact (has_bits_1 _ 5 ltac:(lia))).
  replace (uecho_property_isannouncerequired p) with (Z.testbit a 6)
    by (symmetry; exact (has_bits_1 _ 6 ltac:(lia))).
  unfold bit_read, bit_write, bit_anno, bit_read_req, bit_write_req, bit_anno_req.
  destruct (Z.testbit a 0), (Z.testbit a 1), (Z.testbit a 2), (Z.testbit a 4), (Z.testbit a 5), (Z.testbit a 6);
    cbn; intuition congruence.
Qed.
Print Assumptions C17_attribute_predicates.

Theorem C17_required_implies_allowed : forall p,
  (uecho_property_isreadrequired p = true -> uecho_property_isreadable p = true)
  /\ (uecho_property_iswriterequired p = true -> uecho_property_iswritable p = true)
  /\ (uecho_property_isannouncerequired p = true -> uecho_property_isannounceable p = true).
Proof. intros p. pose proof (C17_attribute_predicates p) as H. cbv zeta in H. tauto. Qed.
Print Assumptions C17_required_implies_allowed.

Example C17_example : forall d,
  let p := mkProp 128 (16 + 2) d true in
  uecho_property_isreadable p = true /\ uecho_property_iswritable p = true
  /\ uecho_property_isreadonly p = false /\ uecho_property_isannounceable p = false
  /\ uecho_property_isreadonly (mkProp 128 16 d true) = true
  /\ uecho_property_iswriteonly (mkProp 128 32 d true) = true.
Proof. intros. repeat split. Qed.

(* ------------------------------------------------------------------ C18 *)

Definition map_property (m : Z) : Prop := m = 157 \/ m = 158 \/ m = 159.

(* Full statement: for every duplicate-free list [cs] of property codes, building a map
   of [cs] and decoding it gives [cs] again.  It is false for more than 15 codes when one
   of them is 0xC0 or above (C18_roundtrip_refuted, C18_bitmap_exactly); it holds in all
   other cases. *)
Theorem C18_roundtrip_partial : forall o m cs buf,
  map_property m -> NoDup cs -> Forall epc cs -> len cs <= len buf ->
  (len cs <= 15 \/ Forall (fun c => c < 192) cs) ->
  exists o' ann p cs',
    uecho_object_setpropertymap o m (Some cs) = Ok (o', ann)
    /\ uecho_object_getproperty o' m = Some p
    /\ map_of cs (p_data p)
    /\ uecho_property_getpropertymapcount p = Ok (Some (len cs))
    /\ uecho_property_getpropertymapcodes p buf (len cs)
       = Ok (true, map Some cs' ++ skipn (length cs) buf)
    /\ Permutation cs' cs
    /\ (len cs <= 15 -> cs' = cs).
Proof.
  intros o m cs buf Hm Hn Hc Hl Hr.
  destruct (setmap_spec o m cs Hc) as (d & E & Hb & H1 & H2).
  destruct (setmap_lists cs d Hn Hc Hb H1 H2) as (M1 & M2 & M3).
  set (f := fun p => let p' := put_data d p in
            if len cs <=? 15 then uecho_property_setattribute AttrRead p' else p') in *.
  assert (Hf : forall p, p_code (f p) = p_code p /\ p_data (f p) = d).
  { intros. unfold f. cbv zeta. destruct (len cs <=? 15); cbn; auto. }
  set (p := f (got (o_props o) m)).
  assert (Hp : p_code p = m /\ p_data p = d).
  { unfold p. destruct (Hf (got (o_props o) m)). rewrite got_code in *. auto. }
  destruct Hp as [Hp1 Hp2].
  assert (Hg : uecho_propertylist_findbycode (put (o_props o) m f) m = Some p).
  { rewrite put_find; [rewrite Z.eqb_refl; reflexivity|]. intros q <-. apply Hf. }
  clearbody p.
  assert (L : forall c, map_lists d c <-> In c cs).
  { intros c. rewrite M3. split; [tauto|]. intros I. split; [assumption|].
    destruct Hr as [?|Hr]; [auto|]. right. rewrite Forall_forall in Hr. auto. }
  destruct (decode_spec p buf (len cs)) as (r & cs' & D1 & D2 & D3 & D4 & D5).
  { rewrite Hp2. assumption. } { pose proof (len_nonneg _ cs). lia. }
  rewrite Hp2 in D3. rewrite Hp1, Hp2 in D4, D5. destruct D5 as [D5 D6]; auto.
  assert (Hrt : r = true).
  { destruct (Z.le_gt_cases (len cs) 15); [auto|].
    rewrite (D6 ltac:(lia) cs Hn).
    - apply Z.leb_refl.
    - intros c. rewrite L. split; [|tauto]. intros I. split; [assumption|].
      destruct Hr as [?|Hr]; [lia|]. rewrite Forall_forall in Hr. auto. }
  subst r. destruct D4 as (_ & _ & _ & D7 & D8); [reflexivity|].
  assert (P : Permutation cs' cs /\ (len cs <= 15 -> cs' = cs)).
  { destruct (Z.le_gt_cases (len cs) 15).
    - destruct D7 as [D7 _]; [assumption|]. rewrite (H1 H) in D7. cbn [tl] in D7.
      rewrite to_nat_len, firstn_all in D7. subst. split; [apply Permutation_refl|auto].
    - split; [|lia]. destruct D8 as [D8 D9]; [lia|]. apply NoDup_Permutation; auto.
      intros c. rewrite D9, L. split; [tauto|]. intros I. split; [assumption|].
      destruct Hr as [?|Hr]; [lia|]. rewrite Forall_forall in Hr. auto. }
  destruct P as [P1 P2].
  do 2 eexists. exists p, cs'. split; [exact E|].
  split; [exact Hg|].
  split. { unfold map_of. rewrite Hp2. split; [assumption|]. split; [exact M2|exact L]. }
  split. { rewrite mapcount_eq, Hp1, Hp2. unfold map_property in Hm.
           replace ((m =? 157) || (m =? 158) || (m =? 159)) with true by lia.
           destruct d; [discriminate|]. cbn in M2. congruence. }
  split. { rewrite D1. rewrite (Permutation_length P1). reflexivity. }
  auto.
Qed.
Print Assumptions C18_roundtrip_partial.

Lemma filter_le : forall (f : Z -> bool) l, (length (filter f l) <= length l)%nat.
Proof. induction l; cbn; [lia|]. destruct (f a); cbn; lia. Qed.

(* Above 15 codes the stored map lists exactly the codes below 0xC0, and so does the
   result of decoding it; the announced count is the number of all codes. *)
Theorem C18_bitmap_exactly : forall o m cs buf,
  map_property m -> NoDup cs -> Forall epc cs -> len cs <= len buf -> 15 < len cs ->
  exists o' ann p cs',
    uecho_object_setpropertymap o m (Some cs) = Ok (o', ann)
    /\ uecho_object_getproperty o' m = Some p
    /\ uecho_property_getpropertymapcount p = Ok (Some (len cs))
    /\ (forall c, map_lists (p_data p) c <-> In c cs /\ c < 192)
    /\ uecho_property_getpropertymapcodes p buf (len cs)
       = Ok (true, map Some cs' ++ skipn (length cs') buf)
    /\ NoDup cs'
    /\ (forall c, In c cs' <-> In c cs /\ c < 192).
Proof.
  intros o m cs buf Hm Hn Hc Hl H15.
  destruct (setmap_spec o m cs Hc) as (d & E & Hb & H1 & H2).
  destruct (setmap_lists cs d Hn Hc Hb H1 H2) as (M1 & M2 & M3).
  set (f := fun p => let p' := put_data d p in
            if len cs <=? 15 then uecho_property_setattribute AttrRead p' else p') in *.
  assert (Hf : forall p, p_code (f p) = p_code p /\ p_data (f p) = d).
  { intros. unfold f. cbv zeta. destruct (len cs <=? 15); cbn; auto. }
  set (p := f (got (o_props o) m)).
  assert (Hp : p_code p = m /\ p_data p = d).
  { unfold p. destruct (Hf (got (o_props o) m)). rewrite got_code in *. auto. }
  destruct Hp as [Hp1 Hp2].
  assert (Hg : uecho_propertylist_findbycode (put (o_props o) m f) m = Some p).
  { rewrite put_find; [rewrite Z.eqb_refl; reflexivity|]. intros q <-. apply Hf. }
  clearbody p.
  assert (L : forall c, map_lists d c <-> In c cs /\ c < 192) by (intros c; rewrite M3; lia || intuition lia).
  destruct (decode_spec p buf (len cs)) as (r & cs' & D1 & D2 & D3 & D4 & D5).
  { rewrite Hp2. assumption. } { lia. }
  rewrite Hp2 in D3. rewrite Hp1, Hp2 in D4, D5. destruct D5 as [D5 D6]; auto.
  assert (Hrt : r = true).
  { rewrite (D6 ltac:(lia) (filter (fun c => c <? 192) cs) (NoDup_filter _ Hn)).
    - pose proof (filter_le (fun c => c <? 192) cs). unfold len. lia.
    - intros c. rewrite L, filter_In. rewrite Z.ltb_lt. tauto. }
  subst r. destruct D4 as (_ & _ & _ & D7 & D8); [reflexivity|].
  destruct D8 as [D8 D9]; [lia|].
  do 2 eexists. exists p, cs'. split; [exact E|].
  split; [exact Hg|].
  split. { rewrite mapcount_eq, Hp1, Hp2. unfold map_property in Hm.
           replace ((m =? 157) || (m =? 158) || (m =? 159)) with true by lia.
           destruct d; [discriminate|]. cbn in M2. congruence. }
  split; [rewrite Hp2; exact L|]. split; [exact D1|]. split; [exact D8|].
  intros c. rewrite D9, L. tauto.
Qed.
Print Assumptions C18_bitmap_exactly.

(* 16 codes, one of them 0xC0: the decoder reports success, and slot 15 of the
   caller's array is never written. *)
Theorem C18_roundtrip_refuted :
  exists o m cs o' ann p out,
    map_property m /\ NoDup cs /\ Forall epc cs
    /\ uecho_object_setpropertymap o m (Some cs) = Ok (o', ann)
    /\ uecho_object_getproperty o' m = Some p
    /\ uecho_property_getpropertymapcodes p (repeat None 16) (len cs) = Ok (true, out)
    /\ ~ In (Some 192) out /\ In 192 cs /\ nth_error out 15 = Some None.
Proof.
  exists uecho_object_new, 159, [128;129;130;131;132;133;134;135;136;137;138;139;140;141;142;192].
  eexists _, _, (mkProp 159 AttrReadWrite [16;1;1;1;1;1;1;1;1;1;1;1;1;1;1;1;0] false), _.
  split; [right; right; reflexivity|].
  split; [apply nodupb_ok; reflexivity|].
  split. { repeat constructor; unfold epc; lia. }
  split; [cbv; reflexivity|].
  split; [cbv; reflexivity|].
  split; [cbv; reflexivity|].
  split; [|split; [cbn; tauto|reflexivity]].
  cbn. intuition congruence.
Qed.
Print Assumptions C18_roundtrip_refuted.

(* Non-trivial instances of the hypotheses of C18_roundtrip_partial, both formats. *)
Example C18_example_list : 
  exists o' ann p, uecho_object_setpropertymap uecho_object_new 158 (Some [128; 255; 176]) = Ok (o', ann)
  /\ uecho_object_getproperty o' 158 = Some p /\ p_data p = [3; 128; 255; 176].
Proof. eexists _, _, _. split; [cbv; reflexivity|]. split; [cbv; reflexivity|]. reflexivity. Qed.

Example C18_example_bitmap :
  let cs := map (fun k => 128 + 3 * Z.of_nat k) (seq 0 20) in
  NoDup cs /\ Forall epc cs /\ Forall (fun c => c < 192) cs /\ len cs = 20.
Proof.
  cbv zeta. split; [|split; [|split]].
  - apply nodup_map_inj; [intros; lia|apply seq_NoDup].
  - apply Forall_forall. intros x I. apply in_map_iff in I. destruct I as (k & E & I).
    apply in_seq in I. unfold epc. lia.
  - apply Forall_forall. intros x I. apply in_map_iff in I. destruct I as (k & E & I).
    apply in_seq in I. lia.
  - reflexivity.
Qed.

(* ------------------------------------------------------------------ C19 *)

(* Any map property content, any array at least as long as the given size: no undefined
   behaviour, nothing outside the first [size] slots is written, and every slot is
   either untouched or holds a code present in the map. *)
Theorem C19_decode_safe : forall p buf size,
  bytes_ok (p_data p) -> 0 <= size <= len buf ->
  exists r out,
    uecho_property_getpropertymapcodes p buf size = Ok (r, out)
    /\ length out = length buf
    /\ forall i x, nth_error out i = Some x ->
         nth_error buf i = Some x
         \/ Z.of_nat i < size /\ exists c, x = Some c /\ map_lists (p_data p) c.
Proof.
  intros p buf size Hb Hs.
  destruct (decode_spec p buf size Hb Hs) as (r & cs & D1 & D2 & D3 & _).
  exists r, (map Some cs ++ skipn (length cs) buf). split; [exact D1|].
  unfold len in *.
  split. { rewrite app_length, map_length, skipn_length. lia. }
  intros i x Hx. destruct (Nat.lt_ge_cases i (length cs)).
  - right. split; [lia|]. rewrite nth_error_app1 in Hx by (rewrite map_length; lia).
    apply nth_error_In in Hx. apply in_map_iff in Hx. destruct Hx as (c & E & I).
    exists c. split; [congruence|auto].
  - left. rewrite nth_error_app2 in Hx by (rewrite map_length; lia). rewrite map_length in Hx.
    rewrite <- (firstn_skipn (length cs) buf). rewrite nth_error_app2; rewrite firstn_length; [|lia].
    rewrite <- Hx. f_equal. lia.
Qed.
Print Assumptions C19_decode_safe.

(* What success means.  Up to 15 codes every slot is filled with the map's code at that
   position.  Above, the filled slots are exactly the listed codes below 0xC0, without
   repetition; the slots after them are untouched (so "every slot is filled" needs as many
   listed codes below 0xC0 as the count byte says; C19_success_refuted shows it can fail). *)
Theorem C19_success_partial : forall p buf size out,
  bytes_ok (p_data p) -> 0 <= size <= len buf ->
  uecho_property_getpropertymapcodes p buf size = Ok (true, out) ->
  map_property (p_code p) /\ nth_error (p_data p) 0 = Some size /\ map_complete (p_data p)
  /\ exists cs, out = map Some cs ++ skipn (length cs) buf
     /\ (forall c, In c cs <-> map_lists (p_data p) c /\ (size <= 15 \/ c < 192))
     /\ (size <= 15 -> len cs = size)
     /\ (15 < size -> NoDup cs /\ len cs <= size).
Proof.
  intros p buf size out Hb Hs H.
  destruct (decode_spec p buf size Hb Hs) as (r & cs & D1 & D2 & D3 & D4 & D5).
  rewrite H in D1. inversion D1; subst r out. destruct D4 as (E1 & E2 & E3 & E4 & E5); [reflexivity|].
  split; [exact E1|]. split; [exact E2|]. split; [exact E3|].
  exists cs. split; [reflexivity|].
  split. { intros c. destruct (Z.le_gt_cases size 15).
    - split; [intros I; split; [auto|lia]|]. intros [I _]. destruct E4 as [E4 _]; [assumption|].
      rewrite E4. destruct (p_data p) as [|n rest]; [destruct I|]. cbn in *.
      inversion E2; subst n. replace (size <=? 15) with true in I by lia. exact I.
    - destruct E5 as [_ E5]; [lia|]. rewrite E5. intuition lia. }
  split; [intros; apply E4; assumption|]. intros. split; [apply E5; assumption|assumption].
Qed.
Print Assumptions C19_success_partial.

(* A received map with count 16 and no bit set: success, and no slot is written. *)
Theorem C19_success_refuted :
  exists p buf, bytes_ok (p_data p) /\ len buf = 16
  /\ uecho_property_getpropertymapcodes p buf 16 = Ok (true, buf)
  /\ Forall (fun x => x = None) buf
  /\ forall c, ~ map_lists (p_data p) c.
Proof.
  exists (mkProp 159 1 (16 :: repeat 0 16) true), (repeat None 16).
  split. { apply Forall_forall. intros x I. cbn in I. unfold is_byte. lia. }
  split; [reflexivity|]. split; [vm_compute; reflexivity|].
  split. { apply Forall_forall. intros x I. apply repeat_spec in I. assumption. }
  intros c H. cbn [p_data map_lists] in H. change (16 <=? 15) with false in H. cbv iota in H.
  destruct H as (r & b & byt & H1 & H2 & H3 & H4 & H5).
  rewrite nth_error_repeat in H4 by lia. inversion H4; subst byt. rewrite Z.bits_0 in H5. discriminate.
Qed.
Print Assumptions C19_success_refuted.

(* A standard bitmap received from another node: codes 0x80..0x8F and 0xC5. *)
Example C19_example :
  uecho_property_getpropertymapcodes
    (mkProp 159 1 [17; 1;1;1;1;1;17;1;1;1;1;1;1;1;1;1;1] true) (repeat None 17) 17
  = Ok (true, map Some [128;129;130;131;132;133;134;135;136;137;138;139;140;141;142;143] ++ [None]).
Proof. vm_compute. reflexivity. Qed.
