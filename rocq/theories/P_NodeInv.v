(* The invariant of nodes, preserved by every call and every received datagram. *)
From Coq Require Import String ZArith List Bool Lia ZifyBool ZifyNat.
From Verif Require Import CSem M_Const M_Misc M_Property M_Message M_PropertyList M_Object M_Node M_NodeListener
  Spec_Frame Spec_Message Spec_Object Spec_Node Run_Object Run_Node P_Base P_Misc P_Message P_Encode P_MsgApi P_PropertyList
  P_Object P_ObjectRun P_ObjectReach P_Node P_Request Properties_Object P_NodeReach P_NodeProfile Spec_Map.
Import ListNotations.
Open Scope Z_scope.
Ltac Zify.zify_post_hook ::= Z.div_mod_to_equations.

(* ---- classes ---- *)

Lemma class_code : forall g c, is_byte g -> is_byte c -> uecho_class_getcode (g, c) = g * 256 + c.
Proof.
  intros g c Hg Hc. unfold uecho_class_getcode, is_byte in *. cbn [fst snd].
  change 65280 with (Z.shiftl 255 8). rewrite <- Z.shiftl_land. change 255 with (Z.ones 8).
  rewrite !Z.land_ones by lia. rewrite !(Z.mod_small _ (2 ^ 8)) by lia. rewrite Z.lor_0_l.
  replace (g * 256 + c) with (Z.shiftl g 8 + c) by (rewrite Z.shiftl_mul_pow2 by lia; lia).
  rewrite <- Z.lxor_lor; [symmetry; apply Z.add_nocarry_lxor|];
    (apply Z.bits_inj'; intros n Hn; rewrite Z.land_spec, Z.bits_0;
     destruct (Z.ltb_spec n 8);
     [rewrite Z.shiftl_spec_low by lia; reflexivity|];
     rewrite (Z.bits_above_log2 c); [apply andb_false_r|lia|];
     destruct (Z.eq_dec c 0) as [->|]; [cbn; lia|];
     apply Z.log2_lt_pow2; [lia|]; apply Z.lt_le_trans with (2 ^ 8); [lia|apply Z.pow_le_mono_r; lia]).
Qed.

Lemma class_set : forall v, uecho_class_setcode v = (v / 256 mod 256, v mod 256).
Proof.
  intros v. unfold uecho_class_setcode. change 65280 with (Z.shiftl 255 8). rewrite mask_shift by lia.
  change 255 with (Z.ones 8). rewrite !Z.land_ones by lia. rewrite Z.shiftr_div_pow2 by lia.
  change (2 ^ 8) with 256. reflexivity.
Qed.

Lemma o2c : forall g c i, is_byte g -> is_byte c -> is_byte i ->
  uecho_objectcode2classcode (g * 65536 + c * 256 + i) = g * 256 + c.
Proof.
  intros g c i Hg Hc Hi. unfold uecho_objectcode2classcode, is_byte in *.
  change 65535 with (Z.ones 16). rewrite Z.land_ones by lia. rewrite Z.shiftr_div_pow2 by lia.
  change (2 ^ 8) with 256. change (2 ^ 16) with 65536. lia.
Qed.

Definition class_ok (c : Z * Z) : Prop := is_byte (fst c) /\ is_byte (snd c).
Definition add_class (l : list (Z * Z)) (c : Z * Z) : list (Z * Z) :=
  if existsb (class_eqb c) l then l else l ++ [c].

Lemma classlist_set_eq : forall l g c i, Forall class_ok l -> is_byte g -> is_byte c -> is_byte i ->
  uecho_classlist_set l (uecho_objectcode2classcode (g * 65536 + c * 256 + i)) = add_class l (g, c).
Proof.
  intros l g c i Hl Hg Hc Hi. rewrite o2c by assumption. unfold uecho_classlist_set, add_class.
  assert (G : match uecho_classlist_getbycode l (g * 256 + c) with Some _ => true | None => false end
              = existsb (class_eqb (g, c)) l).
  { induction Hl as [|[a b] l [Ha Hb] Hl IH]; [reflexivity|]. cbn [uecho_classlist_getbycode existsb fst snd] in *.
    rewrite class_code by assumption. unfold class_eqb at 1. cbn [fst snd]. unfold is_byte in *.
    destruct (Z.eqb_spec (a * 256 + b) (g * 256 + c)) as [E|E].
    - destruct (Z.eqb_spec g a); [|lia]. destruct (Z.eqb_spec c b); [|lia]. reflexivity.
    - rewrite IH. destruct (Z.eqb_spec g a); [|reflexivity]. destruct (Z.eqb_spec c b); [|reflexivity]. lia. }
  destruct (uecho_classlist_getbycode l (g * 256 + c)); rewrite <- G; [reflexivity|].
  rewrite class_set. unfold is_byte in *. do 3 f_equal; lia.
Qed.

Lemma distinct_snoc : forall l x seen,
  distinct class_eqb (l ++ [x]) seen = add_class (distinct class_eqb l seen) x.
Proof. induction l as [|y l IH]; intros x seen; cbn [app distinct]; [reflexivity|]. apply IH. Qed.

Lemma distinct_ok : forall l seen, Forall class_ok l -> Forall class_ok seen -> Forall class_ok (distinct class_eqb l seen).
Proof.
  induction l as [|x l IH]; intros seen Hl Hs; cbn [distinct]; [assumption|].
  inversion Hl as [|? ? Hx Hr]; subst. apply IH; [assumption|]. destruct (existsb _ _); [assumption|].
  apply Forall_app. auto.
Qed.

Lemma node_classes_snoc : forall es g c i, node_classes (es ++ [(g, c, i)]) = add_class (node_classes es) (g, c).
Proof. intros. unfold node_classes. rewrite map_app. cbn [map eoj_class fst]. apply distinct_snoc. Qed.

(* ---- object lists ---- *)

Notation oget := uecho_objectlist_getbycode.

Lemma put_obj_get : forall l c o' c', uecho_object_getcode o' = c ->
  oget (put_obj c o' l) c' = if c' =? c then match oget l c with Some _ => Some o' | None => None end else oget l c'.
Proof.
  induction l as [|o l IH]; intros c o' c' Hc; cbn [put_obj uecho_objectlist_getbycode].
  - destruct (c' =? c); reflexivity.
  - destruct (Z.eqb_spec (uecho_object_getcode o) c) as [E|E]; cbn [uecho_objectlist_getbycode].
    + rewrite Hc, E. destruct (Z.eqb_spec c c') as [->|N]; [rewrite Z.eqb_refl; reflexivity|].
      destruct (Z.eqb_spec c' c); [congruence|reflexivity].
    + rewrite IH by assumption. destruct (Z.eqb_spec c' c) as [->|N]; [|reflexivity].
      destruct (Z.eqb_spec (uecho_object_getcode o) c); [contradiction|reflexivity].
Qed.

Lemma put_obj_map : forall (A : Type) (f : obj -> A) l c o o', oget l c = Some o -> f o' = f o ->
  map f (put_obj c o' l) = map f l.
Proof.
  intros A f. induction l as [|x l IH]; intros c o o' H E; cbn [put_obj uecho_objectlist_getbycode] in *; [discriminate|].
  destruct (uecho_object_getcode x =? c).
  - injection H as ->. cbn [map]. rewrite E. reflexivity.
  - cbn [map]. rewrite (IH c o o') by assumption. reflexivity.
Qed.

Lemma put_obj_Forall : forall (P : obj -> Prop) l c o', Forall P l -> P o' -> Forall P (put_obj c o' l).
Proof.
  intros P l c o' H. induction H; intros; cbn [put_obj]; [constructor|].
  destruct (uecho_object_getcode x =? c); constructor; auto.
Qed.

Lemma put_obj_in : forall l c o o', oget l c = Some o -> In o' (put_obj c o' l).
Proof.
  induction l as [|x l IH]; intros c o o' H; cbn [put_obj uecho_objectlist_getbycode] in *; [discriminate|].
  destruct (uecho_object_getcode x =? c); [left; reflexivity|]. right. eapply IH; eauto.
Qed.

Lemma oget_none : forall l c, oget l c = None <-> ~ In c (map uecho_object_getcode l).
Proof.
  induction l as [|o l IH]; intros c; cbn [uecho_objectlist_getbycode map]; [cbn; tauto|].
  destruct (Z.eqb_spec (uecho_object_getcode o) c) as [E|E].
  - split; [discriminate|]. intros H. exfalso. apply H. left. assumption.
  - rewrite IH. cbn. tauto.
Qed.

(* ---- the invariant ---- *)

Definition ninv (n : node) : Prop :=
  0 <= n_tid n
  /\ Forall oinv (n_objs n)
  /\ NoDup (map uecho_object_getcode (n_objs n))
  /\ n_classes n = node_classes (eojs n).

Lemma eojs_eq : forall n, eojs n = map eoj_of (n_objs n).
Proof. reflexivity. Qed.

Lemma ninv_tid : forall n t, ninv n -> 0 <= t -> ninv (n_with_tid t n).
Proof. intros n t (A & B & C & D) H. split; [exact H|]. split; [exact B|split; [exact C|exact D]]. Qed.

Lemma ninv_get : forall n c o, ninv n -> uecho_node_getobjectbycode n c = Some o -> oinv o /\ uecho_object_getcode o = c.
Proof.
  intros n c o (_ & B & _) H. apply getbycode_in in H. rewrite Forall_forall in B. split; [apply B|]; tauto.
Qed.

Lemma keeps_eoj : forall o o', keeps o o' -> eoj_of o' = eoj_of o.
Proof. intros o o' (A & B & C & _). unfold eoj_of. congruence. Qed.

Lemma ninv_put : forall n c o o', ninv n -> uecho_node_getobjectbycode n c = Some o -> oinv o' -> keeps o o' ->
  ninv (n_with_objs (put_obj c o' (n_objs n)) n).
Proof.
  intros n c o o' (A & B & C & D) G Ho K. unfold ninv, eojs. cbn [n_with_objs n_tid n_objs n_classes].
  split; [exact A|]. split; [apply put_obj_Forall; assumption|].
  rewrite (put_obj_map _ uecho_object_getcode _ _ _ _ G (keeps_code _ _ K)).
  rewrite (put_obj_map _ (fun x => (o_grp x, o_cls x, o_ins x)) _ _ _ _ G (keeps_eoj _ _ K)). auto.
Qed.

Lemma profile_put : forall n c o o', uecho_node_getobjectbycode n c = Some o -> uecho_object_getcode o' = c ->
  (profile (n_with_objs (put_obj c o' (n_objs n)) n) = None <-> profile n = None).
Proof.
  intros n c o o' G E. unfold profile, uecho_node_getobjectbycode in *. cbn [n_with_objs n_objs].
  rewrite put_obj_get by assumption. destruct (Z.eqb_spec uEchoNodeProfileObject c) as [->|]; [|reflexivity].
  rewrite G. split; discriminate.
Qed.

(* ---- frames and TIDs ---- *)

Definition post_bytes (p : post) : list Z := match p with PAnnounce b => b | PSend _ b => b end.
(* bytes 2 to 6 of the frame: the TID and the node profile as source *)
Definition carries (le : bool) (t : Z) (p : post) : Prop :=
  exists h rest, post_bytes p = h ++ [fst (tid_wire le t); snd (tid_wire le t); 14; 240; 1] ++ rest /\ length h = 2%nat.

(* frames numbered from [t]; the number before last is how many TIDs were drawn for
   messages that were not sent *)
Inductive stamped (le : bool) : Z -> list post -> nat -> Z -> Prop :=
| st_nil : forall t, stamped le t [] 0 t
| st_post : forall t p ps k t', carries le (next_tid t) p -> stamped le (next_tid t) ps k t' -> stamped le t (p :: ps) k t'
| st_skip : forall t ps k t', stamped le (next_tid t) ps k t' -> stamped le t ps (S k) t'.

Lemma stamped_app : forall le t ps k t1 qs j t2, stamped le t ps k t1 -> stamped le t1 qs j t2 ->
  stamped le t (ps ++ qs) (k + j) t2.
Proof. intros le t ps k t1 qs j t2 H. induction H; intros; cbn [app Nat.add]; [assumption|constructor; auto..]. Qed.

Lemma stamped_infs : forall le anns t, stamped le t (infs le t anns) 0 (tid_iter (length anns) t).
Proof.
  induction anns as [|p r IH]; intros t; cbn [infs length]; [constructor|]. rewrite tid_iter_S. constructor; [|apply IH].
  exists [16; 129]. eexists. split; reflexivity.
Qed.

Lemma stamped_skips : forall le k t, stamped le t [] k (tid_iter k t).
Proof. induction k; intros; [constructor|]. rewrite tid_iter_S. constructor. apply IHk. Qed.

Lemma carries_stamp : forall le t m, 0 <= t <= 65535 -> forall p, post_bytes p = wire_msg (stamp le t m) -> carries le t p.
Proof.
  intros le t m Ht p E. exists [m_ehd1 m; m_ehd2 m]. eexists. split; [|reflexivity]. rewrite E.
  unfold wire_msg. change (m_tid (stamp le t m)) with (m_tid (uecho_message_settid le t m)).
  rewrite settid_wire by assumption. reflexivity.
Qed.

(* ---- steps ---- *)

(* the result of one step: invariant, numbering, profile kept *)
Definition step_ok (le : bool) (n n' : node) (own : list post) : Prop :=
  ninv n' /\ exists k, stamped le (n_tid n) own k (n_tid n') /\ (profile n <> None -> k = 0%nat).

Section St.
Variable le : bool.
Variable net : post -> bool.

Lemma emit_ok : forall n code anns n' posts, ninv n -> Forall ann_ok anns ->
  node_emit le net n code anns = Ok (n', posts) -> step_ok le n n' posts /\ n' = n_with_tid (n_tid n') n.
Proof.
  intros n code anns n' posts Hn Ha H. pose proof Hn as (Ht & _). rewrite node_emit_spec in H by assumption.
  injection H as <- <-. cbn [n_with_tid n_tid]. split; [|reflexivity]. split; [apply ninv_tid; [assumption|apply tid_iter_nonneg; assumption]|].
  destruct (profile n) eqn:E.
  - exists 0%nat. split; [apply stamped_infs|reflexivity].
  - exists (length anns). split; [apply stamped_skips|congruence].
Qed.

Lemma step_ok_profile : forall n n1 n' own, step_ok le n1 n' own -> n_tid n1 = n_tid n ->
  (profile n <> None -> profile n1 <> None) -> step_ok le n n' own.
Proof. intros n n1 n' own (A & k & B & C) E P. split; [assumption|]. exists k. rewrite <- E. auto. Qed.

Lemma object_op_ok : forall f n code n' posts, ninv n ->
  (forall o o' a, uecho_node_getobjectbycode n code = Some o -> oinv o -> f o = Ok (o', a) ->
     oinv o' /\ keeps o o' /\ Forall ann_ok a) ->
  node_object_op le net f n code = Ok (n', posts) ->
  step_ok le n n' posts
  /\ match uecho_node_getobjectbycode n code with
     | None => n' = n /\ posts = []
     | Some o => exists o' a, f o = Ok (o', a) /\ n' = n_with_tid (n_tid n') (n_with_objs (put_obj code o' (n_objs n)) n)
     end.
Proof.
  intros f n code n' posts Hn Hf H. unfold node_object_op in H.
  destruct (uecho_node_getobjectbycode n code) as [o|] eqn:G.
  - apply bind_ok in H. destruct H as ([o' a] & F & H). destruct (ninv_get _ _ _ Hn G) as [Ho Hc].
    destruct (Hf _ _ _ eq_refl Ho F) as (Ho' & K & Ha).
    assert (N1 : ninv (n_with_objs (put_obj code o' (n_objs n)) n)) by (eapply ninv_put; eauto).
    apply emit_ok in H; [|assumption|destruct (o_attached o'); [assumption|constructor]].
    destruct H as [S E]. split.
    + eapply step_ok_profile; [exact S|reflexivity|]. intros P Q. apply P.
      eapply profile_put; [exact G| |exact Q]. rewrite (keeps_code _ _ K). exact Hc.
    + eauto.
  - injection H as <- <-. split; [|auto]. split; [assumption|]. exists 0%nat. split; [constructor|reflexivity].
Qed.

(* ---- the instance properties ---- *)

Definition kv_ok (kv : Z * list Z) : Prop := epc (fst kv) /\ bytes_ok (snd kv) /\ len (snd kv) <= DATA_MAX.

Lemma put_all_einv : forall kvs o, winv o -> Forall kv_ok kvs -> winv (o_with_props (put_all (o_props o) kvs) o).
Proof.
  induction kvs as [|[c d] r IH]; intros o He Hk; cbn [put_all]; [exact He|].
  inversion Hk as [|? ? (H1 & H2 & _) Hr]; subst. cbn [fst snd] in *.
  set (o1 := o_with_props (put (o_props o) c (put_data d)) o).
  assert (E1 : winv o1).
  { apply (step_winv (fun _ => 0) o (OSetData c d) o1 (announced (got (o_props o) c) d)); [intro; unfold is_byte; lia|assumption| | |].
    - unfold epc in H1. split; [cbn; lia|exact H2].
    - intros c0 E; injection E as <-; unfold epc in H1; unfold epc_code; lia.
    - cbn [ostep]. unfold uecho_object_setpropertydata. rewrite pl_setdata_eq. reflexivity. }
  specialize (IH o1 E1 Hr). exact IH.
Qed.

Lemma ann_all_in : forall kvs l p, In p (ann_all l kvs) -> In (p_code p, p_data p) kvs.
Proof.
  induction kvs as [|[c d] r IH]; intros l p H; cbn [ann_all] in H; [destruct H|].
  apply in_app_or in H. destruct H as [H|H]; [|right; eapply IH; eauto].
  apply announced_in in H. destruct H as [-> ->]. left. reflexivity.
Qed.

Lemma ann_all_ok : forall kvs l, Forall kv_ok kvs -> Forall ann_ok (ann_all l kvs).
Proof.
  intros kvs l H. apply Forall_forall. intros p Ip. apply ann_all_in in Ip. rewrite Forall_forall in H.
  apply H in Ip. destruct Ip as (A & B & C). cbn [fst snd] in *. unfold epc in A.
  assert (Hb : is_byte (p_code p)) by (unfold is_byte; lia). exact (conj Hb (conj B C)).
Qed.

Lemma put_all_find : forall kvs l c, NoDup (map fst kvs) ->
  find (put_all l kvs) c = match List.find (fun kv => fst kv =? c) kvs with
                           | Some kv => Some (put_data (snd kv) (got l c))
                           | None => find l c
                           end.
Proof.
  induction kvs as [|[k d] r IH]; intros l c Hn; cbn [put_all List.find map fst] in *; [reflexivity|].
  inversion Hn as [|? ? Hk Hr]; subst. rewrite IH by assumption.
  rewrite put_find by (intros; assumption). destruct (Z.eqb_spec k c) as [->|N].
  - replace (List.find (fun kv => fst kv =? c) r) with (@None (Z * list Z)).
    + rewrite Z.eqb_refl. reflexivity.
    + symmetry. destruct (List.find _ r) as [kv|] eqn:E; [|reflexivity]. apply find_some in E. destruct E as [I E].
      apply Z.eqb_eq in E. exfalso. apply Hk. rewrite <- E. apply in_map. assumption.
  - destruct (Z.eqb_spec c k); [congruence|]. unfold got. rewrite put_find by (intros; assumption).
    destruct (Z.eqb_spec c k); [congruence|]. reflexivity.
Qed.

Lemma be_bytes : forall v, bytes_ok (be2 v) /\ bytes_ok (be3 v).
Proof.
  intros v. unfold be2, be3. split; repeat (apply bytes_ok_cons; split; [unfold is_byte; lia|]); constructor.
Qed.

Lemma prof_kvs_ok : forall classes es, Forall class_ok classes -> Forall eoj_ok es -> Forall kv_ok (prof_kvs classes es).
Proof.
  intros classes es Hc He. unfold prof_kvs. cbv zeta.
  assert (X : bytes_ok (prof_D6 es) /\ len (prof_D6 es) <= DATA_MAX).
  { unfold prof_D6. cbv zeta. rewrite len_cons, (concat_len _ _ enc_eoj 3) by (intros [[? ?] ?]; reflexivity).
    pose proof (firstn_le_length 255 (devices es)) as L. split; [|unfold len, DATA_MAX; lia].
    apply bytes_ok_cons. split; [unfold is_byte; lia|].
    assert (F : Forall eoj_ok (firstn 255 (devices es))).
    { apply Forall_forall. intros e I.
      rewrite Forall_forall in He. apply He.
      assert (I2 : In e (devices es)) by (rewrite <- (firstn_skipn 255 (devices es)); apply in_or_app; left; assumption).
      apply filter_In in I2. tauto. }
    clear L. induction F as [|[[a b] c] l (A & B & C) F IH]; [constructor|]. rewrite <- is_byte_val in A, B, C. cbn [map concat enc_eoj app].
    repeat (apply bytes_ok_cons; split; [assumption|]). exact IH. }
  assert (Y : let cl := firstn 255 (filter (fun c => negb (is_profile_class c)) classes) in
     bytes_ok (Z.of_nat (length cl) :: concat (map (fun c => [fst c; snd c]) cl))
     /\ len (Z.of_nat (length cl) :: concat (map (fun c => [fst c; snd c]) cl)) <= DATA_MAX).
  { cbv zeta. set (w := filter _ classes).
    rewrite len_cons, (concat_len _ _ (fun c => [fst c; snd c]) 2) by reflexivity.
    pose proof (firstn_le_length 255 w) as L. split; [|unfold len, DATA_MAX; lia].
    apply bytes_ok_cons. split; [unfold is_byte; lia|].
    assert (F : Forall class_ok (firstn 255 w)).
    { apply Forall_forall. intros e I.
      rewrite Forall_forall in Hc. apply Hc.
      assert (I2 : In e w) by (rewrite <- (firstn_skipn 255 w); apply in_or_app; left; assumption).
      apply filter_In in I2. tauto. }
    clear L. induction F as [|[a b] l (A & B) F IH]; [constructor|]. cbn [map concat fst snd app] in *.
    repeat (apply bytes_ok_cons; split; [assumption|]). exact IH. }
  cbv zeta in Y. destruct X as [X1 X2]. destruct Y as [Y1 Y2].
  assert (M : forall c d, epc c -> bytes_ok d -> len d <= DATA_MAX -> kv_ok (c, d))
    by (intros c d Hk Hd Hl; exact (conj Hk (conj Hd Hl))).
  constructor; [apply M; [unfold epc; lia|apply be_bytes|unfold DATA_MAX; cbn; lia]|].
  constructor; [apply M; [unfold epc; lia|exact Y1|exact Y2]|].
  constructor; [apply M; [unfold epc; lia|apply be_bytes|unfold DATA_MAX; cbn; lia]|].
  constructor; [apply M; [unfold epc; lia|exact X1|exact X2]|].
  constructor; [apply M; [unfold epc; lia|exact X1|exact X2]|]. constructor.
Qed.

Lemma oinv_eoj : forall l, Forall oinv l -> Forall eoj_ok (map eoj_of l).
Proof.
  intros l H. apply Forall_forall. intros e I. apply in_map_iff in I. destruct I as (o & <- & I).
  rewrite Forall_forall in H. apply H in I. destruct I as (_ & (A & B & C) & _).
  rewrite is_byte_val in A, B, C. exact (conj A (conj B C)).
Qed.

Lemma node_classes_ok : forall es, Forall eoj_ok es -> Forall class_ok (node_classes es).
Proof.
  intros es H. apply distinct_ok; [|constructor]. apply Forall_forall. intros c I. apply in_map_iff in I.
  destruct I as ([[a b] d] & <- & I). rewrite Forall_forall in H. apply H in I. destruct I as (A & B & _).
  rewrite <- is_byte_val in A, B. exact (conj A B).
Qed.

(* the profile object after an update *)
Definition with_instances (es : list (Z * Z * Z)) (o : obj) : obj :=
  o_with_props (put_all (o_props o) (prof_kvs (node_classes es) es)) o.

Lemma updateprofile_ok : forall n n' posts r, ninv n ->
  uecho_node_updatenodeprofileclass le net n = Ok (n', posts, r) ->
  step_ok le n n' posts
  /\ match profile n with
     | None => n' = n /\ posts = [] /\ r = false
     | Some o => r = true /\ n_objs n' = put_obj 978945 (with_instances (eojs n) o) (n_objs n)
                 /\ n' = n_with_tid (n_tid n') (n_with_objs (n_objs n') n)
     end.
Proof.
  intros n n' posts r Hn H. unfold uecho_node_updatenodeprofileclass in H. fold (profile n) in H.
  destruct (profile n) as [p|] eqn:P.
  - apply bind_ok in H. destruct H as ([n1 ps] & H & E). cbn [fst snd] in E. injection E as <- <- <-.
    pose proof Hn as (_ & Ho & _ & Hc).
    assert (K : Forall kv_ok (prof_kvs (n_classes n) (map eoj_of (n_objs n)))).
    { rewrite Hc, eojs_eq. pose proof (oinv_eoj _ Ho). apply prof_kvs_ok; [apply node_classes_ok; assumption|assumption]. }
    apply object_op_ok in H; [|assumption|].
    + destruct H as [S E]. split; [assumption|]. split; [reflexivity|]. unfold profile in P. rewrite P in E.
      destruct E as (o' & a & U & E). rewrite updateinstance_eq in U. remember (prof_kvs (n_classes n) (map eoj_of (n_objs n))) as kvs eqn:Ek.
      cbv zeta in U. injection U as <- <-.
      split; [rewrite E; cbn [n_objs n_with_tid n_with_objs]; unfold with_instances; rewrite <- Hc, eojs_eq, <- Ek; reflexivity|].
      rewrite E. reflexivity.
    + intros o o' a _ Hoi U. rewrite updateinstance_eq in U. remember (prof_kvs (n_classes n) (map eoj_of (n_objs n))) as kvs eqn:Ek.
      cbv zeta in U. injection U as <- <-.
      split; [|split; [repeat split|apply ann_all_ok; assumption]].
      eapply keeps_oinv; [exact Hoi|apply put_all_einv; [apply Hoi|assumption]|repeat split].
  - injection H as <- <- <-. split; [|auto]. split; [assumption|]. exists 0%nat. split; [constructor|reflexivity].
Qed.

Definition appended (o : obj) (n : node) : node :=
  n_with_classes (node_classes (eojs n ++ [eoj_of o])) (n_with_objs (n_objs n ++ [uecho_object_attach o]) n).

Lemma oget_app : forall a b c, oget (a ++ b) c = match oget a c with Some o => Some o | None => oget b c end.
Proof. induction a as [|x a IH]; intros b c; cbn [app uecho_objectlist_getbycode]; [reflexivity|]. destruct (_ =? c); auto. Qed.

Lemma appended_inv : forall n o, ninv n -> winv o -> codes_byte o ->
  uecho_node_getobjectbycode n (uecho_object_getcode o) = None -> ninv (appended o n).
Proof.
  intros n o (A & B & C & D) He Hb G. unfold ninv, appended, eojs. cbn [n_tid n_objs n_classes n_with_classes n_with_objs].
  split; [exact A|]. split; [|split].
  - apply Forall_app. split; [assumption|]. constructor; [|constructor]. split; [exact He|]. split; [exact Hb|reflexivity].
  - rewrite map_app. apply nodup_snoc; [assumption|]. cbn [map]. apply oget_none. exact G.
  - rewrite map_app. reflexivity.
Qed.

Lemma addobject_ok : forall n o n' posts r, ninv n -> winv o -> codes_byte o ->
  uecho_node_addobject le net n o = Ok (n', posts, r) ->
  step_ok le n n' posts
  /\ match uecho_node_getobjectbycode n (uecho_object_getcode o) with
     | Some _ => n' = n /\ posts = [] /\ r = false
     | None =>
         match profile (appended o n) with
         | None => n' = appended o n /\ posts = [] /\ r = false
         | Some p => r = true /\ n_objs n' = put_obj 978945 (with_instances (eojs (appended o n)) p) (n_objs (appended o n))
                     /\ n' = n_with_tid (n_tid n') (n_with_objs (n_objs n') (appended o n))
         end
     end.
Proof.
  intros n o n' posts r Hn He Hb H. unfold uecho_node_addobject in H.
  destruct (uecho_node_getobjectbycode n (uecho_object_getcode o)) as [x|] eqn:G.
  - injection H as <- <- <-. split; [|auto]. split; [assumption|]. exists 0%nat. split; [constructor|reflexivity].
  - assert (N1 : ninv (appended o n)) by (apply appended_inv; assumption).
    assert (E : n_with_classes (uecho_classlist_set
                   (n_classes (n_with_objs (n_objs n ++ [uecho_object_attach o]) n))
                   (uecho_objectcode2classcode (uecho_object_getcode o)))
                 (n_with_objs (n_objs n ++ [uecho_object_attach o]) n) = appended o n).
    { unfold appended. f_equal. cbn [n_classes n_with_objs]. rewrite (getcode_eq _ Hb).
      pose proof Hn as (_ & Ho & _ & Hc). destruct Hb as (B1 & B2 & B3).
      rewrite classlist_set_eq; [|rewrite Hc; apply node_classes_ok; apply oinv_eoj; assumption|assumption..].
      unfold eoj_of. rewrite node_classes_snoc, <- Hc. reflexivity. }
    rewrite E in H. apply updateprofile_ok in H; [|assumption]. destruct H as [S H]. split; [|exact H].
    eapply step_ok_profile; [exact S|reflexivity|]. intros P. unfold profile, uecho_node_getobjectbycode in *.
    cbn [appended n_objs n_with_classes n_with_objs]. rewrite oget_app.
    destruct (oget (n_objs n) uEchoNodeProfileObject); [discriminate|contradiction].
Qed.

Lemma setobject_ok : forall db junk n code n' posts r, db_ok db -> (forall i, is_byte (junk i)) -> ninv n ->
  uecho_node_setobject le net db junk n code = Ok (n', posts, r) -> step_ok le n n' posts.
Proof.
  intros db junk n code n' posts r Hdb Hj Hn H. unfold uecho_node_setobject in H.
  destruct (uecho_node_getobjectbycode n code).
  - injection H as <- <- <-. split; [assumption|]. exists 0%nat. split; [constructor|reflexivity].
  - apply bind_ok in H. destruct H as ([o a] & E & H). cbn [fst] in H.
    assert (Ho : api_obj db o) by (eapply ao_setcode; [constructor|exact Hj|exact E]).
    destruct (api_winv _ _ Hdb Ho) as [He Hb]. eapply addobject_ok; eauto.
Qed.

Lemma step_ok_trans : forall n n1 n2 p q, step_ok le n n1 p -> (profile n <> None -> profile n1 <> None) ->
  step_ok le n1 n2 q -> step_ok le n n2 (p ++ q).
Proof.
  intros n n1 n2 p q (A & k & B & C) P (D & j & E & F). split; [assumption|]. exists (k + j)%nat.
  split; [eapply stamped_app; eauto|]. intros Q. rewrite C, F by auto. reflexivity.
Qed.

Lemma setman_ann : forall o code o' a, oinv o -> uecho_object_setmanufacturercode o code = Ok (o', a) ->
  oinv o' /\ keeps o o' /\ Forall ann_ok a.
Proof.
  intros o code o' a Ho H.
  destruct (odo_ok (KSetInt 138 code 3) o o' a Ho) as (A & B & _); [cbn [ocall_ok]; unfold epc_code; lia|exact H|].
  split; [assumption|]. split; [assumption|].
  unfold uecho_object_setmanufacturercode, EPC_ManufacturerCode in H. rewrite (set_int_eq _ _ _ _ _ (int3 _)) in H.
  unfold uecho_object_setpropertydata in H. rewrite pl_setdata_eq in H. injection H as _ <-.
  apply Forall_forall. intros p Hp. apply (announced_in (o_props o) 138 (be3 code)) in Hp. destruct Hp as [C D].
  assert (E1 : is_byte (p_code p)) by (rewrite C; unfold is_byte; lia).
  assert (E2 : bytes_ok (p_data p)) by (rewrite D; apply be_bytes).
  assert (E3 : len (p_data p) <= DATA_MAX) by (rewrite D; unfold DATA_MAX; cbn; lia).
  exact (conj E1 (conj E2 E3)).
Qed.

Lemma op_profile : forall f n code n' posts, ninv n ->
  (forall o o' a, uecho_node_getobjectbycode n code = Some o -> oinv o -> f o = Ok (o', a) ->
     oinv o' /\ keeps o o' /\ Forall ann_ok a) ->
  node_object_op le net f n code = Ok (n', posts) -> profile n <> None -> profile n' <> None.
Proof.
  intros f n code n' posts Hn Hf H P. pose proof (object_op_ok _ _ _ _ _ Hn Hf H) as [_ M].
  destruct (uecho_node_getobjectbycode n code) as [o|] eqn:G; [|destruct M as [-> _]; exact P].
  destruct M as (o' & a & F & E). rewrite E. destruct (ninv_get _ _ _ Hn G) as [Ho Hc].
  destruct (Hf _ _ _ eq_refl Ho F) as (_ & K & _). intros Q. apply P.
  eapply profile_put; [exact G| |exact Q]. rewrite (keeps_code _ _ K). exact Hc.
Qed.

Lemma setman_all_ok : forall codes n code n' posts, ninv n ->
  setmanufacturer_all le net n codes code = Ok (n', posts) ->
  step_ok le n n' posts /\ (profile n <> None -> profile n' <> None).
Proof.
  induction codes as [|c r IH]; intros n code n' posts Hn H; cbn [setmanufacturer_all] in H.
  - injection H as <- <-. split; [|auto]. split; [assumption|]. exists 0%nat. split; [constructor|reflexivity].
  - apply bind_ok in H. destruct H as ([n1 p1] & H1 & H). apply bind_ok in H. destruct H as ([n2 p2] & H2 & H).
    cbn [fst snd] in *. injection H as <- <-.
    assert (F : forall o o' a, uecho_node_getobjectbycode n c = Some o -> oinv o ->
        uecho_object_setmanufacturercode o code = Ok (o', a) -> oinv o' /\ keeps o o' /\ Forall ann_ok a)
      by (intros; eapply setman_ann; eauto).
    pose proof (op_profile (fun o => uecho_object_setmanufacturercode o code) _ _ _ _ Hn F H1) as P1.
    apply (object_op_ok (fun o => uecho_object_setmanufacturercode o code)) in H1; [|assumption|assumption].
    destruct H1 as [S1 _].
    destruct (IH _ _ _ _ (proj1 S1) H2) as [S2 P2]. split; [|auto].
    eapply step_ok_trans; eauto.
Qed.
End St.
