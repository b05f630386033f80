(* Strings and properties in the heap. *)
From Coq Require Import String ZArith List Bool Lia Permutation.
From Verif Require Import CSem P_Base M_Const M_String M_Property M_Log M_Message M_Mem P_Mem.
Import ListNotations.
Open Scope Z_scope.

(* a text without NUL *)
Definition plain (t : list Z) : Prop := Forall (fun c => c <> 0) t.

Lemma cells_text_plain : forall t r, plain t -> cells_text (map Some t ++ Some 0 :: r) = Ok t.
Proof.
  induction t as [|c t IH]; intros r P; [reflexivity|]. cbn [map app cells_text].
  apply Forall_cons_iff in P. destruct P as [P1 P2]. rewrite (proj2 (Z.eqb_neq c 0) P1). rewrite IH by exact P2. reflexivity.
Qed.

(* the string object at [s] with value NULL or a text *)
Definition str_rep (s : Z) (o : option (list Z)) (L : heaplet) : Prop :=
  match o with
  | None => L = [(s, BStr (mkCstring 0 0 0))]
  | Some t => plain t /\ len t + 1 < SIZE_MOD /\
      exists v, L = [(s, BStr (mkCstring v (len t + 1) (len t))); (v, BBytes (map Some t ++ [Some 0]))]
  end.

(* the data of a property *)
Definition data_rep (d : Z) (l : list Z) (L : heaplet) : Prop :=
  match l with [] => d = 0 /\ L = [] | _ => L = [(d, BBytes (map Some l))] end.

(* the property at [a], with its links and parent object *)
Definition prop_at (pv nx par : Z) (a : Z) (p : prop) (L : heaplet) : Prop :=
  exists s o d Ls Ld,
    L = (a, BProp (mkCprop pv nx s (p_code p) (p_attr p) d (len (p_data p)) par)) :: Ls ++ Ld
    /\ str_rep s o Ls /\ data_rep d (p_data p) Ld /\ p_parent p = negb (par =? 0) /\ len (p_data p) < SIZE_MOD.
(* a property in no list *)
Definition prop_rep (a : Z) (p : prop) (L : heaplet) : Prop := prop_at a a 0 a p L.
(* the parent object is there *)
Definition par_ok (par : Z) (F : heaplet) : Prop := par = 0 \/ exists o, In (par, BObj o) F.

Ltac qs := cbn [q_prev q_next q_name q_code q_attr q_data q_size q_parent].

Lemma wp_load_links : forall a b l L (Q : _ -> heaplet -> Prop), In (a, b) L -> links b = Some l -> Q l L -> wp (load_links a) L Q.
Proof. intros a b l L Q I E H. apply wp_bind. eapply wp_load; [exact I|]. rewrite E. apply wp_ret. exact H. Qed.
Lemma wp_set_next : forall a v b f p n L L' (Q : unit -> heaplet -> Prop), Permutation L ((a, b) :: L') -> links b = Some (f, p, n) ->
  Q tt ((a, set_links p v b) :: L') -> wp (set_next a v) L Q.
Proof.
  intros a v b f p n L L' Q P E H. eapply wp_perm; [exact P|]. apply wp_bind. eapply wp_load; [left; reflexivity|]. rewrite E.
  eapply wp_store; [apply Permutation_refl|exact H].
Qed.
Lemma wp_set_prev : forall a v b f p n L L' (Q : unit -> heaplet -> Prop), Permutation L ((a, b) :: L') -> links b = Some (f, p, n) ->
  Q tt ((a, set_links v n b) :: L') -> wp (set_prev a v) L Q.
Proof.
  intros a v b f p n L L' Q P E H. eapply wp_perm; [exact P|]. apply wp_bind. eapply wp_load; [left; reflexivity|]. rewrite E.
  eapply wp_store; [apply Permutation_refl|exact H].
Qed.

(* an element in no list *)
Lemma wp_remove_self : forall a b f L L' (Q : unit -> heaplet -> Prop), Permutation L ((a, b) :: L') -> links b = Some (f, a, a) ->
  Q tt ((a, b) :: L') -> wp (uecho_list_remove a) L Q.
Proof.
  intros a b f L L' Q P E H. eapply wp_perm; [exact P|]. unfold uecho_list_remove. nz a.
  assert (S1 : set_links a a b = b).
  { destruct b as [| |q| | | |x y|q|q| |x y u v|]; cbn in E; try discriminate; injection E as <- E1 E2; [destruct q|subst|destruct q|destruct q|subst]; cbn in *;
      subst; reflexivity. }
  apply wp_bind. eapply wp_load_links; [left; reflexivity|exact E|]. cbv beta iota.
  rewrite (pos_nz a) by assumption. cbn [orb].
  apply wp_bind. eapply wp_set_next; [apply Permutation_refl|exact E|]. rewrite S1.
  apply wp_bind. eapply wp_load_links; [left; reflexivity|exact E|]. cbv beta iota.
  apply wp_bind. eapply wp_set_prev; [apply Permutation_refl|exact E|]. rewrite S1.
  apply wp_bind. eapply wp_set_next; [apply Permutation_refl|exact E|]. rewrite S1.
  eapply wp_set_prev; [apply Permutation_refl|exact E|]. rewrite S1. exact H.
Qed.

Section Room.
Variable room : Z -> bool.
Hypothesis Room : forall n, room n = true.

Lemma wp_string_new : forall L (Q : Z -> heaplet -> Prop),
  (forall s, 0 < s -> Q s ((s, BStr (mkCstring 0 0 0)) :: L)) -> wp (uecho_string_new room) L Q.
Proof. intros L Q H. unfold uecho_string_new. apply wp_malloc; [exact Room|]. intros a P _. apply H. exact P. Qed.

Lemma str_rep_in : forall s o L, str_rep s o L -> exists c, In (s, BStr c) L.
Proof.
  intros s [t|] L H; cbn in H.
  - destruct H as (_ & _ & v & ->). eexists. left. reflexivity.
  - subst L. eexists. left. reflexivity.
Qed.

Lemma wp_string_clear : forall s o Ls L F (Q : unit -> heaplet -> Prop), str_rep s o Ls -> Permutation L (Ls ++ F) ->
  Q tt ((s, BStr (mkCstring 0 0 0)) :: F) -> wp (uecho_string_clear s) L Q.
Proof.
  intros s o Ls L F Q R P H. eapply wp_perm; [exact P|]. unfold uecho_string_clear. destruct o as [t|]; cbn in R.
  - destruct R as (_ & _ & v & ->). nz s. apply wp_bind. eapply wp_load_str; [inl|]. cbn [t_value].
    nz v. apply wp_bind. eapply wp_free; [cbn [app]; eapply pf_cons; apply pf_here|].
    eapply wp_store; [apply Permutation_refl|]. exact H.
  - subst Ls. nz s. apply wp_bind. eapply wp_load_str; [inl|]. cbn [t_value Z.eqb]. apply wp_ret. exact H.
Qed.

Lemma wp_string_delete : forall s o Ls L F (Q : unit -> heaplet -> Prop), str_rep s o Ls -> Permutation L (Ls ++ F) ->
  Q tt F -> wp (uecho_string_delete s) L Q.
Proof.
  intros s o Ls L F Q R P H. eapply wp_perm; [exact P|]. destruct (str_rep_in s o Ls R) as [c I].
  unfold uecho_string_delete. nz s. apply wp_bind. eapply wp_string_clear; [exact R|apply Permutation_refl|].
  eapply wp_free; [apply Permutation_refl|exact H].
Qed.

Lemma copy_text : forall t, len t + 1 < SIZE_MOD -> 0 < len t ->
  rd_range (map Some t ++ [Some 0]) 0 (len t) = Ok (map Some t)
  /\ wr_range (fresh_buf (len t + 1)) 0 (map Some t) = Ok (map Some t ++ [None]).
Proof.
  intros t S0 S1. split.
  - change (map Some t ++ [Some 0]) with ([] ++ map Some t ++ [Some 0]). apply rd_range_app; [reflexivity|].
    rewrite len_map. reflexivity.
  - pose proof (len_nonneg _ t) as N. unfold fresh_buf.
    replace (Z.to_nat (len t + 1)) with (length t + 1)%nat by (unfold len in *; lia).
    rewrite repeat_app. cbn [repeat].
    change (repeat None (length t) ++ [None]) with ([] ++ repeat (@None Z) (length t) ++ [None]).
    rewrite (wr_range_app _ [] (repeat None (length t)) [None] (map Some t) 0); [reflexivity|reflexivity|].
    rewrite len_map, len_repeat. reflexivity.
Qed.

(* the string [s] gets the text at [value] *)
Lemma wp_string_setvalue : forall s o Ls value c t L F (Q : unit -> heaplet -> Prop),
  str_rep s o Ls -> Permutation L (Ls ++ F) -> In (value, BBytes c) F -> plain t -> len t + 1 < SIZE_MOD ->
  c = map Some t ++ [Some 0] ->
  (forall Ls', str_rep s (Some t) Ls' -> Q tt (Ls' ++ F)) ->
  wp (uecho_string_setvalue room s value) L Q.
Proof.
  intros s o Ls value c t L F Q R P I T1 T2 E H. eapply wp_perm; [exact P|]. subst c.
  destruct (str_rep_in s o Ls R) as [z Iz]. unfold uecho_string_setvalue. nz s. nz value.
  apply wp_bind. unfold text_at. apply wp_bind. eapply wp_load_bytes; [inl|].
  eapply wp_lift; [apply cells_text_plain; exact T1|].
  unfold uecho_string_setnvalue. rewrite (pos_nz s) by assumption.
  apply wp_bind. eapply wp_string_clear; [exact R|apply Permutation_refl|].
  rewrite (pos_nz value) by assumption.
  pose proof (len_nonneg _ t) as N. rewrite sz_small by lia.
  apply wp_bind. apply wp_malloc; [exact Room|]. intros v V _.
  apply wp_bind. eapply wp_store; [eapply pf_cons; apply pf_here|].
  rewrite (pos_nz v) by assumption. apply wp_bind.
  assert (FIN : forall L', Permutation L' ((v, BBytes (map Some t ++ [None])) :: (s, BStr (mkCstring v (len t + 1) (len t))) :: F) ->
    wp (poke v (len t) 0) L' Q).
  { intros L' P'. apply wp_post. eapply wp_poke; [exact P'| |].
    - rewrite (wr_app_cons _ (map Some t) None (Some 0) []); [reflexivity|]. rewrite len_map. reflexivity.
    - eexists. split; [|apply H; cbn; split; [exact T1|]; split; [exact T2|]; exists v; reflexivity].
      cbn [app]. apply perm_swap. }
  destruct (Z.eq_dec (len t) 0) as [Z0|Z0].
  - apply len_0_nil in Z0. subst t. apply wp_ret. apply FIN. apply perm_swap.
  - destruct (copy_text t T2) as [C1 C2]; [lia|].
    eapply wp_copy_bytes; [apply perm_swap|inl|lia|exact C1|exact C2|]. apply FIN. apply Permutation_refl.
Qed.

Lemma wp_string_getvalue : forall s o Ls L (Q : Z -> heaplet -> Prop), str_rep s o Ls -> incl Ls L ->
  match o with
  | None => Q 0 L
  | Some t => forall v, In (v, BBytes (map Some t ++ [Some 0])) Ls -> Q v L
  end -> wp (uecho_string_getvalue s) L Q.
Proof.
  intros s o Ls L Q R I H. destruct (str_rep_in s o Ls R) as [c Ic]. unfold uecho_string_getvalue.
  eapply (wp_pos _ _ _ _ s); [apply I; exact Ic|intro P]. rewrite (pos_nz s) by assumption.
  destruct o as [t|]; cbn in R.
  - destruct R as (_ & _ & v & ->). apply wp_bind. eapply wp_load_str; [apply I; left; reflexivity|].
    apply wp_ret. apply H. right. left. reflexivity.
  - subst Ls. apply wp_bind. eapply wp_load_str; [apply I; left; reflexivity|]. apply wp_ret. exact H.
Qed.

(* ---- properties ---- *)

Lemma wp_cleardata_at : forall pv nx par a p Lp L F (Q : bool -> heaplet -> Prop), prop_at pv nx par a p Lp -> Permutation L (Lp ++ F) ->
  (forall Lp', prop_at pv nx par a (M_Property.uecho_property_cleardata p) Lp' -> Q true (Lp' ++ F)) ->
  wp (uecho_property_cleardata a) L Q.
Proof.
  intros pv nx par a p Lp L F Q R P H. eapply wp_perm; [exact P|].
  destruct R as (s & o & d & Ls & Ld & -> & Rs & Rd & Np & Sp). cbn [app]. unfold uecho_property_cleardata. nz a.
  apply wp_bind. eapply wp_load_prop; [inl|]. qs.
  apply wp_bind. eapply wp_store; [apply Permutation_refl|].
  assert (R' : prop_at pv nx par a (M_Property.uecho_property_cleardata p) ((a, BProp (mkCprop pv nx s (p_code p) (p_attr p) 0 0 par)) :: Ls)).
  { exists s, o, 0, Ls, []. rewrite app_nil_r. repeat split; auto. }
  destruct (p_data p) as [|c r] eqn:Ed; cbn [data_rep] in Rd.
  - destruct Rd as [-> ->]. cbn [Z.eqb]. apply wp_post. apply wp_ret. eexists. split; [|apply H; exact R'].
    rewrite app_nil_r. apply Permutation_refl.
  - subst Ld. nz d. apply wp_bind. eapply wp_free; [find_x|].
    apply wp_bind. eapply wp_store; [apply Permutation_refl|]. apply wp_post. apply wp_ret.
    eexists. split; [|apply H; exact R']. perm.
Qed.

Lemma wp_cleardata : forall a p Lp L F (Q : bool -> heaplet -> Prop), prop_rep a p Lp -> Permutation L (Lp ++ F) ->
  (forall Lp', prop_rep a (M_Property.uecho_property_cleardata p) Lp' -> Q true (Lp' ++ F)) ->
  wp (uecho_property_cleardata a) L Q.
Proof. intros a p Lp L F Q R P H. eapply wp_cleardata_at; [exact R|exact P|exact H]. Qed.

Lemma prop_at_in : forall pv nx par a p L, prop_at pv nx par a p L -> exists q, In (a, BProp q) L /\ q_code q = p_code p
  /\ q_attr q = p_attr p /\ q_size q = len (p_data p) /\ q_prev q = pv /\ q_next q = nx /\ q_parent q = par.
Proof.
  intros pv nx par a p L (s & o & d & Ls & Ld & -> & _). eexists. split; [left; reflexivity|]. repeat split.
Qed.
Lemma prop_rep_in : forall a p L, prop_rep a p L -> exists q, In (a, BProp q) L /\ q_code q = p_code p
  /\ q_attr q = p_attr p /\ q_size q = len (p_data p).
Proof.
  intros a p L (s & o & d & Ls & Ld & -> & _). eexists. split; [left; reflexivity|]. auto.
Qed.

Lemma wp_remove : forall a p Lp L F (Q : unit -> heaplet -> Prop), prop_rep a p Lp -> Permutation L (Lp ++ F) ->
  Q tt (Lp ++ F) -> wp (uecho_property_remove a) L Q.
Proof.
  intros a p Lp L F Q R P H. destruct R as (s & o & d & Ls & Ld & -> & Rs & Rd & Np & Sp).
  eapply wp_remove_self; [exact P|reflexivity|exact H].
Qed.

Lemma wp_prop_delete_at : forall par a p Lp L F (Q : bool -> heaplet -> Prop), prop_at a a par a p Lp -> Permutation L (Lp ++ F) ->
  Q true F -> wp (uecho_property_delete a) L Q.
Proof.
  intros par a p Lp L F Q R P H. eapply wp_perm; [exact P|].
  destruct R as (s & o & d & Ls & Ld & -> & Rs & Rd & Np & Sp). cbn [app]. unfold uecho_property_delete. nz a.
  apply wp_bind. eapply wp_load_prop; [inl|]. cbn [q_name].
  destruct (str_rep_in s o Ls Rs) as [c Ic]. nz s.
  apply wp_bind. eapply (wp_string_delete s o Ls _ ((a, BProp (mkCprop a a s (p_code p) (p_attr p) d (len (p_data p)) par)) :: Ld ++ F));
    [exact Rs|perm|].
  (* the name is gone: clear the data by hand *)
  apply wp_bind. unfold uecho_property_cleardata. rewrite (pos_nz a) by assumption.
  apply wp_bind. eapply wp_load_prop; [inl|]. qs.
  apply wp_bind. eapply wp_store; [apply Permutation_refl|].
  assert (FIN : forall L', Permutation L' ((a, BProp (mkCprop a a s (p_code p) (p_attr p) 0 0 par)) :: F) ->
     wp (let! _ := uecho_property_remove a in let! _ := mfree a in ret true) L' Q).
  { intros L' P'. apply wp_bind. eapply wp_remove_self; [exact P'|reflexivity|].
    apply wp_bind. eapply wp_free; [apply Permutation_refl|]. apply wp_ret. exact H. }
  destruct (p_data p) as [|c0 r] eqn:Ed; cbn [data_rep] in Rd.
  - destruct Rd as [-> ->]. cbn [Z.eqb]. apply wp_ret. apply FIN. apply Permutation_refl.
  - subst Ld. nz d. apply wp_bind. eapply wp_free; [find_x|].
    apply wp_bind. eapply wp_store; [apply Permutation_refl|]. apply wp_ret. apply FIN. perm.
Qed.

Lemma wp_prop_delete : forall a p Lp L F (Q : bool -> heaplet -> Prop), prop_rep a p Lp -> Permutation L (Lp ++ F) ->
  Q true F -> wp (uecho_property_delete a) L Q.
Proof. intros a p Lp L F Q R P H. eapply wp_prop_delete_at; [exact R|exact P|exact H]. Qed.

Lemma wp_prop_new : forall L (Q : Z -> heaplet -> Prop),
  (forall a Lp, 0 < a -> prop_rep a M_Property.uecho_property_new Lp -> Q a (Lp ++ L)) -> wp (uecho_property_new room) L Q.
Proof.
  intros L Q H. unfold uecho_property_new. apply wp_bind. apply wp_malloc; [exact Room|]. intros a A _.
  rewrite (pos_nz a) by assumption. apply wp_bind. apply wp_string_new. intros s S0.
  apply wp_bind. eapply wp_load_prop; [inl|]. qs.
  apply wp_bind. eapply wp_store; [find_x|]. rewrite (pos_nz s) by assumption.
  apply wp_post. apply wp_ret. eexists. split; [|apply (H a ((a, BProp (mkCprop a a s 0 AttrReadWrite 0 0 0)) :: [(s, BStr (mkCstring 0 0 0))])); [exact A|]].
  - cbn [app]. apply Permutation_refl.
  - exists s, None, 0, [(s, BStr (mkCstring 0 0 0))], []. repeat split; auto.
Qed.

Lemma wp_setcode_at : forall pv nx par a c p Lp L F (Q : unit -> heaplet -> Prop), prop_at pv nx par a p Lp -> Permutation L (Lp ++ F) ->
  (forall Lp', prop_at pv nx par a (M_Property.uecho_property_setcode c p) Lp' -> Q tt (Lp' ++ F)) ->
  wp (uecho_property_setcode a c) L Q.
Proof.
  intros pv nx par a c p Lp L F Q R P H. eapply wp_perm; [exact P|].
  destruct R as (s & o & d & Ls & Ld & -> & Rs & Rd & Np & Sp). cbn [app]. unfold uecho_property_setcode. nz a.
  apply wp_bind. eapply wp_load_prop; [inl|]. qs.
  apply wp_post. eapply wp_store; [apply Permutation_refl|]. eexists. split; [|apply H; exists s, o, d, Ls, Ld; repeat split; auto].
  cbn [app]. apply Permutation_refl.
Qed.
Lemma wp_setcode : forall a c p Lp L F (Q : unit -> heaplet -> Prop), prop_rep a p Lp -> Permutation L (Lp ++ F) ->
  (forall Lp', prop_rep a (M_Property.uecho_property_setcode c p) Lp' -> Q tt (Lp' ++ F)) ->
  wp (uecho_property_setcode a c) L Q.
Proof. intros a c p Lp L F Q R P H. eapply wp_setcode_at; [exact R|exact P|exact H]. Qed.

Lemma wp_setattribute_at : forall pv nx par a c p Lp L F (Q : unit -> heaplet -> Prop), prop_at pv nx par a p Lp -> Permutation L (Lp ++ F) ->
  (forall Lp', prop_at pv nx par a (M_Property.uecho_property_setattribute c p) Lp' -> Q tt (Lp' ++ F)) ->
  wp (uecho_property_setattribute a c) L Q.
Proof.
  intros pv nx par a c p Lp L F Q R P H. eapply wp_perm; [exact P|].
  destruct R as (s & o & d & Ls & Ld & -> & Rs & Rd & Np & Sp). cbn [app]. unfold uecho_property_setattribute. nz a.
  apply wp_bind. eapply wp_load_prop; [inl|]. qs.
  apply wp_post. eapply wp_store; [apply Permutation_refl|]. eexists. split; [|apply H; exists s, o, d, Ls, Ld; repeat split; auto].
  cbn [app]. apply Permutation_refl.
Qed.
Lemma wp_setattribute : forall a c p Lp L F (Q : unit -> heaplet -> Prop), prop_rep a p Lp -> Permutation L (Lp ++ F) ->
  (forall Lp', prop_rep a (M_Property.uecho_property_setattribute c p) Lp' -> Q tt (Lp' ++ F)) ->
  wp (uecho_property_setattribute a c) L Q.
Proof. intros a c p Lp L F Q R P H. eapply wp_setattribute_at; [exact R|exact P|exact H]. Qed.

(* nothing is announced *)
Lemma wp_announce : forall pv nx par a p Lp L F (Q : bool -> heaplet -> Prop), prop_at pv nx par a p Lp -> Permutation L (Lp ++ F) ->
  par_ok par F -> Q false (Lp ++ F) -> wp (uecho_property_announce a) L Q.
Proof.
  intros pv nx par a p Lp L F Q R P PO H. eapply wp_perm; [exact P|].
  destruct (prop_at_in _ _ _ _ _ _ R) as (q & I & _ & _ & _ & _ & _ & EP).
  unfold uecho_property_announce. assert (I' : In (a, BProp q) (Lp ++ F)) by (apply in_or_app; left; exact I).
  nz a. apply wp_bind. eapply wp_load_prop; [exact I'|]. rewrite EP.
  destruct PO as [->|(o & Io)]; [apply wp_ret; exact H|].
  assert (Io' : In (par, BObj o) (Lp ++ F)) by (apply in_or_app; right; exact Io).
  nz par. apply wp_bind. apply wp_bind. eapply wp_load; [exact Io'|]. apply wp_ret, wp_ret. exact H.
Qed.

(* the value after uecho_property_setdata *)
Definition pdata (d : list Z) (p : prop) : prop := fst (M_Property.uecho_property_setdata d p).
Lemma pdata_fields : forall d p, p_code (pdata d p) = p_code p /\ p_attr (pdata d p) = p_attr p
  /\ p_data (pdata d p) = d /\ p_parent (pdata d p) = p_parent p.
Proof.
  intros d p. unfold pdata, M_Property.uecho_property_setdata. destruct (Z.eqb_spec (len d) 0) as [E|E].
  - apply len_0_nil in E. subst d. repeat split.
  - repeat split.
Qed.

Lemma wp_setdata_at : forall pv nx par a p Lp data off d c L F (Q : bool -> heaplet -> Prop), prop_at pv nx par a p Lp -> Permutation L (Lp ++ F) ->
  par_ok par F -> len d < SIZE_MOD ->
  (d <> [] -> In (data, BBytes c) F /\ rd_range c off (len d) = Ok (map Some d)) ->
  (forall Lp', prop_at pv nx par a (pdata d p) Lp' -> Q true (Lp' ++ F)) ->
  wp (uecho_property_setdata room a data off (len d)) L Q.
Proof.
  intros pv nx par a p Lp data off d c L F Q R P PO SD HD H. eapply wp_perm; [exact P|].
  destruct (prop_at_in _ _ _ a p Lp R) as (q0 & I0 & _).
  unfold uecho_property_setdata. nz a. apply wp_bind. unfold uecho_property_setcount.
  apply wp_bind. eapply wp_cleardata_at; [exact R|apply Permutation_refl|]. intros Lp' R'.
  rewrite (pos_nz a) by assumption. pose proof (pdata_fields d p) as (F1 & F2 & F3 & F4).
  destruct R' as (s & o & d' & Ls & Ld & -> & Rs & Rd & Np & Sp).
  cbn [M_Property.uecho_property_cleardata put_data p_code p_attr p_data p_parent] in *. destruct Rd as [-> ->].
  destruct (Z.eqb_spec (len d) 0) as [E|E].
  - apply wp_ret. cbn [negb]. apply wp_post, wp_ret. eexists. split; [|apply H; exists s, o, 0, Ls, []; rewrite F1, F2, F3, F4].
    + apply Permutation_refl.
    + apply len_0_nil in E. subst d. repeat split; auto.
  - pose proof (len_nonneg _ d) as N.
    assert (D : d <> []) by (intro X; subst d; apply E; reflexivity). destruct (HD D) as [I1 I2].
    apply wp_bind. apply wp_malloc; [exact Room|]. intros b B _.
    apply wp_bind. eapply wp_load_prop; [inl|]. qs.
    apply wp_bind. eapply wp_store; [find_x|]. rewrite (pos_nz b) by assumption.
    apply wp_bind. eapply wp_store; [apply Permutation_refl|]. apply wp_ret. cbn [negb].
    apply wp_bind. eapply wp_load_prop; [inl|]. cbn [q_data]. apply wp_bind.
    apply wp_post. eapply wp_copy_bytes; [find_x|inl|lia|exact I2| |].
    + rewrite to_nat_len.
      replace (map Some (repeat 0 (length d))) with ([] ++ map Some (repeat 0 (length d)) ++ []) by (rewrite app_nil_r; reflexivity).
      apply wr_range_app; [reflexivity|]. rewrite !len_map, len_repeat. reflexivity.
    + exists (((a, BProp (mkCprop pv nx s (p_code p) (p_attr p) b (len d) par)) :: Ls ++ [(b, BBytes (map Some d))]) ++ F).
      split; [perm|].
      assert (R2 : prop_at pv nx par a (pdata d p) ((a, BProp (mkCprop pv nx s (p_code p) (p_attr p) b (len d) par)) :: Ls ++ [(b, BBytes (map Some d))])).
      { exists s, o, b, Ls, [(b, BBytes (map Some d))]. rewrite F1, F2, F3, F4.
        split; [reflexivity|]. split; [exact Rs|]. split; [|split; [exact Np|exact SD]]. unfold data_rep. destruct d; [congruence|reflexivity]. }
      apply wp_bind. eapply wp_load_prop; [inl|]. qs. apply wp_bind.
      destruct (has_bits (p_attr p) (Z.lor AttrAnno AttrAnnoRequired)).
      * eapply wp_announce; [exact R2|apply Permutation_refl|exact PO|]. apply wp_ret. apply H. exact R2.
      * apply wp_ret, wp_ret. apply H. exact R2.
Qed.
Lemma wp_setdata : forall a p Lp data off d c L F (Q : bool -> heaplet -> Prop), prop_rep a p Lp -> Permutation L (Lp ++ F) ->
  len d < SIZE_MOD ->
  (d <> [] -> In (data, BBytes c) F /\ rd_range c off (len d) = Ok (map Some d)) ->
  (forall Lp', prop_rep a (pdata d p) Lp' -> Q true (Lp' ++ F)) ->
  wp (uecho_property_setdata room a data off (len d)) L Q.
Proof. intros a p Lp data off d c L F Q R P SD HD H. eapply wp_setdata_at; [exact R|exact P|left; reflexivity|exact SD|exact HD|exact H]. Qed.

Lemma wp_setname_at : forall pv nx par a p Lp name L F (Q : unit -> heaplet -> Prop), prop_at pv nx par a p Lp -> Permutation L (Lp ++ F) ->
  (name = 0 \/ exists t, In (name, BBytes (map Some t ++ [Some 0])) F /\ plain t /\ len t + 1 < SIZE_MOD) ->
  (forall Lp', prop_at pv nx par a p Lp' -> Q tt (Lp' ++ F)) ->
  wp (uecho_property_setname room a name) L Q.
Proof.
  intros pv nx par a p Lp name L F Q R P HN H. eapply wp_perm; [exact P|].
  destruct R as (s & o & d & Ls & Ld & -> & Rs & Rd & Np & Sp). cbn [app]. unfold uecho_property_setname. nz a.
  apply wp_bind. eapply wp_load_prop; [inl|]. cbn [q_name].
  destruct HN as [->|(t & I & T1 & T2)].
  - unfold uecho_string_setvalue. destruct (str_rep_in s o Ls Rs) as [c Ic]. nz s. cbn [Z.eqb]. apply wp_post, wp_ret.
    eexists. split; [|apply H; exists s, o, d, Ls, Ld; repeat split; auto]. apply Permutation_refl.
  - apply wp_post. eapply (wp_string_setvalue s o Ls name _ t _ ((a, BProp (mkCprop pv nx s (p_code p) (p_attr p) d (len (p_data p)) par)) :: Ld ++ F));
      [exact Rs|perm|inl|exact T1|exact T2|reflexivity|].
    intros Ls' Rs'.
    exists (((a, BProp (mkCprop pv nx s (p_code p) (p_attr p) d (len (p_data p)) par)) :: Ls' ++ Ld) ++ F). split; [perm|].
    apply H. exists s, (Some t), d, Ls', Ld. split; [reflexivity|]. auto.
Qed.
Lemma wp_setname : forall a p Lp name L F (Q : unit -> heaplet -> Prop), prop_rep a p Lp -> Permutation L (Lp ++ F) ->
  (name = 0 \/ exists t, In (name, BBytes (map Some t ++ [Some 0])) F /\ plain t /\ len t + 1 < SIZE_MOD) ->
  (forall Lp', prop_rep a p Lp' -> Q tt (Lp' ++ F)) ->
  wp (uecho_property_setname room a name) L Q.
Proof. intros a p Lp name L F Q R P HN H. eapply wp_setname_at; [exact R|exact P|exact HN|exact H]. Qed.

Lemma wp_prop_copy_at : forall pv nx par src p Ls L F (Q : Z -> heaplet -> Prop), prop_at pv nx par src p Ls -> Permutation L (Ls ++ F) ->
  (forall a La, 0 < a -> prop_rep a (M_Property.uecho_property_copy p) La -> Q a (La ++ Ls ++ F)) ->
  wp (uecho_property_copy room src) L Q.
Proof.
  intros pv nx par src p Ls L F Q R P H. eapply wp_perm; [exact P|].
  assert (R0 := R). destruct R as (s & o & d & Lst & Ld & -> & Rs & Rd & Np & Sp). cbn [app] in *.
  set (q := mkCprop pv nx s (p_code p) (p_attr p) d (len (p_data p)) par) in *.
  unfold uecho_property_copy. nz src. apply wp_bind. apply wp_prop_new. intros a La A Ra.
  rewrite (pos_nz a) by assumption. apply wp_bind. eapply (wp_load_prop _ q); [inl|].
  change (q_code q) with (p_code p). change (q_attr q) with (p_attr p). change (q_data q) with d.
  change (q_size q) with (len (p_data p)).
  apply wp_bind. eapply wp_setcode; [exact Ra|apply Permutation_refl|]. clear La Ra. intros La Ra.
  apply wp_bind. unfold uecho_property_getname. rewrite (pos_nz src) by assumption.
  apply wp_bind. eapply (wp_load_prop _ q); [inl|]. change (q_name q) with s.
  eapply (wp_string_getvalue s o Lst); [exact Rs| |].
  { intros z I. inl. }
  assert (GO : forall n, (n = 0 \/ exists t, In (n, BBytes (map Some t ++ [Some 0])) ((src, BProp q) :: (Lst ++ Ld) ++ F) /\ plain t /\ len t + 1 < SIZE_MOD) ->
     wp (let! _ := uecho_property_setname room a n in
         let! _ := uecho_property_setattribute a (p_attr p) in
         let! _ := uecho_property_setdata room a d 0 (len (p_data p)) in ret a) (La ++ (src, BProp q) :: (Lst ++ Ld) ++ F) Q).
  { intros n HN. apply wp_bind. eapply wp_setname; [exact Ra|apply Permutation_refl|exact HN|]. clear La Ra. intros La Ra.
    apply wp_bind. eapply wp_setattribute; [exact Ra|apply Permutation_refl|]. clear La Ra. intros La Ra.
    apply wp_bind. eapply (wp_setdata a _ La d 0 (p_data p) (map Some (p_data p))); [exact Ra|apply Permutation_refl|exact Sp| |].
    - intro N. unfold data_rep in Rd. destruct (p_data p) as [|x r] eqn:Ed; [congruence|]. subst Ld. split; [inl|].
      replace (map Some (x :: r)) with ([] ++ map Some (x :: r) ++ []) at 1 by (rewrite app_nil_r; reflexivity).
      apply rd_range_app; [reflexivity|]. rewrite len_map. reflexivity.
    - clear La Ra. intros La Ra. apply wp_ret. apply H; [exact A|]. exact Ra. }
  destruct o as [t|].
  - intros v I. apply GO. right. exists t. cbn in Rs. destruct Rs as (T1 & T2 & _). split; [inl|]. auto.
  - apply GO. left. reflexivity.
Qed.
Lemma wp_prop_copy : forall src p Ls L F (Q : Z -> heaplet -> Prop), prop_rep src p Ls -> Permutation L (Ls ++ F) ->
  (forall a La, 0 < a -> prop_rep a (M_Property.uecho_property_copy p) La -> Q a (La ++ Ls ++ F)) ->
  wp (uecho_property_copy room src) L Q.
Proof. intros src p Ls L F Q R P H. eapply wp_prop_copy_at; [exact R|exact P|exact H]. Qed.
End Room.
