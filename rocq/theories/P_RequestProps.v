(* The effects of a request, property by property. *)
From Coq Require Import String ZArith List Bool Lia ZifyBool ZifyNat.
From Verif Require Import CSem M_Const M_Misc M_Property M_Message M_PropertyList M_Object M_Node M_NodeListener
  Spec_Frame Spec_Message Spec_Map Spec_Object Spec_Node Spec_Request Run_Object Run_Node P_Base P_Misc P_Message P_Encode
  P_MsgApi P_PropertyList P_Object P_ObjectRun P_ObjectReach P_Node P_Request Properties_Object P_NodeReach P_NodeProfile
  P_NodeInv P_NodeRun P_NodeProps.
Import ListNotations.
Open Scope Z_scope.
Ltac Zify.zify_post_hook ::= Z.div_mod_to_equations.

(* data of an object's properties *)
Definition odata (o : obj) : dstate := fun c => option_map p_data (uecho_object_getproperty o c).

(* the handlers registered for a service and a property code *)
Definition handlers (o : obj) (esv c : Z) : list (option nat) :=
  map ob_handler (filter (fun b => (ob_esv b =? esv) && (ob_code b =? c)) (o_obs o)).

(* [seg] are the handler calls for request property [e]: none when the object does not
   have the property, otherwise one call of each registered handler, in order, with the
   request's ESV and data *)
Definition consulted (o : obj) (esv : Z) (e : epair) (seg : list (hcall * bool)) : Prop :=
  match uecho_object_getproperty o (fst e) with
  | None => seg = []
  | Some _ =>
      map (fun x => Some (hc_handler (fst x))) seg = handlers o esv (fst e)
      /\ Forall (fun x => hc_object (fst x) = uecho_object_getcode o /\ hc_esv (fst x) = esv
                          /\ p_code (hc_prop (fst x)) = fst e /\ hc_data (fst x) = snd e) seg
  end.

(* accepted: the property exists and every handler agreed *)
Definition verdict (o : obj) (e : epair) (seg : list (hcall * bool)) : bool :=
  match uecho_object_getproperty o (fst e) with None => false | Some _ => forallb snd seg end.
Definition verdicts (o : obj) (ps : list epair) (segs : list (list (hcall * bool))) : list bool :=
  map (fun x => verdict o (fst x) (snd x)) (combine ps segs).

(* the notifications of accepted writes *)
Definition notified (o : obj) (e : epair) : bool :=
  match uecho_object_getproperty o (fst e) with
  | None => false
  | Some p => uecho_property_isannounceable p && p_parent p && negb (match snd e with [] => true | _ => false end)
  end.
Definition notices (o : obj) (ps : list epair) (vs : list bool) : list epair :=
  map fst (filter (fun x => snd x && notified o (fst x)) (combine ps vs)).

(* everything about a property but its data *)
Definition shape (p : prop) : Z * Z * bool := (p_code p, p_attr p, p_parent p).
Definition same_shape (o o' : obj) : Prop :=
  same_eoj o o' /\ map shape (o_props o') = map shape (o_props o).

Lemma map_shape_find : forall l l' c, map shape l' = map shape l ->
  option_map shape (find l' c) = option_map shape (find l c).
Proof.
  induction l as [|p l IH]; intros [|p' l'] c H; cbn [map] in H; try discriminate; [reflexivity|].
  apply (f_equal (fun x => match x with a :: r => (a, r) | [] => ((0, 0, true), []) end)) in H. cbv iota in H.
  injection H as H1 H2 H3 H4. cbn [uecho_propertylist_findbycode]. rewrite H1.
  destruct (p_code p =? c); [|apply IH; assumption]. cbn [option_map]. unfold shape. rewrite H1, H2, H3. reflexivity.
Qed.

Lemma same_shape_refl : forall o, same_shape o o.
Proof. intros. split; [apply same_eoj_refl|reflexivity]. Qed.
Lemma same_shape_trans : forall a b c, same_shape a b -> same_shape b c -> same_shape a c.
Proof. intros a b c [A1 A2] [B1 B2]. split; [eapply same_eoj_trans; eauto|congruence]. Qed.

Lemma same_shape_find : forall o o' c, same_shape o o' ->
  option_map shape (uecho_object_getproperty o' c) = option_map shape (uecho_object_getproperty o c).
Proof. intros o o' c [_ H]. apply map_shape_find. exact H. Qed.

Lemma update_shape : forall l c d, map shape (update_first c (put_data d) l) = map shape l.
Proof.
  induction l as [|p l IH]; intros; cbn [update_first map]; [reflexivity|].
  destruct (p_code p =? c); cbn [map]; [reflexivity|]. rewrite IH. reflexivity.
Qed.

Lemma put_shape : forall o c d q, uecho_object_getproperty o c = Some q ->
  same_shape o (o_with_props (put (o_props o) c (put_data d)) o).
Proof.
  intros o c d q F. split; [repeat split|]. rewrite obj_props_with. unfold put, uecho_object_getproperty in *. rewrite F.
  apply update_shape.
Qed.

Lemma put_odata : forall o c d x, odata (o_with_props (put (o_props o) c (put_data d)) o) x = dset (odata o) c d x.
Proof.
  intros. unfold odata, dset. rewrite put_with_view. destruct (x =? c); reflexivity.
Qed.

Lemma shape_consulted : forall o o' esv e seg, same_shape o o' -> consulted o' esv e seg -> consulted o esv e seg.
Proof.
  intros o o' esv e seg S H. pose proof (same_shape_find _ _ (fst e) S) as F. unfold consulted in *.
  destruct S as [(G1 & G2 & G3 & _ & Ob & _) _].
  assert (C : uecho_object_getcode o' = uecho_object_getcode o) by (unfold uecho_object_getcode; rewrite G1, G2, G3; reflexivity).
  unfold handlers in *. rewrite Ob, C in H.
  destruct (uecho_object_getproperty o' (fst e)); destruct (uecho_object_getproperty o (fst e)); try discriminate; exact H.
Qed.
Lemma shape_verdict : forall o o' e seg, same_shape o o' -> verdict o' e seg = verdict o e seg.
Proof.
  intros o o' e seg S. pose proof (same_shape_find _ _ (fst e) S) as F. unfold verdict.
  destruct (uecho_object_getproperty o' (fst e)); destruct (uecho_object_getproperty o (fst e)); try discriminate; reflexivity.
Qed.
Lemma shape_notified : forall o o' e, same_shape o o' -> notified o' e = notified o e.
Proof.
  intros o o' e S. pose proof (same_shape_find _ _ (fst e) S) as F. unfold notified.
  destruct (uecho_object_getproperty o' (fst e)) as [a|]; destruct (uecho_object_getproperty o (fst e)) as [b|]; try discriminate; [|reflexivity].
  injection F as F1 F2 F3. unfold uecho_property_isannounceable. rewrite F2, F3. reflexivity.
Qed.
Lemma shape_notices : forall o o' ps vs, same_shape o o' -> notices o' ps vs = notices o ps vs.
Proof.
  intros o o' ps vs S. unfold notices. f_equal. apply filter_ext. intros x. rewrite (shape_notified _ _ _ S). reflexivity.
Qed.
Lemma shape_verdicts : forall o o' ps segs, same_shape o o' -> verdicts o' ps segs = verdicts o ps segs.
Proof. intros o o' ps segs S. apply map_ext. intros x. apply shape_verdict. exact S. Qed.

Lemma Forall2_weaken : forall {A B} (P Q : A -> B -> Prop) l k, (forall a b, P a b -> Q a b) -> Forall2 P l k -> Forall2 Q l k.
Proof. intros A B P Q l k H F. induction F; constructor; auto. Qed.

Lemma Forall2_len : forall {A B} (P : A -> B -> Prop) l k, Forall2 P l k -> length l = length k.
Proof. intros A B P l k F. induction F; cbn; auto. Qed.

Section D.
Variable dec : list (hcall * bool) -> hcall -> bool.

(* the recorded answers are the handlers' *)
Definition honest (calls seg : list (hcall * bool)) : Prop :=
  forall pre x post, seg = pre ++ x :: post -> snd x = dec (calls ++ pre) (fst x).

Lemma honest_nil : forall calls, honest calls [].
Proof. intros calls pre x post E. destruct pre; discriminate. Qed.
Lemma honest_app : forall calls a b, honest calls a -> honest (calls ++ a) b -> honest calls (a ++ b).
Proof.
  intros calls a b Ha Hb pre x post E. revert pre E. 
  assert (G : forall a b pre, a ++ b = pre ++ x :: post ->
     (exists q, a = pre ++ x :: q) \/ (exists p, pre = a ++ p /\ b = p ++ x :: post)).
  { clear. induction a as [|y a IH]; intros b pre E; [right; exists pre; auto|].
    destruct pre as [|z pre]; cbn [app] in E; injection E as -> E.
    - left. exists a. reflexivity.
    - destruct (IH _ _ E) as [(q & ->)|(p & -> & ->)]; [left; exists q; reflexivity|right; exists p; auto]. }
  intros pre E. destruct (G _ _ _ E) as [(q & Ea)|(p & -> & Eb)].
  - apply (Ha pre x q Ea).
  - rewrite (Hb p x post Eb), app_assoc. reflexivity.
Qed.

Lemma notify_spec : forall o q esv mp obs acc calls ok calls',
  notify_loop dec obs o q esv mp acc calls = Ok (ok, calls') ->
  exists seg, calls' = calls ++ seg /\ honest calls seg /\ ok = acc && forallb snd seg
  /\ map (fun x => Some (hc_handler (fst x))) seg
     = map ob_handler (filter (fun b => (ob_esv b =? esv) && (ob_code b =? p_code mp)) obs)
  /\ Forall (fun x => hc_object (fst x) = uecho_object_getcode o /\ hc_esv (fst x) = esv
                      /\ hc_prop (fst x) = q /\ hc_data (fst x) = p_data mp) seg.
Proof.
  intros o q esv mp. induction obs as [|b obs IH]; intros acc calls ok calls' H; cbn [notify_loop] in H.
  - injection H as <- <-. exists []. rewrite app_nil_r. split; [reflexivity|]. split; [apply honest_nil|].
    split; [cbn; destruct acc; reflexivity|]. split; [reflexivity|constructor].
  - cbn [filter]. rewrite (Z.eqb_sym (ob_esv b)), (Z.eqb_sym (ob_code b)).
    destruct (esv =? ob_esv b); cbn [negb] in H; [|apply IH; exact H].
    destruct (p_code mp =? ob_code b); cbn [negb] in H; [|apply IH; exact H].
    destruct (ob_handler b) as [h|] eqn:Eh; [|discriminate]. cbv zeta in H. apply IH in H.
    destruct H as (seg & E & Hh & Ok' & M & F). set (c := mkCall h (uecho_object_getcode o) q esv (p_data mp)) in *.
    exists ((c, dec calls c) :: seg). split; [rewrite E, <- app_assoc; reflexivity|].
    split.
    { apply (honest_app calls [(c, dec calls c)] seg); [|exact Hh]. intros pre x post E1. destruct pre as [|? [|]]; try discriminate.
      injection E1 as <- _. rewrite app_nil_r. reflexivity. }
    split; [cbn [forallb snd]; rewrite Ok'; destruct acc, (dec calls c), (forallb snd seg); reflexivity|].
    split; [cbn [map andb fst]; rewrite M; rewrite Eh; reflexivity|].
    constructor; [cbn [fst c hc_object hc_esv hc_prop hc_data]; auto|exact F].
Qed.

Lemma work_spec : forall esv ps o calls o1 anns calls1 rs,
  work dec esv ps o calls = Ok (o1, anns, calls1, rs) ->
  exists segs, calls1 = calls ++ concat segs /\ honest calls (concat segs)
  /\ Forall2 (consulted o esv) ps segs
  /\ map snd rs = verdicts o ps segs
  /\ (forall c, odata o1 c = (if write_esv esv then write_all (odata o) ps (map snd rs) else odata o) c)
  /\ map fst rs = answer_all esv (odata o) ps (map snd rs)
  /\ same_shape o o1
  /\ map (fun p => (p_code p, p_data p)) anns = (if write_esv esv then notices o ps (map snd rs) else [])
  /\ (write_esv esv = false -> o1 = o /\ anns = []).
Proof.
  intros esv. induction ps as [|e ps IH]; intros o calls o1 anns calls1 rs H; cbn [work] in H.
  - injection H as <- <- <- <-. exists []. cbn [concat map]. rewrite app_nil_r. split; [reflexivity|].
    split; [apply honest_nil|]. split; [constructor|]. split; [reflexivity|].
    split; [intros; destruct (write_esv esv); reflexivity|]. split; [reflexivity|]. split; [apply same_shape_refl|].
    split; [destruct (write_esv esv); reflexivity|auto].
  - apply bind_ok in H. destruct H as ([[[[o2 a2] c2] d] ok] & W & H).
    apply bind_ok in H. destruct H as ([[[o3 a3] c3] rs'] & W2 & H).
    apply (f_equal (fun x => match x with Ok y => y | _ => (o, [], [], []) end)) in H. cbv iota in H.
    injection H as H1 H2 H3 H4. subst o3 c3 anns rs.
    apply IH in W2. destruct W2 as (segs & E & Hh & F2 & V & D & A & S & N & R). clear IH.
    (* the first property *)
    assert (X : exists seg, c2 = calls ++ seg /\ honest calls seg /\ consulted o esv e seg /\ ok = verdict o e seg
        /\ (forall c, odata o2 c = (if write_esv esv && ok then dset (odata o) (fst e) (snd e) else odata o) c)
        /\ (fst e, d) = answer_pair esv (odata o) e ok
        /\ same_shape o o2
        /\ map (fun p => (p_code p, p_data p)) a2 = (if write_esv esv && (ok && notified o e) then [e] else [])
        /\ (write_esv esv = false -> o2 = o /\ a2 = [])).
    { unfold work1 in W. unfold consulted, verdict, notified, answer_pair. unfold uecho_object_getproperty at 1 2 3.
      change (is_write esv) with (write_esv esv) in W. change (is_read esv) with (read_esv esv) in W.
      destruct (find (o_props o) (fst e)) as [q|] eqn:Fq.
      - apply bind_ok in W. destruct W as ([ok' cs] & Nn & W). cbn [fst snd] in W.
        unfold uecho_object_notifyrequestproperty in Nn. apply notify_spec in Nn.
        destruct Nn as (seg & E1 & E2 & E3 & E4 & E5). cbn [andb] in E3.
        pose proof (find_code _ _ _ Fq) as [Cq _].
        assert (Cons : map (fun x => Some (hc_handler (fst x))) seg = handlers o esv (fst e) /\
           Forall (fun x : hcall * bool => hc_object (fst x) = uecho_object_getcode o /\ hc_esv (fst x) = esv
                          /\ p_code (hc_prop (fst x)) = fst e /\ hc_data (fst x) = snd e) seg).
        { split; [exact E4|]. eapply Forall_impl; [|exact E5]. cbv beta. intros x (P1 & P2 & P3 & P4).
          split; [exact P1|]. split; [exact P2|]. split; [rewrite P3; exact Cq|exact P4]. }
        exists seg. destruct ok'.
        + apply (f_equal (fun x => match x with Ok y => y | _ => (o, [], [], [], true) end)) in W. cbv iota in W.
          injection W as W1 W2 W3 W4 W5. subst o2 a2 c2 d ok.
          split; [exact E1|]. split; [exact E2|]. split; [exact Cons|]. split; [exact E3|].
          rewrite andb_true_r. cbn [andb]. split.
          { intros c. destruct (write_esv esv); [apply put_odata|reflexivity]. }
          split.
          { f_equal. destruct (read_esv esv); [|reflexivity]. unfold odata, uecho_object_getproperty. rewrite Fq. reflexivity. }
          split.
          { destruct (write_esv esv); [eapply put_shape; exact Fq|apply same_shape_refl]. }
          split.
          { destruct (write_esv esv); [|reflexivity]. cbn [andb]. unfold announced.
            destruct e as [ec ed]. cbn [fst snd] in *.
            destruct ed as [|x ed]; [rewrite andb_false_r; reflexivity|]. rewrite andb_true_r.
            destruct (uecho_property_isannounceable q && p_parent q); [|reflexivity]. cbn [map put_data p_code p_data]. rewrite Cq. reflexivity. }
          intros Ew. rewrite Ew. auto.
        + apply (f_equal (fun x => match x with Ok y => y | _ => (o, [], [], [], true) end)) in W. cbv iota in W.
          injection W as W1 W2 W3 W4 W5. subst o2 a2 c2 d ok.
          split; [exact E1|]. split; [exact E2|]. split; [exact Cons|]. split; [exact E3|].
          rewrite andb_false_r. cbn [andb]. rewrite andb_false_r. split; [reflexivity|]. split; [reflexivity|].
          split; [apply same_shape_refl|]. split; [reflexivity|auto].
      - injection W as <- <- <- <- <-. exists []. rewrite app_nil_r. split; [reflexivity|]. split; [apply honest_nil|].
        split; [reflexivity|]. split; [reflexivity|]. rewrite andb_false_r. cbn [andb]. rewrite andb_false_r.
        split; [reflexivity|]. split; [reflexivity|]. split; [apply same_shape_refl|]. split; [reflexivity|auto]. }
    destruct X as (seg & E1 & E2 & E3 & E4 & E5 & E6 & E7 & E8 & E9).
    exists (seg :: segs). cbn [concat map fst snd].
    split; [rewrite E, E1, app_assoc; reflexivity|].
    split; [apply honest_app; [exact E2|rewrite <- E1; exact Hh]|].
    split.
    { constructor; [exact E3|]. apply (Forall2_weaken (consulted o2 esv)); [|exact F2]. intros a b. apply shape_consulted. exact E7. }
    split; [unfold verdicts; cbn [combine map fst snd]; rewrite E4, V, (shape_verdicts _ _ ps segs E7); reflexivity|].
    split.
    { intros c. rewrite D. destruct (write_esv esv) eqn:Ew.
      - cbn [write_all andb] in *. clear - E5. revert E5.
        assert (Ext : forall ps vs m m', (forall c, m c = m' c) -> forall c, write_all m ps vs c = write_all m' ps vs c).
        { clear. induction ps as [|e ps IH]; intros [|v vs] m m' H c; cbn [write_all]; auto. apply IH.
          intros x. destruct v; [unfold dset; rewrite H|]; auto. }
        intros E5. apply Ext. exact E5.
      - cbn [andb] in E5. apply E5. }
    split.
    { unfold answer_all. cbn [combine map fst snd]. rewrite <- E6. f_equal. rewrite A. unfold answer_all.
      destruct (write_esv esv) eqn:Ew.
      - apply map_ext. intros x. unfold answer_pair.
        assert (Er : read_esv esv = false) by (unfold read_esv, write_esv in *; lia). rewrite Er. reflexivity.
      - destruct (E9 eq_refl) as [-> _]. reflexivity. }
    split; [eapply same_shape_trans; [exact E7|exact S]|].
    split.
    { rewrite map_app, E8, N. destruct (write_esv esv); [|reflexivity]. cbn [andb].
      rewrite (shape_notices _ _ ps _ E7). unfold notices. cbn [combine filter fst snd].
      destruct (ok && notified o e); reflexivity. }
    intros Ew. destruct (E9 Ew) as [-> ->]. destruct (R Ew) as [-> ->]. auto.
Qed.
End D.

(* ---- a whole request ---- *)

Definition one (vs : list bool) : Z := if existsb (fun b => b) vs then 1 else 0.

Lemma one_count : forall rs, b2z (count_ok rs) = one (map snd rs).
Proof.
  intros rs. unfold b2z, count_ok, one.
  assert (E : existsb (fun b => b) (map snd rs) = negb (len (filter snd rs) =? 0)).
  { induction rs as [|[e v] rs IH]; [reflexivity|]. cbn [map existsb filter snd]. destruct v; [|exact IH].
    cbn [orb]. rewrite len_cons. pose proof (len_nonneg _ (filter snd rs)). destruct (Z.eqb_spec (1 + len (filter snd rs)) 0); [lia|reflexivity]. }
  rewrite E. destruct (len (filter snd rs) =? 0); reflexivity.
Qed.

Definition body_effect (esv : Z) (o : obj) (b : body) (o1 : obj) (ns : list epair) (calls : list (hcall * bool))
  (b' : body) (all : bool) : Prop :=
  match b with
  | Plain ps => exists segs, let vs := verdicts o ps segs in
      calls = concat segs /\ Forall2 (consulted o esv) ps segs
      /\ (forall c, odata o1 c = (if write_esv esv then write_all (odata o) ps vs else odata o) c)
      /\ b' = Plain (answer_all esv (odata o) ps vs)
      /\ all = (one vs =? len ps)
      /\ ns = (if write_esv esv then notices o ps vs else [])
  | SetGetBody s g => exists segs1 segs2, let vs := verdicts o s segs1 in let ws := verdicts o g segs2 in
      calls = concat segs1 ++ concat segs2 /\ Forall2 (consulted o 97) s segs1 /\ Forall2 (consulted o 98) g segs2
      /\ (forall c, odata o1 c = write_all (odata o) s vs c)
      /\ b' = SetGetBody (answer_all 97 (odata o) s vs) (answer_all 98 (write_all (odata o) s vs) g ws)
      /\ all = (one vs + one ws =? len s + len g)
      /\ ns = notices o s vs
  end.

Lemma answer_all_ext : forall esv m m' ps vs, (forall c, m c = m' c) -> answer_all esv m ps vs = answer_all esv m' ps vs.
Proof. intros. unfold answer_all. apply map_ext. intros x. unfold answer_pair. rewrite H. reflexivity. Qed.

Lemma wbody_spec : forall dec esv o b o1 anns calls b' all,
  wbody dec esv o b = Ok (o1, anns, calls, b', all) ->
  body_effect esv o b o1 (map (fun p => (p_code p, p_data p)) anns) calls b' all
  /\ honest dec [] calls /\ same_shape o o1
  /\ (match b with Plain _ => write_esv esv = false | SetGetBody _ _ => False end -> o1 = o /\ anns = []).
Proof.
  intros dec esv o b o1 anns calls b' all H. destruct b as [ps|s g]; cbn [wbody body_effect] in *.
  - apply bind_ok in H. destruct H as ([[[o2 a2] c2] rs] & W & H).
    apply (f_equal (fun x => match x with Ok y => y | _ => (o, [], [], Plain [], true) end)) in H. cbv iota in H.
    injection H as <- <- <- <- <-. apply work_spec in W. destruct W as (segs & E & Hh & F2 & V & D & A & S & N & R).
    cbn [app] in E. subst c2.
    split; [|split; [exact Hh|split; [exact S|exact R]]].
    exists segs. cbv zeta. rewrite <- V. split; [reflexivity|]. split; [exact F2|]. split; [exact D|].
    split; [rewrite A; reflexivity|]. split; [rewrite one_count; reflexivity|exact N].
  - apply bind_ok in H. destruct H as ([[[o2 a2] c2] r1] & W & H).
    apply bind_ok in H. destruct H as ([[[o3 a3] c3] r2] & W2 & H).
    apply (f_equal (fun x => match x with Ok y => y | _ => (o, [], [], Plain [], true) end)) in H. cbv iota in H.
    injection H as <- <- <- <- <-.
    apply work_spec in W. destruct W as (segs1 & E & Hh & F2 & V & D & A & S & N & _). change (write_esv 97) with true in *. cbv iota in *.
    apply work_spec in W2. destruct W2 as (segs2 & E' & Hh' & F2' & V' & D' & A' & S' & N' & R'). change (write_esv 98) with false in *. cbv iota in *.
    destruct (R' eq_refl) as [-> ->]. rewrite app_nil_r. cbn [app] in E. subst c2 c3. cbn [app] in *.
    split; [|split; [apply honest_app; [exact Hh|exact Hh']|split; [exact S|tauto]]].
    exists segs1, segs2. cbv zeta. rewrite <- V.
    rewrite (shape_verdicts _ _ g segs2 S) in V'. rewrite <- V'.
    split; [reflexivity|]. split; [exact F2|].
    split; [apply (Forall2_weaken (consulted o2 98)); [|exact F2']; intros; eapply shape_consulted; eauto|].
    split; [exact D|]. split; [rewrite A, A'; f_equal; apply answer_all_ext; exact D|].
    split; [rewrite !one_count; reflexivity|exact N].
Qed.

(* ---- the response on the wire ---- *)

Lemma rprop_wire : forall ps, Forall epair_ok ps ->
  wire_props (map (fun e => rprop (fst e) (snd e)) ps) = concat (map enc_prop ps).
Proof.
  induction ps as [|e ps IH]; intros H; [reflexivity|]. inversion H as [|? ? (Hc & Hd & Hl) Hr]; subst.
  cbn [map]. rewrite wire_props_cons, (IH Hr). cbn [concat map]. f_equal. unfold wire_prop, enc_prop, rprop.
  cbn [put_data p_code p_data]. unfold to_byte, len. rewrite Z.mod_small by lia. reflexivity.
Qed.

Lemma pvl_opc : forall ps : list epair, pv_opc (pvl (map (fun e => rprop (fst e) (snd e)) ps)) = Z.of_nat (length ps).
Proof. intros. unfold pvl. cbn [pv_opc]. destruct ps; [reflexivity|]. cbn [map pv_opc]. unfold len. cbn [length]. rewrite map_length. reflexivity. Qed.

Lemma rmsg_wire : forall f, frame_ok f -> wire_msg (rmsg f) = enc_frame f.
Proof.
  intros [t [[s0 s1] s2] [[d0 d1] d2] esv b] (_ & _ & _ & _ & _ & Hb). cbn [f_esv f_body] in Hb.
  pose proof (body_two _ _ Hb) as B. destruct b as [ps|s g]; cbn [body_ok] in Hb;
  unfold wire_msg, enc_frame, rmsg; cbn [f_body f_tid f_seoj f_deoj f_esv m_ehd1 m_ehd2 m_tid m_seoj m_deoj m_esv m_p m_pset m_pget e3l enc_eoj app].
  - rewrite B. cbn [enc_body]. unfold enc_props. rewrite pvl_opc. unfold pv_list. rewrite stored_pvl, rprop_wire by apply Hb. reflexivity.
  - rewrite B. cbn [enc_body]. unfold enc_props. rewrite !pvl_opc. unfold pv_list. rewrite !stored_pvl, !rprop_wire by apply Hb. reflexivity.
Qed.

(* the notification frames of stored values *)
Fixpoint notes (le : bool) (t : Z) (ns : list epair) : list post :=
  match ns with
  | [] => []
  | e :: r => PAnnounce (enc_frame (notification le (next_tid t) node_profile_eoj (fst e) (snd e))) :: notes le (next_tid t) r
  end.

Lemma infs_notes : forall le anns t, Forall (fun p => len (p_data p) <= 255) anns ->
  infs le t anns = notes le t (map (fun p => (p_code p, p_data p)) anns).
Proof.
  intros le. induction anns as [|p anns IH]; intros t H; [reflexivity|]. inversion H as [|? ? Hp Hr]; subst.
  cbn [infs map notes fst snd]. rewrite inf_bytes_enc by exact Hp. rewrite IH by exact Hr. reflexivity.
Qed.

Lemma notices_in : forall o ps vs e, In e (notices o ps vs) -> In e ps.
Proof.
  intros o ps vs e I. unfold notices in I. apply in_map_iff in I. destruct I as ([e' v] & E & I). cbn [fst] in E. subst e'.
  apply filter_In in I. destruct I as [I _]. apply in_combine_l in I. exact I.
Qed.

Lemma request_isrequest : forall esv, uecho_esv_isrequest esv = true <-> request_esv esv.
Proof.
  intros esv. unfold uecho_esv_isrequest, uecho_esv_iswriterequest, uecho_esv_isreadrequest, uecho_esv_isnotifyrequest,
    ESV_SetI, ESV_SetC, ESV_SetGet, ESV_Get, ESV_INF_REQ, ESV_INFC, request_esv. cbn [In]. lia.
Qed.

Lemma put_obj_same : forall l c o, oget l c = Some o -> put_obj c o l = l.
Proof.
  induction l as [|x l IH]; intros c o G; cbn [put_obj uecho_objectlist_getbycode] in *; [reflexivity|].
  destruct (uecho_object_getcode x =? c); [injection G as ->; reflexivity|]. rewrite IH by exact G. reflexivity.
Qed.

Lemma node_eta : forall n, mkNode (n_tid n) (n_classes n) (n_objs n) (n_addr n) (n_listener n) = n.
Proof. intros []. reflexivity. Qed.

Lemma same_shape_code : forall o o', same_shape o o' -> uecho_object_getcode o' = uecho_object_getcode o.
Proof. intros o o' [S _]. apply keeps_code, same_keeps. exact S. Qed.

(* the pairs of a request that can be written in an answer or a notification *)
Definition read_only (f : frame) : Prop :=
  match f_body f with Plain _ => write_esv (f_esv f) = false | SetGetBody _ _ => False end.

Section Law.
Variable le : bool.
Variable net : post -> bool.
Variable dec : list (hcall * bool) -> hcall -> bool.

Lemma dec_enc : forall f rest, frame_ok f -> buffer (enc_frame f ++ rest) -> dec_frame (enc_frame f ++ rest) = Some (f, rest).
Proof. intros f rest Hf [Hb _]. apply dec_frame_iff; auto. Qed.

Lemma receive_law : forall n f rest la ra r o, ninv n -> mem_ok n -> frame_ok f -> buffer (enc_frame f ++ rest) ->
  uecho_node_getobjectbycode n (eoj_code (f_deoj f)) = Some o -> request_esv (f_esv f) ->
  node_receive le net dec n (enc_frame f ++ rest) la ra = Ok r ->
  exists o1 ns b all,
    body_effect (f_esv f) o (f_body f) o1 ns (r_calls r) b all
    /\ honest dec [] (r_calls r)
    /\ same_shape o o1
    /\ uecho_node_getobjectbycode (r_node r) (eoj_code (f_deoj f)) = Some o1
    /\ (forall c, c <> eoj_code (f_deoj f) -> uecho_node_getobjectbycode (r_node r) c = uecho_node_getobjectbycode n c)
    /\ r_node r = mkNode (tid_iter (length ns) (n_tid n)) (n_classes n) (put_obj (eoj_code (f_deoj f)) o1 (n_objs n))
                         (n_addr n) (n_listener n)
    /\ r_anns r = match profile n with None => [] | Some _ => notes le (n_tid n) ns end
    /\ r_answer r = match answer_esv (f_esv f) all with
                    | Some e => reply_posts e (from_of la ra) (wire_msg (rmsg (reply f e b)))
                    | None => []
                    end
    /\ (read_only f -> r_node r = n /\ r_anns r = []).
Proof.
  intros n f rest la ra r o Hn Hm Hf Hb G Q H.
  rewrite node_receive_spec in H by (assumption || apply fine_objs; assumption). rewrite dec_enc in H by assumption.
  unfold receive_frame in H. rewrite G in H. apply request_isrequest in Q. rewrite Q in H. cbn [negb] in H.
  apply bind_ok in H. destruct H as ([[[[o1 anns] calls] b] all] & W & H).
  destruct (ninv_get _ _ _ Hn G) as [Ho Hc].
  pose proof Hf as (_ & _ & _ & _ & _ & Hbd).
  destruct (wbody_ok _ _ _ _ _ _ _ _ _ (proj1 Ho) Hbd W) as (He & Ha & Sh).
  destruct (wbody_spec _ _ _ _ _ _ _ _ _ W) as (BE & Hh & SS & RO).
  destruct Ho as (Ho1 & Ho2 & Hat). rewrite Hat in H.
  rewrite node_emit_spec in H; [|exact Ha|exact (proj1 Hn)]. cbn [bind fst snd] in H.
  apply (f_equal (fun x => match x with Ok y => y | _ => mkReaction n [] [] [] [] end)) in H. cbv iota in H. subst r.
  cbn [r_node r_anns r_answer r_calls].
  assert (Pr : profile (n_with_objs (put_obj (eoj_code (f_deoj f)) o1 (n_objs n)) n) = None <-> profile n = None).
  { eapply profile_put; [exact G|]. rewrite (same_shape_code _ _ SS). exact Hc. }
  set (ns := map (fun p => (p_code p, p_data p)) anns) in *.
  assert (Ns : Forall (fun p => len (p_data p) <= 255) anns).
  { assert (X : Forall (fun e => len (snd e) <= 255) ns).
    { unfold body_effect in BE. cbn [body_ok] in Hbd. destruct (f_body f) as [ps|s g]; cbn [body_ok] in Hbd.
      - destruct BE as (segs & BE). cbv zeta in BE. destruct BE as (_ & _ & _ & _ & _ & BE). rewrite BE.
        destruct (write_esv (f_esv f)); [|constructor]. apply Forall_forall. intros e I. apply notices_in in I.
        destruct Hbd as [_ [Hbd _]]. rewrite Forall_forall in Hbd. apply Hbd in I. unfold len. destruct I as (_ & _ & I). lia.
      - destruct BE as (segs & segs2 & BE). cbv zeta in BE. destruct BE as (_ & _ & _ & _ & _ & _ & BE). rewrite BE.
        apply Forall_forall. intros e I. apply notices_in in I.
        destruct Hbd as (_ & [Hbd _] & _). rewrite Forall_forall in Hbd. apply Hbd in I. unfold len. destruct I as (_ & _ & I). lia. }
    unfold ns in X. rewrite Forall_map in X. exact X. }
  exists o1, ns, b, all. split; [exact BE|]. split; [exact Hh|]. split; [exact SS|].
  split.
  { unfold uecho_node_getobjectbycode in *. cbn [n_with_objs n_objs n_with_tid].
    rewrite put_obj_get by (rewrite (same_shape_code _ _ SS); exact Hc). rewrite Z.eqb_refl, G. reflexivity. }
  split.
  { intros c Nc. unfold uecho_node_getobjectbycode in *. cbn [n_with_objs n_objs n_with_tid].
    rewrite put_obj_get by (rewrite (same_shape_code _ _ SS); exact Hc).
    destruct (Z.eqb_spec c (eoj_code (f_deoj f))); [contradiction|reflexivity]. }
  assert (Ln : length ns = length anns) by (unfold ns; apply map_length).
  split; [unfold n_with_tid, n_with_objs; cbn [n_tid n_classes n_objs n_addr n_listener]; f_equal; f_equal; symmetry; exact Ln|].
  split.
  { rewrite (infs_notes le anns _ Ns). fold ns. destruct (profile n) eqn:P1, (profile (n_with_objs _ _)) eqn:P2; try reflexivity.
    - destruct Pr as [Pr _]. discriminate (Pr eq_refl).
    - destruct Pr as [_ Pr]. discriminate (Pr eq_refl). }
  split; [unfold answer_posts; rewrite Hat; destruct (answer_esv (f_esv f) all); reflexivity|].
  intros R. unfold read_only in R. destruct (f_body f) eqn:Eb; [|contradiction]. destruct (RO R) as [-> ->].
  cbn [length]. split.
  - unfold tid_iter, Nat.iter. cbn [nat_rect]. rewrite put_obj_same by exact G. destruct n; reflexivity.
  - cbn [infs]. destruct (profile _); reflexivity.
Qed.

(* anything else *)
Lemma receive_ignored : forall n data la ra, ninv n -> mem_ok n -> buffer data ->
  (forall f rest, dec_frame data = Some (f, rest) ->
     ~ request_esv (f_esv f) \/ uecho_node_getobjectbycode n (eoj_code (f_deoj f)) = None) ->
  exists told, node_receive le net dec n data la ra = Ok (mkReaction n [] [] [] told).
Proof.
  intros n data la ra Hn Hm Hb H. rewrite node_receive_spec by (assumption || apply fine_objs; assumption).
  destruct (dec_frame data) as [[f rest]|]; [|eauto]. unfold receive_frame.
  destruct (uecho_node_getobjectbycode n (eoj_code (f_deoj f))) eqn:G; [|eauto].
  destruct (H f rest eq_refl) as [Q|Q]; [|congruence]. rewrite <- request_isrequest in Q.
  destruct (uecho_esv_isrequest (f_esv f)); [congruence|]. cbn [negb]. eauto.
Qed.

(* no undefined behaviour without a NULL handler *)
Lemma notify_total : forall o q esv mp obs acc calls, Forall (fun b => ob_handler b <> None) obs ->
  exists x, notify_loop dec obs o q esv mp acc calls = Ok x.
Proof.
  intros o q esv mp. induction obs as [|b obs IH]; intros acc calls H; cbn [notify_loop]; [eauto|].
  inversion H as [|? ? Hb Hr]; subst.
  destruct (negb (esv =? ob_esv b)); [apply IH; assumption|].
  destruct (negb (p_code mp =? ob_code b)); [apply IH; assumption|].
  destruct (ob_handler b); [|contradiction]. cbv zeta. apply IH. assumption.
Qed.

Lemma work_total : forall esv ps o calls, Forall (fun b => ob_handler b <> None) (o_obs o) ->
  exists x, work dec esv ps o calls = Ok x.
Proof.
  intros esv. induction ps as [|e ps IH]; intros o calls H; cbn [work]; [eauto|].
  assert (X : exists x, work1 dec esv e o calls = Ok x).
  { unfold work1. destruct (find (o_props o) (fst e)); [|eauto]. unfold uecho_object_notifyrequestproperty.
    edestruct (notify_total) as ([ok cs] & E); [exact H|]. rewrite E. cbn [bind]. destruct (fst (ok, cs)); eauto. }
  destruct X as ([[[[o2 a2] c2] d] ok] & X). rewrite X. cbn [bind].
  assert (S : o_obs o2 = o_obs o).
  { assert (W : work dec esv [e] o calls = Ok (o2, a2 ++ [], c2, [((fst e, d), ok)])) by (cbn [work]; rewrite X; reflexivity).
    apply work_shape in W. destruct W as ((_ & _ & _ & _ & S & _) & _). exact S. }
  destruct (IH o2 c2) as ([[[o3 a3] c3] rs] & E); [rewrite S; exact H|]. rewrite E. cbn [bind]. eauto.
Qed.

Definition handlers_set (n : node) : Prop := Forall (fun o => Forall (fun b => ob_handler b <> None) (o_obs o)) (n_objs n).

Lemma receive_total : forall n data la ra, ninv n -> mem_ok n -> buffer data -> handlers_set n ->
  exists r, node_receive le net dec n data la ra = Ok r.
Proof.
  intros n data la ra Hn Hm Hb Hh. rewrite node_receive_spec by (assumption || apply fine_objs; assumption).
  destruct (dec_frame data) as [[f rest]|] eqn:Ed; [|eauto]. unfold receive_frame.
  apply dec_frame_iff in Ed; [|exact (proj1 Hb)]. destruct Ed as [Hf _].
  destruct (uecho_node_getobjectbycode n (eoj_code (f_deoj f))) as [o|] eqn:G; [|eauto].
  destruct (negb (uecho_esv_isrequest (f_esv f))); [eauto|].
  assert (Ho : Forall (fun b => ob_handler b <> None) (o_obs o)).
  { apply getbycode_in in G. unfold handlers_set in Hh. rewrite Forall_forall in Hh. apply Hh. tauto. }
  assert (W : exists w, wbody dec (f_esv f) o (f_body f) = Ok w).
  { unfold wbody. destruct (f_body f) as [ps|s g].
    - destruct (work_total (f_esv f) ps o [] Ho) as ([[[o1 a1] c1] rs] & E). rewrite E. cbn [bind]. eauto.
    - destruct (work_total 97 s o [] Ho) as ([[[o1 a1] c1] rs] & E). rewrite E. cbn [bind].
      assert (S : o_obs o1 = o_obs o) by (apply work_shape in E; destruct E as ((_ & _ & _ & _ & S & _) & _); exact S).
      destruct (work_total 98 g o1 c1) as ([[[o2 a2] c2] rs2] & E2); [rewrite S; exact Ho|]. rewrite E2. cbn [bind]. eauto. }
  destruct W as ([[[[o1 anns] calls] b] all] & W). rewrite W. cbn [bind].
  destruct (ninv_get _ _ _ Hn G) as [Hoi Hc].
  destruct (wbody_ok _ _ _ _ _ _ _ _ _ (proj1 Hoi) (proj2 (proj2 (proj2 (proj2 (proj2 Hf))))) W) as (He & Ha & Sh).
  rewrite node_emit_spec; [cbn [bind]; eauto| |exact (proj1 Hn)]. destruct (o_attached o); [assumption|constructor].
Qed.
End Law.

(* ---- the pairs of an answer ---- *)

Lemma combine_len_in : forall {A B} (l : list A) (k : list B) x, In x (combine l k) -> In (fst x) l.
Proof. intros A B l k [a b] I. apply in_combine_l in I. exact I. Qed.

Lemma answer_all_ok : forall esv m ps vs, Forall epair_ok ps ->
  (read_esv esv = true -> forall e d, In e ps -> m (fst e) = Some d -> bytes_ok d /\ len d <= 255) ->
  Forall epair_ok (answer_all esv m ps vs).
Proof.
  intros esv m ps vs Hp Hm. apply Forall_forall. intros e I. unfold answer_all in I. apply in_map_iff in I.
  destruct I as (x & <- & I). apply combine_len_in in I. pose proof Hp as Hp'. rewrite Forall_forall in Hp'. specialize (Hp' _ I).
  destruct Hp' as (C & D & L). unfold answer_pair, epair_ok. cbn [fst snd].
  assert (N : Forall byte_val [] /\ (length (@nil Z) <= 255)%nat) by (split; [constructor|cbn; lia]).
  split; [exact C|]. destruct (snd x).
  - destruct (read_esv esv) eqn:R; [|exact N]. destruct (m (fst (fst x))) as [d|] eqn:E; [|exact N].
    destruct (Hm eq_refl _ _ I E) as [B1 B2]. split; [|unfold len in B2; lia].
    eapply Forall_impl; [|exact B1]. intros z. apply is_byte_val.
  - destruct (esv =? 97); [split; assumption|exact N].
Qed.

Lemma answer_all_len : forall esv m ps vs, length vs = length ps -> length (answer_all esv m ps vs) = length ps.
Proof. intros. unfold answer_all. rewrite map_length, combine_length, H. lia. Qed.

Lemma answer_all_codes : forall esv m ps vs, length vs = length ps -> map fst (answer_all esv m ps vs) = map fst ps.
Proof.
  intros esv m. unfold answer_all. induction ps as [|e ps IH]; intros [|v vs] H; try discriminate; [reflexivity|].
  cbn [combine map fst answer_pair]. rewrite IH by (cbn in H; lia). reflexivity.
Qed.

Lemma verdicts_len : forall o esv ps segs, Forall2 (consulted o esv) ps segs -> length (verdicts o ps segs) = length ps.
Proof.
  intros o esv ps segs F. unfold verdicts. rewrite map_length, combine_length. apply Forall2_len in F. lia.
Qed.

Lemma Forall_concat_iff : forall {A} (P : A -> Prop) (ls : list (list A)), Forall P (concat ls) <-> Forall (Forall P) ls.
Proof.
  intros A P. induction ls as [|l ls IH]; cbn [concat]; [split; constructor|]. rewrite Forall_app, IH.
  split; [intros []; constructor; auto|intros H; inversion H; auto].
Qed.

(* all accepted *)
Lemma verdicts_all : forall o esv ps segs, Forall2 (consulted o esv) ps segs ->
  (verdicts o ps segs = map (fun _ => true) ps <->
   Forall (fun e => odata o (fst e) <> None) ps /\ Forall (fun x => snd x = true) (concat segs)).
Proof.
  intros o esv ps segs F. induction F as [|e seg ps segs H F IH]; [cbn; split; [split; constructor|reflexivity]|].
  unfold verdicts in *. cbn [combine map fst snd concat].
  assert (X : verdict o e seg = true <-> odata o (fst e) <> None /\ Forall (fun x => snd x = true) seg).
  { unfold verdict, odata. unfold consulted in H. destruct (uecho_object_getproperty o (fst e)); cbn [option_map].
    - rewrite forallb_forall, Forall_forall. split; [intros; split; [discriminate|assumption]|tauto].
    - split; [discriminate|intros [? _]; congruence]. }
  rewrite Forall_app. split.
  - intros E. injection E as E1 E2. apply X in E1. apply IH in E2. destruct E1, E2. split; [constructor; assumption|auto].
  - intros [E1 [E2 E3]]. inversion E1; subst. f_equal; [apply X; auto|apply IH; auto].
Qed.

Lemma one_all : forall (ps : list epair), one (map (fun _ => true) ps) = match ps with [] => 0 | _ => 1 end.
Proof. intros [|]; reflexivity. Qed.
Lemma one_range : forall vs, 0 <= one vs <= 1.
Proof. intros. unfold one. destruct (existsb _ vs); lia. Qed.
Lemma one_le : forall vs, one vs <= len vs.
Proof. intros [|v vs]; [cbn; lia|]. pose proof (one_range (v :: vs)). rewrite len_cons. pose proof (len_nonneg _ vs). lia. Qed.
Lemma one_lt : forall vs, In false vs -> one vs < len vs.
Proof.
  intros [|v vs] H; [contradiction|]. pose proof (one_range (v :: vs)). rewrite len_cons. destruct vs as [|w vs].
  - destruct H as [->|[]]. reflexivity.
  - rewrite len_cons. pose proof (len_nonneg _ vs). lia.
Qed.

Lemma not_all_false : forall (A : Type) (ps : list A) vs, length vs = length ps -> vs <> map (fun _ => true) ps -> In false vs.
Proof.
  intros A. induction ps as [|e ps IH]; intros [|v vs] L N; try discriminate; [contradiction|].
  destruct v; [right; apply IH; [cbn in L; lia|]; intros E; apply N; cbn [map]; rewrite E; reflexivity|left; reflexivity].
Qed.

Lemma write_all_other : forall ps vs m c, ~ In c (map fst ps) -> write_all m ps vs c = m c.
Proof.
  induction ps as [|e ps IH]; intros [|v vs] m c H; cbn [write_all]; try reflexivity.
  cbn [map In] in H. rewrite IH by tauto. destruct v; [|reflexivity]. unfold dset. destruct (Z.eqb_spec c (fst e)); [|reflexivity]. subst. tauto.
Qed.

Lemma write_all_true : forall ps m c,
  write_all m ps (map (fun _ => true) ps) c = match last_data ps c with Some d => Some d | None => m c end.
Proof.
  induction ps as [|e ps IH]; intros m c; cbn [write_all map last_data]; [reflexivity|]. rewrite IH.
  destruct (last_data ps c); [reflexivity|]. unfold dset. rewrite (Z.eqb_sym c). destruct (fst e =? c); reflexivity.
Qed.

Lemma write_all_rejected : forall ps vs m c,
  Forall (fun x => fst (fst x) = c -> snd x = false) (combine ps vs) -> write_all m ps vs c = m c.
Proof.
  induction ps as [|e ps IH]; intros [|v vs] m c H; cbn [write_all]; try reflexivity.
  cbn [combine] in H. inversion H as [|? ? H1 H2]; subst. rewrite IH by exact H2. cbn [fst snd] in H1.
  destruct v; [|reflexivity]. unfold dset. destruct (Z.eqb_spec c (fst e)); [|reflexivity]. subst. discriminate (H1 eq_refl).
Qed.
