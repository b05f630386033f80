(* What the request listener computes: the response properties, the stores and the handler
   calls, as a function of the frame received. *)
From Coq Require Import String ZArith List Bool Lia ZifyBool ZifyNat.
From Verif Require Import CSem M_Const M_Misc M_Property M_Message M_PropertyList M_Object M_Node M_NodeListener
  Spec_Frame Spec_Message Spec_Object Spec_Node Run_Object P_Base P_Misc P_Message P_Encode P_MsgApi P_PropertyList
  P_Object P_ObjectRun P_ObjectReach P_Node.
Import ListNotations.
Open Scope Z_scope.
Ltac Zify.zify_post_hook ::= Z.div_mod_to_equations.

(* property array of a message built by additions *)
Definition pvl (l : list prop) : pvec := mkPvec (len l) (match l with [] => None | _ => Some l end).

Lemma stored_pvl : forall l, stored (pvl l) = l.
Proof. intros [|p l]; reflexivity. Qed.

Lemma pvl_ok : forall l, Forall prop_ok l -> len l <= 255 -> pv_ok (pvl l).
Proof.
  intros l H Hl. unfold pv_ok, pvl. cbn [pv_opc pv_ep]. pose proof (len_nonneg _ l). split; [lia|].
  destruct l as [|p l]; [reflexivity|]. split; [reflexivity|]. split; [discriminate|exact H].
Qed.

Lemma pvl_add : forall l p, Forall prop_ok l -> prop_ok p -> len l < 255 ->
  uecho_property_add (pvl l) p = Ok (pvl (l ++ [p])).
Proof.
  intros l p H Hp Hl. destruct (property_add_ok (pvl l) p (pvl_ok l H ltac:(lia)) Hp) as [A _]; [exact Hl|].
  rewrite A, stored_pvl. unfold pvl. cbn [pv_opc]. rewrite len_app, len_cons, len_nil.
  destruct (l ++ [p]) eqn:E; [destruct l; discriminate|]. do 2 f_equal; try lia.
Qed.

Lemma pvl_new : pv_empty = pvl [].
Proof. reflexivity. Qed.

(* the three ways of adding a response property *)
Inductive slot : Type := SlotP | SlotSet | SlotGet.
Definition slot_add (s : slot) : prop -> msg -> res msg :=
  match s with
  | SlotP => uecho_message_addproperty
  | SlotSet => uecho_message_addpropertyset
  | SlotGet => uecho_message_addpropertyget
  end.
Definition slot_get (s : slot) (m : msg) : pvec :=
  match s with SlotP => m_p m | SlotSet => m_pset m | SlotGet => m_pget m end.
Definition slot_put (s : slot) (v : pvec) (m : msg) : msg :=
  match s with SlotP => with_p v m | SlotSet => with_pset v m | SlotGet => with_pget v m end.

Lemma slot_add_eq : forall s p m, slot_add s p m = do v <- uecho_property_add (slot_get s m) p ;; Ok (slot_put s v m).
Proof. intros [] p m; reflexivity. Qed.
Lemma slot_get_put : forall s v m, slot_get s (slot_put s v m) = v.
Proof. intros [] v m; reflexivity. Qed.
Lemma slot_put_put : forall s v w m, slot_put s v (slot_put s w m) = slot_put s v m.
Proof. intros [] v w m; reflexivity. Qed.
Lemma slot_put_get : forall s m, slot_put s (slot_get s m) m = m.
Proof. intros [] m; destruct m; reflexivity. Qed.

Section W.
Variable dec : list (hcall * bool) -> hcall -> bool.

(* response property with code [c] and data [d] *)
Definition rprop (c : Z) (d : list Z) : prop := put_data d (uecho_property_setcode c uecho_property_new).

Definition is_write (esv : Z) : bool := (esv =? 96) || (esv =? 97).
Definition is_read (esv : Z) : bool := (esv =? 98) || (esv =? 99) || (esv =? 116).

(* one request property: object, announcements, calls, response data, accepted *)
Definition work1 (esv : Z) (e : epair) (o : obj) (calls : list (hcall * bool))
  : res (obj * list prop * list (hcall * bool) * list Z * bool) :=
  let echo := if esv =? 97 then snd e else [] in
  match find (o_props o) (fst e) with
  | None => Ok (o, [], calls, echo, false)
  | Some q =>
      do v <- uecho_object_notifyrequestproperty dec o q esv (msgprop e) calls ;;
      if fst v then
        Ok (if is_write esv then o_with_props (put (o_props o) (fst e) (put_data (snd e))) o else o,
            if is_write esv then announced q (snd e) else [],
            snd v,
            if is_read esv then p_data q else [],
            true)
      else Ok (o, [], snd v, echo, false)
  end.

Definition wres : Type := (obj * list prop * list (hcall * bool) * list (epair * bool))%type.

Fixpoint work (esv : Z) (ps : list epair) (o : obj) (calls : list (hcall * bool)) : res wres :=
  match ps with
  | [] => Ok (o, [], calls, [])
  | e :: r =>
      do x <- work1 esv e o calls ;;
      let '(o1, a1, c1, d, ok) := x in
      do y <- work esv r o1 c1 ;;
      let '(o2, a2, c2, rs) := y in
      Ok (o2, a1 ++ a2, c2, ((fst e, d), ok) :: rs)
  end.

Lemma setdata_data : forall o c d q, find (o_props o) c = Some q ->
  object_property_setdata o c d = (o_with_props (put (o_props o) c (put_data d)) o, announced q d).
Proof.
  intros o c d q H. unfold object_property_setdata, uecho_object_getproperty. rewrite H, setdata_eq.
  f_equal. f_equal. rewrite <- upd_put. unfold got. rewrite H. reflexivity.
Qed.

Lemma handle_one_work : forall s esv e h,
  handle_one dec (slot_add s) esv (msgprop e) h
  = do x <- work1 esv e (h_obj h) (h_calls h) ;;
    let '(o1, a1, c1, d, ok) := x in
    do m <- slot_add s (rprop (fst e) d) (h_msg h) ;;
    Ok (mkHs o1 (h_anns h ++ a1) c1 m (h_cnt h + if ok then 1 else 0)).
Proof.
  intros s esv e h. unfold handle_one, work1. cbn [msgprop p_code p_data].
  unfold uecho_object_getproperty, ESV_SetC, ESV_SetI, ESV_Get, ESV_INF_REQ, ESV_INFC.
  fold (is_write esv) (is_read esv).
  assert (X : (if esv =? 97 then fst (uecho_property_setdata (snd e) (uecho_property_setcode (fst e) uecho_property_new))
               else uecho_property_setcode (fst e) uecho_property_new)
            = rprop (fst e) (if esv =? 97 then snd e else [])).
  { destruct (esv =? 97); [rewrite setdata_eq; reflexivity|reflexivity]. }
  rewrite X. clear X.
  destruct (find (o_props (h_obj h)) (fst e)) as [q|] eqn:E.
  - destruct (uecho_object_notifyrequestproperty dec (h_obj h) q esv (msgprop e) (h_calls h)) as [[ok calls]|]; [|reflexivity].
    cbn [bind fst snd]. destruct ok; cbn [bind].
    + rewrite (setdata_data _ _ _ _ E).
      assert (Y : (if is_read esv then fst (uecho_property_setdata (p_data q) (uecho_property_setcode (fst e) uecho_property_new))
               else uecho_property_setcode (fst e) uecho_property_new)
            = rprop (fst e) (if is_read esv then p_data q else [])).
      { destruct (is_read esv); [rewrite setdata_eq; reflexivity|reflexivity]. }
      rewrite Y. destruct (is_write esv); reflexivity.
    + destruct (slot_add s _ (h_msg h)); cbn [bind]; [|reflexivity]. rewrite app_nil_r, Z.add_0_r. reflexivity.
  - cbn [bind]. destruct (slot_add s _ (h_msg h)); cbn [bind]; [|reflexivity]. rewrite app_nil_r, Z.add_0_r. reflexivity.
Qed.

Definition count_ok (rs : list (epair * bool)) : Z := len (filter snd rs).
Definition rprops (rs : list (epair * bool)) : list prop := map (fun x => rprop (fst (fst x)) (snd (fst x))) rs.


(* object and response of one turn *)
Lemma work1_inv : forall esv e o calls o1 a1 c1 d ok, inv o -> epair_ok e ->
  work1 esv e o calls = Ok (o1, a1, c1, d, ok) -> inv o1 /\ bytes_ok d.
Proof.
  intros esv e o calls o1 a1 c1 d ok Hi (Hc & Hd & _) H. unfold work1 in H.
  assert (Hd' : bytes_ok (snd e)) by (eapply Forall_impl; [|exact Hd]; intros; apply is_byte_val; assumption).
  assert (He : bytes_ok (if esv =? 97 then snd e else [])) by (destruct (esv =? 97); [assumption|constructor]).
  destruct (find (o_props o) (fst e)) as [q|] eqn:E.
  - apply bind_ok in H. destruct H as ([ok' cs] & N & H). cbn [fst snd] in H. destruct ok'.
    + injection H as <- <- <- <- <-. split.
      * destruct (is_write esv); [|assumption]. apply put_inv; auto. apply is_byte_val; assumption.
      * destruct (is_read esv); [|constructor]. destruct Hi as [_ Hp]. apply find_code in E. eapply plist_ok_in; [exact Hp|tauto].
    + injection H as <- <- <- <- <-. auto.
  - injection H as <- <- <- <- <-. auto.
Qed.

Lemma rprop_ok : forall c d, is_byte c -> bytes_ok d -> prop_ok (rprop c d).
Proof.
  intros c d Hc Hd. split; [|split; [exact Hd|reflexivity]]. unfold rprop.
  cbn [put_data p_code uecho_property_setcode]. exact Hc.
Qed.

Lemma handle_loop_work : forall s esv ps h l0, inv (h_obj h) -> Forall epair_ok ps ->
  slot_get s (h_msg h) = pvl l0 -> Forall prop_ok l0 -> len l0 + len ps <= 255 ->
  handle_loop dec (slot_add s) esv (map msgprop ps) h
  = do x <- work esv ps (h_obj h) (h_calls h) ;;
    let '(o1, a1, c1, rs) := x in
    Ok (mkHs o1 (h_anns h ++ a1) c1 (slot_put s (pvl (l0 ++ rprops rs)) (h_msg h)) (h_cnt h + count_ok rs)).
Proof.
  intros s esv. induction ps as [|e ps IH]; intros h l0 Hi Hp Hs Hl Hn; cbn [map handle_loop work].
  - cbn [bind rprops map]. unfold count_ok. cbn [filter]. rewrite len_nil, !app_nil_r, Z.add_0_r, <- Hs, slot_put_get.
    destruct h; reflexivity.
  - inversion Hp as [|? ? He Hr]; subst. rewrite len_cons in Hn. pose proof (len_nonneg _ ps).
    rewrite handle_one_work. destruct (work1 esv e (h_obj h) (h_calls h)) as [[[[[o1 a1] c1] d] ok]|] eqn:W; [|reflexivity].
    cbn [bind]. destruct (work1_inv _ _ _ _ _ _ _ _ _ Hi He W) as [Hi1 Hd].
    assert (Hq : prop_ok (rprop (fst e) d)) by (apply rprop_ok; [apply is_byte_val; apply He|exact Hd]).
    rewrite slot_add_eq, Hs, pvl_add by (try assumption; lia). cbn [bind].
    rewrite (IH _ (l0 ++ [rprop (fst e) d])); cbn [h_obj h_msg h_calls h_anns h_cnt];
      [| assumption | assumption | apply slot_get_put | apply Forall_app; auto
       | rewrite len_app, len_cons, len_nil; lia].
    destruct (work esv ps o1 c1) as [[[[o2 a2] c2] rs]|]; [|reflexivity]. cbn [bind].
    rewrite slot_put_put. unfold rprops, count_ok. cbn [map fst snd filter]. rewrite <- !app_assoc. cbn [app].
    destruct ok; cbn [len]; do 2 f_equal; try (unfold len; cbn [length]; lia).
Qed.

(* data in memory *)
Definition omem (o : obj) : Prop := Forall (fun p => len (p_data p) <= DATA_MAX) (o_props o).

Lemma put_omem : forall o c d, omem o -> len d <= DATA_MAX -> omem (o_with_props (put (o_props o) c (put_data d)) o).
Proof.
  intros o c d H Hd. unfold omem in *. rewrite obj_props_with. unfold put.
  assert (G : forall l, Forall (fun p => len (p_data p) <= DATA_MAX) l ->
     Forall (fun p => len (p_data p) <= DATA_MAX) (update_first c (put_data d) l)).
  { induction l as [|x l IH]; intros G; cbn [update_first]; [constructor|]. inversion G; subst.
    destruct (p_code x =? c); constructor; auto. }
  apply G. destruct (find (o_props o) c); [assumption|]. apply Forall_app. split; [assumption|].
  constructor; [|constructor]. cbn. unfold DATA_MAX. lia.
Qed.

Definition ep_mem (x : epair * bool) : Prop :=
  is_byte (fst (fst x)) /\ bytes_ok (snd (fst x)) /\ len (snd (fst x)) <= DATA_MAX.

Lemma work1_mem : forall esv e o calls o1 a1 c1 d ok, omem o -> epair_ok e ->
  work1 esv e o calls = Ok (o1, a1, c1, d, ok) -> omem o1 /\ len d <= DATA_MAX.
Proof.
  intros esv e o calls o1 a1 c1 d ok Hi (Hc & Hd & Hl) H. unfold work1 in H.
  assert (Hl' : len (snd e) <= DATA_MAX) by (unfold len, DATA_MAX; lia).
  assert (Hz : len (@nil Z) <= DATA_MAX) by (unfold DATA_MAX; cbn; lia).
  assert (He : len (if esv =? 97 then snd e else []) <= DATA_MAX) by (destruct (esv =? 97); assumption).
  destruct (find (o_props o) (fst e)) as [q|] eqn:E.
  - apply bind_ok in H. destruct H as ([ok' cs] & N & H). cbn [fst snd] in H. destruct ok'.
    + injection H as <- <- <- <- <-. split.
      * destruct (is_write esv); [|assumption]. apply put_omem; assumption.
      * destruct (is_read esv); [|assumption]. apply find_code in E. destruct E as [_ E].
        unfold omem in Hi. rewrite Forall_forall in Hi. apply Hi. assumption.
    + injection H as <- <- <- <- <-. auto.
  - injection H as <- <- <- <- <-. auto.
Qed.

Definition same_eoj (o o' : obj) : Prop :=
  o_grp o' = o_grp o /\ o_cls o' = o_cls o /\ o_ins o' = o_ins o /\ o_attached o' = o_attached o
  /\ o_obs o' = o_obs o /\ o_listener o' = o_listener o /\ o_getsz o' = o_getsz o.

Lemma same_eoj_refl : forall o, same_eoj o o.
Proof. intros. unfold same_eoj. auto 7. Qed.
Lemma same_eoj_trans : forall a b c, same_eoj a b -> same_eoj b c -> same_eoj a c.
Proof. intros a b c (A1 & A2 & A3 & A4 & A5 & A6 & A7) (B1 & B2 & B3 & B4 & B5 & B6 & B7). unfold same_eoj. repeat split; congruence. Qed.

Lemma work1_shape : forall esv e o calls o1 a1 c1 d ok,
  work1 esv e o calls = Ok (o1, a1, c1, d, ok) -> same_eoj o o1.
Proof.
  intros esv e o calls o1 a1 c1 d ok H. unfold work1 in H.
  destruct (find (o_props o) (fst e)) as [q|] eqn:E.
  - apply bind_ok in H. destruct H as ([ok' cs] & N & H). cbn [fst snd] in H. destruct ok';
      injection H as <- <- <- <- <-; [destruct (is_write esv)|]; repeat split.
  - injection H as <- <- <- <- <-. apply same_eoj_refl.
Qed.

Lemma work_shape : forall esv ps o calls o1 a1 c1 rs,
  work esv ps o calls = Ok (o1, a1, c1, rs) -> same_eoj o o1 /\ length rs = length ps
  /\ map (fun x => fst (fst x)) rs = map fst ps.
Proof.
  intros esv. induction ps as [|e ps IH]; intros o calls o1 a1 c1 rs H; cbn [work] in H.
  - injection H as <- <- <- <-. split; [apply same_eoj_refl|auto].
  - apply bind_ok in H. destruct H as ([[[[o2 a2] c2] d] ok] & W & H).
    apply bind_ok in H. destruct H as ([[[o3 a3] c3] rs'] & W2 & H). injection H as <- <- <- <-.
    apply work1_shape in W. apply IH in W2. destruct W2 as (S & L & C).
    split; [eapply same_eoj_trans; eassumption|]. cbn [length map fst]. split; [lia|]. rewrite C. reflexivity.
Qed.

Lemma work_inv : forall esv ps o calls o1 a1 c1 rs, inv o -> omem o -> Forall epair_ok ps ->
  work esv ps o calls = Ok (o1, a1, c1, rs) -> inv o1 /\ omem o1 /\ Forall ep_mem rs.
Proof.
  intros esv. induction ps as [|e ps IH]; intros o calls o1 a1 c1 rs Hi Hm Hp H; cbn [work] in H.
  - injection H as <- <- <- <-. auto.
  - inversion Hp as [|? ? He Hr]; subst.
    apply bind_ok in H. destruct H as ([[[[o2 a2] c2] d] ok] & W & H).
    apply bind_ok in H. destruct H as ([[[o3 a3] c3] rs'] & W2 & H). injection H as <- <- <- <-.
    destruct (work1_inv _ _ _ _ _ _ _ _ _ Hi He W) as [Hi1 Hd].
    destruct (work1_mem _ _ _ _ _ _ _ _ _ Hm He W) as [Hm1 Hl].
    destruct (IH _ _ _ _ _ _ Hi1 Hm1 Hr W2) as (A & B & C). split; [assumption|]. split; [assumption|].
    constructor; [|assumption]. unfold ep_mem. cbn [fst snd].
    split; [apply is_byte_val; apply He|]. split; assumption.
Qed.

(* ---- the whole request ---- *)

Definition b2z (c : Z) : Z := if c =? 0 then 0 else 1.

(* object, announcements, handler calls, response properties, accepted by the listener *)
Definition wbody (esv : Z) (o : obj) (b : body) : res (obj * list prop * list (hcall * bool) * body * bool) :=
  match b with
  | Plain ps =>
      do x <- work esv ps o [] ;;
      let '(o1, a1, c1, rs) := x in
      Ok (o1, a1, c1, Plain (map fst rs), b2z (count_ok rs) =? len ps)
  | SetGetBody s g =>
      do x <- work 97 s o [] ;;
      let '(o1, a1, c1, rs1) := x in
      do y <- work 98 g o1 c1 ;;
      let '(o2, a2, c2, rs2) := y in
      Ok (o2, a1 ++ a2, c2, SetGetBody (map fst rs1) (map fst rs2),
          b2z (count_ok rs1) + b2z (count_ok rs2) =? len s + len g)
  end.

Definition e3l (e : Z * Z * Z) : list Z := let '(a, b, c) := e in [a; b; c].

(* the message of a response frame *)
Definition rmsg (f : frame) : msg :=
  let l ps := map (fun e => rprop (fst e) (snd e)) ps in
  match f_body f with
  | Plain ps => mkMsg 16 129 (f_tid f) (e3l (f_seoj f)) (e3l (f_deoj f)) (f_esv f) (pvl (l ps)) pv_empty pv_empty None None
  | SetGetBody s g =>
      mkMsg 16 129 (f_tid f) (e3l (f_seoj f)) (e3l (f_deoj f)) (f_esv f) pv_empty (pvl (l s)) (pvl (l g)) None None
  end.

Definition reply (f : frame) (esv : Z) (b : body) : frame := mkFrame (f_tid f) (f_deoj f) (f_seoj f) esv b.

Lemma rprops_map : forall rs, rprops rs = map (fun e => rprop (fst e) (snd e)) (map fst rs).
Proof. intros. unfold rprops. rewrite map_map. reflexivity. Qed.

Lemma rprops_ok : forall rs, Forall ep_mem rs -> Forall prop_ok (rprops rs).
Proof.
  intros rs H. apply Forall_forall. intros p Ip. apply in_map_iff in Ip. destruct Ip as (x & <- & Ix).
  rewrite Forall_forall in H. apply H in Ix. destruct Ix as (A & B & _). apply rprop_ok; assumption.
Qed.

Lemma len_wire_props_mem : forall rs, Forall ep_mem rs -> len (wire_props (rprops rs)) <= len rs * (DATA_MAX + 2).
Proof.
  induction rs as [|x rs IH]; intros H; [cbn; lia|]. inversion H as [|? ? (_ & _ & Hx) Hr]; subst.
  specialize (IH Hr). change (rprops (x :: rs)) with (rprop (fst (fst x)) (snd (fst x)) :: rprops rs).
  rewrite wire_props_cons, len_app, len_wire_prop, len_cons. cbn [rprop put_data p_data].
  remember (len (wire_props (rprops rs))) as w. remember (len rs) as k. remember (len (snd (fst x))) as y.
  unfold DATA_MAX in *. lia.
Qed.
End W.

Section L.
Variable le : bool.
Variable net : post -> bool.
Variable dec : list (hcall * bool) -> hcall -> bool.

(* where the response goes; [b] are the bytes of the response *)
Definition reply_posts (esv : Z) (from : option string) (b : list Z) : list post :=
  if esv =? 115 then [PAnnounce b]
  else match from with Some a => [PSend a b] | None => [] end.

Lemma e3l_eoj3 : forall e, eoj_ok e -> eoj3 (e3l e).
Proof.
  intros [[a b] c] (A & B & C). exists a, b, c. rewrite <- is_byte_val in A, B, C. cbn [e3l].
  split; [reflexivity|]. split; [exact A|split; [exact B|exact C]].
Qed.

Lemma rmsg_ok : forall f rs esv, frame_ok f -> is_byte esv -> Forall ep_mem rs -> len rs <= 255 ->
  let m := rmsg (reply f esv (Plain (map fst rs))) in
  msg_ok m /\ (two_listsb esv = false -> fits m).
Proof.
  intros f rs esv Hf He Hr Hn m. destruct Hf as (T0 & T1 & S & D & _).
  apply e3l_eoj3 in S. apply e3l_eoj3 in D. rewrite <- is_byte_val in T0, T1.
  assert (Hm : msg_ok m).
  { unfold m, rmsg, reply, msg_ok. cbn [f_body f_tid f_seoj f_deoj f_esv m_ehd1 m_ehd2 m_tid m_seoj m_deoj m_esv m_p m_pset m_pget].
    split; [unfold is_byte; lia|]. split; [unfold is_byte; lia|]. split; [exact T0|]. split; [exact T1|].
    split; [exact D|]. split; [exact S|]. split; [exact He|].
    split; [|split; apply pv_empty_ok]. rewrite <- rprops_map. apply pvl_ok; [apply rprops_ok; exact Hr|].
    unfold rprops. rewrite len_map. exact Hn. }
  split; [exact Hm|]. intros Ht. unfold fits, wire_msg.
  apply eoj3_len in S. apply eoj3_len in D.
  unfold m, rmsg, reply. cbn [f_body f_tid f_seoj f_deoj f_esv m_ehd1 m_ehd2 m_tid m_seoj m_deoj m_esv m_p m_pset m_pget].
  rewrite Ht, <- rprops_map. rewrite !len_app, !len_cons, len_nil, S, D. unfold pv_list. rewrite stored_pvl.
  pose proof (len_wire_props_mem _ Hr). unfold PTRDIFF_MAX, DATA_MAX in *. lia.
Qed.

Lemma rmsg2_ok : forall f r1 r2 esv, frame_ok f -> is_byte esv -> Forall ep_mem r1 -> Forall ep_mem r2 ->
  len r1 <= 255 -> len r2 <= 255 ->
  let m := rmsg (reply f esv (SetGetBody (map fst r1) (map fst r2))) in
  msg_ok m /\ fits m.
Proof.
  intros f r1 r2 esv Hf He H1 H2 N1 N2 m. destruct Hf as (T0 & T1 & S & D & _).
  apply e3l_eoj3 in S. apply e3l_eoj3 in D. rewrite <- is_byte_val in T0, T1.
  assert (Hm : msg_ok m).
  { unfold m, rmsg, reply, msg_ok. cbn [f_body f_tid f_seoj f_deoj f_esv m_ehd1 m_ehd2 m_tid m_seoj m_deoj m_esv m_p m_pset m_pget].
    split; [unfold is_byte; lia|]. split; [unfold is_byte; lia|]. split; [exact T0|]. split; [exact T1|].
    split; [exact D|]. split; [exact S|]. split; [exact He|].
    split; [apply pv_empty_ok|]. rewrite <- !rprops_map.
    split; (apply pvl_ok; [apply rprops_ok; assumption|]; unfold rprops; rewrite len_map; assumption). }
  split; [exact Hm|]. unfold fits, wire_msg.
  apply eoj3_len in S. apply eoj3_len in D.
  unfold m, rmsg, reply. cbn [f_body f_tid f_seoj f_deoj f_esv m_ehd1 m_ehd2 m_tid m_seoj m_deoj m_esv m_p m_pset m_pget].
  rewrite <- !rprops_map. rewrite !len_app, !len_cons, len_nil, S, D. unfold pv_list.
  pose proof (len_wire_props_mem _ H1). pose proof (len_wire_props_mem _ H2). unfold PTRDIFF_MAX, DATA_MAX in *.
  destruct (two_listsb esv); [rewrite len_cons, len_app, len_cons|rewrite len_cons]; rewrite ?stored_pvl; [lia|].
  change (wire_props (stored pv_empty)) with (@nil Z). rewrite len_nil. lia.
Qed.

(* the answer the listener sends for a frame *)
Definition answer_posts (f : frame) (from : option string) (o : obj) (b : body) (all : bool) : list post :=
  match answer_esv (f_esv f) all with
  | Some esv => if o_attached o then reply_posts esv from (wire_msg (rmsg (reply f esv b))) else []
  | None => []
  end.

Definition from_of (la ra : option string) : option string :=
  match ra with Some _ => ra | None => la end.

Definition req_of (f : frame) (la ra : option string) : msg :=
  uecho_message_setsourceaddress ra (uecho_message_setsourceaddress la (msg_of_frame uecho_message_new f)).

Lemma req_fields : forall f la ra, let m := req_of f la ra in let m0 := msg_of_frame uecho_message_new f in
  m = with_from (from_of la ra) m0.
Proof. intros f [la|] [ra|]; unfold req_of, from_of; cbn [uecho_message_setsourceaddress];
  unfold msg_of_frame; destruct (f_body f); reflexivity. Qed.

Definition told_of (n : node) (c : Z) : list told :=
  (if n_listener n then [ToldNode] else [])
  ++ match uecho_node_getobjectbycode n c with
     | Some o => if o_listener o then [ToldObject c] else []
     | None => []
     end.

(* what receiving frame [f] does *)
Definition receive_frame (n : node) (f : frame) (from : option string) : res reaction :=
  let c := eoj_code (f_deoj f) in
  match uecho_node_getobjectbycode n c with
  | None => Ok (mkReaction n [] [] [] (told_of n c))
  | Some o =>
      if negb (uecho_esv_isrequest (f_esv f)) then Ok (mkReaction n [] [] [] (told_of n c))
      else
        do w <- wbody dec (f_esv f) o (f_body f) ;;
        let '(o1, anns, calls, b, all) := w in
        do e <- node_emit le net (n_with_objs (put_obj c o1 (n_objs n)) n) (uecho_object_getcode o1)
                  (if o_attached o then anns else []) ;;
        Ok (mkReaction (fst e) (snd e) (answer_posts f from o b all) calls (told_of n c))
  end.

Lemma loop_plain : forall s esv ps h, inv (h_obj h) -> eprops_ok ps -> slot_get s (h_msg h) = pv_empty ->
  uecho_node_handlerequestmessage dec (slot_add s) esv (pv_of ps) h
  = do x <- work dec esv ps (h_obj h) (h_calls h) ;;
    let '(o1, a1, c1, rs) := x in
    Ok (mkHs o1 (h_anns h ++ a1) c1 (slot_put s (pvl (rprops rs)) (h_msg h)) (h_cnt h + b2z (count_ok rs))).
Proof.
  intros s esv ps h Hi [Hp Hl] Hs. unfold uecho_node_handlerequestmessage.
  rewrite pv_items_ok by (apply pv_of_ok; split; assumption). rewrite pv_list_of. cbn [bind].
  rewrite (handle_loop_work dec s esv ps _ []); cbn [h_obj h_msg h_calls h_anns h_cnt];
    [|assumption|assumption|assumption|constructor|unfold len in *; cbn [length]; lia].
  destruct (work dec esv ps (h_obj h) (h_calls h)) as [[[[o1 a1] c1] rs]|]; [|reflexivity].
  cbn [bind h_obj h_msg h_calls h_anns h_cnt app]. reflexivity.
Qed.

Lemma isreq_two : forall esv, uecho_esv_isrequest esv = true -> two_listsb esv = true -> esv = 110.
Proof.
  intros esv. unfold uecho_esv_isrequest, uecho_esv_iswriterequest, uecho_esv_isreadrequest, uecho_esv_isnotifyrequest, two_listsb,
    ESV_SetI, ESV_SetC, ESV_SetGet, ESV_Get, ESV_INF_REQ, ESV_INFC. lia.
Qed.
Lemma body_two : forall esv b, body_ok esv b -> match b with Plain _ => two_listsb esv = false | SetGetBody _ _ => two_listsb esv = true end.
Proof. intros esv [ps|s g] H; cbn [body_ok] in H; unfold two_lists, two_listsb in *; lia. Qed.

Lemma answer_esv_two : forall e all e', answer_esv e all = Some e' ->
  (two_listsb e = false -> two_listsb e' = false) /\ is_byte e'.
Proof.
  intros e all e'. unfold answer_esv, ESV_SetI, ESV_SetC, ESV_SetGet, ESV_Get, ESV_INF_REQ, ESV_INFC.
  repeat (match goal with |- context [if ?b then _ else _] => destruct b eqn:? end);
    intros E; try discriminate; injection E as <-; (split; [reflexivity || (unfold two_listsb in *; lia)|vm_compute; split; congruence]).
Qed.

Lemma send_reply : forall from m, msg_ok m -> fits m ->
  (do b <- uecho_message_getbytes m ;; do s <- uecho_message_size m ;;
   (if uecho_message_getesv m =? ESV_INF then uecho_node_announcemessagebytes net b s
    else uecho_node_sendmessagebytes net from b s))
  = Ok (reply_posts (m_esv m) from (wire_msg m),
        match reply_posts (m_esv m) from (wire_msg m) with [] => false | p :: _ => net p end).
Proof.
  intros from m Hm Hf. rewrite getbytes_spec, size_ok by assumption. cbn [bind].
  unfold uecho_message_getesv, reply_posts, ESV_INF, uecho_node_announcemessagebytes, uecho_node_sendmessagebytes.
  pose proof (wire_pos m). destruct (Z.leb_spec (len (wire_msg m)) 0); [lia|]. rewrite rd_range_all. cbn [bind].
  destruct (m_esv m =? 115); [reflexivity|]. destruct from; reflexivity.
Qed.

Lemma receive_spec : forall n f la ra, frame_ok f ->
  (forall o, uecho_node_getobjectbycode n (eoj_code (f_deoj f)) = Some o -> inv o /\ omem o) ->
  uecho_node_servermessagelistener le net dec n (req_of f la ra) = receive_frame n f (from_of la ra).
Proof.
  intros n f la ra Hf Ho.
  assert (Hq : msg_ok (msg_of_frame uecho_message_new f)).
  { apply msg_of_frame_ok; [|assumption]. apply (api_inv_holds le). constructor. }
  set (req := req_of f la ra). pose proof (req_fields f la ra) as Er. cbv zeta in Er. fold req in Er.
  set (m0 := msg_of_frame uecho_message_new f) in *.
  assert (Q1 : m_deoj req = e3l (f_deoj f)) by (rewrite Er; unfold m0, msg_of_frame; destruct (f_body f); reflexivity).
  assert (Q2 : m_seoj req = e3l (f_seoj f)) by (rewrite Er; unfold m0, msg_of_frame; destruct (f_body f); reflexivity).
  assert (Q3 : m_esv req = f_esv f) by (rewrite Er; unfold m0, msg_of_frame; destruct (f_body f); reflexivity).
  assert (Q4 : m_tid req = f_tid f) by (rewrite Er; unfold m0, msg_of_frame; destruct (f_body f); reflexivity).
  assert (Q5 : m_from req = from_of la ra) by (rewrite Er; reflexivity).
  assert (Q6 : (m_p req, m_pset req, m_pget req) = match f_body f with
            | Plain ps => (pv_of ps, pv_empty, pv_empty) | SetGetBody s g => (pv_empty, pv_of s, pv_of g) end)
    by (rewrite Er; unfold m0, msg_of_frame; destruct (f_body f); reflexivity).
  clearbody req. clear Er Hq m0.
  pose proof Hf as (T0 & T1 & Hs & Hd & He & Hb).
  destruct (getobj_eoj (e3l (f_deoj f)) (e3l_eoj3 _ Hd)) as (d0 & d1 & d2 & D1 & D2).
  assert (D3 : eoj_code (d0, d1, d2) = eoj_code (f_deoj f)).
  { destruct (f_deoj f) as [[x y] z]. cbn [e3l] in D1. injection D1 as -> -> ->. reflexivity. }
  rewrite D3 in D2. clear D1 D3 d0 d1 d2.
  destruct (getobj_eoj (e3l (f_seoj f)) (e3l_eoj3 _ Hs)) as (s0 & s1 & s2 & S1 & S2).
  assert (S3 : eoj_code (s0, s1, s2) = eoj_code (f_seoj f)).
  { destruct (f_seoj f) as [[x y] z]. cbn [e3l] in S1. injection S1 as -> -> ->. reflexivity. }
  rewrite S3 in S2. clear S1 S3 s0 s1 s2.
  destruct (eoj_setget _ (e3l_eoj3 _ Hd)) as (dc & DA & DB). rewrite D2 in DA. injection DA as <-.
  destruct (eoj_setget _ (e3l_eoj3 _ Hs)) as (sc & SA & SB). rewrite S2 in SA. injection SA as <-.
  unfold uecho_node_servermessagelistener, receive_frame, told_of.
  unfold uecho_message_getdestinationobjectcode. rewrite Q1, D2. cbn [bind].
  set (c := eoj_code (f_deoj f)) in *.
  destruct (uecho_node_getobjectbycode n c) as [o|] eqn:Eo; [|rewrite app_nil_r; reflexivity].
  destruct (Ho o eq_refl) as [Hi Hm]. unfold uecho_message_getesv at 1. rewrite Q3.
  destruct (uecho_esv_isrequest (f_esv f)) eqn:Eq; cbn [negb]; [|reflexivity].
  unfold uecho_message_setsourceobjectcode, uecho_message_getsourceobjectcode, uecho_message_setdestinationobjectcode, uEchoEOJSize.
  rewrite Q2, S2, DB. cbn [bind]. rewrite SB. cbn [bind].
  set (m2 := with_deoj (e3l (f_seoj f)) _).
  assert (M2 : m2 = mkMsg 16 129 (f_tid f) (e3l (f_deoj f)) (e3l (f_seoj f)) (m_esv uecho_message_new) pv_empty pv_empty pv_empty None None).
  { unfold m2. 
    assert (T : m_tid (uecho_message_settid le (uecho_message_gettid le req) uecho_message_new) = m_tid req).
    { apply settid_gettid; rewrite Q4; apply is_byte_val; assumption. }
    rewrite settid_fields, T, Q4. reflexivity. }
  clearbody m2.
  unfold uecho_message_isreadwritemessage, uecho_message_getesv, uecho_message_getopc, uecho_message_getopcset, uecho_message_getopcget.
  rewrite Q3. 
  assert (RW : (f_esv f =? ESV_SetGet) || (f_esv f =? ESV_SetGet_Res) || (f_esv f =? ESV_SetGet_SNA) = two_listsb (f_esv f)) by reflexivity.
  rewrite RW. pose proof (body_two _ _ Hb) as B2.
  destruct (f_body f) as [ps|ss gs] eqn:Eb.
  - (* one list *)
    injection Q6 as Q6 Q7 Q8. rewrite Q6, Q7, Q8, B2. cbn [body_ok] in Hb. destruct Hb as [_ Hb].
    change uecho_message_addproperty with (slot_add SlotP).
    rewrite loop_plain; cbn [h_obj h_msg h_calls h_anns h_cnt]; [|assumption|assumption|rewrite M2; reflexivity].
    cbn [wbody]. destruct (work dec (f_esv f) ps o []) as [[[[o1 a1] c1] rs]|] eqn:W; [|reflexivity].
    cbn [bind h_obj h_msg h_calls h_anns h_cnt app].
    destruct (work_shape _ _ _ _ _ _ _ _ _ W) as (Sh & Sl & _).
    destruct (work_inv _ _ _ _ _ _ _ _ _ Hi Hm (proj1 Hb) W) as (Hi1 & Hm1 & Hr).
    destruct (node_emit le net _ _ _) as [[n1 anns]|]; [|reflexivity]. cbn [bind fst snd].
    change (pv_opc (pv_of ps)) with (len ps). change (pv_opc pv_empty) with 0.
    rewrite Z.add_0_l, !Z.add_0_r. unfold answer_posts.
    destruct (answer_esv (f_esv f) (b2z (count_ok rs) =? len ps)) as [e|] eqn:Ea; [|reflexivity].
    replace (o_attached o1) with (o_attached o) by (symmetry; apply Sh).
    destruct (o_attached o); [|reflexivity].
    destruct (answer_esv_two _ _ _ Ea) as [A1 A2]. specialize (A1 B2).
    assert (Hn : len rs <= 255) by (destruct Hb as [_ Hb]; unfold len; lia).
    destruct (rmsg_ok f rs e Hf A2 Hr Hn) as [R1 R2]. specialize (R2 A1).
    match goal with |- context [uecho_message_setesv e ?x] => set (m3 := uecho_message_setesv e x) end.
    assert (E3 : m3 = rmsg (reply f e (Plain (map fst rs)))).
    { unfold m3, rmsg, reply. cbn [f_body f_tid f_seoj f_deoj f_esv]. rewrite M2, <- rprops_map. reflexivity. }
    rewrite E3. pose proof (send_reply (m_from req) _ R1 R2) as SR. unfold uecho_message_getesv in SR.
    destruct (uecho_message_getbytes _) as [bb|]; [cbn [bind] in *|discriminate].
    destruct (uecho_message_size _) as [ss|]; [cbn [bind] in *|discriminate].
    rewrite SR. cbn [bind fst snd]. rewrite Q5. reflexivity.
  - (* two lists *)
    injection Q6 as Q6 Q7 Q8. rewrite Q6, Q7, Q8, B2. cbn [body_ok] in Hb. destruct Hb as (_ & Hb1 & Hb2).
    change uecho_message_addpropertyset with (slot_add SlotSet). change uecho_message_addpropertyget with (slot_add SlotGet).
    unfold ESV_SetC at 1, ESV_Get at 1.
    rewrite loop_plain; cbn [h_obj h_msg h_calls h_anns h_cnt]; [|assumption|assumption|rewrite M2; reflexivity].
    cbn [wbody]. destruct (work dec 97 ss o []) as [[[[o1 a1] c1] r1]|] eqn:W; [|reflexivity].
    cbn [bind]. 
    destruct (work_shape _ _ _ _ _ _ _ _ _ W) as (Sh & Sl & _).
    destruct (work_inv _ _ _ _ _ _ _ _ _ Hi Hm (proj1 Hb1) W) as (Hi1 & Hm1 & Hr1).
    rewrite loop_plain; cbn [h_obj h_msg h_calls h_anns h_cnt]; [|assumption|assumption|rewrite M2; reflexivity].
    destruct (work dec 98 gs o1 c1) as [[[[o2 a2] c2] r2]|] eqn:W2; [|reflexivity].
    cbn [bind h_obj h_msg h_calls h_anns h_cnt app].
    destruct (work_shape _ _ _ _ _ _ _ _ _ W2) as (Sh2 & Sl2 & _).
    destruct (work_inv _ _ _ _ _ _ _ _ _ Hi1 Hm1 (proj1 Hb2) W2) as (Hi2 & Hm2 & Hr2).
    destruct (node_emit le net _ _ _) as [[n1 anns]|]; [|reflexivity]. cbn [bind fst snd].
    change (pv_opc (pv_of ss)) with (len ss). change (pv_opc (pv_of gs)) with (len gs). change (pv_opc pv_empty) with 0.
    rewrite !Z.add_0_l. unfold answer_posts.
    destruct (answer_esv (f_esv f) (b2z (count_ok r1) + b2z (count_ok r2) =? len ss + len gs)) as [e|] eqn:Ea; [|reflexivity].
    replace (o_attached o2) with (o_attached o)
      by (symmetry; transitivity (o_attached o1); [apply Sh2|apply Sh]).
    destruct (o_attached o); [|reflexivity].
    destruct (answer_esv_two _ _ _ Ea) as [_ A2].
    assert (Hn1 : len r1 <= 255) by (destruct Hb1 as [_ Hb1]; unfold len; lia).
    assert (Hn2 : len r2 <= 255) by (destruct Hb2 as [_ Hb2]; unfold len; lia).
    destruct (rmsg2_ok f r1 r2 e Hf A2 Hr1 Hr2 Hn1 Hn2) as [R1 R2].
    match goal with |- context [uecho_message_setesv e ?x] => set (m3 := uecho_message_setesv e x) end.
    assert (E3 : m3 = rmsg (reply f e (SetGetBody (map fst r1) (map fst r2)))).
    { unfold m3, rmsg, reply. cbn [f_body f_tid f_seoj f_deoj f_esv]. rewrite M2, <- !rprops_map. reflexivity. }
    rewrite E3. pose proof (send_reply (m_from req) _ R1 R2) as SR. unfold uecho_message_getesv in SR.
    destruct (uecho_message_getbytes _) as [bb|]; [cbn [bind] in *|discriminate].
    destruct (uecho_message_size _) as [sss|]; [cbn [bind] in *|discriminate].
    rewrite SR. cbn [bind fst snd]. rewrite Q5. reflexivity.
Qed.
End L.

Definition fine (o : obj) : Prop := inv o /\ omem o.

Lemma node_receive_spec : forall le net dec n data la ra, buffer data -> Forall fine (n_objs n) ->
  node_receive le net dec n data la ra
  = match dec_frame data with
    | Some (f, _) => receive_frame le net dec n f (from_of la ra)
    | None => Ok (mkReaction n [] [] [] [])
    end.
Proof.
  intros le net dec n data la ra [Hd Hl] Ho. unfold node_receive, uecho_message_parsepacket.
  assert (Hn : msg_ok uecho_message_new) by (apply (api_inv_holds le); constructor).
  pose proof (parse_spec _ data Hn Hd Hl) as P.
  destruct (dec_frame data) as [[f rest]|] eqn:E.
  - rewrite P. cbn [bind negb]. apply dec_frame_iff in E; [|assumption]. destruct E as [Hf _].
    apply receive_spec; [assumption|]. intros o Eo. apply getbycode_in in Eo. destruct Eo as [_ Eo].
    rewrite Forall_forall in Ho. apply Ho. assumption.
  - destruct P as (m' & P & _). rewrite P. reflexivity.
Qed.
