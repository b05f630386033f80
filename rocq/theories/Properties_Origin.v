(* C83: what a device holds was put there, by its program or by a request that names it. *)
From Coq Require Import String ZArith List Bool Lia ZifyBool ZifyNat.
From Verif Require Import CSem M_Const M_Misc M_Property M_Message M_PropertyList M_Object M_Std M_Node M_NodeListener M_Controller
  P_Message P_Message Spec_Frame Spec_Message Spec_Object Spec_Node Spec_Request Run_Object Run_Node Run_Controller Run_System P_Base
  P_Std P_NodeReach P_NodeInv P_NodeRun P_NodeProps P_RequestApi Properties_Object P_Controller P_ControllerProps P_System
  Properties_Node Properties_Request Properties_Controller Properties_System Run_Origin P_Origin.
Import ListNotations.
Open Scope Z_scope.
Ltac Zify.zify_post_hook ::= Z.div_mod_to_equations.

Lemma exists_last_or : forall {A} (l : list A), l = [] \/ exists l' x, l = l' ++ [x].
Proof. intros A l. destruct l as [|a l]; [left; reflexivity|]. right. destruct (exists_last (l := a :: l)) as (l' & x & E); [discriminate|eauto]. Qed.
Lemma new_nothing : forall le net n oc epc d, new_node le net std_db n -> oc <> 978945 -> node_data n oc epc = Some d -> False.
Proof.
  intros le net n oc epc d Hn Ho E. destruct (new_eojs le net std_db std_db_ok n Hn) as (A & _).
  unfold node_data in E. destruct (uecho_node_getobjectbycode n oc) as [o|] eqn:G; [|discriminate].
  apply P_System.getbycode_in in G. destruct G as [G C].
  apply Ho. rewrite <- C. assert (X : In (o_grp o, o_cls o, o_ins o) (eojs n)) by (unfold eojs; apply in_map_iff; eauto).
  rewrite A in X. destruct X as [X|[]]. unfold node_profile_eoj in X. injection X as X1 X2 X3.
  unfold uecho_object_getcode. rewrite <- X1, <- X2, <- X3. reflexivity.
Qed.

Section R.
Variable le : bool.
Variable net : post -> bool.

Definition reaches (n0 : node) (h : list nop) (n : node) : Prop := exists own ans, nrun le net std_db n0 h n own ans.

Lemma reaches_det : forall h n0 n m, reaches n0 h n -> reaches n0 h m -> n = m.
Proof.
  induction h as [|x h IH]; intros n0 n m (o1 & a1 & R1) (o2 & a2 & R2); inversion R1; inversion R2; subst; [reflexivity|].
  match goal with A : nstep _ _ _ n0 x = Ok (?u, _, _), B : nstep _ _ _ n0 x = Ok (?v, _, _) |- _ => assert (u = v) as -> by congruence end.
  eapply IH; eexists _, _; eassumption.
Qed.
Lemma reaches_snoc : forall h n0 x n, reaches n0 (h ++ [x]) n ->
  exists m own ans, reaches n0 h m /\ nop_ok le std_db x /\ nstep le net std_db m x = Ok (n, own, ans).
Proof.
  induction h as [|y h IH]; intros n0 x n (o & a & R); cbn [app] in R; inversion R; subst.
  - match goal with A : nrun _ _ _ _ [] _ _ _ |- _ => inversion A; subst end.
    exists n0. eexists _, _. split; [exists [], []; constructor; assumption|]. split; [assumption|eassumption].
  - match goal with A : nrun _ _ _ ?u (h ++ [x]) _ _ _ |- _ => destruct (IH u x n) as (m & ow & an & (o' & a' & R') & Kx & E); [eexists _, _; exact A|] end.
    exists m, ow, an. split; [|split; assumption]. eexists _, _. econstructor; eassumption.
Qed.
Lemma reaches_api : forall n0 h n, api_node le net std_db n0 -> reaches n0 h n -> api_node le net std_db n.
Proof.
  intros n0 h n (s & h0 & o0 & a0 & N & R0) (o & a & R). exists s, (h0 ++ h).
  assert (X : exists o' a', nrun le net std_db s (h0 ++ h) n o' a').
  { clear N. induction R0 as [m Hm|m x m1 p1 q1 h0 m2 o2 a2 Kx Hm E R0 IH]; cbn [app]; [eexists _, _; exact R|].
    destruct (IH R) as (o' & a' & R'). eexists _, _. econstructor; eassumption. }
  destruct X as (o' & a' & R'). exists o', a'. split; assumption.
Qed.

(* Every call and every datagram leaves a property of an object alone, or is one of those listed
   in [puts], for this object and this property. *)
Theorem C83_step : forall n x n' own ans oc epc,
  api_node le net std_db n -> nop_ok le std_db x -> nstep le net std_db n x = Ok (n', own, ans) -> ~ computed oc epc ->
  node_data n' oc epc = node_data n oc epc \/ puts n oc epc x (node_data n' oc epc).
Proof. intros n x n' own ans oc epc Hn Hx E Hc. eapply step_puts; eauto. Qed.

(* At any time, what a property holds was put there by one of the calls or datagrams since we
   look, and has stayed since that moment; or it has been there all the time. *)
Theorem C83_origin : forall n0 h n oc epc v,
  api_node le net std_db n0 -> reaches n0 h n -> ~ computed oc epc -> node_data n oc epc = v ->
  (forall ha hb m, h = ha ++ hb -> reaches n0 ha m -> node_data m oc epc = v)
  \/ exists h1 x h2 m, h = h1 ++ x :: h2 /\ reaches n0 h1 m /\ puts m oc epc x v
     /\ forall ha hb m', h2 = ha ++ hb -> reaches n0 (h1 ++ x :: ha) m' -> node_data m' oc epc = v.
Proof.
  intros n0 h n oc epc v A R Hc. revert n R v. induction h as [|x h IH] using rev_ind; intros n R v V.
  - left. intros ha hb m E R'. destruct ha; [|discriminate]. rewrite (reaches_det _ _ _ _ R' R). exact V.
  - destruct (reaches_snoc _ _ _ _ R) as (m & own & ans & Rm & Kx & E).
    pose proof (reaches_api _ _ _ A Rm) as Am.
    destruct (C83_step _ _ _ _ _ oc epc Am Kx E Hc) as [D|D].
    + destruct (IH m Rm v) as [L|(h1 & y & h2 & k & E1 & R1 & P1 & L)]; [congruence| |].
      * left. intros ha hb k Ek Rk. destruct (exists_last_or hb) as [->|(hb' & z & ->)].
        -- rewrite app_nil_r in Ek. subst ha. rewrite (reaches_det _ _ _ _ Rk R). exact V.
        -- rewrite app_assoc in Ek. apply app_inj_tail in Ek. destruct Ek as [Ek _]. eapply L; eauto.
      * right. exists h1, y, (h2 ++ [x]), k. split; [rewrite E1; rewrite <- app_assoc; reflexivity|]. split; [exact R1|]. split; [exact P1|].
        intros ha hb k' Ek Rk. destruct (exists_last_or hb) as [->|(hb' & z & ->)].
        -- rewrite app_nil_r in Ek. subst ha. subst h. change (h1 ++ y :: h2 ++ [x]) with (h1 ++ (y :: h2) ++ [x]) in Rk. rewrite app_assoc in Rk. rewrite (reaches_det _ _ _ _ Rk R). exact V.
        -- rewrite app_assoc in Ek. apply app_inj_tail in Ek. destruct Ek as [Ek _]. eapply L; eauto.
    + right. exists h, x, [], m. split; [reflexivity|]. split; [exact Rm|]. split; [rewrite <- V; exact D|].
      intros ha hb k Ek Rk. destruct ha; [|discriminate]. rewrite (reaches_det _ _ _ _ Rk R). exact V.
Qed.

(* What no call and no datagram puts anything into keeps its value. *)
Theorem C83_untouched : forall n0 h n oc epc,
  api_node le net std_db n0 -> reaches n0 h n -> ~ computed oc epc ->
  (forall x m v, In x h -> ~ puts m oc epc x v) -> node_data n oc epc = node_data n0 oc epc.
Proof.
  intros n0 h n oc epc A R Hc U. destruct (C83_origin n0 h n oc epc _ A R Hc eq_refl) as [L|(h1 & x & h2 & m & E & _ & P & _)].
  - symmetry. apply (L [] h n0); [reflexivity|]. destruct R as (o & a & R). exists [], []. constructor. inversion R; assumption.
  - exfalso. apply (U x m (node_data n oc epc)); [|exact P]. rewrite E. apply in_or_app. right. left. reflexivity.
Qed.

(* The objects of a device other than its node profile hold nothing from the start. *)
Theorem C83_from_the_start : forall n0 h n oc epc d,
  new_node le net std_db n0 -> reaches n0 h n -> oc <> 978945 -> ~ map_epc epc -> node_data n oc epc = Some d ->
  exists h1 x h2 m, h = h1 ++ x :: h2 /\ reaches n0 h1 m /\ puts m oc epc x (Some d)
    /\ forall ha hb m', h2 = ha ++ hb -> reaches n0 (h1 ++ x :: ha) m' -> node_data m' oc epc = Some d.
Proof.
  intros n0 h n oc epc d N R Ho He V.
  assert (M0 : reaches n0 [] n0) by (exists [], []; constructor; destruct R as (o & a & R); inversion R; assumption).
  assert (A : api_node le net std_db n0) by (destruct M0 as (o & a & M0); exists n0, [], o, a; split; assumption).
  destruct (C83_origin n0 h n oc epc (Some d) A R) as [L|X]; [unfold computed; tauto|exact V| |exact X].
  exfalso. specialize (L [] h n0 eq_refl M0). eapply new_nothing; eauto.
Qed.
End R.
Print Assumptions C83_step.
Print Assumptions C83_origin.
Print Assumptions C83_untouched.
Print Assumptions C83_from_the_start.

(* ---- as a controller sees it ---- *)
Lemma past_origin : forall dle cle dnet cnet csnet home s0 s n oc epc d,
  sys_start dle cle dnet cnet csnet s0 -> sys_run dle cle dnet cnet csnet home s0 s -> ~ computed oc epc ->
  In n (sy_past s) -> node_data n oc epc = Some d ->
  node_data (sy_dev s0) oc epc = Some d
  \/ exists s1 x n' own ans, sys_run dle cle dnet cnet csnet home s0 s1 /\ nop_ok dle std_db x
     /\ nstep dle dnet std_db (sy_dev s1) x = Ok (n', own, ans) /\ puts (sy_dev s1) oc epc x (Some d)
     /\ sys_run dle cle dnet cnet csnet home
          (mkSystem n' (n' :: sy_past s1) (sy_sent s1 ++ map frame_bytes (own ++ ans)) (sy_ctrl s1)) s.
Proof.
  intros dle cle dnet cnet csnet home s0 s n oc epc d H0 R Hc. revert n. induction R as [|s s' R IH St]; intros n I V.
  - destruct H0 as (_ & _ & P & _). rewrite P in I. destruct I as [<-|[]]. left. exact V.
  - assert (More : forall m, In m (sy_past s) -> node_data m oc epc = Some d ->
      node_data (sy_dev s0) oc epc = Some d
      \/ exists s1 x n' own ans, sys_run dle cle dnet cnet csnet home s0 s1 /\ nop_ok dle std_db x
         /\ nstep dle dnet std_db (sy_dev s1) x = Ok (n', own, ans) /\ puts (sy_dev s1) oc epc x (Some d)
         /\ sys_run dle cle dnet cnet csnet home
              (mkSystem n' (n' :: sy_past s1) (sy_sent s1 ++ map frame_bytes (own ++ ans)) (sy_ctrl s1)) s').
    { intros m Im Vm. destruct (IH m Im Vm) as [L|(s1 & x & n' & own & ans & A1 & A2 & A3 & A4 & A5)]; [left; exact L|].
      right. exists s1, x, n', own, ans. repeat (split; [assumption|]). eapply sys_run_step; eauto. }
    destruct (sys_inv _ _ _ _ _ _ _ _ H0 R) as ((Ad & _ & Id & _) & _).
    inversion St; subst; cbn [sy_dev sy_past sy_sent sy_ctrl] in *.
    + destruct I as [<-|I]; [|apply (More n I V)].
      match goal with Kx : nop_ok _ _ ?x, E : nstep _ _ _ ?m ?x = Ok (?m', ?ow, ?an) |- _ =>
        destruct (C83_step _ _ _ _ _ _ _ oc epc Ad Kx E Hc) as [D|D];
        [apply (More m Id); congruence|right; eexists _, x, m', ow, an; split; [exact R|]] end.
      cbn [sy_dev sy_past sy_sent sy_ctrl]. split; [assumption|]. split; [assumption|]. split; [rewrite <- V; exact D|]. apply sys_run_start.
    + apply (More n I V).
Qed.

(* A value a controller holds of a device was put into that device, by its program or by a write
   request for that object and that property, unless one of the two had it when we began to look.
   Exceptions as in C81. *)
Theorem C83_end_to_end_partial : forall dle cle dnet cnet csnet home s0 s oc epc d,
  sys_start dle cle dnet cnet csnet s0 -> sys_run dle cle dnet cnet csnet home s0 s -> oc <> 978945 -> ~ map_epc epc ->
  value (sy_ctrl s) home oc epc = Some d ->
  d = [] \/ value (sy_ctrl s0) home oc epc = Some d \/ node_data (sy_dev s0) oc epc = Some d
  \/ exists s1 x n' own ans, sys_run dle cle dnet cnet csnet home s0 s1 /\ nop_ok dle std_db x
     /\ nstep dle dnet std_db (sy_dev s1) x = Ok (n', own, ans) /\ puts (sy_dev s1) oc epc x (Some d)
     /\ sys_run dle cle dnet cnet csnet home
          (mkSystem n' (n' :: sy_past s1) (sy_sent s1 ++ map frame_bytes (own ++ ans)) (sy_ctrl s1)) s.
Proof.
  intros dle cle dnet cnet csnet home s0 s oc epc d H0 R Ho He V.
  destruct (C81_not_made_up_partial _ _ _ _ _ _ _ _ _ _ _ H0 R Ho He V) as [X|[X|(n & I & X)]]; [left; exact X|right; left; exact X|].
  right. right. eapply past_origin; eauto. unfold computed. tauto.
Qed.
Print Assumptions C83_end_to_end_partial.

(* hypotheses hold: the air conditioner is added and switched on by the program, then switched
   off by a request; the request put the value there *)
Definition set_off : frame := mkFrame (1, 3) node_profile_eoj (1, 48, 1) 97 (Plain [(128, [49])]).
Lemma set_off_ok : frame_ok set_off.
Proof.
  assert (E : dec_frame (enc_frame set_off) = Some (set_off, [])) by (vm_compute; reflexivity).
  apply dec_frame_iff in E; [apply E|]. apply is_byteb_val. vm_compute. reflexivity.
Qed.
Definition device_calls : list nop :=
  [NSet 77825 zeros; NObj 77825 (KStep (OSetData 128 [48]) zeros);
   NReceive (enc_frame set_off) here (Some there) yes; NObj 77825 (KGet 129)].
Fixpoint calls (n : node) (h : list nop) : option node :=
  match h with
  | [] => Some n
  | x :: r => match nstep true net_up std_db n x with Ok (n', _, _) => if shortb n' then calls n' r else None | _ => None end
  end.
Lemma calls_reach : forall h n n', Forall (nop_ok true std_db) h -> shortb n = true -> calls n h = Some n' -> reaches true net_up n h n'.
Proof.
  induction h as [|x h IH]; intros n n' Hk B H; cbn [calls] in H.
  - injection H as <-. exists [], []. constructor. apply short_mem, shortb_ok. exact B.
  - inversion Hk as [|? ? K1 K2]; subst. destruct (nstep true net_up std_db n x) as [[[n1 ow] an]|] eqn:E; [|discriminate].
    destruct (shortb n1) eqn:B1; [|discriminate]. destruct (IH n1 n' K2 B1 H) as (o & a & R).
    eexists _, _. econstructor; [exact K1|apply short_mem, shortb_ok; exact B|exact E|exact R].
Qed.
Lemma calls_some : forall n h, (if calls n h then true else false) = true -> exists n', calls n h = Some n'.
Proof. intros n h H. destruct (calls n h); [eauto|discriminate]. Qed.
Lemma device_calls_ok : Forall (nop_ok true std_db) device_calls.
Proof.
  constructor; [exact zeros_ok|]. constructor; [exact (set_ok 128 [48] eq_refl eq_refl)|].
  constructor; [exact (ask_ok yes set_off eq_refl)|]. constructor; [cbn; unfold epc_code; lia|constructor].
Qed.
Definition data_after (h : list nop) (oc epc : Z) : option (list Z) :=
  match calls node0 h with Some n => node_data n oc epc | None => None end.
Example C83_example : new_node true net_up std_db node0
  /\ (exists n, calls node0 device_calls = Some n /\ reaches true net_up node0 device_calls n)
  /\ ~ computed 77825 128
  /\ data_after device_calls 77825 128 = Some [49]
  /\ data_after (firstn 2 device_calls) 77825 128 = Some [48]
  /\ data_after (firstn 1 device_calls) 77825 128 = Some []
  /\ (forall m, node_data m 77825 128 <> None -> puts m 77825 128 (nth 2 device_calls NAnnounce) (Some [49])).
Proof.
  split; [exact node0_new|]. split.
  { assert (K : (if calls node0 device_calls then true else false) = true) by (vm_compute; reflexivity).
    assert (B : shortb node0 = true) by (vm_compute; reflexivity). revert K B. generalize node0. intros n K B.
    destruct (calls_some _ _ K) as [n' E]. exists n'. split; [exact E|]. apply calls_reach; [exact device_calls_ok|exact B|exact E]. }
  split; [unfold computed, map_epc; lia|]. do 3 (split; [vm_compute; reflexivity|]).
  intros m Hm. cbn [nth device_calls]. rewrite <- (app_nil_r (enc_frame set_off)).
  apply put_request; [|reflexivity|left; reflexivity|exact Hm].
  exact set_off_ok.
Qed.
Lemma puts_request : forall m oc epc data la ra dec v, puts m oc epc (NReceive data la ra dec) v ->
  exists f rest, data = enc_frame f ++ rest /\ frame_ok f /\ dest f = oc.
Proof. intros m oc epc data la ra dec v P. inversion P; subst. eexists _, _. split; [reflexivity|]. split; [assumption|reflexivity]. Qed.
(* none of these calls names the installation location 0x81 of the node profile *)
Example C83_untouched_example : ~ computed 978945 129
  /\ forall x m v, In x device_calls -> ~ puts m 978945 129 x v.
Proof.
  split; [unfold computed, map_epc; lia|]. intros x m v I P.
  destruct I as [<-|[<-|[<-|[<-|[]]]]]; [inversion P; subst; discriminate|inversion P; subst| |inversion P; subst; discriminate].
  destruct (puts_request _ _ _ _ _ _ _ _ P) as (f & rest & E & F & D).
  apply (enc_inj _ _ _ set_off_ok F) in E. subst f. discriminate D.
Qed.
