(* Programs with objects and nodes: the heap run follows the run on values. *)
From Coq Require Import String Ascii ZArith List Bool Lia Permutation.
From Verif Require Import CSem P_Base M_Const M_Misc M_String M_Property M_PropertyList P_PropertyList M_Log M_Message M_Object M_Node M_NodeListener
  M_Mem M_MemUse M_ObjMem M_Life M_NodeMem Spec_Message P_Mem P_MemMsg P_MemParse P_MemProp P_MemBytes P_MemCopy P_MemPkt P_MemRun P_Ring P_ObjProp P_ObjCache P_ObjMem P_ObjUse P_ObjStd
  P_Object P_ObjectRun P_ObjectReach P_Life P_NodeMem P_NodeRecv P_NodeLife P_NodeBuild P_NodeAlive P_NodeWhole
  M_ObjUse Spec_ObjMem P_ObjRun P_ObjLegal M_NodeLife Spec_NodeLife.
Import ListNotations.
Open Scope Z_scope.

(* a node that is in no list, whoever observes it *)
Definition node_here (a : Z) (n : node) (L : heaplet) : Prop := exists w, at_prev w = a /\ at_next w = a /\ node_in w a n L.
Lemma node_alone : forall a n L, node_rep a n L -> node_here a n L.
Proof. intros a n L H. exists (alone a). split; [reflexivity|]. split; [reflexivity|exact H]. Qed.

Fixpoint all_nodes (ns : list Z) (st : list (option node)) (L : heaplet) : Prop :=
  match ns, st with
  | [], [] => L = []
  | a :: ns', Some n :: st' => exists L1 L2, Permutation L (L1 ++ L2) /\ node_here a n L1 /\ all_nodes ns' st' L2
  | _ :: ns', None :: st' => all_nodes ns' st' L
  | _, _ => False
  end.
Lemma all_nodes_new : forall ns st L a n Ln, all_nodes ns st L -> node_here a n Ln -> all_nodes (ns ++ [a]) (st ++ [Some n]) (Ln ++ L).
Proof.
  induction ns as [|b ns IH]; intros [|[x|] st] L a n Ln R RM; cbn [all_nodes app] in *; try contradiction.
  - subst L. exists Ln, []. split; [apply Permutation_refl|]. split; [exact RM|reflexivity].
  - destruct R as (L1 & L2 & P1 & R1 & R2). exists L1, (Ln ++ L2). split; [|split; [exact R1|eapply IH; eauto]].
    eapply perm_trans; [apply Permutation_app_head; exact P1|]. perm.
  - eapply IH; eauto.
Qed.
Lemma nodes_take : forall k ns st L n, all_nodes ns st L -> nth_error st k = Some (Some n) -> exists a L1 L2,
  nth_error ns k = Some a /\ Permutation L (L1 ++ L2) /\ node_here a n L1 /\ all_nodes ns (put_node k None st) L2
  /\ forall n' L1', node_here a n' L1' -> all_nodes ns (put_node k (Some n') st) (L1' ++ L2).
Proof.
  induction k as [|k IH]; intros [|b ns] [|[x|] st] L n R E; cbn [all_nodes nth_error put_node] in *; try contradiction; try discriminate.
  - injection E as ->. destruct R as (L1 & L2 & P & R1 & R2). exists b, L1, L2. split; [reflexivity|]. split; [exact P|]. split; [exact R1|]. split; [exact R2|].
    intros n' L1' NR. exists L1', L2. split; [apply Permutation_refl|auto].
  - destruct R as (L1 & L2 & P1 & R1 & R2). destruct (IH ns st L2 n R2 E) as (a & K1 & K2 & EA & P & RM & RR & BK).
    exists a, K1, (L1 ++ K2). split; [exact EA|]. split.
    { eapply perm_trans; [exact P1|]. eapply perm_trans; [apply Permutation_app_head; exact P|]. perm. }
    split; [exact RM|]. split.
    { exists L1, K2. split; [apply Permutation_refl|auto]. }
    intros n' L1' NR. exists L1, (L1' ++ K2). split; [perm|]. split; [exact R1|]. apply BK. exact NR.
  - destruct (IH ns st L n R E) as (a & K1 & K2 & EA & P & RM & RR & BK). exists a, K1, K2. auto.
Qed.
Lemma nodes_gone : forall ns st L, all_nodes ns st L -> Forall (fun x => x = None) st -> L = [].
Proof.
  induction ns as [|a ns IH]; intros [|[x|] st] L R A; cbn [all_nodes] in R; try contradiction; [exact R| |].
  - apply Forall_cons_iff in A. destruct A as [A _]. discriminate.
  - apply Forall_cons_iff in A. eapply IH; [exact R|apply A].
Qed.
Lemma node_at_some : forall st k n, node_at st k = Some n -> nth_error (ns_nodes st) k = Some (Some n).
Proof. intros st k n E. unfold node_at in E. destruct (nth_error (ns_nodes st) k) as [[x|]|]; try discriminate. injection E as ->. reflexivity. Qed.

Section Room.
Variable room : Z -> bool.
Hypothesis Room : forall n, room n = true.
Variable junk : nat -> Z.
Variable le : bool.
Variable net : post -> bool.
Variable dec : list (hcall * bool) -> hcall -> bool.
Variable db : Z.

Definition nworld (ps ns : list Z) (st : nstate) (L : heaplet) : Prop :=
  exists Lw Ln, Permutation L (Lw ++ Ln) /\ world db ps (ns_own st) Lw /\ all_nodes ns (ns_nodes st) Ln.
Definition nafter (v : nobs) (st : nstate) (F : heaplet) (r : nobs * list Z * list Z) (L : heaplet) : Prop :=
  fst (fst r) = v /\ exists W, Permutation L (W ++ F) /\ nworld (snd (fst r)) (snd r) st W.

Lemma wp_handle : forall ns k a L (Q : Z -> heaplet -> Prop), nth_error ns k = Some a -> Q a L -> wp (M_MemUse.handle ns k) L Q.
Proof. intros ns k a L Q E H. unfold M_MemUse.handle. rewrite E. apply wp_ret. exact H. Qed.

Lemma wp_assoc2 : forall A B C (c : mm A) (f : A -> mm B) (g : B -> mm C) L (Q : C -> heaplet -> Prop),
  wp (let! x := (let! a := c in f a) in g x) L Q -> wp (let! a := c in let! x := f a in g x) L Q.
Proof.
  intros A B C c f g L Q H h J. specialize (H h J). unfold M_Mem.mbind in *. destruct (c h) as [[a h1]|]; [exact H|exact H].
Qed.

Lemma wp_nstep : forall op ps ns st v st' L W F, nvalue junk le net dec op st = Some (v, st') -> nargs_ok op -> nrules op st -> ginv (ns_own st) -> nworld ps ns st W ->
  Permutation L (W ++ F) -> wp (nstep room junk le net dec db op ps ns) L (nafter v st' F).
Proof.
  intros op ps ns st v st' L W F E AO RU G (Lw & Ln & PW & WO & AN) P. eapply wp_perm; [eapply perm_trans; [exact P|apply Permutation_app_tail; exact PW]|]. clear L W P PW.
  assert (TAKE : forall k n, node_at st k = Some n -> exists nd w L1 L2, at_prev w = nd /\ at_next w = nd /\ nth_error ns k = Some nd /\ Permutation Ln (L1 ++ L2) /\ node_in w nd n L1
    /\ all_nodes ns (put_node k None (ns_nodes st)) L2 /\ (forall n' L1', node_in w nd n' L1' -> all_nodes ns (put_node k (Some n') (ns_nodes st)) (L1' ++ L2))
    /\ Permutation ((Lw ++ Ln) ++ F) (L1 ++ Lw ++ L2 ++ F)
    /\ (forall v n' N', node_in w nd n' N' -> nafter v (with_node st k n') F (v, ps, ns) (N' ++ Lw ++ L2 ++ F))).
  { intros k n NA. apply node_at_some in NA. destruct (nodes_take _ _ _ _ _ AN NA) as (nd & L1 & L2 & A & B & (w & W1 & W2 & C) & D & BK0).
    assert (BK : forall n' L1', node_in w nd n' L1' -> all_nodes ns (put_node k (Some n') (ns_nodes st)) (L1' ++ L2)) by (intros n' L1' X; apply BK0; exists w; auto).
    exists nd, w, L1, L2. split; [exact W1|]. split; [exact W2|]. split; [exact A|]. split; [exact B|]. split; [exact C|]. split; [exact D|]. split; [exact BK|]. split.
    - eapply perm_trans; [apply Permutation_app_tail, Permutation_app_head; exact B|]. perm.
    - intros v0 n' N' NR. split; [reflexivity|]. exists (Lw ++ N' ++ L2). split; [perm|]. exists Lw, (N' ++ L2). split; [apply Permutation_refl|]. split; [exact WO|].
      apply BK. exact NR. }
  destruct op as [u|t man uniq|k|k|k i|k code|k b|k s|k|k d from local|k code|k code c d|k code c v0 size|k code c a|k code esv c hd|k code b];
    cbn [nvalue nstep nargs_ok nrules node_of] in *.
  - (* own *)
    destruct (vstep junk u (ns_own st)) as [[v1 o1]|] eqn:EV; [|discriminate]. injection E as <- <-.
    apply wp_bind. eapply wp_conseq; [eapply (wp_ustep room Room junk db u ps (ns_own st) v1 o1 _ Lw (Ln ++ F)); try eassumption; perm|]. cbv beta.
    intros [r ps'] L' (EO & W' & P' & WO'). cbn [fst snd] in *. apply wp_ret. split; [cbn [fst]; congruence|]. exists (W' ++ Ln). split; [eapply perm_trans; [exact P'|perm]|].
    exists W', Ln. split; [apply Permutation_refl|]. split; [exact WO'|exact AN].
  - (* new *)
    destruct (M_Node.uecho_node_new le net (s_db (ns_own st)) t junk man uniq) as [[n posts]|] eqn:EN; [|discriminate]. injection E as <- <-.
    destruct WO as (Lo & Ld & PD & AO' & D). apply wp_bind.
    eapply (wp_node_new room Room junk le net db (s_db (ns_own st)) Ld t man uniq n posts _ (Lo ++ Ln ++ F)); [exact D|apply G| |exact EN|].
    { eapply perm_trans; [do 2 apply Permutation_app_tail; exact PD|]. perm. }
    intros nd N NR. apply wp_ret. cbn [fst snd]. split; [reflexivity|]. exists (N ++ Lw ++ Ln). split.
    { eapply perm_trans; [|apply Permutation_app_tail, Permutation_app_head, Permutation_app_tail, Permutation_sym; exact PD]. perm. }
    exists Lw, (N ++ Ln). split; [perm|]. split; [exists Lo, Ld; auto|]. cbn [ns_nodes snd]. apply all_nodes_new; [assumption|apply node_alone; assumption].
  - (* delete *)
    destruct (node_at st k) as [n|] eqn:NA; [|discriminate]. injection E as <- <-. destruct (TAKE k n NA) as (nd & w & L1 & L2 & W1 & W2 & EH & PL & NR & GONE & BK & PP & DONE).
    apply wp_bind. eapply wp_handle; [exact EH|]. apply wp_bind. eapply (wp_node_delete w); [exact W1|exact W2|exact NR|exact PP|]. apply wp_ret. split; [reflexivity|].
    exists (Lw ++ L2). split; [perm|]. exists Lw, L2. split; [apply Permutation_refl|]. split; [exact WO|exact GONE].
  - (* clear *)
    destruct (node_at st k) as [n|] eqn:NA; [|discriminate]. injection E as <- <-. destruct (TAKE k n NA) as (nd & w & L1 & L2 & W1 & W2 & EH & PL & NR & GONE & BK & PP & DONE).
    apply wp_bind. eapply wp_handle; [exact EH|]. apply wp_bind. eapply wp_node_clear; [exact NR|exact PP|]. intros N' NR'. apply wp_ret. apply DONE. exact NR'.
  - (* add *)
    destruct (node_at st k) as [n|] eqn:NA; [|discriminate]. destruct (mine (ns_own st) i) as [o|] eqn:MI; [|discriminate].
    destruct (M_Node.uecho_node_addobject le net n o) as [[[n' posts] ok]|] eqn:EA; [|discriminate].
    destruct (TAKE k n NA) as (nd & w & L1 & L2 & W1 & W2 & EH & PL & NR & GONE & BK & PP & DONE). destruct WO as (Lo & Ld & PD & AOB & D).
    destruct (mine_one _ _ _ _ _ AOB MI) as (x & O1 & O2 & EX & PO & OA & AOR & _).
    apply wp_bind. eapply wp_handle; [exact EH|]. apply wp_bind. eapply wp_handle; [exact EX|]. apply wp_bind.
    eapply (wp_node_add room Room junk le net w nd n L1 x o O1 n' posts ok _ (O2 ++ Ld ++ L2 ++ F)); [exact NR|exact OA| |exact EA| |].
    + eapply perm_trans; [exact PP|]. apply Permutation_app_head. eapply perm_trans; [apply Permutation_app_tail; exact PD|].
      eapply perm_trans; [do 2 apply Permutation_app_tail; exact PO|]. perm.
    + intros o0 FO -> N' NR'. apply wp_ret. unfold has_object in E. rewrite FO in E. injection E as <- <-. cbn [fst snd]. split; [reflexivity|].
      exists (Lw ++ N' ++ L2). split.
      { eapply perm_trans; [|apply Permutation_app_tail, Permutation_app_tail, Permutation_sym; exact PD].
        eapply perm_trans; [|do 3 apply Permutation_app_tail; apply Permutation_sym; exact PO]. perm. }
      exists Lw, (N' ++ L2). split; [apply Permutation_refl|]. split; [exists Lo, Ld; auto|]. cbn [ns_nodes snd]. apply BK. exact NR'.
    + intros FO N' NR'. apply wp_ret. unfold has_object in E. rewrite FO in E. injection E as <- <-. cbn [fst snd]. split; [reflexivity|].
      exists ((O2 ++ Ld) ++ N' ++ L2). split; [perm|]. exists (O2 ++ Ld), (N' ++ L2). split; [apply Permutation_refl|]. split.
      { exists O2, Ld. split; [apply Permutation_refl|]. split; [exact AOR|exact D]. }
      cbn [ns_nodes snd]. apply BK. exact NR'.
  - (* set *)
    destruct (node_at st k) as [n|] eqn:NA; [|discriminate]. cbn [node_call] in E.
    destruct (M_Node.uecho_node_setobject le net (s_db (ns_own st)) junk n code) as [[[n' posts] ok]|] eqn:EA; [|discriminate]. cbn [bind] in E. injection E as <- <-.
    destruct (TAKE k n NA) as (nd & w & L1 & L2 & W1 & W2 & EH & PL & NR & GONE & BK & PP & DONE). pose proof WO as (Lo & Ld & PD & AOB & D).
    apply wp_bind. eapply wp_handle; [exact EH|]. apply wp_bind.
    eapply (wp_node_set room Room junk le net db w nd n L1 (s_db (ns_own st)) Ld code n' posts ok _ (Lo ++ L2 ++ F)); [exact NR|exact D|apply G|exact AO| |exact EA|].
    { eapply perm_trans; [exact PP|]. apply Permutation_app_head. eapply perm_trans; [apply Permutation_app_tail; exact PD|]. perm. }
    intros N' NR'. apply wp_post, wp_ret. cbn [fst snd]. eexists. split; [|apply (DONE _ _ _ NR')].
    apply Permutation_app_head. eapply perm_trans; [|apply Permutation_app_tail, Permutation_sym; exact PD]. perm.
  - (* listen *)
    destruct (node_at st k) as [n|] eqn:NA; [|discriminate]. injection E as <- <-. destruct (TAKE k n NA) as (nd & w & L1 & L2 & W1 & W2 & EH & PL & NR & GONE & BK & PP & DONE).
    apply wp_bind. eapply wp_handle; [exact EH|]. apply wp_bind. eapply wp_node_listen; [exact NR|exact PP|]. intros N' NR'. apply wp_ret. apply DONE. exact NR'.
  - (* address *)
    destruct (node_at st k) as [n|] eqn:NA; [|discriminate]. injection E as <- <-. destruct (TAKE k n NA) as (nd & w & L1 & L2 & W1 & W2 & EH & PL & NR & GONE & BK & PP & DONE).
    apply wp_bind. eapply wp_handle; [exact EH|]. apply wp_bind. eapply wp_node_address; [exact Room|exact NR|exact PP|exact AO|]. intros N' NR'. apply wp_ret. apply DONE. exact NR'.
  - (* announce *)
    destruct (node_at st k) as [n|] eqn:NA; [|discriminate]. cbn [node_call] in E.
    destruct (M_Node.uecho_node_announce le net n) as [[[n' posts] ok]|] eqn:EA; [|discriminate]. cbn [bind] in E. injection E as <- <-.
    destruct (TAKE k n NA) as (nd & w & L1 & L2 & W1 & W2 & EH & PL & NR & GONE & BK & PP & DONE).
    apply wp_bind. eapply wp_handle; [exact EH|]. apply wp_bind. eapply wp_node_announce; [exact Room|exact NR|exact PP|exact EA|]. intros N' NR'. apply wp_ret. apply DONE. exact NR'.
  - (* receive *)
    destruct (node_at st k) as [n|] eqn:NA; [|discriminate]. cbn [node_call] in E.
    destruct (node_receive le net dec n (firstn M_Server.RECV_BUFSIZE d) local (Some from)) as [r|] eqn:EA; [|discriminate]. cbn [bind] in E. injection E as <- <-.
    destruct (TAKE k n NA) as (nd & w & L1 & L2 & W1 & W2 & EH & PL & NR & GONE & BK & PP & DONE). destruct AO as (A1 & A2 & A3).
    apply wp_bind. eapply wp_handle; [exact EH|]. apply wp_bind. eapply wp_node_receive; [exact Room|exact NR|exact PP|exact A1|exact A2|exact A3|exact EA|].
    intros N' NR'. apply wp_ret. apply DONE. exact NR'.
  - (* read *)
    destruct (node_at st k) as [n|] eqn:NA; [|discriminate]. cbn [node_call] in E. injection E as <- <-.
    destruct (TAKE k n NA) as (nd & w & L1 & L2 & W1 & W2 & EH & PL & NR & GONE & BK & PP & DONE).
    apply wp_bind. eapply wp_handle; [exact EH|].
    apply wp_bind. eapply (wp_node_find w nd n L1 code _ (Lw ++ L2 ++ F)); [exact NR|exact PP| |].
    + intro NO. rewrite NO. cbn [Z.eqb option_map]. eapply wp_perm; [exact PP|]. apply wp_ret. apply DONE. exact NR.
    + intros qs v1 a o v2 Lr Lc Lx L7 HE EX EO DF HIT PA RA FO P'. rewrite FO. rewrite (pos_nz a) by exact PA.
      destruct (rl_obj _ _ _ _ _ _ _ RA) as (p0 & n0 & Lo & R0 & OA & PLo & _). eapply wp_perm; [exact PP|].
      apply wp_bind. eapply (wp_read_object _ _ a o Lo _ ((nd, nblk (at_prev w) (at_next w) qs (n_tid n)) :: R0 ++ Lc ++ Lx ++ Lw ++ L2 ++ F)); [exact OA| |].
      * eapply perm_trans; [apply Permutation_sym; exact PP|]. eapply perm_trans; [exact P'|]. eapply perm_trans; [apply perm_skip, Permutation_app_tail; exact PLo|]. perm.
      * apply wp_ret. apply DONE. exact NR.
  - (* data *)
    destruct (node_at st k) as [n|] eqn:NA; [|discriminate]. cbn [node_call] in E. unfold object_call in E.
    match type of E with context [node_object_op ?a ?b ?f ?m ?q] => destruct (node_object_op a b f m q) as [[n' posts]|] eqn:EA; [|discriminate] end.
    cbn [bind fst snd] in E. injection E as <- <-. destruct (TAKE k n NA) as (nd & w & L1 & L2 & W1 & W2 & EH & PL & NR & GONE & BK & PP & DONE).
    apply wp_bind. eapply wp_handle; [exact EH|]. apply wp_assoc2. apply wp_bind.
    eapply (wp_node_data room Room le net); [exact NR|exact PP|exact (buffer_size room Room db d AO)|exact EA|].
    intros N' NR'. apply wp_ret. cbn [fst snd]. apply DONE. exact NR'.
  - (* int *)
    destruct (node_at st k) as [n|] eqn:NA; [|discriminate]. cbn [node_call] in E. unfold object_call in E.
    match type of E with context [node_object_op ?a ?b ?f ?m ?q] => destruct (node_object_op a b f m q) as [[n' posts]|] eqn:EA; [|discriminate] end.
    cbn [bind fst snd] in E. injection E as <- <-. destruct (TAKE k n NA) as (nd & w & L1 & L2 & W1 & W2 & EH & PL & NR & GONE & BK & PP & DONE).
    apply wp_bind. eapply wp_handle; [exact EH|]. apply wp_assoc2. apply wp_bind.
    eapply (wp_node_int room Room junk le net); [exact NR|exact PP|exact AO|exact EA|].
    intros N' NR'. apply wp_ret. cbn [fst snd]. apply DONE. exact NR'.
  - (* attribute *)
    destruct (node_at st k) as [n|] eqn:NA; [|discriminate]. cbn [node_call] in E. unfold object_call, quiet in E.
    match type of E with context [node_object_op ?a ?b ?f ?m ?q] => destruct (node_object_op a b f m q) as [[n' posts]|] eqn:EA; [|discriminate] end.
    cbn [bind fst snd] in E. injection E as <- <-. destruct (TAKE k n NA) as (nd & w & L1 & L2 & W1 & W2 & EH & PL & NR & GONE & BK & PP & DONE).
    apply wp_bind. eapply wp_handle; [exact EH|]. apply wp_assoc2. apply wp_bind.
    eapply (wp_node_quiet le net bool (fun o => M_ObjMem.uecho_object_setpropertyattribute room o c a) false true (fun o => M_Object.uecho_object_setpropertyattribute o c a)); [exact NR|exact PP|reflexivity| | |exact EA|].
    + intro o. reflexivity.
    + intros. eapply (wp_obj_setattr room Room); eassumption.
    + intros -> N' NR'. apply wp_ret. cbn [fst snd]. apply DONE. exact NR'.
  - (* handler *)
    destruct (node_at st k) as [n|] eqn:NA; [|discriminate]. cbn [node_call] in E. unfold object_call, quiet in E.
    match type of E with context [node_object_op ?a ?b ?f ?m ?q] => destruct (node_object_op a b f m q) as [[n' posts]|] eqn:EA; [|discriminate] end.
    cbn [bind fst snd] in E. injection E as <- <-. destruct (TAKE k n NA) as (nd & w & L1 & L2 & W1 & W2 & EH & PL & NR & GONE & BK & PP & DONE).
    apply wp_bind. eapply wp_handle; [exact EH|]. apply wp_assoc2. apply wp_bind.
    eapply (wp_node_quiet le net bool (fun o => M_ObjMem.uecho_object_setpropertyrequesthandler room o esv c hd) false true (fun o => M_Object.uecho_object_setpropertyrequesthandler o esv c hd)); [exact NR|exact PP|reflexivity| | |exact EA|].
    + intro o. reflexivity.
    + intros. eapply (wp_obj_handler room Room); eassumption.
    + intros -> N' NR'. apply wp_ret. cbn [fst snd]. apply DONE. exact NR'.
  - (* watch *)
    destruct (node_at st k) as [n|] eqn:NA; [|discriminate]. cbn [node_call] in E. unfold object_call, quiet in E.
    match type of E with context [node_object_op ?a ?b ?f ?m ?q] => destruct (node_object_op a b f m q) as [[n' posts]|] eqn:EA; [|discriminate] end.
    cbn [bind fst snd] in E. injection E as <- <-. destruct (TAKE k n NA) as (nd & w & L1 & L2 & W1 & W2 & EH & PL & NR & GONE & BK & PP & DONE).
    apply wp_bind. eapply wp_handle; [exact EH|]. apply wp_assoc2. apply wp_bind.
    eapply (wp_node_quiet le net unit (fun o => M_ObjMem.uecho_object_setmessagelistener o b) tt tt (M_Object.uecho_object_setmessagelistener b)); [exact NR|exact PP|reflexivity| | |exact EA|].
    + intro o. reflexivity.
    + intros. eapply wp_obj_listener; eassumption.
    + intros -> N' NR'. apply wp_ret. cbn [fst snd]. apply DONE. exact NR'.
Qed.
End Room.
