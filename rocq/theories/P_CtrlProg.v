(* Programs with objects, nodes, messages and a controller: the heap run follows the run on values. *)
From Coq Require Import String Ascii ZArith List Bool Lia Permutation.
From Verif Require Import CSem P_Base M_Const M_Misc P_Misc M_String M_Property M_PropertyList P_PropertyList M_Log M_Message M_Object M_Node M_NodeListener M_Controller
  M_Mem M_MemUse M_ObjMem M_Life M_ObjUse M_NodeMem M_NodeLife M_CtrlMem M_CtrlUse Spec_Message P_Mem P_MemMsg P_MemParse P_MemProp P_MemBytes P_MemCopy P_MemPkt P_MemRun P_Ring P_ObjProp P_ObjCache P_ObjMem P_ObjUse P_ObjStd
  P_Object P_ObjectRun P_ObjectReach P_ObjRun P_ObjLegal P_Life P_NodeMem P_NodeRecv P_NodeLife P_NodeBuild P_NodeAlive P_NodeWhole P_NodeProg P_CtrlProp P_CtrlUpdate P_CtrlNodes P_CtrlMsg P_CtrlWhole P_CtrlRun.
From Verif Require Spec_Mem.
From Verif Require Import Spec_NodeLife Spec_CtrlLife.
Import ListNotations.
Open Scope Z_scope.

(* ---- the pointers of a caller only get more ---- *)

Definition grows {A : Type} (c : mm A) (f : A -> list Z) (ps : list Z) : Prop := forall h r h', c h = Ok (r, h') -> exists x, f r = ps ++ x.
Lemma grows_bind : forall A B (c : mm A) (g : A -> mm B) f ps, (forall a, grows (g a) f ps) -> grows (let! a := c in g a) f ps.
Proof. intros A B c g f ps H h r h' E. unfold mbind in E. destruct (c h) as [[a h1]|]; [|discriminate]. exact (H a h1 r h' E). Qed.
Lemma grows_ret : forall A (a : A) f ps x, f a = ps ++ x -> grows (ret a) f ps.
Proof. intros A a f ps x H h r h' E. injection E as <- _. exists x. exact H. Qed.
Lemma wp_grows : forall A (c : mm A) f ps L (Q : A -> heaplet -> Prop), grows c f ps -> wp c L Q -> wp c L (fun r L' => Q r L' /\ exists x, f r = ps ++ x).
Proof. intros A c f ps L Q G W h I. destruct (W h I) as (a & h' & L' & E & I' & H). exists a, h', L'. split; [exact E|]. split; [exact I'|]. split; [exact H|]. exact (G _ _ _ E). Qed.
Ltac grow := repeat first [apply grows_bind; intro | match goal with |- grows (if ?b then _ else _) _ _ => destruct b end
  | eapply grows_ret; cbn [fst snd]; first [reflexivity | symmetry; apply app_nil_r]].

Lemma hstep_grows : forall room le op ps, grows (hstep room le op ps) snd ps.
Proof. intros room le op ps. destruct op; cbn [hstep]; grow. Qed.
Lemma nstep_grows : forall room junk le net dec db op ps ns, grows (nstep room junk le net dec db op ps ns) snd ns.
Proof. intros room junk le net dec db op ps ns. destruct op; cbn [nstep]; grow. Qed.

Lemma grown_nth : forall (ps x : list Z) i a, nth_error ps i = Some a -> nth_error (ps ++ x) i = Some a.
Proof. intros ps x i a E. rewrite nth_error_app1; [exact E|]. apply nth_error_Some. rewrite E. discriminate. Qed.

(* ---- values ---- *)

Lemma alive_nth : forall st i m, Spec_Mem.alive st i = Some m -> nth_error st i = Some (Some m).
Proof. intros st i m E. unfold Spec_Mem.alive in E. destruct (nth_error st i) as [[x|]|]; [|discriminate|discriminate]. injection E as <-. reflexivity. Qed.
Lemma put_hole : forall st i j m x, nth_error st i = Some None -> Spec_Mem.alive st j = Some m -> nth_error (Spec_Mem.put j x st) i = Some None.
Proof. intros st i j m x H A. apply alive_nth in A. rewrite P_MemRun.put_other; [exact H|]. intros ->. rewrite H in A. discriminate. Qed.
Lemma add_hole : forall (st y : Spec_Mem.mstate) i, nth_error st i = Some None -> nth_error (st ++ y) i = Some None.
Proof. intros st y i E. rewrite nth_error_app1; [exact E|]. apply nth_error_Some. rewrite E. discriminate. Qed.

Lemma sstep_hole : forall le op st o st' i, Spec_Mem.sstep le op st = Some (o, st') -> nth_error st i = Some None -> nth_error st' i = Some None.
Proof.
  intros le op st o st' i E H. destruct op; cbn [Spec_Mem.sstep] in E; unfold Spec_Mem.on in E;
    repeat (match type of E with
            | (if ?b then _ else _) = _ => destruct b; [discriminate|]
            | match Spec_Mem.alive ?s ?k with Some _ => _ | None => _ end = _ => let A := fresh "A" in destruct (Spec_Mem.alive s k) eqn:A; [|discriminate]
            | match ?d with Some _ => _ | None => _ end = _ => destruct d; [|discriminate]
            end);
    injection E as _ <-; first [exact H | apply add_hole; exact H | eapply put_hole; eassumption].
Qed.

Lemma receive_req : forall le net snet ds dec fr c d la ra y, M_Controller.ctrl_receive le net snet ds dec fr c d la ra = Ok y -> c_req (cr_ctrl (snd y)) = c_req c.
Proof.
  intros le net snet ds dec fr c d la ra y E. unfold M_Controller.ctrl_receive in E. apply bind_ok in E. destruct E as ([ok m] & _ & E). destruct ok; [|injection E as <-; reflexivity].
  apply bind_ok in E. destruct E as (r & _ & E). apply bind_ok in E. destruct E as (z & EZ & E). injection E as <-. cbn [snd].
  unfold M_Controller.uecho_controller_servermessagelistener in EZ. cbv zeta in EZ. apply bind_ok in EZ. destruct EZ as ([c1 sg] & EP & EZ).
  assert (K : c_req c1 = c_req c).
  { destruct (M_Controller.uecho_controller_ispostresponsewaiting _); [|injection EP as <- _; reflexivity].
    unfold M_Controller.uecho_controller_handlepostresponse in EP. apply bind_ok in EP. destruct EP as (b & _ & EP). destruct b; cbn [negb] in EP; [|injection EP as <- _; reflexivity].
    destruct (c_res _) as [|d0|r0]; [injection EP as <- _; reflexivity|destruct d0; [discriminate|injection EP as <- _; reflexivity]|].
    apply bind_ok in EP. destruct EP as (r1 & _ & EP). injection EP as <- _. reflexivity. }
  apply bind_ok in EZ. destruct EZ as (s & _ & EZ). destruct s.
  - apply bind_ok in EZ. destruct EZ as ([c2 t2] & E2 & EZ). injection EZ as <-. cbn [fst cr_ctrl]. rewrite <- K. eapply search_same. exact E2.
  - apply bind_ok in EZ. destruct EZ as (dc & _ & EZ). destruct (M_Node.uecho_node_getobjectbycode _ _); [|injection EZ as <-; exact K].
    destruct (M_Controller.uecho_controller_getnodebyaddress _ _); [|injection EZ as <-; exact K].
    apply bind_ok in EZ. destruct EZ as ([c2 t2] & E2 & EZ). injection EZ as <-. cbn [fst cr_ctrl]. rewrite <- K. eapply nodemsg_same. exact E2.
Qed.

Section Room.
Variable room : Z -> bool.
Hypothesis Room : forall n, room n = true.
Variable junk : nat -> Z.
Variable le : bool.
Variable net snet : post -> bool.
Variable dec : list (hcall * bool) -> hcall -> bool.
Variable db : Z.

(* the messages that wait for an answer are the caller's two that it may not use *)
Definition lent_ok (ms : list Z) (msgs : Spec_Mem.mstate) (lent : option (nat * nat)) (c : ctrl) (pq pr : Z) : Prop :=
  match lent with
  | None => forall a, c_req c <> MMsg a
  | Some (i, j) => i <> j /\ nth_error ms i = Some pq /\ nth_error ms j = Some pr /\ nth_error msgs i = Some None /\ nth_error msgs j = Some None /\ exists a, c_req c = MMsg a
  end.
Definition ctrl_part (x : hands) (st : kstate) (L : heaplet) : Prop :=
  match ks_ctrl st with
  | None => L = [] /\ ks_lent st = None
  | Some c => exists pq pr, ctrl_rep (in_ctrl x) c pq pr L /\ lent_ok (in_msgs x) (ks_msgs st) (ks_lent st) c pq pr
  end.
Definition kworld (x : hands) (st : kstate) (L : heaplet) : Prop :=
  exists Ln Lm Lc, Permutation L (Ln ++ Lm ++ Lc) /\ nworld db (in_objs x) (in_nodes x) (ks_nodes st) Ln /\ all_rep (in_msgs x) (ks_msgs st) Lm /\ ctrl_part x st Lc.
Definition kafter (v : kobs) (st : kstate) (F : heaplet) (r : kobs * hands) (L : heaplet) : Prop :=
  fst r = v /\ exists W, Permutation L (W ++ F) /\ kworld (snd r) st W.

Lemma lent_req : forall ms msgs lent c c' pq pr, lent_ok ms msgs lent c pq pr -> c_req c' = c_req c -> lent_ok ms msgs lent c' pq pr.
Proof. intros ms msgs [[i j]|] c c' pq pr H E; cbn [lent_ok] in *; rewrite E; exact H. Qed.
Lemma lent_put : forall ms msgs lent c pq pr i m m', lent_ok ms msgs lent c pq pr -> Spec_Mem.alive msgs i = Some m -> lent_ok ms (Spec_Mem.put i m' msgs) lent c pq pr.
Proof.
  intros ms msgs [[j k]|] c pq pr i m m' H A; cbn [lent_ok] in *; [|exact H]. destruct H as (H1 & H2 & H3 & H4 & H5 & H6). repeat (split; [assumption|]).
  split; [eapply put_hole; eassumption|]. split; [eapply put_hole; eassumption|exact H6].
Qed.

Lemma kend : forall v x ns msgs c lent pq pr Ln Lm C L F, nworld db (in_objs x) (in_nodes x) ns Ln -> all_rep (in_msgs x) msgs Lm -> ctrl_rep (in_ctrl x) c pq pr C ->
  lent_ok (in_msgs x) msgs lent c pq pr -> Permutation L (C ++ Ln ++ Lm ++ F) -> kafter v (mkKstate ns msgs (Some c) lent) F (v, x) L.
Proof.
  intros v x ns msgs c lent pq pr Ln Lm C L F NW AM CR LO P. split; [reflexivity|]. exists (Ln ++ Lm ++ C). split; [eapply perm_trans; [exact P|]; perm|].
  exists Ln, Lm, C. split; [apply Permutation_refl|]. split; [exact NW|]. split; [exact AM|]. exists pq, pr. split; [exact CR|exact LO].
Qed.

Lemma kworld_db : forall x st Ln, nworld db (in_objs x) (in_nodes x) (ks_nodes st) Ln -> exists Ld R, dlist db (Spec_ObjMem.s_db (ns_own (ks_nodes st))) Ld /\ Permutation Ln (Ld ++ R).
Proof.
  intros x st Ln (Lw & Lo & P & (Ls & Ld & P2 & _ & D) & _). exists Ld, (Ls ++ Lo). split; [exact D|]. eapply perm_trans; [exact P|].
  eapply perm_trans; [apply Permutation_app_tail; exact P2|]. perm.
Qed.

Lemma nworld_perm : forall ps ns st L L', nworld db ps ns st L -> Permutation L' L -> nworld db ps ns st L'.
Proof. intros ps ns st L L' (Lw & Ln & P & W) PL. exists Lw, Ln. split; [eapply perm_trans; [exact PL|exact P]|exact W]. Qed.

Lemma wp_kstep : forall op x st v st' L W F, kvalue junk le net snet dec op st = Some (v, st') -> kargs_ok op -> krules op st -> ginv (ns_own (ks_nodes st)) -> kworld x st W ->
  Permutation L (W ++ F) -> wp (kstep room junk le net snet dec db op x) L (kafter v st' F).
Proof.
  intros op x st v st' L W F E AO RU G (Ln & Lm & Lc & PW & NW & AM & CP) P.
  assert (P1 : Permutation L (Ln ++ Lm ++ Lc ++ F)).
  { eapply perm_trans; [exact P|]. eapply perm_trans; [apply Permutation_app_tail; exact PW|]. perm. }
  clear P. rename P1 into P. eapply wp_perm; [exact P|]. clear P PW W.
  assert (CC : forall (f : ctrl -> option (kobs * kstate)), given (ks_ctrl st) f = Some (v, st') -> exists c pq pr, ks_ctrl st = Some c /\ f c = Some (v, st')
     /\ ctrl_rep (in_ctrl x) c pq pr Lc /\ lent_ok (in_msgs x) (ks_msgs st) (ks_lent st) c pq pr).
  { intros f EF. unfold ctrl_part in CP. destruct (ks_ctrl st) as [c|]; [|discriminate]. destruct CP as (pq & pr & CP). exists c, pq, pr. split; [reflexivity|]. split; [exact EF|exact CP]. }
  destruct op; cbn [kvalue kstep kargs_ok krules] in *; cbv zeta.
  - (* KNodes *)
    destruct (nvalue junk le net dec op (ks_nodes st)) as [[u st1]|] eqn:EV; [|discriminate]. injection E as <- <-.
    apply wp_bind. eapply wp_conseq; [eapply (wp_nstep room Room junk le net dec db op (in_objs x) (in_nodes x) (ks_nodes st) u st1 _ Ln (Lm ++ Lc ++ F)); [exact EV|exact AO|exact RU|exact G|exact NW|apply Permutation_refl]|].
    cbv beta. intros [[r ps'] ns'] L' (EO & W' & P' & NW'). cbn [fst snd] in *. subst r. apply wp_ret. split; [reflexivity|]. exists (W' ++ Lm ++ Lc).
    split; [eapply perm_trans; [exact P'|]; perm|]. exists W', Lm, Lc. split; [apply Permutation_refl|]. split; [exact NW'|]. split; [exact AM|exact CP].
  - (* KMsg *)
    destruct (Spec_Mem.sstep le op (ks_msgs st)) as [[u ms]|] eqn:EV; [|discriminate]. injection E as <- <-.
    apply wp_bind. eapply wp_conseq; [eapply (wp_grows _ _ snd (in_msgs x)); [apply hstep_grows|eapply (P_MemRun.wp_step room Room le op (in_msgs x) (ks_msgs st) u ms _ Lm (Ln ++ Lc ++ F)); [exact EV|exact AO|exact AM|perm]]|].
    cbv beta. intros [r ps'] L' ((EO & Ls & P' & AM') & (y & EY)). cbn [fst snd] in *. subst r ps'. apply wp_ret. split; [reflexivity|]. exists (Ln ++ Ls ++ Lc).
    split; [eapply perm_trans; [exact P'|]; perm|]. exists Ln, Ls, Lc. split; [apply Permutation_refl|]. split; [exact NW|]. split; [exact AM'|].
    unfold ctrl_part in *. cbn [ks_ctrl ks_lent ks_msgs in_ctrl in_msgs snd]. destruct (ks_ctrl st) as [c|]; [|exact CP]. destruct CP as (pq & pr & CR & LO). exists pq, pr. split; [exact CR|].
    destruct (ks_lent st) as [[i j]|]; cbn [lent_ok] in *; [|exact LO]. destruct LO as (H1 & H2 & H3 & H4 & H5 & H6). split; [exact H1|].
    split; [apply grown_nth; exact H2|]. split; [apply grown_nth; exact H3|]. split; [eapply sstep_hole; eassumption|]. split; [eapply sstep_hole; eassumption|exact H6].
  - (* KNew *)
    unfold ctrl_part in CP. destruct (ks_ctrl st) as [c|]; [discriminate|]. destruct CP as [-> LE]. unfold try in E.
    destruct (M_Controller.uecho_controller_new le net (Spec_ObjMem.s_db (ns_own (ks_nodes st))) fr (negb (wild =? 0))) as [[c posts]|] eqn:EN; [|discriminate]. injection E as <- <-.
    destruct (kworld_db _ _ _ NW) as (Ld & R & DL & PD). cbn [app]. apply wp_bind.
    eapply (wp_ctrl_new room Room le net db wild fr _ Ld c posts _ (R ++ Lm ++ F)); [exact DL|apply G| |exact EN|].
    { eapply perm_trans; [apply Permutation_app_tail; exact PD|]. perm. }
    intros ct C CR. apply wp_ret. split; [reflexivity|]. exists (Ln ++ Lm ++ C). split.
    { eapply (perm_trans (l' := (Ld ++ R) ++ Lm ++ C ++ F)); [perm|]. eapply perm_trans; [apply Permutation_app_tail, Permutation_sym; exact PD|]. perm. }
    exists Ln, Lm, C. split; [apply Permutation_refl|]. split; [exact NW|]. split; [exact AM|]. cbn [ctrl_part ks_ctrl ks_lent]. exists wild, 0. split; [exact CR|].
    intros a X. unfold M_Controller.uecho_controller_new in EN. apply bind_ok in EN. destruct EN as (z & _ & EN). injection EN as <- _. discriminate X.
  - (* KDelete *)
    destruct (CC _ E) as (c & pq & pr & EC & E' & CR & LO). cbn [ctrl_call] in E'. destruct (ks_lent st) as [ij|] eqn:EL; [discriminate|]. injection E' as <- <-.
    apply wp_bind. eapply (wp_ctrl_delete (in_ctrl x) c pq pr Lc _ (Ln ++ Lm ++ F)); [exact CR|exact LO|perm|]. apply wp_ret. split; [reflexivity|]. exists (Ln ++ Lm). split; [perm|].
    exists Ln, Lm, []. split; [rewrite app_nil_r; apply Permutation_refl|]. split; [exact NW|]. split; [exact AM|]. split; reflexivity.
  - (* KStart *)
    destruct (CC _ E) as (c & pq & pr & EC & E' & CR & LO). cbn [ctrl_call] in E'. unfold try in E'. destruct (M_Controller.uecho_controller_start le net up c) as [[[c' posts] b]|] eqn:EV; [|discriminate]. injection E' as <- <-.
    apply wp_bind. eapply (wp_ctrl_start room Room le net (in_ctrl x) c pq pr Lc up c' posts b _ (Ln ++ Lm ++ F)); [exact CR|perm|exact EV|]. intros C' CR'. apply wp_ret.
    assert (RQ : c_req c' = c_req c).
    { unfold M_Controller.uecho_controller_start in EV. apply bind_ok in EV. destruct EV as ([[n1 q1] b1] & _ & EV). injection EV as <- _ _. reflexivity. }
    eapply kend; [exact NW|exact AM|exact CR'|eapply lent_req; [exact LO|exact RQ]|apply Permutation_refl].
  - (* KListen *)
    destruct (CC _ E) as (c & pq & pr & EC & E' & CR & LO). cbn [ctrl_call] in E'. injection E' as <- <-. apply wp_bind.
    eapply (wp_ctrl_listen (in_ctrl x) c pq pr Lc b _ (Ln ++ Lm ++ F)); [exact CR|perm|]. intros C' CR'. apply wp_ret.
    eapply kend; [exact NW|exact AM|exact CR'|eapply lent_req; [exact LO|reflexivity]|apply Permutation_refl].
  - (* KWatch *)
    destruct (CC _ E) as (c & pq & pr & EC & E' & CR & LO). cbn [ctrl_call] in E'. injection E' as <- <-. apply wp_bind.
    eapply (wp_ctrl_watch (in_ctrl x) c pq pr Lc b _ (Ln ++ Lm ++ F)); [exact CR|perm|]. intros C' CR'. apply wp_ret.
    eapply kend; [exact NW|exact AM|exact CR'|eapply lent_req; [exact LO|reflexivity]|apply Permutation_refl].
  - (* KEnable *)
    destruct (CC _ E) as (c & pq & pr & EC & E' & CR & LO). cbn [ctrl_call] in E'. injection E' as <- <-. apply wp_bind. unfold uecho_controller_enableoption.
    eapply (wp_ctrl_option (fun o => Z.lor o param) (in_ctrl x) c pq pr Lc _ (Ln ++ Lm ++ F)); [exact CR|perm|]. intros C' CR'. apply wp_ret.
    eapply kend; [exact NW|exact AM|exact CR'|eapply lent_req; [exact LO|reflexivity]|apply Permutation_refl].
  - (* KDisable *)
    destruct (CC _ E) as (c & pq & pr & EC & E' & CR & LO). cbn [ctrl_call] in E'. injection E' as <- <-. apply wp_bind. unfold uecho_controller_disableoption.
    eapply (wp_ctrl_option (fun o => Z.lxor o param) (in_ctrl x) c pq pr Lc _ (Ln ++ Lm ++ F)); [exact CR|perm|]. intros C' CR'. apply wp_ret.
    eapply kend; [exact NW|exact AM|exact CR'|eapply lent_req; [exact LO|reflexivity]|apply Permutation_refl].
  - (* KEnabled *)
    destruct (CC _ E) as (c & pq & pr & EC & E' & CR & LO). cbn [ctrl_call] in E'. injection E' as <- <-. apply wp_bind.
    eapply (wp_ctrl_enabled (in_ctrl x) c pq pr Lc param _ (Ln ++ Lm ++ F)); [exact CR|perm|]. apply wp_ret.
    destruct st as [sn sm sc sl]. cbn [ks_nodes ks_msgs ks_ctrl ks_lent] in *. subst sc. eapply kend; [exact NW|exact AM|exact CR|exact LO|perm].
  - (* KLocal *)
    destruct (CC _ E) as (c & pq & pr & EC & E' & CR & LO). cbn [ctrl_call] in E'.
    destruct (nvalue junk le net dec op (mkNstate (ns_own (ks_nodes st)) [Some (c_node c)])) as [[u st1]|] eqn:EV; [|discriminate]. cbn [given fst snd] in E'.
    destruct (ns_nodes st1) as [|[n|] [|z l]] eqn:E1; try discriminate. injection E' as <- <-.
    destruct (ctrl_open (in_ctrl x) c pq pr Lc (Ln ++ Lm ++ Lc ++ F) (Ln ++ Lm ++ F) CR) as (ps & N & Ls & Lp & CI & <- & <- & P'); [perm|]. eapply wp_perm; [exact P'|].
    apply wp_bind. eapply wp_load_elem; [left; reflexivity|]. cbn [snd].
    destruct NW as (Lw & Lo & PN & WO & AN). pose proof CI as (_ & NH & _).
    set (T := (in_ctrl x, BElem 0 0 (c_option c) ps) :: (ctrl_mutex ps, BRec []) :: (ctrl_cond ps, BRec []) :: Ls ++ Lp).
    apply wp_bind. eapply wp_conseq; [eapply (wp_grows _ _ snd [ctrl_node ps]); [apply nstep_grows|
      eapply (wp_nstep room Room junk le net dec db op (in_objs x) [ctrl_node ps] (mkNstate (ns_own (ks_nodes st)) [Some (c_node c)]) u st1 _ (Lw ++ N) (T ++ Lo ++ Lm ++ F)); [exact EV|exact AO|destruct op; exact RU|exact G| |]]|].
    { exists Lw, N. split; [apply Permutation_refl|]. split; [exact WO|]. exists N, []. split; [rewrite app_nil_r; apply Permutation_refl|]. split; [exact NH|reflexivity]. }
    { unfold T. eapply (perm_trans (l' := Ln ++ (in_ctrl x, BElem 0 0 (c_option c) ps) :: (ctrl_mutex ps, BRec []) :: (ctrl_cond ps, BRec []) :: N ++ Ls ++ Lp ++ Lm ++ F)); [perm|].
      eapply perm_trans; [apply Permutation_app_tail; exact PN|]. cbn [app]. perm. }
    cbv beta. intros [[r ps'] ns'] L' ((EO & W' & PW' & (Lw' & Ln' & PW2 & WO' & AN')) & (y & EY)). cbn [fst snd] in *. subst r ns'. rewrite E1 in AN'.
    destruct AN' as (N' & Lz & PZ & NH' & AZ). destruct y; [|contradiction]. cbn [all_nodes app] in AZ. subst Lz. rewrite app_nil_r in PZ.
    apply wp_ret. cbn [fst snd].
    eapply (kend _ (mkHands ps' (in_nodes x) (in_msgs x) (in_ctrl x)) (mkNstate (ns_own st1) (ns_nodes (ks_nodes st))) (ks_msgs st) (c_with_node n c) (ks_lent st) _ _ (Lw' ++ Lo) Lm);
      [|exact AM|apply ctrl_close; eapply ctrl_with_node; [exact CI|exact NH']|eapply lent_req; [exact LO|reflexivity]|].
    { exists Lw', Lo. split; [apply Permutation_refl|]. split; [exact WO'|exact AN]. }
    eapply perm_trans; [exact PW'|]. eapply perm_trans; [apply Permutation_app_tail; exact PW2|]. eapply perm_trans; [apply Permutation_app_tail, Permutation_app_head; exact PZ|].
    unfold T. cbn [app c_with_node c_option in_ctrl]. perm.
  - (* KSearch *)
    destruct (CC _ E) as (c & pq & pr & EC & E' & CR & LO). cbn [ctrl_call] in E'. unfold try in E'. destruct (M_Controller.uecho_controller_searchwithesv le net c esv) as [s|] eqn:EV; [|discriminate]. injection E' as <- <-.
    apply wp_bind. eapply (wp_ctrl_search room Room le net (in_ctrl x) c pq pr Lc esv s _ (Ln ++ Lm ++ F)); [exact CR|perm|exact EV|]. intros C' CR'. apply wp_ret.
    eapply kend; [exact NW|exact AM|exact CR'|eapply lent_req; [exact LO|reflexivity]|apply Permutation_refl].
  - (* KSearchObject *)
    destruct (CC _ E) as (c & pq & pr & EC & E' & CR & LO). cbn [ctrl_call] in E'. unfold try in E'. destruct (M_Controller.uecho_controller_searchobjectwithesv le net c code esv) as [s|] eqn:EV; [|discriminate]. injection E' as <- <-.
    apply wp_bind. eapply (wp_ctrl_searchobject room Room le net (in_ctrl x) c pq pr Lc code esv s _ (Ln ++ Lm ++ F)); [exact CR|perm|exact EV|]. intros C' CR'. apply wp_ret.
    eapply kend; [exact NW|exact AM|exact CR'|eapply lent_req; [exact LO|reflexivity]|apply Permutation_refl].
  - (* KAnnounce *)
    destruct (CC _ E) as (c & pq & pr & EC & E' & CR & LO). cbn [ctrl_call] in E'. destruct (Spec_Mem.alive (ks_msgs st) i) as [m|] eqn:EM; [|discriminate]. cbn [given] in E'. unfold try in E'.
    destruct (M_Controller.uecho_controller_announcemessage le net c m) as [s|] eqn:EV; [|discriminate]. injection E' as <- <-.
    destruct (all_one _ _ _ _ _ AM EM) as (q & cm & L1 & L2 & EQ & PQ & RM & _ & BACK).
    apply wp_bind. eapply wp_handle; [exact EQ|].
    apply wp_bind. eapply (wp_ctrl_annmsg room Room le net (in_ctrl x) c pq pr Lc q m cm L1 s _ (Ln ++ L2 ++ F)); [exact CR|exact RM| |exact EV|].
    { eapply perm_trans; [apply Permutation_app_head, Permutation_app_tail; exact PQ|]. perm. }
    intros C' c' Lm' CR' RM'. apply wp_ret.
    eapply kend; [exact NW|eapply BACK; exact RM'|exact CR'|eapply lent_req; [eapply lent_put; [exact LO|exact EM]|reflexivity]|perm].
  - (* KSend *)
    destruct (CC _ E) as (c & pq & pr & EC & E' & CR & LO). cbn [ctrl_call] in E'. destruct (Spec_Mem.alive (ks_msgs st) i) as [m|] eqn:EM; [|discriminate]. cbn [given] in E'.
    destruct (all_one _ _ _ _ _ AM EM) as (q & cm & L1 & L2 & EQ & PQ & RM & _ & BACK).
    assert (P' : Permutation (Ln ++ Lm ++ Lc ++ F) (Lc ++ L1 ++ Ln ++ L2 ++ F)).
    { eapply perm_trans; [apply Permutation_app_head, Permutation_app_tail; exact PQ|]. perm. }
    apply wp_bind. eapply wp_handle; [exact EQ|]. apply wp_assoc2. apply wp_bind.
    eapply (wp_ctrl_send room Room le net (in_ctrl x) c pq pr Lc a code q m cm L1 _ (Ln ++ L2 ++ F)); [exact CR|exact RM|exact P'|exact AO|].
    destruct (seen_at c a code) as [[n o]|].
    + unfold try in E'. destruct (M_Controller.uecho_object_sendmessage le net c n o m) as [s|] eqn:EV; [|discriminate]. injection E' as <- <-. exists s. split; [reflexivity|].
      intros C' c' Lm' CR' RM'. apply wp_ret.
      eapply kend; [exact NW|eapply BACK; exact RM'|exact CR'|eapply lent_req; [eapply lent_put; [exact LO|exact EM]|reflexivity]|perm].
    + injection E' as <- <-. apply wp_ret. destruct st as [sn sm sc sl]. cbn [ks_nodes ks_msgs ks_ctrl ks_lent] in *. subst sc. eapply kend; [exact NW|exact AM|exact CR|exact LO|perm].
  - (* KPost *)
    destruct (CC _ E) as (c & pq & pr & EC & E' & CR & LO). cbn [ctrl_call] in E'. destruct (ks_lent st) as [ij|] eqn:EL; [discriminate|]. destruct (Nat.eqb_spec i j) as [|NE]; [discriminate|].
    destruct (Spec_Mem.alive (ks_msgs st) i) as [m|] eqn:EM; [|discriminate]. cbn [given] in E'. destruct (Spec_Mem.alive (ks_msgs st) j) as [m2|] eqn:EM2; [|discriminate]. cbn [given] in E'.
    destruct (all_take i _ _ _ _ AM EM) as (q & cm & L1 & Lr & EQ & PQ & RM & AM1).
    assert (EM3 : Spec_Mem.alive (Spec_Mem.put i None (ks_msgs st)) j = Some m2) by (unfold Spec_Mem.alive; rewrite P_MemRun.put_other by exact NE; exact EM2).
    destruct (all_take j _ _ _ _ AM1 EM3) as (p & cm2 & L2 & L3 & EP & PQ2 & RM2 & AM2).
    assert (HI : nth_error (Spec_Mem.put i None (ks_msgs st)) i = Some None) by (apply P_MemRun.put_nth, nth_error_Some; rewrite (alive_nth _ _ _ EM); discriminate).
    assert (HJ : nth_error (Spec_Mem.put j None (Spec_Mem.put i None (ks_msgs st))) j = Some None) by (apply P_MemRun.put_nth, nth_error_Some; rewrite (alive_nth _ _ _ EM3); discriminate).
    assert (HI2 : nth_error (Spec_Mem.put j None (Spec_Mem.put i None (ks_msgs st))) i = Some None) by (rewrite P_MemRun.put_other by auto; exact HI).
    assert (BACK : forall m' c' L1', msg_rep q m' c' L1' -> all_rep (in_msgs x) (Spec_Mem.put i (Some m') (ks_msgs st)) (L1' ++ L2 ++ L3)).
    { intros m' c' L1' RM'. pose proof (all_back j _ _ _ _ _ _ _ AM2 EP HJ RM2) as A1. rewrite P_MemRun.put_put in A1.
      rewrite (P_MemRun.put_same j m2 _ EM3) in A1. pose proof (all_back i _ _ _ _ _ _ _ A1 EQ HI RM') as A2. rewrite P_MemRun.put_put in A2. exact A2. }
    assert (P' : Permutation (Ln ++ Lm ++ Lc ++ F) (Lc ++ L1 ++ L2 ++ Ln ++ L3 ++ F)).
    { eapply perm_trans; [apply Permutation_app_head, Permutation_app_tail; exact PQ|]. eapply perm_trans; [apply Permutation_app_head, Permutation_app_tail, Permutation_app_head; exact PQ2|]. perm. }
    apply wp_bind. eapply wp_handle; [exact EQ|]. apply wp_bind. eapply wp_handle; [exact EP|]. apply wp_assoc2. apply wp_bind.
    eapply (wp_ctrl_post room Room le net (in_ctrl x) c pq pr Lc a q m cm L1 p m2 cm2 L2 _ (Ln ++ L3 ++ F)); [exact CR|exact LO|exact RM|exact RM2|exact P'|exact AO|].
    destruct (M_Controller.uecho_controller_getnodebyaddress c (Some a)) as [n|].
    + unfold try in E'. destruct (M_Controller.uecho_controller_sendmessage le net c n m) as [s|] eqn:EV; [|discriminate]. cbv zeta in E'. exists s. split; [reflexivity|].
      intros C' c' Lm' RM'. destruct (s_ret s); injection E' as <- <-; intro CR'; apply wp_ret.
      * eapply kend; [exact NW|rewrite P_MemRun.put_comm by exact NE; exact AM2|exact CR'| |perm].
        cbn [lent_ok]. rewrite P_MemRun.put_comm by exact NE. split; [exact NE|]. split; [exact EQ|]. split; [exact EP|]. split; [exact HI2|]. split; [exact HJ|]. eexists. reflexivity.
      * unfold with_message, with_ctrl. cbn [ks_nodes ks_msgs ks_ctrl ks_lent]. rewrite EL.
        eapply kend; [exact NW|eapply BACK; exact RM'|exact CR'|intros z X; discriminate X|perm].
    + injection E' as <- <-. intros C' CR'. apply wp_ret. unfold with_ctrl. rewrite EL.
      eapply kend; [exact NW|exact AM|exact CR'|intros z X; discriminate X|].
      eapply (perm_trans (l' := C' ++ Ln ++ (L1 ++ L2 ++ L3) ++ F)); [perm|]. apply Permutation_app_head, Permutation_app_head, Permutation_app_tail.
      apply Permutation_sym. eapply perm_trans; [exact PQ|]. apply Permutation_app_head. exact PQ2.
  - (* KWait *)
    destruct (CC _ E) as (c & pq & pr & EC & E' & CR & LO). cbn [ctrl_call] in E'. destruct (ks_lent st) as [[i j]|] eqn:EL; [|discriminate].
    destruct (c_req c) as [| |q] eqn:Q1; try discriminate. destruct (c_res c) as [| |p] eqn:Q2; try discriminate. injection E' as <- <-.
    destruct LO as (NE & EQ & EP & HI & HJ & _).
    apply wp_bind. eapply (wp_ctrl_wait (in_ctrl x) c pq pr Lc q p _ (Ln ++ Lm ++ F)); [exact CR|exact Q1|exact Q2|perm|].
    intros C' cm cm2 L1 L2 CR' RM RM2. apply wp_ret.
    eapply (kend _ _ _ _ _ _ _ _ Ln (L1 ++ L2 ++ Lm)); [exact NW| |exact CR'|intros z X; discriminate X|perm].
    eapply all_back; [|exact EQ|rewrite P_MemRun.put_other by auto; exact HI|exact RM]. eapply all_back; [exact AM|exact EP|exact HJ|exact RM2].
  - (* KReceive *)
    destruct (CC _ E) as (c & pq & pr & EC & E' & CR & LO). cbn [ctrl_call] in E'. unfold try in E'.
    destruct (M_Controller.ctrl_receive le net snet (Spec_ObjMem.s_db (ns_own (ks_nodes st))) dec fr c (firstn M_Server.RECV_BUFSIZE d) local (Some from)) as [y|] eqn:EV; [|discriminate]. injection E' as <- <-.
    destruct (kworld_db _ _ _ NW) as (Ld & R & DL & PD). destruct AO as (B & T1 & T2).
    apply wp_bind. eapply (wp_ctrl_receive room Room le net snet dec db fr (in_ctrl x) c pq pr Lc d from local y _ Ld _ (R ++ Lm ++ F)); [exact CR| |exact DL|apply G|exact B|exact T1|exact T2| |exact EV|].
    { eapply perm_trans; [apply Permutation_app_tail; exact PD|]. perm. }
    { apply Forall_forall. intros n IN. apply Forall_forall. intros o IO. exact (RU c n o EC IN IO). }
    intros C' CR'. apply wp_ret. cbn [fst snd].
    eapply kend; [exact NW|exact AM|exact CR'|eapply lent_req; [exact LO|eapply receive_req; exact EV]|].
    eapply (perm_trans (l' := C' ++ (Ld ++ R) ++ Lm ++ F)); [perm|]. apply Permutation_app_head, Permutation_app_tail, Permutation_sym. exact PD.
  - (* KCount *)
    destruct (CC _ E) as (c & pq & pr & EC & E' & CR & LO). cbn [ctrl_call] in E'. injection E' as <- <-. apply wp_bind.
    eapply (wp_ctrl_count (in_ctrl x) c pq pr Lc _ (Ln ++ Lm ++ F)); [exact CR|perm|]. apply wp_ret.
    destruct st as [sn sm sc sl]. cbn [ks_nodes ks_msgs ks_ctrl ks_lent] in *. subst sc. eapply kend; [exact NW|exact AM|exact CR|exact LO|perm].
  - (* KRead *)
    destruct (CC _ E) as (c & pq & pr & EC & E' & CR & LO). cbn [ctrl_call] in E'. injection E' as <- <-.
    eapply (wp_ctrl_read (in_ctrl x) c pq pr Lc a code _ (fun s => (XObject s, x)) _ (Ln ++ Lm ++ F)); [exact CR|perm|exact AO|].
    destruct st as [sn sm sc sl]. cbn [ks_nodes ks_msgs ks_ctrl ks_lent] in *. subst sc. eapply kend; [exact NW|exact AM|exact CR|exact LO|perm].
  - (* KFind *)
    destruct (CC _ E) as (c & pq & pr & EC & E' & CR & LO). cbn [ctrl_call] in E'. injection E' as <- <-.
    eapply (wp_ctrl_find (in_ctrl x) c pq pr Lc code _ (fun s => (XObject s, x)) _ (Ln ++ Lm ++ F)); [exact CR|perm|].
    destruct st as [sn sm sc sl]. cbn [ks_nodes ks_msgs ks_ctrl ks_lent] in *. subst sc. eapply kend; [exact NW|exact AM|exact CR|exact LO|perm].
Qed.
End Room.
