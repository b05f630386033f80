(* A node in the heap as one assertion, and every call on it. *)
From Coq Require Import String Ascii ZArith List Bool Lia Permutation.
From Coq Require Import ZifyBool ZifyNat.
Ltac Zify.zify_post_hook ::= Z.div_mod_to_equations.
From Verif Require Import CSem P_Base M_Const M_Misc M_String M_Property M_PropertyList P_PropertyList M_Log M_Message M_Object M_Node M_NodeListener
  M_Mem M_MemUse M_ObjMem M_Life M_NodeMem M_NodeLife Spec_Message P_Mem P_MemMsg P_MemParse P_MemProp P_MemBytes P_MemCopy P_MemPkt P_MemRun P_Ring P_ObjProp P_ObjCache P_ObjMem P_ObjUse P_ObjStd
  P_Object P_ObjectRun P_ObjectReach P_ObjRun P_Life P_LifeRun P_NodeMem P_NodeRecv P_NodeLife P_NodeBuild P_NodeAlive Properties_Object.
From Verif Require Properties_Life P_MemRecv Spec_Mem.
Import ListNotations.
Open Scope Z_scope.
From Verif Require M_ObjUse Spec_ObjMem M_Server.
Notation server_at := Properties_Life.server_at.

(* where a node is: the observers of its server, its controller and its neighbours in a list *)
Record place : Type := mkPlace { at_obs : list Z; at_ctrl : Z; at_prev : Z; at_next : Z }.
Definition alone (nd : Z) : place := mkPlace [nd] 0 nd nd.

(* the lock, the server and the address of a node, its listener and its controller *)
Definition extra (w : place) (ps : list Z) (n : node) (Lx : heaplet) : Prop :=
  exists Ls La, server_at (node_server ps) (at_obs w) Ls /\ str_rep (node_address ps) (option_map cstr (n_addr n)) La
   /\ n_listener n = negb (node_msglistener ps =? 0) /\ nth 6 ps 0 = at_ctrl w /\ Permutation Lx ((node_mutex ps, BRec []) :: Ls ++ La).
Definition node_in (w : place) (nd : Z) (n : node) (L : heaplet) : Prop :=
  exists ps Lr Lc Lx, length ps = 7%nat /\ held nd (at_prev w) (at_next w) ps n Lr Lc /\ extra w ps n Lx
   /\ Permutation L ((nd, nblk (at_prev w) (at_next w) ps (n_tid n)) :: Lr ++ Lc ++ Lx).
Notation node_rep nd := (node_in (alone nd) nd).

Definition apart (n n' : node) : Prop := n_addr n' = n_addr n /\ n_listener n' = n_listener n.
Lemma keeps_apart : forall n n', keeps n n' -> apart n n'.
Proof. intros n n' (_ & A & B). split; assumption. Qed.
Lemma extra_apart : forall w ps n n' Lx, extra w ps n Lx -> apart n n' -> extra w ps n' Lx.
Proof. intros w ps n n' Lx (Ls & La & A & B & C & C2 & D) (K2 & K3). exists Ls, La. rewrite K2, K3. auto. Qed.
Lemma update_apart : forall le net n n' posts ok, M_Node.uecho_node_updatenodeprofileclass le net n = Ok (n', posts, ok) -> apart n n'.
Proof.
  intros le net n n' posts ok E. unfold M_Node.uecho_node_updatenodeprofileclass in E. destruct (M_Node.uecho_node_getobjectbycode n uEchoNodeProfileObject).
  - apply bind_ok in E. destruct E as ([n2 p2] & E & X). injection X as <- <- <-. apply op_keeps in E. apply keeps_apart. exact E.
  - injection E as <- <- <-. split; reflexivity.
Qed.
Lemma add_apart : forall le net n o n' posts ok, M_Node.uecho_node_addobject le net n o = Ok (n', posts, ok) -> apart n n'.
Proof.
  intros le net n o n' posts ok E. unfold M_Node.uecho_node_addobject in E. destruct (M_Node.uecho_node_getobjectbycode n (M_Object.uecho_object_getcode o)).
  - injection E as <- <- <-. split; reflexivity.
  - apply update_apart in E. exact E.
Qed.
Lemma set_apart : forall le net db junk n code n' posts ok, M_Node.uecho_node_setobject le net db junk n code = Ok (n', posts, ok) -> apart n n'.
Proof.
  intros le net db junk n code n' posts ok E. unfold M_Node.uecho_node_setobject in E. destruct (M_Node.uecho_node_getobjectbycode n code).
  - injection E as <- <- <-. split; reflexivity.
  - apply bind_ok in E. destruct E as (r & _ & E). eapply add_apart. exact E.
Qed.

Section Room.
Variable room : Z -> bool.
Hypothesis Room : forall n, room n = true.
Variable junk : nat -> Z.
Variable le : bool.
Variable net : post -> bool.
Variable dec : list (hcall * bool) -> hcall -> bool.
Variable db : Z.

(* ---- new and delete ---- *)

Lemma wp_node_new : forall ds Ld t man uniq n posts L F (Q : _ -> heaplet -> Prop), dlist db ds Ld -> Forall einv ds -> Permutation L (Ld ++ F) ->
  M_Node.uecho_node_new le net ds t junk man uniq = Ok (n, posts) ->
  (forall nd N, node_rep nd n N -> Q (nd, posts) (N ++ Ld ++ F)) -> wp (uecho_node_new room junk le net db t man uniq) L Q.
Proof.
  intros ds Ld t man uniq n posts L F Q D ED P E H. unfold M_Node.uecho_node_new in E. apply bind_ok in E. destruct E as (o & EO & E).
  apply bind_ok in E. destruct E as ([[n1 posts1] ok] & EA & E). injection E as <- <-.
  eapply wp_perm; [exact P|]. clear L P. unfold uecho_node_new.
  apply wp_bind, wp_malloc; [exact Room|]. intros nd PN _. rewrite (pos_nz nd) by exact PN.
  unfold box_new, list_new, uecho_objectlist_new.
  apply wp_bind, wp_malloc; [exact Room|]. intros m PM _. apply wp_bind, wp_malloc; [exact Room|]. intros c PC _. apply wp_bind, wp_malloc; [exact Room|]. intros ol PO _.
  apply wp_bind. eapply wp_server_new; [exact Room|]. intros s Ls PS SA.
  apply wp_bind. eapply (wp_server_observe room Room s [] nd Ls); [exact SA|apply Permutation_refl|]. clear Ls SA. intros Ls SA. cbn [app] in SA.
  apply wp_bind. apply (wp_string_new room Room). intros a PA. apply wp_bind. eapply wp_store; [find_x|].
  apply wp_bind. eapply (wp_profile_new room Room junk db ds Ld man uniq o _
    ((nd, nblk nd nd [m; c; ol; s; a; 0; 0] t) :: [(ol, BHead ol ol)] ++ [(c, BHead c c)] ++ (m, BRec []) :: (a, BStr (mkCstring 0 0 0)) :: Ls ++ F)); [exact D|exact ED|unfold nblk; cbn [app]; perm|exact EO|].
  intros x Lo PX OA.
  apply wp_bind. eapply (wp_naddobject room Room junk le net nd nd nd [m; c; ol; s; a; 0; 0] (mkNode t [] [] None false) [(ol, BHead ol ol)] [(c, BHead c c)] x o Lo n1 posts1 ok _
    (Ld ++ (m, BRec []) :: (a, BStr (mkCstring 0 0 0)) :: Ls ++ F)); [|exact OA|cbn [n_tid]; perm|exact EA| |].
  - split; [apply pos_nz; exact PN|]. split; [cbn; apply pos_nz; exact PS|]. split; [apply rlist_new|]. exists []. split; [apply rlist_new|reflexivity].
  - intros o0 X. discriminate X.
  - intros Lr Lc _ HE. apply wp_bind. unfold M_NodeMem.uecho_node_setlasttid. eapply P_NodeMem.wp_set_code; [apply Permutation_refl|].
    apply wp_post, wp_ret. eexists. split; [|apply (H nd (((nd, nblk nd nd [m; c; ol; s; a; 0; 0] 0) :: Lr ++ Lc ++ (m, BRec []) :: (a, BStr (mkCstring 0 0 0)) :: Ls)))].
    + unfold nblk. cbn [app]. perm.
    + exists [m; c; ol; s; a; 0; 0], Lr, Lc, ((m, BRec []) :: (a, BStr (mkCstring 0 0 0)) :: Ls). split; [reflexivity|]. split.
      { destruct HE as (A & B & C & C2). split; [exact A|]. split; [exact B|]. split; [exact C|exact C2]. }
      split; [|apply Permutation_refl].
      apply add_apart in EA. destruct EA as [EA1 EA2]. exists Ls, [(a, BStr (mkCstring 0 0 0))]. split; [exact SA|]. split.
      { cbn [n_with_tid M_Node.uecho_node_setlasttid n_addr]. rewrite EA1. reflexivity. }
      split; [cbn; exact EA2|]. split; [reflexivity|]. cbn [node_mutex nth]. perm.
Qed.

Lemma wp_objs_delete : forall nd ol objs Lr L F (Q : unit -> heaplet -> Prop), rlist (nbody nd) ol objs Lr -> Permutation L (Lr ++ F) -> Q tt F ->
  wp (uecho_objectlist_delete ol) L Q.
Proof.
  intros nd ol objs Lr L F Q D P H. unfold uecho_objectlist_delete.
  destruct (rlist_head _ _ _ _ _ D) as (u & v & IH).
  eapply (wp_pos _ _ _ _ ol); [eapply Permutation_in; [apply Permutation_sym; exact P|]; apply in_or_app; left; exact IH|intro PD].
  rewrite (pos_nz ol) by exact PD. apply wp_bind. eapply (P_Ring.wp_clear _ _ object_destructor ol objs Lr L F); [exact D|exact P| |].
  - intros a k o Lx L' F' R OB FK _ P' _ HR. unfold object_destructor. apply wp_bind.
    eapply (wp_obj_delete nd a o ((a, set_links a a k) :: Lx) _ F'); [apply nbody_at; exact OB|exact P'|]. apply wp_ret. exact HR.
  - eapply wp_free; [apply pf_here|exact H].
Qed.

Lemma wp_node_delete : forall w nd n N L F (Q : bool -> heaplet -> Prop), at_prev w = nd -> at_next w = nd -> node_in w nd n N -> Permutation L (N ++ F) -> Q true F -> wp (uecho_node_delete nd) L Q.
Proof.
  intros w nd n N L F Q W1 W2 (ps & Lr & Lc & Lx & L7 & (ND & SV & RO & cls & RC & _) & (Ls & La & SA & ST & _ & _ & PX) & PN) P H.
  eapply wp_perm; [eapply perm_trans; [exact P|apply Permutation_app_tail; exact PN]|]. unfold uecho_node_delete. rewrite ND.
  apply wp_bind. eapply (wp_remove_self nd (nblk (at_prev w) (at_next w) ps (n_tid n))); [cbn [app]; apply Permutation_refl|unfold nblk; rewrite W1, W2; reflexivity|].
  apply wp_bind. eapply (wp_load_elem nd (at_prev w) (at_next w) (n_tid n) ps); [left; reflexivity|]. cbn [snd].
  eapply (wp_perm _ _ _ ((node_mutex ps, BRec []) :: (nd, nblk (at_prev w) (at_next w) ps (n_tid n)) :: Lr ++ Lc ++ Ls ++ La ++ F)).
  { cbn [app]. eapply perm_trans; [apply perm_skip; do 2 rewrite <- app_assoc; do 2 apply Permutation_app_head; apply Permutation_app_tail; exact PX|]. perm. }
  apply wp_bind. unfold box_delete. nz (node_mutex ps). eapply wp_free; [apply Permutation_refl|].
  apply wp_bind. eapply (wp_list_delete KClass _ cls Lc _ ((nd, nblk (at_prev w) (at_next w) ps (n_tid n)) :: Lr ++ Ls ++ La ++ F)); [exact RC|perm|].
  apply wp_bind. eapply (wp_objs_delete nd _ _ Lr _ ((nd, nblk (at_prev w) (at_next w) ps (n_tid n)) :: Ls ++ La ++ F)); [exact RO|perm|].
  apply wp_bind. eapply (Properties_Life.wp_server_delete _ _ Ls _ ((nd, nblk (at_prev w) (at_next w) ps (n_tid n)) :: La ++ F)); [exact SA|perm|].
  apply wp_bind. eapply (wp_string_delete _ _ La _ ((nd, nblk (at_prev w) (at_next w) ps (n_tid n)) :: F)); [exact ST|perm|].
  apply wp_bind. eapply wp_free; [apply Permutation_refl|]. apply wp_ret. exact H.
Qed.

(* ---- calls on a node ---- *)

(* a call that uses only the block, the objects and the classes *)
Lemma node_open : forall w nd n N L F, node_in w nd n N -> Permutation L (N ++ F) -> exists ps Lr Lc Lx, length ps = 7%nat /\ held nd (at_prev w) (at_next w) ps n Lr Lc /\ extra w ps n Lx
  /\ Permutation L ((nd, nblk (at_prev w) (at_next w) ps (n_tid n)) :: Lr ++ Lc ++ Lx ++ F).
Proof.
  intros w nd n N L F (ps & Lr & Lc & Lx & L7 & HE & EX & PN) P. exists ps, Lr, Lc, Lx. split; [exact L7|]. split; [exact HE|]. split; [exact EX|].
  eapply perm_trans; [exact P|]. eapply perm_trans; [apply Permutation_app_tail; exact PN|]. cbn [app]. perm.
Qed.
Lemma node_close : forall w nd n n' ps Lr Lc Lx, length ps = 7%nat -> held nd (at_prev w) (at_next w) ps n' Lr Lc -> extra w ps n Lx -> apart n n' ->
  node_in w nd n' ((nd, nblk (at_prev w) (at_next w) ps (n_tid n')) :: Lr ++ Lc ++ Lx).
Proof.
  intros w nd n n' ps Lr Lc Lx L7 HE EX AP. exists ps, Lr, Lc, Lx. split; [exact L7|]. split; [exact HE|]. split; [eapply extra_apart; eassumption|apply Permutation_refl].
Qed.
Lemma same_held : forall w nd ps n n' Lr Lr' Lc, held nd (at_prev w) (at_next w) ps n Lr Lc -> rlist (nbody nd) (node_objects ps) (n_objs n') Lr' -> n_classes n' = n_classes n ->
  held nd (at_prev w) (at_next w) ps n' Lr' Lc.
Proof. intros w nd ps n n' Lr Lr' Lc (A & B & _ & cls & C & D) R E. split; [exact A|]. split; [exact B|]. split; [exact R|]. exists cls. rewrite E. auto. Qed.

Lemma wp_node_add : forall w nd n N x o Lo n' posts ok L F (Q : _ -> heaplet -> Prop), node_in w nd n N -> obj_at (x, 0) x x o Lo -> Permutation L (N ++ Lo ++ F) ->
  M_Node.uecho_node_addobject le net n o = Ok (n', posts, ok) ->
  (forall o0, M_Node.uecho_node_getobjectbycode n (M_Object.uecho_object_getcode o) = Some o0 -> n' = n -> forall N', node_in w nd n N' -> Q (ok, posts) (N' ++ Lo ++ F)) ->
  (M_Node.uecho_node_getobjectbycode n (M_Object.uecho_object_getcode o) = None -> forall N', node_in w nd n' N' -> Q (ok, posts) (N' ++ F)) ->
  wp (uecho_node_addobject room junk le net nd x) L Q.
Proof.
  intros w nd n N x o Lo n' posts ok L F Q NR OA P E H1 H2. destruct (node_open _ _ _ _ _ _ NR P) as (ps & Lr & Lc & Lx & L7 & HE & EX & P').
  pose proof (add_apart _ _ _ _ _ _ _ E) as AP. apply wp_post.
  eapply (wp_naddobject room Room junk le net nd (at_prev w) (at_next w) ps n Lr Lc x o Lo n' posts ok L (Lx ++ F)); [exact HE|exact OA|eapply perm_trans; [exact P'|perm]|exact E| |].
  - intros o0 G -> -> ->. eexists. split; [|apply (H1 o0 G eq_refl ((nd, nblk (at_prev w) (at_next w) ps (n_tid n)) :: Lr ++ Lc ++ Lx))].
    + cbn [app]. perm.
    + eapply node_close; try eassumption.
  - intros Lr' Lc' G HE'. eexists. split; [|apply (H2 G ((nd, nblk (at_prev w) (at_next w) ps (n_tid n')) :: Lr' ++ Lc' ++ Lx))].
    + cbn [app]. perm.
    + eapply node_close; eassumption.
Qed.

Lemma wp_node_set : forall w nd n N ds Ld code n' posts ok L F (Q : _ -> heaplet -> Prop), node_in w nd n N -> dlist db ds Ld -> Forall einv ds -> 0 <= code <= 16777215 ->
  Permutation L (N ++ Ld ++ F) -> M_Node.uecho_node_setobject le net ds junk n code = Ok (n', posts, ok) ->
  (forall N', node_in w nd n' N' -> Q (ok, posts) (N' ++ Ld ++ F)) -> wp (uecho_node_setobject room junk le net db nd code) L Q.
Proof.
  intros w nd n N ds Ld code n' posts ok L F Q NR D ED CB P E H. destruct (node_open _ _ _ _ _ _ NR P) as (ps & Lr & Lc & Lx & L7 & HE & EX & P').
  pose proof (set_apart _ _ _ _ _ _ _ _ _ E) as AP. apply wp_post.
  eapply (wp_nsetobject room Room junk le net db nd (at_prev w) (at_next w) ps n Lr Lc ds Ld code n' posts ok L (Lx ++ F)); [exact HE|exact D|exact ED|exact CB|eapply perm_trans; [exact P'|perm]|exact E|].
  intros Lr' Lc' HE'. eexists. split; [|apply (H ((nd, nblk (at_prev w) (at_next w) ps (n_tid n')) :: Lr' ++ Lc' ++ Lx))].
  - cbn [app]. perm.
  - eapply node_close; eassumption.
Qed.

Lemma wp_node_clear : forall w nd n N L F (Q : bool -> heaplet -> Prop), node_in w nd n N -> Permutation L (N ++ F) ->
  (forall N', node_in w nd (M_Node.uecho_node_clear n) N' -> Q true (N' ++ F)) -> wp (uecho_node_clear nd) L Q.
Proof.
  intros w nd n N L F Q NR P H. destruct (node_open _ _ _ _ _ _ NR P) as (ps & Lr & Lc & Lx & L7 & HE & EX & P'). eapply wp_perm; [exact P'|].
  pose proof HE as (ND & SV & RO & cls & RC & _). unfold uecho_node_clear. rewrite ND.
  apply wp_bind. eapply (wp_load_elem nd (at_prev w) (at_next w) (n_tid n) ps); [left; reflexivity|]. cbn [snd].
  apply wp_bind. eapply (P_Ring.wp_clear _ _ (delete_of KClass) _ cls Lc _ ((nd, nblk (at_prev w) (at_next w) ps (n_tid n)) :: Lr ++ Lx ++ F)); [exact RC|perm| |].
  { intros a b v Lv L' F' R0 B _ _ PP _ HR. eapply (wp_elem_delete KClass a v); [apply body_alone; exact B|exact PP|exact HR]. }
  apply wp_bind. eapply (wp_load_elem nd (at_prev w) (at_next w) (n_tid n) ps); [right; left; reflexivity|]. cbn [snd].
  apply wp_bind. eapply (P_Ring.wp_clear _ _ object_destructor _ (n_objs n) Lr _ ((nd, nblk (at_prev w) (at_next w) ps (n_tid n)) :: (node_classes ps, BHead (node_classes ps) (node_classes ps)) :: Lx ++ F)); [exact RO|perm| |].
  { intros a k o Lv L' F' R OB FK _ PP _ HR. unfold object_destructor. apply wp_bind.
    eapply (wp_obj_delete nd a o ((a, set_links a a k) :: Lv) _ F'); [apply nbody_at; exact OB|exact PP|]. apply wp_ret. exact HR. }
  apply wp_post, wp_ret. eexists. split; [|apply (H ((nd, nblk (at_prev w) (at_next w) ps (n_tid n)) :: [(node_objects ps, BHead (node_objects ps) (node_objects ps))] ++ [(node_classes ps, BHead (node_classes ps) (node_classes ps))] ++ Lx))].
  - cbn [app]. perm.
  - apply (node_close w nd n (M_Node.uecho_node_clear n) ps _ _ Lx L7); [|exact EX|split; reflexivity].
    split; [exact ND|]. split; [exact SV|]. split; [apply rlist_new|]. exists []. split; [apply rlist_new|reflexivity].
Qed.

Lemma wp_node_listen : forall w nd n N b L F (Q : unit -> heaplet -> Prop), node_in w nd n N -> Permutation L (N ++ F) ->
  (forall N', node_in w nd (M_Node.uecho_node_setmessagelistener b n) N' -> Q tt (N' ++ F)) -> wp (uecho_node_setmessagelistener nd b) L Q.
Proof.
  intros w nd n N b L F Q NR P H. destruct (node_open _ _ _ _ _ _ NR P) as (ps & Lr & Lc & Lx & L7 & HE & EX & P'). eapply wp_perm; [exact P'|].
  destruct ps as [|m [|c [|ol [|s [|a [|wl [|k [|]]]]]]]]; try discriminate L7.
  pose proof HE as (ND & _). unfold uecho_node_setmessagelistener. rewrite ND. apply wp_bind. eapply wp_load; [left; reflexivity|]. unfold nblk.
  apply wp_post. eapply wp_store; [apply Permutation_refl|]. set (ps' := [m; c; ol; s; a; if b then 1 else 0; k]).
  eexists. split; [|apply (H ((nd, nblk (at_prev w) (at_next w) ps' (n_tid n)) :: Lr ++ Lc ++ Lx))].
  - unfold nblk. cbn [app]. perm.
  - exists ps', Lr, Lc, Lx. split; [reflexivity|]. split.
    { destruct HE as (A & B & C & D). split; [exact A|]. split; [exact B|]. split; [exact C|exact D]. }
    split; [|apply Permutation_refl]. destruct EX as (Ls & La & A & B & C & C2 & D). exists Ls, La. split; [exact A|]. split; [exact B|]. split; [|split; [exact C2|exact D]].
    cbn. destruct b; reflexivity.
Qed.

Lemma wp_node_address : forall w nd n N s L F (Q : unit -> heaplet -> Prop), node_in w nd n N -> Permutation L (N ++ F) -> Spec_Mem.c_text (Some s) ->
  (forall N', node_in w nd (M_Node.uecho_node_setaddress (Some s) n) N' -> Q tt (N' ++ F)) -> wp (given_text (Some s) (uecho_node_setaddress room nd)) L Q.
Proof.
  intros w nd n N s L F Q NR P T H. destruct (node_open _ _ _ _ _ _ NR P) as (ps & Lr & Lc & Lx & L7 & HE & (Ls & La & SA & ST & LI & KK & PX) & P'). eapply wp_perm; [exact P'|].
  pose proof HE as (ND & _). apply wp_given_text; [apply c_text_arg; exact T|]. intros p B AA. unfold uecho_node_setaddress. rewrite ND.
  apply wp_bind. eapply (wp_load_elem nd (at_prev w) (at_next w) (n_tid n) ps); [apply in_or_app; right; left; reflexivity|]. cbn [snd].
  apply wp_post. eapply (wp_setvalue_arg room Room _ (n_addr n) La p (Some s) _ (B ++ (nd, nblk (at_prev w) (at_next w) ps (n_tid n)) :: Lr ++ Lc ++ (node_mutex ps, BRec []) :: Ls ++ F)); [exact ST| | |].
  - eapply perm_trans; [apply Permutation_app_head, perm_skip; do 2 apply Permutation_app_head; apply Permutation_app_tail; exact PX|]. perm.
  - eapply addr_arg_incl; [exact AA|]. intros x X. apply in_or_app. left. exact X.
  - intros La' ST'. exists (B ++ ((nd, nblk (at_prev w) (at_next w) ps (n_tid n)) :: Lr ++ Lc ++ (node_mutex ps, BRec []) :: Ls ++ La') ++ F). split; [cbn [app]; perm|].
    eexists. split; [apply Permutation_refl|]. apply H. exists ps, Lr, Lc, ((node_mutex ps, BRec []) :: Ls ++ La'). split; [exact L7|]. split; [exact HE|].
    split; [|apply Permutation_refl]. exists Ls, La'. split; [exact SA|]. split; [exact ST'|]. split; [exact LI|]. split; [exact KK|apply Permutation_refl].
Qed.

(* ---- calls on an object of a node ---- *)

Lemma wp_node_find : forall w nd n N code L F (Q : Z -> heaplet -> Prop), node_in w nd n N -> Permutation L (N ++ F) ->
  (M_Node.uecho_node_getobjectbycode n code = None -> Q 0 L) ->
  (forall ps v1 a o v2 Lr Lc Lx, length ps = 7%nat -> held nd (at_prev w) (at_next w) ps n Lr Lc -> extra w ps n Lx ->
     n_objs n = v1 ++ o :: v2 -> differ code v1 -> (M_Object.uecho_object_getcode o =? code) = true -> 0 < a ->
     rl_at (nbody nd) (node_objects ps) v1 a o v2 Lr -> M_Node.uecho_node_getobjectbycode n code = Some o ->
     Permutation L ((nd, nblk (at_prev w) (at_next w) ps (n_tid n)) :: Lr ++ Lc ++ Lx ++ F) -> Q a L) ->
  wp (M_NodeMem.uecho_node_getobjectbycode nd code) L Q.
Proof.
  intros w nd n N code L F Q NR P H0 H1. destruct (node_open _ _ _ _ _ _ NR P) as (ps & Lr & Lc & Lx & L7 & HE & EX & P').
  pose proof HE as (_ & _ & RO & _).
  eapply (wp_getobj nd (at_prev w) (at_next w) ps n Lr code L (Lc ++ Lx ++ F)); [exact RO|exact P'| |].
  - intro DF. apply H0. unfold M_Node.uecho_node_getobjectbycode. apply value_none. exact DF.
  - intros v1 a o v2 EO DF HIT PA RA. eapply (H1 ps v1 a o v2 Lr Lc Lx); try eassumption.
    unfold M_Node.uecho_node_getobjectbycode. rewrite EO. apply value_find; assumption.
Qed.

Lemma attached_at : forall nd ol v1 a o v2 Lr, (nd =? 0) = false -> rl_at (nbody nd) ol v1 a o v2 Lr -> o_attached o = true.
Proof. intros nd ol v1 a o v2 Lr ND R. destruct (rl_in _ _ _ _ _ _ _ R) as (c & _ & _ & _ & _ & E). rewrite E, ND. reflexivity. Qed.

(* what a call on the object o that changes it to o' gives on values *)
Lemma op_at : forall f n code v1 o v2 o' anns n' posts, n_objs n = v1 ++ o :: v2 -> differ code v1 -> (M_Object.uecho_object_getcode o =? code) = true ->
  f o = Ok (o', anns) -> o_attached o' = true -> node_object_op le net f n code = Ok (n', posts) ->
  node_emit le net (n_with_objs (v1 ++ o' :: v2) n) (M_Object.uecho_object_getcode o') anns = Ok (n', posts) /\ keeps n n' /\ n_objs n' = v1 ++ o' :: v2.
Proof.
  intros f n code v1 o v2 o' anns n' posts EO DF HIT EF AT E. pose proof (op_keeps _ _ _ _ _ _ _ E) as K. unfold node_object_op, M_Node.uecho_node_getobjectbycode in E.
  rewrite EO, (value_find _ _ _ _ DF HIT), EF in E. cbn [bind] in E. rewrite AT, (value_put _ _ _ _ _ DF HIT) in E. split; [exact E|]. split; [exact K|].
  apply emit_objs in E. rewrite E. reflexivity.
Qed.

Lemma wp_node_data : forall w nd n N code c d n' posts L F (Q : _ -> heaplet -> Prop), node_in w nd n N -> Permutation L (N ++ F) -> len d < SIZE_MOD ->
  node_object_op le net (fun o => Ok (M_Object.uecho_object_setpropertydata o c d)) n code = Ok (n', posts) ->
  (forall N', node_in w nd n' N' -> Q (match M_Node.uecho_node_getobjectbycode n code with Some _ => true | None => false end, posts) (N' ++ F)) ->
  wp (let! o := M_NodeMem.uecho_node_getobjectbycode nd code in given d (fun p => uecho_object_setpropertydata room le net o c p (len d))) L Q.
Proof.
  intros w nd n N code c d n' posts L F Q NR P SD E H. apply wp_bind. eapply (wp_node_find w nd n N code L F); [exact NR|exact P| |].
  - intro NO. unfold node_object_op in E. rewrite NO in *. injection E as <- <-. apply wp_given. intros p P0. unfold uecho_object_setpropertydata. cbn [Z.eqb].
    apply wp_ret. eexists. split; [apply perm_skip; exact P|]. apply H. exact NR.
  - intros ps v1 a o v2 Lr Lc Lx L7 HE EX EO DF HIT PA RA FO P'. rewrite FO in H. pose proof HE as (ND & SV & RO & _).
    destruct (setpd_props o c d) as (pr & EP).
    assert (AT : o_attached (fst (M_Object.uecho_object_setpropertydata o c d)) = true) by (rewrite EP; exact (attached_at _ _ _ _ _ _ _ ND RA)).
    destruct (op_at _ n code v1 o v2 _ _ n' posts EO DF HIT (f_equal Ok (surjective_pairing _)) AT E) as (EM & K & EO').
    assert (GC : M_Object.uecho_object_getcode (fst (M_Object.uecho_object_setpropertydata o c d)) = M_Object.uecho_object_getcode o) by (rewrite EP; reflexivity).
    rewrite GC in EM. apply wp_given. intros p P0.
    eapply (wp_nobj_setdata room Room le net nd (at_prev w) (at_next w) ps (n_with_objs (v1 ++ fst (M_Object.uecho_object_setpropertydata o c d) :: v2) n) v1 a o v2 Lr c p d n' posts _
      ((p, BBytes (map Some d)) :: Lc ++ Lx ++ F)); [exact SV|exact RA| |exact SD|apply given_self| |exact EM|].
    + eapply perm_trans; [apply perm_skip; exact P'|]. cbn [n_with_objs n_tid]. perm.
    + cbn [n_with_objs n_objs]. apply profiled_mid. exact GC.
    + intros Lr' RA'. exists (((nd, nblk (at_prev w) (at_next w) ps (n_tid n')) :: Lr' ++ Lc ++ Lx) ++ F). split; [cbn [app]; perm|].
      apply H. eapply node_close; [exact L7| |exact EX|apply keeps_apart; exact K].
      eapply same_held; [exact HE|rewrite EO'; exact (rl_at_list _ _ _ _ _ _ _ _ RA')|apply K].
Qed.

Lemma wp_node_int : forall w nd n N code c v size n' posts L F (Q : _ -> heaplet -> Prop), node_in w nd n N -> Permutation L (N ++ F) -> (size <= 4)%nat ->
  node_object_op le net (fun o => M_Object.uecho_object_setpropertyintegerdata o c v size) n code = Ok (n', posts) ->
  (forall N', node_in w nd n' N' -> Q (match M_Node.uecho_node_getobjectbycode n code with Some _ => true | None => false end, posts) (N' ++ F)) ->
  wp (let! o := M_NodeMem.uecho_node_getobjectbycode nd code in uecho_object_setpropertyintegerdata room le net o c v size) L Q.
Proof.
  intros w nd n N code c v size n' posts L F Q NR P SD E H. apply wp_bind. eapply (wp_node_find w nd n N code L F); [exact NR|exact P| |].
  - intro NO. unfold node_object_op in E. rewrite NO in *. injection E as <- <-. unfold uecho_object_setpropertyintegerdata. cbn [Z.eqb].
    eapply wp_perm; [exact P|]. apply wp_ret. apply H. exact NR.
  - intros ps v1 a o v2 Lr Lc Lx L7 HE EX EO DF HIT PA RA FO P'. rewrite FO in H. pose proof HE as (ND & SV & RO & _).
    assert (X : exists o' anns, M_Object.uecho_object_setpropertyintegerdata o c v size = Ok (o', anns)).
    { unfold node_object_op in E. rewrite FO in E. apply bind_ok in E. destruct E as ([o' anns] & E & _). eauto. }
    destruct X as (o' & anns & EI). destruct (setint_props _ _ _ _ _ _ EI) as (pr & EP).
    assert (AT : o_attached o' = true) by (rewrite EP; exact (attached_at _ _ _ _ _ _ _ ND RA)).
    destruct (op_at _ n code v1 o v2 _ _ n' posts EO DF HIT EI AT E) as (EM & K & EO').
    assert (GC : M_Object.uecho_object_getcode o' = M_Object.uecho_object_getcode o) by (rewrite EP; reflexivity).
    rewrite GC in EM. eapply wp_perm; [exact P'|]. apply wp_post.
    eapply (wp_nobj_setint room Room le net nd (at_prev w) (at_next w) ps (n_with_objs (v1 ++ o' :: v2) n) v1 a o v2 Lr c v size o' anns n' posts _
      (Lc ++ Lx ++ F)); [exact SV|exact RA|apply Permutation_refl| |exact EI| |exact EM|].
    + unfold SIZE_MOD. lia.
    + cbn [n_with_objs n_objs]. apply profiled_mid. exact GC.
    + intros Lr' RA'. exists (((nd, nblk (at_prev w) (at_next w) ps (n_tid n')) :: Lr' ++ Lc ++ Lx) ++ F). split; [cbn [app]; perm|].
      apply H. eapply node_close; [exact L7| |exact EX|apply keeps_apart; exact K].
      eapply same_held; [exact HE|rewrite EO'; exact (rl_at_list _ _ _ _ _ _ _ _ RA')|apply K].
Qed.

(* a call that changes the object and announces nothing *)
Lemma wp_node_quiet : forall T (call : Z -> mm T) (r0 r1 : T) (f : obj -> obj) w nd n N code n' posts L F (Q : T -> heaplet -> Prop), node_in w nd n N -> Permutation L (N ++ F) ->
  call 0 = ret r0 -> (forall o, o_attached (f o) = o_attached o) ->
  (forall pv nx a o Lo L F (Q : T -> heaplet -> Prop), obj_at pv nx a o Lo -> Permutation L (Lo ++ F) -> (forall Lo', obj_at pv nx a (f o) Lo' -> Q r1 (Lo' ++ F)) -> wp (call a) L Q) ->
  node_object_op le net (fun o => Ok (f o, [])) n code = Ok (n', posts) ->
  (posts = [] -> forall N', node_in w nd n' N' -> Q (match M_Node.uecho_node_getobjectbycode n code with Some _ => r1 | None => r0 end) (N' ++ F)) ->
  wp (let! o := M_NodeMem.uecho_node_getobjectbycode nd code in call o) L Q.
Proof.
  intros T call r0 r1 f w nd n N code n' posts L F Q NR P C0 FA C E H. apply wp_bind. eapply (wp_node_find w nd n N code L F); [exact NR|exact P| |].
  - intro NO. unfold node_object_op in E. rewrite NO in *. injection E as <- <-. rewrite C0. eapply wp_perm; [exact P|]. apply wp_ret. apply H; [reflexivity|exact NR].
  - intros ps v1 a o v2 Lr Lc Lx L7 HE EX EO DF HIT PA RA FO P'. rewrite FO in H. pose proof HE as (ND & SV & RO & _).
    assert (AT : o_attached (f o) = true) by (rewrite FA; exact (attached_at _ _ _ _ _ _ _ ND RA)).
    destruct (op_at _ n code v1 o v2 _ _ n' posts EO DF HIT eq_refl AT E) as (EM & K & EO').
    cbn [node_emit] in EM. injection EM as <- <-.
    destruct (rl_obj _ _ _ _ _ _ _ RA) as (p0 & n0 & Lo & R0 & OA & PL & BK).
    apply wp_post. eapply (C _ _ a o Lo _ ((nd, nblk (at_prev w) (at_next w) ps (n_tid n)) :: R0 ++ Lc ++ Lx ++ F)); [exact OA| |].
    + eapply perm_trans; [exact P'|]. eapply perm_trans; [apply perm_skip, Permutation_app_tail; exact PL|]. perm.
    + intros Lo' OA'. exists (((nd, nblk (at_prev w) (at_next w) ps (n_tid n)) :: (Lo' ++ R0) ++ Lc ++ Lx) ++ F). split; [cbn [app]; perm|].
      apply H; [reflexivity|]. apply (node_close w nd n (n_with_objs (v1 ++ f o :: v2) n) ps _ _ Lx L7); [|exact EX|apply keeps_apart; exact K].
      eapply same_held; [exact HE|exact (rl_at_list _ _ _ _ _ _ _ _ (BK _ _ OA'))|reflexivity].
Qed.

Lemma wp_node_read : forall w nd n N code L F (Q : _ -> heaplet -> Prop), node_in w nd n N -> Permutation L (N ++ F) ->
  Q (option_map Spec_ObjMem.look (M_Node.uecho_node_getobjectbycode n code)) L ->
  wp (let! o := M_NodeMem.uecho_node_getobjectbycode nd code in if o =? 0 then ret None else let! s := M_ObjUse.read_object o in ret (Some s)) L Q.
Proof.
  intros w nd n N code L F Q NR P H. apply wp_bind. eapply (wp_node_find w nd n N code L F); [exact NR|exact P| |].
  - intro NO. rewrite NO in H. cbn [Z.eqb]. apply wp_ret. exact H.
  - intros ps v1 a o v2 Lr Lc Lx L7 HE EX EO DF HIT PA RA FO P'. rewrite FO in H. rewrite (pos_nz a) by exact PA.
    destruct (rl_obj _ _ _ _ _ _ _ RA) as (p0 & n0 & Lo & R0 & OA & PL & _).
    apply wp_bind. eapply (wp_read_object _ _ a o Lo L ((nd, nblk (at_prev w) (at_next w) ps (n_tid n)) :: R0 ++ Lc ++ Lx ++ F)); [exact OA| |].
    + eapply perm_trans; [exact P'|]. eapply perm_trans; [apply perm_skip, Permutation_app_tail; exact PL|]. perm.
    + apply wp_ret. exact H.
Qed.

(* ---- announcing and receiving ---- *)

Lemma wp_node_announce : forall w nd n N n' posts ok L F (Q : _ -> heaplet -> Prop), node_in w nd n N -> Permutation L (N ++ F) ->
  M_Node.uecho_node_announce le net n = Ok (n', posts, ok) ->
  (forall N', node_in w nd n' N' -> Q (ok, posts) (N' ++ F)) -> wp (uecho_node_announce room le net nd) L Q.
Proof.
  intros w nd n N n' posts ok L F Q NR P E H. unfold uecho_node_announce. unfold M_Node.uecho_node_announce in E. apply wp_bind.
  eapply (wp_node_find w nd n N _ L F); [exact NR|exact P| |].
  - intro NO. rewrite NO in E. injection E as <- <- <-. cbn [Z.eqb]. eapply wp_perm; [exact P|]. apply wp_ret. apply H. exact NR.
  - intros ps v1 a o v2 Lr Lc Lx L7 HE EX EO DF HIT PA RA FO P'. rewrite FO in E. rewrite (pos_nz a) by exact PA. pose proof HE as (ND & SV & RO & _).
    destruct (rl_obj _ _ _ _ _ _ _ RA) as (p0 & n0 & Lo & R0 & OA & PL & _).
    apply wp_bind. eapply (wp_obj_find _ _ a o _ Lo L ((nd, nblk (at_prev w) (at_next w) ps (n_tid n)) :: R0 ++ Lc ++ Lx ++ F)); [exact OA| | |].
    + eapply perm_trans; [exact P'|]. eapply perm_trans; [apply perm_skip, Permutation_app_tail; exact PL|]. perm.
    + intro OT. assert (FP : M_Object.uecho_object_getproperty o EPC_InstanceListNotification = None) by (apply find_others; exact OT).
      rewrite FP in E. injection E as <- <- <-. cbn [Z.eqb]. eapply wp_perm; [exact P|]. apply wp_ret. apply H. exact NR.
    + intros h w1 x p w2 Lq G EP OT HP PX PLx PG _ _. rewrite (pos_nz x) by exact PX.
      assert (FP : M_Object.uecho_object_getproperty o EPC_InstanceListNotification = Some p) by (unfold M_Object.uecho_object_getproperty; rewrite EP; apply find_split; assumption).
      rewrite FP in E. apply bind_ok in E. destruct E as (s & E & X). injection X as <- <- <-.
      destruct (pl_focus _ _ _ _ _ _ _ PLx) as (pv' & nx' & q & Lp & R & PT & _ & PP & _).
      destruct (rl_in _ _ _ _ _ _ _ RA) as (c & IC & _ & CC & _).
      destruct (annprop_keeps _ _ _ _ _ _ E) as [K EO'].
      assert (PLr : Permutation Lr (Lp ++ R ++ G ++ R0)).
      { apply (Permutation_app_inv_l ((nd, nblk (at_prev w) (at_next w) ps (n_tid n)) :: Lc ++ Lx ++ F)).
        eapply perm_trans; [|eapply perm_trans; [apply Permutation_sym; exact P'|eapply perm_trans; [exact PG|]]]; [cbn [app]; perm|].
        eapply perm_trans; [apply Permutation_app_tail; exact PP|]. cbn [app]. perm. }
      eapply wp_perm; [exact P'|]. apply wp_post.
      eapply (wp_annprop room Room le net nd (at_prev w) (at_next w) ps n Lr a c x p pv' nx' q Lp (R ++ G ++ R0) s _ (Lc ++ Lx ++ F)); [exact RO|exact SV|exact IC|exact PT|exact PLr|apply Permutation_refl| |].
      * rewrite CC. exact E.
      * exists (((nd, nblk (at_prev w) (at_next w) ps (n_tid (s_node s))) :: Lr ++ Lc ++ Lx) ++ F). split; [cbn [app]; perm|]. apply H.
        eapply node_close; [exact L7| |exact EX|apply keeps_apart; exact K]. eapply same_held; [exact HE|rewrite EO'; exact RO|apply K].
Qed.

Lemma wp_node_receive : forall w nd n N d from local r L F (Q : _ -> heaplet -> Prop), node_in w nd n N -> Permutation L (N ++ F) ->
  buffer d -> Spec_Mem.c_text (Some from) -> Spec_Mem.c_text local ->
  node_receive le net dec n (firstn M_Server.RECV_BUFSIZE d) local (Some from) = Ok r ->
  (forall N', node_in w nd (r_node r) N' -> Q (r_anns r ++ r_answer r, r_calls r, r_told r) (N' ++ F)) -> wp (receive room le net dec nd d from local) L Q.
Proof.
  intros w nd n N d from local r L F Q NR P B T1 T2 E H. destruct (node_open _ _ _ _ _ _ NR P) as (ps & Lr & Lc & Lx & L7 & HE & EX & P'). eapply wp_perm; [exact P'|].
  pose proof HE as (ND & SV & RO & _). pose proof EX as (_ & _ & _ & _ & LI & _ & _).
  unfold node_receive in E. apply bind_ok in E. destruct E as ([ok m'] & EP & E).
  set (N0 := (nd, nblk (at_prev w) (at_next w) ps (n_tid n)) :: Lr ++ Lc ++ Lx ++ F) in *.
  unfold receive. apply wp_bind. apply (wp_pkt_new room Room). intros k Lk K Rk. rewrite (pos_nz k) by exact K.
  apply wp_bind. eapply (P_MemRecv.wp_recv_data room Room k d from local Lk _ N0); [exact B|exact T1|exact T2|exact Rk|apply Permutation_refl|]. clear Lk Rk. intros Lk Rk.
  apply wp_bind. apply (wp_message_new room Room). intros a La A Ra. rewrite (pos_nz a) by exact A.
  apply wp_bind. eapply (wp_parsepacket room Room a _ None La k _ local (Some from) Lk ok m' _ N0); [exact Ra|exact Rk|apply Permutation_refl|apply P_MemRecv.buffer_firstn; exact B|exact EP|].
  clear La Ra. intros La Ra.
  assert (REST : forall n' r0 Lr', rlist (nbody nd) (node_objects ps) (n_objs n') Lr' -> keeps n n' -> r_node r = n' -> r0 = (r_anns r ++ r_answer r, r_calls r, r_told r) ->
    wp (let! _ := uecho_socket_datagram_packet_delete k in let! _ := M_Mem.uecho_message_delete a in ret r0)
       ((nd, nblk (at_prev w) (at_next w) ps (n_tid n')) :: Lr' ++ La ++ Lk ++ Lc ++ Lx ++ F) Q).
  { intros n' r0 Lr' RO' KP RN ->. apply wp_bind. eapply (wp_pkt_delete k _ local (Some from) Lk _ (La ++ (nd, nblk (at_prev w) (at_next w) ps (n_tid n')) :: Lr' ++ Lc ++ Lx ++ F)); [exact Rk|perm|].
    apply wp_bind. eapply (wp_message_delete room Room); [exact Ra|apply Permutation_refl|]. apply wp_post, wp_ret.
    exists (((nd, nblk (at_prev w) (at_next w) ps (n_tid n')) :: Lr' ++ Lc ++ Lx) ++ F). split; [cbn [app]; perm|]. apply H. rewrite RN.
    eapply node_close; [exact L7| |exact EX|apply keeps_apart; exact KP]. eapply same_held; [exact HE|exact RO'|apply KP]. }
  apply wp_bind. destruct ok.
  - eapply (wp_listener room Room le net dec nd (at_prev w) (at_next w) ps n Lr a m' None La r _ (Lk ++ Lc ++ Lx ++ F)); [exact RO|exact SV|exact LI|exact Ra|unfold N0; perm|exact E|].
    intros Lr' RO'. eapply REST; [exact RO'|eapply listener_keeps; exact E|reflexivity|reflexivity].
  - injection E as <-. apply wp_ret. eapply (wp_perm _ _ _ ((nd, nblk (at_prev w) (at_next w) ps (n_tid n)) :: Lr ++ La ++ Lk ++ Lc ++ Lx ++ F)); [unfold N0; perm|].
    eapply REST; [exact RO|apply keeps_refl|reflexivity|reflexivity].
Qed.
End Room.
