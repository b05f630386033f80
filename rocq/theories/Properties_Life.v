(* C76: classes, manufacturers, enumerations, network interfaces, idle threads, the database and the server in memory, when any
   request for memory may fail. *)
From Coq Require Import ZArith List Bool Lia Permutation.
From Verif Require Import CSem P_Base M_Const M_String M_Mem M_MemUse M_ObjMem Spec_Mem P_Mem P_MemProp P_Ring P_ObjMem P_ObjRun Properties_Mem
  M_Life Spec_Life P_Life P_LifeRun.
Import ListNotations.
Open Scope Z_scope.

Lemma wp_lrun : forall room ops ps st vs st' L W F, spec_run ops st = Some (vs, st') -> world room ps st W -> Permutation L (W ++ F) ->
  wp (lrun room ops ps) L (fun r L' => ((forall n, room n = true) -> fst r = vs) /\ length (fst r) = length vs
    /\ (forall i op v v', nth_error ops i = Some op -> nth_error vs i = Some v -> nth_error (fst r) i = Some v' -> fair op v v')
    /\ exists W', Permutation L' (W' ++ F) /\ world room (snd r) st' W').
Proof.
  intros room ops. induction ops as [|op ops IH]; intros ps st vs st' L W F E WO P; cbn [spec_run lrun] in *.
  - injection E as <- <-. apply wp_ret. cbn [fst snd]. split; [reflexivity|]. split; [reflexivity|]. split; [intros [|i] op v v' E; discriminate E|]. exists W. auto.
  - destruct (spec_step op st) as [[v st1]|] eqn:E1; [|discriminate]. destruct (spec_run ops st1) as [[vs2 st2]|] eqn:E2; [|discriminate]. injection E as <- <-.
    apply wp_bind. eapply wp_conseq; [eapply (wp_lstep room op ps st v st1 L W F); eassumption|]. cbv beta. intros [r ps'] L1 (FU & FA & W1 & P1 & WO1). cbn [fst snd] in *.
    apply wp_bind. eapply wp_conseq; [eapply (IH ps' st1 vs2 st2 L1 W1 F); eassumption|]. cbv beta. intros [rs ps2] L2 (FU2 & LN & FA2 & W2 & P2 & WO2). cbn [fst snd] in *.
    apply wp_ret. cbn [fst snd]. split; [intro X; rewrite (FU X), (FU2 X); reflexivity|]. split; [cbn; congruence|]. split; [|exists W2; auto].
    intros [|i] o w w' A B C; cbn [nth_error] in *; [injection A as <-; injection B as <-; injection C as <-; exact FA|]. eapply FA2; eassumption.
Qed.

(* ---------- C76: programs that keep to the rules ---------- *)

(* Whatever requests for memory are granted: no call of the program is undefined, the blocks of others are left alone, what is read of
   an element is what was last set or nothing, and when everything is deleted no block is left.  If all requests are granted, all is
   as the specification says. *)
Theorem C76_programs : forall room ops vs st, spec_run ops [] = Some (vs, st) ->
  forall h, well h -> exists vs' ps h', lrun room ops [] h = Ok ((vs', ps), h')
    /\ (forall a b, h_mem h a = Some b -> h_mem h' a = Some b)
    /\ (everything_gone st -> forall a, h_mem h' a = h_mem h a)
    /\ length vs' = length vs
    /\ (forall i n j o, nth_error ops i = Some (LGet n j) -> nth_error vs i = Some (VText o) ->
          nth_error vs' i = Some (VText o) \/ nth_error vs' i = Some (VText None))
    /\ (forall i n c, nth_error ops i = Some (LGetCode n) -> nth_error vs i = Some (VNum c) ->
          nth_error vs' i = Some (VNum c) \/ nth_error vs' i = Some (VNum 0))
    /\ ((forall n, room n = true) -> vs' = vs).
Proof.
  intros room ops vs st E h W. destruct (well_is h W) as (F & J).
  destruct (wp_lrun room ops [] [] vs st F [] F E (world_nil room) (Permutation_refl _) h J) as ([vs' ps] & h' & L' & EX & J' & FU & LN & FA & W' & P & WO).
  cbn [fst snd] in *. exists vs', ps, h'. split; [exact EX|]. apply (heap_perm _ _ _ J') in P. split.
  { intros a b X. apply P. apply in_or_app. right. apply J. exact X. }
  split. { intro G. apply (world_gone _ _ _ _ WO) in G. subst W'. exact (heap_same h h' F J P). }
  split; [exact LN|].
  assert (TH : forall i v, nth_error vs i = Some v -> exists v', nth_error vs' i = Some v').
  { intros i v X. destruct (nth_error vs' i) as [v'|] eqn:Y; [eauto|]. apply nth_error_None in Y. apply nth_lt in X. lia. }
  split; [|split; [|exact FU]].
  - intros i n j o A B. destruct (TH i _ B) as (v' & C). destruct (FA i _ _ _ A B C) as [->| ->]; auto.
  - intros i n j A B. destruct (TH i _ B) as (v' & C). destruct (FA i _ _ _ A B C) as [->| ->]; auto.
Qed.
Print Assumptions C76_programs.

(* all kinds, lists of them, an enumeration in which a value is replaced, everything deleted *)
Definition a_life : list lop :=
  [LNew KMan; LCode 0 11; LText 0 0 [80; 97]; LText 0 0 [80; 98; 99]; LGet 0 0; LGetCode 0; LList KMan; LAdd 1 0; LFind 1 11 0; LFind 1 12 0;
   LList KEnum; LNew KEnum; LCode 3 65; LText 3 0 [111; 110]; LAdd 2 3; LNew KEnum; LCode 4 65; LText 4 1 [111]; LAdd 2 4; LWalk 2; LFind 2 65 1;
   LNew KIf; LText 5 2 [50]; LGet 5 2; LGet 5 1; LList KIf; LAdd 6 5; LNew KClass; LNew KClass; LList KClass; LAdd 9 7; LAdd 9 8; LWalk 9;
   LNew KThread; LDelete 10; LDrop 2; LDrop 1; LDrop 6; LDrop 9].
Example C76_example : match spec_run a_life [] with
  | Some (vs, st) => everything_gone st
      /\ nth_error vs 4 = Some (VText (Some [80; 98; 99])) /\ nth_error vs 5 = Some (VNum 11)
      /\ nth_error vs 8 = Some (VText (Some [80; 98; 99])) /\ nth_error vs 9 = Some (VText None)
      /\ nth_error vs 19 = Some (VAll [(65, [None; Some [111]])]) /\ nth_error vs 32 = Some (VAll [(0, []); (0, [])])
  | None => False
  end.
Proof. vm_compute. split; [repeat constructor|]. repeat split. Qed.
(* elements changed and deleted while they are in a list *)
Definition a_list : list lop :=
  [LList KMan; LNew KMan; LNew KMan; LNew KMan; LAdd 0 1; LAdd 0 2; LAdd 0 3; LCodeAt 0 1 5; LTextAt 0 2 0 [90]; LTextAt 0 3 0 [91]; LCodeAt 0 3 6; LDeleteAt 0 3;
   LWalk 0; LDeleteAt 0 1; LWalk 0; LDeleteAt 0 0; LDeleteAt 0 0; LDeleteAt 0 0; LWalk 0; LDrop 0].
Example C76_example_list : match spec_run a_list [] with
  | Some (vs, st) => everything_gone st
      /\ nth_error vs 12 = Some (VAll [(0, [None]); (5, [None]); (0, [Some [90]])])
      /\ nth_error vs 14 = Some (VAll [(0, [None]); (0, [Some [90]])]) /\ nth_error vs 18 = Some (VAll [])
  | None => False
  end.
Proof. vm_compute. split; [repeat constructor|]. repeat split. Qed.
(* and with every third request refused *)
Definition scarce (n : Z) : bool := negb (n mod 3 =? 0).
Example C76_example_scarce : match lrun scarce a_life [] empty_heap with
  | Ok ((vs, _), h) => nth_error vs 4 = Some (VText None) /\ nth_error vs 19 <> Some (VAll [(65, [None; Some [111]])])
      /\ forallb (fun a => match h_mem h (Z.of_nat a) with None => true | _ => false end) (seq 0 100) = true
  | Undef _ => False
  end.
Proof. vm_compute. split; [reflexivity|]. split; [discriminate|reflexivity]. Qed.

(* ---------- the database ---------- *)

(* the memory of [h] is that of [h0] *)
Definition memory_as (h0 h : heap) : Prop := forall a, h_mem h a = h_mem h0 a.
(* [new] gives NULL and takes no memory, or something that [del] gives back completely *)
Definition made_well {A : Type} (new : mm Z) (del : Z -> mm A) : Prop :=
  forall h, well h -> exists x h1, new h = Ok (x, h1)
    /\ (x = 0 -> memory_as h h1)
    /\ (x <> 0 -> exists r h2, del x h1 = Ok (r, h2) /\ memory_as h h2).
Definition made {A : Type} (new : mm Z) (del : Z -> mm A) : Prop :=
  forall F, wp new F (fun x L => (x = 0 /\ L = F) \/ (0 < x /\ wp (del x) L (fun _ L' => L' = F))).
Lemma made_is : forall A (new : mm Z) (del : Z -> mm A), made new del -> made_well new del.
Proof.
  intros A new del M h W. destruct (well_is h W) as (F & J). destruct (M F h J) as (x & h1 & L & E & J1 & [(-> & ->)|(P & D)]).
  - exists 0, h1. split; [exact E|]. split; [intros _; exact (heap_same h h1 F J J1)|congruence].
  - exists x, h1. split; [exact E|]. split; [lia|]. intros _. destruct (D h1 J1) as (r & h2 & L2 & E2 & J2 & ->).
    exists r, h2. split; [exact E2|]. exact (heap_same h h2 F J J2).
Qed.

Theorem C76_database : forall room, made_well (uecho_database_new room) uecho_database_delete.
Proof.
  intro room. apply made_is. intro F. unfold uecho_database_new. apply wp_bind, wp_malloc_any; [|intros _; cbn [Z.eqb]; apply wp_ret; left; auto].
  intros d D. rewrite (pos_nz d) by exact D.
  assert (KEY : forall m o Lm Lo (Q : bool -> heaplet -> Prop), (m = 0 /\ Lm = [] \/ 0 < m /\ Lm = [(m, BHead m m)]) -> (o = 0 /\ Lo = [] \/ 0 < o /\ Lo = [(o, BHead o o)]) ->
    (forall b, Q b F) -> wp (uecho_database_delete d) ((d, BRec [m; o]) :: Lm ++ Lo ++ F) Q).
  { intros m o Lm Lo Q HM HO HQ. unfold uecho_database_delete. nz d. apply wp_bind. eapply wp_load_rec; [inl|]. cbn [nth].
    apply wp_bind. assert (K2 : wp (let! _ := if o =? 0 then ret tt else uecho_objectlist_delete o in let! _ := mfree d in ret true) ((d, BRec [m; o]) :: Lo ++ F) Q).
    { apply wp_bind. assert (K3 : wp (let! _ := mfree d in ret true) ((d, BRec [m; o]) :: F) Q).
      { apply wp_bind. eapply wp_free; [apply Permutation_refl|]. apply wp_ret. apply HQ. }
      destruct HO as [(-> & ->)|(PO & ->)]; [apply wp_ret; exact K3|]. rewrite (pos_nz o) by exact PO.
      eapply (wp_db_delete o [] [(o, BHead o o)] _ ((d, BRec [m; o]) :: F)); [apply rlist_new|cbn [app]; perm|exact K3]. }
    destruct HM as [(-> & ->)|(PM & ->)]; [apply wp_ret; exact K2|]. rewrite (pos_nz m) by exact PM.
    eapply (wp_list_delete KMan m [] [(m, BHead m m)] _ ((d, BRec [m; o]) :: Lo ++ F)); [apply rlist_new|cbn [app]; perm|exact K2]. }
  assert (S2 : forall m Lm, (m = 0 /\ Lm = [] \/ 0 < m /\ Lm = [(m, BHead m m)]) -> wp (let! o := uecho_objectlist_new room in let! _ := store d (BRec [m; o]) in
     if (m =? 0) || (o =? 0) then let! _ := uecho_database_delete d in ret 0 else ret d) (Lm ++ (d, BRec []) :: F)
     (fun x L => x = 0 /\ L = F \/ 0 < x /\ wp (uecho_database_delete x) L (fun _ L' => L' = F))).
  { intros m Lm HM.
    assert (S3 : forall o Lo, (o = 0 /\ Lo = [] \/ 0 < o /\ Lo = [(o, BHead o o)]) -> wp (let! _ := store d (BRec [m; o]) in
      if (m =? 0) || (o =? 0) then let! _ := uecho_database_delete d in ret 0 else ret d) (Lo ++ Lm ++ (d, BRec []) :: F)
      (fun x L => x = 0 /\ L = F \/ 0 < x /\ wp (uecho_database_delete x) L (fun _ L' => L' = F))).
    { intros o Lo HO. apply wp_bind. eapply (wp_store d (BRec []) _ _ (Lm ++ Lo ++ F)); [perm|]. destruct ((m =? 0) || (o =? 0)).
      - apply wp_bind. eapply KEY; [exact HM|exact HO|]. intros _. apply wp_ret. left. auto.
      - apply wp_ret. right. split; [exact D|]. eapply KEY; [exact HM|exact HO|]. reflexivity. }
    apply wp_bind. unfold uecho_objectlist_new. apply wp_malloc_any.
    - intros o PO. apply (S3 o [(o, BHead o o)]). right. auto.
    - intros _. apply (S3 0 []). left. auto. }
  apply wp_bind. unfold list_new. apply wp_malloc_any.
  - intros m PM. apply (S2 m [(m, BHead m m)]). right. auto.
  - intros _. apply (S2 0 []). left. auto.
Qed.
Print Assumptions C76_database.
(* mutexes, conditions and socket options *)
Theorem C76_box : forall room, made_well (box_new room) box_delete.
Proof.
  intro room. apply made_is. intro F. unfold box_new. apply wp_malloc_any; [|intros _; left; auto].
  intros a P. right. split; [exact P|]. unfold box_delete. rewrite (pos_nz a) by exact P. eapply wp_free; [apply Permutation_refl|reflexivity].
Qed.
Print Assumptions C76_box.
(* the database with no memory, with memory for one list, and with all of it *)
Example C76_database_example :
  match uecho_database_new (fun n => n <? 1) empty_heap, uecho_database_new (fun n => n <? 3) empty_heap, uecho_database_new plenty empty_heap with
  | Ok (0, _), Ok (0, h), Ok (d, h') => 0 < d /\ h_mem h 1 = None /\ h_mem h 2 = None /\ h_mem h' 2 <> None
  | _, _, _ => False
  end.
Proof. vm_compute. repeat split; discriminate. Qed.

(* ---------- the server ---------- *)

(* observers are added one after the other *)
Fixpoint add_observers (room : Z -> bool) (s : Z) (hs : list Z) : mm unit :=
  match hs with
  | [] => ret tt
  | x :: r => let! _ := uecho_server_addobserver room s x in add_observers room s r
  end.

Definition obody (a : Z) (b : blk) (v : Z) (L : heaplet) : Prop := exists p n, b = BElem p n v [] /\ L = [].
Definition server_at (s : Z) (hs : list Z) (L : heaplet) : Prop :=
  exists u c m l Ll, rlist obody l hs Ll /\ Permutation L ((s, BRec [u; c; m]) :: (u, BHead u u) :: (c, BHead c c) :: (m, BRec [l]) :: Ll).

Lemma wp_serverlist_delete : forall u L F (Q : unit -> heaplet -> Prop), Permutation L ((u, BHead u u) :: F) -> Q tt F -> wp (serverlist_delete u) L Q.
Proof.
  intros u L F Q P H. eapply wp_perm; [exact P|]. unfold serverlist_delete.
  assert (PR : Permutation ((u, BHead u u) :: F) (ring ((u, hblk) :: []) ++ F)) by (unfold hblk; rewrite ring_one; apply Permutation_refl).
  apply wp_bind. change u with (lst_of u []) at 1. eapply (wp_list_next u hblk [] [] _ F); [reflexivity|constructor|exact PR|]. cbn [fst_of Z.eqb].
  apply wp_bind. eapply (P_Ring.wp_clear Z obody _ u [] [(u, BHead u u)] _ F); [apply rlist_new|apply Permutation_refl|intros a k v Lx L' F' R0 _ _ []|].
  eapply wp_free; [apply Permutation_refl|exact H].
Qed.
Lemma wp_server_delete : forall s hs Ls L F (Q : bool -> heaplet -> Prop), server_at s hs Ls -> Permutation L (Ls ++ F) -> Q true F -> wp (uecho_server_delete s) L Q.
Proof.
  intros s hs Ls L F Q (u & c & m & l & Ll & R & PS) P H.
  eapply wp_perm; [eapply perm_trans; [exact P|apply Permutation_app_tail; exact PS]|]. cbn [app]. unfold uecho_server_delete. nz s.
  apply wp_bind. eapply wp_load_rec; [inl|]. cbn [nth].
  apply wp_bind. eapply (wp_serverlist_delete u _ ((s, BRec [u; c; m]) :: (c, BHead c c) :: (m, BRec [l]) :: Ll ++ F)); [perm|].
  apply wp_bind. eapply (wp_serverlist_delete c _ ((s, BRec [u; c; m]) :: (m, BRec [l]) :: Ll ++ F)); [perm|].
  apply wp_bind. unfold uecho_message_observer_manager_delete. apply wp_bind. eapply wp_load_rec; [inl|]. cbn [nth].
  apply wp_bind. eapply (P_Ring.wp_clear Z obody _ l hs Ll _ ((s, BRec [u; c; m]) :: (m, BRec [l]) :: F)); [exact R|perm| |].
  - intros a k v Lx L' F' R0 (p & n & -> & ->) _ _ P' _ H'. cbn [set_links app] in P'. unfold uecho_message_observer_delete.
    apply wp_bind. eapply wp_remove_self; [exact P'|reflexivity|]. eapply wp_free; [apply Permutation_refl|exact H'].
  - apply wp_bind. eapply wp_free; [find_x|]. eapply wp_free; [find_x|]. apply wp_bind. eapply wp_free; [find_x|]. apply wp_ret. exact H.
Qed.

(* With memory a server that was never started gives back all it took, whatever observers it got. *)
Theorem C76_server_partial : forall room hs, (forall n, room n = true) -> forall h, well h ->
  exists s h1 h2 h3, uecho_server_new room h = Ok (s, h1) /\ s <> 0 /\ add_observers room s hs h1 = Ok (tt, h2)
    /\ uecho_server_delete s h2 = Ok (true, h3) /\ memory_as h h3.
Proof.
  intros room hs Room h W. destruct (well_is h W) as (F & J).
  assert (N : wp (uecho_server_new room) F (fun s L => 0 < s /\ exists Ls, server_at s [] Ls /\ Permutation L (Ls ++ F))).
  { unfold uecho_server_new, list_new, uecho_message_observer_manager_new, list_new. apply wp_bind, wp_malloc; [exact Room|]. intros s PS _. rewrite (pos_nz s) by exact PS.
    apply wp_bind, wp_malloc; [exact Room|]. intros u PU _. apply wp_bind, wp_malloc; [exact Room|]. intros c PC _.
    apply wp_bind. apply wp_bind, wp_malloc; [exact Room|]. intros m PM _. rewrite (pos_nz m) by exact PM.
    apply wp_bind, wp_malloc; [exact Room|]. intros l PL _. apply wp_bind. eapply wp_store; [find_x|]. apply wp_ret.
    apply wp_bind. eapply wp_store; [find_x|]. apply wp_ret. split; [exact PS|].
    exists ((s, BRec [u; c; m]) :: (u, BHead u u) :: (c, BHead c c) :: (m, BRec [l]) :: [(l, BHead l l)]). split; [|cbn [app]; perm].
    exists u, c, m, l, [(l, BHead l l)]. split; [apply rlist_new|apply Permutation_refl]. }
  assert (A : forall hs gs s Ls L, 0 < s -> server_at s gs Ls -> Permutation L (Ls ++ F) ->
     wp (add_observers room s hs) L (fun _ L' => exists Ls', server_at s (gs ++ hs) Ls' /\ Permutation L' (Ls' ++ F))).
  { clear hs. induction hs as [|x hs IH]; intros gs s Ls L PS SA P; cbn [add_observers].
    - apply wp_ret. exists Ls. rewrite app_nil_r. auto.
    - destruct SA as (u & c & m & l & Ll & R & PL). eapply wp_perm; [eapply perm_trans; [exact P|apply Permutation_app_tail; exact PL]|]. cbn [app].
      apply wp_bind. unfold uecho_server_addobserver. apply wp_bind. eapply wp_load_rec; [inl|]. cbn [nth].
      unfold uecho_message_observer_manager_addobserver. apply wp_bind, wp_malloc; [exact Room|]. intros w PW _. rewrite (pos_nz w) by exact PW.
      apply wp_bind. eapply wp_load_rec; [inl|]. cbn [nth].
      eapply (wp_rl_add Z obody l gs Ll w (BElem w w x []) x [] _ ((s, BRec [u; c; m]) :: (u, BHead u u) :: (c, BHead c c) :: (m, BRec [l]) :: F)); [exact R|reflexivity|exists w, w; auto|cbn [app]; perm|].
      intros Lr R'. replace (gs ++ x :: hs) with ((gs ++ [x]) ++ hs) by (rewrite <- app_assoc; reflexivity).
      eapply (IH (gs ++ [x]) s ((s, BRec [u; c; m]) :: (u, BHead u u) :: (c, BHead c c) :: (m, BRec [l]) :: Lr)); [exact PS| |cbn [app]; perm].
      exists u, c, m, l, Lr. split; [eapply rl_at_list; exact R'|apply Permutation_refl]. }
  destruct (N h J) as (s & h1 & L1 & E1 & J1 & PS & Ls & SA & P1).
  destruct (A hs [] s Ls L1 PS SA P1 h1 J1) as ([] & h2 & L2 & E2 & J2 & Ls2 & SA2 & P2).
  destruct (wp_server_delete s _ Ls2 L2 F (fun b L' => b = true /\ L' = F) SA2 P2 (conj eq_refl eq_refl) h2 J2) as (b & h3 & L3 & E3 & J3 & -> & ->).
  exists s, h1, h2, h3. split; [exact E1|]. split; [lia|]. split; [exact E2|]. split; [exact E3|]. exact (heap_same h h3 F J J3).
Qed.
Print Assumptions C76_server_partial.
Example C76_server_example : exists h, (let! s := uecho_server_new plenty in let! _ := add_observers plenty s [7; 8; 7] in uecho_server_delete s) empty_heap = Ok (true, h)
  /\ forallb (fun a => match h_mem h (Z.of_nat a) with None => true | _ => false end) (seq 0 20) = true.
Proof. eexists. split; [vm_compute; reflexivity|]. vm_compute. reflexivity. Qed.

(* ---------- where it fails ---------- *)

(* a server is created but its set of observers is not: adding an observer, or deleting the server, goes through NULL *)
Theorem C76_server_no_memory_refuted : exists room, ~ made_well (uecho_server_new room) uecho_server_delete.
Proof.
  exists (fun n => negb (n =? 4)). intro M. destruct (M empty_heap well_empty) as (x & h1 & E & _ & D).
  assert (X : x = 1) by (vm_compute in E; congruence). subst x. destruct D as (r & h2 & D & _); [discriminate|].
  assert (H : h1 = match uecho_server_new (fun n => negb (n =? 4)) empty_heap with Ok (_, h) => h | Undef _ => empty_heap end) by (rewrite E; reflexivity).
  rewrite H in D. vm_compute in D. discriminate D.
Qed.
Print Assumptions C76_server_no_memory_refuted.
Theorem C76_observer_no_server_refuted : outcome (
  let! s := uecho_server_new (fun _ => false) in uecho_server_addobserver (fun _ => false) s 7) = Some UB_null.
Proof. vm_compute. reflexivity. Qed.
Print Assumptions C76_observer_no_server_refuted.
(* the list of observers could not be created: a new observer is in no list, and stays when the server is deleted *)
Theorem C76_observer_leak_refuted : match (
  let! s := uecho_server_new (fun n => negb (n =? 5)) in
  let! ok := uecho_server_addobserver plenty s 7 in
  let! _ := uecho_server_delete s in ret ok) empty_heap with
  | Ok (ok, h) => ok = false /\ exists b, h_mem h 6 = Some b
  | Undef _ => False
  end.
Proof. vm_compute. split; [reflexivity|]. eexists. reflexivity. Qed.
Print Assumptions C76_observer_leak_refuted.
(* a manufacturer created without memory for its name is returned, and silently loses the name it is given later *)
Theorem C76_half_made_refuted : match (
  let! m := uecho_manufacture_new (fun n => n <? 2) in
  let! _ := given [80; 97; 0] (set_text plenty m 0) in
  let! p := get_text m 0 in let! o := read_text p in ret (m, o)) empty_heap with
  | Ok ((m, o), _) => m <> 0 /\ o = None
  | Undef _ => False
  end.
Proof. vm_compute. split; [discriminate|reflexivity]. Qed.
Print Assumptions C76_half_made_refuted.
(* one class in two lists; both lists are deleted, the second one first *)
Theorem C76_two_lists_refuted : outcome (
  let! c := uecho_class_new plenty in
  let! l := list_new plenty in
  let! l2 := list_new plenty in
  let! _ := list_add KClass l c in
  let! _ := list_add KClass l2 c in
  let! _ := list_delete KClass l2 in
  list_delete KClass l) = Some UB_free.
Proof. vm_compute. reflexivity. Qed.
Print Assumptions C76_two_lists_refuted.
