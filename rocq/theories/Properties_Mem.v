(* C72, C73: messages, properties and packets in memory. *)
From Coq Require Import String ZArith List Bool Lia Permutation.
From Verif Require Import CSem P_Base M_Const M_Misc M_String M_Property M_Log M_Server M_Message Spec_Message M_Mem M_MemUse Spec_Mem
  P_Mem P_MemMsg P_MemRun P_MemLegal P_MemRecv.
Import ListNotations.
Open Scope Z_scope.

Lemma well_is : forall h, well h -> exists F, heap_is h F.
Proof.
  intros h (N & l & ND & H).
  exists (flat_map (fun a => match h_mem h a with Some b => [(a, b)] | None => [] end) l).
  assert (EF : map fst (flat_map (fun a => match h_mem h a with Some b => [(a, b)] | None => [] end) l) = l).
  { assert (G : forall a, In a l -> h_mem h a <> None) by (intros a I; apply H; exact I). clear - G.
    induction l as [|a l IH]; [reflexivity|]. cbn [flat_map]. rewrite map_app, IH by (intros x X; apply G; right; exact X).
    specialize (G a (or_introl eq_refl)). destruct (h_mem h a); [reflexivity|congruence]. }
  split; [exact N|]. split; [rewrite EF; exact ND|]. split; [rewrite EF; intros a I; apply H; exact I|].
  intros a b. rewrite in_flat_map. split.
  - intro E. exists a. split; [apply H; congruence|]. rewrite E. left. reflexivity.
  - intros (x & I & J). destruct (h_mem h x) eqn:E; [|destruct J]. destruct J as [J|[]]. injection J as <- <-. exact E.
Qed.
Lemma heap_same : forall h h' F, heap_is h F -> heap_is h' F -> forall a, h_mem h' a = h_mem h a.
Proof.
  intros h h' F (_ & _ & _ & H) (_ & _ & _ & H') a. destruct (h_mem h a) as [b|] eqn:E.
  - apply H'. apply H. exact E.
  - destruct (h_mem h' a) as [b|] eqn:E'; [|reflexivity]. apply H' in E'. apply H in E'. congruence.
Qed.

(* ---------- C72: a program that keeps to the rules sees messages as values and leaks nothing ---------- *)

Theorem C72_histories_partial : forall room le ops, (forall n, room n = true) -> legal le ops [] ->
  exists os st, srun le ops [] = Some (os, st)
  /\ forall h, well h -> exists ps h', hrun room le ops [] h = Ok ((os, ps), h')
     /\ (forall a b, h_mem h a = Some b -> h_mem h' a = Some b)
     /\ (all_deleted st -> forall a, h_mem h' a = h_mem h a).
Proof.
  intros room le ops Room LG. destruct (legal_run le ops [] (Forall_nil _) LG) as (os & st & E & _ & OK).
  exists os, st. split; [exact E|]. intros h W. destruct (well_is h W) as (F & J).
  destruct (wp_run room Room le ops [] [] os st F [] F E OK eq_refl (Permutation_refl _) h J) as ([os' ps] & h' & L' & EX & J' & EO & Ls & P & R).
  cbn [fst snd] in *. subst os'. exists ps, h'. split; [exact EX|]. apply (heap_perm _ _ _ J') in P. split.
  - intros a b M. apply P. apply in_or_app. right. apply J. exact M.
  - intros D. apply all_rep_deleted in R; [|exact D]. subst Ls. exact (heap_same h h' F J P).
Qed.
Print Assumptions C72_histories_partial.

Definition plenty (n : Z) : bool := true.
Lemma well_empty : well empty_heap.
Proof. split; [reflexivity|]. exists []. split; [constructor|]. intros a. split; [split; [intros []|intro X; exfalso; apply X; reflexivity]|intros []]. Qed.

(* a program with two messages, all ways to fill one, a copy, a comparison, a failed parse and four deletions *)
Definition a_program : list mop :=
  [MSearch; MNew; MTid 1 7; MSrc 1 77825; MDst 1 917505; MEsv 1 97; MFrom 1 (Some "192.168.0.9"%string); MTo 1 None;
   MSetProp PPlain 1 128 [48]; MSetProp PPlain 1 128 [49; 50]; MAddProp PSet 1 176 3 [1]; MCopy 1; MEquals 1 2;
   MBytes 1; MRead 2; MSet 0 1; MPacket 0 [16; 129; 0; 1; 14; 240; 1; 5; 255; 1; 98; 1; 214; 0] None (Some "10.0.0.2"%string);
   MRead 0; MParse 2 [16; 129; 0]; MDelete 1; MDelete 0; MDelete 2].
Ltac rules_tac := first [exact Logic.I | eexists; reflexivity | eexists; split; [reflexivity|right; reflexivity] | eexists; split; reflexivity
  | eexists; split; [reflexivity|vm_compute; discriminate] | split; [discriminate|do 2 eexists; split; reflexivity]
  | split; [discriminate|do 2 eexists; split; [reflexivity|split; [reflexivity|split; vm_compute; discriminate]]] ].
Ltac bytes_tac := repeat constructor; unfold is_byte; lia.
Example C72_example : legal true a_program [] /\
  match srun true a_program [] with Some (os, st) => all_deleted st /\ In (OBool true) os | None => False end.
Proof.
  split.
  - unfold a_program. cbn [legal].
    repeat (split; [cbn [args_ok c_text]; first [exact Logic.I | unfold is_byte; lia
       | split; [unfold is_byte; lia|split; [bytes_tac|unfold OBJ_MAX; vm_compute; discriminate]]
       | split; [repeat constructor; vm_compute; discriminate|reflexivity]
       | split; [bytes_tac|unfold OBJ_MAX; vm_compute; discriminate]
       | split; [split; [bytes_tac|unfold OBJ_MAX; vm_compute; discriminate]|split; [exact Logic.I|split; [repeat constructor; vm_compute; discriminate|reflexivity]]] ]|];
      split; [cbn [rules]; rules_tac|]; let o := fresh "o" in let st := fresh "st" in let E := fresh "E" in intros o st E;
      vm_compute in E; injection E as <- <-).
    exact Logic.I.
  - vm_compute. split; [repeat constructor|]. tauto.
Qed.

(* the rules matter: uses the declarations do not forbid *)

(* comparing a message with itself reads memory that was freed *)
Theorem C72_equals_self_refuted : hrun plenty true [MSearch; MEquals 0 0] [] empty_heap = Undef UB_free.
Proof. vm_compute. reflexivity. Qed.
Print Assumptions C72_equals_self_refuted.

(* setting a message from itself empties it *)
Theorem C72_set_self_refuted :
  match hrun plenty true [MSearch; MFrom 0 (Some "10.0.0.2"%string); MRead 0; MSet 0 0; MRead 0] [] empty_heap with
  | Ok (([ONone; ONone; OSeen s; OBool true; OSeen s'], _), _) =>
      v_plain s = [(214, AttrReadWrite, [])] /\ v_plain s' = [] /\ v_from s <> None /\ v_from s' = None
  | _ => False
  end.
Proof. vm_compute. repeat split; discriminate. Qed.
Print Assumptions C72_set_self_refuted.

(* the 256th property is written before its array *)
Theorem C72_many_properties_refuted :
  hrun plenty true (MNew :: repeat (MAddProp PPlain 0 128 0 []) 256) [] empty_heap = Undef UB_write.
Proof. vm_compute. reflexivity. Qed.
Print Assumptions C72_many_properties_refuted.

(* a deleted message, deleted again *)
Theorem C72_delete_twice_refuted : hrun plenty true [MNew; MDelete 0; MDelete 0] [] empty_heap = Undef UB_free.
Proof. vm_compute. reflexivity. Qed.
Print Assumptions C72_delete_twice_refuted.

(* ---- data of the message itself given back to it ---- *)
Definition outcome {A : Type} (c : mm A) : option ub := match c empty_heap with Ok _ => None | Undef u => Some u end.

(* parsing the bytes the message was serialised to: they are freed before they are read *)
Theorem C72_parse_own_bytes_refuted : outcome (
  let! m := M_Mem.uecho_message_search_new plenty in
  let! b := M_Mem.uecho_message_getbytes plenty m in
  let! n := M_Mem.uecho_message_size m in
  M_Mem.uecho_message_parse plenty m b n) = Some UB_free.
Proof. vm_compute. reflexivity. Qed.
Print Assumptions C72_parse_own_bytes_refuted.

(* setting the source address a message has *)
Theorem C72_own_address_refuted : outcome (
  let! m := M_Mem.uecho_message_new plenty in
  let! _ := given_text (Some "10.0.0.2"%string) (M_Mem.uecho_message_setsourceaddress plenty m) in
  let! g := load_msg m in
  M_Mem.uecho_message_setsourceaddress plenty m (g_from g)) = Some UB_free.
Proof. vm_compute. reflexivity. Qed.
Print Assumptions C72_own_address_refuted.

(* setting a property to the data it has *)
Theorem C72_own_data_refuted : outcome (
  let! m := M_Mem.uecho_message_new plenty in
  let! _ := given [1; 2] (fun d => M_Mem.uecho_message_setproperty plenty PPlain m 128 d 0 2) in
  let! p := M_Mem.uecho_message_getpropertybycode PPlain m 128 in
  let! q := load_prop p in
  M_Mem.uecho_message_setproperty plenty PPlain m 128 (q_data q) 0 (q_size q)) = Some UB_free.
Proof. vm_compute. reflexivity. Qed.
Print Assumptions C72_own_data_refuted.

(* one property added to two messages is freed twice *)
Theorem C72_shared_property_refuted : outcome (
  let! m1 := M_Mem.uecho_message_new plenty in
  let! m2 := M_Mem.uecho_message_new plenty in
  let! p := M_Mem.uecho_property_new plenty in
  let! _ := M_Mem.uecho_message_addproperty plenty PPlain m1 p in
  let! _ := M_Mem.uecho_message_addproperty plenty PPlain m2 p in
  let! _ := M_Mem.uecho_message_delete m1 in
  M_Mem.uecho_message_delete m2) = Some UB_free.
Proof. vm_compute. reflexivity. Qed.
Print Assumptions C72_shared_property_refuted.

(* the bytes of a message are gone when it is serialised again *)
Theorem C72_bytes_kept_refuted : outcome (
  let! m := M_Mem.uecho_message_search_new plenty in
  let! b := M_Mem.uecho_message_getbytes plenty m in
  let! _ := M_Mem.uecho_message_getbytes plenty m in
  load_bytes b) = Some UB_free.
Proof. vm_compute. reflexivity. Qed.
Print Assumptions C72_bytes_kept_refuted.

(* copying a packet to itself *)
Theorem C72_packet_self_refuted : outcome (
  let! k := uecho_socket_datagram_packet_new plenty in
  let! _ := given [1; 2] (fun d => uecho_socket_datagram_packet_setdata plenty k d 2) in
  uecho_socket_datagram_packet_copy plenty k k) = Some UB_free.
Proof. vm_compute. reflexivity. Qed.
Print Assumptions C72_packet_self_refuted.

(* without memory a valid frame makes the parser write through NULL *)
Definition a_get : list Z := [16; 129; 0; 1; 14; 240; 1; 5; 255; 1; 98; 1; 214; 0].
Theorem C72_no_memory_refuted : exists room, match
  (let! m := M_Mem.uecho_message_new plenty in given a_get (fun d => M_Mem.uecho_message_parse room m d (len a_get))) empty_heap
  with Undef UB_null => True | _ => False end.
Proof. exists (fun _ => false). vm_compute. exact Logic.I. Qed.
Print Assumptions C72_no_memory_refuted.

(* ---------- C73: receiving leaves memory as it was ---------- *)

Theorem C73_receiving_partial : forall room le prog os l, (forall n, room n = true) -> well_behaved le prog -> Forall arrival_ok l ->
  exists vs, server_action (makes le prog) os l = Ok vs
  /\ forall h, well h -> exists h',
       receive_loop room le prog os l h = Ok (map (fun d => (fst d, look (snd d))) vs, h')
       /\ forall a, h_mem h' a = h_mem h a.
Proof.
  intros room le prog os l Room WB OK. destruct (receive_defined le prog os l OK) as (vs & E). exists vs. split; [exact E|].
  intros h W. destruct (well_is h W) as (F & J).
  assert (WP : wp (receive_loop room le prog os l) F (fun ds L' => ds = map (fun d => (fst d, look (snd d))) vs /\ Permutation L' F)).
  { apply (wp_receive room Room le prog WB); [exact OK|]. exists vs. split; [exact E|]. intros L' P. split; [reflexivity|exact P]. }
  destruct (WP h J) as (ds & h' & L' & EX & J' & -> & P). exists h'. split; [exact EX|].
  apply (heap_same h h' F J). eapply heap_perm; eauto.
Qed.
Print Assumptions C73_receiving_partial.

(* two observers; the first changes the message and makes and deletes a copy; frames, rubbish and an empty datagram *)
Definition busy_handler (o : mobs) (s : seen) : list mop :=
  if (mo_object o =? 1) && (v_esv s =? 98) then [MTid 0 99; MCopy 0; MEsv 0 114; MRead 1; MDelete 1] else [MRead 0].
Definition some_arrivals : list arrival :=
  [AData a_get "10.0.0.2" (Some "10.0.0.1"%string); AData [1; 2; 3] "10.0.0.3" None; AEmpty; AData a_get "10.0.0.4" None; AError].
Example C73_example : well_behaved true busy_handler /\ Forall arrival_ok some_arrivals
  /\ match receive_loop plenty true busy_handler [mkMobs 1 5; mkMobs 2 6] some_arrivals empty_heap with
     | Ok (ds, _) => map (fun d => (mo_object (fst d), v_esv (snd d), v_from (snd d))) ds
         = [(1, 98, Some (cstr "10.0.0.2")); (2, 114, Some (cstr "10.0.0.2")); (1, 98, Some (cstr "10.0.0.4")); (2, 114, Some (cstr "10.0.0.4"))]
     | Undef _ => False
     end.
Proof.
  split; [|split].
  - intros o m A. unfold busy_handler. destruct ((mo_object o =? 1) && (v_esv (look m) =? 98)).
    + assert (A1 := am_settid true m 99 A). destruct (set_api true _ _ (am_new true) A1) as (m2 & E2 & A2).
      assert (EC : M_Message.uecho_message_copy true (M_Message.uecho_message_settid true 99 m) = Ok m2) by exact E2.
      set (m1 := M_Message.uecho_message_settid true 99 m) in *.
      split.
      * cbn [legal args_ok rules].
        split; [exact Logic.I|]. split; [eexists; reflexivity|]. intros o1 s1 S1. cbn [sstep alive nth_error on put] in S1. injection S1 as <- <-. fold m1.
        split; [exact Logic.I|]. split; [eexists; reflexivity|]. intros o2 s2 S2. cbn [sstep alive nth_error on put] in S2. rewrite EC in S2. cbn [defined on app] in S2. injection S2 as <- <-.
        split; [unfold is_byte; lia|]. split; [eexists; reflexivity|]. intros o3 s3 S3. cbn [sstep alive nth_error on put] in S3. injection S3 as <- <-.
        split; [exact Logic.I|]. split; [eexists; reflexivity|]. intros o4 s4 S4. cbn [sstep alive nth_error on put] in S4. injection S4 as <- <-.
        split; [exact Logic.I|]. split; [eexists; reflexivity|]. intros; exact Logic.I.
      * intros os0 st E. cbn [srun sstep alive nth_error on put] in E. fold m1 in E. rewrite EC in E. cbn [defined on app srun sstep alive nth_error put] in E.
        injection E as <- <-. do 2 eexists. split; [reflexivity|]. repeat constructor.
    + split.
      * cbn [legal args_ok rules]. split; [exact Logic.I|]. split; [eexists; reflexivity|]. intros; exact Logic.I.
      * intros os0 st E. cbn [srun sstep alive nth_error on] in E. injection E as <- <-. exists m, []. split; [reflexivity|constructor].
  - repeat constructor; try (unfold is_byte; lia); try (unfold OBJ_MAX; vm_compute; discriminate); try reflexivity.
  - vm_compute. reflexivity.
Qed.

(* without memory for the message (the tenth block) the packet of the datagram is lost *)
Theorem C73_leak_refuted : exists room, match receive_loop room true busy_handler [mkMobs 1 5] [AData a_get "10.0.0.2" None; AError] empty_heap with
  | Ok (ds, h) => ds = [] /\ exists a, h_mem h a <> None
  | Undef _ => False
  end.
Proof. exists (fun n => negb (n =? 10)). vm_compute. split; [reflexivity|]. exists 1. discriminate. Qed.
Print Assumptions C73_leak_refuted.

(* a handler that deletes the message it is given makes the loop free it twice *)
Theorem C73_handler_deletes_refuted :
  receive_loop plenty true (fun _ _ => [MDelete 0]) [mkMobs 1 5] [AData a_get "10.0.0.2" None] empty_heap = Undef UB_free.
Proof. vm_compute. reflexivity. Qed.
Print Assumptions C73_handler_deletes_refuted.
