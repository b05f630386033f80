(* C85: the example lamp (examples/device/uecholight) as a device on the network.
   [le] is the byte order of the host, [net] says which hand-overs to the server succeed. *)
From Coq Require Import String ZArith List Bool Lia ZifyBool ZifyNat.
From Verif Require Import CSem M_Const M_Misc M_Property M_Message M_PropertyList M_Object M_Node M_NodeListener
  StdDB_Data M_Std M_Device M_Light Spec_Frame Spec_Message Spec_Map Spec_Object Spec_Node Spec_Request Spec_Std Spec_Light Run_Object Run_Node P_Base P_Misc
  P_Message P_Encode P_MsgApi P_PropertyList P_Object P_ObjectRun P_ObjectReach P_Std P_Node P_Request Properties_Object
  P_NodeReach P_NodeProfile P_NodeInv P_NodeRun P_NodeProps P_RequestProps P_RequestApi Properties_Node Properties_Request P_Bound P_Light.
Import ListNotations.
Open Scope Z_scope.
Ltac Zify.zify_post_hook ::= Z.div_mod_to_equations.

(* Whatever the random numbers, the options and the datagrams: the lamp starts, meets no
   undefined behaviour, its status is the last single byte written to it (0x30 before), and
   it prints one line for each write, in order, with what was written. *)
Theorem C85_status : forall le net fr verbose man up es,
  fresh_ok fr -> Forall event_ok es ->
  exists n ok n' lines answers,
    light_main le net std_db fr verbose man up = Ok (n, ok)
    /\ light_run le net n es = Ok (n', lines, answers)
    /\ node_data n' 168193 128 = Some [status_after 48 (all_commands es)]
    /\ lines = map reported (all_commands es).
Proof.
  intros le net fr verbose man up es Hf He. destruct (main_lamp le net fr verbose man up Hf) as (n & ok & E & L).
  destruct (run_lamp le net es 48 n L He) as (n' & ls & an & E2 & (_ & _ & _ & o & G & _ & D) & P).
  exists n, ok, n', ls, an. split; [exact E|]. split; [exact E2|]. split; [|exact P]. rewrite (odata_node _ _ _ G). exact D.
Qed.
Print Assumptions C85_status.

(* the lamp [n] after the datagrams and hang-ups [es] *)
Definition lamp_after le net (es : list event) (n : node) : Prop :=
  Forall event_ok es /\ exists fr verbose man up n0 ok lines answers, fresh_ok fr
  /\ light_main le net std_db fr verbose man up = Ok (n0, ok) /\ light_run le net n0 es = Ok (n, lines, answers).

Lemma after_lamp : forall le net es n, lamp_after le net es n -> lamp_node le net (status_after 48 (all_commands es)) n.
Proof.
  intros le net es n (He & fr & verbose & man & up & n0 & ok & ls & an & Hf & E & R).
  destruct (main_lamp le net fr verbose man up Hf) as (n1 & ok1 & E1 & L). rewrite E in E1. injection E1 as <- <-.
  destruct (run_lamp le net es 48 n0 L He) as (n' & ls' & an' & E2 & L' & _). rewrite R in E2. injection E2 as <- _ _. exact L'.
Qed.

(* A read of the status, at any moment: it is answered with the last byte written, and
   neither changes the lamp nor prints anything. *)
Theorem C85_read : forall le net es n f rest la a d,
  lamp_after le net es n -> frame_ok f -> buffer (enc_frame f ++ rest) ->
  eoj_code (f_deoj f) = 168193 -> f_esv f = 98 -> f_body f = Plain [(128, d)] ->
  light_event le net n (Datagram (enc_frame f ++ rest) la (Some a))
  = Ok (n, [], [PSend a (enc_frame (mkFrame (f_tid f) (f_deoj f) (f_seoj f) 114 (Plain [(128, [status_after 48 (all_commands es)])])))]).
Proof.
  intros le net es n f rest la a d Ha Hf Hb Hd Hs Eb. apply after_lamp in Ha. cbn [light_event].
  destruct (receive_lamp le net _ n (enc_frame f ++ rest) la (Some a) Ha Hb) as (r & E & _ & P). rewrite E. cbn [bind].
  set (s := status_after 48 (all_commands es)) in *. clearbody s.
  destruct Ha as (A & _ & _ & o & G & _ & D).
  assert (R : receives le net lamp_dec n f rest la (Some a) r) by (split; [exact A|split; [exact Hf|split; [exact Hb|exact E]]]).
  assert (Rd : read_esv (f_esv f) = true) by (rewrite Hs; reflexivity).
  assert (C0 : commands (enc_frame f ++ rest) = []).
  { unfold commands. rewrite (dec_enc f rest Hf Hb). rewrite Hd. unfold written. rewrite Eb, Hs. reflexivity. }
  rewrite C0 in P. cbn [map] in P. assert (Rc : r_calls r = []) by (unfold lamp_prints in P; destruct (r_calls r); [reflexivity|discriminate]).
  assert (Nd : node_data n (dest f) 128 = Some [s]) by (unfold dest; rewrite Hd, (odata_node _ _ _ G); exact D).
  destruct (C27_no_change _ _ _ _ _ _ _ _ _ R Rd) as [Rn _].
  assert (V : r_answer r = [PSend a (enc_frame (mkFrame (f_tid f) (f_deoj f) (f_seoj f) 114 (Plain (current n (dest f) [(128, d)]))))]).
  { pose proof (C27_value_partial _ _ _ _ _ _ _ _ _ [(128, d)] R Rd Eb) as V. cbv zeta in V. rewrite V, Hs; [reflexivity| | | | |].
    - unfold has_object, dest. rewrite Hd, G. discriminate.
    - constructor; [|constructor]. cbn [fst]. rewrite Nd. discriminate.
    - unfold agreed. rewrite Rc. constructor.
    - intros e d' [<-|[]] Q. cbn [fst] in Q. rewrite Nd in Q. injection Q as <-. unfold len. cbn [length]. lia.
    - cbn [length]. lia. }
  rewrite V, Rc, Rn. unfold current. cbn [map fst]. rewrite Nd. reflexivity.
Qed.
Print Assumptions C85_read.

(* A SetC of one byte, any byte, is acknowledged. *)
Theorem C85_acknowledged : forall le net es n f rest la a x,
  lamp_after le net es n -> frame_ok f -> buffer (enc_frame f ++ rest) ->
  eoj_code (f_deoj f) = 168193 -> f_esv f = 97 -> f_body f = Plain [(128, [x])] ->
  exists n', light_event le net n (Datagram (enc_frame f ++ rest) la (Some a))
  = Ok (n', [reported (97, [x])], [PSend a (enc_frame (mkFrame (f_tid f) (f_deoj f) (f_seoj f) 113 (Plain [(128, [])])))])
  /\ node_data n' 168193 128 = Some [x].
Proof.
  intros le net es n f rest la a x Ha Hf Hb Hd Hs Eb. apply after_lamp in Ha. cbn [light_event].
  destruct (receive_lamp le net _ n (enc_frame f ++ rest) la (Some a) Ha Hb) as (r & E & L & P). rewrite E. cbn [bind].
  set (s := status_after 48 (all_commands es)) in *. clearbody s.
  destruct Ha as (A & _ & _ & o & G & _ & D).
  assert (R : receives le net lamp_dec n f rest la (Some a) r) by (split; [exact A|split; [exact Hf|split; [exact Hb|exact E]]]).
  assert (C0 : commands (enc_frame f ++ rest) = [(97, [x])]).
  { unfold commands. rewrite (dec_enc f rest Hf Hb). rewrite Hd. unfold written. rewrite Eb, Hs. reflexivity. }
  rewrite C0 in P, L. cbn [map] in P. destruct L as (_ & _ & _ & o' & G' & _ & D').
  assert (G1 : uecho_node_getobjectbycode n (dest f) = Some o) by (unfold dest; rewrite Hd; exact G).
  assert (Rq : request_esv (f_esv f)) by (rewrite Hs; unfold request_esv; cbn [In]; tauto).
  assert (Nd : node_data n (dest f) 128 = Some [s]) by (unfold dest; rewrite Hd, (odata_node _ _ _ G); exact D).
  assert (Ag : agreed r).
  { destruct (request_effects _ _ _ _ _ _ _ _ _ _ R G1 Rq) as (_ & ns & b & all & _ & Hh & _).
    apply honest_truthful in Hh. unfold truthful in Hh. unfold agreed. unfold lamp_prints in P.
    destruct (r_calls r) as [|y [|z l]]; [constructor| |discriminate]. inversion Hh as [|? ? T _]; subst. constructor; [|constructor].
    rewrite T. unfold lamp_dec. cbn [map] in P. injection P as P. clear -P.
    unfold uecho_lighting_propertyrequesthandler in *. destruct (hc_data (fst y)) as [|d0 [|d1 l]]; [|reflexivity|];
      cbn [snd] in P; unfold reported in P; cbn [snd] in P; injection P as _ _ _ Pp;
      destruct (x =? 48); [|destruct (x =? 49)| |destruct (x =? 49)]; discriminate. }
  exists (r_node r). split.
  - rewrite P, (C26_answer_partial _ _ _ _ _ _ _ _ _ [(128, [x])] R); [rewrite Hs; reflexivity|rewrite Hs; reflexivity|exact Eb| | |exact Ag|cbn [length]; lia].
    + unfold has_object, dest. rewrite Hd, G. discriminate.
    + constructor; [|constructor]. cbn [fst]. rewrite Nd. discriminate.
  - rewrite (odata_node _ _ _ G'), D'. reflexivity.
Qed.
Print Assumptions C85_acknowledged.

(* ---- a run ---- *)
Definition some_fresh : fresh := mkFreshL 4660 (fun _ => 0) [1; 2; 3] (repeat 7 13).
Definition to_lamp (esv : Z) (b : body) : frame := mkFrame (9, 8) (5, 255, 1) (2, 145, 1) esv b.
Definition send (f : frame) : event := Datagram (enc_frame f) here (Some there).
Definition an_evening : list event :=
  [send (to_lamp 97 (Plain [(128, [49])])); send (to_lamp 97 (Plain [(128, [48; 48])])); Hangup true;
   send (to_lamp 96 (Plain [(129, [8]); (128, [51])])); send (to_lamp 110 (SetGetBody [(128, [49])] [(128, [])])); Datagram [1; 2; 3] None None].

Lemma some_fresh_ok : fresh_ok some_fresh.
Proof.
  split; [cbn [fl_tid some_fresh]; lia|]. split; [intros i; cbn [fl_junk some_fresh]; unfold is_byte; lia|].
  split; [apply is_byteb_val; reflexivity|]. split; [apply is_byteb_val; reflexivity|]. split; vm_compute; lia.
Qed.

Lemma an_evening_ok : Forall event_ok an_evening.
Proof.
  unfold an_evening, send.
  repeat (apply Forall_cons; [first [exact Logic.I | split; [apply is_byteb_val; reflexivity|unfold len; vm_compute; reflexivity || (vm_compute; discriminate)]]|]).
  apply Forall_nil.
Qed.

(* the program: what it printed and sent *)
Definition run_of (db : list obj) (fr : fresh) (man : Z) (es : list event) : option (node * list line * list post) :=
  match light_main true net_up db fr false man true with
  | Ok (n, _) => match light_run true net_up n es with Ok x => Some x | _ => None end
  | _ => None
  end.
Lemma run_of_some : forall db fr man es n ls an, run_of db fr man es = Some (n, ls, an) ->
  exists n0 ok, light_main true net_up db fr false man true = Ok (n0, ok) /\ light_run true net_up n0 es = Ok (n, ls, an).
Proof.
  intros db fr man es n ls an H. unfold run_of in H. destruct (light_main true net_up db fr false man true) as [[n0 ok]|] eqn:E; [|discriminate].
  destruct (light_run true net_up n0 es) as [[[n1 l1] a1]|] eqn:E1; [|discriminate]. injection H as -> -> ->.
  exists n0, ok. split; [reflexivity|exact E1].
Qed.
Notation lamp_run := (run_of std_db some_fresh).

Lemma lamp_run_after : forall man es n ls an, Forall event_ok es -> lamp_run man es = Some (n, ls, an) -> lamp_after true net_up es n.
Proof.
  intros man es n ls an He H. destruct (run_of_some _ _ _ _ _ _ _ H) as (n0 & ok & E & E1).
  split; [exact He|]. exists some_fresh, false, man, true, n0, ok, ls, an. split; [exact some_fresh_ok|]. split; [exact E|exact E1].
Qed.

Example C85_example : fresh_ok some_fresh /\ Forall event_ok an_evening
  /\ all_commands an_evening = [(97, [49]); (97, [48; 48]); (96, [51]); (97, [49])]
  /\ status_after 48 (all_commands an_evening) = 49
  /\ option_map (fun x => snd (fst x)) (lamp_run 0 an_evening)
     = Some [mkLine 97 128 1 PowerOff; mkLine 97 128 2 BadRequest; mkLine 96 128 1 (PowerIs 51); mkLine 97 128 1 PowerOff]
  /\ option_map (fun x => length (snd x)) (lamp_run 0 an_evening) = Some 4%nat.
Proof.
  split; [exact some_fresh_ok|]. split; [exact an_evening_ok|]. split; [vm_compute; reflexivity|]. split; [vm_compute; reflexivity|].
  split; vm_compute; reflexivity.
Qed.

Lemma run_some : forall man es, (if lamp_run man es then true else false) = true -> exists n ls an, lamp_run man es = Some (n, ls, an).
Proof. intros man es. generalize (lamp_run man es). intros [[[n ls] an]|] H; [exists n, ls, an; reflexivity|discriminate]. Qed.

(* reading after that evening *)
Example C85_read_example : let f := to_lamp 98 (Plain [(128, [])]) in
  (exists n, lamp_after true net_up an_evening n)
  /\ frame_ok f /\ buffer (enc_frame f ++ []) /\ eoj_code (f_deoj f) = 168193 /\ f_esv f = 98 /\ f_body f = Plain [(128, [])]
  /\ let g := to_lamp 97 (Plain [(128, [48])]) in
     frame_ok g /\ buffer (enc_frame g ++ []) /\ eoj_code (f_deoj g) = 168193 /\ f_esv g = 97 /\ f_body g = Plain [(128, [48])].
Proof.
  cbv zeta. split.
  { assert (K : (if lamp_run 0 an_evening then true else false) = true) by (vm_compute; reflexivity).
    destruct (run_some 0 an_evening K) as (n & ls & an & E). exists n. exact (lamp_run_after 0 an_evening n ls an an_evening_ok E). }
  split; [apply frame_checks; reflexivity|]. split; [split; [apply is_byteb_val; reflexivity|vm_compute; discriminate]|].
  do 3 (split; [reflexivity|]).
  split; [apply frame_checks; reflexivity|]. split; [split; [apply is_byteb_val; reflexivity|vm_compute; discriminate]|].
  do 2 (split; [reflexivity|]). reflexivity.
Qed.

(* The status is defined as 0x30 or 0x31; the lamp takes, keeps and acknowledges any byte. *)
Theorem C85_legal_refuted : exists es n ls an, Forall event_ok es /\ lamp_run 0 es = Some (n, ls, an)
  /\ node_data n 168193 128 = Some [153] /\ an = [PSend there (enc_frame (mkFrame (9, 8) (2, 145, 1) (5, 255, 1) 113 (Plain [(128, [])])))].
Proof.
  exists [send (to_lamp 97 (Plain [(128, [153])]))].
  assert (K : match lamp_run 0 [send (to_lamp 97 (Plain [(128, [153])]))] with
              | Some (n, _, an) => node_data n 168193 128 = Some [153] /\ an = [PSend there (enc_frame (mkFrame (9, 8) (2, 145, 1) (5, 255, 1) 113 (Plain [(128, [])])))]
              | None => False end) by (vm_compute; split; reflexivity).
  revert K. generalize (lamp_run 0 [send (to_lamp 97 (Plain [(128, [153])]))]). intros [[[n ls] an]|] K; [|contradiction]. exists n, ls, an. destruct K as [K1 K2].
  split; [|split; [reflexivity|split; [exact K1|exact K2]]].
  constructor; [|constructor]. split; [apply is_byteb_val; reflexivity|vm_compute; discriminate].
Qed.
Print Assumptions C85_legal_refuted.

(* The standard wants a change of the operating status announced (the row of property 0x80
   in the standard database says so); the lamp redeclares the property without the announcement
   attribute, and switching it sends nothing but the answer. *)
Definition switched_anns (d : Z) : option (list post) :=
  match lamp_run 0 [] with
  | Some (n, _, _) => match node_receive true net_up lamp_dec n (enc_frame (to_lamp 96 (Plain [(128, [d])]))) here (Some there) with
                      | Ok r => if list_eq_dec Z.eq_dec (match node_data (r_node r) 168193 128 with Some v => v | None => [] end) [d]
                                then Some (r_anns r ++ r_answer r) else None
                      | _ => None end
  | None => None
  end.
Theorem C85_announced_refuted : (exists g s, listed 2 145 128 = Some (g, s, Rq)) /\ switched_anns 49 = Some [].
Proof. split; [eexists _, _; vm_compute; reflexivity|vm_compute; reflexivity]. Qed.
Print Assumptions C85_announced_refuted.

(* The manufacturer code given with -m is set before the lamp is added to the node: the
   node profile has it, the lamp has not. *)
Theorem C85_manufacturer_refuted : exists n ls an, lamp_run 5 [] = Some (n, ls, an)
  /\ node_data n 978945 138 = Some [0; 0; 5] /\ node_data n 168193 138 = Some [255; 255; 240].
Proof.
  assert (K : match lamp_run 5 [] with
              | Some (n, _, an) => node_data n 978945 138 = Some [0; 0; 5] /\ node_data n 168193 138 = Some [255; 255; 240]
              | None => False end) by (vm_compute; split; reflexivity).
  revert K. generalize (lamp_run 5 []). intros [[[n ls] an]|] K; [|contradiction]. exists n, ls, an. split; [reflexivity|exact K].
Qed.
Print Assumptions C85_manufacturer_refuted.
