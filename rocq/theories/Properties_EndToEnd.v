(* C42, C43, C48, C51: what happens when frames travel between a controller and a device.
   The controller runs on a host with byte order [le], the device on one with byte order
   [le']; [net], [net'] and [snet] say which hand-overs to the servers succeed, [dec] is the
   behaviour of the handlers the device's application registered.  All are arbitrary. *)
From Coq Require Import String ZArith List Bool Lia ZifyBool ZifyNat.
From Verif Require Import CSem M_Const M_Misc M_Property M_Message M_PropertyList M_Object M_Node M_NodeListener M_Controller
  StdDB_Data M_Std Spec_Frame Spec_Message Spec_Map Spec_Object Spec_Node Spec_Request Spec_Controller Run_Object Run_Node
  Run_Controller P_Base P_Misc P_Message P_Encode P_MsgApi P_PropertyList P_Object P_ObjectRun P_ObjectReach P_Std P_Node
  P_Request Properties_Object P_NodeReach P_NodeProfile P_NodeInv P_NodeRun P_NodeProps P_RequestProps P_RequestApi P_NodeSafe
  P_Shadow P_Controller P_ControllerProps Properties_Message Properties_Node Properties_Request Properties_Controller P_EndToEnd.
Import ListNotations.
Open Scope Z_scope.
Ltac Zify.zify_post_hook ::= Z.div_mod_to_equations.

(* [q] was built through the API, its getters return the fields of [f], and its property
   data fit the length fields of a frame *)
Definition prepared (le : bool) (q : msg) (f : frame) : Prop :=
  api_msg le q /\ in_memory q /\ pdc_fits q /\ shows le q f /\ frame_ok f.

(* the TID bytes of the next frame a controller sends *)
Definition tid_next (le : bool) (c : ctrl) : Z * Z := tid_wire le (next_tid (n_tid (c_node c))).

Lemma ctrl_ninv : forall le net snet c, api_ctrl le net snet std_db c -> ninv (c_node c).
Proof. intros le net snet c H. destruct (api_ctrl_ok le net snet std_db std_db_ok c H) as [Hc _]. apply Hc. Qed.

Lemma tid_next_ok : forall le net snet c, api_ctrl le net snet std_db c ->
  byte_val (fst (tid_next le c)) /\ byte_val (snd (tid_next le c)).
Proof.
  intros le net snet c H. apply ctrl_ninv in H. destruct H as [H _]. apply next_tid_range in H. apply tid_wire_bytes. lia.
Qed.

(* hearing a frame as it was encoded *)
Lemma heard_some : forall le net snet dec fr c f la a x y, api_ctrl le net snet std_db c -> fresh_ok fr -> frame_ok f ->
  ctrl_receive le net snet std_db dec fr c (enc_frame f) la (Some a) = Ok (x, y) ->
  exists x', x = Some x' /\ hears le net snet std_db dec fr c f [] la a x' y.
Proof.
  intros le net snet dec fr c f la a x y Hc Hfr Hf H. pose proof (frame_buffer f Hf) as Hb.
  pose proof H as H'. destruct (api_ctrl_ok le net snet std_db std_db_ok c Hc) as [Hi M].
  apply ctrl_receive_spec in H'; [|exact Hi|apply M|exact Hb|exact Hfr].
  rewrite <- (app_nil_r (enc_frame f)), dec_enc in H' by (exact Hf || (rewrite app_nil_r; apply Hb)).
  destruct H' as (x' & y' & E & _). exists x'. injection E as -> _. split; [reflexivity|].
  split; [exact Hc|]. split; [exact Hf|]. rewrite app_nil_r. auto.
Qed.

(* ---------- C42: searches ---------- *)

Definition search_frame (tid : Z * Z) (deoj : Z * Z * Z) : frame :=
  mkFrame tid node_profile_eoj deoj 98 (Plain [(214, [])]).

Lemma search_sent : forall le net n deoj m, ninv n -> profile n <> None -> eoj_ok deoj ->
  msg_ok m -> std_ehd m -> m_esv m = 98 -> m_deoj m = e3l deoj -> m_p m = pv_of [(214, [])] -> m_pset m = pv_empty -> m_pget m = pv_empty ->
  let t := next_tid (n_tid n) in let bytes := enc_frame (search_frame (tid_wire le t) deoj) in
  exists m', uecho_node_announcemessage le net n m
    = Ok (mkSent (n_with_tid t n) m' [PAnnounce bytes] (net (PAnnounce bytes)))
  /\ shows le m' (search_frame (tid_wire le t) deoj) /\ frame_ok (search_frame (tid_wire le t) deoj).
Proof.
  intros le net n deoj m Hn Hp Hd Hm He E1 E2 E3 E4 E5 t bytes.
  assert (Sh : short_msg m) by (unfold short_msg; rewrite E1, E3; constructor; [cbn; lia|constructor]).
  assert (Ef : as_sent le t (frame_of m) = search_frame (tid_wire le t) deoj).
  { unfold as_sent, frame_of. cbn [f_deoj f_esv f_body]. rewrite E1, E2, E3. destruct deoj as [[a b] c]. reflexivity. }
  destruct (announces le net n m (frame_of m) Hn Hp Hm He) as (m' & A & B & C);
    [apply search_fits; auto|exact Sh|apply shows_frame_of; exact Hm|apply frame_of_ok; assumption|].
  fold t in A, B, C. rewrite Ef in *. exists m'. auto.
Qed.

(* uecho_controller_search multicasts one frame: a read request for the instance list
   0xD6 of the node profile 0x0EF001.  Any receiver that parses it sees a search request. *)
Theorem C42_search : forall le net snet c,
  api_ctrl le net snet std_db c -> has_object (c_node c) 978945 ->
  let bytes := enc_frame (search_frame (tid_next le c) node_profile_eoj) in
  exists s, uecho_controller_search le net c = Ok s
  /\ s_posts s = [PAnnounce bytes] /\ s_ret s = net (PAnnounce bytes)
  /\ s_node s = n_with_tid (next_tid (n_tid (c_node c))) (c_node c)
  /\ frame_ok (search_frame (tid_next le c) node_profile_eoj)
  /\ (forall le' m0 la a, api_msg le' m0 -> exists m,
        uecho_message_parsepacket m0 bytes la (Some a) = Ok (true, m)
        /\ shows le' m (search_frame (tid_next le c) node_profile_eoj)
        /\ uecho_message_issearchrequest m = Ok true).
Proof.
  intros le net snet c Hc Hp bytes. apply ctrl_ninv in Hc. destruct search_msg as (m & E & Hm & E1 & E2 & E3 & E4 & E5 & E6 & E7).
  assert (Em : uecho_message_setesv ESV_Get m = m).
  { unfold uecho_message_setesv. change ESV_Get with 98. rewrite <- E1. destruct m; reflexivity. }
  destruct (search_sent le net (c_node c) node_profile_eoj m Hc Hp) as (m' & A & _ & C);
    [cbn; unfold byte_val; lia|exact Hm|split; assumption|exact E1|exact E2|exact E5|exact E6|exact E7|].
  exists (mkSent (n_with_tid (next_tid (n_tid (c_node c))) (c_node c)) m' [PAnnounce bytes] (net (PAnnounce bytes))).
  unfold uecho_controller_search, uecho_controller_searchwithesv. rewrite E. cbn [bind]. rewrite Em.
  split; [exact A|]. split; [reflexivity|]. split; [reflexivity|]. split; [reflexivity|]. split; [exact C|].
  intros le' m0 la a H0. destruct (parsed le' m0 _ la a H0 C) as (m1 & P & S & _ & H1). exists m1.
  split; [exact P|]. split; [exact S|]. destruct S as (_ & _ & _ & Se & So & Sp). cbn [search_frame f_esv f_body] in *.
  unfold uecho_message_issearchrequest. unfold uecho_message_getesv in Se. rewrite Se. cbn [negb].
  unfold uecho_message_getopc in So. rewrite So. 
  assert (P0 : 0 <= 0 < SIZE_MOD) by (unfold SIZE_MOD; lia). specialize (Sp 0 P0). destruct Sp as (p & G & Ec & _).
  unfold first_code_is. rewrite G. change (98 =? ESV_Get) with true. change (Z.of_nat (length [(214, @nil Z)]) =? 1) with true.
  cbn [negb bind]. rewrite Ec. reflexivity.
Qed.
Print Assumptions C42_search.

(* A device with at most 84 device objects whose handlers agree answers the search, on any
   host; a controller that hears the answer then knows exactly the objects it knew of that
   address, and the device's.  [c2] is any state of a controller, for instance a later one
   of the searching controller. *)
Theorem C42_discovered : forall le net snet c le' net' dec n la ca r,
  api_ctrl le net snet std_db c ->
  api_node le' net' std_db n -> describes n -> (length (devices (eojs n)) <= 84)%nat ->
  node_receive le' net' dec n (enc_frame (search_frame (tid_next le c) node_profile_eoj)) la (Some ca) = Ok r -> agreed r ->
  r_node r = n
  /\ exists ans, r_answer r = [PSend ca ans]
  /\ forall na dec2 fr c2 la2 x y, api_ctrl le net snet std_db c2 -> fresh_ok fr ->
       ctrl_receive le net snet std_db dec2 fr c2 ans la2 (Some na) = Ok (x, y) ->
       exists n', uecho_controller_getnodebyaddress (cr_ctrl y) (Some na) = Some n'
       /\ NoDup (eojs n')
       /\ (forall e, In e (eojs n') <-> In e (known_eojs c2 na) \/ In e (devices (eojs n)))
       /\ (forall b, b <> na ->
             uecho_controller_getnodebyaddress (cr_ctrl y) (Some b) = uecho_controller_getnodebyaddress c2 (Some b)).
Proof.
  intros le net snet c le' net' dec n la ca r Hc Hn D L R Ag.
  set (f := search_frame (tid_next le c) node_profile_eoj) in *.
  assert (Hf : frame_ok f).
  { destruct (tid_next_ok _ _ _ _ Hc) as [T0 T1]. split; [exact T0|]. split; [exact T1|].
    split; [cbn; unfold byte_val; lia|]. split; [cbn; unfold byte_val; lia|]. split; [cbn; unfold byte_val; lia|].
    split; [cbn; unfold two_lists; lia|]. split; [|cbn; lia]. constructor; [|constructor].
    split; [unfold byte_val; cbn; lia|]. split; [constructor|cbn; lia]. }
  assert (Rv : receives le' net' dec n f [] la (Some ca) r).
  { split; [exact Hn|]. split; [exact Hf|]. rewrite app_nil_r. split; [apply frame_buffer; exact Hf|exact R]. }
  destruct D as (_ & _ & _ & D6 & _). change 978945 with (dest f) in D6.
  assert (O : has_object n (dest f)).
  { unfold has_object. unfold node_data in D6. destruct (uecho_node_getobjectbycode n (dest f)); discriminate. }
  assert (Ld : len (prof_D6 (eojs n)) <= 253) by (apply len_D6; exact L).
  pose proof (C27_value_partial _ _ _ _ _ _ _ _ _ [(214, [])] Rv eq_refl eq_refl O) as V. cbv zeta in V.
  rewrite V; clear V.
  2:{ constructor; [|constructor]. cbn [fst]. rewrite D6. discriminate. }
  2:{ exact Ag. }
  2:{ intros e d [<-|[]] Ed. cbn [fst] in Ed. rewrite D6 in Ed. injection Ed as <-. lia. }
  2:{ cbn. lia. }
  change (f_esv f =? 98) with true. cbv iota. unfold current. cbn [map fst]. rewrite D6.
  split; [apply (C27_no_change _ _ _ _ _ _ _ _ _ Rv eq_refl)|].
  set (g := mkFrame (f_tid f) (f_deoj f) (f_seoj f) 114 (Plain [(214, prof_D6 (eojs n))])) in *.
  exists (enc_frame g). split; [reflexivity|].
  intros na dec2 fr c2 la2 x y H2 Hfr H.
  assert (Hg : frame_ok g).
  { destruct Hf as (T0 & T1 & S & De & _). split; [exact T0|]. split; [exact T1|]. split; [exact De|]. split; [exact S|].
    split; [cbn; unfold byte_val; lia|]. split; [cbn; unfold two_lists; lia|]. split; [|cbn; lia]. constructor; [|constructor].
    split; [unfold byte_val; cbn; lia|]. cbn [snd].
    split; [|unfold len in Ld; lia].
    exact (node_data_bytes _ _ _ _ _ _ Hn D6). }
  destruct (heard_some _ _ _ _ _ _ _ _ _ _ _ H2 Hfr Hg H) as (x' & -> & Hh).
  pose proof (C34_learned _ _ _ _ _ _ _ _ _ _ _ _ (Z.of_nat (length (firstn 255 (devices (eojs n))))) (concat (map enc_eoj (firstn 255 (devices (eojs n))))) Hh) as T.
  destruct T as (_ & (n' & N1 & _ & N0 & N2 & _) & N3); [split; [left; reflexivity|reflexivity]|].
  exists n'. split; [exact N1|]. split; [exact N0|]. split; [|apply N3]. intros e. rewrite N2.
  change (Z.of_nat (length (firstn 255 (devices (eojs n)))) :: concat (map enc_eoj (firstn 255 (devices (eojs n))))) with (prof_D6 (eojs n)).
  rewrite listed_D6 by lia. tauto.
Qed.
Print Assumptions C42_discovered.

(* hypotheses hold: a device with an air conditioner and a lighting, found by a controller
   that has just registered its listeners *)
Definition search1 : list Z := enc_frame (search_frame (tid_next true ctrl1) node_profile_eoj).
Definition search_react : reaction :=
  match node_receive true net_up yes node2 search1 here (Some there) with Ok r => r | _ => mkReaction node2 [] [] [] [] end.
Example C42_example :
  api_ctrl true net_up net_down std_db ctrl1 /\ has_object (c_node ctrl1) 978945
  /\ api_node true net_up std_db node2 /\ describes node2 /\ devices (eojs node2) = [(1, 48, 1); (2, 145, 1)]
  /\ node_receive true net_up yes node2 search1 here (Some there) = Ok search_react /\ agreed search_react.
Proof.
  split; [exact ctrl1_api|]. split; [apply has_objb_ok; vm_compute; reflexivity|]. split; [exact node2_api|].
  split; [unfold describes; do 4 (split; [vm_compute; reflexivity|]); vm_compute; reflexivity|]. split; [vm_compute; reflexivity|].
  split; [|apply agreed_check; vm_compute; reflexivity].
  assert (K : is_ok (node_receive true net_up yes node2 search1 here (Some there)) = true) by (vm_compute; reflexivity).
  unfold search_react. revert K. generalize (node_receive true net_up yes node2 search1 here (Some there)).
  intros [r|u] K; [reflexivity|discriminate].
Qed.

(* full claim: searchobject(code) asks the object with that code.  The parameter is a byte,
   so the request goes to the object 0x0000XX, XX the lowest byte; what is asked is as in
   C42_search. *)
Theorem C42_searchobject_partial : forall le net snet c code,
  api_ctrl le net snet std_db c -> has_object (c_node c) 978945 ->
  let f := search_frame (tid_next le c) (0, 0, code mod 256) in
  exists s, uecho_controller_searchobject le net c code = Ok s
  /\ s_posts s = [PAnnounce (enc_frame f)] /\ s_ret s = net (PAnnounce (enc_frame f))
  /\ s_node s = n_with_tid (next_tid (n_tid (c_node c))) (c_node c)
  /\ frame_ok f /\ (0 <= code <= 16777215 -> (eoj_code (f_deoj f) = code <-> code < 256)).
Proof.
  intros le net snet c code Hc Hp f. apply ctrl_ninv in Hc. destruct search_msg as (m & E & Hm & E1 & E2 & E3 & E4 & E5 & E6 & E7).
  assert (Em : uecho_message_setesv ESV_Get m = m).
  { unfold uecho_message_setesv. change ESV_Get with 98. rewrite <- E1. destruct m; reflexivity. }
  assert (Eb : [byte_of (to_byte (to_byte code)) 2; byte_of (to_byte (to_byte code)) 1; byte_of (to_byte (to_byte code)) 0] = e3l (0, 0, code mod 256)).
  { unfold to_byte. rewrite Z.mod_mod by lia. pose proof (Z.mod_pos_bound code 256 ltac:(lia)) as B. revert B.
    generalize (code mod 256). intros b B. cbn [e3l].
    assert (K : forallb (fun b => forallb (fun p => fst p =? snd p)
        (combine [byte_of b 2; byte_of b 1; byte_of b 0] [0; 0; b])) (map Z.of_nat (seq 0 256)) = true) by (vm_compute; reflexivity).
    rewrite forallb_forall in K. assert (I : In b (map Z.of_nat (seq 0 256))).
    { apply in_map_iff. exists (Z.to_nat b). split; [lia|]. apply in_seq. lia. }
    apply K in I. cbn [combine forallb fst snd] in I. repeat (apply andb_prop in I; destruct I as [? I]).
    repeat f_equal; lia. }
  assert (Ho : eoj_ok (0, 0, code mod 256)) by (cbn; unfold byte_val; lia).
  assert (H3 : eoj3 (e3l (0, 0, code mod 256))).
  { cbn [e3l]. exists 0, 0, (code mod 256). unfold is_byte. repeat split; lia. }
  destruct (search_sent le net (c_node c) (0, 0, code mod 256) (with_deoj (e3l (0, 0, code mod 256)) m) Hc Hp Ho) as (m' & A & _ & C);
    [apply deoj_ok; assumption|split; assumption|exact E1|reflexivity|exact E5|exact E6|exact E7|].
  fold f in A, C.
  exists (mkSent (n_with_tid (next_tid (n_tid (c_node c))) (c_node c)) m' [PAnnounce (enc_frame f)] (net (PAnnounce (enc_frame f)))).
  unfold uecho_controller_searchobject, uecho_controller_searchobjectwithesv. rewrite E. cbn [bind]. rewrite Em, setdst_eq. cbn [bind].
  rewrite Eb. split; [exact A|]. split; [reflexivity|]. split; [reflexivity|]. split; [reflexivity|]. split; [exact C|].
  intros Hr. cbn [f search_frame f_deoj eoj_code]. lia.
Qed.
Print Assumptions C42_searchobject_partial.

(* searching for the air conditioner 0x013001 asks the object 0x000001 *)
Theorem C42_searchobject_refuted : exists s f rest,
  uecho_controller_searchobject true net_up ctrl1 77825 = Ok s
  /\ s_posts s = [PAnnounce (enc_frame f ++ rest)] /\ dec_frame (enc_frame f ++ rest) = Some (f, rest)
  /\ f_deoj f = (0, 0, 1) /\ eoj_code (1, 48, 1) = 77825.
Proof.
  assert (K : match uecho_controller_searchobject true net_up ctrl1 77825 with
    | Ok s => s_posts s = [PAnnounce (enc_frame (search_frame (tid_next true ctrl1) (0, 0, 1)) ++ [])]
    | _ => False end) by (vm_compute; reflexivity).
  destruct (uecho_controller_searchobject true net_up ctrl1 77825) as [s|] eqn:E; [|destruct K].
  exists s, (search_frame (tid_next true ctrl1) (0, 0, 1)), []. split; [reflexivity|]. split; [exact K|].
  split; [vm_compute; reflexivity|]. split; reflexivity.
Qed.
Print Assumptions C42_searchobject_refuted.

(* ---------- C43: reading a property ---------- *)

(* The request reaches the device as one datagram to the device's address, and the device's
   answer, parsed by the controller on its own host, shows the value the property has,
   comes from the device's address and is the response to the request that was sent. *)
Definition request_frame (le : bool) (c : ctrl) (f : frame) : frame :=
  mkFrame (tid_next le c) node_profile_eoj (f_deoj f) (f_esv f) (f_body f).
Definition answer_frame (le : bool) (c : ctrl) (f : frame) (esv : Z) (ps : list epair) : frame :=
  mkFrame (tid_next le c) (f_deoj f) node_profile_eoj esv (Plain ps).

Lemma answer_frame_ok : forall le net snet c f0 esv e, api_ctrl le net snet std_db c -> frame_ok f0 ->
  byte_val esv -> ~ two_lists esv -> epair_ok e -> frame_ok (answer_frame le c f0 esv [e]).
Proof.
  intros le net snet c f0 esv e Hc (_ & _ & _ & De & _) B T He. destruct (tid_next_ok _ _ _ _ Hc) as [T0 T1].
  split; [exact T0|]. split; [exact T1|]. split; [exact De|]. split; [cbn; unfold byte_val; lia|]. split; [exact B|].
  split; [exact T|]. split; [|cbn; lia]. constructor; [exact He|constructor].
Qed.

(* sending through uecho_controller_sendmessage *)
Theorem C43_request : forall le net snet c q f dst na,
  api_ctrl le net snet std_db c -> has_object (c_node c) 978945 -> prepared le q f -> n_addr dst = Some na ->
  let bytes := enc_frame (request_frame le c f) in
  exists s, uecho_controller_sendmessage le net c dst q = Ok s
  /\ s_posts s = [PSend na bytes] /\ s_ret s = net (PSend na bytes)
  /\ s_node s = n_with_tid (next_tid (n_tid (c_node c))) (c_node c)
  /\ shows le (s_msg s) (request_frame le c f) /\ frame_ok (request_frame le c f).
Proof.
  intros le net snet c q f dst na Hc Hp (Q1 & Q2 & Q3 & Q4 & Q5) Hd bytes. apply ctrl_ninv in Hc.
  destruct (sends le net (c_node c) dst q f Hc Hp Q1 Q2 Q3 Q4 Q5 na Hd) as (m' & A & B & _ & D).
  eexists. split; [exact A|]. split; [reflexivity|]. split; [reflexivity|]. split; [reflexivity|]. split; [exact B|exact D].
Qed.
Print Assumptions C43_request.

Theorem C43_read : forall le net snet c q f epc d0 dst na,
  api_ctrl le net snet std_db c -> has_object (c_node c) 978945 -> prepared le q f ->
  f_esv f = 98 -> f_body f = Plain [(epc, d0)] -> n_addr dst = Some na ->
  exists s bytes, uecho_controller_sendmessage le net c dst q = Ok s /\ s_posts s = [PSend na bytes]
  /\ forall le' net' dec n la ca r d,
     api_node le' net' std_db n -> node_data n (eoj_code (f_deoj f)) epc = Some d -> len d <= 255 ->
     node_receive le' net' dec n bytes la (Some ca) = Ok r -> agreed r ->
     r_node r = n
     /\ exists ans, r_answer r = [PSend ca ans]
     /\ forall m0 la', api_msg le m0 -> exists m,
          uecho_message_parsepacket m0 ans la' (Some na) = Ok (true, m)
          /\ shows le m (answer_frame le c f 114 [(epc, d)])
          /\ m_from m = Some na
          /\ uecho_message_isresponsemessage le (s_msg s) m = true.
Proof.
  intros le net snet c q f epc d0 dst na Hc Hp Q He Hbd Ha.
  destruct (C43_request le net snet c q f dst na Hc Hp Q Ha) as (s & E & P & _ & _ & S & G).
  exists s, (enc_frame (request_frame le c f)). split; [exact E|]. split; [exact P|].
  intros le' net' dec n la ca r d Hn Hd Hl R Ag. set (g := request_frame le c f) in *.
  assert (Rv : receives le' net' dec n g [] la (Some ca) r).
  { split; [exact Hn|]. split; [exact G|]. rewrite app_nil_r. split; [apply frame_buffer; exact G|exact R]. }
  assert (Eg : f_esv g = 98) by exact He. assert (Bg : f_body g = Plain [(epc, d0)]) by exact Hbd.
  assert (Dg : node_data n (dest g) epc = Some d) by exact Hd.
  assert (Rd : read_esv (f_esv g) = true) by (rewrite Eg; reflexivity).
  assert (O : has_object n (dest g)).
  { unfold has_object. unfold node_data in Dg. destruct (uecho_node_getobjectbycode n (dest g)); discriminate. }
  split; [apply (C27_no_change _ _ _ _ _ _ _ _ _ Rv Rd)|].
  pose proof (C27_value_partial _ _ _ _ _ _ _ _ _ [(epc, d0)] Rv Rd Bg O) as V. cbv zeta in V.
  rewrite V; clear V.
  2:{ constructor; [|constructor]. cbn [fst]. rewrite Dg. discriminate. }
  2:{ exact Ag. }
  2:{ intros e d' [<-|[]] Ed. cbn [fst] in Ed. rewrite Dg in Ed. injection Ed as <-. lia. }
  2:{ cbn. lia. }
  rewrite Eg. change (98 =? 98) with true. cbv iota. unfold current. cbn [map fst]. rewrite Dg.
  change (mkFrame (f_tid g) (f_deoj g) (f_seoj g) 114 (Plain [(epc, d)])) with (answer_frame le c f 114 [(epc, d)]).
  assert (Ga : frame_ok (answer_frame le c f 114 [(epc, d)])).
  { eapply answer_frame_ok; [exact Hc|apply Q|unfold byte_val; lia|unfold two_lists; lia|].
    destruct G as (_ & _ & _ & _ & _ & Gb). rewrite Bg in Gb. destruct Gb as (_ & Gb & _). inversion Gb as [|? ? Gc _]; subst.
    split; [apply Gc|]. cbn [snd]. split; [exact (node_data_bytes _ _ _ _ _ _ Hn Dg)|unfold len in Hl; lia]. }
  eexists. split; [reflexivity|]. intros m0 la' Hm0. destruct (parsed le m0 _ la' na Hm0 Ga) as (m & P1 & P2 & P3 & _).
  exists m. split; [exact P1|]. split; [exact P2|]. split; [exact P3|].
  apply (isresponse_shown le _ g _ (answer_frame le c f 114 [(epc, d)]) G Ga S P2); [reflexivity|]. rewrite Eg. cbn. lia.
Qed.
Print Assumptions C43_read.

(* With uecho_controller_postmessage: while the call waits (the two messages it was given
   are still registered in the state [c2]), hearing the answer wakes it, and the response
   message it was given shows the answer.  Whether a wakeup reaches the caller is C37. *)
Theorem C43_posted : forall le net snet c q f epc d0 dst na r0,
  api_ctrl le net snet std_db c -> has_object (c_node c) 978945 -> prepared le q f ->
  f_esv f = 98 -> f_body f = Plain [(epc, d0)] -> n_addr dst = Some na ->
  exists c1 bytes sent, postmessage_begin le net c dst q r0 = Ok (c1, [PSend na bytes], sent)
  /\ c_res c1 = MMsg r0
  /\ forall le' net' dec n la ca r d,
     api_node le' net' std_db n -> node_data n (eoj_code (f_deoj f)) epc = Some d -> len d <= 255 ->
     node_receive le' net' dec n bytes la (Some ca) = Ok r -> agreed r ->
     exists ans, r_answer r = [PSend ca ans]
     /\ forall dec2 fr c2 r2 la2 x y, api_ctrl le net snet std_db c2 -> fresh_ok fr ->
          c_req c2 = c_req c1 -> c_res c2 = MMsg r2 ->
          ctrl_receive le net snet std_db dec2 fr c2 ans la2 (Some na) = Ok (x, y) ->
          cr_signal y = true
          /\ exists m, c_res (cr_ctrl y) = MMsg m
             /\ shows le m (answer_frame le c f 114 [(epc, d)]) /\ m_from m = Some na.
Proof.
  intros le net snet c q f epc d0 dst na r0 Hc Hp Q He Hbd Ha.
  destruct (C43_request le net snet c q f dst na Hc Hp Q Ha) as (s & E & P & _ & _ & S & G).
  destruct (C43_read le net snet c q f epc d0 dst na Hc Hp Q He Hbd Ha) as (s' & bytes & E' & P' & K).
  rewrite E in E'. injection E' as <-.
  exists (c_with_post (MMsg (s_msg s)) (MMsg r0) (c_with_node (s_node s) c)), bytes, (s_ret s).
  split; [|split; [reflexivity|]].
  { unfold postmessage_begin. change (uecho_controller_sendmessage le net (c_with_post (MMsg q) (MMsg r0) c) dst q)
      with (uecho_controller_sendmessage le net c dst q). rewrite E. cbn [bind]. rewrite P'. reflexivity. }
  intros le' net' dec n la ca r d Hn Hd Hl R Ag.
  destruct (K le' net' dec n la ca r d Hn Hd Hl R Ag) as (_ & ans & A & V). exists ans. split; [exact A|].
  intros dec2 fr c2 r2 la2 x y H2 Hfr Eq Er H.
  assert (Ga : frame_ok (answer_frame le c f 114 [(epc, d)])).
  { eapply answer_frame_ok; [exact Hc|apply Q|unfold byte_val; lia|unfold two_lists; lia|].
    destruct Q as (_ & _ & _ & _ & Gb). destruct Gb as (_ & _ & _ & _ & _ & Gb). rewrite Hbd in Gb. destruct Gb as (_ & Gb & _).
    inversion Gb as [|? ? Gc _]; subst.
    split; [apply Gc|]. cbn [snd]. split; [exact (node_data_bytes _ _ _ _ _ _ Hn Hd)|unfold len in Hl; lia]. }
  assert (Ea : ans = enc_frame (answer_frame le c f 114 [(epc, d)])).
  { assert (Pb : bytes = enc_frame (request_frame le c f)) by congruence.
    set (g := request_frame le c f) in *.
    assert (Rv : receives le' net' dec n g [] la (Some ca) r).
    { split; [exact Hn|]. split; [exact G|]. rewrite app_nil_r. split; [apply frame_buffer; exact G|]. rewrite <- Pb. exact R. }
    assert (Dg : node_data n (dest g) epc = Some d) by exact Hd.
    assert (Eg : f_esv g = 98) by exact He. assert (Bg : f_body g = Plain [(epc, d0)]) by exact Hbd.
    assert (Rd : read_esv (f_esv g) = true) by (rewrite Eg; reflexivity).
    assert (O : has_object n (dest g)).
    { unfold has_object. unfold node_data in Dg. destruct (uecho_node_getobjectbycode n (dest g)); discriminate. }
    pose proof (C27_value_partial _ _ _ _ _ _ _ _ _ [(epc, d0)] Rv Rd Bg O) as V2. cbv zeta in V2.
    rewrite V2 in A; clear V2.
    2:{ constructor; [|constructor]. cbn [fst]. rewrite Dg. discriminate. }
    2:{ exact Ag. }
    2:{ intros e d' [<-|[]] Ed. cbn [fst] in Ed. rewrite Dg in Ed. injection Ed as <-. lia. }
    2:{ cbn. lia. }
    rewrite Eg in A. change (98 =? 98) with true in A. cbv iota in A. unfold current in A. cbn [map fst] in A. rewrite Dg in A.
    change (mkFrame (f_tid g) (f_deoj g) (f_seoj g) 114 (Plain [(epc, d)])) with (answer_frame le c f 114 [(epc, d)]) in A.
    congruence. }
  rewrite Ea in H. destruct (heard_some _ _ _ _ _ _ _ _ _ _ _ H2 Hfr Ga H) as (x' & -> & Hh).
  destruct (hears_post le net snet std_db std_db_ok _ _ _ _ _ _ _ _ _ (s_msg s) r2 (request_frame le c f) Hh) as (B1 & _ & B2);
    [rewrite Eq; reflexivity|exact Er|exact G|exact S|eexists; reflexivity|reflexivity|cbn [request_frame answer_frame f_esv]; rewrite He; lia|].
  auto.
Qed.
Print Assumptions C43_posted.

(* ---------- C51: writing a property ---------- *)

(* A write request for one property the device's object has: the device stores exactly that
   value, answers a SetC request with a Set response without data, and a SetI request not
   at all; the answer is the response to the request. *)
Theorem C51_write : forall le net snet c q f epc d dst na,
  api_ctrl le net snet std_db c -> has_object (c_node c) 978945 -> prepared le q f ->
  write_esv (f_esv f) = true -> f_body f = Plain [(epc, d)] -> n_addr dst = Some na ->
  exists s bytes, uecho_controller_sendmessage le net c dst q = Ok s /\ s_posts s = [PSend na bytes]
  /\ forall le' net' dec n la ca r,
     api_node le' net' std_db n -> node_data n (eoj_code (f_deoj f)) epc <> None ->
     node_receive le' net' dec n bytes la (Some ca) = Ok r -> agreed r ->
     node_data (r_node r) (eoj_code (f_deoj f)) epc = Some d
     /\ (forall code e, (code, e) <> (eoj_code (f_deoj f), epc) -> node_data (r_node r) code e = node_data n code e)
     /\ (f_esv f = 96 -> r_answer r = [])
     /\ (f_esv f = 97 -> exists ans, r_answer r = [PSend ca ans]
         /\ forall m0 la', api_msg le m0 -> exists m,
              uecho_message_parsepacket m0 ans la' (Some na) = Ok (true, m)
              /\ shows le m (answer_frame le c f 113 [(epc, [])])
              /\ m_from m = Some na
              /\ uecho_message_isresponsemessage le (s_msg s) m = true).
Proof.
  intros le net snet c q f epc d dst na Hc Hp Q He Hbd Ha.
  destruct (C43_request le net snet c q f dst na Hc Hp Q Ha) as (s & E & P & _ & _ & S & G).
  exists s, (enc_frame (request_frame le c f)). split; [exact E|]. split; [exact P|].
  intros le' net' dec n la ca r Hn Hd R Ag. set (g := request_frame le c f) in *.
  assert (Rv : receives le' net' dec n g [] la (Some ca) r).
  { split; [exact Hn|]. split; [exact G|]. rewrite app_nil_r. split; [apply frame_buffer; exact G|exact R]. }
  assert (Bg : f_body g = Plain [(epc, d)]) by exact Hbd. assert (Wg : write_esv (f_esv g) = true) by exact He.
  assert (Dg : node_data n (dest g) epc <> None) by exact Hd.
  assert (O : has_object n (dest g)).
  { unfold has_object. unfold node_data in Dg. destruct (uecho_node_getobjectbycode n (dest g)); congruence. }
  assert (Ex : Forall (fun e => node_data n (dest g) (fst e) <> None) [(epc, d)]) by (constructor; [exact Dg|constructor]).
  destruct (C26_stored _ _ _ _ _ _ _ _ _ _ Rv Wg Bg O Ex Ag) as [A B].
  pose proof (C26_answer_partial _ _ _ _ _ _ _ _ _ _ Rv Wg Bg O Ex Ag ltac:(cbn; lia)) as An.
  split; [|split; [|split]].
  - change (eoj_code (f_deoj f)) with (dest g). rewrite A. cbn [last_data]. 
    unfold last_data. cbn. rewrite Z.eqb_refl. reflexivity.
  - intros code e Ne. change (eoj_code (f_deoj f)) with (dest g) in Ne. destruct (Z.eq_dec code (dest g)) as [->|N]; [|apply B; exact N].
    rewrite A. unfold last_data. cbn. destruct (Z.eqb_spec epc e); [congruence|reflexivity].
  - intros E96. change (f_esv f) with (f_esv g) in E96. rewrite E96 in An. exact An.
  - intros E97. change (f_esv f) with (f_esv g) in E97. rewrite E97 in An. change (97 =? 96) with false in An. cbv iota in An.
    cbn [map fst] in An.
    change (mkFrame (f_tid g) (f_deoj g) (f_seoj g) 113 (Plain [(epc, [])])) with (answer_frame le c f 113 [(epc, [])]) in An.
    eexists. split; [exact An|].
    assert (Ga : frame_ok (answer_frame le c f 113 [(epc, [])])).
    { eapply answer_frame_ok; [exact Hc|apply Q|unfold byte_val; lia|unfold two_lists; lia|].
      destruct G as (_ & _ & _ & _ & _ & Gb). rewrite Bg in Gb. destruct Gb as (_ & Gb & _). inversion Gb as [|? ? Gc _]; subst.
      split; [apply Gc|]. split; [constructor|cbn; lia]. }
    intros m0 la' Hm0. destruct (parsed le m0 _ la' na Hm0 Ga) as (m & P1 & P2 & P3 & _).
    exists m. split; [exact P1|]. split; [exact P2|]. split; [exact P3|].
    apply (isresponse_shown le _ g _ (answer_frame le c f 113 [(epc, [])]) G Ga S P2); [reflexivity|]. rewrite E97. cbn. lia.
Qed.
Print Assumptions C51_write.

(* hypotheses hold: the controller knows the device at 10.0.0.2, which has an air
   conditioner that is on; it asks for the operation status 0x80, then switches it off *)
Definition asked (f : frame) : msg :=
  match uecho_message_parse uecho_message_new (enc_frame f) with Ok (true, m) => m | _ => uecho_message_new end.
Lemma asked_prepared : forall f, frame_okb f = true -> dec_frame (enc_frame f) = Some (f, []) ->
  (total_data (stored (m_p (asked f))) + total_data (stored (m_pset (asked f))) + total_data (stored (m_pget (asked f))) <=? 1000) = true ->
  forallb (fun p => len (p_data p) <=? 255) (stored (m_p (asked f)) ++ stored (m_pset (asked f)) ++ stored (m_pget (asked f))) = true ->
  prepared true (asked f) f.
Proof.
  intros f H D T L. apply andb_prop in H. destruct H as [H _]. destruct (frame_checks _ H D) as [Hf _].
  pose proof (frame_buffer f Hf) as Hb. pose proof (am_new true) as H0.
  assert (P : exists m', uecho_message_parse uecho_message_new (enc_frame f) = Ok (true, m') /\ shows true m' f).
  { apply (proj2 (C02_parse_iff_frame true _ _ H0 Hb)) with (rest := []); [exact Hf|]. rewrite app_nil_r. reflexivity. }
  destruct P as (m' & E & S). assert (Em : asked f = m') by (unfold asked; rewrite E; reflexivity). rewrite Em in *.
  split; [eapply am_parse; [exact H0|exact Hb|exact E]|]. split; [|split; [|split; [exact S|exact Hf]]].
  - unfold in_memory, OBJ_MAX, PTRDIFF_MAX. lia.
  - unfold pdc_fits. apply Forall_forall. rewrite forallb_forall in L. intros p I. apply L in I. lia.
Qed.

Definition dev_there : node := match uecho_controller_getnodebyaddress ctrl2 (Some there) with Some n => n | None => node0 end.
Definition react_to (c : ctrl) (f : frame) : reaction :=
  match node_receive true net_up yes node3 (enc_frame (request_frame true c f)) here (Some there) with
  | Ok r => r | _ => mkReaction node3 [] [] [] [] end.
Lemma react_to_ok : forall c f, is_ok (node_receive true net_up yes node3 (enc_frame (request_frame true c f)) here (Some there)) = true ->
  node_receive true net_up yes node3 (enc_frame (request_frame true c f)) here (Some there) = Ok (react_to c f).
Proof.
  intros c f K. unfold react_to. revert K. generalize (node_receive true net_up yes node3 (enc_frame (request_frame true c f)) here (Some there)).
  intros [r|u] K; [reflexivity|discriminate].
Qed.
Example C43_example :
  api_ctrl true net_up net_down std_db ctrl2 /\ has_object (c_node ctrl2) 978945 /\ prepared true (asked get80) get80
  /\ n_addr dev_there = Some there /\ api_node true net_up std_db node3
  /\ node_data node3 (eoj_code (f_deoj get80)) 128 = Some [48]
  /\ node_receive true net_up yes node3 (enc_frame (request_frame true ctrl2 get80)) here (Some there) = Ok (react_to ctrl2 get80)
  /\ agreed (react_to ctrl2 get80)
  /\ r_answer (react_to ctrl2 get80) = [PSend there (enc_frame (answer_frame true ctrl2 get80 114 [(128, [48])]))].
Proof.
  split; [exact ctrl2_api|]. split; [apply has_objb_ok; vm_compute; reflexivity|].
  split; [apply asked_prepared; vm_compute; reflexivity|]. split; [vm_compute; reflexivity|]. split; [exact node3_api|].
  split; [vm_compute; reflexivity|]. split; [apply react_to_ok; vm_compute; reflexivity|].
  split; [apply agreed_check; vm_compute; reflexivity|]. vm_compute. reflexivity.
Qed.
Example C51_example :
  prepared true (asked set80) set80 /\ write_esv (f_esv set80) = true
  /\ node_data node3 (eoj_code (f_deoj set80)) 128 = Some [48]
  /\ node_receive true net_up yes node3 (enc_frame (request_frame true ctrl2 set80)) here (Some there) = Ok (react_to ctrl2 set80)
  /\ agreed (react_to ctrl2 set80)
  /\ node_data (r_node (react_to ctrl2 set80)) (eoj_code (f_deoj set80)) 128 = Some [49].
Proof.
  split; [apply asked_prepared; vm_compute; reflexivity|]. split; [reflexivity|].
  split; [vm_compute; reflexivity|]. split; [apply react_to_ok; vm_compute; reflexivity|].
  split; [apply agreed_check; vm_compute; reflexivity|]. vm_compute. reflexivity.
Qed.

(* ---------- C48: what a starting node tells the controllers ---------- *)

Lemma notification_frame_ok : forall le' net' n c d, api_node le' net' std_db n -> byte_val c ->
  node_data n 978945 c = Some d -> len d <= 255 ->
  frame_ok (notification le' (next_tid (n_tid n)) node_profile_eoj c d).
Proof.
  intros le' net' n c d Hn Hc Hd Hl. destruct (api_node_ok _ _ _ _ std_db_ok Hn) as [[Ht _] _]. apply next_tid_range in Ht.
  apply notification_ok; [lia|apply node_profile_eoj_ok|apply is_byte_val; exact Hc| |exact Hl].
  apply bytes_of_vals. exact (node_data_bytes _ _ _ _ _ _ Hn Hd).
Qed.

(* full claim: a controller that hears the announcement a node sends when it starts knows
   the node and its objects.  No controller does: the announcement is property 0xD5, and
   only 0xD6 is taken as an instance list. *)
Theorem C48_startup_ignored : forall le' net' n up d,
  api_node le' net' std_db n -> node_data n 978945 213 = Some d -> len d <= 255 ->
  exists n' bytes ok, uecho_node_start le' net' up n = Ok (n', [PAnnounce bytes], ok)
  /\ forall le net snet dec fr c la na x y, api_ctrl le net snet std_db c -> fresh_ok fr ->
       uecho_controller_getnodebyaddress c (Some na) = None ->
       ctrl_receive le net snet std_db dec fr c bytes la (Some na) = Ok (x, y) ->
       c_nodes (cr_ctrl y) = c_nodes c /\ (forall s, ~ In (ToldStatus (Some na) s) (cr_told y)).
Proof.
  intros le' net' n up d Hn Hd Hl. destruct (C23_announce_partial le' net' n d Hn Hd Hl) as [A F].
  set (f := notification le' (next_tid (n_tid n)) node_profile_eoj 213 d) in *.
  eexists _, (enc_frame f), _. split; [unfold uecho_node_start; rewrite A; reflexivity|].
  intros le net snet dec fr c la na x y Hc Hfr U H.
  destruct (heard_some _ _ _ _ _ _ _ _ _ _ _ Hc Hfr F H) as (x' & -> & Hh).
  assert (Ns : no_search f) by (intros z r [_ K]; cbn in K; discriminate).
  destruct (C35_unknown_sender _ _ _ _ _ _ _ _ _ _ _ _ Hh Ns U) as (_ & B1 & B2).
  split; [rewrite B1; reflexivity|]. intros s I. rewrite B2 in I. destruct (c_msglistener c); [destruct I as [I|[]]; discriminate|destruct I].
Qed.
Print Assumptions C48_startup_ignored.

(* hypotheses hold, and the full claim fails: the device with two objects starts, the
   controller hears the announcement and knows no node *)
Definition start_frame : frame := notification true 11 node_profile_eoj 213 [2; 1; 48; 1; 2; 145; 1].
Theorem C48_startup_refuted : exists n' x y,
  api_node true net_up std_db node2 /\ devices (eojs node2) = [(1, 48, 1); (2, 145, 1)]
  /\ uecho_node_start true net_up true node2 = Ok (n', [PAnnounce (enc_frame start_frame)], true)
  /\ hears true net_up net_down std_db yes fr0 ctrl1 start_frame [] here there x y
  /\ c_nodes (cr_ctrl y) = [].
Proof.
  exists (n_with_tid 11 node2), (fst (chear ctrl1 start_frame)), (snd (chear ctrl1 start_frame)).
  split; [exact node2_api|]. split; [vm_compute; reflexivity|]. split; [vm_compute; reflexivity|].
  split; [apply chear_hears; [exact ctrl1_api|vm_compute; reflexivity..]|]. vm_compute. reflexivity.
Qed.
Print Assumptions C48_startup_refuted.

(* What a node can send to be known without being asked: announcing its property 0xD6. *)
Theorem C48_instance_list_partial : forall le' net' n o p,
  api_node le' net' std_db n -> describes n -> (length (devices (eojs n)) <= 84)%nat ->
  uecho_node_getobjectbycode n 978945 = Some o -> uecho_object_getproperty o 214 = Some p ->
  exists s bytes, uecho_node_announceproperty le' net' n 978945 p = Ok s /\ s_posts s = [PAnnounce bytes]
  /\ forall le net snet dec fr c la na x y, api_ctrl le net snet std_db c -> fresh_ok fr ->
       ctrl_receive le net snet std_db dec fr c bytes la (Some na) = Ok (x, y) ->
       exists n', uecho_controller_getnodebyaddress (cr_ctrl y) (Some na) = Some n'
       /\ (forall e, In e (eojs n') <-> In e (known_eojs c na) \/ In e (devices (eojs n))).
Proof.
  intros le' net' n o p Hn (_ & _ & _ & D & _) L G Gp.
  assert (Ep : p_data p = prof_D6 (eojs n) /\ p_code p = 214).
  { split; [|apply find_code in Gp; apply Gp]. unfold node_data in D. rewrite G, Gp in D. cbn [option_map] in D. congruence. }
  destruct Ep as [Ed Ec]. pose proof (len_D6 _ L) as Ld.
  assert (Hb : Forall byte_val (p_data p)) by (rewrite Ed; exact (node_data_bytes _ _ _ _ _ _ Hn D)).
  assert (An : ann_ok p).
  { rewrite <- Ed in Ld. split; [rewrite Ec; unfold is_byte; lia|]. split; [apply bytes_of_vals; exact Hb|]. unfold DATA_MAX. lia. }
  destruct (api_node_ok _ _ _ _ std_db_ok Hn) as [[Ht _] _].
  destruct (announceproperty_spec le' net' n 978945 p An Ht) as (s & E & _ & Ps).
  change (profile n) with (uecho_node_getobjectbycode n 978945) in Ps. rewrite G in Ps. destruct Ps as [Ps _].
  exists s. rewrite inf_bytes_enc, Ed, Ec in Ps by (rewrite Ed; lia).
  set (f := notification le' (next_tid (n_tid n)) node_profile_eoj 214 (prof_D6 (eojs n))) in *.
  assert (F : frame_ok f) by (apply (notification_frame_ok le' net' n 214 _ Hn); [unfold byte_val; lia|exact D|lia]).
  exists (enc_frame f). split; [exact E|]. split; [exact Ps|].
  intros le net snet dec fr c la na x y Hc Hfr H. destruct (heard_some _ _ _ _ _ _ _ _ _ _ _ Hc Hfr F H) as (x' & -> & Hh).
  pose proof (C34_learned _ _ _ _ _ _ _ _ _ _ _ _ (Z.of_nat (length (firstn 255 (devices (eojs n))))) (concat (map enc_eoj (firstn 255 (devices (eojs n))))) Hh) as T.
  destruct T as (_ & (n' & N1 & _ & N0 & N2 & _) & _); [split; [right; left; reflexivity|reflexivity]|].
  exists n'. split; [exact N1|]. intros e. rewrite N2.
  change (Z.of_nat (length (firstn 255 (devices (eojs n)))) :: concat (map enc_eoj (firstn 255 (devices (eojs n))))) with (prof_D6 (eojs n)).
  rewrite listed_D6 by lia. tauto.
Qed.
Print Assumptions C48_instance_list_partial.

Example C48_example : exists o p,
  uecho_node_getobjectbycode node2 978945 = Some o /\ uecho_object_getproperty o 214 = Some p
  /\ p_data p = [2; 1; 48; 1; 2; 145; 1] /\ describes node2.
Proof.
  assert (K : match uecho_node_getobjectbycode node2 978945 with
    | Some o => match uecho_object_getproperty o 214 with Some p => p_data p = [2; 1; 48; 1; 2; 145; 1] | None => False end
    | None => False end) by (vm_compute; reflexivity).
  assert (D : describes node2) by apply C42_example.
  revert K D. generalize node2. intros n K D. destruct (uecho_node_getobjectbycode n 978945) as [o|]; [|destruct K].
  destruct (uecho_object_getproperty o 214) as [p|] eqn:E; [|destruct K]. exists o, p. auto.
Qed.
