(* A whole node in the heap, from uecho_node_new to uecho_node_delete. *)
From Coq Require Import String Ascii ZArith List Bool Lia Permutation.
From Coq Require Import ZifyBool ZifyNat.
Ltac Zify.zify_post_hook ::= Z.div_mod_to_equations.
From Verif Require Import CSem P_Base M_Const M_Misc M_String M_Property M_PropertyList P_PropertyList M_Log M_Message M_Object M_Node M_NodeListener
  M_Mem M_MemUse M_ObjMem M_Life M_NodeMem M_NodeLife Spec_Message P_Mem P_MemMsg P_MemParse P_MemProp P_MemBytes P_MemCopy P_MemPkt P_MemRun P_Ring P_ObjProp P_ObjCache P_ObjMem P_ObjUse P_ObjStd
  P_Object P_ObjectRun P_ObjectReach P_ObjRun P_Life P_LifeRun P_NodeMem P_NodeRecv P_NodeLife P_NodeBuild Properties_Object.
From Verif Require Properties_Life P_MemRecv Spec_Mem.
Import ListNotations.
Open Scope Z_scope.
Notation server_at := Properties_Life.server_at.

(* ---- codes ---- *)

Lemma byte_of : forall v k, 0 <= k -> Z.shiftr (Z.land v (Z.shiftl 255 k)) k = v / 2 ^ k mod 256.
Proof.
  intros v k K. rewrite Z.shiftr_land, Z.shiftr_shiftl_l by lia. rewrite Z.sub_diag. cbn [Z.shiftl]. change 255 with (Z.ones 8). rewrite Z.land_ones by lia.
  rewrite Z.shiftr_div_pow2 by lia. reflexivity.
Qed.
Lemma addstd_codes : forall ds o, let o1 := fst (M_Object.uecho_object_addstandardproperties ds o) in
  (o_grp o1, o_cls o1, o_ins o1) = (o_grp o, o_cls o, o_ins o).
Proof.
  intros ds o. cbv zeta. rewrite addstd_eq. destruct (addmissing_spec (db_props ds (o_grp o) (o_cls o)) (addmissing o (db_props ds 0 0))) as (_ & _ & _ & _ & E & _).
  rewrite E. apply addmissing_spec.
Qed.
Lemma setcode_code : forall ds junk o v o' ann, 0 <= v <= 16777215 -> M_Object.uecho_object_setcode ds junk o v = Ok (o', ann) -> M_Object.uecho_object_getcode o' = v.
Proof.
  intros ds junk o v o' ann B E. unfold M_Object.uecho_object_setcode in E. apply update_shape in E. destruct E as [l ->].
  match goal with |- M_Object.uecho_object_getcode (o_with_props _ (o_with_getsz _ (fst (M_Object.uecho_object_addstandardproperties _ ?x)))) = _ => pose proof (addstd_codes ds x) as C end.
  cbv zeta in C. revert C. generalize (fst (M_Object.uecho_object_addstandardproperties ds (o_with_code (Z.shiftr (Z.land v 16711680) 16) (Z.shiftr (Z.land v 65280) 8) (Z.land v 255) o))).
  intros x C. cbn [o_with_code o_grp o_cls o_ins] in C. injection C as C1 C2 C3.
  change 16711680 with (Z.shiftl 255 16) in C1. change 65280 with (Z.shiftl 255 8) in C2. rewrite byte_of in C1, C2 by lia.
  change 255 with (Z.ones 8) in C3. rewrite Z.land_ones in C3 by lia. change (2 ^ 16) with 65536 in C1. change (2 ^ 8) with 256 in C2, C3.
  rewrite getcode_eq.
  - cbn [o_with_props o_with_getsz o_grp o_cls o_ins]. rewrite C1, C2, C3. lia.
  - unfold codes_byte, is_byte. cbn [o_with_props o_with_getsz o_grp o_cls o_ins]. rewrite C1, C2, C3. lia.
Qed.
Lemma new_einv : einv M_Object.uecho_object_new.
Proof. split; [apply inv_new|constructor]. Qed.

Section Room.
Variable room : Z -> bool.
Hypothesis Room : forall n, room n = true.
Variable junk : nat -> Z.
Variable le : bool.
Variable net : post -> bool.
Variable dec : list (hcall * bool) -> hcall -> bool.
Variable db : Z.

(* ---- servers ---- *)

Lemma wp_server_new : forall L (Q : Z -> heaplet -> Prop), (forall s Ls, 0 < s -> server_at s [] Ls -> Q s (Ls ++ L)) -> wp (uecho_server_new room) L Q.
Proof.
  intros L Q H. unfold uecho_server_new, list_new, uecho_message_observer_manager_new, list_new. apply wp_bind, wp_malloc; [exact Room|]. intros s PS _. rewrite (pos_nz s) by exact PS.
  apply wp_bind, wp_malloc; [exact Room|]. intros u PU _. apply wp_bind, wp_malloc; [exact Room|]. intros c PC _.
  apply wp_bind. apply wp_bind, wp_malloc; [exact Room|]. intros m PM _. rewrite (pos_nz m) by exact PM.
  apply wp_bind, wp_malloc; [exact Room|]. intros l PL _. apply wp_bind. eapply wp_store; [find_x|]. apply wp_ret.
  apply wp_bind. eapply wp_store; [find_x|]. apply wp_post, wp_ret. eexists. split; [|apply (H s ((s, BRec [u; c; m]) :: (u, BHead u u) :: (c, BHead c c) :: (m, BRec [l]) :: [(l, BHead l l)]) PS)].
  - cbn [app]. perm.
  - exists u, c, m, l, [(l, BHead l l)]. split; [apply rlist_new|apply Permutation_refl].
Qed.
Lemma wp_server_observe : forall s hs x Ls L F (Q : bool -> heaplet -> Prop), server_at s hs Ls -> Permutation L (Ls ++ F) ->
  (forall Ls', server_at s (hs ++ [x]) Ls' -> Q true (Ls' ++ F)) -> wp (uecho_server_addobserver room s x) L Q.
Proof.
  intros s hs x Ls L F Q (u & c & m & l & Ll & R & PL) P H. eapply wp_perm; [eapply perm_trans; [exact P|apply Permutation_app_tail; exact PL]|]. cbn [app].
  unfold uecho_server_addobserver. apply wp_bind. eapply wp_load_rec; [inl|]. cbn [nth].
  unfold uecho_message_observer_manager_addobserver. apply wp_bind, wp_malloc; [exact Room|]. intros w PW _. rewrite (pos_nz w) by exact PW.
  apply wp_bind. eapply wp_load_rec; [inl|]. cbn [nth].
  apply wp_post. eapply (wp_rl_add Z Properties_Life.obody l hs Ll w (BElem w w x []) x [] _ ((s, BRec [u; c; m]) :: (u, BHead u u) :: (c, BHead c c) :: (m, BRec [l]) :: F)); [exact R|reflexivity|exists w, w; auto|cbn [app]; perm|].
  intros Lr R'. exists (((s, BRec [u; c; m]) :: (u, BHead u u) :: (c, BHead c c) :: (m, BRec [l]) :: Lr) ++ F). split; [cbn [app]; perm|]. apply H.
  exists u, c, m, l, Lr. split; [eapply rl_at_list; exact R'|apply Permutation_refl].
Qed.

(* ---- objects of the node ---- *)

Lemma wp_newcode : forall ds v o ann Ld L F (Q : Z -> heaplet -> Prop), dlist db ds Ld -> Forall einv ds -> Permutation L (Ld ++ F) ->
  M_Object.uecho_object_setcode ds junk M_Object.uecho_object_new v = Ok (o, ann) ->
  (forall x Lo, 0 < x -> obj_at (x, 0) x x o Lo -> Q x (Lo ++ Ld ++ F)) ->
  wp (let! obj := M_ObjMem.uecho_object_new room in
      if obj =? 0 then ret 0 else let! _ := M_ObjMem.uecho_object_setcode room junk db obj v in ret obj) L Q.
Proof.
  intros ds v o ann Ld L F Q D ED P E H. apply wp_bind. apply (wp_obj_new room Room). intros x Lo PX OA. rewrite (pos_nz x) by exact PX.
  apply wp_bind. eapply (wp_obj_setcode room Room junk db (x, 0) x x _ ds v o ann Lo Ld _ F); [exact OA|exact D|apply Permutation_app_head; exact P|exact E| |].
  - intros g c i. cbv zeta. pose proof (einv_count _ (addstd_einv ds _ (ginv_db _ ED) (with_code_einv g c i _ new_einv))) as C. rewrite addstd_getsz.
    cbn [o_with_code o_getsz M_Object.uecho_object_new] in *. unfold SIZE_MOD. lia.
  - intros Lo' OA'. apply wp_ret. apply H; assumption.
Qed.

Lemma wp_nsetobject : forall nd pv nx ps n Lr Lc ds Ld code n' posts ok L F (Q : _ -> heaplet -> Prop), held nd pv nx ps n Lr Lc -> dlist db ds Ld -> Forall einv ds ->
  0 <= code <= 16777215 ->
  Permutation L ((nd, nblk pv nx ps (n_tid n)) :: Lr ++ Lc ++ Ld ++ F) ->
  M_Node.uecho_node_setobject le net ds junk n code = Ok (n', posts, ok) ->
  (forall Lr' Lc', held nd pv nx ps n' Lr' Lc' -> Q (ok, posts) ((nd, nblk pv nx ps (n_tid n')) :: Lr' ++ Lc' ++ Ld ++ F)) ->
  wp (uecho_node_setobject room junk le net db nd code) L Q.
Proof.
  intros nd pv nx ps n Lr Lc ds Ld code n' posts ok L F Q HE D ED CB P E H. eapply wp_perm; [exact P|]. clear L P.
  pose proof HE as (ND & SV & RR & _). unfold uecho_node_setobject. rewrite ND. apply wp_bind. eapply (wp_load_elem nd pv nx (n_tid n) ps); [left; reflexivity|]. cbn [snd].
  apply wp_bind. eapply (wp_objs_find nd (node_objects ps) (n_objs n) code Lr _ ((nd, nblk pv nx ps (n_tid n)) :: Lc ++ Ld ++ F)); [exact RR|perm| |].
  - intro DF. cbn [Z.eqb negb]. unfold M_Node.uecho_node_setobject, M_Node.uecho_node_getobjectbycode in E. rewrite (value_none _ _ DF) in E.
    apply bind_ok in E. destruct E as ([o ann] & EO & E). cbn [fst] in E.
    assert (GC : M_Object.uecho_object_getcode o = code) by (eapply setcode_code; eassumption).
    apply wp_bind. apply (wp_obj_new room Room). intros x Lo PX OA. rewrite (pos_nz x) by exact PX.
    apply wp_bind. eapply (wp_obj_setcode room Room junk db (x, 0) x x _ ds code o ann Lo Ld _ ((nd, nblk pv nx ps (n_tid n)) :: Lr ++ Lc ++ F)); [exact OA|exact D|perm|exact EO| |].
    { intros g c i. cbv zeta. pose proof (einv_count _ (addstd_einv ds _ (ginv_db _ ED) (with_code_einv g c i _ new_einv))) as C. rewrite addstd_getsz.
      cbn [o_with_code o_getsz M_Object.uecho_object_new] in *. unfold SIZE_MOD. lia. }
    clear Lo OA. intros Lo OA.
    eapply (wp_naddobject room Room junk le net nd pv nx ps n Lr Lc x o Lo n' posts ok _ (Ld ++ F)); [exact HE|exact OA|perm|exact E| |].
    + intros o0 EX. exfalso. rewrite GC in EX. unfold M_Node.uecho_node_getobjectbycode in EX. rewrite (value_none _ _ DF) in EX. discriminate.
    + intros Lr' Lc' _ HE'. apply H. exact HE'.
  - intros v1 a o v2 EO DF HIT PA AT. rewrite (pos_nz a) by exact PA. cbn [negb].
    unfold M_Node.uecho_node_setobject, M_Node.uecho_node_getobjectbycode in E. rewrite EO, (value_find _ _ _ _ DF HIT) in E. injection E as <- <- <-.
    apply wp_ret. apply H. exact HE.
Qed.

Lemma wp_set_bytes : forall pv nx a o code d Lo L F (Q : bool -> heaplet -> Prop), obj_at pv nx a o Lo -> Permutation L (Lo ++ F) -> len d < SIZE_MOD ->
  (forall Lo', obj_at pv nx a (fst (M_Object.uecho_object_setpropertydata o code d)) Lo' -> Q true (Lo' ++ F)) -> wp (set_bytes room a code d) L Q.
Proof.
  intros pv nx a o code d Lo L F Q OA P LD H. unfold set_bytes. apply wp_given. intros p P0.
  eapply (wp_obj_setdata room Room pv nx a o code p d Lo _ ((p, BBytes (map Some d)) :: F)); [exact OA|eapply perm_trans; [apply perm_skip; exact P|perm]|exact LD|apply given_self|].
  intros Lo' OA'. exists (Lo' ++ F). split; [perm|]. apply H. exact OA'.
Qed.

Lemma wp_mandatory : forall x o ds Ld man uniq o' ok Lo L F (Q : bool -> heaplet -> Prop), obj_at (x, 0) x x o Lo -> 0 < x -> dlist db ds Ld -> Permutation L (Lo ++ Ld ++ F) ->
  M_Node.uecho_nodeprofile_addmandatoryproperties ds man uniq o = Ok (o', ok) ->
  (forall Lo', obj_at (x, 0) x x o' Lo' -> Q ok (Lo' ++ Ld ++ F)) -> wp (uecho_nodeprofile_addmandatoryproperties room db x man uniq) L Q.
Proof.
  intros x o ds Ld man uniq o' ok Lo L F Q OA PX D P E H. unfold uecho_nodeprofile_addmandatoryproperties. rewrite (pos_nz x) by exact PX.
  unfold M_Node.uecho_nodeprofile_addmandatoryproperties in E.
  apply wp_bind. eapply (wp_db_find db ds 14 240 Ld _ (Lo ++ F)); [exact D|eapply perm_trans; [exact P|perm]| |].
  - intros NO. rewrite (db_others _ _ _ NO) in E. injection E as <- <-. cbn [Z.eqb]. eapply wp_perm; [exact P|]. apply wp_ret. apply H. exact OA.
  - intros v1 y sup v2 EV NO HIT PY AT. rewrite EV, (db_split _ _ _ _ _ NO HIT) in E. rewrite (pos_nz y) by exact PY.
    apply bind_ok in E. destruct E as ([o4 a4] & E & X). cbn [fst] in X. injection X as <- <-.
    destruct (rl_obj _ _ _ _ _ _ _ AT) as (p0 & n0 & Ls & R0 & OS & PLs & BK).
    apply wp_bind. eapply (wp_missing room Room junk (x, 0) x x o (p0, 0) n0 y sup Lo Ls _ (R0 ++ F)); [exact OA|exact OS| |].
    { eapply perm_trans; [exact P|]. eapply perm_trans; [apply Permutation_app_head, Permutation_app_tail; exact PLs|]. perm. }
    clear Lo OA P. intros Lo OA. cbn [negb].
    eapply (wp_perm _ _ _ (Lo ++ Ld ++ F)). { apply Permutation_app_head. rewrite app_assoc. apply Permutation_app_tail. apply Permutation_sym. exact PLs. }
    apply wp_bind. eapply (wp_set_bytes (x, 0) x x _ _ [48]); [exact OA|apply Permutation_refl|reflexivity|]. clear Lo OA. intros Lo OA.
    apply wp_bind. eapply (wp_set_bytes (x, 0) x x _ _ [1; 13; 0; 16]); [exact OA|apply Permutation_refl|reflexivity|]. clear Lo OA. intros Lo OA.
    unfold M_Node.uecho_nodeprofile_setid in E. apply bind_ok in E. destruct E as (m & EM & E). apply bind_ok in E. destruct E as (u & EU & E). injection E as E.
    apply wp_bind. unfold uecho_nodeprofile_setid. apply wp_bind. eapply wp_lift; [exact EM|]. apply wp_bind. eapply wp_lift; [exact EU|].
    eapply (wp_set_bytes (x, 0) x x _ _ (254 :: m ++ u)); [exact OA|apply Permutation_refl| |].
    { destruct (rd_range_map _ _ (@Some Z) _ _ _ _ EM) as [_ L1]. destruct (rd_range_map _ _ (@Some Z) _ _ _ _ EU) as [_ L2].
      unfold len in *. cbn [length]. rewrite app_length. unfold SIZE_MOD. lia. }
    clear Lo OA. intros Lo OA. apply wp_ret. apply H.
    change (fst (M_Object.uecho_object_setpropertydata (M_Object.uecho_object_addmissingobjectproperties o sup) EPC_OperatingStatus [48]))
      with (fst (uecho_nodeprofile_setoperatingstatus (M_Object.uecho_object_addmissingobjectproperties o sup) true)) in OA.
    change [1; 13; 0; 16] with [to_byte 1; to_byte 13; 0; 16] in OA.
    match type of OA with obj_at _ _ _ (fst (M_Object.uecho_object_setpropertydata ?a _ _)) _ => replace o4 with (fst (M_Object.uecho_object_setpropertydata a EPC_Id (254 :: m ++ u))) end.
    + exact OA.
    + unfold uecho_nodeprofile_setversion in E. rewrite E. reflexivity.
Qed.

Lemma wp_profile_new : forall ds Ld man uniq o L F (Q : Z -> heaplet -> Prop), dlist db ds Ld -> Forall einv ds -> Permutation L (Ld ++ F) ->
  M_Node.uecho_nodeprofile_new ds junk man uniq = Ok o ->
  (forall x Lo, 0 < x -> obj_at (x, 0) x x o Lo -> Q x (Lo ++ Ld ++ F)) -> wp (uecho_nodeprofile_new room junk db man uniq) L Q.
Proof.
  intros ds Ld man uniq o L F Q D ED P E H. unfold M_Node.uecho_nodeprofile_new in E. apply bind_ok in E. destruct E as ([o1 ann] & E1 & E).
  apply bind_ok in E. destruct E as ([o2 ok] & E2 & E). injection E as <-. cbn [fst] in *.
  unfold uecho_nodeprofile_new. apply wp_bind. apply (wp_obj_new room Room). intros x Lo PX OA. rewrite (pos_nz x) by exact PX.
  apply wp_bind. eapply (wp_obj_setcode room Room junk db (x, 0) x x _ ds _ o1 ann Lo Ld _ F); [exact OA|exact D|apply Permutation_app_head; exact P|exact E1| |].
  { intros g c i. cbv zeta. pose proof (einv_count _ (addstd_einv ds _ (ginv_db _ ED) (with_code_einv g c i _ new_einv))) as C. rewrite addstd_getsz.
    cbn [o_with_code o_getsz M_Object.uecho_object_new] in *. unfold SIZE_MOD. lia. }
  clear Lo OA. intros Lo OA. apply wp_bind. eapply (wp_mandatory x o1 ds Ld man uniq o2 ok Lo _ F); [exact OA|exact PX|exact D|apply Permutation_refl|exact E2|].
  intros Lo' OA'. apply wp_ret. apply H; assumption.
Qed.
End Room.
