(* The property map caches of an object in the heap. *)
From Coq Require Import String ZArith List Bool Lia Permutation.
From Verif Require Import CSem P_Base M_Const M_Misc M_Property M_PropertyList P_PropertyList M_Object M_Mem M_MemUse M_ObjMem
  P_Mem P_MemProp P_MemCopy P_MemRun P_MemPkt P_Ring P_ObjProp.
Import ListNotations.
Open Scope Z_scope.

Ltac js := cbn [j_prev j_next j_name j_grp j_cls j_ins j_props j_annon j_anno j_setn j_set j_getn j_get j_listener j_mgr j_node
                j_with_code j_with_anno j_with_set j_with_get j_with_listener].

Lemma wp_load_obj : forall a l L (Q : _ -> heaplet -> Prop), In (a, BObj l) L -> Q l L -> wp (load_obj a) L Q.
Proof. intros a l L Q I H. apply wp_bind. eapply wp_load; [exact I|]. apply wp_ret. exact H. Qed.

Lemma rd_map : forall A B (f : A -> B) l i x, rd l i = Ok x -> rd (map f l) i = Ok (f x).
Proof.
  intros A B f l i x. unfold rd. destruct (i <? 0); [discriminate|]. rewrite nth_error_map.
  destruct (nth_error l (Z.to_nat i)); [|discriminate]. intro H. injection H as ->. reflexivity.
Qed.
Lemma wr_map : forall A B (f : A -> B) l i x l', wr l i x = Ok l' -> wr (map f l) i (f x) = Ok (map f l').
Proof.
  intros A B f l i x l'. unfold wr. rewrite len_map. destruct ((0 <=? i) && (i <? len l)); [|discriminate]. intro H. injection H as <-.
  rewrite map_app. cbn [map]. rewrite firstn_map, skipn_map. reflexivity.
Qed.

Section Room.
Variable room : Z -> bool.
Hypothesis Room : forall n, room n = true.
Variable junk : nat -> Z.

(* the cache of a map that had size [k] when its bytes were given back, after the codes [cs] *)
Definition cachev (k : nat) (cs : list Z) (n b : Z) (L : heaplet) : Prop :=
  n = Z.of_nat (k + length cs) /\
  match cs with [] => b = 0 /\ L = [] | _ => L = [(b, BBytes (map Some (map junk (seq 0 k) ++ cs)))] end.

Lemma wp_cache_code : forall (get : cobj -> Z * Z) put a c code k cs n b Lc L F (Q : unit -> heaplet -> Prop),
  get c = (n, b) -> cachev k cs n b Lc -> Permutation L ((a, BObj c) :: Lc ++ F) -> n + 1 < SIZE_MOD ->
  (forall b' Lc', cachev k (cs ++ [code]) (n + 1) b' Lc' -> Q tt ((a, BObj (put (n + 1) b' c)) :: Lc' ++ F)) ->
  wp (cache_code room junk get put a code) L Q.
Proof.
  intros get put a c code k cs n b Lc L F Q EG [En Ec] P SN H. eapply wp_perm; [exact P|]. clear L P.
  unfold cache_code. apply wp_bind. eapply wp_load_obj; [left; reflexivity|]. rewrite EG. cbn [fst snd]. rewrite sz_small by lia.
  apply wp_bind. unfold realloc_bytes.
  assert (GO : forall b' x L', 0 < b' -> Permutation L' ((b', BBytes (map Some (map junk (seq 0 k) ++ cs) ++ [x])) :: (a, BObj c) :: F) ->
     wp (let! _ := store a (BObj (put (n + 1) b' c)) in if b' =? 0 then ret tt else poke b' (n + 1 - 1) code) L' Q).
  { intros b' x L' PB P'. eapply wp_perm; [exact P'|]. apply wp_bind. eapply wp_store; [eapply pf_cons; apply pf_here|].
    rewrite (pos_nz b') by exact PB. apply wp_post. eapply wp_poke; [eapply pf_cons; apply pf_here| |].
    - apply wr_app_cons. rewrite len_map, len_app, len_map. unfold len. rewrite seq_length. lia.
    - exists ((a, BObj (put (n + 1) b' c)) :: [(b', BBytes (map Some (map junk (seq 0 k) ++ cs ++ [code])))] ++ F). split.
      + rewrite app_assoc, (map_app _ _ [code]). cbn [map app]. apply perm_swap.
      + apply H. split; [rewrite app_length; cbn [length]; lia|]. destruct cs; reflexivity. }
  destruct cs as [|c0 cs].
  - destruct Ec as [-> ->]. cbn [Z.eqb]. apply wp_malloc; [exact Room|]. intros b' PB _.
    eapply (GO b' (Some (junk k))); [exact PB|]. rewrite app_nil_r.
    replace (Z.to_nat (n + 1)) with (k + 1)%nat by (cbn [length] in En; lia).
    rewrite seq_app, map_app. cbn [seq map Nat.add]. rewrite map_map. cbn [app]. apply Permutation_refl.
  - subst Lc. cbn [app]. nz b. apply wp_bind. eapply wp_load_bytes; [inl|]. apply wp_bind. apply wp_malloc; [exact Room|]. intros b' PB _.
    rewrite (pos_nz b') by exact PB. apply wp_bind. eapply wp_free; [find_x|]. apply wp_ret.
    assert (LL : length (map Some (map junk (seq 0 k) ++ c0 :: cs)) = Z.to_nat n).
    { rewrite map_length, app_length, map_length, seq_length. lia. }
    rewrite firstn_all2 by lia. rewrite LL. replace (Z.to_nat (n + 1) - Z.to_nat n)%nat with 1%nat by lia. cbn [seq map].
    eapply GO; [exact PB|]. apply Permutation_refl.
Qed.

(* ---- the three caches ---- *)

Definition rcodes (l : list prop) : list Z := map p_code (filter uecho_property_isreadable l).
Definition wcodes (l : list prop) : list Z := map p_code (filter uecho_property_iswritable l).
Definition acodes (l : list prop) : list Z := map p_code (filter uecho_property_isannounceable l).
Lemma codes_snoc : forall f l p, map p_code (filter f (l ++ [p])) = map p_code (filter f l) ++ (if f p then [p_code p] else []).
Proof. intros f l p. rewrite filter_app, map_app. cbn [filter]. destruct (f p); reflexivity. Qed.
Lemma codes_len : forall f l, (length (map p_code (filter f l)) <= length l)%nat.
Proof. intros f l. rewrite map_length. induction l as [|p l IH]; [cbn; lia|]. cbn [filter]. destruct (f p); cbn [length]; lia. Qed.

(* the object block after the properties [l] *)
Definition ocache (k : nat) (l : list prop) (c0 c : cobj) (Lc : heaplet) : Prop :=
  exists gb sb ab Lg Ls La, Lc = Lg ++ Ls ++ La /\
    cachev k (rcodes l) (j_getn c) gb Lg /\ cachev 0 (wcodes l) (j_setn c) sb Ls /\ cachev 0 (acodes l) (j_annon c) ab La
    /\ c = j_with_anno (j_annon c) ab (j_with_set (j_setn c) sb (j_with_get (j_getn c) gb c0)).

Lemma wp_cache_loop : forall par k h ps Lr a c0 c Lc L F (Q : unit -> heaplet -> Prop),
  plist par h ps Lr -> ocache k [] c0 c Lc -> Z.of_nat (k + length ps) + 1 < SIZE_MOD ->
  Permutation L (Lr ++ (a, BObj c) :: Lc ++ F) ->
  (forall c' Lc', ocache k ps c0 c' Lc' -> Q tt (Lr ++ (a, BObj c') :: Lc' ++ F)) ->
  wp (let! p := uecho_list_next h in walk (fun n => cache_loop room junk a n p)) L Q.
Proof.
  intros par k h ps Lr a c0 c Lc L F Q (ns & Ln & I & P) OC SK PL H.
  assert (PL' : Permutation L (ring ((h, hblk) :: ns) ++ Ln ++ (a, BObj c) :: Lc ++ F)).
  { eapply perm_trans; [exact PL|]. eapply perm_trans; [apply Permutation_app_tail; exact P|]. rperm. }
  assert (N := items_nodes _ _ _ _ _ I).
  apply wp_bind. change h with (lst_of h []). eapply (wp_list_next h hblk [] ns); [reflexivity|exact N|exact PL'|].
  apply wp_walk. intros n LN.
  assert (LE : (length ns <= n)%nat).
  { pose proof (Permutation_length PL') as X. rewrite app_length in X. rewrite ring_length in X. cbn [length] in X. lia. }
  clear LN PL.
  assert (G : forall n2 n1 v1 v2 L1 L2 m c Lc L, ns = n1 ++ n2 -> ps = v1 ++ v2 -> items (pbody par) n1 v1 L1 -> items (pbody par) n2 v2 L2 -> Ln = L1 ++ L2 ->
     ocache k v1 c0 c Lc -> Permutation L (ring ((h, hblk) :: ns) ++ Ln ++ (a, BObj c) :: Lc ++ F) -> (length n2 <= m)%nat ->
     wp (cache_loop room junk a m (fst_of 0 n2)) L Q).
  { clear c Lc OC L PL' n LE. induction n2 as [|[b kb] n2 IH]; intros n1 v1 v2 L1 L2 m c Lc L En Ev I1 I2 EL OC PL LM.
    - inversion I2; subst v2 L2. destruct m; cbn [cache_loop fst_of Z.eqb]; apply wp_post, wp_ret;
        (exists (Lr ++ (a, BObj c) :: Lc ++ F); split; [eapply perm_trans; [exact PL|]; apply Permutation_sym;
           eapply perm_trans; [apply Permutation_app_tail; exact P|]; rperm|]; apply H; rewrite Ev, app_nil_r; exact OC).
    - inversion I2 as [|b' kb' v Lx ns' vs' L' E X Y]; subst b' kb' ns' v2 L2. cbn [fst_of].
      assert (IA : exists p n, In (b, set_links p n kb) (ring ((h, hblk) :: ns))).
      { destruct (ring_in ((h, hblk) :: n1) b kb n2) as [p J]. exists p. eexists. rewrite En. exact J. }
      destruct IA as (pv & nx & IA).
      destruct X as (pv0 & nx0 & q & X & O). pose proof (prop_at_links _ _ _ _ _ _ _ pv nx X) as X'.
      destruct X' as (s & o & d & Ls' & Ld' & EE & _). injection EE as EE _. rewrite EE in IA.
      destruct m as [|m]; [cbn [length] in LM; lia|]. cbn [cache_loop].
      assert (IL : In (b, BProp (mkCprop pv nx s (p_code v) (p_attr v) d (len (p_data v)) q)) L).
      { eapply Permutation_in; [apply Permutation_sym; exact PL|]. apply in_or_app. left. exact IA. }
      eapply (wp_pos _ _ _ _ b); [exact IL|intro PB]. rewrite (pos_nz b) by exact PB.
      apply wp_bind. eapply wp_load_prop; [exact IL|]. qs.
      fold (uecho_property_isreadable v). fold (uecho_property_iswritable v). fold (uecho_property_isannounceable v).
      assert (LV : (length v1 + 1 <= length ps)%nat) by (rewrite Ev, app_length; cbn [length]; lia).
      destruct OC as (gb & sb & ab & Lg & Ls & La & -> & CG & CS & CA & EC).
      (* get *)
      apply wp_bind.
      assert (SG : forall (R : unit -> heaplet -> Prop),
        (forall gb' Lg' cg, cachev k (rcodes (v1 ++ [v])) (j_getn cg) gb' Lg' -> cg = j_with_get (j_getn cg) gb' c ->
           R tt ((a, BObj cg) :: Lg' ++ (ring ((h, hblk) :: ns) ++ Ln ++ Ls ++ La ++ F))) ->
        wp (if uecho_property_isreadable v then cache_code room junk (fun o => (j_getn o, j_get o)) j_with_get a (p_code v) else ret tt) L R).
      { intros R HR. unfold rcodes in *. rewrite codes_snoc in HR. destruct (uecho_property_isreadable v).
        - eapply (wp_cache_code _ j_with_get a c (p_code v) k _ (j_getn c) gb Lg _ (ring ((h, hblk) :: ns) ++ Ln ++ Ls ++ La ++ F)).
          + rewrite EC. js. reflexivity.
          + exact CG.
          + eapply perm_trans; [exact PL|]. rperm.
          + destruct CG as [CG _]. pose proof (codes_len uecho_property_isreadable v1). lia.
          + intros b' Lc' C'. apply (HR b' Lc' _); [exact C'|]. js. reflexivity.
        - rewrite app_nil_r in HR. apply wp_post, wp_ret. eexists. split; [|apply (HR gb Lg c); [exact CG|]].
          + eapply perm_trans; [exact PL|]. rperm.
          + rewrite EC at 1. js. rewrite EC. js. reflexivity. }
      apply SG. clear SG. intros gb' Lg' cg CG' EG.
      (* set *)
      apply wp_bind.
      assert (SS : forall (R : unit -> heaplet -> Prop),
        (forall sb' Ls'' cs, cachev 0 (wcodes (v1 ++ [v])) (j_setn cs) sb' Ls'' -> cs = j_with_set (j_setn cs) sb' cg ->
           R tt ((a, BObj cs) :: Ls'' ++ (ring ((h, hblk) :: ns) ++ Ln ++ Lg' ++ La ++ F))) ->
        wp (if uecho_property_iswritable v then cache_code room junk (fun o => (j_setn o, j_set o)) j_with_set a (p_code v) else ret tt)
           ((a, BObj cg) :: Lg' ++ (ring ((h, hblk) :: ns) ++ Ln ++ Ls ++ La ++ F)) R).
      { intros R HR. assert (CS' : cachev 0 (wcodes v1) (j_setn cg) sb Ls) by (rewrite EG; exact CS).
        unfold wcodes in *. rewrite codes_snoc in HR. destruct (uecho_property_iswritable v).
        - eapply (wp_cache_code _ j_with_set a cg (p_code v) 0 _ (j_setn cg) sb Ls _ (ring ((h, hblk) :: ns) ++ Ln ++ Lg' ++ La ++ F)).
          + rewrite EG, EC. js. reflexivity.
          + exact CS'.
          + rperm.
          + destruct CS' as [CS' _]. pose proof (codes_len uecho_property_iswritable v1). lia.
          + intros b' Lc' C'. apply (HR b' Lc' _); [exact C'|]. js. reflexivity.
        - rewrite app_nil_r in HR. apply wp_post, wp_ret. eexists. split; [|apply (HR sb Ls cg); [exact CS'|]].
          + rperm.
          + rewrite EG at 1. rewrite EC at 1. js. rewrite EG. js. rewrite EC. js. reflexivity. }
      apply SS. clear SS. intros sb' Ls'' cs CS' ES.
      (* announcements *)
      apply wp_bind.
      assert (SA : forall (R : unit -> heaplet -> Prop),
        (forall ab' La' ca, cachev 0 (acodes (v1 ++ [v])) (j_annon ca) ab' La' -> ca = j_with_anno (j_annon ca) ab' cs ->
           R tt ((a, BObj ca) :: La' ++ (ring ((h, hblk) :: ns) ++ Ln ++ Lg' ++ Ls'' ++ F))) ->
        wp (if uecho_property_isannounceable v then cache_code room junk (fun o => (j_annon o, j_anno o)) j_with_anno a (p_code v) else ret tt)
           ((a, BObj cs) :: Ls'' ++ (ring ((h, hblk) :: ns) ++ Ln ++ Lg' ++ La ++ F)) R).
      { intros R HR. assert (CA' : cachev 0 (acodes v1) (j_annon cs) ab La) by (rewrite ES, EG; exact CA).
        unfold acodes in *. rewrite codes_snoc in HR. destruct (uecho_property_isannounceable v).
        - eapply (wp_cache_code _ j_with_anno a cs (p_code v) 0 _ (j_annon cs) ab La _ (ring ((h, hblk) :: ns) ++ Ln ++ Lg' ++ Ls'' ++ F)).
          + rewrite ES, EG, EC. js. reflexivity.
          + exact CA'.
          + rperm.
          + destruct CA' as [CA' _]. pose proof (codes_len uecho_property_isannounceable v1). lia.
          + intros b' Lc' C'. apply (HR b' Lc' _); [exact C'|]. js. reflexivity.
        - rewrite app_nil_r in HR. apply wp_post, wp_ret. eexists. split; [|apply (HR ab La cs); [exact CA'|]].
          + rperm.
          + rewrite ES at 1. rewrite EG at 1. rewrite EC at 1. js. rewrite ES. js. rewrite EG. js. rewrite EC. js. reflexivity. }
      apply SA. clear SA. intros ab' La' ca CA' EA.
      apply wp_bind. assert (EN2 : ns = (n1 ++ [(b, kb)]) ++ n2) by (rewrite <- app_assoc; exact En).
      replace b with (lst_of h (n1 ++ [(b, kb)])) by (rewrite lst_of_app; reflexivity).
      eapply (wp_list_next h hblk (n1 ++ [(b, kb)]) n2 _ (Ln ++ (a, BObj ca) :: (Lg' ++ Ls'' ++ La') ++ F));
        [reflexivity|rewrite <- EN2; exact N|rewrite <- EN2; rperm|].
      eapply (IH (n1 ++ [(b, kb)]) (v1 ++ [v]) vs' (L1 ++ Lx) L' m ca (Lg' ++ Ls'' ++ La')).
      + exact EN2.
      + rewrite <- app_assoc. exact Ev.
      + apply items_app; [exact I1|]. apply items_one; [exact E|]. exists pv0, nx0, q. split; assumption.
      + exact Y.
      + rewrite <- app_assoc. exact EL.
      + exists gb', sb', ab', Lg', Ls'', La'. split; [reflexivity|].
        assert (E1 : j_getn ca = j_getn cg) by (rewrite EA; js; rewrite ES; reflexivity).
        assert (E2 : j_setn ca = j_setn cs) by (rewrite EA; reflexivity).
        rewrite E1, E2. split; [exact CG'|]. split; [exact CS'|]. split; [exact CA'|].
        rewrite EA at 1. rewrite ES at 1. rewrite EG at 1. rewrite EC at 1. js. reflexivity.
      + rperm.
      + cbn [length] in LM. lia. }
  eapply (G ns [] [] ps [] Ln n c Lc); try reflexivity; [constructor|exact I|exact OC|exact PL'|exact LE].
Qed.

(* ---- uecho_object_setpropertymap ---- *)

Lemma wp_format2 : forall cs pre b codes data data' buf L F (Q : unit -> heaplet -> Prop),
  map_format2 cs data = Ok data' -> codes = pre ++ cs -> 
  Permutation L ((buf, BBytes (map Some data)) :: F) -> In (b, BBytes (map Some codes)) F ->
  Q tt ((buf, BBytes (map Some data')) :: F) ->
  wp (format2_loop buf b (len pre) (length cs)) L Q.
Proof.
  induction cs as [|c cs IH]; intros pre b codes data data' buf L F Q EM EC P I H; cbn [map_format2] in EM.
  - injection EM as <-. cbn [length format2_loop]. apply wp_post, wp_ret. eexists. split; [exact P|exact H].
  - cbn [length format2_loop]. eapply wp_perm; [exact P|]. apply wp_bind.
    eapply (wp_peek b (len pre) _ c); [right; exact I| |].
    { apply rd_map. rewrite EC. apply rd_app_cons. reflexivity. }
    assert (K : forall data1, map_format2 cs data1 = Ok data' ->
       wp (format2_loop buf b (len pre + 1) (length cs)) ((buf, BBytes (map Some data1)) :: F) Q).
    { intros data1 E1. replace (len pre + 1) with (len (pre ++ [c])) by (rewrite len_app; reflexivity).
      eapply (IH (pre ++ [c]) b codes data1 data'); [exact E1|rewrite <- app_assoc; exact EC|apply Permutation_refl|exact I|exact H]. }
    apply wp_bind. destruct (uecho_propertymap_codetoformat2 c) as [[row bit]|].
    + destruct (rd data row) as [x|] eqn:ER; cbn [bind] in EM; [|discriminate].
      destruct (wr data row (to_byte (Z.lor x (Z.land (Z.shiftl 1 bit) 15)))) as [data1|] eqn:EW; cbn [bind] in EM; [|discriminate].
      apply wp_bind. eapply wp_peek; [left; reflexivity|apply rd_map; exact ER|].
      eapply wp_poke; [apply Permutation_refl|apply (wr_map _ _ Some); exact EW|]. apply K. exact EM.
    + apply wp_ret. apply K. exact EM.
Qed.

Lemma wp_setpropertymap : forall a c ps mapCode cs b o o' ann Lr L F (Q : bool -> heaplet -> Prop),
  M_Object.uecho_object_setpropertymap o mapCode (Some cs) = Ok (o', ann) -> o_props o = ps ->
  plist a (j_props c) ps Lr -> Permutation L (Lr ++ (a, BObj c) :: F) ->
  (cs <> [] -> In (b, BBytes (map Some cs)) F) -> len cs + 1 < SIZE_MOD ->
  (forall Lr', plist a (j_props c) (o_props o') Lr' -> o' = o_with_props (o_props o') o -> Q true (Lr' ++ (a, BObj c) :: F)) ->
  wp (uecho_object_setpropertymap room a mapCode b (len cs)) L Q.
Proof.
  intros a c ps mapCode cs b o o' ann Lr L F Q EV EP R P IC SC H. eapply wp_perm; [exact P|]. clear L P.
  unfold uecho_object_setpropertymap. nz a. apply wp_bind. apply wp_malloc; [reflexivity|]. intros buf PB _.
  unfold M_Object.uecho_object_setpropertymap in EV. rewrite EP in EV. pose proof (len_nonneg _ cs) as NC.
  apply wp_bind. eapply wp_poke; [apply Permutation_refl| |].
  { change (fresh_buf MapFormat2Size) with ([] ++ None :: repeat (@None Z) 16). apply wr_app_cons. reflexivity. }
  cbn [app]. apply wp_bind.
  assert (TH : there a ((buf, BBytes []) :: (a, BObj c) :: F)) by (exists c; right; left; reflexivity).
  destruct (Z.leb_spec (len cs) MapFormat1MaxSize) as [LE|LE].
  - (* format 1 *)
    rewrite (surjective_pairing (M_PropertyList.uecho_propertylist_set ps mapCode AttrRead (to_byte (len cs) :: cs))) in EV. injection EV as <- _.
    cbn [o_with_props o_props] in H.
    assert (FIN : forall rest, wp (let! o0 := load_obj a in M_ObjMem.uecho_propertylist_set room (j_props o0) mapCode AttrRead buf (len cs + 1))
        ((buf, BBytes (map Some (to_byte (len cs) :: cs) ++ rest)) :: Lr ++ (a, BObj c) :: F)
        (fun _ L' => wp (let! _ := mfree buf in ret true) L' Q)).
    { intro rest. apply wp_bind. eapply wp_load_obj; [inl|].
      replace (len cs + 1) with (len (to_byte (len cs) :: cs)) by (rewrite len_cons; lia).
      eapply (wp_pl_set room Room a (j_props c) ps mapCode AttrRead buf (to_byte (len cs) :: cs) Lr _
               ((buf, BBytes (map Some (to_byte (len cs) :: cs) ++ rest)) :: (a, BObj c) :: F)); [exact R|perm| | | |].
      - exists c. right. left. reflexivity.
      - rewrite len_cons. lia.
      - intros _. eexists. split; [left; reflexivity|].
        change (map Some (to_byte (len cs) :: cs) ++ rest) with ([] ++ map Some (to_byte (len cs) :: cs) ++ rest).
        apply rd_range_app; [reflexivity|]. rewrite len_map. reflexivity.
      - intros Lr' R'. apply wp_bind. eapply wp_free; [eapply pf_app_r; apply pf_here|]. apply wp_ret. apply H; [exact R'|reflexivity]. }
    destruct cs as [|c1 cs].
    + apply wp_bind. cbn [len length Z.of_nat]. unfold copy_bytes. cbn [Z.eqb]. apply wp_ret. apply (FIN (repeat None 16)).
    + apply wp_bind. eapply (wp_copy_bytes buf 1 b 0 (len (c1 :: cs)) (map Some (c1 :: cs)) (map Some (c1 :: cs)));
        [apply Permutation_refl|apply in_or_app; right; right; apply IC; discriminate|rewrite len_cons; pose proof (len_nonneg _ cs); lia| | |].
      * apply rd_range_whole. apply len_map.
      * replace (Some (to_byte (len (c1 :: cs))) :: repeat None 16) with ([Some (to_byte (len (c1 :: cs)))] ++ firstn (length (c1 :: cs)) (repeat None 16) ++ skipn (length (c1 :: cs)) (repeat (@None Z) 16))
          by (rewrite firstn_skipn; reflexivity).
        apply wr_range_app; [reflexivity|]. rewrite len_map. unfold len. rewrite firstn_length, repeat_length.
        unfold MapFormat1MaxSize, len in LE. lia.
      * cbn [app map]. apply (FIN (skipn (length (c1 :: cs)) (repeat None 16))).
  - (* format 2 *)
    destruct (map_format2 cs (to_byte (len cs) :: repeat 0 (Z.to_nat MapFormat2MapSize))) as [data|] eqn:EM; cbn [bind] in EV; [|discriminate].
    rewrite (surjective_pairing (M_PropertyList.uecho_propertylist_setdata ps mapCode data)) in EV. injection EV as <- _.
    cbn [o_with_props o_props] in H.
    apply wp_bind. eapply wp_load_bytes; [inl|]. apply wp_bind. eapply wp_lift.
    { replace (Some (to_byte (len cs)) :: repeat None 16) with ([Some (to_byte (len cs))] ++ repeat (@None Z) 16 ++ [])
        by (rewrite app_nil_r; reflexivity).
      apply wr_range_app; [reflexivity|]. reflexivity. }
    apply wp_bind. eapply wp_store; [apply Permutation_refl|].
    replace ([Some (to_byte (len cs))] ++ repeat (Some 0) (Z.to_nat MapFormat2MapSize) ++ []) with (map Some (to_byte (len cs) :: repeat 0 (Z.to_nat MapFormat2MapSize))) by reflexivity.
    apply wp_bind. rewrite to_nat_len. change 0 with (len (@nil Z)) at 2.
    eapply (wp_format2 cs [] b cs _ data); [exact EM|reflexivity|apply Permutation_refl| |].
    { apply in_or_app. right. right. apply IC. intro X. subst cs. unfold MapFormat1MaxSize, len in LE. cbn in LE. lia. }
    assert (LD : len data = MapFormat2Size).
    { clear - EM. assert (G : forall cs d d', map_format2 cs d = Ok d' -> len d' = len d).
      { induction cs0 as [|c0 cs0 IH]; intros d d' E; cbn [map_format2] in E; [injection E as ->; reflexivity|].
        destruct (uecho_propertymap_codetoformat2 c0) as [[row bit]|]; [|apply IH; exact E].
        destruct (rd d row) as [x|]; cbn [bind] in E; [|discriminate].
        destruct (wr d row (to_byte (Z.lor x (Z.land (Z.shiftl 1 bit) 15)))) as [d1|] eqn:EW; cbn [bind] in E; [|discriminate].
        rewrite (IH _ _ E). eapply wr_len. exact EW. }
      rewrite (G _ _ _ EM). reflexivity. }
    apply wp_bind. eapply wp_load_obj; [inl|]. rewrite <- LD.
    eapply (wp_pl_setdata room Room a (j_props c) ps mapCode buf data Lr _ ((buf, BBytes (map Some data)) :: (a, BObj c) :: F)); [exact R|perm| | | |].
    + exists c. right. left. reflexivity.
    + rewrite LD. reflexivity.
    + intros _. eexists. split; [left; reflexivity|]. apply rd_range_whole. apply len_map.
    + intros Lr' R'. apply wp_bind. eapply wp_free; [eapply pf_app_r; apply pf_here|]. apply wp_ret. apply H; [exact R'|reflexivity].
Qed.
End Room.
