(* Proofs about the log of packets. *)
From Coq Require Import String Ascii ZArith List Bool Lia ZifyBool ZifyNat.
From Verif Require Import CSem P_Base M_String Spec_String P_String M_Message M_Server M_Log Spec_Log.
Import ListNotations.
Open Scope Z_scope.
Ltac Zify.zify_post_hook ::= Z.div_mod_to_equations.

Lemma text_ok_app : forall a b, text_ok (a ++ b) <-> text_ok a /\ text_ok b.
Proof. intros. apply Forall_app. Qed.
Lemma text_ok_firstn : forall n t, text_ok t -> text_ok (firstn n t).
Proof. intros n t H. rewrite <- (firstn_skipn n t) in H. apply Forall_app in H. apply H. Qed.
Lemma len_firstn : forall A n (l : list A), 0 <= n -> len (firstn (Z.to_nat n) l) = Z.min n (len l).
Proof. intros. unfold len. rewrite firstn_length. lia. Qed.
Lemma firstn_len_all : forall A n (l : list A), len l <= n -> firstn (Z.to_nat n) l = l.
Proof. intros. apply firstn_all2. unfold len in *. lia. Qed.
Lemma firstn_app_long : forall A n (a b : list A), len a <= n -> firstn (Z.to_nat n) (a ++ b) = a ++ firstn (Z.to_nat (n - len a)) b.
Proof.
  intros A n a b H. rewrite firstn_app. unfold len in *. rewrite firstn_all2 by lia. f_equal. f_equal. lia.
Qed.
Lemma firstn_app_short : forall A n (a b : list A), 0 <= n <= len a -> firstn (Z.to_nat n) (a ++ b) = firstn (Z.to_nat n) a.
Proof.
  intros A n a b H. rewrite firstn_app. unfold len in *. replace (Z.to_nat n - length a)%nat with 0%nat by lia. rewrite firstn_O, app_nil_r. reflexivity.
Qed.

(* snprintf into the last n cells of a buffer *)
Lemma snprintf_at : forall strict pre r out n, 1 <= n <= INT_MAX -> len r = n ->
  exists r', c_snprintf strict (map Some pre ++ r) (len pre) n out = Ok (cells (pre ++ firstn (Z.to_nat (n - 1)) out) r')
    /\ len (cells (pre ++ firstn (Z.to_nat (n - 1)) out) r') = len (map Some pre ++ r).
Proof.
  intros strict pre r out n H L. unfold c_snprintf. destruct (Z.eqb_spec n 0); [lia|].
  destruct (strict && (INT_MAX <? n)) eqn:B; [apply andb_prop in B; lia|].
  set (o := firstn (Z.to_nat (n - 1)) out). assert (Lo : len o <= n - 1) by (unfold o; rewrite len_firstn; lia). clearbody o.
  set (k := Z.to_nat (len o + 1)). exists (skipn k r).
  assert (E : r = firstn k r ++ skipn k r) by (symmetry; apply firstn_skipn).
  assert (Lk : len (firstn k r) = len o + 1) by (unfold k; rewrite len_firstn by (pose proof (len_nonneg _ o); lia); lia).
  split.
  - rewrite E at 1. rewrite (wr_range_app _ (map Some pre) (firstn k r) (skipn k r)); [|rewrite len_map; reflexivity|rewrite len_map, len_app, Lk; reflexivity].
    f_equal. unfold cells. rewrite !map_app, <- !app_assoc. reflexivity.
  - rewrite len_cells, !len_app, len_map. rewrite E at 2. rewrite len_app, Lk. lia.
Qed.
Lemma snprintf_over : forall buf off n out, 0 < n -> len buf < off -> c_snprintf false buf off n out = Undef UB_write.
Proof.
  intros buf off n out N O. unfold c_snprintf. destruct (Z.eqb_spec n 0); [lia|]. cbn [andb]. unfold wr_range.
  rewrite len_map, len_app. change (len [0]) with 1. set (o := firstn _ out). pose proof (len_nonneg _ o).
  destruct (Z.eqb_spec (len o + 1) 0); [lia|]. destruct ((0 <=? off) && (off + (len o + 1) <=? len buf)) eqn:B; [lia|reflexivity].
Qed.

Lemma hexdigit_ok : forall d, 0 <= d < 16 -> char_ok (hexdigit d) /\ hexdigit d = nth (Z.to_nat d) digits 0.
Proof.
  intros d H. split; [unfold hexdigit, char_ok; destruct (Z.ltb_spec d 10); lia|].
  assert (d = 0 \/ d = 1 \/ d = 2 \/ d = 3 \/ d = 4 \/ d = 5 \/ d = 6 \/ d = 7 \/ d = 8 \/ d = 9 \/ d = 10 \/ d = 11 \/ d = 12 \/ d = 13 \/ d = 14 \/ d = 15) by lia.
  repeat match goal with X : _ \/ _ |- _ => destruct X as [->|X]; [reflexivity|] end. subst. reflexivity.
Qed.
Lemma hex02_ok : forall b, is_byte b -> text_ok (hex02 b) /\ two_digits b (hex02 b).
Proof.
  intros b H. unfold is_byte in H. assert (0 <= b / 16 < 16) by lia. assert (0 <= b mod 16 < 16) by lia.
  destruct (hexdigit_ok (b / 16)) as [A1 A2]; [lia|]. destruct (hexdigit_ok (b mod 16)) as [B1 B2]; [lia|]. split.
  - constructor; [exact A1|]. constructor; [exact B1|constructor].
  - exists (b / 16), (b mod 16). split; [lia|]. split; [lia|]. split; [lia|]. unfold hex02. rewrite A2, B2. reflexivity.
Qed.
Definition hex_text (d : list Z) : list Z := concat (map hex02 d).
Lemma hex_text_ok : forall d, bytes_ok d -> text_ok (hex_text d) /\ hex_of d (hex_text d) /\ len (hex_text d) = 2 * len d.
Proof.
  intros d H. induction H as [|b d Hb Hd (I1 & I2 & I3)]; [split; [constructor|split; [constructor|reflexivity]]|].
  destruct (hex02_ok b Hb) as [A1 A2]. unfold hex_text in *. cbn [map concat]. split; [apply text_ok_app; split; assumption|].
  split; [constructor; assumption|]. rewrite len_app, I3, len_cons. change (len (hex02 b)) with 2. lia.
Qed.
Lemma two_digits_unique : forall b t u, two_digits b t -> two_digits b u -> t = u.
Proof. intros b t u (h & l & H1 & H2 & E & ->) (h' & l' & H1' & H2' & E' & ->). assert (h = h') by lia. assert (l = l') by lia. subst. reflexivity. Qed.

(* ---- the loop over the bytes ---- *)

(* the buffer of 256 holds the first 255 characters of [t] *)
Definition holds_text (buf : list (option Z)) (t : list Z) : Prop :=
  exists rest, buf = cells (firstn (Z.to_nat 255) t) rest /\ len buf = 256.

Lemma print_step : forall strict buf t out, holds_text buf t -> len t <= 256 ->
  exists buf', c_snprintf strict buf (len t) (256 - len t) out = Ok buf' /\ holds_text buf' (t ++ out).
Proof.
  intros strict buf t out (rest & E & L) H. pose proof (len_nonneg _ t).
  destruct (Z.eq_dec (len t) 256) as [N|N].
  - exists buf. split; [unfold c_snprintf; rewrite N; reflexivity|]. exists rest. split; [|exact L].
    rewrite firstn_app_short by lia. exact E.
  - assert (F : firstn (Z.to_nat 255) t = t) by (apply firstn_len_all; lia). rewrite F in E. subst buf. unfold cells in *.
    destruct (snprintf_at strict t (Some 0 :: rest) out (256 - len t)) as (r' & P & Q).
    { unfold INT_MAX. lia. }
    { rewrite len_app, len_map in L. lia. }
    eexists. split; [exact P|]. exists r'. rewrite firstn_app_long by lia.
    replace (256 - len t - 1) with (255 - len t) in * by lia. split; [reflexivity|]. rewrite Q. exact L.
Qed.

Lemma log_bytes_ok : forall strict d buf t, holds_text buf t -> bytes_ok d -> 
  (d <> [] -> len t + 2 * (len d - 1) <= 256) ->
  exists buf', log_bytes strict buf (len t) d = Ok buf' /\ holds_text buf' (t ++ hex_text d).
Proof.
  intros strict d. induction d as [|b d IH]; intros buf t H B L.
  - exists buf. split; [reflexivity|]. unfold hex_text. cbn [map concat]. rewrite app_nil_r. exact H.
  - inversion B as [|? ? B1 B2]; subst. specialize (L ltac:(discriminate)). rewrite len_cons in L. pose proof (len_nonneg _ d). pose proof (len_nonneg _ t).
    cbn [log_bytes]. unfold NET_LOG_BUF. rewrite sz_small by (unfold SIZE_MOD; lia).
    destruct (print_step strict buf t (hex02 b) H) as (buf' & P & Q); [lia|]. rewrite P. cbn [bind].
    rewrite sz_small by (unfold SIZE_MOD; lia).
    replace (len t + 2) with (len (t ++ hex02 b)) by (rewrite len_app; reflexivity).
    destruct (IH buf' (t ++ hex02 b) Q B2) as (buf2 & P2 & Q2).
    { intros N. rewrite len_app. change (len (hex02 b)) with 2. destruct d; [congruence|]. rewrite len_cons in *. lia. }
    exists buf2. split; [exact P2|]. unfold hex_text in *. cbn [map concat]. rewrite app_assoc. exact Q2.
Qed.

Lemma log_bytes_over : forall d buf t, holds_text buf t -> bytes_ok d -> len t <= 256 -> len t + 2 * len d < SIZE_MOD ->
  256 < len t + 2 * (len d - 1) -> log_bytes false buf (len t) d = Undef UB_write.
Proof.
  intros d. induction d as [|b d IH]; intros buf t H B T M L; [rewrite len_nil in L; lia|].
  inversion B as [|? ? B1 B2]; subst. rewrite len_cons in *. pose proof (len_nonneg _ d). pose proof (len_nonneg _ t).
  cbn [log_bytes]. unfold NET_LOG_BUF. rewrite sz_small by (unfold SIZE_MOD; lia).
  destruct (print_step false buf t (hex02 b) H T) as (buf' & P & Q). rewrite P. cbn [bind].
  rewrite sz_small by (unfold SIZE_MOD in *; lia).
  destruct (Z_le_gt_dec (len t + 2) 256) as [C|C].
  - replace (len t + 2) with (len (t ++ hex02 b)) by (rewrite len_app; reflexivity).
    apply IH; try assumption; rewrite len_app; change (len (hex02 b)) with 2; lia.
  - destruct d as [|c d]; [rewrite len_nil in *; lia|]. cbn [log_bytes].
    rewrite snprintf_over; [reflexivity| |destruct Q as (rest & _ & ->); lia].
    unfold NET_LOG_BUF, sz. assert (256 < len t + 2 < SIZE_MOD) by lia.
    rewrite (Z.mod_eq _ _) by (unfold SIZE_MOD; lia). 
    assert ((256 - (len t + 2)) / SIZE_MOD = -1) by (unfold SIZE_MOD in *; lia). lia.
Qed.

(* with a library that refuses sizes above INT_MAX *)
Lemma log_bytes_strict : forall d buf t off, holds_text buf t -> bytes_ok d -> 256 <= len t -> 256 <= off -> off + 2 * len d < 2147483648 ->
  log_bytes true buf off d = Ok buf.
Proof.
  intros d. induction d as [|b d IH]; intros buf t off H B T O M; [reflexivity|].
  inversion B as [|? ? B1 B2]; subst. rewrite len_cons in *. pose proof (len_nonneg _ d).
  cbn [log_bytes]. assert (E : c_snprintf true buf off (sz (NET_LOG_BUF - off)) (hex02 b) = Ok buf).
  { unfold c_snprintf, NET_LOG_BUF. destruct (Z.eq_dec off 256) as [->|N]; [reflexivity|].
    assert (X : INT_MAX < sz (256 - off)).
    { unfold sz. rewrite (Z.mod_eq _ _) by (unfold SIZE_MOD; lia). assert ((256 - off) / SIZE_MOD = -1) by (unfold SIZE_MOD in *; lia).
      unfold SIZE_MOD, INT_MAX in *. lia. }
    destruct (Z.eqb_spec (sz (256 - off)) 0); [reflexivity|]. destruct (Z.ltb_spec INT_MAX (sz (256 - off))); [reflexivity|lia]. }
  rewrite E. cbn [bind]. rewrite sz_small by (unfold SIZE_MOD; lia). apply (IH buf t); try assumption; lia.
Qed.
Lemma holds_long : forall buf t u, holds_text buf t -> 255 <= len t -> holds_text buf (t ++ u).
Proof. intros buf t u (rest & E & L) H. exists rest. split; [|exact L]. rewrite firstn_app_short by lia. exact E. Qed.
Lemma log_bytes_strict_all : forall d buf t, holds_text buf t -> bytes_ok d -> len t <= 256 -> len d < 1000000000 ->
  exists buf', log_bytes true buf (len t) d = Ok buf' /\ holds_text buf' (t ++ hex_text d).
Proof.
  intros d. induction d as [|b d IH]; intros buf t H B T M.
  - exists buf. split; [reflexivity|]. unfold hex_text. cbn [map concat]. rewrite app_nil_r. exact H.
  - inversion B as [|? ? B1 B2]; subst. rewrite len_cons in *. pose proof (len_nonneg _ d). pose proof (len_nonneg _ t).
    cbn [log_bytes]. unfold NET_LOG_BUF. rewrite sz_small by (unfold SIZE_MOD; lia).
    destruct (print_step true buf t (hex02 b) H T) as (buf' & P & Q). rewrite P. cbn [bind].
    rewrite sz_small by (unfold SIZE_MOD in *; lia).
    replace (len t + 2) with (len (t ++ hex02 b)) by (rewrite len_app; reflexivity).
    assert (E : hex_text (b :: d) = hex_text [b] ++ hex_text d) by (unfold hex_text; cbn [map concat]; rewrite app_nil_r; reflexivity).
    assert (E1 : hex_text [b] = hex02 b) by (unfold hex_text; cbn [map concat]; apply app_nil_r).
    rewrite E, E1, app_assoc.
    assert (L : len (t ++ hex02 b) = len t + 2) by (rewrite len_app; reflexivity).
    destruct (Z_le_gt_dec (len t + 2) 256) as [C|C].
    + apply IH; try assumption; lia.
    + exists buf'. split; [|apply holds_long; [exact Q|lia]].
      apply (log_bytes_strict d buf' (t ++ hex02 b)); try assumption; lia.
Qed.

(* ---- the heading ---- *)
Lemma pad15_column : forall t, column t (pad15 t).
Proof.
  intros t. exists (15 - length t)%nat. split; [reflexivity|]. unfold pad15. rewrite len_app, len_repeat. unfold len. lia.
Qed.
Lemma column_unique : forall t c c', column t c -> column t c' -> c = c'.
Proof.
  intros t c c' (n & -> & L) (m & -> & L'). rewrite len_app, len_repeat in *. assert (n = m) by lia. subst. reflexivity.
Qed.
Lemma repeat_text : forall n, text_ok (repeat 32 n).
Proof. induction n; constructor; [unfold char_ok; lia|assumption]. Qed.
Definition heading_text (letter from to : list Z) : list Z :=
  letter ++ cstr " " ++ pad15 from ++ cstr " -> " ++ pad15 to ++ cstr " ".
Lemma heading_unique : forall letter from to h, heading letter from to h -> h = heading_text letter from to.
Proof.
  intros letter from to h (cf & ct & C1 & C2 & ->). unfold heading_text.
  rewrite (column_unique _ _ _ C1 (pad15_column from)), (column_unique _ _ _ C2 (pad15_column to)). reflexivity.
Qed.
Lemma heading_is : forall letter from to, heading letter from to (heading_text letter from to).
Proof. intros. exists (pad15 from), (pad15 to). split; [apply pad15_column|]. split; [apply pad15_column|reflexivity]. Qed.
Lemma heading_len : forall letter from to, len (heading_text letter from to) = len letter + 6 + Z.max 15 (len from) + Z.max 15 (len to).
Proof.
  intros. unfold heading_text. rewrite !len_app. destruct (pad15_column from) as (n & _ & ->). destruct (pad15_column to) as (m & _ & ->).
  change (len (cstr " ")) with 1. change (len (cstr " -> ")) with 4. lia.
Qed.
Lemma pad15_text : forall t, text_ok t -> text_ok (pad15 t).
Proof. intros. apply text_ok_app. split; [assumption|apply repeat_text]. Qed.
Lemma lit_text : forall s, forallb (fun c => (0 <? c) && (c <? 256)) (cstr s) = true -> text_ok (cstr s).
Proof. intros s H. unfold text_ok. rewrite Forall_forall. rewrite forallb_forall in H. intros x Hx. specialize (H x Hx). unfold char_ok. lia. Qed.
Lemma heading_ok : forall letter from to, text_ok letter -> text_ok from -> text_ok to -> text_ok (heading_text letter from to).
Proof.
  intros letter from to L F T. unfold heading_text. pose proof (pad15_text from F). pose proof (pad15_text to T).
  assert (text_ok (cstr " ")) by (apply lit_text; reflexivity). assert (text_ok (cstr " -> ")) by (apply lit_text; reflexivity).
  rewrite !text_ok_app. tauto.
Qed.

Lemma holds_read : forall buf t, text_ok t -> holds_text buf t -> cells_text buf = Ok (firstn (Z.to_nat 255) t).
Proof. intros buf t H (rest & -> & _). apply cells_text_ok, text_ok_firstn, H. Qed.

(* ---- the output ---- *)
Lemma output_off : forall strict level severity now arg, level < severity -> uecho_log_output strict level severity now arg = Ok [].
Proof. intros. unfold uecho_log_output. destruct (Z.ltb_spec level severity); [reflexivity|lia]. Qed.
Lemma output_debug : forall strict level now buf t, UECHO_LOG_DEBUG <= level -> time_ok now -> text_ok t -> holds_text buf t ->
  uecho_log_output strict level UECHO_LOG_DEBUG now buf = Ok [now ++ cstr " : DEBUG " ++ firstn (Z.to_nat 255) t].
Proof.
  intros strict level now buf t Lv (N & Ln) T H. pose proof (holds_read buf t T H) as R. unfold uecho_log_output.
  destruct (Z.ltb_spec level UECHO_LOG_DEBUG); [lia|].
  change (now ++ cstr " : " ++ uecho_log_type2string UECHO_LOG_DEBUG ++ cstr " ") with (now ++ cstr " : DEBUG ").
  set (head := now ++ cstr " : DEBUG ") in *.
  assert (Lh : len head = len now + 9) by (unfold head; rewrite len_app; reflexivity).
  assert (Th : text_ok head) by (unfold head; apply text_ok_app; split; [exact N|apply lit_text; reflexivity]).
  replace (now ++ cstr " : DEBUG " ++ firstn (Z.to_nat 255) t) with (head ++ firstn (Z.to_nat 255) t) by (unfold head; rewrite <- app_assoc; reflexivity).
  clearbody head. pose proof (len_nonneg _ now).
  destruct (snprintf_at strict [] (fresh_buf MAX_LOG_BUF) head MAX_LOG_BUF) as (r1 & P1 & Q1).
  { unfold MAX_LOG_BUF, INT_MAX. lia. } { apply fresh_len. unfold MAX_LOG_BUF. lia. }
  rewrite len_nil in P1. cbn [map app] in P1, Q1. rewrite P1. cbn [bind]. rewrite R. cbn [bind].
  rewrite (firstn_len_all _ (MAX_LOG_BUF - 1) head) in * by (unfold MAX_LOG_BUF; lia).
  rewrite fresh_len in Q1 by (unfold MAX_LOG_BUF; lia).
  rewrite sz_small by (unfold SIZE_MOD, MAX_LOG_BUF; lia). unfold cells in Q1 |- *.
  set (t' := firstn (Z.to_nat 255) t). assert (Lt : len t' <= 255) by (unfold t'; rewrite len_firstn; lia).
  assert (Tt : text_ok t') by (apply text_ok_firstn; exact T). clearbody t'.
  destruct (snprintf_at strict head (Some 0 :: r1) t' (MAX_LOG_BUF - len head)) as (r2 & P2 & Q2).
  { unfold MAX_LOG_BUF, INT_MAX. lia. } { rewrite len_app, len_map in Q1. lia. }
  rewrite P2. cbn [bind]. rewrite (firstn_len_all _ (MAX_LOG_BUF - len head - 1) t') by (unfold MAX_LOG_BUF; lia).
  rewrite cells_text_ok by (apply text_ok_app; split; assumption). reflexivity.
Qed.

(* ---- a packet ---- *)
Definition print (level : Z) (now t : list Z) : list (list Z) :=
  if UECHO_LOG_DEBUG <=? level then [now ++ cstr " : DEBUG " ++ firstn (Z.to_nat 255) t] else [].
Lemma output_print : forall strict level now buf t, time_ok now -> text_ok t -> holds_text buf t ->
  uecho_log_output strict level UECHO_LOG_DEBUG now buf = Ok (print level now t).
Proof.
  intros strict level now buf t N T H. unfold print. destruct (Z.leb_spec UECHO_LOG_DEBUG level).
  - apply output_debug; assumption.
  - apply output_off. assumption.
Qed.

(* the buffer when the loop over the bytes begins *)
Lemma log_start : forall strict level now sev letter from to rl rf rt data, text_ok letter -> letter <> [] -> text_ok from -> text_ok to -> data <> [] ->
  exists buf, holds_text buf (firstn (Z.to_nat 255) (heading_text letter from to))
   /\ uecho_net_socket_log strict level now sev (Some (cells letter rl)) (Some (cells from rf)) (Some (cells to rt)) data
      = bind (log_bytes strict buf (len (firstn (Z.to_nat 255) (heading_text letter from to))) data)
          (fun buf => uecho_log_output strict level UECHO_LOG_DEBUG now buf).
Proof.
  intros strict level now sev letter from to rl rf rt data L Ln F T D. unfold uecho_net_socket_log.
  destruct (Z.leb_spec (len data) 0) as [C|_]; [destruct D; apply len_0_nil; pose proof (len_nonneg _ data); lia|].
  rewrite (cells_text_ok letter rl L). cbn [bind].
  destruct (Z.ltb_spec 0 (len letter)) as [_|C]; [|destruct Ln; apply len_0_nil; pose proof (len_nonneg _ letter); lia].
  assert (FB : len (fresh_buf NET_LOG_BUF) = 256) by (apply fresh_len; unfold NET_LOG_BUF; lia).
  assert (L1 : text_ok (letter ++ cstr " ")) by (apply text_ok_app; split; [exact L|apply lit_text; reflexivity]).
  destruct (snprintf_at strict [] (fresh_buf NET_LOG_BUF) (letter ++ cstr " ") NET_LOG_BUF) as (r1 & P1 & Q1).
  { unfold NET_LOG_BUF, INT_MAX. lia. } { exact FB. }
  rewrite len_nil in P1. cbn [map app] in P1, Q1. rewrite P1. cbn [bind].
  change (NET_LOG_BUF - 1) with 255 in *. set (h1 := firstn (Z.to_nat 255) (letter ++ cstr " ")) in *.
  assert (T1 : text_ok h1) by (apply text_ok_firstn; exact L1).
  assert (Lh1 : len h1 <= 255) by (unfold h1; rewrite len_firstn; lia). pose proof (len_nonneg _ h1).
  rewrite (cells_text_ok h1 r1 T1). cbn [bind c_string]. rewrite (cells_text_ok from rf F). cbn [bind c_string].
  rewrite (cells_text_ok to rt T). cbn [bind].
  change NET_LOG_BUF with 256. rewrite sz_small by (unfold SIZE_MOD; lia).
  set (h2 := pad15 from ++ cstr " -> " ++ pad15 to ++ cstr " ").
  assert (T2 : text_ok h2).
  { pose proof (heading_ok letter from to L F T) as X. unfold heading_text in X. rewrite text_ok_app in X. destruct X as [_ X].
    rewrite text_ok_app in X. apply X. }
  destruct (print_step strict (cells h1 r1) h1 h2) as (buf & P2 & Q2).
  { exists r1. rewrite firstn_len_all by lia. split; [reflexivity|]. rewrite Q1. exact FB. }
  { lia. }
  rewrite P2. cbn [bind].
  assert (E : firstn (Z.to_nat 255) (h1 ++ h2) = firstn (Z.to_nat 255) (heading_text letter from to)).
  { assert (E0 : heading_text letter from to = (letter ++ cstr " ") ++ h2) by (unfold heading_text, h2; rewrite <- app_assoc; reflexivity).
    rewrite E0. unfold h1. destruct (Z_le_gt_dec (len (letter ++ cstr " ")) 255) as [C|C].
    - rewrite (firstn_len_all _ 255 (letter ++ cstr " ")) by exact C. reflexivity.
    - rewrite (firstn_app_short _ 255 (letter ++ cstr " ") h2) by lia.
      rewrite (firstn_app_short _ 255 (firstn _ _) h2) by (rewrite len_firstn; lia). rewrite firstn_firstn. f_equal. }
  assert (T3 : text_ok (h1 ++ h2)) by (apply text_ok_app; split; assumption).
  rewrite (holds_read buf _ T3 Q2). cbn [bind]. rewrite E. exists buf. split; [|reflexivity].
  destruct Q2 as (rest & Eb & Lb). exists rest. split; [|exact Lb]. rewrite firstn_firstn, Nat.min_id, <- E. exact Eb.
Qed.

Lemma log_empty : forall strict level now sev p f t, uecho_net_socket_log strict level now sev p f t [] = Ok [].
Proof. reflexivity. Qed.

Lemma log_fits : forall strict level now sev letter from to rl rf rt data, text_ok letter -> letter <> [] -> text_ok from -> text_ok to ->
  data <> [] -> bytes_ok data -> time_ok now -> Z.min 255 (len (heading_text letter from to)) + 2 * (len data - 1) <= 256 ->
  uecho_net_socket_log strict level now sev (Some (cells letter rl)) (Some (cells from rf)) (Some (cells to rt)) data
    = Ok (print level now (firstn (Z.to_nat 255) (heading_text letter from to) ++ hex_text data)).
Proof.
  intros strict level now sev letter from to rl rf rt data L Ln F T D B N H.
  destruct (log_start strict level now sev letter from to rl rf rt data L Ln F T D) as (buf & Hb & ->).
  set (h := firstn (Z.to_nat 255) (heading_text letter from to)) in *.
  assert (Lh : len h = Z.min 255 (len (heading_text letter from to))) by (unfold h; rewrite len_firstn; lia).
  assert (Th : text_ok h) by (apply text_ok_firstn, heading_ok; assumption). clearbody h.
  destruct (log_bytes_ok strict data buf h Hb B) as (buf' & P & Q); [intros _; lia|]. rewrite P. cbn [bind].
  apply output_print; [exact N| |exact Q]. apply text_ok_app. split; [exact Th|apply hex_text_ok; exact B].
Qed.
Lemma log_strict : forall level now sev letter from to rl rf rt data, text_ok letter -> letter <> [] -> text_ok from -> text_ok to ->
  data <> [] -> bytes_ok data -> time_ok now -> len data < 1000000000 ->
  uecho_net_socket_log true level now sev (Some (cells letter rl)) (Some (cells from rf)) (Some (cells to rt)) data
    = Ok (print level now (heading_text letter from to ++ hex_text data)).
Proof.
  intros level now sev letter from to rl rf rt data L Ln F T D B N H.
  destruct (log_start true level now sev letter from to rl rf rt data L Ln F T D) as (buf & Hb & ->).
  set (h := firstn (Z.to_nat 255) (heading_text letter from to)) in *.
  assert (Lh : len h <= 255) by (unfold h; rewrite len_firstn; lia).
  assert (Th : text_ok h) by (apply text_ok_firstn, heading_ok; assumption).
  destruct (log_bytes_strict_all data buf h Hb B ltac:(lia) H) as (buf' & P & Q). rewrite P. cbn [bind].
  assert (E : firstn (Z.to_nat 255) (h ++ hex_text data) = firstn (Z.to_nat 255) (heading_text letter from to ++ hex_text data)).
  { unfold h. destruct (Z_le_gt_dec (len (heading_text letter from to)) 255) as [C|C].
    - rewrite (firstn_len_all _ 255 (heading_text letter from to)) by exact C. reflexivity.
    - rewrite (firstn_app_short _ 255 (heading_text letter from to) (hex_text data)) by lia.
      rewrite (firstn_app_short _ 255 (firstn _ _) (hex_text data)) by (rewrite len_firstn; lia). rewrite firstn_firstn. f_equal. }
  rewrite (output_print true level now buf' (h ++ hex_text data) N); [|apply text_ok_app; split; [exact Th|apply hex_text_ok; exact B]|exact Q].
  unfold print. rewrite E. reflexivity.
Qed.
Lemma log_over : forall level now sev letter from to rl rf rt data, text_ok letter -> letter <> [] -> text_ok from -> text_ok to ->
  bytes_ok data -> len data < OBJECT_MAX - 1000 -> 256 < Z.min 255 (len (heading_text letter from to)) + 2 * (len data - 1) ->
  uecho_net_socket_log false level now sev (Some (cells letter rl)) (Some (cells from rf)) (Some (cells to rt)) data = Undef UB_write.
Proof.
  intros level now sev letter from to rl rf rt data L Ln F T B M H.
  assert (D : data <> []) by (intros ->; rewrite len_nil in H; lia).
  destruct (log_start false level now sev letter from to rl rf rt data L Ln F T D) as (buf & Hb & ->).
  set (h := firstn (Z.to_nat 255) (heading_text letter from to)) in *.
  assert (Lh : len h = Z.min 255 (len (heading_text letter from to))) by (unfold h; rewrite len_firstn; lia). clearbody h.
  rewrite (log_bytes_over data buf h Hb B); [reflexivity|lia| |lia]. unfold OBJECT_MAX, SIZE_MOD in *. lia.
Qed.
