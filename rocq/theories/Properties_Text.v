(* C77: copying texts, comparing parts of texts and without regard to case, printing numbers into a buffer. *)
From Coq Require Import ZArith List Bool Lia ZifyBool ZifyNat.
From Verif Require Import CSem P_Base M_String Spec_String P_String P_Text M_Text.
Import ListNotations.
Open Scope Z_scope.

Definition Hello : list Z := [72; 101; 108; 108; 111].
Definition hello : list Z := [104; 101; 108; 108; 111].
Lemma hello_ok : text_ok Hello /\ text_ok hello. Proof. split; unfold text_ok, char_ok, Hello, hello; repeat constructor. Qed.

Lemma with_nul_block : forall t r, text_ok t -> with_nul (Some (block t r)) = Ok (t ++ [0]).
Proof. intros t r T. unfold with_nul. rewrite (ctext_block _ _ T). reflexivity. Qed.
Lemma wr_range_over : forall A (a b w z : list A) p, p = len a -> len b = len w -> wr_range (a ++ b ++ z) p w = Ok (a ++ w ++ z).
Proof. intros A a b w z p -> L. apply wr_range_app; [reflexivity|symmetry; exact L]. Qed.
Lemma wr_range_past : forall A (b w : list A) p, 0 <= p -> len b < p + len w -> w <> [] -> wr_range b p w = Undef UB_write.
Proof.
  intros A b w p P L N. unfold wr_range. destruct (Z.eqb_spec (len w) 0) as [e|_].
  - destruct w; [congruence|]. unfold len in e. cbn [length] in e. lia.
  - replace ((0 <=? p) && (p + len w <=? len b)) with false by lia. reflexivity.
Qed.
Lemma split_len : forall A (l : list A) n, 0 <= n <= len l -> exists x y, l = x ++ y /\ len x = n.
Proof.
  intros A l n N. exists (firstn (Z.to_nat n) l), (skipn (Z.to_nat n) l). rewrite firstn_skipn. split; [reflexivity|].
  unfold len in *. rewrite firstn_length. lia.
Qed.

(* ---- copying ---- *)

(* the destination then begins with the text and its NUL, and nothing behind them changes; when there is no room for them, something
   is written past the destination *)
Theorem C77_strcpy : forall x z t r, text_ok t ->
  (len x = len t + 1 -> uecho_strcpy (Some (x ++ z)) (Some (block t r)) = Ok (block t z))
  /\ (len x < len t + 1 -> uecho_strcpy (Some x) (Some (block t r)) = Undef UB_write).
Proof.
  intros x z t r T. unfold uecho_strcpy. rewrite (with_nul_block t r T). cbn [bind]. split; intros L.
  - rewrite (wr_range_over _ [] x (t ++ [0]) z) by (try reflexivity; rewrite len_app; exact L). unfold block. cbn [app].
    rewrite <- app_assoc. reflexivity.
  - apply wr_range_past; [lia| |destruct t; discriminate]. rewrite len_app. change (len [0]) with 1. lia.
Qed.
Print Assumptions C77_strcpy.
Example C77_strcpy_example : text_ok hello /\ len (repeat 7 6) = len hello + 1
  /\ uecho_strcpy (Some (repeat 7 6 ++ [7; 7])) (Some (block hello [9])) = Ok (block hello [7; 7])
  /\ uecho_strcpy (Some (repeat 7 5)) (Some (block hello [9])) = Undef UB_write.
Proof. split; [apply hello_ok|]. repeat split. Qed.

Theorem C77_strcat : forall u x z t r, text_ok u -> text_ok t ->
  (len x = len t -> uecho_strcat (Some (block u (x ++ z))) (Some (block t r)) = Ok (block (u ++ t) z))
  /\ (len x < len t -> uecho_strcat (Some (block u x)) (Some (block t r)) = Undef UB_write).
Proof.
  intros u x z t r U T. unfold uecho_strcat. rewrite (with_nul_block t r T). cbn [bind]. split; intros L.
  - rewrite (ctext_block _ _ U). cbn [rmap bind]. unfold block. replace (u ++ 0 :: x ++ z) with (u ++ (0 :: x) ++ z) by reflexivity.
    rewrite wr_range_over; [|reflexivity|rewrite len_app, len_cons; change (len [0]) with 1; lia].
    rewrite <- !app_assoc. reflexivity.
  - rewrite (ctext_block _ _ U). cbn [rmap bind]. apply wr_range_past; [apply len_nonneg| |destruct t; discriminate].
    unfold block. rewrite !len_app, len_cons. change (len [0]) with 1. lia.
Qed.
Print Assumptions C77_strcat.
Example C77_strcat_example : text_ok hello /\ text_ok Hello /\ len [1; 2; 3; 4; 5] = len Hello
  /\ uecho_strcat (Some (block hello ([1; 2; 3; 4; 5] ++ [6]))) (Some (block Hello [])) = Ok (block (hello ++ Hello) [6]).
Proof. split; [apply hello_ok|]. split; [apply hello_ok|]. split; vm_compute; reflexivity. Qed.

(* NULL is not accepted *)
Theorem C77_copy_null : forall d s cnt,
  uecho_strcpy d None = Undef UB_null /\ uecho_strcat d None = Undef UB_null
  /\ uecho_strncpy None s cnt = Undef UB_null /\ uecho_strncpy d None cnt = Undef UB_null.
Proof. intros [d|] [s|] cnt; repeat split. Qed.
Print Assumptions C77_copy_null.

(* exactly [cnt] bytes are written: the text or its beginning, then NULs; what is beyond stays, and too large a count writes past the
   destination *)
Theorem C77_strncpy : forall x z t r cnt, text_ok t -> 0 <= cnt ->
  (len x = cnt -> uecho_strncpy (Some (x ++ z)) (Some (block t r)) cnt
     = Ok (firstn (Z.to_nat cnt) t ++ repeat 0 (Z.to_nat (cnt - len t)) ++ z))
  /\ (len x < cnt -> uecho_strncpy (Some x) (Some (block t r)) cnt = Undef UB_write).
Proof.
  intros x z t r cnt T C. unfold uecho_strncpy, block. rewrite (strncpy_text (Z.to_nat cnt) t r T). cbn [bind].
  replace (Z.to_nat cnt - length t)%nat with (Z.to_nat (cnt - len t)) by (unfold len; lia).
  assert (W : len (firstn (Z.to_nat cnt) t ++ repeat 0 (Z.to_nat (cnt - len t))) = cnt).
  { unfold len. rewrite app_length, firstn_length, repeat_length. lia. }
  split; intros L.
  - rewrite (wr_range_over _ [] x (firstn (Z.to_nat cnt) t ++ repeat 0 (Z.to_nat (cnt - len t))) z) by (try reflexivity; lia).
    cbn [app]. rewrite <- app_assoc. reflexivity.
  - apply wr_range_past; [lia|lia|]. intros E. rewrite E in W. unfold len in W. cbn [length] in W. pose proof (len_nonneg _ x). lia.
Qed.
Print Assumptions C77_strncpy.
(* so with a count above the length of the text the result is that text *)
Theorem C77_strncpy_partial : forall x z t r cnt, text_ok t -> len t < cnt -> len x = cnt ->
  exists b, uecho_strncpy (Some (x ++ z)) (Some (block t r)) cnt = Ok b /\ ctext b = Ok t.
Proof.
  intros x z t r cnt T C L. pose proof (len_nonneg _ t). destruct (C77_strncpy x z t r cnt T ltac:(lia)) as [E _]. rewrite (E L).
  eexists. split; [reflexivity|]. rewrite firstn_all2 by (unfold len in *; lia).
  replace (Z.to_nat (cnt - len t)) with (S (Z.to_nat (cnt - len t - 1))) by lia. cbn [repeat app]. apply ctext_block. exact T.
Qed.
Print Assumptions C77_strncpy_partial.
Example C77_strncpy_example : text_ok hello /\ uecho_strncpy (Some (repeat 7 7 ++ [8])) (Some (block hello [])) 7 = Ok (hello ++ [0; 0] ++ [8])
  /\ uecho_strncpy (Some (repeat 7 3 ++ [8])) (Some (block hello [])) 3 = Ok (firstn 3 hello ++ [8]).
Proof. split; [apply hello_ok|]. split; reflexivity. Qed.
(* and otherwise there is no NUL: whoever reads the result reads on behind it *)
Theorem C77_strncpy_refuted : exists b, uecho_strncpy (Some (repeat 7 5)) (Some (block hello [])) 5 = Ok b /\ ctext b = Undef UB_read.
Proof. eexists. split; vm_compute; reflexivity. Qed.
Print Assumptions C77_strncpy_refuted.

(* ---- comparing ---- *)

Lemma strncmp_cut : forall n a b ra rb, text_ok a -> text_ok b ->
  c_strncmp (block a ra) (block b rb) n = c_strcmp (block (firstn n a) []) (block (firstn n b) []).
Proof.
  induction n as [|n IH]; intros a b ra rb A B; [cbn [firstn c_strncmp]; unfold block; cbn [app c_strcmp]; reflexivity|].
  unfold block in *. inversion A as [|x a' X A']; inversion B as [|y b' Y B'];
    unfold char_ok in *; subst; cbn [app firstn c_strncmp c_strcmp].
  - reflexivity.
  - replace (0 <? y) with true by lia. reflexivity.
  - replace (x <? 0) with false by lia. replace (0 <? x) with true by lia. reflexivity.
  - replace (x =? 0) with false by lia. rewrite (IH a' b' ra rb A' B'). reflexivity.
Qed.
Lemma text_firstn : forall n t, text_ok t -> text_ok (firstn n t).
Proof. induction n as [|n IH]; intros t T; [constructor|]. destruct T; cbn [firstn]; constructor; [assumption|apply IH; assumption]. Qed.

(* the dictionary order of the first [n] characters *)
Theorem C77_strncmp : forall a b ra rb n, text_ok a -> text_ok b -> 0 <= n ->
  exists z, uecho_strncmp (Some (block a ra)) (Some (block b rb)) n = Ok z
    /\ (z = 0 <-> firstn (Z.to_nat n) a = firstn (Z.to_nat n) b)
    /\ (z < 0 <-> before (firstn (Z.to_nat n) a) (firstn (Z.to_nat n) b))
    /\ (0 < z <-> before (firstn (Z.to_nat n) b) (firstn (Z.to_nat n) a)).
Proof.
  intros a b ra rb n A B N. cbn [uecho_strncmp]. rewrite (strncmp_cut _ a b ra rb A B).
  destruct (strcmp_spec (firstn (Z.to_nat n) a) (firstn (Z.to_nat n) b) [] [] (text_firstn _ _ A) (text_firstn _ _ B)) as (z & E & R & Z1 & Z2 & Z3).
  exists z. split; [exact E|]. split; [exact Z1|]. split; [rewrite <- Z2; lia|rewrite <- Z3; lia].
Qed.
Print Assumptions C77_strncmp.
Example C77_strncmp_example : text_ok hello /\ uecho_strncmp (Some (block hello [1])) (Some (block [104; 101; 120] [])) 2 = Ok 0
  /\ uecho_strncmp (Some (block hello [1])) (Some (block [104; 101; 120] [])) 3 = Ok (-1).
Proof. split; [apply hello_ok|]. split; reflexivity. Qed.

(* small letters for capital ones; every other character stays *)
Definition small (t : list Z) : list Z := map (fun c => if (65 <=? c) && (c <=? 90) then c + 32 else c) t.
Lemma small_ok : forall t, text_ok t -> text_ok (small t).
Proof.
  intros t T. unfold small, text_ok. apply Forall_map. eapply Forall_impl; [|exact T]. intros c C. unfold char_ok in *.
  destruct ((65 <=? c) && (c <=? 90)) eqn:E; lia.
Qed.
Lemma casecmp_small : forall a b ra rb, text_ok a -> text_ok b ->
  c_strcasecmp (block a ra) (block b rb) = c_strcmp (block (small a) []) (block (small b) []).
Proof.
  induction a as [|x a IH]; intros b ra rb A B; unfold block in *.
  - destruct B as [|y b Y B]; cbn [app small map c_strcasecmp c_strcmp]; [reflexivity|]. change (c_tolower 0) with 0. fold (c_tolower y).
    assert (0 < c_tolower y) by (unfold c_tolower, char_ok in *; destruct ((65 <=? y) && (y <=? 90)) eqn:E; lia).
    replace (0 <? c_tolower y) with true by lia. reflexivity.
  - inversion A as [|? ? X A']; subst. assert (P : 0 < c_tolower x) by (unfold c_tolower, char_ok in *; destruct ((65 <=? x) && (x <=? 90)) eqn:E; lia).
    destruct B as [|y b Y B]; cbn [app small map c_strcasecmp c_strcmp]; change (if (65 <=? x) && (x <=? 90) then x + 32 else x) with (c_tolower x).
    + change (c_tolower 0) with 0. replace (c_tolower x <? 0) with false by lia. replace (0 <? c_tolower x) with true by lia. reflexivity.
    + change (if (65 <=? y) && (y <=? 90) then y + 32 else y) with (c_tolower y). unfold char_ok in X.
      replace (x =? 0) with false by lia. replace (c_tolower x =? 0) with false by lia. rewrite (IH b ra rb A' B). reflexivity.
Qed.

(* the dictionary order, and equality, of the texts with small letters for capital ones *)
Theorem C77_strcasecmp : forall a b ra rb, text_ok a -> text_ok b ->
  exists z, uecho_strcasecmp (Some (block a ra)) (Some (block b rb)) = Ok z
    /\ (z = 0 <-> small a = small b) /\ (z < 0 <-> before (small a) (small b)) /\ (0 < z <-> before (small b) (small a))
    /\ uecho_strcaseeq (Some (block a ra)) (Some (block b rb)) = Ok (z =? 0).
Proof.
  intros a b ra rb A B. unfold uecho_strcaseeq. cbn [uecho_strcasecmp]. rewrite (casecmp_small a b ra rb A B).
  destruct (strcmp_spec (small a) (small b) [] [] (small_ok _ A) (small_ok _ B)) as (z & E & R & Z1 & Z2 & Z3).
  rewrite E. exists z. split; [reflexivity|]. split; [exact Z1|]. split; [rewrite <- Z2; lia|]. split; [rewrite <- Z3; lia|]. reflexivity.
Qed.
Print Assumptions C77_strcasecmp.
Example C77_strcasecmp_example : text_ok hello /\ text_ok Hello /\ small Hello = hello
  /\ uecho_strcaseeq (Some (block Hello [])) (Some (block hello [1])) = Ok true /\ uecho_strcasecmp (Some (block [91] [])) (Some (block [65] [])) = Ok (-1).
Proof. split; [apply hello_ok|]. split; [apply hello_ok|]. repeat split. Qed.

(* NULL: never equal *)
Theorem C77_compare_null : forall p n,
  uecho_strncmp None p n = Ok (-1) /\ (forall b, uecho_strncmp (Some b) None n = Ok 1)
  /\ uecho_strcasecmp None p = Ok (-1) /\ uecho_strcaseeq None p = Ok false /\ uecho_strcaseeq p None = Ok false.
Proof. intros [b|] n; repeat split. Qed.
Print Assumptions C77_compare_null.
(* a comparison should change its sign when its arguments are exchanged: NULL is before "a" and "a" is before NULL *)
Theorem C77_compare_null_refuted : uecho_strcasecmp None (Some (block [97] [])) = Ok (-1) /\ uecho_strcasecmp (Some (block [97] [])) None = Ok (-1).
Proof. split; reflexivity. Qed.
Print Assumptions C77_compare_null_refuted.

(* ---- numbers ---- *)

(* a number of less than [j] digits in a buffer that has room for them, a sign and a NUL: it reads back *)
Theorem C77_number2str : forall v j x z n, 1 <= j <= 20 -> - 10 ^ j < v < 10 ^ j ->
  len x = (if v <? 0 then 1 else 0) + len (printed (Z.abs v)) + 1 ->
  exists b t, number2str v (x ++ z) n = Ok b /\ b = cells t z /\ text_ok t /\ c_atoi t = v /\ len t + 1 = len x /\ len t <= j + 1.
Proof.
  intros v j x z n J R L. destruct (printed_spec v j J R) as (T & Lp & A). exists (cells (printed v) z), (printed v).
  assert (Lv : len (printed v) + 1 = len x).
  { rewrite L. unfold printed at 2. replace (Z.abs v <? 0) with false by lia. unfold printed. destruct (Z.ltb_spec v 0) as [D|D].
    - rewrite len_cons. replace (Z.abs v) with (- v) by lia. lia.
    - replace (Z.abs v) with v by lia. lia. }
  split; [|split; [reflexivity|split; [exact T|split; [exact A|split; [exact Lv|destruct (v <? 0); lia]]]]].
  unfold number2str, int2str. rewrite (wr_range_over _ [] x (map Some (printed v ++ [0])) z); [|reflexivity|rewrite len_map, len_app; change (len [0]) with 1; lia].
  cbn [app]. rewrite map_app. unfold cells. rewrite <- app_assoc. reflexivity.
Qed.
Print Assumptions C77_number2str.
Example C77_number2str_example : - 10 ^ 5 < -1234 < 10 ^ 5 /\ len (fresh_buf 6) = (if -1234 <? 0 then 1 else 0) + len (printed (Z.abs (-1234))) + 1
  /\ number2str (-1234) (fresh_buf 6 ++ [None]) 7 = Ok (cells [45; 49; 50; 51; 52] [None]).
Proof. split; [vm_compute; split; reflexivity|]. split; vm_compute; reflexivity. Qed.

(* the size of the buffer is given, but not respected: 12345 in a buffer of 4 bytes *)
Theorem C77_size_ignored_refuted : number2str 12345 (fresh_buf 4) 4 = Undef UB_write /\ uecho_sizet2str 12345 (fresh_buf 4) 4 = Undef UB_write.
Proof. split; vm_compute; reflexivity. Qed.
Print Assumptions C77_size_ignored_refuted.
