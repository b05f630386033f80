(* C46, C56, C57: the string object, trimming, the tokenizer; comparing, searching and printing; replacing. *)
From Coq Require Import ZArith List Bool Lia ZifyBool ZifyNat.
From Verif Require Import CSem P_Base M_String Spec_String P_String P_Text.
Import ListNotations.
Open Scope Z_scope.
Ltac Zify.zify_post_hook ::= Z.div_mod_to_equations.

(* ---- C46: the string object ---- *)

(* The full property would also allow an allocation to fail and arguments that point into the string's own
   value; C46_nomem_refuted and C46_own_refuted show that it does not hold then.  After every history of calls
   on a new string with arguments of the caller: nothing undefined happens, the value is the one the calls
   describe, with a NUL after it, inside the memory the string owns. *)
Theorem C46_value_partial : forall mem ops, plenty mem -> tops_ok None ops ->
  exists s, trun mem uecho_string_new ops = Ok s /\
  match fold_left vstep ops None with
  | None => uecho_string_getvalue s = None /\ uecho_string_length s = 0
  | Some t => exists slack, uecho_string_getvalue s = Some (cells t slack) /\ uecho_string_length s = len t
      /\ uecho_string_getmemorysize s = len t + 1 + len slack
  end.
Proof.
  intros mem ops P O. destruct (trun_spec mem ops uecho_string_new None P eq_refl O) as (s & E & S). exists s. split; [exact E|].
  destruct (fold_left vstep ops None) as [t|]; cbn [stands] in S.
  - destruct S as (sl & V & Z1 & M). exists sl. unfold uecho_string_getvalue, uecho_string_length, uecho_string_getmemorysize.
    rewrite V, M, len_cells. split; [reflexivity|]. split; [exact Z1|reflexivity].
  - subst s. split; reflexivity.
Qed.
Print Assumptions C46_value_partial.

Definition yes (n : Z) : bool := true.
Definition abc : list Z := [97; 98; 99].
Example C46_value_example : plenty yes /\ tops_ok None [TSet abc []; TAdd [100] [None]; TRepN [0] [] 2; TClear; TAddN abc []]
  /\ fold_left vstep [TSet abc []; TAdd [100] [None]; TRepN [0] [] 2] None = Some [97; 98; 99; 100; 0; 0].
Proof.
  split; [intros n _; reflexivity|]. split; [|reflexivity].
  assert (A : text_ok abc) by (unfold abc, text_ok, char_ok; repeat constructor).
  assert (B : text_ok [100]) by (unfold text_ok, char_ok; repeat constructor).
  cbn [tops_ok]. unfold top_ok. cbn [vstep]. unfold INT_MAX.
  repeat match goal with |- _ /\ _ => split end; try exact A; try exact B; try exact Logic.I; try (vm_compute; intro X; discriminate X).
Qed.

(* setting a string to its own value, as in uecho_message_setsourceaddress(msg, uecho_message_getsourceaddress(msg)):
   the value is released before it is read *)
Theorem C46_own_refuted : forall mem s t, stands s (Some t) -> text_ok t -> mem (sz (len t + 1)) = true ->
  uecho_string_setvalue mem s (POwn 0) = Undef UB_free.
Proof.
  intros mem s t (sl & V & Z1 & M) T A. unfold uecho_string_setvalue, src_len. rewrite V. cbn [Z.to_nat skipn].
  rewrite (cells_text_ok _ _ T). cbn [rmap bind]. unfold uecho_string_setnvalue. rewrite A. reflexivity.
Qed.
Print Assumptions C46_own_refuted.
Example C46_own_example : exists s, trun yes uecho_string_new [TSet abc []] = Ok s /\ uecho_string_setvalue yes s (POwn 0) = Undef UB_free.
Proof. eexists. split; [vm_compute; reflexivity|vm_compute; reflexivity]. Qed.

(* appending a string to itself is defined or not depending on the memory it happens to own *)
Theorem C46_own_append_refuted : exists ops ops', fold_left vstep ops None = fold_left vstep ops' None
  /\ tops_ok None ops /\ tops_ok None ops'
  /\ (exists s, trun yes uecho_string_new ops = Ok s /\ uecho_string_addvalue yes s (POwn 0) = Undef UB_free)
  /\ (exists s s', trun yes uecho_string_new ops' = Ok s /\ uecho_string_addvalue yes s (POwn 0) = Ok (s', true)
      /\ stands s' (Some [97; 98; 99; 97; 98; 99])).
Proof.
  exists [TSet abc []], [TAdd abc []]. split; [reflexivity|].
  assert (A : text_ok abc) by (unfold abc, text_ok, char_ok; repeat constructor).
  split; [split; [split; [exact A|vm_compute; congruence]|exact Logic.I]|]. split; [split; [split; [exact A|vm_compute; congruence]|exact Logic.I]|].
  split; [eexists; split; [vm_compute; reflexivity|vm_compute; reflexivity]|].
  eexists. eexists. split; [vm_compute; reflexivity|]. split; [vm_compute; reflexivity|].
  exists (repeat None 13). split; [reflexivity|]. split; reflexivity.
Qed.
Print Assumptions C46_own_append_refuted.

(* after a failed allocation the length is kept without a value: the next append leaves bytes in front of it
   unwritten, and the value cannot be read *)
Theorem C46_nomem_refuted : exists mem s s', uecho_string_setvalue mem uecho_string_new (PExt (cells abc [])) = Ok s
  /\ uecho_string_getvalue s = None /\ uecho_string_length s = 0
  /\ uecho_string_addvalue yes s (PExt (cells [100] [])) = Ok (s', true)
  /\ uecho_string_length s' = 4
  /\ match uecho_string_getvalue s' with Some b => cells_text b = Undef UB_uninit | None => False end.
Proof.
  exists (fun _ => false). eexists. eexists. split; [vm_compute; reflexivity|]. split; [reflexivity|]. split; [reflexivity|].
  split; [vm_compute; reflexivity|]. split; [reflexivity|]. vm_compute. reflexivity.
Qed.
Print Assumptions C46_nomem_refuted.

(* appending with an allocator that may fail at any time: the text is appended, or NULL is returned and the
   string is as it was *)
Theorem C46_append_nomem : forall mem s v t r, stands s v -> text_ok t -> vlen v + len t + 17 <= OBJECT_MAX ->
  exists s' ok, uecho_string_addvalue mem s (PExt (cells t r)) = Ok (s', ok)
  /\ (stands s' (appended v t) \/ (ok = false /\ s' = s)).
Proof.
  intros mem s v t r S T L.
  assert (K : forall n, uecho_string_naddvalue mem s (PExt (cells t r)) n = uecho_string_naddvalue yes s (PExt (cells t r)) n
    \/ uecho_string_naddvalue mem s (PExt (cells t r)) n = Ok (s, false)).
  { intros n. unfold uecho_string_naddvalue, yes. destruct (n =? 0); [left; reflexivity|]. destruct (_ || _); [|left; reflexivity].
    destruct (mem _); [left; reflexivity|right; reflexivity]. }
  destruct (nadd_spec yes s v t (Some 0 :: r) (fun n _ => eq_refl) S) as (s1 & E & S1); [rewrite vlen_appended; exact L|].
  rewrite add_is_nadd by exact T. change (map Some t ++ Some 0 :: r) with (cells t r) in *. destruct (K (len t)) as [->| ->].
  - destruct (uecho_string_naddvalue yes s _ (len t)) as [[s2 ok]|u]; [|discriminate E].
    injection E as ->. exists s1, ok. split; [reflexivity|]. left. exact S1.
  - exists s, false. split; [reflexivity|]. right. split; reflexivity.
Qed.
Print Assumptions C46_append_nomem.
Example C46_append_nomem_example : exists s, uecho_string_setvalue yes uecho_string_new (PExt (cells abc [])) = Ok s
  /\ stands s (Some abc) /\ uecho_string_addvalue (fun _ => false) s (PExt (cells [100] [])) = Ok (s, false).
Proof.
  eexists. split; [vm_compute; reflexivity|]. split; [|vm_compute; reflexivity]. exists []. split; [reflexivity|]. split; reflexivity.
Qed.

(* ---- C46: trimming ---- *)

(* uecho_strtrim cuts off exactly the leading and trailing characters that are among the delimiters: the pointer
   returned is where the trimmed text begins, a NUL follows it, and nothing outside the block is written *)
Theorem C46_trim : forall dl dr t rest, text_ok t ->
  exists blk i w rest', uecho_strtrim (Some (block t rest)) (Some (dl ++ dr)) (len dl) = Ok (Some (blk, i))
    /\ trimmed (fun c => In c dl) t w /\ skipn (Z.to_nat i) blk = block w rest' /\ len blk = len (block t rest).
Proof.
  intros dl dr t rest T. destruct (trim_spec dl dr t rest T) as (a & b & w & E & Tr & r' & R & L).
  exists (a ++ block w r'), (len a), w, r'. split; [exact R|]. split; [exact Tr|]. split; [|exact L].
  rewrite to_nat_len, skipn_app, skipn_all, Nat.sub_diag. reflexivity.
Qed.
Print Assumptions C46_trim.
Example C46_trim_example : text_ok [32; 97; 32; 98; 32]
  /\ uecho_strtrim (Some (block [32; 97; 32; 98; 32] [])) (Some [32; 0]) 1 = Ok (Some ([32; 97; 32; 98; 0; 0], 1)).
Proof. split; [unfold text_ok, char_ok; repeat constructor|reflexivity]. Qed.

(* The full property of uecho_strtrimwhite: for every ASCII text the result is the text without its leading and
   trailing blanks.  It holds for a text whose only blanks are at its end. *)
Theorem C46_trimwhite_partial : forall w b rest, Forall (fun c => 0 < c < 128 /\ ~ blank c) w -> Forall blank b -> len (w ++ b) < SIZE_MOD ->
  trimmed blank (w ++ b) w
  /\ exists rest', uecho_strtrimwhite (Some (block (w ++ b) rest)) = Ok (Some (block w rest')).
Proof.
  intros w b rest W B L. split; [|exact (trimwhite_tail w b rest W B L)].
  exists [], b. split; [reflexivity|]. split; [constructor|]. split; [exact B|]. rewrite Forall_forall in W.
  split; intros c x ->; apply (W c); [left; reflexivity|apply in_or_app; right; left; reflexivity].
Qed.
Print Assumptions C46_trimwhite_partial.
Example C46_trimwhite_example : Forall (fun c => 0 < c < 128 /\ ~ blank c) abc /\ Forall blank [32; 10] /\ len (abc ++ [32; 10]) < SIZE_MOD.
Proof. unfold abc, blank. split; [repeat constructor; lia|]. split; [repeat constructor; lia|reflexivity]. Qed.
(* a leading or an inner blank: " a" becomes " ", "a b" becomes "a ", "a b c" becomes "a b" *)
Theorem C46_trimwhite_refuted : forall t got, In (t, got) [([32; 97], [32]); ([97; 32; 98], [97; 32]); ([97; 32; 98; 32; 99], [97; 32; 98])] ->
  (exists blk, uecho_strtrimwhite (Some (block t [])) = Ok (Some blk) /\ ctext blk = Ok got) /\ ~ trimmed blank t got.
Proof.
  assert (NB : ~ blank 97 /\ ~ blank 98 /\ ~ blank 99) by (unfold blank; repeat split; lia).
  intros t got [I|[I|[I|[]]]]; injection I as <- <-; (split; [eexists; split; [vm_compute; reflexivity|vm_compute; reflexivity]|]);
    intros (a & b & E & _ & F & H1 & _).
  - apply (H1 32 []); [reflexivity|unfold blank; lia].
  - destruct a as [|x a]; [|exfalso; destruct a as [|y [|z [|u [|v a]]]]; cbn in E; try discriminate; injection E; intros; destruct a; discriminate]. cbn in E. injection E as <-. inversion F; subst. tauto.
  - destruct a as [|x a]; [|exfalso; destruct a as [|y [|z [|u [|v a]]]]; cbn in E; try discriminate; injection E; intros; destruct a; discriminate]. cbn in E. injection E as <-. inversion F as [|? ? _ G]; subst. inversion G; subst. tauto.
Qed.
Print Assumptions C46_trimwhite_refuted.

(* ---- C46: the tokenizer ---- *)

(* For every text that is not empty, the tokenizer returns exactly its non-empty fields between delimiters, in
   order; each token can be read when it is returned and still when all have been returned. *)
Theorem C46_tokens_partial : forall ds dr t tr fs, text_ok ds -> text_ok t -> t <> [] -> len t < SIZE_MOD ->
  fields (fun c => In c ds) 0 t fs ->
  exists T e, uecho_string_tokenizer_new (block t tr) (block ds dr) = Ok T /\ asks T fs e
    /\ uecho_string_tokenizer_hasmoretoken e = false /\ Forall (fun p => text_at e (fst p) = Ok (snd p)) fs.
Proof.
  intros ds dr t tr fs Td Tt N L F. assert (N0 := no_nul _ Td).
  destruct (new_tinv ds t tr dr Tt Td N L) as (T0 & I & _ & E).
  destruct (next_spec ds t T0 [] t fs N0 N L I F) as (T & En & R). rewrite En in E. cbn in E. exists T.
  destruct fs as [|[o w] fs].
  - exists T. split; [exact E|]. split; [constructor|]. split; [apply R|constructor].
  - destruct R as (pre & t' & I' & F' & P & _ & C & _). destruct (run_spec ds t N0 N L Tt fs T pre t' o w I' F' P C) as (e & A & M & K & _).
    exists e. split; [exact E|]. split; [exact A|]. split; [exact M|]. rewrite Forall_forall. intros [o' w'] J. cbn [fst snd].
    apply text_token; [exact (K _ _ J)|].
    (* each field is part of the text *)
    assert (X : forall i t fs, fields (fun c => In c ds) i t fs -> text_ok t -> forall o w, In (o, w) fs -> text_ok w).
    { clear. intros i t fs H. induction H as [|i c t fs _ _ IH|i w _ _|i w c t fs _ _ _ _ IH]; intros T o' w' J.
      - destruct J.
      - inversion T; subst. eapply IH; [assumption|exact J].
      - destruct J as [J|[]]. injection J as _ <-. exact T.
      - apply text_app in T. destruct T as [T1 T2]. destruct J as [J|J]; [injection J as _ <-; exact T1|]. inversion T2; subst. eapply IH; [assumption|exact J]. }
    exact (X _ _ _ F Tt _ _ J).
Qed.
Print Assumptions C46_tokens_partial.
(* every text has such fields *)
Theorem C46_fields_exist : forall ds t, exists fs, fields (fun c => In c ds) 0 t fs.
Proof. intros. apply fields_total. Qed.
Print Assumptions C46_fields_exist.
Example C46_tokens_example : text_ok [44] /\ text_ok [44; 97; 98; 44; 44; 99] /\ fields (fun c => In c [44]) 0 [44; 97; 98; 44; 44; 99] [(1, [97; 98]); (5, [99])].
Proof.
  split; [unfold text_ok, char_ok; repeat constructor|]. split; [unfold text_ok, char_ok; repeat constructor|].
  apply f_delim; [left; reflexivity|]. apply (f_field _ 1 [97; 98] 44 [44; 99]).
  - discriminate.
  - repeat constructor; intros [X|[]]; discriminate.
  - left; reflexivity.
  - apply f_delim; [left; reflexivity|]. apply f_last; [discriminate|]. repeat constructor; intros [X|[]]; discriminate.
Qed.

(* the rest of the text from the next token on, after any number of tokens *)
Theorem C46_nextall : forall ds dr t tr fs1 o w fs2 T T1, text_ok ds -> text_ok t -> t <> [] -> len t < SIZE_MOD ->
  fields (fun c => In c ds) 0 t (fs1 ++ (o, w) :: fs2) ->
  uecho_string_tokenizer_new (block t tr) (block ds dr) = Ok T -> asks T fs1 T1 ->
  exists T2, uecho_string_tokenizer_nextalltoken T1 = Ok (T2, Some o) /\ text_at T2 o = Ok (skipn (Z.to_nat o) t)
    /\ uecho_string_tokenizer_hasmoretoken T2 = false.
Proof.
  intros ds dr t tr fs1 o w fs2 T T1 Td Tt N L F E A. assert (N0 := no_nul _ Td).
  destruct (new_tinv ds t tr dr Tt Td N L) as (T0 & I & _ & E0). rewrite E in E0.
  remember (fs1 ++ (o, w) :: fs2) as fs eqn:Ef.
  destruct (next_spec ds t T0 [] t fs N0 N L I F) as (T' & En & R). rewrite En in E0. cbn in E0. injection E0 as <-.
  destruct fs as [|[o1 w1] fs]; [destruct fs1; discriminate|].
  destruct R as (pre & t' & I' & F' & P & _).
  exact (nextall_spec t Tt T1 o w (asks_pend ds t N0 N L fs1 fs T pre t' o1 w1 o w fs2 T1 I' F' P A Ef)).
Qed.
Print Assumptions C46_nextall.
Example C46_nextall_example : exists T T1 T2, uecho_string_tokenizer_new (block [97; 44; 98; 44; 99] []) (block [44] []) = Ok T
  /\ asks T [(0, [97])] T1 /\ uecho_string_tokenizer_nextalltoken T1 = Ok (T2, Some 2) /\ text_at T2 2 = Ok [98; 44; 99].
Proof.
  eexists. eexists. eexists. split; [vm_compute; reflexivity|].
  split; [eapply k_step; [reflexivity|vm_compute; reflexivity|vm_compute; reflexivity|constructor]|]. split; [vm_compute; reflexivity|vm_compute; reflexivity].
Qed.

(* an empty text: the last position wraps around and the tokenizer reads beyond the text *)
Theorem C46_empty_refuted : forall ds dr, text_ok ds -> ds <> [] ->
  exists u, uecho_string_tokenizer_new (block [] []) (block ds dr) = Undef u.
Proof.
  intros ds dr T N. unfold uecho_string_tokenizer_new. rewrite (ctext_block [] []) by constructor. rewrite (ctext_block _ _ T). cbn [bind].
  change (sz (len [] - 1)) with (SIZE_MOD - 1). unfold uecho_string_tokenizer_nexttoken, rounds. cbn [k_last k_delim k_value k_start app length].
  rewrite Z.eqb_refl. destruct ds as [|d ds]; [congruence|]. cbn [bind]. cbn [token_loop].
  assert (N0 := no_nul _ T). change [0] with ([] ++ 0 :: []). change 0 with (len (@nil Z)) at 2. rewrite delim_no by exact N0. cbn [bind app].
  exists UB_read. cbn [delim_loop]. reflexivity.
Qed.
Print Assumptions C46_empty_refuted.
Example C46_empty_example : text_ok [44] /\ [44] <> [].
Proof. split; [unfold text_ok, char_ok; repeat constructor|discriminate]. Qed.

(* asking for the rest when there is no token: a NULL pointer is used *)
Theorem C46_no_token_refuted : exists T, uecho_string_tokenizer_new (block [44] []) (block [44] []) = Ok T
  /\ uecho_string_tokenizer_hasmoretoken T = false /\ uecho_string_tokenizer_nextalltoken T = Undef UB_null.
Proof. eexists. split; [vm_compute; reflexivity|]. split; reflexivity. Qed.
Print Assumptions C46_no_token_refuted.

(* ---- C56: comparing, searching and printing ---- *)

Theorem C56_compare : forall a b ra rb, text_ok a -> text_ok b ->
  exists z, uecho_strcmp (Some (block a ra)) (Some (block b rb)) = Ok z
    /\ (z = 0 <-> a = b) /\ (z < 0 <-> before a b) /\ (0 < z <-> before b a)
    /\ uecho_streq (Some (block a ra)) (Some (block b rb)) = Ok (z =? 0).
Proof.
  intros a b ra rb A B. destruct (strcmp_spec a b ra rb A B) as (z & E & R & Z1 & Z2 & Z3). exists z.
  split; [exact E|]. split; [exact Z1|]. split; [rewrite <- Z2; lia|]. split; [rewrite <- Z3; lia|].
  unfold uecho_streq. cbn [uecho_strcmp]. rewrite E. reflexivity.
Qed.
Print Assumptions C56_compare.
Example C56_compare_example : text_ok abc /\ text_ok [97; 98; 200] /\ before abc [97; 98; 200]
  /\ uecho_strcmp (Some (block abc [])) (Some (block [97; 98; 200] [1])) = Ok (-1).
Proof.
  split; [unfold abc, text_ok, char_ok; repeat constructor|]. split; [unfold text_ok, char_ok; repeat constructor|]. split; [|reflexivity].
  exists [97; 98]. right. exists 99, 200, [], []. split; [reflexivity|]. split; [reflexivity|lia].
Qed.

(* NULL compares below everything, itself included, and equals nothing *)
Theorem C56_compare_null : forall p, uecho_strcmp None p = Ok (-1) /\ (forall b, uecho_strcmp (Some b) None = Ok 1)
  /\ uecho_streq None p = Ok false /\ uecho_streq p None = Ok false.
Proof. intros [b|]; repeat split. Qed.
Print Assumptions C56_compare_null.

(* the position of the first occurrence, or -1 if there is none *)
Theorem C56_strstr : forall a b ra rb, text_ok a -> text_ok b ->
  exists i, uecho_strstr (Some (block a ra)) (Some (block b rb)) = Ok i
    /\ ((0 <= i /\ first_at a b i) \/ (i = -1 /\ forall p q, a <> p ++ b ++ q)).
Proof.
  intros a b ra rb A B. unfold uecho_strstr. rewrite (ctext_block _ _ A), (ctext_block _ _ B). cbn [bind].
  pose proof (strstr_spec a b 0) as S. destruct (c_strstr a b 0) as [j|]; eexists; (split; [reflexivity|]); [left|right; split; [reflexivity|exact S]].
  rewrite Z.sub_0_r in S. split; [|exact S]. destruct S as [(p & q & _ & <-) _]. apply len_nonneg.
Qed.
Print Assumptions C56_strstr.
Example C56_strstr_example : text_ok [97; 98; 97; 98; 99] /\ text_ok abc /\ uecho_strstr (Some (block [97; 98; 97; 98; 99] [])) (Some (block abc [])) = Ok 2.
Proof. split; [unfold text_ok, char_ok; repeat constructor|]. split; [unfold abc, text_ok, char_ok; repeat constructor|reflexivity]. Qed.

(* the first and the last character that is one of the given ones, or -1 if there is none *)
Theorem C56_strchr : forall cs cr t rest, text_ok t ->
  exists i j, uecho_strchr (Some (block t rest)) (Some (cs ++ cr)) (len cs) = Ok i /\ uecho_strrchr (Some (block t rest)) (Some (cs ++ cr)) (len cs) = Ok j
    /\ ((0 <= i /\ 0 <= j /\ first_in (fun c => In c cs) t i /\ last_in (fun c => In c cs) t j)
        \/ (i = -1 /\ j = -1 /\ forall c, In c t -> ~ In c cs)).
Proof.
  intros cs cr t rest T. unfold uecho_strchr, uecho_strrchr. rewrite (text_len t rest T). cbn [bind]. rewrite !to_nat_len. unfold block.
  destruct (strchr_spec cs cr t [] (0 :: rest)) as (i & E & C). destruct (strrchr_spec cs cr t (0 :: rest)) as (j & E' & C').
  cbn [app] in E. change (len (@nil Z)) with 0 in E, C. exists i, j. split; [exact E|]. split; [exact E'|]. rewrite Z.sub_0_r in C.
  destruct C as [(-> & C)|(C1 & C2)], C' as [(-> & C')|(C1' & C2')].
  - right. split; [reflexivity|]. split; [reflexivity|]. rewrite Forall_forall in C. exact C.
  - exfalso. destruct C2' as (p & c & q & -> & _ & D & _). rewrite Forall_forall in C. apply (C c); [apply in_or_app; right; left; reflexivity|exact D].
  - exfalso. destruct C2 as (p & c & q & -> & _ & D & _). rewrite Forall_forall in C'. apply (C' c); [apply in_or_app; right; left; reflexivity|exact D].
  - left. auto.
Qed.
Print Assumptions C56_strchr.
Example C56_strchr_example : text_ok [97; 58; 98; 58] /\ uecho_strchr (Some (block [97; 58; 98; 58] [])) (Some [58; 0]) 1 = Ok 1
  /\ uecho_strrchr (Some (block [97; 58; 98; 58] [])) (Some [58; 0]) 1 = Ok 3.
Proof. split; [unfold text_ok, char_ok; repeat constructor|]. split; reflexivity. Qed.

(* uecho_strncat with a count above the length of the text appended: the texts joined, a NUL, and everything
   after the count as it was; the pointer returned is where the second text begins.  Missing: the count may
   also cut the text off, see below *)
Theorem C56_strncat_partial : forall a b ra rb cnt, text_ok a -> text_ok b -> len b < cnt <= len ra + 1 ->
  exists z, uecho_strncat (block a ra) (block b rb) cnt = Ok (block (a ++ b) z, len a)
  /\ len z + len b = len ra /\ skipn (Z.to_nat (cnt - len b - 1)) z = skipn (Z.to_nat (cnt - 1)) ra.
Proof.
  intros a b ra rb cnt A B C. pose proof (len_nonneg _ b). pose proof (len_nonneg _ ra). unfold uecho_strncat. rewrite (text_len a ra A). cbn [bind]. change (block b rb) with (b ++ 0 :: rb).
  rewrite (strncpy_text _ b rb B). cbn [bind]. rewrite firstn_all2 by (unfold len in *; lia).
  set (k := (Z.to_nat cnt - length b)%nat). assert (K : k = S (Z.to_nat (cnt - len b - 1))) by (unfold k, len in *; lia).
  assert (W : wr_range (block a ra) (len a) (b ++ repeat 0 k) = Ok (a ++ (b ++ repeat 0 k) ++ skipn (Z.to_nat (cnt - 1)) ra)).
  { unfold block. replace (a ++ 0 :: ra) with (a ++ (0 :: firstn (Z.to_nat (cnt - 1)) ra) ++ skipn (Z.to_nat (cnt - 1)) ra).
    2:{ cbn [app]. rewrite firstn_skipn. reflexivity. }
    apply wr_range_app; [reflexivity|]. unfold len. rewrite app_length, repeat_length. cbn [length]. rewrite firstn_length. unfold k, len in *. lia. }
  rewrite W. cbn [bind]. exists (repeat 0 (Z.to_nat (cnt - len b - 1)) ++ skipn (Z.to_nat (cnt - 1)) ra). split; [|split].
  - rewrite K. unfold block. cbn [repeat]. rewrite <- !app_assoc. reflexivity.
  - unfold len in *. rewrite app_length, repeat_length, skipn_length. lia.
  - set (n := Z.to_nat (cnt - len b - 1)). rewrite skipn_app, repeat_length, Nat.sub_diag, skipn_all2 by (rewrite repeat_length; lia). reflexivity.
Qed.
Print Assumptions C56_strncat_partial.
Example C56_strncat_example : text_ok abc /\ len abc < 5 <= len [1; 2; 3; 4; 5; 6] + 1
  /\ uecho_strncat (block abc [1; 2; 3; 4; 5; 6]) (block abc []) 5 = Ok (block (abc ++ abc) [0; 5; 6], 3).
Proof. split; [unfold abc, text_ok, char_ok; repeat constructor|]. split; [vm_compute; split; congruence|vm_compute; reflexivity]. Qed.

(* uecho_strncat writes neither a NUL nor returns the string, unlike strncat: "ab" + 1 of "cd" in a used block *)
Theorem C56_strncat_refuted : exists blk i, uecho_strncat [97; 98; 0; 120; 0] (block [99; 100] []) 1 = Ok (blk, i)
  /\ i <> 0 /\ ctext blk = Ok [97; 98; 99; 120].
Proof. eexists. eexists. split; [vm_compute; reflexivity|]. split; [discriminate|reflexivity]. Qed.
Print Assumptions C56_strncat_refuted.

(* setting a string to an int or a long: the number fits the local buffer, and reading it gives it back *)
Theorem C56_numbers : forall mem s v, plenty mem ->
  (- 2147483648 <= v <= 2147483647 ->
   exists s' t, uecho_string_setintvalue mem s v = Ok s' /\ stands s' (Some t) /\ text_ok t /\ c_atoi t = v)
  /\ (- 9223372036854775808 <= v <= 9223372036854775807 ->
   exists s' t, uecho_string_setlongvalue mem s v = Ok s' /\ stands s' (Some t) /\ text_ok t /\ c_atoi t = v).
Proof.
  intros mem s v P.
  assert (W : forall n j, 1 <= j <= 20 -> j + 2 <= n -> n <= 32 -> - 10 ^ j < v < 10 ^ j ->
    exists s' t, (do b <- int2str v (fresh_buf n) ;; uecho_string_setvalue mem s (PExt b)) = Ok s' /\ stands s' (Some t) /\ text_ok t /\ c_atoi t = v).
  { intros n j J N N32 R. destruct (printed_spec v j J R) as (T & L & A). assert (len (printed v) <= j + 1) by (destruct (v <? 0); lia).
    unfold int2str. assert (Lf : len (fresh_buf n) = n) by (apply fresh_len; lia).
    assert (X : exists rest, wr_range (fresh_buf n) 0 (map Some (printed v ++ [0])) = Ok (cells (printed v) rest)).
    { exists (skipn (Z.to_nat (len (printed v) + 1)) (fresh_buf n)). unfold wr_range. rewrite len_map, len_app. change (len [0]) with 1.
      pose proof (len_nonneg _ (printed v)). destruct (Z.eqb_spec (len (printed v) + 1) 0); [lia|]. rewrite Lf.
      replace ((0 <=? 0) && (0 + (len (printed v) + 1) <=? n)) with true by lia. cbn [Z.to_nat firstn app].
      rewrite map_app. unfold cells. rewrite <- app_assoc. rewrite Z.add_0_l. reflexivity. }
    destruct X as (rest & ->). cbn [bind]. unfold uecho_string_setvalue, src_len. rewrite (cells_text_ok _ _ T). cbn [rmap bind].
    destruct (setn_spec mem s (printed v) (Some 0 :: rest) P) as (s' & E & S); [unfold OBJECT_MAX; lia|].
    exists s', (printed v). split; [exact E|]. auto. }
  split; intros R.
  - apply (W 16 10); try lia; change (10 ^ 10) with 10000000000; lia.
  - apply (W 32 19); try lia; change (10 ^ 19) with 10000000000000000000; lia.
Qed.
Print Assumptions C56_numbers.
Example C56_numbers_example : plenty yes /\ exists s, uecho_string_setintvalue yes uecho_string_new (-2147483648) = Ok s /\ uecho_string_length s = 11.
Proof. split; [intros n _; reflexivity|]. eexists. split; [vm_compute; reflexivity|reflexivity]. Qed.

(* a size above LONG_MAX is printed as a negative number *)
Theorem C56_sizet_refuted : exists b t, sizet2str (SIZE_MOD - 1) (fresh_buf 32) = Ok b /\ cells_text b = Ok t /\ c_atoi t = -1.
Proof. eexists. eexists. split; [vm_compute; reflexivity|]. split; [vm_compute; reflexivity|reflexivity]. Qed.
Print Assumptions C56_sizet_refuted.

(* ---- C57: replacing ---- *)

(* The full property: for every list of patterns that are not empty the value becomes the value with every
   pattern replaced, from left to right, the first pattern of the list where several match.  Proved if no
   pattern begins with another one and the result is not empty; an empty result leaves the value as it was
   (second case of the match: the refuted part of the property). *)
Theorem C57_replace_partial : forall mem s t ps args r, plenty mem -> prefix_free ps -> stands s (Some t) -> text_ok t -> len t <= INT_MAX ->
  Forall2 pat_arg ps args -> 8 * len args <= OBJECT_MAX -> replaced ps t r -> len r + 17 <= OBJECT_MAX ->
  exists s', uecho_string_replace mem s args = Ok (s', true) /\ stands s' (Some (match r with [] => t | _ => r end)).
Proof. exact replace_spec. Qed.
Print Assumptions C57_replace_partial.
(* the result exists for every text *)
Theorem C57_replaced_exists : forall ps t, Forall (fun p => fst p <> []) ps -> exists r, replaced ps t r.
Proof. intros ps t H. exact (replaced_total ps H (length t) t (le_n _)). Qed.
Print Assumptions C57_replaced_exists.

Definition pats (ps : list (list Z * list Z)) : list (list (option Z) * src) := map (fun p => (cells (fst p) [], PExt (cells (snd p) []))) ps.
Definition str_of (t : list Z) : ustr := mkStr (Some (cells t [])) (len t + 1) (len t).
Lemma str_stands : forall t, stands (str_of t) (Some t).
Proof. intros t. exists []. split; [reflexivity|]. split; [reflexivity|]. cbn. rewrite len_cells, len_nil. lia. Qed.
Lemma pats_ok : forall ps, Forall (fun p => text_ok (fst p) /\ fst p <> [] /\ text_ok (snd p)) ps -> Forall2 pat_arg ps (pats ps).
Proof.
  intros ps H. induction H as [|p ps (A & B & C) H IH]; [constructor|]. cbn. constructor; [|exact IH].
  split; [exact A|]. split; [exact B|]. split; [exact C|]. split; [exists []; reflexivity|]. left. exists []. reflexivity.
Qed.
Example C57_example : let ps := [([97], [120; 121]); ([98; 99], [])] in
  prefix_free ps /\ Forall2 pat_arg ps (pats ps) /\ replaced ps [97; 98; 99; 100] [120; 121; 100]
  /\ exists s', uecho_string_replace yes (str_of [97; 98; 99; 100]) (pats ps) = Ok (s', true) /\ uecho_string_length s' = 3.
Proof.
  intros ps. split; [|split; [|split]].
  - intros [|p [|q [|]]] f u mid g w post E; cbn in E; try discriminate; injection E as <- <- E.
    + destruct mid as [|m [|]]; cbn in E; try discriminate; injection E as <- <- _. split; intros x X; discriminate.
    + destruct mid; discriminate.
  - apply pats_ok. unfold ps, text_ok, char_ok. constructor; [|constructor; [|constructor]]; cbn [fst snd].
    + split; [repeat constructor|]. split; [discriminate|repeat constructor].
    + split; [repeat constructor|]. split; [discriminate|constructor].
  - apply (r_hit ps [97] [120; 121] [98; 99; 100] [100] [] [([98; 99], [])]); [reflexivity|discriminate|intros g w x []|].
    apply (r_hit ps [98; 99] [] [100] [100] [([97], [120; 121])] []); [reflexivity|discriminate|intros g w x [X|[]]; injection X as <- _; discriminate|].
    apply r_skip; [intros g w x [X|[X|[]]]; injection X as <- _; discriminate|]. apply r_end.
  - eexists. split; [vm_compute; reflexivity|reflexivity].
Qed.

(* deleting everything: "aa" with "a" replaced by "" stays "aa" *)
Theorem C57_empty_result_refuted : exists s', replaced [([97], [])] [97; 97] []
  /\ uecho_string_replace yes (str_of [97; 97]) (pats [([97], [])]) = Ok (s', true) /\ stands s' (Some [97; 97]).
Proof.
  exists (str_of [97; 97]). split; [|split; [vm_compute; reflexivity|apply str_stands]].
  apply (r_hit [([97], [])] [97] [] [97] [] [] []); [reflexivity|discriminate|intros g w x []|].
  apply (r_hit [([97], [])] [97] [] [] [] [] []); [reflexivity|discriminate|intros g w x []|]. apply r_end.
Qed.
Print Assumptions C57_empty_result_refuted.

(* the order of the list is not kept after a replacement: "cab" with ab->X, c->Z, a->Y becomes "ZYb", not "ZX" *)
Theorem C57_order_refuted : let ps := [([97; 98], [88]); ([99], [90]); ([97], [89])] in
  replaced ps [99; 97; 98] [90; 88]
  /\ exists s', uecho_string_replace yes (str_of [99; 97; 98]) (pats ps) = Ok (s', true) /\ stands s' (Some [90; 89; 98]).
Proof.
  intros ps. split.
  - apply (r_hit ps [99] [90] [97; 98] [88] [([97; 98], [88])] [([97], [89])]); [reflexivity|discriminate|intros g w x [X|[]]; injection X as <- _; discriminate|].
    apply (r_hit ps [97; 98] [88] [] [] [] [([99], [90]); ([97], [89])]); [reflexivity|discriminate|intros g w x []|]. apply r_end.
  - exists (str_of [90; 89; 98]). split; [vm_compute; reflexivity|apply str_stands].
Qed.
Print Assumptions C57_order_refuted.

(* an empty pattern: the call does not return *)
Theorem C57_empty_pattern_refuted : forall mem s t, plenty mem -> stands s (Some t) -> text_ok t -> t <> [] ->
  uecho_string_replace mem s (pats [([], [])]) = Undef UB_loop.
Proof.
  intros mem s t P (sl & V & Z1 & M) T N. unfold uecho_string_replace. rewrite (P (sz (8 * len (pats [([], [])])))) by (vm_compute; split; congruence).
  cbn [negb]. change (pattern_lens (pats [([], [])])) with (Ok [(cells [] [], 0, PExt (cells [] []))]). cbn [bind].
  unfold uecho_string_length. rewrite V, Z1. cbn [replace_loop].
  destruct (Z.leb_spec (len t) 0) as [L|L]; [exfalso; apply N; apply len_0_nil; pose proof (len_nonneg _ t); lia|].
  cbn [replace_inner Z.to_nat]. change (strn_eq (cells [] []) (skipn 0 (cells t sl)) 0) with (@Ok bool true). cbn [bind].
  change (uecho_string_addvalue mem uecho_string_new (PExt (cells [] []))) with (Ok (uecho_string_new, false)). cbn [bind].
  change (int_chk (0 + 0)) with (Ok 0). cbn [bind]. rewrite Z.eqb_refl. reflexivity.
Qed.
Print Assumptions C57_empty_pattern_refuted.
Example C57_empty_pattern_example : stands (str_of abc) (Some abc) /\ text_ok abc /\ abc <> [].
Proof. split; [apply str_stands|]. split; [unfold abc, text_ok, char_ok; repeat constructor|discriminate]. Qed.
