(* C46, C58, continued: a string made of a block of the caller; the lines of every severity; the lines of several frames. *)
From Coq Require Import String Ascii ZArith List Bool Lia ZifyBool ZifyNat.
From Verif Require Import CSem M_Const M_Misc M_Property M_Message M_Object M_Node M_String Spec_Frame Spec_Message Spec_String P_Base P_Misc P_Message
  P_String M_Std StdDB_Data Run_Node Properties_Message Properties_Node M_Server Spec_Server P_Server Properties_Server M_Log Spec_Log P_Log
  Properties_String Properties_Log.
Import ListNotations.
Open Scope Z_scope.

(* A string that takes over a block with a text and its NUL has that text, whatever it was before, and every history of calls
   goes on from there as from a string that was given the text.  Missing for the full statement: allocations that fail, and a
   block that is not as long as the text with its NUL. *)
Theorem C46_pointer_partial : forall mem s t ops, plenty mem -> len t + 17 <= OBJECT_MAX -> tops_ok (Some t) ops ->
  let s0 := uecho_string_setpointervalue s (Some (cells t [])) (len t) in
  uecho_string_getvalue s0 = Some (cells t []) /\ uecho_string_length s0 = len t /\ uecho_string_getmemorysize s0 = len t + 1
  /\ exists s', trun mem s0 ops = Ok s' /\
  match fold_left vstep ops (Some t) with
  | None => uecho_string_getvalue s' = None /\ uecho_string_length s' = 0
  | Some u => exists slack, uecho_string_getvalue s' = Some (cells u slack) /\ uecho_string_length s' = len u
      /\ uecho_string_getmemorysize s' = len u + 1 + len slack
  end.
Proof.
  intros mem s t ops P L O s0. pose proof (len_nonneg _ t) as L0.
  assert (M : sz (len t + 1) = len t + 1) by (apply sz_small; unfold SIZE_MOD; unfold OBJECT_MAX in L; lia).
  assert (H : stands s0 (Some t)).
  { exists []. split; [reflexivity|]. split; [reflexivity|]. unfold s0, uecho_string_setpointervalue. cbn [st_mem]. rewrite M, len_cells, len_nil. lia. }
  split; [reflexivity|]. split; [reflexivity|]. split; [exact M|].
  destruct (trun_spec mem ops s0 (Some t) P H O) as (s' & E & S'). exists s'. split; [exact E|].
  destruct (fold_left vstep ops (Some t)) as [u|]; cbn [stands] in S'.
  - destruct S' as (sl & V & Z1 & Ms). exists sl. unfold uecho_string_getvalue, uecho_string_length, uecho_string_getmemorysize.
    rewrite V, Ms, len_cells. split; [reflexivity|]. split; [exact Z1|reflexivity].
  - subst s'. split; reflexivity.
Qed.
Print Assumptions C46_pointer_partial.
Example C46_pointer_example : plenty yes /\ tops_ok (Some abc) [TAdd [100] [None]; TClear; TSet abc []]
  /\ fold_left vstep [TAdd [100] [None]] (Some abc) = Some [97; 98; 99; 100].
Proof.
  split; [intros n _; reflexivity|]. split; [|reflexivity].
  assert (A : text_ok abc) by (unfold abc, text_ok, char_ok; repeat constructor).
  assert (B : text_ok [100]) by (unfold text_ok, char_ok; repeat constructor).
  cbn [tops_ok]. unfold top_ok. cbn [vstep]. unfold INT_MAX.
  repeat match goal with |- _ /\ _ => split end; try exact A; try exact B; try exact Logic.I; try (vm_compute; intro X; discriminate X).
Qed.

(* ---- the lines of the log ---- *)
(* the names of the severities; any other has none *)
Definition severity_name (severity : Z) (name : list Z) : Prop :=
  (severity = 1 /\ name = cstr "ERROR") \/ (severity = 2 /\ name = cstr "WARN") \/ (severity = 4 /\ name = cstr "INFO")
  \/ (severity = 8 /\ name = cstr "DEBUG") \/ (~ In severity [1; 2; 4; 8] /\ name = []).

(* A text of any length is logged without undefined behaviour: one line with time, severity and the text, cut off after 2047
   characters, if lines of that severity are wanted, none otherwise. *)
Theorem C58_output : forall strict level severity name now t rest, severity_name severity name -> time_ok now -> text_ok t ->
  uecho_log_output strict level severity now (cells t rest)
  = Ok (if level <? severity then [] else [firstn 2047 (now ++ cstr " : " ++ name ++ cstr " " ++ t)]).
Proof.
  intros strict level severity name now t rest Hs (N & Ln) T. unfold uecho_log_output. destruct (Z.ltb_spec level severity) as [Lv|Lv]; [reflexivity|].
  assert (Hn : uecho_log_type2string severity = name /\ text_ok name /\ len name <= 5).
  { unfold uecho_log_type2string, UECHO_LOG_ERROR, UECHO_LOG_WARN, UECHO_LOG_INFO, UECHO_LOG_DEBUG.
    destruct Hs as [[-> ->]|[[-> ->]|[[-> ->]|[[-> ->]|[Hs ->]]]]]; try (split; [reflexivity|split; [apply lit_text; reflexivity|vm_compute; discriminate]]).
    cbn [In] in Hs. repeat match goal with |- context [severity =? ?k] => destruct (Z.eqb_spec severity k); [exfalso; lia|] end.
    split; [reflexivity|]. split; [constructor|]. rewrite len_nil. lia. }
  destruct Hn as (-> & Tn & Lm). set (head := now ++ cstr " : " ++ name ++ cstr " ").
  assert (Eh : now ++ cstr " : " ++ name ++ cstr " " ++ t = head ++ t) by (unfold head; rewrite <- !app_assoc; reflexivity). rewrite Eh.
  assert (Lh : len head = len now + 4 + len name).
  { unfold head. rewrite !len_app. change (len (cstr " : ")) with 3. change (len (cstr " ")) with 1. lia. }
  assert (Th : text_ok head).
  { unfold head. apply text_ok_app. split; [exact N|]. apply text_ok_app. split; [apply lit_text; reflexivity|].
    apply text_ok_app. split; [exact Tn|apply lit_text; reflexivity]. }
  clearbody head. pose proof (len_nonneg _ now). pose proof (len_nonneg _ name).
  destruct (snprintf_at strict [] (fresh_buf MAX_LOG_BUF) head MAX_LOG_BUF) as (r1 & P1 & Q1).
  { unfold MAX_LOG_BUF, INT_MAX. lia. } { apply fresh_len. unfold MAX_LOG_BUF. lia. }
  rewrite len_nil in P1. cbn [map app] in P1, Q1. rewrite P1. cbn [bind]. rewrite cells_text_ok by exact T. cbn [bind].
  rewrite (firstn_len_all _ (MAX_LOG_BUF - 1) head) in * by (unfold MAX_LOG_BUF; lia).
  rewrite fresh_len in Q1 by (unfold MAX_LOG_BUF; lia).
  rewrite sz_small by (unfold SIZE_MOD, MAX_LOG_BUF; lia). unfold cells in Q1 |- *.
  destruct (snprintf_at strict head (Some 0 :: r1) t (MAX_LOG_BUF - len head)) as (r2 & P2 & Q2).
  { unfold MAX_LOG_BUF, INT_MAX. lia. } { rewrite len_app, len_map in Q1. lia. }
  rewrite P2. cbn [bind]. rewrite cells_text_ok by (apply text_ok_app; split; [exact Th|apply text_ok_firstn; exact T]). cbn [bind]. do 2 f_equal.
  rewrite firstn_app. rewrite (firstn_all2 head) by (unfold len in *; lia). do 2 f_equal. unfold MAX_LOG_BUF, len in *. lia.
Qed.
Print Assumptions C58_output.
Example C58_output_example : severity_name 2 (cstr "WARN") /\ time_ok (cstr "2026-11-16 10:00:00") /\ text_ok (cstr "no route").
Proof. split; [right; left; split; reflexivity|]. split; [apply C58_server_example|apply lit_text; reflexivity]. Qed.

(* ---- several frames ---- *)
Definition sender (a : attempt) : string := match a_from a with Some s => s | None => EmptyString end.
Definition attempt_logs (a : attempt) : Prop :=
  bytes_ok (a_bytes a) /\ short (a_to a) /\ (forall s, a_from a = Some s -> short s) /\ len (a_bytes a) <= 109.
(* Frames of at most 109 bytes, however many: one line each in the order they are sent, with the letter S, the sender, the
   receiver and all bytes, if debug lines are wanted, none otherwise.  Missing for the full statement: longer frames. *)
Theorem C58_sends_partial : forall strict level now l, time_ok now -> Forall attempt_logs l ->
  exists lines, attempts_log strict level now l = Ok lines
  /\ (level < UECHO_LOG_DEBUG -> lines = [])
  /\ (UECHO_LOG_DEBUG <= level ->
      Forall2 (fun a line => line_of now (cstr "S") (cstr (sender a)) (cstr (a_to a)) (a_bytes a) line)
              (filter (fun a => match a_bytes a with [] => false | _ => true end) l) lines).
Proof.
  intros strict level now l N F. induction F as [|[f t d] l (B & T & Fr & L) F IH].
  - exists []. split; [reflexivity|]. split; [reflexivity|constructor].
  - destruct IH as (lines & E & E1 & E2). cbn [a_from a_to a_bytes attempts_log filter] in *.
    destruct d as [|x d].
    + exists lines. unfold sendto_log at 1. unfold uecho_net_socket_debug. cbn [a_bytes]. rewrite log_empty. cbn [bind]. rewrite E. cbn [bind app]. auto.
    + unfold sendto_log at 1. unfold uecho_net_socket_debug. cbn [a_from a_to a_bytes]. unfold PREFIX_SEND. rewrite !cptr_cells. destruct S_ok as (R1 & R2 & R3).
      set (s := match f with Some s => s | None => EmptyString end).
      assert (Fs : short s) by (unfold s; destruct f; [apply Fr; reflexivity|exact short_empty]).
      destruct (C58_line_partial strict level now UECHO_LOG_DEBUG (cstr "S") (cstr s) (cstr t) [] [] [] (x :: d) (heading_text (cstr "S") (cstr s) (cstr t)))
        as (ls & Q & Q1 & Q2); try assumption; try apply Fs; try apply T; [discriminate|apply heading_is|rewrite (short_heading (cstr "S") s t R3 Fs T); lia|].
      rewrite Q. cbn [bind]. rewrite E. cbn [bind]. exists (ls ++ lines). split; [reflexivity|]. split.
      * intros Lv. rewrite (Q1 Lv), (E1 Lv). reflexivity.
      * intros Lv. destruct (Q2 Lv) as (line & -> & Hl). cbn [app]. constructor; [exact Hl|exact (E2 Lv)].
Qed.
Print Assumptions C58_sends_partial.
Example C58_sends_example : Forall attempt_logs [mkAtt (Some "192.168.1.2"%string) "192.168.1.9" greeting; mkAtt None "224.0.23.0" [16; 129]]
  /\ time_ok (cstr "2026-11-16 10:00:00").
Proof.
  split; [|apply C58_server_example]. destruct home_short as [H1 H2]. constructor; [|constructor; [|constructor]].
  - split; [repeat constructor; unfold is_byte; lia|]. split; [exact H2|]. split; [intros s E; injection E as <-; exact H1|vm_compute; discriminate].
  - split; [repeat constructor; unfold is_byte; lia|]. split; [split; [apply lit_text; reflexivity|vm_compute; discriminate]|].
    split; [intros s E; discriminate|vm_compute; discriminate].
Qed.
