(* C39: the linked lists every container of the library is made of are sequences.

   [lrun turns destructor junk h ops] runs a history of operations on the memory [h].  [turns] bounds the
   turns of each loop of uecho_list_clear, [destructor] gives the destructor it is called with and [junk] is
   what allocated memory contains.  [None] would mean that a loop was not over in time, [Undef] that memory
   was used that is not there; the theorems say that neither happens. *)
From Coq Require Import ZArith List Bool Lia.
From Verif Require Import CSem P_Base M_List Spec_List P_List.
Import ListNotations.
Open Scope Z_scope.

(* the outcome [Refused] stands for an operation that answers false *)
Inductive lout : Type := Done (h : heap) | Refused | Crash (u : ub) | Endless.
Definition out (r : res (heap * bool)) : lout :=
  match r with Ok (h, true) => Done h | Ok (_, false) => Refused | Undef u => Crash u end.

Section Run.
Variable turns : nat.
Variable destructor : Z -> option (heap -> Z -> res heap).
Variable junk : Z -> cell.

Definition ldo (h : heap) (o : lop) : lout :=
  match o with
  | LHeader a => out (uecho_list_header_init (malloc h a (junk a)) a)
  | LNode a => out (uecho_list_node_init (malloc h a (junk a)) a)
  | LAdd hd x => out (uecho_list_add h hd x)
  | LInsert p x => out (uecho_list_insert h p x)
  | LRemove x => out (uecho_list_remove h x)
  | LFree x => match mfree h x with Ok h' => Done h' | Undef u => Crash u end
  | LClear hd => match uecho_list_clear turns (destructor hd) h hd with Some r => out r | None => Endless end
  end.

Fixpoint lrun (h : heap) (ops : list lop) : lout :=
  match ops with
  | [] => Done h
  | o :: r => match ldo h o with Done h1 => lrun h1 r | other => other end
  end.
End Run.

(* what  for (x = p; x; x = uecho_list_next(x))  visits *)
Fixpoint iterate (turns : nat) (h : heap) (p : Z) : option (res (list Z)) :=
  if p =? 0 then Some (Ok [])
  else
    match turns with
    | O => None
    | S t =>
        match uecho_list_next h p with
        | Ok q => option_map (rmap (cons p)) (iterate t h q)
        | Undef u => Some (Undef u)
        end
    end.

Definition no_cells : heap := fun _ => None.

(* the destructors the library uses: free, and taking the element out of its list before freeing it *)
Definition library_destructor (d : option (heap -> Z -> res heap)) : Prop :=
  d = None \/ d = Some mfree \/ d = Some remove_and_free.

(* everything a program can see of a list with header [hd] that holds [l] *)
Record shows (h : heap) (hd : Z) (l : list Z) : Prop := mkShows {
  sh_size : forall turns, (length l <= turns)%nat -> Z.of_nat (length l) <= INT_MAX ->
    uecho_list_size turns h hd = Some (Ok (Z.of_nat (length l)));
  sh_iterate : forall turns, (length l <= turns)%nat ->
    exists x, uecho_list_gets h hd = Ok x /\ iterate turns h x = Some (Ok l);
  sh_get : forall i x, 0 <= i -> nth_error l (Z.to_nat i) = Some x -> uecho_list_get h hd i = Ok x;
  sh_get_end : forall i, Z.of_nat (length l) <= i -> uecho_list_get h hd i = Ok 0;
  sh_next : forall A x y B, l = A ++ x :: y :: B -> uecho_list_next h x = Ok y;
  sh_next_end : forall A x, l = A ++ [x] -> uecho_list_next h x = Ok 0;
  sh_prev : forall A x y B, l = A ++ x :: y :: B -> uecho_list_prev h y = Ok x;
  sh_prev_end : forall x B, l = x :: B -> uecho_list_prev h x = Ok 0;
  sh_next_circular : forall A x y B, l = A ++ x :: y :: B -> uecho_list_next_circular h x = Ok y;
  sh_next_wrap : forall x A y, l = x :: A ++ [y] -> uecho_list_next_circular h y = Ok x;
  sh_prev_circular : forall A x y B, l = A ++ x :: y :: B -> uecho_list_prev_circular h y = Ok x;
  sh_prev_wrap : forall x A y, l = x :: A ++ [y] -> uecho_list_prev_circular h x = Ok y;
  sh_single : forall x, l = [x] -> uecho_list_next_circular h x = Ok x /\ uecho_list_prev_circular h x = Ok x
}.

Lemma iterate_walk : forall h w, rep h w -> forall hd l, has w hd l -> forall B A' p turns, hd :: l = A' ++ p :: B ->
  (length B <= turns)%nat -> iterate turns h (first B) = Some (Ok B).
Proof.
  intros h w R hd l Hl. induction B as [|b B IH]; intros A' p turns E Ht.
  - destruct turns; reflexivity.
  - destruct turns as [|t]; [cbn in Ht; lia|]. cbn [first iterate].
    assert (E' : hd :: l = (A' ++ [p]) ++ b :: B) by (rewrite <- app_assoc; exact E).
    pose proof (in_ring h w R hd l Hl _ _ _ E') as Nb. rewrite (proj2 (Z.eqb_neq b 0) Nb), (next_at h w R hd l Hl _ _ _ E').
    rewrite (IH _ _ t E'); [reflexivity|cbn in Ht; lia].
Qed.

Lemma rep_shows : forall h w hd l, rep h w -> has w hd l -> shows h hd l.
Proof.
  intros h w hd l R Hl.
  assert (Nx : forall A x B, l = A ++ x :: B -> uecho_list_next h x = Ok (first B)).
  { intros A x B E. apply (next_at h w R hd l Hl (hd :: A)). rewrite E. reflexivity. }
  assert (Nc : forall A x B, l = A ++ x :: B -> uecho_list_next_circular h x =
    Ok (match B with b :: _ => b | [] => match l with x :: _ => x | [] => hd end end)).
  { intros A x B E. apply (next_circular_at h w R hd l Hl (hd :: A)). rewrite E at 1. reflexivity. }
  constructor.
  - apply (size_ok h w R hd l Hl).
  - intros turns Ht. exists (first l). split; [apply (gets_ok h w R hd l Hl)|]. apply (iterate_walk h w R hd l Hl l [] hd turns eq_refl Ht).
  - intros i x Hi E. rewrite (get_ok h w R hd l Hl). f_equal. apply nth_error_nth. exact E.
  - intros i Hi. rewrite (get_ok h w R hd l Hl). f_equal. apply nth_overflow. lia.
  - intros A x y B E. exact (Nx A x (y :: B) E).
  - intros A x E. exact (Nx A x [] E).
  - intros A x y B E. change (x :: y :: B) with ([x] ++ y :: B) in E. rewrite app_assoc in E.
    rewrite (prev_at h w R hd l Hl (A ++ [x]) y B E). f_equal. unfold final. rewrite rev_app_distr. reflexivity.
  - intros x B E. exact (prev_at h w R hd l Hl [] x B E).
  - intros A x y B E. exact (Nc A x (y :: B) E).
  - intros x A y E. rewrite (Nc (x :: A) y [] E). rewrite E. reflexivity.
  - intros A x y B E. change (x :: y :: B) with ([x] ++ y :: B) in E. rewrite app_assoc in E.
    rewrite (prev_circular_at h w R hd l Hl (A ++ [x]) y B E). rewrite last_last. destruct A; reflexivity.
  - intros x A y E. rewrite (prev_circular_at h w R hd l Hl [] x (A ++ [y]) E). rewrite E.
    change (x :: A ++ [y]) with ((x :: A) ++ [y]). rewrite last_last. reflexivity.
  - intros x E. split; [rewrite (Nc [] x [] E), E; reflexivity|].
    rewrite (prev_circular_at h w R hd l Hl [] x [] E), E. reflexivity.
Qed.

(* ---- histories ---- *)
Lemma used_in : forall w y, In y (used w) <-> In y (headers w) \/ In y (elements w) \/ In y (loose w).
Proof.
  intros w y. unfold used, headers, elements. rewrite in_app_iff, in_flat_map, in_map_iff, in_flat_map. split.
  - intros [([a l] & I & [J|J])|I].
    + left. exists (a, l). cbn in *. auto.
    + right. left. exists (a, l). auto.
    + auto.
  - intros [([a l] & E & I)|[([a l] & I & J)|I]].
    + left. exists (a, l). split; [exact I|left; exact E].
    + left. exists (a, l). split; [exact I|right; exact J].
    + auto.
Qed.

Lemma drop_in : forall x y l, In y (drop x l) -> In y l.
Proof. intros x y l. unfold drop. rewrite filter_In. intros []; assumption. Qed.
Lemma after_in : forall p x y l, In y (after p x l) -> y = x \/ In y l.
Proof.
  intros p x y l. induction l as [|z l IH]; cbn [after]; [intros []|]. destruct (z =? p); cbn [In].
  - intros [E|[E|I]]; auto.
  - intros [E|I]; [auto|]. destruct (IH I); auto.
Qed.

(* the addresses in use after an operation were in use, or the operation allocated them *)
Definition brings (o : lop) : list Z := match o with LHeader a | LNode a => [a] | _ => [] end.

Lemma put_seq_in : forall hd f s e, In e (put_seq hd f s) -> exists l, In (fst e, l) s /\ (snd e = l \/ fst e = hd /\ snd e = f l).
Proof.
  intros hd f s e I. apply in_map_iff in I. destruct I as ([a l] & E & I). cbn [fst snd] in E.
  destruct (a =? hd) eqn:Eh; subst e; exists l; cbn; split; auto. apply Z.eqb_eq in Eh. auto.
Qed.

Lemma step_used : forall w o y, lop_ok w o -> In y (used (lstep w o)) -> In y (brings o ++ used w).
Proof.
  intros w o y Ho I.
  assert (H0 : forall a l, In (a, l) (seqs w) -> In a (used w) /\ (forall z, In z l -> In z (used w))).
  { intros a l J. split; [|intros z Jz]; apply used_in; [left; apply in_map_iff; exists (a, l); auto|].
    right. left. apply in_flat_map. exists (a, l). auto. }
  assert (HL : forall z, In z (loose w) -> In z (used w)) by (intros; apply used_in; auto).
  unfold used in I. apply in_app_iff in I.
  destruct o as [a|a|hd x|p x|x|x|hd]; cbn [lstep seqs loose lop_ok brings app] in *.
  - rewrite flat_map_app in I. cbn [flat_map ring fst snd app] in I. rewrite in_app_iff in I. cbn [In] in I.
    destruct I as [[I|[I|[]]]|I]; [right; apply in_or_app; auto|left; auto|right; auto].
  - rewrite in_app_iff in I. cbn [In] in I. destruct I as [I|[I|[I|[]]]]; [right; apply in_or_app; auto|right; auto|left; auto].
  - destruct I as [I|I]; [|apply drop_in in I; auto]. apply in_flat_map in I. destruct I as ([b m] & I & J).
    apply put_seq_in in I. cbn [fst snd] in I. destruct I as (l & I & C). destruct (H0 _ _ I) as [H1 H2].
    destruct J as [J|J]; cbn [fst snd] in J; [congruence|]. destruct C as [->|[-> ->]]; [auto|].
    apply in_app_iff in J. destruct J as [J|[<-|[]]]; [auto|apply HL; tauto].
  - destruct I as [I|I]; [|apply drop_in in I; auto]. apply in_flat_map in I. destruct I as ([b m] & I & J).
    apply in_map_iff in I. destruct I as ([a l] & E & I). cbn [fst snd] in E. destruct (H0 _ _ I) as [H1 H2].
    assert (Eb : a = b) by congruence. assert (Em : (if a =? p then x :: l else after p x l) = m) by congruence. subst b m.
    destruct J as [J|J]; cbn [fst snd] in J; [congruence|].
    destruct (a =? p); [destruct J as [<-|J]; [apply HL; tauto|auto]|]. apply after_in in J. destruct J as [->|J]; [apply HL; tauto|auto].
  - destruct I as [I|I].
    + apply in_flat_map in I. destruct I as ([b m] & I & J). apply in_map_iff in I. destruct I as ([a l] & E & I).
      cbn [fst snd] in E. destruct (H0 _ _ I) as [H1 H2]. assert (Eb : a = b) by congruence. assert (Em : drop x l = m) by congruence. subst b m.
      destruct J as [J|J]; cbn [fst snd] in J; [congruence|]. apply drop_in in J. auto.
    + apply in_app_iff in I. destruct I as [I|[<-|[]]]; [apply drop_in in I; auto|]. apply used_in. tauto.
  - destruct I as [I|I]; [|apply drop_in in I; auto]. apply in_flat_map in I. destruct I as ([b m] & I & J).
    apply filter_In in I. destruct (H0 _ _ (proj1 I)) as [H1 H2]. destruct J as [J|J]; cbn [fst snd] in J; [congruence|auto].
  - destruct I as [I|I]; [|auto]. apply in_flat_map in I. destruct I as ([b m] & I & J).
    apply put_seq_in in I. cbn [fst snd] in I. destruct I as (l & I & C). destruct (H0 _ _ I) as [H1 H2].
    destruct J as [J|J]; cbn [fst snd] in J; [congruence|]. destruct C as [->|[-> ->]]; [auto|destruct J].
Qed.

Lemma library_destroys : forall d, library_destructor d -> match d with Some f => destroys f | None => True end.
Proof. intros d [->|[->| ->]]; [exact I|apply mfree_destroys|apply remove_and_free_destroys]. Qed.

Lemma ldo_ok : forall turns destructor junk h w o, (forall a, library_destructor (destructor a)) -> rep h w -> lop_ok w o ->
  (length (used w) <= turns)%nat -> exists h', ldo turns destructor junk h o = Done h' /\ rep h' (lstep w o).
Proof.
  intros turns destructor junk h w o Hd R Ho Ht. destruct o as [a|a|hd x|p x|x|x|hd]; cbn [lop_ok ldo] in *.
  - destruct (header_ok h w a (junk a) R Ho) as (h' & E & R'). rewrite E. exists h'. auto.
  - destruct (node_ok h w a (junk a) R Ho) as (h' & E & R'). rewrite E. exists h'. auto.
  - destruct (add_ok h w hd x R (proj1 Ho) (proj2 Ho)) as (h' & E & R'). rewrite E. exists h'. auto.
  - destruct (insert_ok h w p x R (proj1 Ho) (proj2 Ho)) as (h' & E & R'). rewrite E. exists h'. auto.
  - destruct (remove_ok h w x R Ho) as (h' & E & R'). rewrite E. exists h'. auto.
  - destruct (free_ok h w x R Ho) as (h' & E & R'). rewrite E. exists h'. auto.
  - destruct (clear_ok (destructor hd) h w hd turns (library_destroys _ (Hd hd)) R Ho Ht) as (h' & E & R'). rewrite E. exists h'. auto.
Qed.

Lemma lrun_ok : forall turns destructor junk, (forall a, library_destructor (destructor a)) ->
  forall w ops w', lruns w ops w' -> forall h, rep h w -> (length (used w) + length ops <= turns)%nat ->
  exists h', lrun turns destructor junk h ops = Done h' /\ rep h' w'.
Proof.
  intros turns destructor junk Hd w ops w' L. induction L as [w|w o r w' Ho L IH]; intros h R Ht.
  - exists h. auto.
  - cbn [length] in Ht. destruct (ldo_ok turns destructor junk h w o Hd R Ho) as (h1 & E & R1); [lia|]. cbn [lrun]. rewrite E.
    apply IH; [exact R1|].
    assert (X : (length (used (lstep w o)) <= length (brings o ++ used w))%nat).
    { apply NoDup_incl_length; [apply R1|]. intros y. apply step_used. exact Ho. }
    rewrite app_length in X. assert (length (brings o) <= 1)%nat by (destruct o; cbn; lia). lia.
Qed.

Lemma no_cells_rep : rep no_cells no_lists.
Proof. constructor; [constructor|intros []|reflexivity|intros a b []]. Qed.

(* From memory without lists, any history in which callers respect [lop_ok] runs to its end, every
   operation answering true, and every list then shows the sequence [lstep] says. *)
Theorem C39_sequences : forall turns destructor junk ops w,
  (forall a, library_destructor (destructor a)) -> (length ops <= turns)%nat -> lruns no_lists ops w ->
  exists h, lrun turns destructor junk no_cells ops = Done h /\
    (forall hd l, has w hd l -> shows h hd l) /\
    (forall a, h a <> None <-> In a (used w)).
Proof.
  intros turns destructor junk ops w Hd Ht L.
  destruct (lrun_ok turns destructor junk Hd _ _ _ L no_cells no_cells_rep) as (h & E & R); [cbn; lia|].
  exists h. split; [exact E|]. split.
  - intros hd l Hl. apply (rep_shows h w hd l R Hl).
  - intros a. pose proof (rep_flag _ _ R a) as F. unfold fh in F. destruct (h a) as [c|].
    + split; [|discriminate]. intros _. destruct (inb a (used w)) eqn:Ea; [|discriminate]. apply inb_iff. exact Ea.
    + split; [congruence|]. intros Ia. apply inb_iff in Ia. rewrite Ia in F. discriminate.
Qed.
Print Assumptions C39_sequences.

(* What the operations do to the sequences, read off the specification of a history. *)
Lemma runs_nodup : forall ops w, lruns no_lists ops w -> NoDup (used w).
Proof.
  intros ops w L. destruct (lrun_ok (length ops) (fun _ => None) (fun _ => mkCell false 0 0) (fun _ => or_introl eq_refl) _ _ _ L no_cells no_cells_rep) as (h & _ & R);
    [cbn; lia|apply R].
Qed.

Theorem C39_add : forall ops w hd l x, lruns no_lists ops w -> has w hd l ->
  has (lstep w (LAdd hd x)) hd (l ++ [x]).
Proof.
  intros ops w hd l x L H. unfold has in *. cbn [lstep seqs]. apply in_map_iff. exists (hd, l). cbn [fst snd]. rewrite Z.eqb_refl. auto.
Qed.
Print Assumptions C39_add.

Theorem C39_insert : forall ops w hd A p B x, lruns no_lists ops w ->
  (has w hd (A ++ p :: B) -> has (lstep w (LInsert p x)) hd (A ++ p :: x :: B)) /\
  (has w hd B -> has (lstep w (LInsert hd x)) hd (x :: B)).
Proof.
  intros ops w hd A p B x L. pose proof (runs_nodup _ _ L) as N. unfold has. cbn [lstep seqs]. split; intros H; apply in_map_iff.
  - exists (hd, A ++ p :: B). cbn [fst snd]. split; [|exact H].
    destruct (seq_split w hd _ H) as (s1 & s2 & Es). assert (Nr : NoDup (hd :: A ++ p :: B)).
    { apply (ring_nodup s1 hd _ s2 (loose w)). rewrite <- Es. destruct w; exact N. }
    inversion Nr as [|? ? N1 N2]; subst. destruct (hd =? p) eqn:E.
    + apply Z.eqb_eq in E. subst. exfalso. apply N1. apply in_or_app. right. left. reflexivity.
    + f_equal. apply after_split. intros J. apply NoDup_remove_2 in N2. apply N2. apply in_or_app. auto.
  - exists (hd, B). cbn [fst snd]. rewrite Z.eqb_refl. auto.
Qed.
Print Assumptions C39_insert.

Theorem C39_remove : forall ops w hd A x B, lruns no_lists ops w -> has w hd (A ++ x :: B) ->
  has (lstep w (LRemove x)) hd (A ++ B) /\ In x (loose (lstep w (LRemove x))).
Proof.
  intros ops w hd A x B L H. pose proof (runs_nodup _ _ L) as N. split.
  - unfold has in *. cbn [lstep seqs]. apply in_map_iff. exists (hd, A ++ x :: B). cbn [fst snd]. split; [|exact H].
    f_equal. apply drop_split. destruct (seq_split w hd _ H) as (s1 & s2 & Es).
    assert (Nr : NoDup (hd :: A ++ x :: B)). { apply (ring_nodup s1 hd _ s2 (loose w)). rewrite <- Es. destruct w; exact N. }
    inversion Nr; assumption.
  - cbn [lstep loose]. apply in_or_app. right. left. reflexivity.
Qed.
Print Assumptions C39_remove.

Theorem C39_clear : forall ops w hd l, lruns no_lists ops w -> has w hd l ->
  has (lstep w (LClear hd)) hd [] /\ (forall x, In x l -> ~ In x (used (lstep w (LClear hd)))).
Proof.
  intros ops w hd l L H. pose proof (runs_nodup _ _ L) as N. split.
  - unfold has in *. cbn [lstep seqs]. apply in_map_iff. exists (hd, l). cbn [fst snd]. rewrite Z.eqb_refl. auto.
  - intros x Ix J. destruct (seq_split w hd _ H) as (s1 & s2 & Es).
    assert (Ew : lstep w (LClear hd) = mkLists (s1 ++ (hd, []) :: s2) (loose w)).
    { cbn [lstep]. rewrite Es, put_seq_split; [reflexivity|]. rewrite <- Es. apply headers_nodup. exact N. }
    rewrite Ew, used_app in J. assert (N' : NoDup (used (mkLists (s1 ++ (hd, l) :: s2) (loose w)))) by (rewrite <- Es; destruct w; exact N).
    rewrite used_app in N'. change (flat_map ring ((hd, []) :: s2)) with (hd :: flat_map ring s2) in J.
    change (flat_map ring ((hd, l) :: s2)) with ((hd :: l) ++ flat_map ring s2) in N'.
    destruct (in_split _ _ Ix) as (l1 & l2 & El). subst l.
    replace (flat_map ring s1 ++ ((hd :: l1 ++ x :: l2) ++ flat_map ring s2) ++ loose w)
      with ((flat_map ring s1 ++ hd :: l1) ++ x :: (l2 ++ flat_map ring s2 ++ loose w)) in N'
      by (cbn [app]; rewrite <- !app_assoc; cbn [app]; rewrite <- ?app_assoc; reflexivity).
    apply NoDup_remove_2 in N'. apply N'. repeat (rewrite in_app_iff in *; cbn [In] in * ). tauto.
Qed.
Print Assumptions C39_clear.

(* An operation leaves the lists it is not about as they are. *)
Definition concerns (o : lop) (hd : Z) (l : list Z) : Prop :=
  match o with
  | LHeader _ | LNode _ => False
  | LAdd h _ | LClear h => h = hd
  | LInsert p _ => In p (hd :: l)
  | LRemove x => In x l
  | LFree x => x = hd
  end.
Theorem C39_other_lists : forall w o hd l, has w hd l -> ~ concerns o hd l -> has (lstep w o) hd l.
Proof.
  intros w o hd l H C. unfold has in *. destruct o as [a|a|h x|p x|x|x|h]; cbn [lstep seqs concerns] in *.
  - apply in_or_app. auto.
  - exact H.
  - apply in_map_iff. exists (hd, l). cbn [fst snd]. rewrite (proj2 (Z.eqb_neq hd h)) by congruence. auto.
  - apply in_map_iff. exists (hd, l). cbn [fst snd In] in *. rewrite (proj2 (Z.eqb_neq hd p)) by tauto. rewrite after_id by tauto. auto.
  - apply in_map_iff. exists (hd, l). cbn [fst snd]. rewrite drop_id by exact C. auto.
  - apply filter_In. split; [exact H|]. cbn [fst]. rewrite (proj2 (Z.eqb_neq hd x)) by congruence. reflexivity.
  - apply in_map_iff. exists (hd, l). cbn [fst snd]. rewrite (proj2 (Z.eqb_neq hd h)) by congruence. auto.
Qed.
Print Assumptions C39_other_lists.

(* a NULL pointer is refused and nothing changes *)
Theorem C39_null : forall h a turns d,
  uecho_list_header_init h 0 = Ok (h, false) /\ uecho_list_node_init h 0 = Ok (h, false) /\
  uecho_list_add h 0 a = Ok (h, false) /\ uecho_list_add h a 0 = Ok (h, false) /\
  uecho_list_insert h 0 a = Ok (h, false) /\ uecho_list_insert h a 0 = Ok (h, false) /\
  uecho_list_remove h 0 = Ok (h, false) /\ uecho_list_clear turns d h 0 = Some (Ok (h, false)) /\
  uecho_list_size turns h 0 = Some (Ok 0) /\ uecho_list_next h 0 = Ok 0 /\ uecho_list_prev h 0 = Ok 0.
Proof.
  intros h a turns d. unfold uecho_list_add, uecho_list_insert. rewrite !orb_true_r. cbn [Z.eqb orb].
  exact (conj eq_refl (conj eq_refl (conj eq_refl (conj eq_refl (conj eq_refl (conj eq_refl (conj eq_refl (conj eq_refl (conj eq_refl (conj eq_refl eq_refl)))))))))).
Qed.
Print Assumptions C39_null.

(* A history: two lists, elements appended, put in between, moved from one to the other, one list cleared. *)
Definition a_history : list lop :=
  [LHeader 10; LHeader 20; LNode 1; LNode 2; LNode 3; LNode 4; LNode 5; LAdd 10 1; LAdd 10 2; LInsert 1 3; LInsert 10 4;
   LRemove 1; LAdd 20 1; LAdd 20 5; LRemove 5; LFree 5; LClear 10; LFree 10].
Fixpoint lfinal (w : lists) (ops : list lop) : lists := match ops with [] => w | o :: r => lfinal (lstep w o) r end.
Example C39_example : lruns no_lists a_history (mkLists [(20, [1])] []) /\
  lruns no_lists (firstn 11 a_history) (mkLists [(10, [4; 1; 3; 2]); (20, [])] [5]).
Proof.
  split; repeat (apply lruns_cons; [cbn; tauto || (split; [lia|]; intros J; repeat (destruct J as [J|J]; [discriminate|]); exact J)|]); apply lruns_nil.
Qed.

(* The condition that an added element is in no list is needed: adding an element to a second list
   cuts off the elements behind it in the first, and freeing it leaves the first list with a
   dangling pointer. *)
Theorem C39_added_twice_refuted : exists ops, lop_ok (lfinal no_lists ops) (LRemove 1) /\
  (exists h, lrun 10 (fun _ => None) (fun _ => mkCell false 0 0) no_cells (ops ++ [LAdd 20 1]) = Done h /\
     uecho_list_size 10 h 10 = Some (Ok 1) /\ uecho_list_size 10 h 20 = Some (Ok 1) /\
     uecho_list_next h 10 = Ok 1 /\ uecho_list_prev h 2 = Ok 1) /\
  (exists h, lrun 10 (fun _ => None) (fun _ => mkCell false 0 0) no_cells (ops ++ [LAdd 20 1; LRemove 1; LFree 1]) = Done h /\
     uecho_list_size 10 h 10 = Some (Undef UB_free)).
Proof.
  exists [LHeader 10; LHeader 20; LNode 1; LNode 2; LAdd 10 1; LAdd 10 2]. split; [left; cbn; tauto|]. split.
  - eexists. split; [vm_compute; reflexivity|]. split; [vm_compute; reflexivity|]. split; [vm_compute; reflexivity|].
    split; vm_compute; reflexivity.
  - eexists. split; [vm_compute; reflexivity|]. vm_compute; reflexivity.
Qed.
Print Assumptions C39_added_twice_refuted.

(* An element that is in no list is followed by itself: a loop that goes on from an element which was
   removed meanwhile never ends. *)
Theorem C39_loose_iteration_refuted : forall turns destructor junk ops w h x,
  (forall a, library_destructor (destructor a)) -> (length ops <= turns)%nat -> lruns no_lists ops w ->
  lrun turns destructor junk no_cells ops = Done h -> In x (loose w) ->
  uecho_list_next h x = Ok x /\ forall t, iterate t h x = None.
Proof.
  intros turns destructor junk ops w h x Hd Ht L E Ix.
  destruct (lrun_ok turns destructor junk Hd _ _ _ L no_cells no_cells_rep) as (h' & E' & R); [cbn; lia|].
  assert (h' = h) by congruence. subst h'. destruct (loose_next h w x R Ix) as [Ex _]. split; [exact Ex|].
  assert (Nx : x <> 0) by (apply (rep_alive _ _ R x), used_in; auto).
  induction t as [|t IH]; cbn [iterate]; rewrite (proj2 (Z.eqb_neq x 0) Nx); [reflexivity|]. rewrite Ex, IH. reflexivity.
Qed.
Print Assumptions C39_loose_iteration_refuted.
Example C39_loose_example : exists ops w, lruns no_lists ops w /\ In 1 (loose w) /\ In (LRemove 1) ops.
Proof.
  exists [LHeader 10; LNode 1; LAdd 10 1; LRemove 1], (mkLists [(10, [])] [1]). split; [|split; cbn; tauto].
  repeat (apply lruns_cons; [cbn; tauto || (split; [lia|]; intros J; repeat (destruct J as [J|J]; [discriminate|]); exact J)|]); apply lruns_nil.
Qed.
