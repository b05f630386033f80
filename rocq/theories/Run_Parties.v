(* Any number of devices and controllers on one network, reacting to what reaches them. *)
From Coq Require Import String ZArith List Bool Permutation.
From Verif Require Import CSem M_Const M_Property M_Message M_PropertyList M_Object M_Std M_Node M_NodeListener
  M_Controller Spec_Frame Spec_Message Spec_Object Spec_Request Run_Object Run_Node Run_Controller Run_System.
Import ListNotations.
Open Scope Z_scope.

Inductive party : Type := Device (n : node) | Controller (c : ctrl).

(* the datagrams under way: who gets them, and their bytes *)
Definition flight : Type := list (nat * list Z).
Definition network : Type := (list party * flight)%type.

(* a frame sent by somebody reaches everybody at most once, perhaps cut short *)
Definition copy_of (d : nat * list Z) (e : nat * post) : Prop :=
  fst d = fst e /\ exists k, snd d = firstn k (frame_bytes (snd e)).
Definition spread (count : nat) (posts : list post) (copies : flight) : Prop :=
  exists got lost, Permutation (got ++ lost) (list_prod (seq 0 count) posts) /\ Forall2 copy_of copies got.

Fixpoint replace {A} (i : nat) (x : A) (l : list A) : list A :=
  match l, i with
  | [], _ => []
  | _ :: r, O => x :: r
  | y :: r, S i' => y :: replace i' x r
  end.

Definition party_mem (p : party) : Prop := match p with Device n => mem_ok n | Controller c => cmem_ok c end.

Section Net.
(* byte order of every party, and which of its sends succeed (second: of a controller's copies) *)
Variable le : nat -> bool.
Variable net snet : nat -> post -> bool.

(* a party gets a datagram: the party afterwards and the frames it sends *)
Definition hear (i : nat) (p : party) (data : list Z) (la ra : option string)
  (dec : list (hcall * bool) -> hcall -> bool) (fr : fresh) : res (party * list post) :=
  match p with
  | Device n =>
      do r <- nstep (le i) (net i) std_db n (NReceive data la ra dec) ;;
      let '(n', own, ans) := r in Ok (Device n', own ++ ans)
  | Controller c =>
      do out <- cstep (le i) (net i) (snet i) std_db c (CReceive data la ra dec fr) ;;
      Ok (Controller (co_ctrl out), co_own out ++ co_ans out)
  end.

(* one of the datagrams under way is lost, or delivered and reacted to *)
Inductive net_step : network -> network -> Prop :=
| net_lost : forall ps fl1 d fl2, net_step (ps, fl1 ++ d :: fl2) (ps, fl1 ++ fl2)
| net_deliver : forall ps fl1 i data fl2 p p' posts la ra dec fr copies,
    nth_error ps i = Some p -> buffer data -> fresh_ok fr ->
    (* a node that is made gets its 3 and 13 random bytes *)
    (3 <= length (fr_man fr))%nat -> (13 <= length (fr_uniq fr))%nat ->
    hear i p data la ra dec fr = Ok (p', posts) -> party_mem p' ->
    spread (length ps) posts copies ->
    net_step (ps, fl1 ++ (i, data) :: fl2) (replace i p' ps, fl1 ++ fl2 ++ copies).

Inductive net_run : nat -> network -> network -> Prop :=
| net_run_0 : forall s, net_run 0 s s
| net_run_S : forall k s s1 s', net_step s s1 -> net_run k s1 s' -> net_run (S k) s s'.

(* what programs can have *)
Definition party_ok (i : nat) (p : party) : Prop :=
  match p with
  | Device n => api_node (le i) (net i) std_db n
  | Controller c => api_ctrl (le i) (net i) (snet i) std_db c
  end.
Definition parties_ok (ps : list party) : Prop := forall i p, nth_error ps i = Some p -> party_ok i p.
End Net.

(* a datagram whose service byte, the eleventh, asks for something: SetI 0x60, SetC 0x61, Get 0x62,
   INF_REQ 0x63, SetGet 0x6E, INFC 0x74 *)
Definition requestb (data : list Z) : bool :=
  match nth_error data 10 with
  | Some e => existsb (Z.eqb e) [96; 97; 98; 99; 110; 116]
  | None => false
  end.
Definition requests (fl : flight) : nat := length (filter (fun d => requestb (snd d)) fl).
