(* Model of the example programs uechosearch (examples/controller/uechosearch/uechosearch.c), which lists the devices it
   finds, and uechodump (examples/controller/uechodump/uechodump.c), which shows every frame it receives.  Texts are
   lists of character codes.
   Simplifications: the option -d, uecho_controller_stop and uecho_controller_delete at the end, and a controller that
   cannot be made or started are left out.  No datagram arrives while the list without -v is being printed. *)
From Coq Require Import String Ascii ZArith List Bool.
From Verif Require Import CSem M_Const M_Property M_Message M_PropertyList M_Object M_Node M_NodeListener M_Controller M_Query M_PostTool Run_Node Run_Controller.
Import ListNotations.
Open Scope Z_scope.

(* ---- printf ---- *)

Fixpoint to_dec (fuel : nat) (v : Z) : list Z :=
  match fuel with
  | O => []
  | S f => (if v <? 10 then [] else to_dec f (v / 10)) ++ [48 + v mod 10]
  end.
(* printf("%d"), printf("%ld") of a number that is not negative *)
Definition fmt_d (v : Z) : list Z := to_dec 20 v.
(* printf("%-15s") *)
Definition fmt_s15 (t : list Z) : list Z := t ++ repeat 32 (15 - length t).

(* a datagram: bytes, addresses, the answers of the local node's handlers, uninitialised memory met *)
Record arrival : Type := mkArr {
  ar_data : list Z; ar_local : option string; ar_from : string;
  ar_dec : list (hcall * bool) -> hcall -> bool; ar_fr : fresh }.
Definition arrives (x : arrival) : cop := CReceive (ar_data x) (ar_local x) (Some (ar_from x)) (ar_dec x) (ar_fr x).

(* ---- uechosearch ---- *)

(* uechosearch.c:102-105: the objects [i], [i + 1], ... of a node *)
Fixpoint print_objects (os : list obj) (i : Z) : list Z :=
  match os with
  | [] => []
  | o :: r => [91] ++ fmt_d i ++ [93; 32] ++ fmt_X 6 (uecho_object_getcode o) ++ [32] ++ print_objects r (i + 1)
  end.
(* uechosearch.c:98-108, one turn without -v; printing a NULL address is undefined *)
Definition print_node (n : node) : res (list Z) :=
  match n_addr n with
  | None => Undef UB_null
  | Some a => Ok (fmt_s15 (chars a) ++ [32] ++ print_objects (n_objs n) 0 ++ [10])
  end.
Fixpoint print_nodes (l : list node) : res (list Z) :=
  match l with
  | [] => Ok []
  | n :: r => do t <- print_node n ;; do u <- print_nodes r ;; Ok (t ++ u)
  end.
(* uechosearch.c:79-148 print_founddevices without -v, called as in uechosearch.c:203-206 of main *)
Definition print_founddevices (c : ctrl) : res (list Z) :=
  if 0 <? len (c_nodes c) then print_nodes (c_nodes c) else Ok [].

(* uechosearch.c:197-201 of main: the calls after the controller has been made, and what arrives before the list is printed *)
Definition uechosearch_calls (arr : list arrival) : list cop := CStart true :: CSearch :: map arrives arr.

(* ---- uechodump ---- *)

(* uechodump.c:49-52: the codes of the properties [n], [n + 1], ... *)
Fixpoint print_codes (m : msg) (todo : nat) (n : Z) : res (list Z) :=
  match todo with
  | O => Ok []
  | S k =>
      do p <- uecho_message_getproperty m n ;;
      do r <- print_codes m k (n + 1) ;;
      Ok (fmt_X 2 (match p with Some q => p_code q | None => 0 end) ++ r)
  end.
(* uechodump.c:33-55 uecho_print_multicastmessages; printing a NULL address is undefined *)
Definition uecho_print_multicastmessages (le : bool) (m : msg) : res (list Z) :=
  match m_from m with
  | None => Undef UB_null
  | Some a =>
      do sc <- uecho_message_getsourceobjectcode m ;;
      do dc <- uecho_message_getdestinationobjectcode m ;;
      do r <- print_codes m (Z.to_nat (uecho_message_getopc m)) 0 ;;
      Ok (chars a ++ [32] ++ fmt_X 1 (uecho_message_getehd1 m) ++ [32] ++ fmt_X 1 (uecho_message_getehd2 m) ++ [32]
          ++ fmt_X 2 (uecho_message_gettid le m) ++ [32] ++ fmt_X 3 sc ++ [32] ++ fmt_X 3 dc ++ [32]
          ++ fmt_X 2 (uecho_message_getesv m) ++ [32] ++ fmt_d (uecho_message_getopc m) ++ [32] ++ r ++ [10])
  end.

(* what the program meets: a key (what getchar returns), a datagram *)
Inductive devent : Type := DKey (k : Z) | DGot (x : arrival).
(* what it shows: a line for a message, the list of keys *)
Inductive shown : Type := ShLine (t : list Z) | ShKeys.

(* uechodump.c:103-106 of main: the calls after the controller has been made *)
Definition uechodump_calls : list cop := [CMsgListener true; CStart true].

Section Dump.
Variable le : bool.
Variable net snet : post -> bool.
Variable db : list obj.

(* the message listener, called for each [ToldMsg] with the message received *)
Fixpoint dump_told (told : list ctold) (m : msg) : res (list shown) :=
  match told with
  | [] => Ok []
  | ToldMsg :: r => do t <- uecho_print_multicastmessages le m ;; do u <- dump_told r m ;; Ok (ShLine t :: u)
  | ToldStatus _ _ :: r => dump_told r m
  end.
Definition dump_got (c : ctrl) (x : arrival) : res (ctrl * list shown * list post) :=
  do y <- ctrl_receive le net snet db (ar_dec x) (ar_fr x) c (ar_data x) (ar_local x) (Some (ar_from x)) ;;
  do p <- uecho_message_parsepacket uecho_message_new (ar_data x) (ar_local x) (Some (ar_from x)) ;;
  do s <- dump_told (cr_told (snd y)) (snd p) ;;
  Ok (cr_ctrl (snd y), s, match fst y with Some r => r_anns r ++ r_answer r | None => [] end).

(* uechodump.c:108-123, one turn of the loop of main: the controller, what is shown, what is sent *)
Definition dump_key (c : ctrl) (k : Z) : res (ctrl * list shown * list post) :=
  if k <? 0 then Ok (c, [], [])
  else if (k =? 115) || (k =? 83) then
    do s <- uecho_controller_search le net c ;; Ok (c_with_node (s_node s) c, [], s_posts s)
  else Ok (c, [ShKeys], []).

(* uechodump.c:108-123: until q; [true] when the loop has ended *)
Fixpoint uechodump (c : ctrl) (es : list devent) : res (ctrl * list shown * list post * bool) :=
  match es with
  | [] => Ok (c, [], [], false)
  | DKey k :: r =>
      do x <- dump_key c k ;;
      let '(c1, s, p) := x in
      if k =? 113 then Ok (c1, s, p, true)
      else do y <- uechodump c1 r ;; let '(c2, s2, p2, q) := y in Ok (c2, s ++ s2, p ++ p2, q)
  | DGot a :: r =>
      do x <- dump_got c a ;;
      let '(c1, s, p) := x in
      do y <- uechodump c1 r ;; let '(c2, s2, p2, q) := y in Ok (c2, s ++ s2, p ++ p2, q)
  end.
End Dump.
