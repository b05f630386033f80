(* Histories of public calls on a controller, interleaved with received datagrams. *)
From Coq Require Import String ZArith List Bool.
From Verif Require Import CSem M_Const M_Property M_Message M_PropertyList M_Object M_Node M_NodeListener
  M_Controller Spec_Frame Spec_Message Spec_Object Run_Object Run_Node.
Import ListNotations.
Open Scope Z_scope.

(* [CReceive …]      a datagram arrives
   [CLocal x]        a call on the local node: uecho_controller_sendmessage is [NSend],
                     uecho_controller_announcemessage is [NAnnounceMsg]
   [CShadow a x]     a call on the node uecho_controller_getnodebyaddress returns for [a]
   [CSearch], [CSearchObject code]
   [CEnable], [CDisable] options, [CMsgListener], [CNodeListener]
   [CStart up]       uecho_controller_start, [up] is the result of starting the server
   [CPost d q r]     uecho_controller_postmessage up to its wait
   [CPostEnd]        the rest of uecho_controller_postmessage
   [CFree]           the owner of the two messages of a post that failed frees them *)
Inductive cop : Type :=
| CReceive (data : list Z) (local remote : option string)
           (dec : list (hcall * bool) -> hcall -> bool) (fr : fresh)
| CLocal (x : nop)
| CShadow (a : string) (x : nop)
| CSearch
| CSearchObject (code : Z)
| CEnable (param : Z)
| CDisable (param : Z)
| CMsgListener (b : bool)
| CNodeListener (b : bool)
| CStart (up : bool)
| CPost (d : node) (q r : msg)
| CPostEnd
| CFree.

Definition fresh_ok (fr : fresh) : Prop :=
  0 <= fr_tid fr < 4294967296 /\ (forall i, is_byte (fr_junk fr i))
  /\ bytes_ok (fr_man fr) /\ bytes_ok (fr_uniq fr) /\ (forall k i, is_byte (fr_more fr k i)).

(* datagrams arrive through the controller *)
Definition local_nop (x : nop) : Prop := match x with NReceive _ _ _ _ => False | _ => True end.
(* a program adds objects and properties to a shadow node, and reads, writes and listens to
   them; it does not change its address, clear it, or send through it to a node without address *)
Definition shadow_nop (x : nop) : Prop :=
  match x with
  | NReceive _ _ _ _ | NAddr _ | NClear => False
  | NSend d _ => n_addr d <> None
  | _ => True
  end.

(* what one step does: the controller, the frames its node originated, the answers to
   requests, the listener calls *)
Record cstep_out : Type := mkOut { co_ctrl : ctrl; co_own : list post; co_ans : list post; co_told : list ctold }.

Section Run.
Variable le : bool.
Variable net snet : post -> bool.
Variable db : list obj.

Definition cop_ok (x : cop) : Prop :=
  match x with
  | CReceive data _ _ _ fr => buffer data /\ fresh_ok fr
  | CLocal x => nop_ok le db x /\ local_nop x
  | CShadow _ x => nop_ok le db x /\ shadow_nop x
  | CPost _ q r => api_msg le q /\ in_memory q /\ api_msg le r
  | _ => True
  end.

Definition freed (p : mptr) : mptr := match p with MMsg _ => MWild true | _ => p end.

Definition cstep (c : ctrl) (x : cop) : res cstep_out :=
  match x with
  | CReceive data la ra dec fr =>
      do r <- ctrl_receive le net snet db dec fr c data la ra ;;
      let '(o, y) := r in
      Ok (mkOut (cr_ctrl y) (match o with Some r => r_anns r | None => [] end)
                (match o with Some r => r_answer r | None => [] end) (cr_told y))
  | CLocal x =>
      do r <- nstep le net db (c_node c) x ;;
      let '(n, own, ans) := r in Ok (mkOut (c_with_node n c) own ans [])
  | CShadow a x =>
      match uecho_controller_getnodebyaddress c (Some a) with
      | None => Ok (mkOut c [] [] [])
      | Some n =>
          do r <- nstep le snet db n x ;;
          let '(n', _, _) := r in
          Ok (mkOut (c_with_nodes (put_node (Some a) n' (c_nodes c)) c) [] [] [])
      end
  | CSearch => do s <- uecho_controller_search le net c ;; Ok (mkOut (c_with_node (s_node s) c) (s_posts s) [] [])
  | CSearchObject code =>
      do s <- uecho_controller_searchobject le net c code ;;
      Ok (mkOut (c_with_node (s_node s) c) (s_posts s) [] [])
  | CEnable p => Ok (mkOut (uecho_controller_enableoption c p) [] [] [])
  | CDisable p => Ok (mkOut (uecho_controller_disableoption c p) [] [] [])
  | CMsgListener b => Ok (mkOut (uecho_controller_setmessagelistener b c) [] [] [])
  | CNodeListener b => Ok (mkOut (uecho_controller_setnodelistener b c) [] [] [])
  | CStart up =>
      do r <- uecho_controller_start le net up c ;; let '(c', ps, _) := r in Ok (mkOut c' ps [] [])
  | CPost d q r =>
      do x <- postmessage_begin le net c d q r ;; let '(c', ps, _) := x in Ok (mkOut c' ps [] [])
  | CPostEnd => Ok (mkOut (postmessage_end c) [] [] [])
  | CFree => Ok (mkOut (c_with_post (freed (c_req c)) (freed (c_res c)) c) [] [] [])
  end.

(* every state in memory *)
Definition cmem_ok (c : ctrl) : Prop := mem_ok (c_node c) /\ Forall mem_ok (c_nodes c).

Inductive crun : ctrl -> list cop -> ctrl -> Prop :=
| crun_nil : forall c, cmem_ok c -> crun c [] c
| crun_cons : forall c x out h c', cop_ok x -> cmem_ok c -> cstep c x = Ok out ->
    crun (co_ctrl out) h c' -> crun c (x :: h) c'.

Definition new_ctrl (c : ctrl) : Prop :=
  exists fr b posts, fresh_ok fr /\ uecho_controller_new le net db fr b = Ok (c, posts).

(* every controller a program can have *)
Definition api_ctrl (c : ctrl) : Prop := exists c0 h, new_ctrl c0 /\ crun c0 h c.

End Run.

(* addresses of the known nodes, in the order they became known *)
Definition addresses (c : ctrl) : list (option string) := map n_addr (c_nodes c).

Section Receive.
Variable le : bool.
Variable net snet : post -> bool.
Variable db : list obj.

(* Controller [c], in any state a program can have it in, receives a datagram: frame [f],
   perhaps followed by other bytes; [from] is the sender.  [dec] gives the answers of the
   handlers of the local node, [x] is the reaction of the local node. *)
Definition hears (dec : list (hcall * bool) -> hcall -> bool) (fr : fresh) (c : ctrl) (f : frame) (rest : list Z)
    (la : option string) (from : string) (x : reaction) (y : creaction) : Prop :=
  api_ctrl le net snet db c /\ frame_ok f /\ buffer (enc_frame f ++ rest) /\ fresh_ok fr
  /\ ctrl_receive le net snet db dec fr c (enc_frame f ++ rest) la (Some from) = Ok (Some x, y).

(* a history with the listener calls it leads to *)
Inductive ctrace : ctrl -> list cop -> ctrl -> list ctold -> Prop :=
| ctrace_nil : forall c, cmem_ok c -> ctrace c [] c []
| ctrace_cons : forall c x out h c' told, cop_ok le db x -> cmem_ok c -> cstep le net snet db c x = Ok out ->
    ctrace (co_ctrl out) h c' told -> ctrace c (x :: h) c' (co_told out ++ told).
End Receive.
