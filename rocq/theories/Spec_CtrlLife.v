(* What a program with a controller must see: objects, nodes, messages and the controller are values; no memory.  The functions on
   values are those of M_Controller.v; Spec_NodeLife.v and Spec_Mem.v say what calls on nodes and messages do. *)
From Coq Require Import String ZArith List Bool.
From Verif Require Import CSem M_CtrlUse M_NodeLife Spec_Mem M_Const M_Property M_PropertyList M_Object Spec_Object Run_Object Spec_Message M_Message M_Node M_NodeListener M_Server
  M_Controller M_MemUse M_ObjUse Spec_ObjMem Spec_NodeLife.
Import ListNotations.
Open Scope Z_scope.

(* the caller's objects, the database and nodes; its messages; its controller; the two messages it lent to a request that waits *)
Record kstate : Type := mkKstate { ks_nodes : nstate; ks_msgs : mstate; ks_ctrl : option ctrl; ks_lent : option (nat * nat) }.
Definition no_ctrl : kstate := mkKstate no_nodes [] None None.

Definition with_ctrl (st : kstate) (c : ctrl) : kstate := mkKstate (ks_nodes st) (ks_msgs st) (Some c) (ks_lent st).
Definition with_message (i : nat) (m : msg) (st : kstate) : kstate := mkKstate (ks_nodes st) (Spec_Mem.put i (Some m) (ks_msgs st)) (ks_ctrl st) (ks_lent st).
Definition try {A B : Type} (r : res A) (f : A -> option B) : option B := match r with Ok a => f a | Undef _ => None end.
Definition given {A B : Type} (o : option A) (f : A -> option B) : option B := match o with Some a => f a | None => None end.

Section Value.
Variable junk : nat -> Z.
Variable le : bool.
Variable net snet : post -> bool.
Variable dec : list (hcall * bool) -> hcall -> bool.

Definition seen_at (c : ctrl) (a : string) (code : Z) : option (node * obj) :=
  match uecho_controller_getnodebyaddress c (Some a) with
  | None => None
  | Some n => match uecho_node_getobjectbycode n code with None => None | Some o => Some (n, o) end
  end.
Definition heard (r : option reaction) : list post * list (hcall * bool) * list told :=
  match r with Some r => (r_anns r ++ r_answer r, r_calls r, r_told r) | None => ([], [], []) end.

(* a call on the controller *)
Definition ctrl_call (op : kop) (c : ctrl) (st : kstate) : option (kobs * kstate) :=
  let own := ns_own (ks_nodes st) in
  match op with
  | KDelete => match ks_lent st with None => Some (XBool true, mkKstate (ks_nodes st) (ks_msgs st) None None) | Some _ => None end
  | KStart up => try (uecho_controller_start le net up c) (fun r => let '(c', posts, b) := r in Some (XCall b posts, with_ctrl st c'))
  | KListen b => Some (XDone, with_ctrl st (uecho_controller_setmessagelistener b c))
  | KWatch b => Some (XDone, with_ctrl st (uecho_controller_setnodelistener b c))
  | KEnable p => Some (XBool true, with_ctrl st (uecho_controller_enableoption c p))
  | KDisable p => Some (XBool true, with_ctrl st (uecho_controller_disableoption c p))
  | KEnabled p => Some (XBool (uecho_controller_isoptionenabled c p), st)
  | KLocal o =>
      (* the local node is not deleted by such a call, and no other node is made *)
      given (nvalue junk le net dec o (mkNstate own [Some (c_node c)])) (fun r =>
        match ns_nodes (snd r) with
        | [Some n] => Some (XNodes (fst r), mkKstate (mkNstate (ns_own (snd r)) (ns_nodes (ks_nodes st))) (ks_msgs st) (Some (c_with_node n c)) (ks_lent st))
        | _ => None
        end)
  | KSearch esv => try (uecho_controller_searchwithesv le net c esv) (fun s => Some (XCall (s_ret s) (s_posts s), with_ctrl st (c_with_node (s_node s) c)))
  | KSearchObject code esv =>
      try (uecho_controller_searchobjectwithesv le net c code esv) (fun s => Some (XCall (s_ret s) (s_posts s), with_ctrl st (c_with_node (s_node s) c)))
  | KAnnounce i =>
      given (alive (ks_msgs st) i) (fun m =>
        try (uecho_controller_announcemessage le net c m) (fun s =>
          Some (XCall (s_ret s) (s_posts s), with_message i (s_msg s) (with_ctrl st (c_with_node (s_node s) c)))))
  | KSend a code i =>
      given (alive (ks_msgs st) i) (fun m =>
        match seen_at c a code with
        | None => Some (XCall false [], st)
        | Some (n, o) =>
            try (uecho_object_sendmessage le net c n o m) (fun s =>
              Some (XCall (s_ret s) (s_posts s), with_message i (s_msg s) (with_ctrl st (c_with_node (s_node s) c))))
        end)
  | KPost a i j =>
      (* one request at a time, and two different messages *)
      match ks_lent st with
      | Some _ => None
      | None =>
          if Nat.eqb i j then None
          else given (alive (ks_msgs st) i) (fun q => given (alive (ks_msgs st) j) (fun p =>
            match uecho_controller_getnodebyaddress c (Some a) with
            | None => Some (XCall false [], with_ctrl st (c_with_post (MWild true) (MWild true) c))
            | Some n =>
                try (uecho_controller_sendmessage le net c n q) (fun s =>
                  let c' := c_with_node (s_node s) c in
                  if s_ret s then
                    (* the caller waits; the messages are with the controller *)
                    Some (XCall true (s_posts s),
                          mkKstate (ks_nodes st) (Spec_Mem.put i None (Spec_Mem.put j None (ks_msgs st))) (Some (c_with_post (MMsg (s_msg s)) (MMsg p) c')) (Some (i, j)))
                  else
                    (* the caller has its messages again; the controller still points to them *)
                    Some (XCall false (s_posts s), with_message i (s_msg s) (with_ctrl st (c_with_post (MWild true) (MWild true) c'))))
            end))
      end
  | KWait =>
      match ks_lent st, c_req c, c_res c with
      | Some (i, j), MMsg q, MMsg p =>
          Some (XDone, mkKstate (ks_nodes st) (Spec_Mem.put i (Some q) (Spec_Mem.put j (Some p) (ks_msgs st))) (Some (c_with_post MNull MNull c)) None)
      | _, _, _ => None
      end
  | KReceive fr d from local =>
      try (ctrl_receive le net snet (s_db own) dec fr c (firstn RECV_BUFSIZE d) local (Some from)) (fun r =>
        Some (XReact (heard (fst r)) (cr_told (snd r)) (cr_signal (snd r)), with_ctrl st (cr_ctrl (snd r))))
  | KCount => Some (XCount (uecho_controller_getnodecount c), st)
  | KRead a code => Some (XObject (option_map (fun x => Spec_ObjMem.look (snd x)) (seen_at c a code)), st)
  | KFind code => Some (XObject (option_map Spec_ObjMem.look (uecho_controller_getobjectbycode c code)), st)
  | KNodes _ | KMsg _ | KNew _ _ => None
  end.

(* one call; None: a pointer to something deleted, given away or lent, or a call that is undefined on values *)
Definition kvalue (op : kop) (st : kstate) : option (kobs * kstate) :=
  match op with
  | KNodes o => given (nvalue junk le net dec o (ks_nodes st)) (fun r => Some (XNodes (fst r), mkKstate (snd r) (ks_msgs st) (ks_ctrl st) (ks_lent st)))
  | KMsg o => given (sstep le o (ks_msgs st)) (fun r => Some (XMsg (fst r), mkKstate (ks_nodes st) (snd r) (ks_ctrl st) (ks_lent st)))
  | KNew wild fr =>
      match ks_ctrl st with
      | Some _ => None
      | None =>
          try (uecho_controller_new le net (s_db (ns_own (ks_nodes st))) fr (negb (wild =? 0))) (fun r =>
            Some (XCall true (snd r), mkKstate (ks_nodes st) (ks_msgs st) (Some (fst r)) None))
      end
  | _ => given (ks_ctrl st) (fun c => ctrl_call op c st)
  end.
Fixpoint kvalues (ops : list kop) (st : kstate) : option (list kobs * kstate) :=
  match ops with
  | [] => Some ([], st)
  | op :: r => given (kvalue op st) (fun x => given (kvalues r (snd x)) (fun y => Some (fst x :: fst y, snd y)))
  end.

(* ---- the rules of use ---- *)

Definition kargs_ok (op : kop) : Prop :=
  match op with
  | KNodes o | KLocal o => nargs_ok o
  | KMsg o => Spec_Mem.args_ok o
  | KSend a _ _ | KPost a _ _ | KRead a _ => c_text (Some a)
  | KReceive _ d from local => buffer d /\ c_text (Some from) /\ c_text local
  | _ => True
  end.
(* an object of a node found in the network has a few properties: 2^40 *)
Definition modest (o : obj) : Prop := Z.of_nat (o_getsz o + length (o_props o)) <= 1099511627776.
Definition krules (op : kop) (st : kstate) : Prop :=
  match op with
  | KNodes o | KLocal o => nrules o (ks_nodes st)
  | KReceive _ _ _ _ => forall c n o, ks_ctrl st = Some c -> In n (c_nodes c) -> In o (n_objs n) -> modest o
  | _ => True
  end.
Fixpoint klegal (ops : list kop) (st : kstate) : Prop :=
  match ops with
  | [] => True
  | op :: r => kargs_ok op /\ krules op st /\ forall v st', kvalue op st = Some (v, st') -> klegal r st'
  end.
End Value.

(* everything was deleted *)
Definition all_deleted (st : kstate) : Prop :=
  nothing_left (ks_nodes st) /\ Forall (fun x => x = None) (ks_msgs st) /\ ks_ctrl st = None.
