(* What a program with nodes must see: objects and nodes are values, one per pointer; no memory.  The functions on values are those
   of M_Object.v, M_Node.v and M_NodeListener.v. *)
From Coq Require Import String ZArith List Bool.
From Verif Require Import CSem M_NodeLife Spec_Mem M_Const M_Property M_PropertyList M_Object Spec_Object Run_Object Spec_Message M_Node M_NodeListener M_Server
  M_ObjUse Spec_ObjMem.
Import ListNotations.
Open Scope Z_scope.

(* the caller's objects and the database, and the nodes in order of creation (None: deleted) *)
Record nstate : Type := mkNstate { ns_own : ostate; ns_nodes : list (option node) }.
Definition no_nodes : nstate := mkNstate nothing [].

Definition node_at (st : nstate) (k : nat) : option node := match nth_error (ns_nodes st) k with Some (Some n) => Some n | _ => None end.
Fixpoint put_node (k : nat) (x : option node) (l : list (option node)) : list (option node) :=
  match l, k with
  | [], _ => []
  | _ :: r, O => x :: r
  | y :: r, S j => y :: put_node j x r
  end.
Definition with_node (st : nstate) (k : nat) (n : node) : nstate := mkNstate (ns_own st) (put_node k (Some n) (ns_nodes st)).

Section Value.
Variable junk : nat -> Z.
Variable le : bool.
Variable net : post -> bool.
Variable dec : list (hcall * bool) -> hcall -> bool.

(* a call on the object of node [n] with code [code] *)
Definition has_object (n : node) (code : Z) : bool := match uecho_node_getobjectbycode n code with Some _ => true | None => false end.
Definition object_call (f : obj -> res (obj * list prop)) (n : node) (code : Z) : res (nobs * node) :=
  do r <- node_object_op le net f n code ;; Ok (VCall (has_object n code) (snd r), fst r).
Definition quiet (f : obj -> obj) (o : obj) : res (obj * list prop) := Ok (f o, []).

Definition node_call (db : list obj) (op : nop) (n : node) : res (nobs * node) :=
  match op with
  | NClear _ => Ok (VCall true [], uecho_node_clear n)
  | NSet _ code => do r <- uecho_node_setobject le net db junk n code ;; let '(n', posts, b) := r in Ok (VCall b posts, n')
  | NListen _ b => Ok (VDone, uecho_node_setmessagelistener b n)
  | NAddress _ a => Ok (VDone, uecho_node_setaddress (Some a) n)
  | NAnnounce _ => do r <- uecho_node_announce le net n ;; let '(n', posts, b) := r in Ok (VCall b posts, n')
  | NReceive _ d from local =>
      do r <- node_receive le net dec n (firstn RECV_BUFSIZE d) local (Some from) ;;
      Ok (VReact (r_anns r ++ r_answer r, r_calls r, r_told r), r_node r)
  | NRead _ code => Ok (VObject (option_map look (uecho_node_getobjectbycode n code)), n)
  | NData _ code c d => object_call (fun o => Ok (uecho_object_setpropertydata o c d)) n code
  | NInt _ code c v size => object_call (fun o => uecho_object_setpropertyintegerdata o c v size) n code
  | NAttr _ code c a => object_call (quiet (fun o => uecho_object_setpropertyattribute o c a)) n code
  | NHandler _ code esv c h => object_call (quiet (fun o => uecho_object_setpropertyrequesthandler o esv c h)) n code
  | NWatch _ code b => do r <- object_call (quiet (uecho_object_setmessagelistener b)) n code ;; Ok (VDone, snd r)
  | NOwn _ | NNew _ _ _ | NDelete _ | NAdd _ _ => Ok (VDone, n)
  end.
Definition node_of (op : nop) : nat :=
  match op with
  | NOwn _ | NNew _ _ _ => O
  | NDelete k | NClear k | NAdd k _ | NSet k _ | NListen k _ | NAddress k _ | NAnnounce k | NReceive k _ _ _ | NRead k _ | NData k _ _ _
  | NInt k _ _ _ _ | NAttr k _ _ _ | NHandler k _ _ _ _ | NWatch k _ _ => k
  end.

(* one call; None: a pointer to something deleted or given away, or a call that is undefined on values *)
Definition nvalue (op : nop) (st : nstate) : option (nobs * nstate) :=
  match op with
  | NOwn u =>
      match vstep junk u (ns_own st) with
      | Some (v, o) => Some (VOwn v, mkNstate o (ns_nodes st))
      | None => None
      end
  | NNew t man uniq =>
      match uecho_node_new le net (s_db (ns_own st)) t junk man uniq with
      | Ok (n, posts) => Some (VCall true posts, mkNstate (ns_own st) (ns_nodes st ++ [Some n]))
      | Undef _ => None
      end
  | NDelete k =>
      match node_at st k with
      | Some _ => Some (VCall true [], mkNstate (ns_own st) (put_node k None (ns_nodes st)))
      | None => None
      end
  | NAdd k i =>
      match node_at st k, mine (ns_own st) i with
      | Some n, Some o =>
          match uecho_node_addobject le net n o with
          | Ok (n', posts, b) =>
              (* the object stays with the caller when the node has an object with its code *)
              let own := if has_object n (uecho_object_getcode o) then ns_own st
                         else mkOstate (place i None (s_objs (ns_own st))) (s_db (ns_own st)) in
              Some (VCall b posts, mkNstate own (put_node k (Some n') (ns_nodes st)))
          | Undef _ => None
          end
      | _, _ => None
      end
  | _ =>
      match node_at st (node_of op) with
      | Some n =>
          match node_call (s_db (ns_own st)) op n with
          | Ok (v, n') => Some (v, with_node st (node_of op) n')
          | Undef _ => None
          end
      | None => None
      end
  end.
Fixpoint nvalues (ops : list nop) (st : nstate) : option (list nobs * nstate) :=
  match ops with
  | [] => Some ([], st)
  | op :: r =>
      match nvalue op st with
      | None => None
      | Some (v, st') => match nvalues r st' with None => None | Some (vs, st2) => Some (v :: vs, st2) end
      end
  end.

(* ---- the rules of use ---- *)

(* codes of objects are three bytes, data is bytes of memory, addresses are C strings, integers have at most four bytes *)
Definition nargs_ok (op : nop) : Prop :=
  match op with
  | NOwn u => args_ok u
  | NSet _ code => 0 <= code <= 16777215
  | NAddress _ a => c_text (Some a)
  | NReceive _ d from local => buffer d /\ c_text (Some from) /\ c_text local
  | NData _ _ _ d => buffer d
  | NInt _ _ _ _ size => (size <= 4)%nat
  | _ => True
  end.
Definition nrules (op : nop) (st : nstate) : Prop :=
  match op with NOwn u => rules u (ns_own st) | _ => True end.
Fixpoint nlegal (ops : list nop) (st : nstate) : Prop :=
  match ops with
  | [] => True
  | op :: r => nargs_ok op /\ nrules op st /\ forall v st', nvalue op st = Some (v, st') -> nlegal r st'
  end.
End Value.

(* everything was deleted, or given to a node or the database that was, or will be, deleted *)
Definition nothing_left (st : nstate) : Prop := all_gone (ns_own st) /\ Forall (fun x => x = None) (ns_nodes st).
