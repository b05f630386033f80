(* Histories of public calls on a node, interleaved with received datagrams. *)
From Coq Require Import String ZArith List Bool.
From Verif Require Import CSem M_Const M_Property M_Message M_PropertyList M_Object M_Node M_NodeListener
  Spec_Message Spec_Object Run_Object.
Import ListNotations.
Open Scope Z_scope.

(* calls on one object: those of Spec_Object.v, integer stores, reads (which create a
   missing property, C16), handler and listener registration *)
Inductive ocall : Type :=
| KStep (op : oop) (junk : nat -> Z)
| KSetInt (c v : Z) (size : nat)
| KGet (c : Z)
| KHandler (esv c : Z) (h : option nat)
| KListener (b : bool).

(* property codes are bytes; also the codes below 0x80 that the protocol does not use *)
Definition epc_code (c : Z) : Prop := 0 <= c <= 255.
Definition ocall_ok (k : ocall) : Prop :=
  match k with
  | KStep op junk => oop_ok op /\ (forall c, oop_code op = Some c -> epc_code c)
                     /\ (forall i, is_byte (junk i))
  | KSetInt c _ _ | KGet c => epc_code c
  | KHandler _ _ _ | KListener _ => True
  end.

Definition odo (k : ocall) (o : obj) : res (obj * list prop) :=
  match k with
  | KStep op junk => ostep junk o op
  | KSetInt c v size => uecho_object_setpropertyintegerdata o c v size
  | KGet c => Ok (fst (uecho_object_getpropertydata o c), [])
  | KHandler esv c h => Ok (uecho_object_setpropertyrequesthandler o esv c h, [])
  | KListener b => Ok (uecho_object_setmessagelistener b o, [])
  end.

(* calls on a node.
   [NAdd o]          uecho_node_addobject with an object that is in no node
   [NSet code]       uecho_node_setobject
   [NObj code k]     a call on the object uecho_node_getobjectbycode returns for [code]
   [NManufacturer]   uecho_node_setmanufacturercode
   [NAnnounce]       uecho_node_announce
   [NAnnounceMsg m]  uecho_node_announcemessage
   [NSend d m]       uecho_node_sendmessage to node [d]
   [NReceive …]      a datagram arrives
   [NListener], [NAddr], [NClear] *)
Inductive nop : Type :=
| NAdd (o : obj)
| NSet (code : Z) (junk : nat -> Z)
| NObj (code : Z) (k : ocall)
| NManufacturer (code : Z)
| NAnnounce
| NAnnounceMsg (m : msg)
| NSend (d : node) (m : msg)
| NReceive (data : list Z) (local remote : option string)
           (dec : list (hcall * bool) -> hcall -> bool)
| NListener (b : bool)
| NAddr (a : option string)
| NClear.

Section Run.
Variable le : bool.
Variable net : post -> bool.
Variable db : list obj.

Definition nop_ok (x : nop) : Prop :=
  match x with
  | NAdd o => api_obj db o
  | NSet _ junk => forall i, is_byte (junk i)
  | NObj _ k => ocall_ok k
  | NAnnounceMsg m | NSend _ m => api_msg le m /\ in_memory m
  | NReceive data _ _ _ => buffer data
  | _ => True
  end.

(* node afterwards, frames the node originated, answers to requests *)
Definition nstep (n : node) (x : nop) : res (node * list post * list post) :=
  match x with
  | NAdd o => do r <- uecho_node_addobject le net n o ;; let '(n', ps, _) := r in Ok (n', ps, [])
  | NSet code junk =>
      do r <- uecho_node_setobject le net db junk n code ;; let '(n', ps, _) := r in Ok (n', ps, [])
  | NObj code k => do r <- node_object_op le net (odo k) n code ;; Ok (fst r, snd r, [])
  | NManufacturer code =>
      do r <- uecho_node_setmanufacturercode le net n code ;; Ok (fst r, snd r, [])
  | NAnnounce => do r <- uecho_node_announce le net n ;; let '(n', ps, _) := r in Ok (n', ps, [])
  | NAnnounceMsg m =>
      do s <- uecho_node_announcemessage le net n m ;; Ok (s_node s, s_posts s, [])
  | NSend d m => do s <- uecho_node_sendmessage le net n d m ;; Ok (s_node s, s_posts s, [])
  | NReceive data la ra dec =>
      do r <- node_receive le net dec n data la ra ;; Ok (r_node r, r_anns r, r_answer r)
  | NListener b => Ok (uecho_node_setmessagelistener b n, [], [])
  | NAddr a => Ok (uecho_node_setaddress a n, [], [])
  | NClear => Ok (uecho_node_clear n, [], [])
  end.

(* property data that exist in memory: less than 2^40 bytes each *)
Definition mem_ok (n : node) : Prop :=
  Forall (fun o => Forall (fun p => len (p_data p) <= 1099511627776) (o_props o)) (n_objs n).

(* [nrun n h n' own ans]: the calls [h] lead from [n] to [n'], without undefined behaviour
   and with every state in memory; [own] are the frames originated, [ans] the answers *)
Inductive nrun : node -> list nop -> node -> list post -> list post -> Prop :=
| nrun_nil : forall n, mem_ok n -> nrun n [] n [] []
| nrun_cons : forall n x n1 p1 a1 h n' own ans,
    nop_ok x -> mem_ok n -> nstep n x = Ok (n1, p1, a1) -> nrun n1 h n' own ans ->
    nrun n (x :: h) n' (p1 ++ own) (a1 ++ ans).

(* the nodes uecho_node_new can return, whatever uninitialised memory and random numbers *)
Definition new_node (n : node) : Prop :=
  exists tid0 junk man uniq posts,
    0 <= tid0 < 4294967296 /\ (forall i, is_byte (junk i))
    /\ bytes_ok man /\ bytes_ok uniq
    /\ uecho_node_new le net db tid0 junk man uniq = Ok (n, posts).

(* every node a program can have *)
Definition api_node (n : node) : Prop :=
  exists n0 h own ans, new_node n0 /\ nrun n0 h n own ans.

End Run.

(* group, class and instance codes of the node's objects, in the order they were added *)
Definition eojs (n : node) : list (Z * Z * Z) :=
  map (fun o => (o_grp o, o_cls o, o_ins o)) (n_objs n).
