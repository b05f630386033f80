(* What a program that uses messages through pointers may do, and what it must see: messages as values, one per
   pointer, no memory.  The message functions are the value functions of M_Message.v. *)
From Coq Require Import String ZArith List Bool.
From Verif Require Import CSem M_Const M_Property M_Log M_Server M_Message Spec_Message M_Mem M_MemUse.
Import ListNotations.
Open Scope Z_scope.

(* the caller's messages, in order of creation; None: deleted *)
Definition mstate : Type := list (option msg).
Definition alive (st : mstate) (i : nat) : option msg := match nth_error st i with Some (Some m) => Some m | _ => None end.
Fixpoint put (i : nat) (x : option msg) (st : mstate) : mstate :=
  match st, i with
  | [], _ => []
  | _ :: r, O => x :: r
  | y :: r, S k => y :: put k x r
  end.

Definition shown (v : pvec) : list (Z * Z * list Z) := map (fun p => (p_code p, p_attr p, p_data p)) (stored v).
Definition look (m : msg) : seen :=
  mkSeen (m_tid m) (m_seoj m) (m_deoj m) (m_esv m) (shown (m_p m)) (shown (m_pset m)) (shown (m_pget m))
    (option_map cstr (m_from m)) (option_map cstr (m_to m)).

Definition part_of (w : part) (m : msg) : pvec := match w with PPlain => m_p m | PSet => m_pset m | PGet => m_pget m end.
Definition set_in (w : part) : Z -> list Z -> msg -> res msg :=
  match w with
  | PPlain => M_Message.uecho_message_setproperty
  | PSet => M_Message.uecho_message_setpropertyset
  | PGet => M_Message.uecho_message_setpropertyget
  end.
Definition add_in (w : part) : prop -> msg -> res msg :=
  match w with
  | PPlain => M_Message.uecho_message_addproperty
  | PSet => M_Message.uecho_message_addpropertyset
  | PGet => M_Message.uecho_message_addpropertyget
  end.

Definition defined {A : Type} (r : res A) : option A := match r with Ok a => Some a | Undef _ => None end.
Definition on {A : Type} (o : option A) (f : A -> option (obs * mstate)) : option (obs * mstate) :=
  match o with Some a => f a | None => None end.

(* one call.  None: the pointer is dangling, the two pointers are the same, or the call is undefined on values *)
Definition sstep (le : bool) (op : mop) (st : mstate) : option (obs * mstate) :=
  match op with
  | MNew => Some (ONone, st ++ [Some M_Message.uecho_message_new])
  | MSearch => on (defined M_Message.uecho_message_search_new) (fun m => Some (ONone, st ++ [Some m]))
  | MCopy i => on (alive st i) (fun m => on (defined (M_Message.uecho_message_copy le m)) (fun m' => Some (ONone, st ++ [Some m'])))
  | MDelete i => on (alive st i) (fun _ => Some (OBool true, put i None st))
  | MClear i => on (alive st i) (fun m => on (defined (M_Message.uecho_message_clear m)) (fun m' => Some (OBool true, put i (Some m') st)))
  | MTid i v => on (alive st i) (fun m => Some (OBool true, put i (Some (M_Message.uecho_message_settid le v m)) st))
  | MSrc i c => on (alive st i) (fun m => on (defined (M_Message.uecho_message_setsourceobjectcode c m)) (fun m' => Some (ONone, put i (Some m') st)))
  | MDst i c => on (alive st i) (fun m => on (defined (M_Message.uecho_message_setdestinationobjectcode c m)) (fun m' => Some (ONone, put i (Some m') st)))
  | MEsv i v => on (alive st i) (fun m => Some (OBool true, put i (Some (M_Message.uecho_message_setesv v m)) st))
  | MFrom i a => on (alive st i) (fun m => Some (ONone, put i (Some (M_Message.uecho_message_setsourceaddress a m)) st))
  | MTo i a => on (alive st i) (fun m => Some (ONone, put i (Some (M_Message.uecho_message_setdestinationaddress a m)) st))
  | MSetProp w i code d => on (alive st i) (fun m => on (defined (set_in w code d m)) (fun m' => Some (OBool true, put i (Some m') st)))
  | MAddProp w i code attr d =>
      on (alive st i) (fun m => on (defined (add_in w (mkProp code attr d false) m)) (fun m' => Some (OBool true, put i (Some m') st)))
  | MParse i d => on (alive st i) (fun m => on (defined (M_Message.uecho_message_parse m d)) (fun x => Some (OBool (fst x), put i (Some (snd x)) st)))
  | MPacket i d lo re =>
      on (alive st i) (fun m => on (defined (M_Message.uecho_message_parsepacket m d lo re)) (fun x => Some (OBool (fst x), put i (Some (snd x)) st)))
  | MBytes i => on (alive st i) (fun m => on (defined (M_Message.uecho_message_getbytes m)) (fun l => Some (OBytes l, st)))
  | MSet i j =>
      if Nat.eqb i j then None
      else on (alive st i) (fun m => on (alive st j) (fun s => on (defined (M_Message.uecho_message_set le m s)) (fun m' => Some (OBool true, put i (Some m') st))))
  | MEquals i j =>
      if Nat.eqb i j then None
      else on (alive st i) (fun m => on (alive st j) (fun s => on (defined (M_Message.uecho_message_equals m s)) (fun b => Some (OBool b, st))))
  | MRead i => on (alive st i) (fun m => Some (OSeen (look m), st))
  end.
Fixpoint srun (le : bool) (ops : list mop) (st : mstate) : option (list obs * mstate) :=
  match ops with
  | [] => Some ([], st)
  | op :: r =>
      match sstep le op st with
      | None => None
      | Some (o, st') => match srun le r st' with None => None | Some (os, st2) => Some (o :: os, st2) end
      end
  end.

(* ---- the rules of use ---- *)

(* a C text *)
Definition c_text (o : option string) : Prop :=
  match o with None => True | Some s => Forall (fun c => c <> 0) (cstr s) /\ len (cstr s) < OBJ_MAX end.

(* the arguments are what their C types can hold *)
Definition args_ok (op : mop) : Prop :=
  match op with
  | MSrc _ c | MDst _ c => 0 <= c <= 16777215
  | MEsv _ v => is_byte v
  | MFrom _ o | MTo _ o => c_text o
  | MSetProp _ _ c d => is_byte c /\ buffer d
  | MAddProp _ _ c _ d => is_byte c /\ buffer d
  | MParse _ d => buffer d
  | MPacket _ d lo re => buffer d /\ c_text lo /\ c_text re
  | _ => True
  end.

Definition has (v : pvec) (code : Z) : Prop := exists p, In p (stored v) /\ p_code p = code.

(* every message used has been created and not deleted; two different messages are copied and compared; a list has
   at most 255 properties; a serialised message fits the address space *)
Definition rules (op : mop) (st : mstate) : Prop :=
  match op with
  | MNew | MSearch => True
  | MCopy i | MDelete i | MClear i | MTid i _ | MSrc i _ | MDst i _ | MEsv i _ | MFrom i _ | MTo i _
  | MParse i _ | MPacket i _ _ _ | MRead i => exists m, alive st i = Some m
  | MSetProp w i code _ => exists m, alive st i = Some m /\ (has (part_of w m) code \/ len (stored (part_of w m)) < 255)
  | MAddProp w i _ _ _ => exists m, alive st i = Some m /\ len (stored (part_of w m)) < 255
  | MBytes i => exists m, alive st i = Some m /\ in_memory m
  | MSet i j => i <> j /\ exists m s, alive st i = Some m /\ alive st j = Some s
  | MEquals i j => i <> j /\ exists m s, alive st i = Some m /\ alive st j = Some s /\ in_memory m /\ in_memory s
  end.

(* the whole program keeps to the rules *)
Fixpoint legal (le : bool) (ops : list mop) (st : mstate) : Prop :=
  match ops with
  | [] => True
  | op :: r => args_ok op /\ rules op st /\ forall o st', sstep le op st = Some (o, st') -> legal le r st'
  end.

Definition all_deleted (st : mstate) : Prop := Forall (fun x => x = None) st.

(* a heap with finitely many blocks, all below the next address *)
Definition well (h : heap) : Prop :=
  0 < h_next h /\ exists l, NoDup l /\ forall a, (In a l <-> h_mem h a <> None) /\ (In a l -> 0 < a < h_next h).

(* ---- receiving ---- *)

(* the handlers keep to the rules, delete the messages they make and leave the one they are given *)
Definition well_behaved (le : bool) (prog : mobs -> seen -> list mop) : Prop :=
  forall o m, api_msg le m ->
    legal le (prog o (look m)) [Some m]
    /\ forall os st, srun le (prog o (look m)) [Some m] = Some (os, st) ->
         exists m' r, st = Some m' :: r /\ all_deleted r.
(* what a handler makes of the message it is given *)
Definition makes (le : bool) (prog : mobs -> seen -> list mop) (o : mobs) (m : msg) : msg :=
  match srun le (prog o (look m)) [Some m] with
  | Some (_, Some m' :: _) => m'
  | _ => m
  end.
Definition arrival_ok (x : arrival) : Prop :=
  match x with AData b from local => buffer b /\ c_text (Some from) /\ c_text local | _ => True end.
