(* Model of the example program uechosearch with the option -v (examples/controller/uechosearch/uechosearch.c:27-148): for
   every device found it asks for the manufacturer code and for every property the device must let others read, and
   prints the answers.
   Simplifications: what is printed is given as values, the names of manufacturers, objects and properties (M_Names.v) are
   left out.  The pointers to the node, the object and the property at hand are their places in the lists, which is what
   they are because these lists only grow at their ends.  The program is taken in small steps, one for each turn of a
   loop; with each step come the datagrams that arrive meanwhile: in a step that posts a request those between the sending
   of the request and the end of the wait, else those before the step.  The messages that the library answers to these
   datagrams are left out. *)
From Coq Require Import String ZArith List Bool.
From Verif Require Import CSem M_Const M_Misc M_Property M_Message M_PropertyList M_Object M_Node M_NodeListener M_Controller
  M_Query M_PostTool M_ShowTool Run_Node Run_Controller.
Import ListNotations.
Open Scope Z_scope.

(* uechosearch.c:27-35 create_readpropertymessagebycode; also uechosearch.c:37-42 create_readpropertymessage and
   uechosearch.c:44-49 create_readmanufacturecodemessage with their codes *)
Definition create_readpropertymessagebycode (objCode propCode : Z) : res msg :=
  do m <- uecho_message_setdestinationobjectcode objCode (uecho_message_setesv ESV_Get uecho_message_new) ;;
  uecho_message_setproperty propCode [] m.

(* what is printed: the line of a device with the manufacturer code its name is looked up by (none: unknown), the line of
   an object with its number and code, the line of a property with the two numbers, its code and the data printed (none:
   no response) *)
Inductive vline : Type :=
| VDevice (a : option string) (man : option Z)
| VObject (i : nat) (code : Z)
| VValue (i k : nat) (code : Z) (ds : option (list (list Z))).

(* where the program is: before a device, an object, a property; at the end *)
Inductive vpos : Type := AtNode (i : nat) | AtObj (i j : nat) | AtProp (i j k : nat) | AtEnd.

Section Verbose.
Variable le : bool.
Variable net snet : post -> bool.
Variable db : list obj.

(* datagrams arrive; [true] when the waiting request was signalled *)
Fixpoint vwait (c : ctrl) (w : list arrival) : res (ctrl * bool) :=
  match w with
  | [] => Ok (c, false)
  | x :: r =>
      do y <- ctrl_receive le net snet db (ar_dec x) (ar_fr x) c (ar_data x) (ar_local x) (Some (ar_from x)) ;;
      do z <- vwait (cr_ctrl (snd y)) r ;;
      Ok (fst z, cr_signal (snd y) || snd z)
  end.

(* uechosearch.c:61-73 and uechosearch.c:121-137: a request for one property of an object of [dst] is made, posted and
   waited for, and both messages are deleted: the controller, the requests sent, the response.  When it could not be sent the
   controller keeps the pointers to the two messages (controller.c:495-498) *)
Definition vpost (c : ctrl) (dst : node) (objCode propCode : Z) (w : list arrival) : res (ctrl * list post * option msg) :=
  do q <- create_readpropertymessagebycode objCode propCode ;;
  do x <- postmessage_begin le net c dst q uecho_message_new ;;
  let '(c1, ps, sent) := x in
  if sent then
    do y <- vwait c1 w ;;
    match c_res (fst y) with
    | MMsg r => Ok (postmessage_end (fst y), ps, if snd y then Some r else None)
    | _ => Undef UB_uninit
    end
  else
    do y <- vwait (c_with_post (MWild true) (MWild true) c1) w ;; Ok (fst y, ps, None).

(* uechosearch.c:64-69: the code the name is looked up by *)
Definition manufacturer_of (r : option msg) : res (option Z) :=
  match r with
  | None => Ok None
  | Some m =>
      if uecho_message_getopc m =? 1 then
        do p <- uecho_message_getproperty m 0 ;;
        match p with
        | None => Ok None
        | Some q => do v <- uecho_byte2integer (p_data q) ;; Ok (Some v)
        end
      else Ok None
  end.

(* uechosearch.c:125-134: the data of the properties [n], [n + 1], ... *)
Fixpoint response_data (m : msg) (todo : nat) (n : Z) : res (list (list Z)) :=
  match todo with
  | O => Ok []
  | S t =>
      do p <- uecho_message_getproperty m n ;;
      do r <- response_data m t (n + 1) ;;
      Ok (match p with Some q => p_data q :: r | None => r end)
  end.
Definition values_of (r : option msg) : res (option (list (list Z))) :=
  match r with
  | None => Ok None
  | Some m => do l <- response_data m (Z.to_nat (uecho_message_getopc m)) 0 ;; Ok (Some l)
  end.

(* uechosearch.c:98-147: one turn.  The object asked is the parent of the property; without one uecho_object_getcode
   (object.c:221-234) gives 0 *)
Definition vstep (c : ctrl) (p : vpos) (w : list arrival) : res (ctrl * vpos * list post * list vline) :=
  match p with
  | AtEnd => do y <- vwait c w ;; Ok (fst y, AtEnd, [], [])
  | AtNode i =>
      match nth_error (c_nodes c) i with
      | None => do y <- vwait c w ;; Ok (fst y, AtEnd, [], [])
      | Some n =>
          do x <- vpost c n 978945 138 w ;;
          let '(c1, ps, r) := x in
          do man <- manufacturer_of r ;;
          Ok (c1, AtObj i 0, ps, [VDevice (n_addr n) man])
      end
  | AtObj i j =>
      do y <- vwait c w ;;
      match nth_error (c_nodes (fst y)) i with
      | None => Undef UB_null
      | Some n =>
          match nth_error (n_objs n) j with
          | None => Ok (fst y, AtNode (S i), [], [])
          | Some o => Ok (fst y, AtProp i j 0, [], [VObject j (uecho_object_getcode o)])
          end
      end
  | AtProp i j k =>
      match nth_error (c_nodes c) i with
      | None => Undef UB_null
      | Some n =>
          match nth_error (n_objs n) j with
          | None => Undef UB_null
          | Some o =>
              match nth_error (o_props o) k with
              | None => do y <- vwait c w ;; Ok (fst y, AtObj i (S j), [], [])
              | Some q =>
                  if uecho_property_isreadrequired q then
                    do x <- vpost c n (if p_parent q then uecho_object_getcode o else 0) (p_code q) w ;;
                    let '(c1, ps, r) := x in
                    do ds <- values_of r ;;
                    Ok (c1, AtProp i j (S k), ps, [VValue j k (p_code q) ds])
                  else do y <- vwait c w ;; Ok (fst y, AtProp i j (S k), [], [])
              end
          end
      end
  end.

(* the steps that come with the datagrams [ws] *)
Fixpoint vrun (c : ctrl) (p : vpos) (ws : list (list arrival)) : res (ctrl * vpos * list post * list vline) :=
  match ws with
  | [] => Ok (c, p, [], [])
  | w :: r =>
      do x <- vstep c p w ;;
      let '(c1, p1, s1, t1) := x in
      do y <- vrun c1 p1 r ;;
      let '(c2, p2, s2, t2) := y in
      Ok (c2, p2, s1 ++ s2, t1 ++ t2)
  end.
End Verbose.
