(* Model of src/uecho/controller.c and src/uecho/controller_listener.c.

   A controller owns a local node and a list of shadow nodes, one per device it has heard
   of.  Shadow nodes are nodes whose server is never started: [snet] gives the arbitrary
   results of handing frames to such a server and the frames themselves are dropped
   (M_Server.v models the servers).

   Memory the library leaves unspecified, and random numbers, come with each call as a
   [fresh] value.  The controller functions are called with a non-NULL controller. *)
From Coq Require Import String ZArith List Bool.
From Verif Require Import CSem M_Const M_Misc M_Property M_Message M_PropertyList M_Object M_Node M_NodeListener.
Import ListNotations.
Open Scope Z_scope.

(* a message pointer: NULL, a pointer that must not be followed (its bits are NULL or not),
   or the address of a live message with this content *)
Inductive mptr : Type :=
| MNull
| MWild (nonnull : bool)
| MMsg (m : msg).

(* _controller.h:36-48 the controller; the mutex and the condition variable are in M_Post.v *)
Record ctrl : Type := mkCtrl {
  c_node : node;             (* local node *)
  c_nodes : list node;       (* shadow nodes *)
  c_msglistener : bool;
  c_nodelistener : bool;
  c_option : Z;
  c_req : mptr;              (* postReqMsg *)
  c_res : mptr               (* postResMsg *)
}.
Definition c_with_node (n : node) (c : ctrl) : ctrl :=
  mkCtrl n (c_nodes c) (c_msglistener c) (c_nodelistener c) (c_option c) (c_req c) (c_res c).
Definition c_with_nodes (l : list node) (c : ctrl) : ctrl :=
  mkCtrl (c_node c) l (c_msglistener c) (c_nodelistener c) (c_option c) (c_req c) (c_res c).
Definition c_with_option (o : Z) (c : ctrl) : ctrl :=
  mkCtrl (c_node c) (c_nodes c) (c_msglistener c) (c_nodelistener c) o (c_req c) (c_res c).
Definition c_with_post (q r : mptr) (c : ctrl) : ctrl :=
  mkCtrl (c_node c) (c_nodes c) (c_msglistener c) (c_nodelistener c) (c_option c) q r.

(* node.h uEchoNodeStatus *)
Inductive status : Type := StAdded | StUpdated | StAnnounced | StResponded.

(* calls of the controller's listeners; a node is shown by its address *)
Inductive ctold : Type :=
| ToldMsg
| ToldStatus (addr : option string) (s : status).

(* unspecified memory and random numbers met while a shadow node is created ([fr_tid],
   [fr_junk], [fr_man], [fr_uniq]) and in the k-th further call ([fr_more k]) *)
Record fresh : Type := mkFresh {
  fr_tid : Z;
  fr_junk : nat -> Z;
  fr_man : list Z;
  fr_uniq : list Z;
  fr_more : nat -> nat -> Z
}.

(* ---- options ---- *)

(* controller.c:271-278 uecho_controller_enableoption *)
Definition uecho_controller_enableoption (c : ctrl) (param : Z) : ctrl :=
  c_with_option (Z.lor (c_option c) param) c.
(* controller.c:284-291 uecho_controller_disableoption *)
Definition uecho_controller_disableoption (c : ctrl) (param : Z) : ctrl :=
  c_with_option (Z.lxor (c_option c) param) c.
(* controller.c:297-303 uecho_controller_isoptionenabled *)
Definition uecho_controller_isoptionenabled (c : ctrl) (param : Z) : bool :=
  negb (Z.land (c_option c) param =? 0).
(* controller.c:309-312 uecho_controller_disableudpserver *)
Definition uecho_controller_disableudpserver (c : ctrl) : ctrl := uecho_controller_enableoption c 1.

(* controller.c uecho_controller_setmessagelistener, uecho_controller_setnodelistener *)
Definition uecho_controller_setmessagelistener (b : bool) (c : ctrl) : ctrl :=
  mkCtrl (c_node c) (c_nodes c) b (c_nodelistener c) (c_option c) (c_req c) (c_res c).
Definition uecho_controller_setnodelistener (b : bool) (c : ctrl) : ctrl :=
  mkCtrl (c_node c) (c_nodes c) (c_msglistener c) b (c_option c) (c_req c) (c_res c).

(* ---- shadow nodes ---- *)

(* node.c:173-187 uecho_node_isaddress: uecho_streq of a NULL string is false *)
Definition uecho_node_isaddress (n : node) (a : option string) : bool :=
  match n_addr n, a with
  | Some x, Some y => String.eqb x y
  | _, _ => false
  end.

(* controller.c:212-225 uecho_controller_getnodebyaddress: first match *)
Fixpoint node_byaddress (l : list node) (a : option string) : option node :=
  match l with
  | [] => None
  | n :: r => if uecho_node_isaddress n a then Some n else node_byaddress r a
  end.
Definition uecho_controller_getnodebyaddress (c : ctrl) (a : option string) : option node :=
  node_byaddress (c_nodes c) a.

(* stores made through the pointer uecho_controller_getnodebyaddress returns *)
Fixpoint put_node (a : option string) (n' : node) (l : list node) : list node :=
  match l with
  | [] => []
  | n :: r => if uecho_node_isaddress n a then n' :: r else n :: put_node a n' r
  end.

(* controller.c:231-246 uecho_controller_getobjectbycode *)
Fixpoint nodes_getobject (l : list node) (code : Z) : option obj :=
  match l with
  | [] => None
  | n :: r => match uecho_node_getobjectbycode n code with
              | Some o => Some o
              | None => nodes_getobject r code
              end
  end.
Definition uecho_controller_getobjectbycode (c : ctrl) (code : Z) : option obj :=
  nodes_getobject (c_nodes c) code.

(* controller.c:182-188 uecho_controller_addnode *)
Definition uecho_controller_addnode (c : ctrl) (n : node) : ctrl := c_with_nodes (c_nodes c ++ [n]) c.
(* controller.c:194-197 uecho_controller_getnodecount *)
Definition uecho_controller_getnodecount (c : ctrl) : Z := len (c_nodes c).

(* ---- the posted request ---- *)

(* controller.c:380-383 uecho_controller_haspostrequestmessage,
   controller.c:407-410 uecho_controller_haspostresponsemessage *)
Definition mptr_set (p : mptr) : bool :=
  match p with MNull => false | MWild b => b | MMsg _ => true end.
(* controller.c:446-452 uecho_controller_ispostresponsewaiting *)
Definition uecho_controller_ispostresponsewaiting (c : ctrl) : bool :=
  mptr_set (c_req c) && mptr_set (c_res c).

Section Ctrl.
Variable le : bool.
Variable net snet : post -> bool.
Variable db : list obj.

(* controller.c:416-425 uecho_controller_ispostresponsemessage *)
Definition uecho_controller_ispostresponsemessage (c : ctrl) (m : msg) : res bool :=
  match c_req c with
  | MNull => Ok false
  | MWild b => if b then Undef UB_uninit else Ok false
  | MMsg q => Ok (uecho_message_isresponsemessage le q m)
  end.

(* controller_listener.c:149-156 uecho_controller_handlepostresponse: the controller and
   whether the condition variable was signalled *)
Definition uecho_controller_handlepostresponse (c : ctrl) (m : msg) : res (ctrl * bool) :=
  do b <- uecho_controller_ispostresponsemessage c m ;;
  if negb b then Ok (c, false)
  else match c_res c with
       | MNull => Ok (c, true)
       | MWild b => if b then Undef UB_uninit else Ok (c, true)
       | MMsg r => do r' <- uecho_message_set le r m ;; Ok (c_with_post (c_req c) (MMsg r') c, true)
       end.

(* ---- search responses ---- *)

(* controller_listener.c:57-66, the loop over the instance list; [data] is the property
   data, [j] counts the turns.  Running out of [fuel] would be reported as an error. *)
Fixpoint search_loop (fuel : nat) (fr : fresh) (data : list Z) (idx : Z) (j : nat) (n : node) (updated : bool)
  : res (node * bool) :=
  if idx + 2 <? len data then
    match fuel with
    | O => Undef UB_overflow
    | S fuel' =>
        do bs <- rd_range data idx 3 ;;
        do code <- uecho_byte2integer bs ;;
        match uecho_node_getobjectbycode n code with
        | Some _ => search_loop fuel' fr data (idx + 3) (S j) n updated
        | None =>
            do r <- uecho_node_setobject le snet db (fr_more fr j) n code ;;
            let '(n', _, _) := r in
            search_loop fuel' fr data (idx + 3) (S j) n' true
        end
    end
  else Ok (n, updated).

(* controller_listener.c:20-81 uecho_controller_handlesearchmessage *)
Definition uecho_controller_handlesearchmessage (fr : fresh) (c : ctrl) (m : msg)
  : res (ctrl * list ctold) :=
  do o <- uecho_message_getpropertybycode m EPC_InstanceListS ;;
  match o with
  | None => Ok (c, [])
  | Some p =>
      if uecho_property_getdatasize p <? 1 then Ok (c, [])
      else match m_from m with
      | None => Ok (c, [])
      | Some a =>
          match uecho_controller_getnodebyaddress c (Some a) with
          | Some n =>
              do r <- search_loop (List.length (p_data p)) fr (p_data p) 1 0 n false ;;
              let '(n', updated) := r in
              Ok (c_with_nodes (put_node (Some a) n' (c_nodes c)) c,
                  if c_nodelistener c && updated then [ToldStatus (Some a) StUpdated] else [])
          | None =>
              do x <- uecho_node_new le snet db (fr_tid fr) (fr_junk fr) (fr_man fr) (fr_uniq fr) ;;
              let n := uecho_node_setaddress (Some a) (fst x) in
              do r <- search_loop (List.length (p_data p)) fr (p_data p) 1 0 n false ;;
              let '(n', _) := r in
              Ok (uecho_controller_addnode c n',
                  if c_nodelistener c then [ToldStatus (Some a) StAdded] else [])
          end
      end
  end.

(* ---- responses and notifications ---- *)

(* controller_listener.c:87-123 uecho_controller_updateopcpropertydata on the object of the
   shadow node with code [oc]; the stores may announce, through the shadow node *)
Fixpoint update_loop (fr : fresh) (j : nat) (n : node) (oc : Z) (ps : list prop) (updated : bool)
  : res (node * bool) :=
  match ps with
  | [] => Ok (n, updated)
  | p :: r =>
      match uecho_node_getobjectbycode n oc with
      | None => Undef UB_null
      | Some o =>
          do x <- (if uecho_object_hasproperty o (p_code p) then Ok (n, [])
                   else node_object_op le snet
                          (fun o => uecho_object_setproperty (fr_more fr j) o (p_code p) AttrNone) n oc) ;;
          let n1 := fst x in
          match uecho_node_getobjectbycode n1 oc with
          | None => Undef UB_null
          | Some o1 =>
              match uecho_object_getproperty o1 (p_code p) with
              | None => update_loop fr (S j) n1 oc r updated
              | Some q =>
                  if uecho_property_isdataequal q (p_data p) then update_loop fr (S j) n1 oc r updated
                  else
                    do y <- node_object_op le snet
                              (fun o => Ok (object_property_setdata o (p_code p) (p_data p))) n1 oc ;;
                    update_loop fr (S j) (fst y) oc r true
              end
          end
      end
  end.
Definition uecho_controller_updateopcpropertydata (fr : fresh) (n : node) (oc : Z) (v : pvec)
  : res (node * bool) :=
  do ps <- pv_items v ;; update_loop fr 0 n oc ps false.

(* controller_listener.c:125-143 uecho_controller_updatenodebyresponsemessage *)
Definition uecho_controller_updatenodebyresponsemessage (fr : fresh) (n : node) (m : msg)
  : res (node * bool) :=
  do sc <- uecho_message_getsourceobjectcode m ;;
  match uecho_node_getobjectbycode n sc with
  | None => Ok (n, false)
  | Some _ =>
      uecho_controller_updateopcpropertydata fr n sc
        (if uecho_message_isreadwritemessage m then m_pget m else m_p m)
  end.

(* controller_listener.c:162-184 uecho_controller_handlenodemessage; [a] is the address of
   the node *)
Definition uecho_controller_handlenodemessage (fr : fresh) (c : ctrl) (a : option string) (n : node) (m : msg)
  : res (ctrl * list ctold) :=
  let esv := uecho_message_getesv m in
  do r <- (if uecho_esv_isnotification esv || uecho_esv_isreadresponse esv || uecho_esv_isnotifyresponse esv
           then uecho_controller_updatenodebyresponsemessage fr n m
           else Ok (n, false)) ;;
  let '(n', updated) := r in
  Ok (c_with_nodes (put_node a n' (c_nodes c)) c,
      if c_nodelistener c then
        (if uecho_esv_isnotification esv then [ToldStatus a StAnnounced] else [])
        ++ (if uecho_esv_isresponse esv then [ToldStatus a StResponded] else [])
        ++ (if updated then [ToldStatus a StUpdated] else [])
      else []).

(* what one received message leads to: the controller, the listener calls, and whether a
   waiting uecho_controller_postmessage was signalled *)
Record creaction : Type := mkCr { cr_ctrl : ctrl; cr_told : list ctold; cr_signal : bool }.

(* controller_listener.c:190-216 uecho_controller_servermessagelistener *)
Definition uecho_controller_servermessagelistener (fr : fresh) (c : ctrl) (m : msg) : res creaction :=
  let told0 := if c_msglistener c then [ToldMsg] else [] in
  do x <- (if uecho_controller_ispostresponsewaiting c
           then uecho_controller_handlepostresponse c m else Ok (c, false)) ;;
  let '(c1, sg) := x in
  do s <- uecho_message_issearchresponse m ;;
  if s then
    do y <- uecho_controller_handlesearchmessage fr c1 m ;;
    Ok (mkCr (fst y) (told0 ++ snd y) sg)
  else
    do dc <- uecho_message_getdestinationobjectcode m ;;
    match uecho_node_getobjectbycode (c_node c1) dc with
    | None => Ok (mkCr c1 told0 sg)
    | Some _ =>
        match uecho_controller_getnodebyaddress c1 (m_from m) with
        | None => Ok (mkCr c1 told0 sg)
        | Some n =>
            do y <- uecho_controller_handlenodemessage fr c1 (m_from m) n m ;;
            Ok (mkCr (fst y) (told0 ++ snd y) sg)
        end
    end.

(* a datagram reaching the controller's server: the local node, registered first (node.c:38),
   handles the message, then the controller (controller.c:37).  The reaction of the node, if
   the datagram is a message, and of the controller. *)
Definition ctrl_receive (dec : list (hcall * bool) -> hcall -> bool) (fr : fresh) (c : ctrl)
    (data : list Z) (la ra : option string) : res (option reaction * creaction) :=
  do x <- uecho_message_parsepacket uecho_message_new data la ra ;;
  let '(ok, m) := x in
  if ok then
    do r <- uecho_node_servermessagelistener le net dec (c_node c) m ;;
    do y <- uecho_controller_servermessagelistener fr (c_with_node (r_node r) c) m ;;
    Ok (Some r, y)
  else Ok (None, mkCr c [] false).

(* ---- sending ---- *)

(* controller.c:340-345 uecho_controller_announcemessage *)
Definition uecho_controller_announcemessage (c : ctrl) (m : msg) : res sent :=
  uecho_node_announcemessage le net (c_node c) m.
(* controller.c:351-356 uecho_controller_sendmessage *)
Definition uecho_controller_sendmessage (c : ctrl) (dst : node) (m : msg) : res sent :=
  uecho_node_sendmessage le net (c_node c) dst m.

(* object.c:740-759 uecho_object_sendmessage, for an object of a shadow node *)
Definition uecho_object_sendmessage (c : ctrl) (dst : node) (o : obj) (m : msg) : res sent :=
  do m1 <- uecho_message_setdestinationobjectcode (uecho_object_getcode o) m ;;
  uecho_controller_sendmessage c dst m1.

(* controller.c:525-539 uecho_controller_searchwithesv *)
Definition uecho_controller_searchwithesv (c : ctrl) (esv : Z) : res sent :=
  do m <- uecho_message_search_new ;;
  uecho_controller_announcemessage c (uecho_message_setesv esv m).
(* controller.c:545-548 uecho_controller_search *)
Definition uecho_controller_search (c : ctrl) : res sent := uecho_controller_searchwithesv c ESV_Get.

(* controller.c:554-573 uecho_controller_searchobjectwithesv; the parameter objCode is a
   byte, so an object code is reduced when it is passed *)
Definition uecho_controller_searchobjectwithesv (c : ctrl) (objCode esv : Z) : res sent :=
  do m <- uecho_message_search_new ;;
  do m1 <- uecho_message_setdestinationobjectcode (to_byte objCode) (uecho_message_setesv esv m) ;;
  uecho_controller_announcemessage c m1.
(* controller.c:579-582 uecho_controller_searchobject *)
Definition uecho_controller_searchobject (c : ctrl) (objCode : Z) : res sent :=
  uecho_controller_searchobjectwithesv c (to_byte objCode) ESV_Get.

(* controller.c:20-47 uecho_controller_new: postReqMsg is not initialised *)
Definition uecho_controller_new (fr : fresh) (b : bool) : res (ctrl * list post) :=
  do x <- uecho_node_new le net db (fr_tid fr) (fr_junk fr) (fr_man fr) (fr_uniq fr) ;;
  Ok (mkCtrl (fst x) [] false false 0 (MWild b) MNull, snd x).

(* controller.c:122-133 uecho_controller_start; [up] is the result of uecho_server_start *)
Definition uecho_controller_start (up : bool) (c : ctrl) : res (ctrl * list post * bool) :=
  do r <- uecho_node_start le net up (c_node c) ;;
  let '(n, posts, b) := r in
  Ok (c_with_node n (c_with_nodes [] c), posts, b).

(* controller.c:482-519 uecho_controller_postmessage up to the wait: the pointers are set and
   the request is sent (the messages belong to the caller).  On a failure the function
   returns false and leaves both pointers set. *)
Definition postmessage_begin (c : ctrl) (dst : node) (q r : msg) : res (ctrl * list post * bool) :=
  do s <- uecho_controller_sendmessage (c_with_post (MMsg q) (MMsg r) c) dst q ;;
  Ok (c_with_post (MMsg (s_msg s)) (MMsg r) (c_with_node (s_node s) c), s_posts s, s_ret s).
(* and from the end of the wait: both pointers are cleared *)
Definition postmessage_end (c : ctrl) : ctrl := c_with_post MNull MNull c.

End Ctrl.
