(* Model of src/uecho/node_listener.c: what a node does with a received message.

   Request handlers and message listeners are application code.  A handler is an arbitrary
   decision [dec] that may depend on every handler call made so far for this message;
   handlers and listeners do not call back into the library (no re-entrancy). *)
From Coq Require Import String ZArith List Bool.
From Verif Require Import CSem M_Const M_Misc M_Property M_Message M_PropertyList M_Object M_Node.
Import ListNotations.
Open Scope Z_scope.

(* one call of a request handler: handler, object code, the object's property, ESV, data *)
Record hcall : Type := mkCall {
  hc_handler : nat;
  hc_object : Z;
  hc_prop : prop;
  hc_esv : Z;
  hc_data : list Z
}.

(* calls of the two kinds of message listeners *)
Inductive told : Type :=
| ToldNode
| ToldObject (code : Z).

Section Listener.
Variable le : bool.
Variable net : post -> bool.
Variable dec : list (hcall * bool) -> hcall -> bool.

(* node_listener.c:35-51 uecho_object_notifyrequestproperty: all handlers of the service and
   code are called, also after a refusal; a NULL handler is called too *)
Fixpoint notify_loop (obs : list observer) (o : obj) (objProp : prop) (esv : Z) (msgProp : prop)
    (acc : bool) (calls : list (hcall * bool)) : res (bool * list (hcall * bool)) :=
  match obs with
  | [] => Ok (acc, calls)
  | b :: r =>
      if negb (esv =? ob_esv b) then notify_loop r o objProp esv msgProp acc calls
      else if negb (p_code msgProp =? ob_code b) then notify_loop r o objProp esv msgProp acc calls
      else match ob_handler b with
           | None => Undef UB_null
           | Some h =>
               let c := mkCall h (uecho_object_getcode o) objProp esv (p_data msgProp) in
               let a := dec calls c in
               notify_loop r o objProp esv msgProp (acc && a) (calls ++ [(c, a)])
           end
  end.
Definition uecho_object_notifyrequestproperty (o : obj) (objProp : prop) (esv : Z) (msgProp : prop)
    (calls : list (hcall * bool)) : res (bool * list (hcall * bool)) :=
  notify_loop (o_obs o) o objProp esv msgProp true calls.

(* state of the loop of uecho_node_handlerequestmessage *)
Record hstate : Type := mkHs {
  h_obj : obj;                       (* the destination object *)
  h_anns : list prop;                (* announcements triggered by stores *)
  h_calls : list (hcall * bool);     (* handler calls and their answers *)
  h_msg : msg;                       (* the response being built *)
  h_cnt : Z                          (* acceptedRequestCnt *)
}.

(* node_listener.c:59-115 uecho_node_handlerequestmessage, one turn of the loop.
   [addf] is the messageAddpropertyFunc argument. *)
Definition handle_one (addf : prop -> msg -> res msg) (esv : Z) (msgProp : prop) (h : hstate)
  : res hstate :=
  let code := p_code msgProp in
  let res0 := uecho_property_setcode code uecho_property_new in
  let echo := if esv =? ESV_SetC then fst (uecho_property_setdata (p_data msgProp) res0) else res0 in
  match uecho_object_getproperty (h_obj h) code with
  | None =>
      do m <- addf echo (h_msg h) ;;
      Ok (mkHs (h_obj h) (h_anns h) (h_calls h) m (h_cnt h))
  | Some destProp =>
      do r <- uecho_object_notifyrequestproperty (h_obj h) destProp esv msgProp (h_calls h) ;;
      let '(ok, calls) := r in
      if ok then
        let '(o1, a1) :=
          if (esv =? ESV_SetI) || (esv =? ESV_SetC)
          then object_property_setdata (h_obj h) code (p_data msgProp)
          else (h_obj h, []) in
        let res1 :=
          if (esv =? ESV_Get) || (esv =? ESV_INF_REQ) || (esv =? ESV_INFC)
          then fst (uecho_property_setdata (p_data destProp) res0)
          else res0 in
        do m <- addf res1 (h_msg h) ;;
        Ok (mkHs o1 (h_anns h ++ a1) calls m (h_cnt h + 1))
      else
        do m <- addf echo (h_msg h) ;;
        Ok (mkHs (h_obj h) (h_anns h) calls m (h_cnt h))
  end.

Fixpoint handle_loop (addf : prop -> msg -> res msg) (esv : Z) (ps : list prop) (h : hstate)
  : res hstate :=
  match ps with
  | [] => Ok h
  | p :: r => do h' <- handle_one addf esv p h ;; handle_loop addf esv r h'
  end.

(* The function is declared bool (C99 _Bool), so the count it returns becomes 0 or 1;
   [h_cnt] of the argument is the caller's running total. *)
Definition uecho_node_handlerequestmessage (addf : prop -> msg -> res msg) (esv : Z) (v : pvec)
    (h : hstate) : res hstate :=
  do ps <- pv_items v ;;
  do h' <- handle_loop addf esv ps (mkHs (h_obj h) (h_anns h) (h_calls h) (h_msg h) 0) ;;
  Ok (mkHs (h_obj h') (h_anns h') (h_calls h') (h_msg h')
           (h_cnt h + if h_cnt h' =? 0 then 0 else 1)).

(* node_listener.c:173-226, the switch: None when no response is sent *)
Definition answer_esv (reqEsv : Z) (all : bool) : option Z :=
  if reqEsv =? ESV_SetI then (if all then None else Some ESV_SetI_SNA)
  else if reqEsv =? ESV_SetC then Some (if all then ESV_Set_Res else ESV_SetI_SNA)
  else if reqEsv =? ESV_Get then Some (if all then ESV_Get_Res else ESV_Get_SNA)
  else if reqEsv =? ESV_SetGet then Some (if all then ESV_SetGet_Res else ESV_SetGet_SNA)
  else if reqEsv =? ESV_INF_REQ then Some (if all then ESV_INF else ESV_INF_SNA)
  else if reqEsv =? ESV_INFC then (if all then Some ESV_INFC_Res else None)
  else None.

(* what one received message leads to *)
Record reaction : Type := mkReaction {
  r_node : node;
  r_anns : list post;             (* notifications of stored values *)
  r_answer : list post;           (* the response *)
  r_calls : list (hcall * bool);
  r_told : list told
}.

(* node_listener.c:117-241 uecho_node_servermessagelistener *)
Definition uecho_node_servermessagelistener (n : node) (req : msg) : res reaction :=
  let told0 := if n_listener n then [ToldNode] else [] in
  do dcode <- uecho_message_getdestinationobjectcode req ;;
  match uecho_node_getobjectbycode n dcode with
  | None => Ok (mkReaction n [] [] [] told0)
  | Some dest =>
      let told1 := told0 ++ (if o_listener dest then [ToldObject dcode] else []) in
      let reqEsv := uecho_message_getesv req in
      if negb (uecho_esv_isrequest reqEsv) then Ok (mkReaction n [] [] [] told1)
      else
        let m0 := uecho_message_settid le (uecho_message_gettid le req) uecho_message_new in
        do m1 <- uecho_message_setsourceobjectcode dcode m0 ;;
        do scode <- uecho_message_getsourceobjectcode req ;;
        do m2 <- uecho_message_setdestinationobjectcode scode m1 ;;
        let h0 := mkHs dest [] [] m2 0 in
        do h <- (if uecho_message_isreadwritemessage req then
                   do h1 <- uecho_node_handlerequestmessage uecho_message_addpropertyset ESV_SetC
                              (m_pset req) h0 ;;
                   uecho_node_handlerequestmessage uecho_message_addpropertyget ESV_Get
                              (m_pget req) h1
                 else
                   uecho_node_handlerequestmessage uecho_message_addproperty reqEsv (m_p req) h0) ;;
        let all := uecho_message_getopc req + uecho_message_getopcset req
                   + uecho_message_getopcget req in
        do e <- node_emit le net (n_with_objs (put_obj dcode (h_obj h) (n_objs n)) n)
                  (uecho_object_getcode (h_obj h))
                  (if o_attached dest then h_anns h else []) ;;
        let '(n1, anns) := e in
        match answer_esv reqEsv (h_cnt h =? all) with
        | Some esv =>
            if o_attached (h_obj h) then
              let m3 := uecho_message_setesv esv (h_msg h) in
              do b <- uecho_message_getbytes m3 ;;
              do s <- uecho_message_size m3 ;;
              do p <- (if uecho_message_getesv m3 =? ESV_INF
                       then uecho_node_announcemessagebytes net b s
                       else uecho_node_sendmessagebytes net (m_from req) b s) ;;
              Ok (mkReaction n1 anns (fst p) (h_calls h) told1)
            else Ok (mkReaction n1 anns [] (h_calls h) told1)
        | None => Ok (mkReaction n1 anns [] (h_calls h) told1)
        end
  end.

(* frame/mcast_server.c and frame/udp_server.c: a received datagram is parsed into a new
   message; only a message that parses reaches the observers of the server, here the node
   (node.c:38).  [la] and [ra] are the local and remote address of the datagram. *)
Definition node_receive (n : node) (data : list Z) (la ra : option string) : res reaction :=
  do x <- uecho_message_parsepacket uecho_message_new data la ra ;;
  let '(ok, m) := x in
  if ok then uecho_node_servermessagelistener n m
  else Ok (mkReaction n [] [] [] []).

End Listener.
