(* Model of the questions a program can ask a message or a list of objects:
   src/uecho/message.c, src/uecho/node_listener.c, src/uecho/object_list.c, src/uecho/class.c.

   Simplifications: NULL messages are not modelled (message.c:183-212 and 454-482 would
   read through them); an address is its text. *)
From Coq Require Import String ZArith List Bool.
From Verif Require Import CSem M_Const M_Misc M_Property M_Message M_PropertyList M_Object M_Node M_Controller.
Import ListNotations.
Open Scope Z_scope.

(* message.c:183-186 uecho_message_issourceobjectcode *)
Definition uecho_message_issourceobjectcode (m : msg) (code : Z) : res bool :=
  do c <- uecho_message_getsourceobjectcode m ;; Ok (c =? code).
(* message.c:209-212 uecho_message_isdestinationobjectcode *)
Definition uecho_message_isdestinationobjectcode (m : msg) (code : Z) : res bool :=
  do c <- uecho_message_getdestinationobjectcode m ;; Ok (c =? code).

(* message.c:284-287 uecho_message_setehd1, message.c:302-305 uecho_message_setehd2 *)
Definition uecho_message_setehd1 (v : Z) (m : msg) : msg := with_ehd v (m_ehd2 m) m.
Definition uecho_message_setehd2 (v : Z) (m : msg) : msg := with_ehd (m_ehd1 m) v m.
(* message.c:293-296 uecho_message_getehd1, message.c:311-314 uecho_message_getehd2 *)
Definition uecho_message_getehd1 (m : msg) : Z := m_ehd1 m.
Definition uecho_message_getehd2 (m : msg) : Z := m_ehd2 m.

(* message.c:404-412 uecho_message_isresponserequired *)
Definition uecho_message_isresponserequired (m : msg) : bool :=
  match uecho_message_requestesv2responseesv (m_esv m) with Some _ => true | None => false end.

(* strings_function.c:141-147 uecho_streq on texts; NULL equals nothing *)
Definition text_eq (a b : option string) : bool :=
  match a, b with Some x, Some y => String.eqb x y | _, _ => false end.
(* message.c:454-457 uecho_message_issourceaddress *)
Definition uecho_message_issourceaddress (m : msg) (a : option string) : bool := text_eq (m_from m) a.
(* message.c:481-484 uecho_message_isdestinationaddress *)
Definition uecho_message_isdestinationaddress (m : msg) (a : option string) : bool := text_eq (m_to m) a.

(* message.c:490-495 uecho_message_iswriterequest *)
Definition uecho_message_iswriterequest (m : msg) : bool := uecho_esv_iswriterequest (m_esv m).
(* message.c:501-506 uecho_message_isreadrequest *)
Definition uecho_message_isreadrequest (m : msg) : bool := uecho_esv_isreadrequest (m_esv m).
(* message.c:512-517 uecho_message_isnotifyrequest *)
Definition uecho_message_isnotifyrequest (m : msg) : bool := uecho_esv_isnotifyrequest (m_esv m).
(* message.c:523-528 uecho_message_iswriteresponse *)
Definition uecho_message_iswriteresponse (m : msg) : bool := uecho_esv_iswriteresponse (m_esv m).
(* message.c:534-539 uecho_message_isreadresponse *)
Definition uecho_message_isreadresponse (m : msg) : bool := uecho_esv_isreadresponse (m_esv m).
(* message.c:545-550 uecho_message_isnotifyresponse *)
Definition uecho_message_isnotifyresponse (m : msg) : bool := uecho_esv_isnotifyresponse (m_esv m).
(* message.c:556-561 uecho_message_isnotification *)
Definition uecho_message_isnotification (m : msg) : bool := uecho_esv_isnotification (m_esv m).
(* message.c:567-572 uecho_message_isrequest *)
Definition uecho_message_isrequest (m : msg) : bool := uecho_esv_isrequest (m_esv m).
(* message.c:578-583 uecho_message_isresponse *)
Definition uecho_message_isresponse (m : msg) : bool := uecho_esv_isresponse (m_esv m).

(* node_listener.c:20-29 uecho_node_isselfobjectmessage *)
Definition uecho_node_isselfobjectmessage (n : node) (m : msg) : res bool :=
  if negb (uecho_node_isaddress n (m_from m)) then Ok false
  else do s <- uecho_message_getsourceobjectcode m ;;
       do d <- uecho_message_getdestinationobjectcode m ;;
       Ok (s =? d).

(* object_list.c:90-109 uecho_objectlist_set: an object in no node announces nothing *)
Definition uecho_objectlist_set (db : list obj) (junk : nat -> Z) (l : list obj) (code : Z) : res (list obj) :=
  match uecho_objectlist_getbycode l code with
  | Some _ => Ok l
  | None => do r <- uecho_object_setcode db junk uecho_object_new code ;; Ok (l ++ [fst r])
  end.

(* class.c:107-113 uecho_class_setclassgroupcode; the argument is a byte *)
Definition uecho_class_setclassgroupcode (v : Z) (c : eclass) : eclass := (v, snd c).
(* class.c:131-137 uecho_class_setclasscode; the argument is a byte *)
Definition uecho_class_setclasscode (v : Z) (c : eclass) : eclass := (fst c, v).
(* class.c:155-161 uecho_class_isdevice *)
Definition uecho_class_isdevice (c : eclass) : bool := uecho_isdeviceclassgroupcode (fst c).
