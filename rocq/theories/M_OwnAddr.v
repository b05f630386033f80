(* node.c: whether an address is one of a node whose server may be started.  M_Controller.v has the same function for the nodes a
   controller knows, whose servers are never started. *)
From Coq Require Import String ZArith List Bool.
From Verif Require Import CSem M_Node M_Controller M_Server.
Import ListNotations.
Open Scope Z_scope.

(* node.c:173-187 uecho_node_isaddress, with the server of the node *)
Definition own_isaddress (n : node) (s : server) (a : option string) : bool :=
  if uecho_node_isaddress n a then true else uecho_server_isboundaddress s a.
