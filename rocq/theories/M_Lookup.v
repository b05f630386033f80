(* Looking objects and classes up, waiting for them, and reading the node profile. *)
From Coq Require Import String ZArith List Bool.
From Verif Require Import CSem M_Const M_Misc M_Property M_PropertyList M_Object M_Node M_Controller.
Import ListNotations.
Open Scope Z_scope.

(* ---- classes and objects of a node ---- *)

(* class.c:95-101 uecho_class_iscode *)
Definition uecho_class_iscode (c : eclass) (code : Z) : bool := uecho_class_getcode c =? code.

(* node.c:235-238 uecho_node_getclassbycode *)
Definition uecho_node_getclassbycode (n : node) (code : Z) : option eclass :=
  uecho_classlist_getbycode (n_classes n) code.
(* node.c:244-247 uecho_node_hasclassbycode *)
Definition uecho_node_hasclassbycode (n : node) (code : Z) : bool :=
  match uecho_node_getclassbycode n code with Some _ => true | None => false end.
(* node.c:280-283 uecho_node_hasobjectbycode *)
Definition uecho_node_hasobjectbycode (n : node) (code : Z) : bool :=
  match uecho_node_getobjectbycode n code with Some _ => true | None => false end.

(* node_list.c:50-63 uecho_nodelist_getbyaddress: first match; uecho_streq of a NULL string
   is false *)
Fixpoint uecho_nodelist_getbyaddress (l : list node) (a : option string) : option node :=
  match a with
  | None => None
  | Some x =>
      match l with
      | [] => None
      | n :: r =>
          if match n_addr n with Some y => String.eqb y x | None => false end then Some n
          else uecho_nodelist_getbyaddress r a
      end
  end.

(* ---- waiting ---- *)

(* util/timer.c:27-34 uecho_wait, called as uecho_sleep: the microseconds asked of usleep.
   The product is of type long; the conversion to useconds_t keeps 32 bits *)
Definition uecho_sleep_usec (mtime : Z) : res Z :=
  let v := mtime * 1000 in
  if (- 9223372036854775808 <=? v) && (v <=? 9223372036854775807) then Ok (v mod 4294967296)
  else Undef UB_overflow.

Section Poll.
Context {A : Type}.
Variable seen : Z -> option A.   (* what the lookup returns at a time, in us after the call *)
Variable late : nat -> Z.        (* by how much the i-th sleep lasts longer than asked *)

(* controller.c:257-262 and object.c:528-533, the loops: the result and when it is returned *)
Fixpoint poll (usec : Z) (n i : nat) (t : Z) : option A * Z :=
  match n with
  | O => (None, t)
  | S k =>
      let t' := t + usec + late i in
      match seen t' with
      | Some x => (Some x, t')
      | None => poll usec k (S i) t'
      end
  end.

(* _const.h:19 uEchoWaitRetryCount *)
Definition uEchoWaitRetryCount : Z := 20.

Definition wait_for (waitMiliTime : Z) : res (option A * Z) :=
  do us <- uecho_sleep_usec (Z.quot waitMiliTime uEchoWaitRetryCount) ;;
  Ok (poll us (Z.to_nat uEchoWaitRetryCount) 0 0).
End Poll.

(* controller.c:252-265 uecho_controller_getobjectbycodewithwait; [at_] is the controller at
   each time after the call, as other threads change it *)
Definition uecho_controller_getobjectbycodewithwait (late : nat -> Z) (at_ : Z -> ctrl) (code wait : Z) : res (option obj * Z) :=
  wait_for (fun t => uecho_controller_getobjectbycode (at_ t) code) late wait.

(* object.c:523-536 uecho_object_getpropertywait *)
Definition uecho_object_getpropertywait (late : nat -> Z) (at_ : Z -> obj) (code wait : Z) : res (option prop * Z) :=
  wait_for (fun t => uecho_object_getproperty (at_ t) code) late wait.

(* ---- reading the node profile ---- *)

(* std/node_profile_class.c:196-204 uecho_nodeprofile_isoperatingstatus; reading creates a
   missing property *)
Definition uecho_nodeprofile_isoperatingstatus (o : obj) : res (obj * bool) :=
  do r <- uecho_object_getpropertybytedata o EPC_OperatingStatus ;;
  Ok (fst r, match snd r with Some b => b =? 48 | None => false end).

(* std/node_profile_class.c:210-218 uecho_nodeprofile_getinstancecount *)
Definition uecho_nodeprofile_getinstancecount (o : obj) : res (obj * Z) :=
  uecho_object_getpropertyintegerdata o EPC_InstanceCount.
(* std/node_profile_class.c:224-232 uecho_nodeprofile_getclasscount *)
Definition uecho_nodeprofile_getclasscount (o : obj) : res (obj * Z) :=
  uecho_object_getpropertyintegerdata o EPC_ClassCount.

(* std/node_profile_class.c:238-241 uecho_nodeprofile_getnotificationinstancelist *)
Definition uecho_nodeprofile_getnotificationinstancelist (o : obj) : obj * list Z :=
  uecho_object_getpropertydata o EPC_InstanceListNotification.
(* std/node_profile_class.c:247-250 uecho_nodeprofile_getinstancelist *)
Definition uecho_nodeprofile_getinstancelist (o : obj) : obj * list Z :=
  uecho_object_getpropertydata o EPC_InstanceListS.
(* std/node_profile_class.c:256-259 uecho_nodeprofile_getclasslist *)
Definition uecho_nodeprofile_getclasslist (o : obj) : obj * list Z :=
  uecho_object_getpropertydata o EPC_ClassListS.
