(* Model of the example lamp, examples/device/uecholight/lighting_dev.c and
   examples/device/uecholight/main.c.

   Simplifications: a printed line is a record of the values in it; the verbose output of
   main.c:24-27, the Raspberry Pi commands (compiled out by lighting_dev.c:23), options and
   signals other than SIGHUP are not modelled; uecho_device_new does not fail. *)
From Coq Require Import String ZArith List Bool.
From Verif Require Import CSem M_Const M_Misc M_Property M_Message M_PropertyList M_Object M_Node M_NodeListener M_Device.
Import ListNotations.
Open Scope Z_scope.

(* lighting_dev.c:18-21 *)
Definition LIGHT_OBJECT_CODE : Z := 168193.            (* 0x029101 *)
Definition LIGHT_PROPERTY_POWER_CODE : Z := 128.       (* 0x80 *)
Definition LIGHT_PROPERTY_POWER_ON : Z := 48.          (* 0x30 *)
Definition LIGHT_PROPERTY_POWER_OFF : Z := 49.         (* 0x31 *)

(* what uecho_lighting_propertyrequesthandler prints after "ESV = %02X : %02X (%ld), " *)
Inductive power : Type :=
| BadRequest
| PowerOn
| PowerOff
| PowerIs (status : Z).

Record line : Type := mkLine { l_esv : Z; l_code : Z; l_pdc : Z; l_power : power }.

(* examples/device/uecholight/lighting_dev.c:68-102 uecho_lighting_propertyrequesthandler:
   the answer and the line printed *)
Definition uecho_lighting_propertyrequesthandler (p : prop) (esv : Z) (edt : list Z) : bool * line :=
  let out := mkLine esv (p_code p) (len edt) in
  match edt with
  | [status] =>
      (true, out (if status =? LIGHT_PROPERTY_POWER_ON then PowerOn
                  else if status =? LIGHT_PROPERTY_POWER_OFF then PowerOff else PowerIs status))
  | _ => (false, out BadRequest)
  end.

(* the handler is the only one the lamp registers *)
Definition lamp_handler : nat := 1%nat.
Definition lamp_dec (before : list (hcall * bool)) (c : hcall) : bool :=
  fst (uecho_lighting_propertyrequesthandler (hc_prop c) (hc_esv c) (hc_data c)).
Definition lamp_prints (calls : list (hcall * bool)) : list line :=
  map (fun x => snd (uecho_lighting_propertyrequesthandler (hc_prop (fst x)) (hc_esv (fst x)) (hc_data (fst x)))) calls.

(* examples/device/uecholight/lighting_dev.c:108-141 uecho_light_new *)
Definition uecho_light_new (db : list obj) (junk : nat -> Z) : res obj :=
  do d <- uecho_device_new db ;;
  match d with
  | None => Undef UB_null
  | Some o =>
      do x1 <- uecho_object_setmanufacturercode o 16777200 ;;
      do x2 <- uecho_object_setcode db junk (fst x1) LIGHT_OBJECT_CODE ;;
      do x3 <- uecho_object_setproperty junk (fst x2) LIGHT_PROPERTY_POWER_CODE AttrReadWrite ;;
      let x4 := uecho_object_setpropertydata (fst x3) LIGHT_PROPERTY_POWER_CODE [LIGHT_PROPERTY_POWER_ON] in
      Ok (uecho_object_setpropertywriterequesthandler (fst x4) LIGHT_PROPERTY_POWER_CODE (Some lamp_handler))
  end.

(* random numbers and uninitialised memory met by main *)
Record fresh : Type := mkFreshL { fl_tid : Z; fl_junk : nat -> Z; fl_man : list Z; fl_uniq : list Z }.

Section Main.
Variable le : bool.
Variable net : post -> bool.
Variable db : list obj.

(* examples/device/uecholight/main.c:64-88 main, up to the loop; [man] is the number given
   with -m, 0 without; the frames sent on the way are not kept *)
Definition light_main (fr : fresh) (verbose : bool) (man : Z) (up : bool) : res (node * bool) :=
  do x0 <- uecho_node_new le net db (fl_tid fr) (fl_junk fr) (fl_man fr) (fl_uniq fr) ;;
  let n1 := if verbose then uecho_node_setmessagelistener true (fst x0) else fst x0 in
  do o <- uecho_light_new db (fl_junk fr) ;;
  do x2 <- (if 0 <? man then uecho_node_setmanufacturercode le net n1 man else Ok (n1, [])) ;;
  do x3 <- uecho_node_addobject le net (fst x2) o ;;
  let '(n3, _, _) := x3 in
  do x4 <- uecho_node_start le net up n3 ;;
  let '(n4, _, ok) := x4 in
  Ok (n4, ok).

(* what happens while the lamp runs: a datagram arrives; SIGHUP stops and starts the
   server (main.c:105-108), [up] says whether it comes up again *)
Inductive event : Type :=
| Datagram (data : list Z) (local remote : option string)
| Hangup (up : bool).

(* node afterwards, lines printed by the handler, answers sent *)
Definition light_event (n : node) (e : event) : res (node * list line * list post) :=
  match e with
  | Datagram data la ra =>
      do r <- node_receive le net lamp_dec n data la ra ;;
      Ok (r_node r, lamp_prints (r_calls r), r_answer r)
  | Hangup up =>
      do x <- uecho_node_start le net up n ;;
      let '(n', _, _) := x in Ok (n', [], [])
  end.

Fixpoint light_run (n : node) (es : list event) : res (node * list line * list post) :=
  match es with
  | [] => Ok (n, [], [])
  | e :: r =>
      do x <- light_event n e ;;
      let '(n1, l1, a1) := x in
      do y <- light_run n1 r ;;
      let '(n2, l2, a2) := y in
      Ok (n2, l1 ++ l2, a1 ++ a2)
  end.

End Main.
