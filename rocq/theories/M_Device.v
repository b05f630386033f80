(* Model of src/uecho/std/device.c, device_super_class.c, profile.c and
   profile_super_class.c: the helpers that create devices and profiles and read and write
   the properties of the device super class.  Setters return what they announce, as in
   M_Object.v; their boolean result is always true (memory does not run out). *)
From Coq Require Import ZArith List Bool.
From Verif Require Import CSem M_Const M_Misc M_Property M_PropertyList M_Object.
Import ListNotations.
Open Scope Z_scope.

(* include/uecho/device.h:52-74,103-109 *)
Definition DEV_OperatingStatus : Z := 128.      (* 0x80 *)
Definition DEV_InstallationLocation : Z := 129. (* 0x81 *)
Definition DEV_StandardVersion : Z := 130.      (* 0x82 *)
Definition DEV_FaultStatus : Z := 136.          (* 0x88 *)
Definition DEV_On : Z := 48.                    (* 0x30 *)
Definition DEV_Off : Z := 49.                   (* 0x31 *)
Definition DEV_Fault : Z := 65.                 (* 0x41 *)
Definition DEV_NoFault : Z := 66.               (* 0x42 *)
Definition DEV_LocationUnknown : Z := 0.
Definition DEV_VersionUnknown : Z := 0.
Definition DEV_VersionDefault : Z := 78.        (* 'N' *)
(* include/uecho/const.h:37 *)
Definition MAN_Default : Z := 16777200.         (* 0xFFFFF0 *)

(* std/device_super_class.c:53-59 uecho_device_setoperatingstatus *)
Definition uecho_device_setoperatingstatus (o : obj) (stats : bool) : res (obj * list prop) :=
  Ok (uecho_object_setpropertydata o DEV_OperatingStatus [if stats then DEV_On else DEV_Off]).

(* std/device_super_class.c:65-73 uecho_device_isoperatingstatus *)
Definition uecho_device_isoperatingstatus (o : obj) : res (obj * bool) :=
  do x <- uecho_object_getpropertybytedata o DEV_OperatingStatus ;;
  Ok (fst x, match snd x with Some b => b =? DEV_On | None => false end).

(* std/device_super_class.c:79-82 uecho_device_setinstallationlocation *)
Definition uecho_device_setinstallationlocation (o : obj) (loc : Z) : res (obj * list prop) :=
  Ok (uecho_object_setpropertydata o DEV_InstallationLocation [to_byte loc]).

(* std/device_super_class.c:88-96 uecho_device_getinstallationlocation *)
Definition uecho_device_getinstallationlocation (o : obj) : res (obj * Z) :=
  do x <- uecho_object_getpropertybytedata o DEV_InstallationLocation ;;
  Ok (fst x, match snd x with Some b => b | None => DEV_LocationUnknown end).

(* std/device_super_class.c:102-111 uecho_device_setstandardversion; [ver] is a char,
   stored in a byte *)
Definition uecho_device_setstandardversion (o : obj) (ver : Z) : res (obj * list prop) :=
  Ok (uecho_object_setpropertydata o DEV_StandardVersion [0; 0; to_byte ver; 0]).

(* A byte returned as a char: negative from 128 on where char is signed *)
Definition to_char (signed : bool) (b : Z) : Z := if signed && (128 <=? b) then b - 256 else b.

(* std/device_super_class.c:117-134 uecho_device_getstandardversion.
   uecho_property_getdata is NULL exactly when the size is 0. *)
Definition uecho_device_getstandardversion (signed : bool) (o : obj) : res Z :=
  match uecho_object_getproperty o DEV_StandardVersion with
  | None => Ok DEV_VersionUnknown
  | Some p =>
      if negb (uecho_property_getdatasize p =? 4) then Ok DEV_VersionUnknown
      else do b <- rd (p_data p) 2 ;; Ok (to_char signed b)
  end.

(* std/device_super_class.c:140-146 uecho_device_setfaultstatus *)
Definition uecho_device_setfaultstatus (o : obj) (stats : bool) : res (obj * list prop) :=
  Ok (uecho_object_setpropertydata o DEV_FaultStatus [if stats then DEV_Fault else DEV_NoFault]).

(* std/device_super_class.c:152-160 uecho_device_isfaultstatus *)
Definition uecho_device_isfaultstatus (o : obj) : res (obj * bool) :=
  do x <- uecho_object_getpropertybytedata o DEV_FaultStatus ;;
  Ok (fst x, match snd x with Some b => b =? DEV_Fault | None => false end).

(* std/device_super_class.c:166-169 uecho_device_setmanufacturercode *)
Definition uecho_device_setmanufacturercode (o : obj) (code : Z) : res (obj * list prop) :=
  uecho_object_setmanufacturercode o code.
(* std/device_super_class.c:175-178 uecho_device_getmanufacturercode *)
Definition uecho_device_getmanufacturercode (o : obj) : res (obj * Z) :=
  uecho_object_getmanufacturercode o.

(* std/device_super_class.c:21-47 uecho_device_addmandatoryproperties; None = returns
   false.  The results of the five setters are ignored by the code. *)
Definition uecho_device_addmandatoryproperties (db : list obj) (o : obj) : res (option (obj * list prop)) :=
  match uecho_database_getobject db 0 0 with
  | None => Ok None
  | Some sup =>
      let o0 := uecho_object_addmissingobjectproperties o sup in
      do x1 <- uecho_device_setoperatingstatus o0 true ;;
      do x2 <- uecho_device_setfaultstatus (fst x1) false ;;
      do x3 <- uecho_device_setstandardversion (fst x2) DEV_VersionDefault ;;
      do x4 <- uecho_device_setinstallationlocation (fst x3) DEV_LocationUnknown ;;
      do x5 <- uecho_object_setmanufacturercode (fst x4) MAN_Default ;;
      Ok (Some (fst x5, snd x1 ++ snd x2 ++ snd x3 ++ snd x4 ++ snd x5))
  end.

(* std/device.c:17-32 uecho_device_new; None = NULL *)
Definition uecho_device_new (db : list obj) : res (option obj) :=
  do x <- uecho_device_addmandatoryproperties db uecho_object_new ;;
  Ok (option_map fst x).

(* std/profile_super_class.c:20-26 uecho_profile_addmandatoryproperties, non-NULL object *)
Definition uecho_profile_addmandatoryproperties (o : obj) : obj := o.

(* std/profile.c:17-29 uecho_profile_new *)
Definition uecho_profile_new : obj := uecho_profile_addmandatoryproperties uecho_object_new.

(* std/profile_super_class.c:32-35 uecho_profile_setmanufacturercode *)
Definition uecho_profile_setmanufacturercode (o : obj) (code : Z) : res (obj * list prop) :=
  uecho_object_setmanufacturercode o code.

(* std/profile_super_class.c:41-44 uecho_profile_getmanufacturercode; the function is
   declared to return a bool, so the code is converted to a truth value (typedef.h:47-59
   takes bool from stdbool.h with any C99 compiler) *)
Definition uecho_profile_getmanufacturercode (o : obj) : res (obj * bool) :=
  do x <- uecho_object_getmanufacturercode o ;; Ok (fst x, negb (snd x =? 0)).
