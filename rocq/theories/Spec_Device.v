(* Specification of the device helpers: five settings, each with the property of the
   ECHONET Lite device super class that holds it. *)
From Coq Require Import ZArith List Bool.
From Verif Require Import Spec_Object.
Import ListNotations.
Open Scope Z_scope.

Record settings : Type := mkSet {
  s_operating : bool;
  s_location : Z;
  s_version : Z;      (* a character *)
  s_fault : bool;
  s_manufacturer : Z
}.

(* what uecho_device_new documents: on, no fault, release N, unknown location, the first
   code reserved for tests *)
Definition factory : settings := mkSet true 0 78 false 16777200.

(* calls on a device: the five setters, and any other change to its properties *)
Inductive dop : Type :=
| DOperating (b : bool)
| DLocation (loc : Z)
| DVersion (ver : Z)
| DFault (b : bool)
| DManufacturer (code : Z)
| DOther (op : oop).

(* a manufacturer code has 24 bits *)
Definition set_step (s : settings) (d : dop) : settings :=
  match d with
  | DOperating b => mkSet b (s_location s) (s_version s) (s_fault s) (s_manufacturer s)
  | DLocation l => mkSet (s_operating s) l (s_version s) (s_fault s) (s_manufacturer s)
  | DVersion v => mkSet (s_operating s) (s_location s) v (s_fault s) (s_manufacturer s)
  | DFault b => mkSet (s_operating s) (s_location s) (s_version s) b (s_manufacturer s)
  | DManufacturer c => mkSet (s_operating s) (s_location s) (s_version s) (s_fault s) (c mod 16777216)
  | DOther _ => s
  end.
Definition set_run (s : settings) (h : list dop) : settings := fold_left set_step h s.

(* the bytes a setter stores and the property that holds them *)
Definition writes (d : dop) : option (Z * list Z) :=
  match d with
  | DOperating b => Some (128, [if b then 48 else 49])
  | DLocation l => Some (129, [l])
  | DVersion v => Some (130, [0; 0; v mod 256; 0])
  | DFault b => Some (136, [if b then 65 else 66])
  | DManufacturer c => Some (138, [c / 65536 mod 256; c / 256 mod 256; c mod 256])
  | DOther _ => None
  end.

(* the same calls seen as stores into the finite map of properties *)
Definition as_oop (d : dop) : oop :=
  match d with
  | DOther op => op
  | _ => match writes d with Some (c, bs) => OSetData c bs | None => OClear end
  end.

Definition setting_code (c : Z) : Prop := In c [128; 129; 130; 136; 138].

(* arguments of the C types: a location is a byte, a version a char; the other calls do
   not touch the five properties *)
Definition char_ok (signed : bool) (v : Z) : Prop := if signed then -128 <= v < 128 else 0 <= v < 256.
Definition dop_ok (signed : bool) (d : dop) : Prop :=
  match d with
  | DLocation l => 0 <= l < 256
  | DVersion v => char_ok signed v
  | DOther op => oop_ok op /\ exists c, oop_code op = Some c /\ 128 <= c <= 255 /\ ~ setting_code c
  | _ => True
  end.
