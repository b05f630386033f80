(* What a user may expect of interfaces and addresses, in terms of the entries the system lists. *)
From Coq Require Import String ZArith List Bool DecimalString.
From Verif Require Import CSem M_Net.
Import ListNotations.
Open Scope Z_scope.

(* ---- dotted decimal notation, with the decimal numbers of the standard library ---- *)
Definition decimal (n : Z) : string := NilZero.string_of_uint (N.to_uint (Z.to_N n)).
Definition octet (b : Z) : Prop := 0 <= b < 256.
(* [t] is the notation of the address [a] *)
Definition dotted (a : Z) (t : string) : Prop :=
  exists b1 b2 b3 b4, octet b1 /\ octet b2 /\ octet b3 /\ octet b4
    /\ a = b1 * 16777216 + b2 * 65536 + b3 * 256 + b4
    /\ t = (decimal b1 ++ "." ++ decimal b2 ++ "." ++ decimal b3 ++ "." ++ decimal b4)%string.

(* ---- entries ---- *)
Definition word_ok (a : sockaddr) : Prop := 0 <= sa_word a < 4294967296.
Definition entry_ok (i : ifaddr) : Prop :=
  (forall a, ia_addr i = Some a -> word_ok a) /\ (forall m, ia_mask i = Some m -> word_ok m).
Definition is_up (i : ifaddr) : Prop := Z.testbit (ia_flags i) 0 = true.
Definition is_loopback (i : ifaddr) : Prop := Z.testbit (ia_flags i) 3 = true.
Definition is_pointtopoint (i : ifaddr) : Prop := Z.testbit (ia_flags i) 4 = true.
(* an IPv4 address and its mask *)
Definition has_ipv4 (i : ifaddr) (a m : Z) : Prop :=
  ia_addr i = Some (mkSa AF_INET a) /\ ia_mask i = Some (mkSa AF_INET m).
(* an interface a node should listen on *)
Definition listens (i : ifaddr) : Prop := is_up i /\ ~ is_loopback i /\ exists a m, has_ipv4 i a m.
Definition described (i : ifaddr) (n : netif) : Prop :=
  exists a m, has_ipv4 i a m /\ nf_name n = ia_name i /\ dotted a (nf_addr n) /\ dotted m (nf_mask n).
(* the elements of a list with a property, in order *)
Inductive those {A} (P : A -> Prop) : list A -> list A -> Prop :=
| t_nil : those P [] []
| t_yes : forall x l r, P x -> those P l r -> those P (x :: l) (x :: r)
| t_no : forall x l r, ~ P x -> those P l r -> those P (x :: l) r.

(* an IPv4 mask goes with an IPv4 address *)
Definition masks_match (i : ifaddr) : Prop :=
  forall a m, ia_addr i = Some a -> ia_mask i = Some m -> sa_family a = AF_INET -> sa_family m = AF_INET.
(* getnameinfo gives IPv4 addresses in dotted decimal notation *)
Definition names_ipv4 (numeric : sockaddr -> option string) : Prop :=
  forall a, sa_family a = AF_INET -> word_ok a -> exists t, numeric a = Some t /\ dotted (sa_word a) t.

(* ---- the address of the interface a datagram came in on ---- *)
(* an interface that may receive from other nodes *)
Definition candidate (i : ifaddr) (a m : Z) : Prop :=
  has_ipv4 i a m /\ is_up i /\ ~ is_loopback i /\ ~ is_pointtopoint i.
Definition same_subnet (a m r : Z) : Prop := forall k, Z.testbit m k = true -> Z.testbit a k = Z.testbit r k.
(* 169.254.0.0/16 *)
Definition link_local (a m : Z) : Prop := Z.land a m = 169 * 16777216 + 254 * 65536.

(* [x] is the first, or the last, element with the property *)
Definition first_with {A} (P : A -> Prop) (l : list A) (x : A) : Prop := exists p q, l = p ++ x :: q /\ P x /\ Forall (fun y => ~ P y) p.
Definition last_with {A} (P : A -> Prop) (l : list A) (x : A) : Prop := exists p q, l = p ++ x :: q /\ P x /\ Forall (fun y => ~ P y) q.

Definition near (r : Z) (i : ifaddr) : Prop := exists a m, candidate i a m /\ same_subnet a m r.
Definition routable (i : ifaddr) : Prop := exists a m, candidate i a m /\ ~ link_local a m.
Definition local_only (i : ifaddr) : Prop := exists a m, candidate i a m /\ link_local a m.
Definition address_of (i : ifaddr) (t : string) : Prop := exists a m, has_ipv4 i a m /\ dotted a t.

(* the address that should be reported for a datagram from [r]: of the first interface in its subnet; else
   of an interface with a routable address, else with a link-local one (the last of several); else loopback *)
Inductive reported (l : list ifaddr) (r : Z) (t : string) : Prop :=
| r_near : forall i, first_with (near r) l i -> address_of i t -> reported l r t
| r_routable : forall i, (forall j, In j l -> ~ near r j) -> last_with routable l i -> address_of i t -> reported l r t
| r_local : forall i, (forall j, In j l -> ~ near r j /\ ~ routable j) -> last_with local_only l i -> address_of i t -> reported l r t
| r_none : (forall j a m, In j l -> ~ candidate j a m) -> t = "127.0.0.1"%string -> reported l r t.

(* every entry with an address and a mask is an IPv4 entry *)
Definition only_ipv4 (i : ifaddr) : Prop :=
  forall a m, ia_addr i = Some a -> ia_mask i = Some m -> sa_family a = AF_INET /\ sa_family m = AF_INET.
