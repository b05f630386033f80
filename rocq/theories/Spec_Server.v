(* What a user may expect of the servers of a node, and histories of a server. *)
From Coq Require Import String ZArith List Bool.
From Verif Require Import CSem M_Const M_Message M_Node Spec_Frame Spec_Message M_Server.
Import ListNotations.
Open Scope Z_scope.

(* ---- histories: observers registered, options set, starts and stops in any order; each start
   in an environment of its own ---- *)
Inductive sop : Type :=
| SAdd (obj handler : Z)
| SOption (value : Z)
| SStart (e : osenv)
| SStop.
Definition sstep (s : server) (op : sop) : server :=
  match op with
  | SAdd o h => uecho_server_addobserver s o h
  | SOption v => uecho_server_setoption s v
  | SStart e => fst (uecho_server_start e s)
  | SStop => fst (uecho_server_stop s)
  end.
Definition srun (ops : list sop) : server := fold_left sstep ops uecho_server_new.

(* the observers registered, in order, and the option, by the history alone *)
Definition registered (ops : list sop) : list mobs :=
  flat_map (fun op => match op with SAdd o h => [mkMobs o h] | _ => [] end) ops.
Definition option_of (ops : list sop) : Z :=
  fold_left (fun v op => match op with SOption v' => v' | _ => v end) ops 0.
Definition udp_wanted (option : Z) : Prop := Z.testbit option 0 = false.

(* both the handler and its object are given *)
Definition given (o : mobs) : Prop := mo_handler o <> 0 /\ mo_object o <> 0.

(* the system grants all a start needs: an interface, sockets and threads for multicast and, if
   wanted, for UDP *)
Definition grants_kind (e : osenv) (multicast : bool) : Prop :=
  forall a, In a (os_ifs e) -> os_open e multicast a = true /\ os_thread e multicast a = true.
Definition grants (e : osenv) (option : Z) : Prop :=
  os_ifs e <> [] /\ grants_kind e true /\ (udp_wanted option -> grants_kind e false).

(* a server is up at address [a] and serves the observers [obs] *)
Definition up_at (obs : list mobs) (a : string) (v : srv) : Prop :=
  v_sock v = Some a /\ v_thread v = Some true /\ v_obs v = obs.

(* what a history leaves running: the last start, if it succeeded and no stop came after *)
Inductive phase : Type :=
| Down
| Up (e : osenv) (obs : list mobs) (option : Z).
Definition succeeds (e : osenv) (ops : list sop) : Prop := grants e (option_of ops) /\ Forall given (registered ops).
Inductive leaves : list sop -> phase -> Prop :=
| l_new : leaves [] Down
| l_add : forall ops p o h, leaves ops p -> leaves (ops ++ [SAdd o h]) p
| l_opt : forall ops p v, leaves ops p -> leaves (ops ++ [SOption v]) p
| l_stop : forall ops p, leaves ops p -> leaves (ops ++ [SStop]) Down
| l_up : forall ops p e, leaves ops p -> succeeds e ops -> leaves (ops ++ [SStart e]) (Up e (registered ops) (option_of ops))
| l_fail : forall ops p e, leaves ops p -> ~ succeeds e ops -> leaves (ops ++ [SStart e]) Down.

(* the servers are as the phase says *)
Definition serving (s : server) (p : phase) : Prop :=
  match p with
  | Down => sv_udp s = [] /\ sv_mcast s = []
  | Up e obs option =>
      Forall2 (up_at obs) (os_ifs e) (sv_mcast s)
      /\ (udp_wanted option -> Forall2 (up_at obs) (os_ifs e) (sv_udp s))
      /\ (~ udp_wanted option -> sv_udp s = [])
  end.

(* ---- deliveries ---- *)

(* the datagram holds the frame [f] (what follows a frame is ignored, see C02) *)
Definition holds (b : list Z) (f : frame) : Prop := frame_ok f /\ exists rest, b = enc_frame f ++ rest.

(* the deliveries an arrival should cause: to all observers [obs] in order, each once, the frame
   with the address of its sender; to none if it is not a frame *)
Inductive delivers (le : bool) (obs : list mobs) : arrival -> list (mobs * msg) -> Prop :=
| d_frame : forall b from local f ds, holds b f -> map fst ds = obs ->
    Forall (fun d => shows le (snd d) f /\ m_from (snd d) = Some from) ds ->
    delivers le obs (AData b from local) ds
| d_bad : forall b from local, (forall f, ~ holds b f) -> delivers le obs (AData b from local) []
| d_empty : delivers le obs AEmpty [].

Definition arrival_ok (a : arrival) : Prop :=
  match a with AData b _ _ => buffer b | _ => True end.
(* the frame in a datagram, if it has one, fits the receive buffer of 512 bytes *)
Definition arrival_fits (a : arrival) : Prop :=
  match a with AData b _ _ => forall f, holds b f -> len (enc_frame f) <= 512 | _ => True end.
(* handlers that leave the message as it is *)
Definition reads_only (eff : mobs -> msg -> msg) : Prop := forall o m, eff o m = m.

(* ---- sending ---- *)
Definition taken (h : list (attempt * bool)) : list attempt := map fst (filter snd h).
(* the addresses of the sockets of the servers *)
Definition sockets (l : list srv) : list string :=
  flat_map (fun v => match v_sock v with Some a => [a] | None => [] end) l.
Definition MULTICAST : string := "224.0.23.0".
