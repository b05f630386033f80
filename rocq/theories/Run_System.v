(* Histories of a device and a controller that share a network with anybody else. *)
From Coq Require Import String ZArith List Bool.
From Verif Require Import CSem M_Const M_Property M_Message M_PropertyList M_Object M_Std M_Node M_NodeListener
  M_Controller Spec_Message Spec_Object Run_Object Run_Node Run_Controller.
Import ListNotations.
Open Scope Z_scope.

Definition frame_bytes (p : post) : list Z := match p with PAnnounce b => b | PSend _ b => b end.

(* the values a node holds are no longer than the length byte of a frame can say *)
Definition short (n : node) : Prop :=
  Forall (fun o => Forall (fun p => len (p_data p) <= 255) (o_props o)) (n_objs n).

(* the device and all the states it has been in since we look (the current one included), the
   bytes of the frames it has sent since then, the controller *)
Record system : Type := mkSystem { sy_dev : node; sy_past : list node; sy_sent : list (list Z); sy_ctrl : ctrl }.

Section Run.
(* byte order and network of the device, byte order and networks of the controller and of its
   copies; the address of the device *)
Variable dle cle : bool.
Variable dnet cnet csnet : post -> bool.
Variable home : string.

(* What may reach the controller.  From the address of the device: what the device has sent, at
   any later time, any number of times, in any order or never, perhaps cut short.  From elsewhere:
   anything.  The program of the controller does anything except to change the copy of the
   device itself. *)
Definition genuine (sent : list (list Z)) (x : cop) : Prop :=
  match x with
  | CReceive data la ra _ _ =>
      (match ra with Some _ => ra | None => la end) = Some home -> exists b k, In b sent /\ data = firstn k b
  | CShadow a _ => a <> home
  | _ => True
  end.

Inductive sys_step : system -> system -> Prop :=
| sys_dev : forall n past sent c x n' own ans,
    nop_ok dle std_db x -> nstep dle dnet std_db n x = Ok (n', own, ans) -> short n' ->
    sys_step (mkSystem n past sent c) (mkSystem n' (n' :: past) (sent ++ map frame_bytes (own ++ ans)) c)
| sys_ctrl : forall n past sent c x out,
    cop_ok cle std_db x -> genuine sent x -> cstep cle cnet csnet std_db c x = Ok out -> cmem_ok (co_ctrl out) ->
    sys_step (mkSystem n past sent c) (mkSystem n past sent (co_ctrl out)).

(* from here on: any device and any controller programs can have; nothing sent before counts *)
Definition sys_start (s : system) : Prop :=
  api_node dle dnet std_db (sy_dev s) /\ short (sy_dev s) /\ sy_past s = [sy_dev s] /\ sy_sent s = []
  /\ api_ctrl cle cnet csnet std_db (sy_ctrl s).

Inductive sys_run (s0 : system) : system -> Prop :=
| sys_run_start : sys_run s0 s0
| sys_run_step : forall s s', sys_run s0 s -> sys_step s s' -> sys_run s0 s'.
End Run.
