(* The threads of the library and what runs in them.  A thread object holds a flag, the function to run
   (its action) and the identity of the last thread made for it; what really runs are instances: threads
   of the system, each made by one successful start.  The instances take steps in any order, also while
   a caller sleeps inside uecho_thread_stop.

   Simplifications: one thread makes all calls except uecho_thread_isrunnable, which the actions make; the compiler
   and the processor do not reorder; a call other than the sleep is one step; the signal mask and the handler set by
   posix_thread_proc and pthread_testcancel have no effect (nothing in the library sends SIGQUIT
   or cancels a thread); the Windows and ESP32 branches are not modelled. *)
From Coq Require Import ZArith List Bool.
From Verif Require Import CSem.
Import ListNotations.

(* util/thread.h:42-61: the thread object; [th_live] tells that it has not been freed, [th_id] is the number of
   the instance pThread identifies (None: pThread holds no identity) *)
Record thr : Type := mkThr { th_live : bool; th_flag : bool; th_id : option nat; th_action : bool }.

(* An action does pieces of work and asks between them whether it is to go on, as the action of the servers does:
   frame/udp_server.c:139-184 uecho_udp_server_action *)
Inductive ipc : Type :=
| IBegin      (* the system made the thread; posix_thread_proc has yet to read the action *)
| IAsk        (* about to call uecho_thread_isrunnable *)
| IWork       (* in a piece of work *)
| IEnd.       (* the action has returned and the thread of the system is gone *)

(* an instance: its thread object, where it is, and how many pieces of work it has done *)
Record inst : Type := mkInst { in_thr : nat; in_pc : ipc; in_work : nat }.

Record world : Type := mkWorld { w_thr : list thr; w_inst : list inst }.

Definition empty : world := mkWorld [] [].

Fixpoint upd {A} (n : nat) (x : A) (l : list A) : list A :=
  match l, n with
  | [], _ => []
  | _ :: r, O => x :: r
  | y :: r, S m => y :: upd m x r
  end.

Definition set_thr (t : nat) (o : thr) (w : world) : world := mkWorld (upd t o (w_thr w)) (w_inst w).
Definition set_inst (i : nat) (x : inst) (w : world) : world := mkWorld (w_thr w) (upd i x (w_inst w)).

(* reading a thread object: one that was freed, or never made, must not be touched *)
Definition thr_at (t : nat) (w : world) : res thr :=
  match nth_error (w_thr w) t with
  | Some o => if th_live o then Ok o else Undef UB_free
  | None => Undef UB_free
  end.

(* util/thread.c:177-187 uecho_thread_isrunnable *)
Definition isrunnable (h : option nat) (w : world) : res bool :=
  match h with
  | None => Ok false
  | Some t => match thr_at t w with Ok o => Ok (th_flag o) | Undef u => Undef u end
  end.

(* util/thread.c:193-199 uecho_thread_isrunning *)
Definition isrunning (h : option nat) (w : world) : res bool :=
  match h with
  | None => Ok false
  | Some t => match thr_at t w with Ok o => Ok (th_flag o) | Undef u => Undef u end
  end.

(* one step of instance [i]; [more] tells whether an action that is working goes on to ask (true) or returns by
   itself (false).  util/thread.c:36-56 posix_thread_proc *)
Definition istep (i : nat) (more : bool) (w : world) : res world :=
  match nth_error (w_inst w) i with
  | None => Ok w
  | Some x =>
      match in_pc x with
      | IBegin =>
          match thr_at (in_thr x) w with
          | Ok o => Ok (set_inst i (mkInst (in_thr x) (if th_action o then IAsk else IEnd) (in_work x)) w)
          | Undef u => Undef u
          end
      | IAsk =>
          match isrunnable (Some (in_thr x)) w with
          | Ok go => Ok (set_inst i (mkInst (in_thr x) (if go then IWork else IEnd) (in_work x)) w)
          | Undef u => Undef u
          end
      | IWork => Ok (set_inst i (mkInst (in_thr x) (if more then IAsk else IEnd) (S (in_work x))) w)
      | IEnd => Ok w
      end
  end.

(* a sleep: the instances take these steps *)
Fixpoint isteps (l : list (nat * bool)) (w : world) : res world :=
  match l with
  | [] => Ok w
  | (i, more) :: r => match istep i more w with Ok w' => isteps r w' | Undef u => Undef u end
  end.

(* util/thread.c:64-80 uecho_thread_new; [mem]: malloc succeeds.  pThread is not set. *)
Definition thread_new (mem : bool) (w : world) : world * option nat :=
  if mem then (mkWorld (w_thr w ++ [mkThr true false None false]) (w_inst w), Some (length (w_thr w)))
  else (w, None).

(* util/thread.c:205-211 uecho_thread_setaction *)
Definition setaction (h : option nat) (act : bool) (w : world) : res world :=
  match h with
  | None => Ok w
  | Some t =>
      match thr_at t w with
      | Ok o => Ok (set_thr t (mkThr true (th_flag o) (th_id o) act) w)
      | Undef u => Undef u
      end
  end.

(* what the system answers: all three calls succeed, or one of them is the first to fail *)
Inductive answer : Type := AnsOk | AnsAttr | AnsDetach | AnsCreate.

(* util/thread.c:106-137 uecho_thread_start.  A pthread_create that fails leaves pThread undefined. *)
Definition start (h : option nat) (a : answer) (w : world) : res (world * bool) :=
  match h with
  | None => Ok (w, false)
  | Some t =>
      match thr_at t w with
      | Undef u => Undef u
      | Ok o =>
          match a with
          | AnsOk => Ok (mkWorld (upd t (mkThr true true (Some (length (w_inst w))) (th_action o)) (w_thr w))
                               (w_inst w ++ [mkInst t IBegin 0]), true)
          | AnsAttr | AnsDetach => Ok (set_thr t (mkThr true false (th_id o) (th_action o)) w, false)
          | AnsCreate => Ok (set_thr t (mkThr true false None (th_action o)) w, false)
          end
      end
  end.

(* pthread_kill with signal 0, for an identity that must be of a thread that has not ended: the threads are detached, so
   the identity of one that has ended is invalid, and using it is undefined (POSIX, pthread_kill and 2.9.2) *)
Definition kill (id : option nat) (w : world) : res unit :=
  match id with
  | None => Undef UB_uninit
  | Some i =>
      match nth_error (w_inst w) i with
      | Some x => match in_pc x with IEnd => Undef UB_free | _ => Ok tt end
      | None => Undef UB_uninit
      end
  end.

(* util/thread.c:143-161 uecho_thread_stop; [z]: what the instances do between the clearing of the flag and
   pthread_kill, [s]: what they do during the sleep *)
Definition stop (h : option nat) (z s : list (nat * bool)) (w : world) : res (world * bool) :=
  match h with
  | None => Ok (w, false)
  | Some t =>
      match thr_at t w with
      | Undef u => Undef u
      | Ok o =>
          if th_flag o then
            match isteps z (set_thr t (mkThr true false (th_id o) (th_action o)) w) with
            | Undef u => Undef u
            | Ok w1 =>
                match kill (th_id o) w1 with
                | Undef u => Undef u
                | Ok _ => match isteps s w1 with Ok w2 => Ok (w2, true) | Undef u => Undef u end
                end
            end
          else Ok (w, true)
      end
  end.

(* util/thread.c:86-100 uecho_thread_delete *)
Definition delete (h : option nat) (z s : list (nat * bool)) (w : world) : res (world * bool) :=
  match h with
  | None => Ok (w, false)
  | Some t =>
      match stop (Some t) z s w with
      | Undef u => Undef u
      | Ok (w1, _) =>
          match thr_at t w1 with
          | Undef u => Undef u
          | Ok o => Ok (set_thr t (mkThr false (th_flag o) (th_id o) (th_action o)) w1, true)
          end
      end
  end.

(* util/thread.c:167-171 uecho_thread_restart *)
Definition restart (h : option nat) (z s : list (nat * bool)) (a : answer) (w : world) : res (world * bool) :=
  match stop h z s w with
  | Undef u => Undef u
  | Ok (w1, _) => start h a w1
  end.

(* util/thread_list.c:51-63 uecho_threadlist_start: the threads of the list in order, with the answers of the system *)
Fixpoint list_start (l : list (nat * answer)) (w : world) : res (world * bool) :=
  match l with
  | [] => Ok (w, true)
  | (t, a) :: r => match start (Some t) a w with Ok (w1, _) => list_start r w1 | Undef u => Undef u end
  end.

(* util/thread_list.c:69-80 uecho_threadlist_stop *)
Fixpoint list_stop (l : list (nat * (list (nat * bool) * list (nat * bool)))) (w : world) : res (world * bool) :=
  match l with
  | [] => Ok (w, true)
  | (t, (z, s)) :: r => match stop (Some t) z s w with Ok (w1, _) => list_stop r w1 | Undef u => Undef u end
  end.

(* what happens: a call by the program, or a step of an instance between two calls *)
Inductive event : Type :=
| ENew (mem : bool)
| EAction (h : option nat) (act : bool)
| EStart (h : option nat) (a : answer)
| EStop (h : option nat) (z s : list (nat * bool))
| ERestart (h : option nat) (z s : list (nat * bool)) (a : answer)
| EDelete (h : option nat) (z s : list (nat * bool))
| ERunning (h : option nat)
| EListStart (l : list (nat * answer))
| EListStop (l : list (nat * (list (nat * bool) * list (nat * bool))))
| EStep (i : nat) (more : bool).

(* what the program sees *)
Inductive seen : Type := SThread (h : option nat) | SBool (b : bool) | SNothing.

Definition estep (e : event) (w : world) : res (world * seen) :=
  let said r := match r with Ok (w', b) => Ok (w', SBool b) | Undef u => Undef u end in
  let done r := match r with Ok w' => Ok (w', SNothing) | Undef u => Undef u end in
  match e with
  | ENew mem => let (w', h) := thread_new mem w in Ok (w', SThread h)
  | EAction h act => done (setaction h act w)
  | EStart h a => said (start h a w)
  | EStop h z s => said (stop h z s w)
  | ERestart h z s a => said (restart h z s a w)
  | EDelete h z s => said (delete h z s w)
  | ERunning h => match isrunning h w with Ok b => Ok (w, SBool b) | Undef u => Undef u end
  | EListStart l => said (list_start l w)
  | EListStop l => said (list_stop l w)
  | EStep i more => done (istep i more w)
  end.

Fixpoint erun (l : list event) (w : world) : res (world * list seen) :=
  match l with
  | [] => Ok (w, [])
  | e :: r =>
      match estep e w with
      | Undef u => Undef u
      | Ok (w1, x) => match erun r w1 with Ok (w2, xs) => Ok (w2, x :: xs) | Undef u => Undef u end
      end
  end.

(* how many instances of thread object [t] have not ended *)
Definition active (t : nat) (w : world) : nat :=
  length (filter (fun x => (in_thr x =? t)%nat && match in_pc x with IEnd => false | _ => true end) (w_inst w)).
(* the pieces of work done by instance [i] *)
Definition worked (i : nat) (w : world) : nat :=
  match nth_error (w_inst w) i with Some x => in_work x | None => 0 end.
