(* Threads that write and read the values of properties at the same time.  A started node has one receiving thread for every
   server (frame/udp_server.c, frame/mcast_server.c), besides the threads of the application; nothing locks the objects of a node
   (controller.c:490-516 is the only place where a mutex is locked).  Each load and store of a field, each byte copied and each
   call of calloc and free is one step; that a data race has no defined meaning at all in C11 is not used.

   The properties exist throughout; the lists they are found in are not changed.  calloc succeeds.  A property that is announced
   when it is set is read again by the thread that sets it: its program has the reading after the writing. *)
From Coq Require Import ZArith List Bool.
From Verif Require Import CSem.
Import ListNotations.
Open Scope nat_scope.

(* property.h: the fields data and data_size of a property; None is NULL *)
Record pcell : Type := mkPcell { c_data : option nat; c_size : nat }.
(* the properties, the blocks of calloc that are not freed, the number of the next block *)
Record pmem : Type := mkPmem { m_props : nat -> pcell; m_blks : nat -> option (list Z); m_next : nat }.

Definition set_fun {A : Type} (f : nat -> A) (i : nat) (x : A) : nat -> A := fun j => if j =? i then x else f j.
Definition with_data (p : nat) (d : option nat) (m : pmem) : pmem :=
  mkPmem (set_fun (m_props m) p (mkPcell d (c_size (m_props m p)))) (m_blks m) (m_next m).
Definition with_size (p : nat) (n : nat) (m : pmem) : pmem :=
  mkPmem (set_fun (m_props m) p (mkPcell (c_data (m_props m p)) n)) (m_blks m) (m_next m).
Definition with_blk (d : nat) (b : option (list Z)) (m : pmem) : pmem :=
  mkPmem (m_props m) (set_fun (m_blks m) d b) (m_next m).

Inductive pact : Type :=
| PSet (p : nat) (v : list Z)      (* property.c:149-169 uecho_property_setdata: node_listener.c:84, or the application *)
| PGet (p : nat).                  (* node_listener.c:91: the data are copied into a property of the answer *)
Inductive pres : Type := RSet (ok : bool) | RGet (v : list Z).

(* where a thread is *)
Inductive sphase : Type :=
| SSize0                           (* property.c:373, data_size = 0 *)
| STest                            (* 375, the test of data *)
| SLoadFree                        (* 376, data is loaded *)
| SFree (d : option nat)           (* 376, free *)
| SNull                            (* 377, data = NULL *)
| SAlloc                           (* 106-112, calloc and the store of its result *)
| SCheck                           (* 113, the test of data *)
| SSize                            (* 116, data_size = dataSize *)
| SLoadCopy                        (* 160, data is loaded *)
| SCopy (d : nat) (k : nat).       (* 160, memcpy, byte k *)
Inductive gphase : Type :=
| GFirst                           (* the first argument that is evaluated *)
| GSize (d : option nat)           (* data has been loaded, data_size is next *)
| GData (n : nat)                  (* data_size has been loaded, data is next *)
| GCopy (d : option nat) (n : nat) (acc : list Z).   (* memcpy into the answer *)
Inductive ppc : Type := PIdle | PInSet (p : nat) (v : list Z) (s : sphase) | PInGet (p : nat) (g : gphase).
Record pthr : Type := mkPthr { t_pc : ppc; t_todo : list pact; t_log : list pres }.

(* property.c:149-169 uecho_property_setdata, 102-119 uecho_property_setcount, 368-381 uecho_property_cleardata:
   one step; None: the call returns *)
Definition set_step (m : pmem) (p : nat) (v : list Z) (s : sphase) : res (pmem * (sphase + bool)) :=
  match s with
  | SSize0 => Ok (with_size p 0 m, inl STest)
  | STest => Ok (m, inl (match c_data (m_props m p) with None => SAlloc | Some _ => SLoadFree end))
  | SLoadFree => Ok (m, inl (SFree (c_data (m_props m p))))
  | SFree None => Ok (m, inl SNull)
  | SFree (Some d) =>
      match m_blks m d with None => Undef UB_free | Some _ => Ok (with_blk d None m, inl SNull) end
  | SNull => Ok (with_data p None m, inl SAlloc)
  | SAlloc =>
      match length v with
      | O => Ok (m, inr true)
      | n => let m' := with_data p (Some (m_next m)) (with_blk (m_next m) (Some (repeat 0%Z n)) m) in
             Ok (mkPmem (m_props m') (m_blks m') (S (m_next m)), inl SCheck)
      end
  | SCheck => Ok (m, match c_data (m_props m p) with None => inr false | Some _ => inl SSize end)
  | SSize => Ok (with_size p (length v) m, inl SLoadCopy)
  | SLoadCopy => match c_data (m_props m p) with None => Undef UB_null | Some d => Ok (m, inl (SCopy d 0)) end
  | SCopy d k =>
      match nth_error v k with
      | None => Ok (m, inr true)
      | Some c =>
          match m_blks m d with
          | None => Undef UB_free
          | Some l => if k <? length l then Ok (with_blk d (Some (firstn k l ++ c :: skipn (S k) l)) m, inl (SCopy d (S k)))
                      else Undef UB_write
          end
      end
  end.

(* property.c:449-454 uecho_property_getdata and property.c:460-465 uecho_property_getdatasize as two arguments of one call, in
   either order, and the memcpy of property.c:160; [sf]: the size is evaluated first *)
Definition get_step (sf : bool) (m : pmem) (p : nat) (g : gphase) : res (gphase + list Z) :=
  match g with
  | GFirst => Ok (inl (if sf then GData (c_size (m_props m p)) else GSize (c_data (m_props m p))))
  | GSize d => Ok (inl (GCopy d (c_size (m_props m p)) []))
  | GData n => Ok (inl (GCopy (c_data (m_props m p)) n []))
  | GCopy d n acc =>
      if n <=? length acc then Ok (inr acc)
      else
        match d with
        | None => Undef UB_null
        | Some d =>
            match m_blks m d with
            | None => Undef UB_free
            | Some l => match nth_error l (length acc) with
                        | None => Undef UB_read
                        | Some c => Ok (inl (GCopy (Some d) n (acc ++ [c])))
                        end
            end
        end
  end.

Definition pstep (sf : bool) (m : pmem) (t : pthr) : res (pmem * pthr) :=
  match t_pc t with
  | PIdle =>
      match t_todo t with
      | [] => Ok (m, t)
      | PSet p v :: r => Ok (m, mkPthr (PInSet p v SSize0) r (t_log t))
      | PGet p :: r => Ok (m, mkPthr (PInGet p GFirst) r (t_log t))
      end
  | PInSet p v s =>
      do x <- set_step m p v s ;;
      Ok (fst x, match snd x with
                 | inl s' => mkPthr (PInSet p v s') (t_todo t) (t_log t)
                 | inr ok => mkPthr PIdle (t_todo t) (t_log t ++ [RSet ok])
                 end)
  | PInGet p g =>
      do x <- get_step sf m p g ;;
      Ok (m, match x with
             | inl g' => mkPthr (PInGet p g') (t_todo t) (t_log t)
             | inr l => mkPthr PIdle (t_todo t) (t_log t ++ [RGet l])
             end)
  end.

(* the schedule says which thread makes each step; numbers of no thread are skipped *)
Fixpoint psched (sf : bool) (m : pmem) (ts : list pthr) (sched : list nat) : res (pmem * list pthr) :=
  match sched with
  | [] => Ok (m, ts)
  | i :: r =>
      match nth_error ts i with
      | None => psched sf m ts r
      | Some t =>
          do x <- pstep sf m t ;;
          psched sf (fst x) (firstn i ts ++ snd x :: skipn (S i) ts) r
      end
  end.
Definition pstart (progs : list (list pact)) : list pthr := map (fun l => mkPthr PIdle l []) progs.
