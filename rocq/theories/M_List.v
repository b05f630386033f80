(* Model of src/uecho/util/list.c: circular doubly linked lists whose links are part of the
   elements.  Memory is explicit: a pointer is a number, 0 is NULL, and a cell that has not
   been allocated or has been freed is absent.  Fields not initialised yet hold whatever
   [malloc] left there.  A loop is given a number of turns: [None] says that the loop was not
   over after that many. *)
From Coq Require Import ZArith List Bool.
From Verif Require Import CSem.
Import ListNotations.
Open Scope Z_scope.

(* list.h:25-28 UECHO_LIST_STRUCT_MEMBERS *)
Record cell : Type := mkCell { l_head : bool; l_prev : Z; l_next : Z }.
Definition heap : Type := Z -> option cell.

Definition upd (h : heap) (a : Z) (c : option cell) : heap := fun x => if x =? a then c else h x.

(* reading and writing through a pointer *)
Definition deref (h : heap) (a : Z) : res cell :=
  if a =? 0 then Undef UB_null else match h a with Some c => Ok c | None => Undef UB_free end.
Definition get_head (h : heap) (a : Z) : res bool := do c <- deref h a ;; Ok (l_head c).
Definition get_prev (h : heap) (a : Z) : res Z := do c <- deref h a ;; Ok (l_prev c).
Definition get_next (h : heap) (a : Z) : res Z := do c <- deref h a ;; Ok (l_next c).
Definition set_head (h : heap) (a : Z) (b : bool) : res heap :=
  do c <- deref h a ;; Ok (upd h a (Some (mkCell b (l_prev c) (l_next c)))).
Definition set_prev (h : heap) (a v : Z) : res heap :=
  do c <- deref h a ;; Ok (upd h a (Some (mkCell (l_head c) v (l_next c)))).
Definition set_next (h : heap) (a v : Z) : res heap :=
  do c <- deref h a ;; Ok (upd h a (Some (mkCell (l_head c) (l_prev c) v))).

(* malloc gives a cell at an unused address [a] with arbitrary content; free *)
Definition malloc (h : heap) (a : Z) (junk : cell) : heap := upd h a (Some junk).
Definition mfree (h : heap) (a : Z) : res heap := do _ <- deref h a ;; Ok (upd h a None).

(* list.c:17-26 uecho_list_header_init *)
Definition uecho_list_header_init (h : heap) (list : Z) : res (heap * bool) :=
  if list =? 0 then Ok (h, false)
  else
    do h1 <- set_head h list true ;; do h2 <- set_next h1 list list ;; do h3 <- set_prev h2 list list ;; Ok (h3, true).

(* list.c:32-41 uecho_list_node_init *)
Definition uecho_list_node_init (h : heap) (list : Z) : res (heap * bool) :=
  if list =? 0 then Ok (h, false)
  else
    do h1 <- set_head h list false ;; do h2 <- set_next h1 list list ;; do h3 <- set_prev h2 list list ;; Ok (h3, true).

(* list.c:214-226 uecho_list_next *)
Definition uecho_list_next (h : heap) (list : Z) : res Z :=
  if list =? 0 then Ok 0
  else
    do n <- get_next h list ;;
    if n =? 0 then Ok 0 else do b <- get_head h n ;; if b then Ok 0 else Ok n.

(* list.c:47-60 uecho_list_size: the counter is an int *)
Fixpoint size_loop (turns : nat) (h : heap) (list cnt : Z) : option (res Z) :=
  if list =? 0 then Some (Ok cnt)
  else
    match turns with
    | O => None
    | S t =>
        match (do c <- int_chk (cnt + 1) ;; do l <- uecho_list_next h list ;; Ok (c, l)) with
        | Ok (c, l) => size_loop t h l c
        | Undef u => Some (Undef u)
        end
    end.
Definition uecho_list_size (turns : nat) (h : heap) (headList : Z) : option (res Z) :=
  if headList =? 0 then Some (Ok 0)
  else match uecho_list_next h headList with
       | Ok l => size_loop turns h l 0
       | Undef u => Some (Undef u)
       end.

(* list.c:66-82 uecho_list_get; [k] turns of the loop are [index], none if it is negative *)
Fixpoint get_loop (k : nat) (h : heap) (list : Z) : res Z :=
  match k with
  | O => Ok list
  | S k' => if list =? 0 then Ok list else do l <- uecho_list_next h list ;; get_loop k' h l
  end.
Definition uecho_list_get (h : heap) (headList index : Z) : res Z :=
  if headList =? 0 then Ok 0
  else do l <- uecho_list_next h headList ;; get_loop (Z.to_nat index) h l.

(* list.c:88-101 uecho_list_insert *)
Definition uecho_list_insert (h : heap) (prevList list : Z) : res (heap * bool) :=
  if (prevList =? 0) || (list =? 0) then Ok (h, false)
  else
    do h1 <- set_prev h list prevList ;;
    do n <- get_next h1 prevList ;;
    do h2 <- set_next h1 list n ;;
    do n2 <- get_next h2 prevList ;;
    do h3 <- set_prev h2 n2 list ;;
    do h4 <- set_next h3 prevList list ;;
    Ok (h4, true).

(* list.c:107-120 uecho_list_add *)
Definition uecho_list_add (h : heap) (headList list : Z) : res (heap * bool) :=
  if (headList =? 0) || (list =? 0) then Ok (h, false)
  else
    do p <- get_prev h headList ;;
    if p =? 0 then Ok (h, false)
    else do r <- uecho_list_insert h p list ;; Ok (fst r, true).

(* list.c:126-139 uecho_list_remove *)
Definition uecho_list_remove (h : heap) (list : Z) : res (heap * bool) :=
  if list =? 0 then Ok (h, false)
  else
    do p <- get_prev h list ;;
    do n <- get_next h list ;;
    if (p =? 0) || (n =? 0) then Ok (h, false)
    else
      do n1 <- get_next h list ;;
      do p1 <- get_prev h list ;;
      do h1 <- set_next h p1 n1 ;;
      do n2 <- get_next h1 list ;;
      do p2 <- get_prev h1 list ;;
      do h2 <- set_prev h1 n2 p2 ;;
      do h3 <- set_next h2 list list ;;
      do h4 <- set_prev h3 list list ;;
      Ok (h4, true).

(* list.c:145-158 uecho_list_prev_circular *)
Definition uecho_list_prev_circular (h : heap) (list : Z) : res Z :=
  if list =? 0 then Ok 0
  else
    do p <- get_prev h list ;;
    if p =? 0 then Ok 0 else do b <- get_head h p ;; get_prev h (if b then p else list).

(* list.c:164-177 uecho_list_prev *)
Definition uecho_list_prev (h : heap) (list : Z) : res Z :=
  if list =? 0 then Ok 0
  else
    do p <- get_prev h list ;;
    if p =? 0 then Ok 0 else do b <- get_head h p ;; if b then Ok 0 else Ok p.

(* list.c:183-196 uecho_list_next_circular *)
Definition uecho_list_next_circular (h : heap) (list : Z) : res Z :=
  if list =? 0 then Ok 0
  else
    do n <- get_next h list ;;
    if n =? 0 then Ok 0 else do b <- get_head h n ;; get_next h (if b then n else list).

(* list.c:202-208 uecho_list_gets *)
Definition uecho_list_gets (h : heap) (headList : Z) : res Z :=
  if headList =? 0 then Ok 0 else uecho_list_next h headList.

(* list.c:232-253 uecho_list_clear.  [destroy] is the destructor, [None] if it is NULL. *)
Fixpoint clear_loop (turns : nat) (destroy : option (heap -> Z -> res heap)) (h : heap) (list : Z) : option (res heap) :=
  if list =? 0 then Some (Ok h)
  else
    match turns with
    | O => None
    | S t =>
        match (do n <- uecho_list_next h list ;;
               do r <- uecho_list_remove h list ;;
               do h2 <- match destroy with Some d => d (fst r) list | None => mfree (fst r) list end ;;
               Ok (h2, n)) with
        | Ok (h2, n) => clear_loop t destroy h2 n
        | Undef u => Some (Undef u)
        end
    end.
Definition uecho_list_clear (turns : nat) (destroy : option (heap -> Z -> res heap)) (h : heap) (headList : Z)
  : option (res (heap * bool)) :=
  if headList =? 0 then Some (Ok (h, false))
  else match uecho_list_next h headList with
       | Ok l => option_map (rmap (fun h => (h, true))) (clear_loop turns destroy h l)
       | Undef u => Some (Undef u)
       end.

(* property.c:55-70 uecho_property_delete, class.c:40-50 uecho_class_delete: the destructors of the
   library take the element out of its list and free it (the memory it owns is not shared) *)
Definition remove_and_free (h : heap) (a : Z) : res heap :=
  do r <- uecho_list_remove h a ;; mfree (fst r) a.
