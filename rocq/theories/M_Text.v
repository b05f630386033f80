(* util/strings_function.c: copying C strings, comparing a part of them or without regard to case, and printing numbers into a
   buffer of the caller.  A block is a list of bytes (see M_String.v); the two blocks do not overlap, and [None] is NULL.
   strcpy, strcat, strncpy, strncmp and strcasecmp have their standard meaning, in the C locale; printing is sprintf, as
   HAVE_SNPRINTF is defined nowhere.  The functions for float and double are left out. *)
From Coq Require Import ZArith List Bool.
From Verif Require Import CSem M_String.
Import ListNotations.
Open Scope Z_scope.

(* the characters of a C string and its NUL *)
Definition with_nul (src : option (list Z)) : res (list Z) :=
  match src with None => Undef UB_null | Some s => rmap (fun t => t ++ [0]) (ctext s) end.

(* strings_function.c:78-81 uecho_strcpy: the block of dst afterwards *)
Definition uecho_strcpy (dst src : option (list Z)) : res (list Z) :=
  do t <- with_nul src ;;
  match dst with None => Undef UB_null | Some d => wr_range d 0 t end.
(* strings_function.c:87-90 uecho_strcat *)
Definition uecho_strcat (dst src : option (list Z)) : res (list Z) :=
  do t <- with_nul src ;;
  match dst with None => Undef UB_null | Some d => do o <- rmap len (ctext d) ;; wr_range d o t end.
(* strings_function.c:319-323 uecho_strncpy *)
Definition uecho_strncpy (dst src : option (list Z)) (cnt : Z) : res (list Z) :=
  match dst, src with
  | Some d, Some s => do b <- c_strncpy s (Z.to_nat cnt) ;; wr_range d 0 b
  | _, _ => Undef UB_null
  end.

(* strncmp: the sign of the result *)
Fixpoint c_strncmp (a b : list Z) (n : nat) {struct n} : res Z :=
  match n with
  | O => Ok 0
  | S n' =>
      match a, b with
      | x :: a', y :: b' =>
          if x <? y then Ok (-1) else if y <? x then Ok 1
          else if x =? 0 then Ok 0 else c_strncmp a' b' n'
      | _, _ => Undef UB_read
      end
  end.
(* strings_function.c:109-116 uecho_strncmp *)
Definition uecho_strncmp (str1 str2 : option (list Z)) (nchars : Z) : res Z :=
  match str1, str2 with
  | None, _ => Ok (-1)
  | _, None => Ok 1
  | Some a, Some b => c_strncmp a b (Z.to_nat nchars)
  end.

Definition c_tolower (c : Z) : Z := if (65 <=? c) && (c <=? 90) then c + 32 else c.
(* strcasecmp: the sign of the result *)
Fixpoint c_strcasecmp (a b : list Z) : res Z :=
  match a, b with
  | x :: a', y :: b' =>
      if c_tolower x <? c_tolower y then Ok (-1) else if c_tolower y <? c_tolower x then Ok 1
      else if x =? 0 then Ok 0 else c_strcasecmp a' b'
  | _, _ => Undef UB_read
  end.
(* strings_function.c:122-135 uecho_strcasecmp *)
Definition uecho_strcasecmp (str1 str2 : option (list Z)) : res Z :=
  match str1, str2 with Some a, Some b => c_strcasecmp a b | _, _ => Ok (-1) end.
(* strings_function.c:153-159 uecho_strcaseeq *)
Definition uecho_strcaseeq (str1 str2 : option (list Z)) : res bool :=
  match str1, str2 with
  | Some _, Some _ => rmap (fun x => x =? 0) (uecho_strcasecmp str1 str2)
  | _, _ => Ok false
  end.

(* strings_function.c:340-348 uecho_int2str, strings_function.c:354-362 uecho_long2str, strings_function.c:410-418
   uecho_ssizet2str: bufSize is not used *)
Definition number2str (value : Z) (buf : list (option Z)) (bufSize : Z) : res (list (option Z)) := int2str value buf.
(* strings_function.c:396-404 uecho_sizet2str *)
Definition uecho_sizet2str (value : Z) (buf : list (option Z)) (bufSize : Z) : res (list (option Z)) := sizet2str value buf.
