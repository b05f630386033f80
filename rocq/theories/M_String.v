(* util/strings.c, strings_function.c and strings_tokenizer.c: the string object, the functions on C
   strings and the tokenizer.

   A memory block is a list of cells; [None] is a byte that was allocated and not written.  Bytes are
   0..255; a char above 127 is negative, so isspace is not defined for it.  [mem n] tells whether an
   allocation of n bytes succeeds.  strlen, strcmp, strncmp, strncpy, strstr, memcpy and memmove have their
   standard meaning: reading past the end of a block is undefined, so is memcpy between overlapping ranges. *)
From Coq Require Import ZArith List Bool.
From Verif Require Import CSem.
Import ListNotations.
Open Scope Z_scope.

(* ---- C strings ---- *)

(* the characters before the terminating NUL *)
Fixpoint cells_text (l : list (option Z)) : res (list Z) :=
  match l with
  | [] => Undef UB_read
  | None :: _ => Undef UB_uninit
  | Some c :: r => if c =? 0 then Ok [] else rmap (cons c) (cells_text r)
  end.
Definition ctext (l : list Z) : res (list Z) := cells_text (map Some l).

(* strings_function.c:69-72 uecho_strlen *)
Definition uecho_strlen (str : option (list Z)) : res Z :=
  match str with None => Ok 0 | Some b => rmap len (ctext b) end.

(* strcmp: the sign of the result *)
Fixpoint c_strcmp (a b : list Z) : res Z :=
  match a, b with
  | x :: a', y :: b' =>
      if x <? y then Ok (-1) else if y <? x then Ok 1
      else if x =? 0 then Ok 0 else c_strcmp a' b'
  | _, _ => Undef UB_read
  end.
(* strings_function.c:96-103 uecho_strcmp *)
Definition uecho_strcmp (str1 str2 : option (list Z)) : res Z :=
  match str1, str2 with
  | None, _ => Ok (-1)
  | _, None => Ok 1
  | Some a, Some b => c_strcmp a b
  end.
(* strings_function.c:141-147 uecho_streq *)
Definition uecho_streq (str1 str2 : option (list Z)) : res bool :=
  match str1, str2 with
  | None, _ => Ok false
  | _, None => Ok false
  | Some _, Some _ => rmap (fun x => x =? 0) (uecho_strcmp str1 str2)
  end.

(* strstr on the texts: the first position at which [b] occurs in [a] *)
Fixpoint prefixb (b a : list Z) : bool :=
  match b, a with
  | [], _ => true
  | x :: b', y :: a' => (x =? y) && prefixb b' a'
  | _ :: _, [] => false
  end.
Fixpoint c_strstr (a b : list Z) (i : Z) : option Z :=
  if prefixb b a then Some i
  else match a with [] => None | _ :: a' => c_strstr a' b (i + 1) end.
(* strings_function.c:165-175 uecho_strstr *)
Definition uecho_strstr (haystack needle : option (list Z)) : res Z :=
  match haystack, needle with
  | Some a, Some b =>
      do s <- ctext a ;; do t <- ctext b ;;
      Ok (match c_strstr s t 0 with None => -1 | Some i => i end)
  | _, _ => Ok (-1)
  end.

(* the inner loops over the characters: is [c] one of chars[0..n-1]? *)
Fixpoint one_of (c : Z) (chars : list Z) (n : nat) : res bool :=
  match n with
  | O => Ok false
  | S n' => match chars with
            | [] => Undef UB_read
            | x :: r => if c =? x then Ok true else one_of c r n'
            end
  end.
(* strings_function.c:181-198 uecho_strchr, the loop from index i with k steps left *)
Fixpoint strchr_loop (str chars : list Z) (n : nat) (i : Z) (k : nat) : res Z :=
  match k with
  | O => Ok (-1)
  | S k' => do c <- rd str i ;; do b <- one_of c chars n ;;
            if b then Ok i else strchr_loop str chars n (i + 1) k'
  end.
(* strings_function.c:181-198 uecho_strchr *)
Definition uecho_strchr (str chars : option (list Z)) (nchars : Z) : res Z :=
  match str, chars with
  | Some s, Some c => do l <- uecho_strlen str ;; strchr_loop s c (Z.to_nat nchars) 0 (Z.to_nat l)
  | _, _ => Ok (-1)
  end.
(* strings_function.c:204-221 uecho_strrchr: the loop at index k-1 *)
Fixpoint strrchr_loop (str chars : list Z) (n : nat) (k : nat) : res Z :=
  match k with
  | O => Ok (-1)
  | S k' => do c <- rd str (Z.of_nat k') ;; do b <- one_of c chars n ;;
            if b then Ok (Z.of_nat k') else strrchr_loop str chars n k'
  end.
Definition uecho_strrchr (str chars : option (list Z)) (nchars : Z) : res Z :=
  match str, chars with
  | Some s, Some c => do l <- uecho_strlen str ;; strrchr_loop s c (Z.to_nat nchars) (Z.to_nat l)
  | _, _ => Ok (-1)
  end.

(* isspace in the C locale *)
Definition c_isspace (c : Z) : res bool :=
  if 128 <=? c then Undef UB_read else Ok ((c =? 32) || ((9 <=? c) && (c <=? 13))).
(* strings_function.c:227-249 uecho_strtrimwhite: the first loop, at index k-1; the length left *)
Fixpoint blanks_down (str : list Z) (k : nat) (l : Z) : res Z :=
  match k with
  | O => Ok l
  | S k' => do c <- rd str (Z.of_nat k') ;; do b <- c_isspace c ;; blanks_down str k' (if b then sz (l - 1) else l)
  end.
(* the second loop: the index of the first character that is not blank, or the bound *)
Fixpoint blanks_up (str : list Z) (i : Z) (k : nat) : res Z :=
  match k with
  | O => Ok i
  | S k' => do c <- rd str i ;; do b <- c_isspace c ;; if b then blanks_up str (i + 1) k' else Ok i
  end.
(* strings_function.c:227-249 uecho_strtrimwhite *)
Definition uecho_strtrimwhite (str : option (list Z)) : res (option (list Z)) :=
  match str with
  | None => Ok None
  | Some s =>
      do l <- uecho_strlen str ;;
      if l =? 0 then Ok str
      else
        do l1 <- blanks_down s (Z.to_nat l) l ;;
        do i <- blanks_up s 0 (Z.to_nat l1) ;;
        do s1 <- (if 0 <? i then do m <- rd_range s i (l1 - i) ;; wr_range s 0 m else Ok s) ;;
        do s2 <- wr s1 l1 0 ;;
        Ok (Some s2)
  end.

(* strings_function.c:268-287 uecho_strltrim, the loop *)
Fixpoint ltrim_loop (s d : list Z) (n : nat) (i : Z) (k : nat) : res Z :=
  match k with
  | O => Ok i
  | S k' => do c <- rd s i ;; do b <- one_of c d n ;; if b then ltrim_loop s d n (i + 1) k' else Ok i
  end.
(* strings_function.c:268-287 uecho_strltrim: the offset of the pointer returned *)
Definition uecho_strltrim (s d : list Z) (ndelim : Z) : res Z :=
  do l <- uecho_strlen (Some s) ;; ltrim_loop s d (Z.to_nat ndelim) 0 (Z.to_nat l).
(* strings_function.c:293-313 uecho_strrtrim, the loop at index k-1 *)
Fixpoint rtrim_loop (s d : list Z) (n : nat) (k : nat) : res (list Z) :=
  match k with
  | O => Ok s
  | S k' => do c <- rd s (Z.of_nat k') ;; do b <- one_of c d n ;;
            if b then do s' <- wr s (Z.of_nat k') 0 ;; rtrim_loop s' d n k' else Ok s
  end.
(* strings_function.c:293-313 uecho_strrtrim: the block afterwards *)
Definition uecho_strrtrim (s d : list Z) (ndelim : Z) : res (list Z) :=
  do l <- uecho_strlen (Some s) ;; rtrim_loop s d (Z.to_nat ndelim) (Z.to_nat l).
(* strings_function.c:255-262 uecho_strtrim: the block afterwards and the offset of the pointer returned *)
Definition uecho_strtrim (str delim : option (list Z)) (ndelim : Z) : res (option (list Z * Z)) :=
  match str, delim with
  | Some s, Some d => do s1 <- uecho_strrtrim s d ndelim ;; do i <- uecho_strltrim s1 d ndelim ;; Ok (Some (s1, i))
  | _, _ => Ok None
  end.

(* strncpy: the bytes written, at most [n]: the characters of [src], then NULs *)
Fixpoint c_strncpy (src : list Z) (n : nat) : res (list Z) :=
  match n with
  | O => Ok []
  | S n' => match src with
            | [] => Undef UB_read
            | c :: r => if c =? 0 then Ok (repeat 0 n) else rmap (cons c) (c_strncpy r n')
            end
  end.
(* strings_function.c:329-334 uecho_strncat: the block afterwards and the offset of the pointer returned *)
Definition uecho_strncat (str1 str2 : list Z) (cnt : Z) : res (list Z * Z) :=
  do l <- uecho_strlen (Some str1) ;;
  do b <- c_strncpy str2 (Z.to_nat cnt) ;;
  do s <- wr_range str1 l b ;;
  Ok (s, l).

(* ---- the string object ---- *)

(* strings.h: uEchoString *)
Record ustr : Type := mkStr { st_value : option (list (option Z)); st_mem : Z; st_size : Z }.
(* a pointer argument: NULL, into a block of the caller, or into the value of the string itself *)
Inductive src : Type := PNull | PExt (b : list (option Z)) | POwn (off : Z).

Section Strings.
Variable mem : Z -> bool.

(* strings.c:23-36 uecho_string_new *)
Definition uecho_string_new : ustr := mkStr None 0 0.
(* strings.c:54-64 uecho_string_clear *)
Definition uecho_string_clear (s : ustr) : ustr :=
  match st_value s with None => s | Some _ => mkStr None 0 0 end.
(* strings.c:142-145 uecho_string_getvalue *)
Definition uecho_string_getvalue (s : ustr) : option (list (option Z)) := st_value s.
(* strings.c:163-172 uecho_string_length *)
Definition uecho_string_length (s : ustr) : Z := match st_value s with None => 0 | Some _ => st_size s end.
(* strings.c:151-157 uecho_string_getmemorysize *)
Definition uecho_string_getmemorysize (s : ustr) : Z := st_mem s.

(* uecho_strlen of an argument *)
Definition src_len (s : ustr) (p : src) : res Z :=
  match p with
  | PNull => Ok 0
  | PExt b => rmap len (cells_text b)
  | POwn off => match st_value s with
                | None => Undef UB_null
                | Some blk => rmap len (cells_text (skipn (Z.to_nat off) blk))
                end
  end.

(* strings.c:104-122 uecho_string_setnvalue; a pointer into the value dangles once it is cleared *)
Definition uecho_string_setnvalue (s : ustr) (p : src) (n : Z) : res ustr :=
  let s1 := uecho_string_clear s in
  match p with
  | PNull => Ok s1
  | _ =>
      let m := sz (n + 1) in
      if negb (mem m) then Ok (mkStr None m n)
      else
        do b <- match p with PExt b => rd_range b 0 n | _ => Undef UB_free end ;;
        do blk <- wr_range (fresh_buf m) 0 b ;;
        do blk <- wr blk n (Some 0) ;;
        Ok (mkStr (Some blk) m n)
  end.
(* strings.c:70-76 uecho_string_setvalue *)
Definition uecho_string_setvalue (s : ustr) (p : src) : res ustr :=
  match p with
  | PNull => Ok s
  | _ => do n <- src_len s p ;; uecho_string_setnvalue s p n
  end.
(* strings.c:128-136 uecho_string_setpointervalue: the string takes over a block of the caller *)
Definition uecho_string_setpointervalue (s : ustr) (blk : option (list (option Z))) (n : Z) : ustr :=
  mkStr blk (sz (n + 1)) n.

(* strings.c:187-226 uecho_string_naddvalue; the flag is false if it returns NULL *)
Definition uecho_string_naddvalue (s : ustr) (p : src) (n : Z) : res (ustr * bool) :=
  let has s := match st_value s with None => false | Some _ => true end in
  match p with
  | PNull => Ok (s, has s)
  | _ =>
      if n =? 0 then Ok (s, has s)
      else
        let m := sz (sz (st_size s + n) + 1) in
        let old := match st_value s with None => [] | Some b => b end in
        if (st_mem s <? m) || negb (has s) then
          let m2 := sz (m + 16) in
          if negb (mem m2) then Ok (s, false)
          else
            do b <- match p with PExt b => rd_range b 0 n | _ => Undef UB_free end ;;
            do blk <- wr_range (firstn (Z.to_nat m2) (old ++ fresh_buf m2)) (st_size s) b ;;
            do blk <- wr blk (sz (st_size s + n)) (Some 0) ;;
            Ok (mkStr (Some blk) m2 (sz (st_size s + n)), true)
        else
          do b <- match p with
                  | PExt b => rd_range b 0 n
                  | POwn off => if off + n <=? st_size s then rd_range old off n else Undef UB_write
                  | PNull => Undef UB_null
                  end ;;
          do blk <- wr_range old (st_size s) b ;;
          do blk <- wr blk (sz (st_size s + n)) (Some 0) ;;
          Ok (mkStr (Some blk) (st_mem s) (sz (st_size s + n)), true)
  end.
(* strings.c:178-181 uecho_string_addvalue *)
Definition uecho_string_addvalue (s : ustr) (p : src) : res (ustr * bool) :=
  do n <- src_len s p ;; uecho_string_naddvalue s p n.

(* strings.c:232-240 uecho_string_addrepvalue, strings.c:246-254 uecho_string_naddrepvalue: the counter is an int *)
Fixpoint repeated (f : ustr -> res (ustr * bool)) (k : nat) (s : ustr) : res ustr :=
  match k with O => Ok s | S k' => do x <- f s ;; repeated f k' (fst x) end.
Definition uecho_string_addrepvalue (s : ustr) (p : src) (cnt : Z) : res ustr :=
  if INT_MAX <? cnt then Undef UB_overflow else repeated (fun s => uecho_string_addvalue s p) (Z.to_nat cnt) s.
Definition uecho_string_naddrepvalue (s : ustr) (p : src) (n cnt : Z) : res ustr :=
  if INT_MAX <? cnt then Undef UB_overflow else repeated (fun s => uecho_string_naddvalue s p n) (Z.to_nat cnt) s.

(* strncmp(a, b, n) == 0 *)
Fixpoint strn_eq (a b : list (option Z)) (n : nat) : res bool :=
  match n with
  | O => Ok true
  | S n' => match a, b with
            | Some x :: a', Some y :: b' => if x =? y then if x =? 0 then Ok true else strn_eq a' b' n' else Ok false
            | None :: _, _ => Undef UB_uninit
            | _, None :: _ => Undef UB_uninit
            | _, _ => Undef UB_read
            end
  end.
(* strings.c:260-312 uecho_string_replace: the loop over the patterns; a pattern is a block, its length and its
   replacement.  The loop goes on with the next pattern after a replacement, at the new position. *)
Fixpoint replace_inner (ps : list (list (option Z) * Z * src)) (org : list (option Z)) (pos : Z) (acc : ustr) (rep : bool)
  : res (Z * ustr * bool) :=
  match ps with
  | [] => Ok (pos, acc, rep)
  | (f, n, t) :: r =>
      do b <- strn_eq f (skipn (Z.to_nat pos) org) (Z.to_nat n) ;;
      if b then do x <- uecho_string_addvalue acc t ;; do pos' <- int_chk (pos + n) ;; replace_inner r org pos' (fst x) true
      else replace_inner r org pos acc rep
  end.
(* the outer loop; a round that does not advance repeats forever *)
Fixpoint replace_loop (k : nat) (ps : list (list (option Z) * Z * src)) (org : list (option Z)) (n pos : Z) (acc : ustr) : res ustr :=
  if n <=? pos then Ok acc
  else match k with
       | O => Undef UB_loop
       | S k' =>
           do x <- replace_inner ps org pos acc false ;;
           let '(pos', acc', rep) := x in
           if rep then if pos' =? pos then Undef UB_loop else replace_loop k' ps org n pos' acc'
           else do y <- uecho_string_naddvalue acc' (PExt (skipn (Z.to_nat pos') org)) 1 ;;
                do p <- int_chk (pos' + 1) ;; replace_loop k' ps org n p (fst y)
       end.
Fixpoint pattern_lens (l : list (list (option Z) * src)) : res (list (list (option Z) * Z * src)) :=
  match l with
  | [] => Ok []
  | (f, t) :: r => do s <- cells_text f ;; do r' <- pattern_lens r ;; Ok ((f, len s, t) :: r')
  end.
(* strings.c:260-312 uecho_string_replace; the flag is false if it returns early with NULL *)
Definition uecho_string_replace (s : ustr) (pats : list (list (option Z) * src)) : res (ustr * bool) :=
  if negb (mem (sz (8 * len pats))) then Ok (s, false)
  else
    do ps <- pattern_lens pats ;;
    let n := uecho_string_length s in
    do acc <- replace_loop (S (Z.to_nat n)) ps (match st_value s with None => [] | Some b => b end) n 0 uecho_string_new ;;
    do s' <- uecho_string_setvalue s (match st_value acc with None => PNull | Some b => PExt b end) ;;
    Ok (s', true).
End Strings.

(* ---- the tokenizer ---- *)

(* strings.h: uEchoStringTokenizer; currToken and nextToken are offsets in the value *)
Record tok : Type := mkTok {
  k_value : list Z; k_delim : list Z; k_start : Z; k_last : Z;
  k_curr : option Z; k_next : option Z; k_rep : Z; k_more : bool }.

(* strings_tokenizer.c:61-101 uecho_string_tokenizer_nexttoken: the loop over the delimiters at index i.  The
   result: value, nextStartPos, nextToken, repToken, hasNextTokens and isDelimChar. *)
Fixpoint delim_loop (ds v : list Z) (i cnt start : Z) (next : option Z) (rep : Z) (more isd : bool)
  : res (list Z * Z * option Z * Z * bool * bool) :=
  match ds with
  | [] => Ok (v, start, next, rep, more, isd)
  | d :: r =>
      do c <- rd v i ;;
      if c =? d then
        if cnt =? 0 then Ok (v, sz (i + 1), next, rep, more, true)
        else do v' <- wr v i 0 ;; delim_loop r v' i cnt (sz (i + 1)) (Some start) c true true
      else delim_loop r v i cnt start next rep more isd
  end.
(* the loop over the value, with k indices left to lastPos.  If there is no delimiter nothing is read; the
   loop does not end then if lastPos is SIZE_MAX. *)
Fixpoint token_loop (k : nat) (ds v : list Z) (i cnt start : Z) : res (list Z * Z * option Z * Z * bool * Z) :=
  match k with
  | O => Ok (v, start, None, 0, false, cnt)
  | S k' =>
      do x <- delim_loop ds v i cnt start None 0 false false ;;
      let '(v', start', next, rep, more, isd) := x in
      if more then Ok (v', start', next, rep, true, cnt)
      else token_loop k' ds v' (i + 1) (if isd then cnt else cnt + 1) start'
  end.
(* the number of rounds: an index past the end of the value is undefined, so one round more than the value
   has bytes is enough if there is a delimiter *)
Definition rounds (t : tok) : res nat :=
  if k_last t =? SIZE_MOD - 1 then
    match k_delim t with [] => Undef UB_loop | _ => Ok (S (length (k_value t))) end
  else Ok (Z.to_nat (k_last t - k_start t + 1)).
(* strings_tokenizer.c:61-101 uecho_string_tokenizer_nexttoken: the tokenizer and the offset returned *)
Definition uecho_string_tokenizer_nexttoken (t : tok) : res (tok * option Z) :=
  do k <- rounds t ;;
  do x <- token_loop k (k_delim t) (k_value t) (k_start t) 0 (k_start t) ;;
  let '(v, start, next, rep, more, cnt) := x in
  if negb more && (0 <? cnt)
  then Ok (mkTok v (k_delim t) (sz (k_last t + 1)) (k_last t) (k_next t) (Some start) rep true, k_next t)
  else Ok (mkTok v (k_delim t) start (k_last t) (k_next t) next rep more, k_next t).
(* strings_tokenizer.c:17-35 uecho_string_tokenizer_new, for a value and delimiters that are not NULL *)
Definition uecho_string_tokenizer_new (value delim : list Z) : res tok :=
  do v <- ctext value ;; do d <- ctext delim ;;
  do x <- uecho_string_tokenizer_nexttoken (mkTok (v ++ [0]) d 0 (sz (len v - 1)) None None 0 false) ;;
  Ok (fst x).
(* strings_tokenizer.c:52-55 uecho_string_tokenizer_hasmoretoken *)
Definition uecho_string_tokenizer_hasmoretoken (t : tok) : bool := k_more t.
(* strings_tokenizer.c:107-117 uecho_string_tokenizer_nextalltoken *)
Definition uecho_string_tokenizer_nextalltoken (t : tok) : res (tok * option Z) :=
  match k_next t with
  | None => Undef UB_null
  | Some o =>
      do l <- rmap len (ctext (skipn (Z.to_nat o) (k_value t))) ;;
      do v <- wr (k_value t) (o + l) (k_rep t) ;;
      Ok (mkTok v (k_delim t) (k_start t) (k_last t) (Some o) None (k_rep t) false, Some o)
  end.

(* ---- numbers ---- *)

(* what printf writes for %d, %ld and %zd *)
Fixpoint digits (k : nat) (n : Z) (acc : list Z) : list Z :=
  match k with
  | O => acc
  | S k' => let acc' := (48 + n mod 10) :: acc in if n <? 10 then acc' else digits k' (n / 10) acc'
  end.
Definition printed (v : Z) : list Z := if v <? 0 then 45 :: digits 20 (- v) [] else digits 20 v [].
(* strings_function.c:340-348 uecho_int2str, strings_function.c:354-362 uecho_long2str: a block of n bytes
   afterwards, without HAVE_SNPRINTF *)
Definition int2str (v : Z) (buf : list (option Z)) : res (list (option Z)) := wr_range buf 0 (map Some (printed v ++ [0])).
(* strings_function.c:396-404 uecho_sizet2str: %zd takes the value as signed *)
Definition sizet2str (v : Z) (buf : list (option Z)) : res (list (option Z)) :=
  int2str (if v <? SIZE_MOD / 2 then v else v - SIZE_MOD) buf.
(* atoi on digits with an optional sign, without overflow *)
Fixpoint c_atoi_loop (l : list Z) (n : Z) : Z :=
  match l with
  | c :: r => if (48 <=? c) && (c <=? 57) then c_atoi_loop r (10 * n + (c - 48)) else n
  | [] => n
  end.
Definition c_atoi (l : list Z) : Z :=
  match l with 45 :: r => - c_atoi_loop r 0 | _ => c_atoi_loop l 0 end.
(* strings.c:82-87 uecho_string_setintvalue: the buffer has 16 bytes *)
Definition uecho_string_setintvalue (mem : Z -> bool) (s : ustr) (v : Z) : res ustr :=
  do b <- int2str v (fresh_buf 16) ;; uecho_string_setvalue mem s (PExt b).
(* strings.c:93-98 uecho_string_setlongvalue: the buffer has 32 bytes *)
Definition uecho_string_setlongvalue (mem : Z -> bool) (s : ustr) (v : Z) : res ustr :=
  do b <- int2str v (fresh_buf 32) ;; uecho_string_setvalue mem s (PExt b).
