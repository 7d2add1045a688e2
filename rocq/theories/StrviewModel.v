(** Model of /repo/strview.c (all functions). *)
From Verif Require Import Base Mem Libc.

(** strview.h:29-33 strview_t *)
Record view : Type := View { v_data : ptr; v_size : Z }.

(** strview.h STRVIEW_INVALID: {.data = NULL, .size = 0} *)
(** strview.h:82. *)
Definition INVALID : view := View null 0.

Section Cfg.
Variable cf : cfg.

(** strview.c:34-37 cstr.  strlen's size_t is converted to int. *)
Definition cstr (m : mem) (c_str : ptr) : outcome view :=
  if is_null c_str then Ok INVALID
  else let! n := strlen m c_str in Ok (View c_str (to_int n)).

(** A string literal of the library source wrapped by cstr(): the object is immutable,
    so strlen is replaced by the literal's length (literals contain no NUL). *)
(** As at strview.h:74 or strnum.c:484, 508, 517, 522, 527. *)
Definition lit (l : list Z) : ptr := Ptr (PLit l) 0.

(** strview.c:39-52 strview_to_cstr; returns dst and the memory written. *)
Definition strview_to_cstr (m : mem) (dst : ptr) (dst_size : Z) (str : view) : outcome (ptr * mem) :=
  let src_size := if v_size str <? 0 then 0 else v_size str in
  if (negb (dst_size =? 0)) && negb (is_null dst)
  then
    let copy_size := if dst_size - 1 <? src_size then dst_size - 1 else src_size in
    let! m1 := memcpy cf m dst (v_data str) copy_size in
    let! p := padd cf m1 dst copy_size in
    let! m2 := store_byte m1 p 0 in
    Ok (dst, m2)
  else Ok (dst, m).

(** strview.c:54-57 strview_is_valid *)
Definition strview_is_valid (str : view) : bool := negb (is_null (v_data str)).

(** strview.c:59-64 strview_swap: the pair after the swap *)
Definition strview_swap (a b : view) : view * view := (b, a).

(** strview.c:387-397 memcmp_nocase; the loop stops at the first difference.
    [size] counts the remaining size, so the loop is structural.
    Simplification: a negative size (only possible for an ill-formed view) becomes a size_t
    beyond every object and counts as an access out of bounds, even though the loop might
    stop at a difference before that. *)
Fixpoint memcmp_nocase_loop (m : mem) (a b : ptr) (size : nat) (result : Z) : outcome Z :=
  match size with
  | O => Ok result
  | S n =>
      if result =? 0 then
        let! x := load_byte m a in
        let! y := load_byte m b in
        let! a' := padd cf m a 1 in
        let! b' := padd cf m b 1 in
        memcmp_nocase_loop m a' b' n (toupper x - toupper y)
      else Ok result
  end.
(** strview.c:387-397 memcmp_nocase *)
Definition memcmp_nocase (m : mem) (a b : ptr) (n : Z) : outcome Z :=
  if n <? 0 then UB UB_bounds else memcmp_nocase_loop m a b (Z.to_nat n) 0.

(** strview.c:66-69 strview_is_match_strview *)
Definition strview_is_match (m : mem) (str1 str2 : view) : outcome bool :=
  if v_size str1 =? v_size str2 then
    if peq m (v_data str1) (v_data str2) then Ok true
    else let! r := memcmp cf m (v_data str1) (v_data str2) (v_size str1) in Ok (r =? 0)
  else Ok false.

(** strview.c:71-74 strview_is_match_cstr *)
Definition strview_is_match_cstr (m : mem) (str1 : view) (str2 : ptr) : outcome bool :=
  let! s2 := cstr m str2 in strview_is_match m str1 s2.

(** strview.c:76-79 strview_is_match_nocase_strview *)
Definition strview_is_match_nocase (m : mem) (str1 str2 : view) : outcome bool :=
  if v_size str1 =? v_size str2 then
    if peq m (v_data str1) (v_data str2) then Ok true
    else let! r := memcmp_nocase m (v_data str1) (v_data str2) (v_size str1) in Ok (r =? 0)
  else Ok false.

(** strview.c:81-84 strview_is_match_nocase_cstr *)
Definition strview_is_match_nocase_cstr (m : mem) (str1 : view) (str2 : ptr) : outcome bool :=
  let! s2 := cstr m str2 in strview_is_match_nocase m str1 s2.

(** strview.c:86-96 strview_starts_with_strview *)
Definition strview_starts_with (m : mem) (str1 str2 : view) : outcome bool :=
  if negb (strview_is_valid str2) then Ok (negb (strview_is_valid str1))
  else if v_size str2 <=? v_size str1 then
         if peq m (v_data str1) (v_data str2) then Ok true
         else let! r := memcmp cf m (v_data str1) (v_data str2) (v_size str2) in Ok (r =? 0)
       else Ok false.

(** strview.c:98-101 strview_starts_with_cstr *)
Definition strview_starts_with_cstr (m : mem) (str1 : view) (str2 : ptr) : outcome bool :=
  let! s2 := cstr m str2 in strview_starts_with m str1 s2.

(** strview.c:103-113 strview_starts_with_nocase_strview *)
Definition strview_starts_with_nocase (m : mem) (str1 str2 : view) : outcome bool :=
  if negb (strview_is_valid str2) then Ok (negb (strview_is_valid str1))
  else if v_size str2 <=? v_size str1 then
         if peq m (v_data str1) (v_data str2) then Ok true
         else let! r := memcmp_nocase m (v_data str1) (v_data str2) (v_size str2) in Ok (r =? 0)
       else Ok false.

(** strview.c:115-118 strview_starts_with_nocase_cstr *)
Definition strview_starts_with_nocase_cstr (m : mem) (str1 : view) (str2 : ptr) : outcome bool :=
  let! s2 := cstr m str2 in strview_starts_with_nocase m str1 s2.

(** strview.c:120-132 strview_compare *)
Definition strview_compare (m : mem) (str1 str2 : view) : outcome Z :=
  let compare_size := if v_size str1 <? v_size str2 then v_size str1 else v_size str2 in
  let! result := if compare_size =? 0 then Ok 0
                 else memcmp cf m (v_data str1) (v_data str2) compare_size in
  if (result =? 0) && negb (v_size str1 =? v_size str2)
  then Ok (if v_size str2 <? v_size str1 then 1 else -1)
  else Ok result.

(** strview.c:144-170 strview_sub *)
Definition strview_sub (m : mem) (str : view) (begin_ end_ : Z) : outcome view :=
  if negb (is_null (v_data str)) && negb (v_size str =? 0)
  then
    let! b := if begin_ <? 0 then iadd cf (v_size str) begin_ else Ok begin_ in
    let! e := if end_ <? 0 then iadd cf (v_size str) end_ else Ok end_ in
    if (b <=? e) && (b <? v_size str) && (0 <=? e)
    then
      let b' := if b <? 0 then 0 else b in
      let e' := if v_size str <? e then v_size str else e in
      let! sz := isub cf e' b' in
      let! d := padd cf m (v_data str) b' in
      Ok (View d sz)
    else Ok (View null 0)
  else Ok (View (v_data str) 0).

(** strview.c:373-385 contains_char *)
Fixpoint contains_char_loop (fuel : nat) (m : mem) (endp p : ptr) (c : Z) (found : bool) : outcome bool :=
  match fuel with
  | O => Fuel
  | S f =>
      if negb found && negb (peq m p endp) then
        let! x := load_byte m p in
        let! p' := padd cf m p 1 in
        contains_char_loop f m endp p' c (x =? c)
      else Ok found
  end.
(** strview.c:373-385 contains_char *)
Definition contains_char (m : mem) (str : view) (c : Z) : outcome bool :=
  let! endp := padd cf m (v_data str) (v_size str) in
  contains_char_loop (S (Z.to_nat (v_size str))) m endp (v_data str) c false.

(** strview.c:177-186 strview_trim_start_strview *)
Fixpoint trim_start_loop (fuel : nat) (m : mem) (str chars : view) : outcome view :=
  match fuel with
  | O => Fuel
  | S f =>
      if v_size str =? 0 then Ok str
      else
        let! x := load_byte m (v_data str) in
        let! c := contains_char m chars x in
        if c then
          let! d := padd cf m (v_data str) 1 in
          let! sz := isub cf (v_size str) 1 in
          trim_start_loop f m (View d sz) chars
        else Ok str
  end.
(** strview.c:177-186 *)
Definition strview_trim_start (m : mem) (str chars : view) : outcome view :=
  trim_start_loop (S (Z.to_nat (v_size str))) m str chars.

(** strview.c:172-175 strview_trim_start_cstr *)
Definition strview_trim_start_cstr (m : mem) (str : view) (chars : ptr) : outcome view :=
  let! c := cstr m chars in strview_trim_start m str c.

(** strview.c:193-199 strview_trim_end_strview *)
Fixpoint trim_end_loop (fuel : nat) (m : mem) (str chars : view) : outcome view :=
  match fuel with
  | O => Fuel
  | S f =>
      if v_size str =? 0 then Ok str
      else
        let! p := padd cf m (v_data str) (v_size str - 1) in
        let! x := load_byte m p in
        let! c := contains_char m chars x in
        if c then
          let! sz := isub cf (v_size str) 1 in
          trim_end_loop f m (View (v_data str) sz) chars
        else Ok str
  end.
(** strview.c:193-199 *)
Definition strview_trim_end (m : mem) (str chars : view) : outcome view :=
  trim_end_loop (S (Z.to_nat (v_size str))) m str chars.

(** strview.c:188-191 strview_trim_end_cstr *)
Definition strview_trim_end_cstr (m : mem) (str : view) (chars : ptr) : outcome view :=
  let! c := cstr m chars in strview_trim_end m str c.

(** strview.c:206-211 strview_trim_strview *)
Definition strview_trim (m : mem) (str chars : view) : outcome view :=
  let! s := strview_trim_start m str chars in
  strview_trim_end m s chars.

(** strview.c:201-204 strview_trim_cstr *)
Definition strview_trim_cstr (m : mem) (str : view) (chars : ptr) : outcome view :=
  let! c := cstr m chars in strview_trim m str c.

(** strview.c:522-545 find_first; [comp] is memcmp or memcmp_nocase. *)
Fixpoint find_first_loop (fuel : nat) (m : mem) (comp : mem -> ptr -> ptr -> Z -> outcome Z)
         (hay needle : view) (rem : ptr) (found : bool) : outcome (ptr * bool) :=
  match fuel with
  | O => Fuel
  | S f =>
      let! e := padd cf m (v_data hay) (v_size hay) in
      let! d := pdiff cf m e rem in
      if (v_size needle <=? d) && negb found then
        let! r := comp m rem (v_data needle) (v_size needle) in
        let found' := (r =? 0) in
        let! rem' := padd cf m rem (if found' then 0 else 1) in
        find_first_loop f m comp hay needle rem' found'
      else Ok (rem, found)
  end.
(** strview.c:522-545 find_first *)
Definition find_first (m : mem) (comp : mem -> ptr -> ptr -> Z -> outcome Z)
           (hay needle : view) : outcome view :=
  let! (rem, found) :=
    if negb (is_null (v_data hay)) && negb (is_null (v_data needle))
    then find_first_loop (S (S (Z.to_nat (v_size hay)))) m comp hay needle (v_data hay) false
    else Ok (v_data hay, false) in
  Ok (if (found : bool) then View rem (v_size needle) else INVALID).

(** strview.c:213-221 strview_find_first_strview / _nocase_strview *)
Definition strview_find_first (m : mem) (hay needle : view) : outcome view :=
  find_first m (memcmp cf) hay needle.
(** strview.c:218-221 *)
Definition strview_find_first_nocase (m : mem) (hay needle : view) : outcome view :=
  find_first m memcmp_nocase hay needle.

(** strview.c:223-231 strview_find_first_nocase_cstr / strview_find_first_cstr *)
Definition strview_find_first_cstr (m : mem) (hay : view) (needle : ptr) : outcome view :=
  let! n := cstr m needle in strview_find_first m hay n.
(** strview.c:223-226 *)
Definition strview_find_first_nocase_cstr (m : mem) (hay : view) (needle : ptr) : outcome view :=
  let! n := cstr m needle in strview_find_first_nocase m hay n.

(** strview.c:134-142 strview_contains / strview_contains_nocase *)
Definition strview_contains (m : mem) (hay needle : view) : outcome bool :=
  let! r := strview_find_first m hay needle in Ok (strview_is_valid r).
(** strview.c:139-142 *)
Definition strview_contains_nocase (m : mem) (hay needle : view) : outcome bool :=
  let! r := strview_find_first_nocase m hay needle in Ok (strview_is_valid r).

(** strview.c:547-571 find_last *)
Fixpoint find_last_loop (fuel : nat) (m : mem) (comp : mem -> ptr -> ptr -> Z -> outcome Z)
         (hay needle : view) (rem : ptr) (found : bool) : outcome (ptr * bool) :=
  match fuel with
  | O => Fuel
  | S f =>
      let! ge := ple cf m (v_data hay) rem in
      if ge && negb found then
        let! r := comp m rem (v_data needle) (v_size needle) in
        let found' := (r =? 0) in
        let! rem' := padd cf m rem (if found' then 0 else -1) in
        find_last_loop f m comp hay needle rem' found'
      else Ok (rem, found)
  end.
(** strview.c:547-570 find_last *)
Definition find_last (m : mem) (comp : mem -> ptr -> ptr -> Z -> outcome Z)
           (hay needle : view) : outcome view :=
  let! rem0 := padd cf m (v_data hay) (v_size hay - v_size needle) in
  let! (rem, found) :=
    if negb (is_null (v_data hay)) && negb (is_null (v_data needle))
    then find_last_loop (S (S (Z.to_nat (v_size hay)))) m comp hay needle rem0 false
    else Ok (rem0, false) in
  Ok (if (found : bool) then View rem (v_size needle) else INVALID).

(** strview.c:233-241 strview_find_last_strview / _nocase_strview *)
Definition strview_find_last (m : mem) (hay needle : view) : outcome view :=
  find_last m (memcmp cf) hay needle.
(** strview.c:238-241 *)
Definition strview_find_last_nocase (m : mem) (hay needle : view) : outcome view :=
  find_last m memcmp_nocase hay needle.

(** strview.c:243-251 strview_find_last_nocase_cstr / strview_find_last_cstr *)
Definition strview_find_last_cstr (m : mem) (hay : view) (needle : ptr) : outcome view :=
  let! n := cstr m needle in strview_find_last m hay n.
(** strview.c:243-246 *)
Definition strview_find_last_nocase_cstr (m : mem) (hay : view) (needle : ptr) : outcome view :=
  let! n := cstr m needle in strview_find_last_nocase m hay n.

(** The quote character of strview.c:412 and 452 *)
Definition QUOTE : Z := 34.

(** strview.c:399-437 split_first_delim.  The in/out parameter *strview_ptr is an
    argument and the second component of the result. *)
Fixpoint split_first_loop (fuel : nat) (m : mem) (endp : ptr) (delims : view) (exq : bool)
         (p : ptr) (found in_quotes : bool) : outcome (ptr * bool) :=
  match fuel with
  | O => Fuel
  | S f =>
      if negb (peq m p endp) && negb found then
        let! x := load_byte m p in
        let in_quotes' := xorb in_quotes ((x =? QUOTE) && exq) in
        let! found' := if in_quotes' then Ok false else contains_char m delims x in
        let! p' := padd cf m p (if found' then 0 else 1) in
        split_first_loop f m endp delims exq p' found' in_quotes'
      else Ok (p, found)
  end.
(** strview.c:399-437 split_first_delim *)
Definition split_first_delim (m : mem) (s delims : view) (exq : bool) : outcome (view * view) :=
  let! (p, found) :=
    if negb (is_null (v_data s)) && negb (is_null (v_data delims))
    then let! endp := padd cf m (v_data s) (v_size s) in
         split_first_loop (S (Z.to_nat (v_size s))) m endp delims exq (v_data s) false false
    else Ok (v_data s, false) in
  if (found : bool) then
    let! d := pdiff cf m p (v_data s) in
    let result := View (v_data s) (to_int d) in
    let! sz1 := isub cf (v_size s) (v_size result) in
    let! sz2 := isub cf sz1 1 in
    let! dt := if sz2 =? 0 then Ok p else padd cf m p 1 in
    Ok (result, View dt sz2)
  else Ok (s, INVALID).

(** strview.c:253-261 strview_split_first_delim (None = NULL pointer; the const char*
    delims is turned into a view by cstr) *)
Definition strview_split_first_delim (m : mem) (sp : option view) (delims : ptr) (exq : bool)
  : outcome (view * option view) :=
  match sp with
  | None => Ok (INVALID, None)
  | Some s => let! d := cstr m delims in
              let! (r, s') := split_first_delim m s d exq in
              Ok (r, Some s')
  end.

(** strview.c:263-269 strview_split_all; dst[] is returned as a list. *)
Fixpoint split_all_loop (n : nat) (m : mem) (src : view) (delims : ptr) (exq : bool) : outcome (list view) :=
  match n with
  | O => Ok []
  | S n' =>
      if strview_is_valid src then
        let! (r, src') := strview_split_first_delim m (Some src) delims exq in
        match src' with
        | Some s => let! rest := split_all_loop n' m s delims exq in Ok (r :: rest)
        | None => UB UB_null
        end
      else Ok []
  end.
(** strview.c:263-269 *)
Definition strview_split_all (m : mem) (dst_size : Z) (src : view) (delims : ptr) (exq : bool)
  : outcome (list view) :=
  split_all_loop (Z.to_nat dst_size) m src delims exq.

(** strview.c:439-476 split_last_delim *)
Fixpoint split_last_loop (fuel : nat) (m : mem) (s delims : view) (exq : bool)
         (p : ptr) (found in_quotes : bool) : outcome (ptr * bool) :=
  match fuel with
  | O => Fuel
  | S f =>
      let! before := padd cf m (v_data s) (-1) in
      if negb (peq m p before) && negb found then
        let! x := load_byte m p in
        let in_quotes' := xorb in_quotes ((x =? QUOTE) && exq) in
        let! found' := if in_quotes' then Ok false else contains_char m delims x in
        let! p' := padd cf m p (if found' then 0 else -1) in
        split_last_loop f m s delims exq p' found' in_quotes'
      else Ok (p, found)
  end.
(** strview.c:439-476 split_last_delim *)
Definition split_last_delim (m : mem) (s delims : view) (exq : bool) : outcome (view * view) :=
  let! (p, found) :=
    if negb (is_null (v_data s)) && negb (v_size s =? 0) && negb (is_null (v_data delims))
    then let! p0 := padd cf m (v_data s) (v_size s - 1) in
         split_last_loop (S (Z.to_nat (v_size s))) m s delims exq p0 false false
    else Ok (v_data s, false) in
  if (found : bool) then
    let! e := padd cf m (v_data s) (v_size s) in
    let! d := pdiff cf m e p in
    let rsize := to_int d in
    let! ssize := isub cf (v_size s) rsize in
    let! rsize' := isub cf rsize 1 in
    let! rdata := if rsize' =? 0 then Ok p else padd cf m p 1 in
    Ok (View rdata rsize', View (v_data s) ssize)
  else Ok (s, INVALID).

(** strview.c:271-279 strview_split_last_delim *)
Definition strview_split_last_delim (m : mem) (sp : option view) (delims : ptr) (exq : bool)
  : outcome (view * option view) :=
  match sp with
  | None => Ok (INVALID, None)
  | Some s => let! d := cstr m delims in
              let! (r, s') := split_last_delim m s d exq in
              Ok (r, Some s')
  end.

(** strview.c:478-506 split_index *)
Definition split_index (m : mem) (s : view) (index : Z) : outcome (view * view) :=
  let neg := index <? 0 in
  let! i0 := if neg then iadd cf (v_size s) index else Ok index in
  let i1 := if i0 <? 0 then 0 else i0 in
  let i := if v_size s <? i1 then v_size s else i1 in
  let result := View (v_data s) i in
  let! rd := padd cf m (v_data s) i in
  let! rs := isub cf (v_size s) i in
  let remainder := View rd rs in
  if neg then Ok (remainder, result) else Ok (result, remainder).

(** strview.c:281-289 strview_split_index *)
Definition strview_split_index (m : mem) (sp : option view) (index : Z) : outcome (view * option view) :=
  match sp with
  | None => Ok (INVALID, None)
  | Some s => let! (r, s') := split_index m s index in Ok (r, Some s')
  end.

(** strview.c:291-297 strview_pop_first_char *)
Definition strview_pop_first_char (m : mem) (sp : option view) : outcome (Z * option view) :=
  match sp with
  | None => Ok (0, None)
  | Some s =>
      if v_size s =? 0 then Ok (0, Some s)
      else let! (r, s') := split_index m s 1 in
           let! c := load_byte m (v_data r) in
           Ok (c, Some s')
  end.

(** strview.c:310, 319: the character 13 *)
Definition CR : Z := 13.
(** strview.c:310, 319: the character 10 *)
Definition LF : Z := 10.

(** The pop on a local variable (never NULL). *)
(** strview.c:291-297, called on src by strview.c:299-335. *)
Definition pop_view (m : mem) (s : view) : outcome view :=
  let! (_, s') := strview_pop_first_char m (Some s) in
  match s' with Some x => Ok x | None => UB UB_null end.

(** strview.c:299-335 strview_split_line.  [eol] is the content of *eol (None: eol is NULL).
    Result: returned view, new *strview_ptr, new *eol. *)
Definition strview_split_line (m : mem) (sp : option view) (eol : option Z)
  : outcome (view * option view * option Z) :=
  match sp with
  | None => Ok (INVALID, None, eol)
  | Some s0 =>
      if v_size s0 =? 0 then Ok (INVALID, Some s0, eol)
      else
        let! src :=
          match eol with
          | Some e =>
              if e =? 0 then Ok s0
              else let! x := load_byte m (v_data s0) in
                   if char_int cf e + char_int cf x =? CR + LF
                   then pop_view m s0
                   else Ok s0
          | None => Ok s0
          end in
        let! (result, src1) := split_first_delim m src (View (lit [CR; LF]) 2) false in
        if strview_is_valid src1 then
          let! pe := padd cf m (v_data result) (v_size result) in
          let! e := load_byte m pe in
          let! x := load_byte m (v_data src1) in
          let! (src2, e2) :=
            if char_int cf e + char_int cf x =? CR + LF
            then let! s := pop_view m src1 in Ok (s, 0)
            else Ok (src1, e) in
          Ok (result, Some src2, match eol with Some _ => Some e2 | None => None end)
        else Ok (INVALID, Some result, eol)
  end.

(** strview.c:337-346 strview_split_left *)
Definition strview_split_left (m : mem) (sp : option view) (pos : view) : outcome (view * option view) :=
  match sp with
  | None => Ok (INVALID, None)
  | Some s =>
      if strview_is_valid s && strview_is_valid pos then
        let! a := ple cf m (v_data s) (v_data pos) in
        let! e := padd cf m (v_data s) (v_size s) in
        let! b := if a then ple cf m (v_data pos) e else Ok false in
        if a && b then
          let! d := pdiff cf m (v_data pos) (v_data s) in
          let! (r, s') := split_index m s (to_int d) in
          Ok (r, Some s')
        else Ok (INVALID, Some s)
      else Ok (INVALID, Some s)
  end.

(** strview.c:348-367 strview_split_right *)
Definition strview_split_right (m : mem) (sp : option view) (pos : view) : outcome (view * option view) :=
  match sp with
  | None => Ok (INVALID, None)
  | Some s =>
      if strview_is_valid s && strview_is_valid pos then
        let! split_point := padd cf m (v_data pos) (v_size pos) in
        let! a := ple cf m (v_data s) split_point in
        let! e := padd cf m (v_data s) (v_size s) in
        let! b := if a then ple cf m split_point e else Ok false in
        if a && b then
          let! d := pdiff cf m split_point (v_data s) in
          let! (r, s') := split_index m s (to_int d) in
          let (r', s'') := strview_swap r s' in
          Ok (r', Some s'')
        else Ok (INVALID, Some s)
      else Ok (INVALID, Some s)
  end.

(** strview.c:508-520 strview_dequote *)
Fixpoint dequote_loop (fuel : nat) (m : mem) (result : view) (quote_char : Z) : outcome view :=
  match fuel with
  | O => Fuel
  | S f =>
      if 1 <? v_size result then
        let! x := load_byte m (v_data result) in
        if x =? quote_char then
          let! p := padd cf m (v_data result) (v_size result - 1) in
          let! y := load_byte m p in
          if y =? quote_char
          then let! r := strview_sub m result 1 (-1) in dequote_loop f m r quote_char
          else Ok result
        else Ok result
      else Ok result
  end.
(** strview.c:508-520 *)
Definition strview_dequote (m : mem) (src : view) : outcome view :=
  if 1 <? v_size src then
    let! q := load_byte m (v_data src) in
    dequote_loop (S (Z.to_nat (v_size src))) m src q
  else Ok src.

End Cfg.
