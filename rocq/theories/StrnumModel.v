(** Model of /repo/strnum.c: integer and floating point parsing. *)
From Verif Require Import Base Mem Libc StrviewModel.

(** errno.h codes used by the parser (NoErr is 0). *)
(** Set at strnum.c:336, 480, 504, 608, 631, 636, 643, 673, 688, 765, 785, 791, 821, 826, 851, 856. *)
Inductive errno : Type := NoErr | EINVAL | ERANGE.

(** strnum.h:32-74 option flags *)
Definition STRNUM_BASE_BIN : Z := 1.
(** strnum.h:46 *)
Definition STRNUM_BASE_HEX : Z := 2.
(** strnum.h:53 *)
Definition STRNUM_NOBX : Z := 4.
(** strnum.h:60 *)
Definition STRNUM_NOSIGN : Z := 8.
(** strnum.h:67 *)
Definition STRNUM_NOSPACE : Z := 16.
(** strnum.h:74 *)
Definition STRNUM_NOEXP : Z := 32.
(** Tests of the form  options & STRNUM_x  (strnum.c:483, 599, 611, ...) *)
Definition flag (options f : Z) : bool := negb (Z.land options f =? 0).

(** A string literal as seen through cstr() (strview.c:34-37). *)
Definition vlit (l : list Z) : view := View (lit l) (Zlen l).

(** 2^32 and 2^64: unsigned int and unsigned long long arithmetic is modulo these *)
(** strnum.c:770-774. *)
Definition two32 : Z := 4294967296.
(** strnum.c:782-790, 823-831, 853-861 *)
Definition two64 : Z := 18446744073709551616.

Section Cfg.
Variable cf : cfg.

(** limits.h ULONG_MAX, and the width of unsigned long *)
(** strnum.c:752, 776-780. *)
Definition ulong_mod : Z := if c_long64 cf then two64 else two32.
(** limits.h, used at strnum.c:115, 295 and 752 *)
Definition ULONG_MAX : Z := ulong_mod - 1.
(** limits.h, used at strnum.c:168, 260 *)
Definition LONG_MAX : Z := ulong_mod / 2 - 1.
(** limits.h, used at strnum.c:168, 260 *)
Definition LONG_MIN : Z := - (ulong_mod / 2).
(** limits.h, used at strnum.c:132, 239 *)
Definition CHAR_MIN : Z := if c_char_signed cf then -128 else 0.
(** limits.h, used at strnum.c:132, 239 *)
Definition CHAR_MAX : Z := if c_char_signed cf then 127 else 255.

(** The test  str->size && isdigit(str->data[0])  (the && does not read an empty view). *)
(** strnum.c:762, 770, 776, 782, 896, 900. *)
Definition at_digit (m : mem) (s : view) : outcome bool :=
  if v_size s =? 0 then Ok false
  else let! x := load_byte m (v_data s) in isdigit cf (char_int cf x).
(** strnum.c:815, 823 *)
Definition at_xdigit (m : mem) (s : view) : outcome bool :=
  if v_size s =? 0 then Ok false
  else let! x := load_byte m (v_data s) in isxdigit cf (char_int cf x).

(** strnum.c:888-891 isbdigit *)
Definition isbdigit (c : Z) : bool := Z.land c 126 =? 48.
(** strnum.c:845, 853, with 888-891 isbdigit *)
Definition at_bdigit (m : mem) (s : view) : outcome bool :=
  if v_size s =? 0 then Ok false
  else let! x := load_byte m (v_data s) in Ok (isbdigit (char_int cf x)).

(** strnum.c:880-886 xdigit_value; the assignments to the char parameter stay below 128+9,
    so only the low nibble, which is returned, matters. *)
Definition xdigit_value (c : Z) : Z :=
  let c1 := Z.land c 95 in
  let c2 := if negb (Z.land c1 64 =? 0) then c1 + 9 else c1 in
  Z.land c2 15.

(** strview_pop_first_char on a local view; the char is promoted to int. *)
(** strnum.c:773, 779, 794, 830, 860, 902. *)
Definition pop (m : mem) (s : view) : outcome (Z * view) :=
  let! (c, s') := strview_pop_first_char cf m (Some s) in
  match s' with Some s1 => Ok (char_int cf c, s1) | None => UB UB_null end.

(** strnum.c:770-774 and 776-780: the two first loops of consume_decimal_digits, which
    differ in the type of the accumulator ([md] is 2^width) and the limit. *)
Fixpoint dec_loop (fuel : nat) (m : mem) (md limit : Z) (s : view) (res : Z) : outcome (Z * view) :=
  match fuel with
  | O => Fuel
  | S f =>
      let! d := at_digit m s in
      if d && (res <? limit) then
        let! (c, s') := pop m s in
        let r1 := (res * 10) mod md in
        let r2 := (r1 + Z.land c 15) mod md in
        dec_loop f m md limit s' r2
      else Ok (res, s)
  end.

(** strnum.c:782-798: third loop of consume_decimal_digits *)
Fixpoint dec_loop3 (fuel : nat) (m : mem) (s : view) (res : Z) : outcome (errno * Z * view) :=
  match fuel with
  | O => Fuel
  | S f =>
      let! d := at_digit m s in
      if d then
        if ULLONG_MAX / 10 <? res then Ok (ERANGE, res, s)
        else
          let next_weight := (res * 10) mod two64 in
          let! x := load_byte m (v_data s) in
          let post_add := (next_weight + Z.land (char_int cf x) 15) mod two64 in
          if post_add <? next_weight then Ok (ERANGE, res, s)
          else let! (_, s') := pop m s in dec_loop3 f m s' post_add
      else Ok (NoErr, res, s)
  end.

(** strnum.c:749-808 consume_decimal_digits: error, *dst, *str *)
Definition consume_decimal_digits (m : mem) (str : view) : outcome (errno * Z * view) :=
  let! d := at_digit m str in
  if d then
    let! s0 := strview_trim_start cf m str (vlit [48]) in
    let fuel := S (Z.to_nat (v_size s0)) in
    let! (res_ui, s1) := dec_loop fuel m two32 (UINT_MAX / 10 - 9) s0 0 in
    let! (res_ul, s2) := dec_loop fuel m ulong_mod (ULONG_MAX / 10 - 9) s1 res_ui in
    dec_loop3 fuel m s2 res_ul
  else Ok (EINVAL, 0, str).

(** strnum.c:870-873 upper_nibble_ull_is_zero, 875-878 upper_bit_ull_is_zero *)
Definition upper_nibble_ull_is_zero (i : Z) : bool := Z.land i (Z.shiftl 15 60) =? 0.
(** strnum.c:875-878 *)
Definition upper_bit_ull_is_zero (i : Z) : bool := Z.land i (Z.shiftl 1 63) =? 0.

(** strnum.c:810-838 consume_hex_digits *)
Fixpoint hex_loop (fuel : nat) (m : mem) (s : view) (res : Z) : outcome (errno * Z * view) :=
  match fuel with
  | O => Fuel
  | S f =>
      let! d := at_xdigit m s in
      if d then
        if negb (upper_nibble_ull_is_zero res) then Ok (ERANGE, res, s)
        else let! (c, s') := pop m s in
             hex_loop f m s' (((Z.shiftl res 4) mod two64 + xdigit_value c) mod two64)
      else Ok (NoErr, res, s)
  end.
(** strnum.c:810-838 consume_hex_digits *)
Definition consume_hex_digits (m : mem) (str : view) : outcome (errno * Z * view) :=
  let! d := at_xdigit m str in
  if d then
    let! s0 := strview_trim_start cf m str (vlit [48]) in
    hex_loop (S (Z.to_nat (v_size s0))) m s0 0
  else Ok (EINVAL, 0, str).

(** strnum.c:840-868 consume_bin_digits *)
Fixpoint bin_loop (fuel : nat) (m : mem) (s : view) (res : Z) : outcome (errno * Z * view) :=
  match fuel with
  | O => Fuel
  | S f =>
      let! d := at_bdigit m s in
      if d then
        if negb (upper_bit_ull_is_zero res) then Ok (ERANGE, res, s)
        else let! (c, s') := pop m s in
             bin_loop f m s' (Z.lor ((Z.shiftl res 1) mod two64) (Z.land c 1))
      else Ok (NoErr, res, s)
  end.
(** strnum.c:840-868 consume_bin_digits *)
Definition consume_bin_digits (m : mem) (str : view) : outcome (errno * Z * view) :=
  let! d := at_bdigit m str in
  if d then
    let! s0 := strview_trim_start cf m str (vlit [48]) in
    bin_loop (S (Z.to_nat (v_size s0))) m s0 0
  else Ok (EINVAL, 0, str).

(** strnum.c:737-747 consume_digits *)
Definition consume_digits (m : mem) (src : view) (base : Z) : outcome (errno * Z * view) :=
  if base =? 10 then consume_decimal_digits m src
  else if base =? 16 then consume_hex_digits m src
  else consume_bin_digits m src.

(** strnum.c:702-719 consume_base_prefix: *base, *src *)
Definition consume_base_prefix (m : mem) (base : Z) (src : view) (options : Z) : outcome (Z * view) :=
  let! base_prefix := strview_sub cf m src 0 2 in
  if negb (flag options STRNUM_NOBX) then
    let! isb := if negb (flag options STRNUM_BASE_HEX)
                then strview_is_match_nocase cf m base_prefix (vlit [48; 98]) else Ok false in
    if (isb : bool) then
      let! s := strview_sub cf m src 2 INT_MAX in Ok (2, s)
    else
      let! isx := if negb (flag options STRNUM_BASE_BIN)
                  then strview_is_match_nocase cf m base_prefix (vlit [48; 120]) else Ok false in
      if (isx : bool) then
        let! s := strview_sub cf m src 2 INT_MAX in Ok (16, s)
      else Ok (base, src)
  else Ok (base, src).

(** strnum.c:721-732 consume_sign: result, *num *)
Definition consume_sign (m : mem) (num : view) : outcome (bool * view) :=
  if v_size num =? 0 then Ok (false, num)
  else
    let! x := load_byte m (v_data num) in
    if char_int cf x =? 45 then let! (_, s) := pop m num in Ok (true, s)
    else if char_int cf x =? 43 then let! (_, s) := pop m num in Ok (false, s)
    else Ok (false, num).

(** Result of a parse: the return value, what was written to *dst (None: not written)
    and what was written to *src (None: not written). *)
(** The functions strnum.c:74-178, 307-443. *)
Record parsed (T : Type) : Type := Parsed { pr_err : errno; pr_dst : option T; pr_src : option view }.
Arguments Parsed {T}.
Arguments pr_err {T}.
Arguments pr_dst {T}.
Arguments pr_src {T}.

(** Two's complement conversion to long long (implementation defined, as gcc/clang). *)
(** strnum.c:633, 638. *)
Definition to_llong (z : Z) : Z := (z - LLONG_MIN) mod two64 + LLONG_MIN.

(** strnum.c:595-602, 661-667: the base selected by the options *)
Definition start_base (options : Z) : Z :=
  if flag options STRNUM_BASE_BIN then 2 else if flag options STRNUM_BASE_HEX then 16 else 10.

(** strnum.c:590-655 consume_signed.  [dst] tells whether the destination pointer is not
    NULL; the source pointer is None when NULL.  On success the parsed value is returned
    in pr_dst whenever [dst]. *)
Definition consume_signed (m : mem) (dst : bool) (src : option view) (options limit_min limit_max : Z)
  : outcome (parsed Z) :=
  let fail e := Ok (Parsed e None None) in
  let base := start_base options in
  let num := match src with Some s => s | None => INVALID end in
  if negb (strview_is_valid num) then fail EINVAL
  else
    let! num1 := if negb (flag options STRNUM_NOSPACE)
                 then strview_trim_start cf m num (vlit [32]) else Ok num in
    let! (is_neg, num2) := if negb (flag options STRNUM_NOSIGN)
                           then consume_sign m num1 else Ok (false, num1) in
    let! (base', num3) := consume_base_prefix m base num2 options in
    let! (err, val_ull, num4) := consume_digits m num3 base' in
    match err with
    | NoErr =>
        let r := if (is_neg : bool)
                 then if LLONG_MIN mod two64 <? val_ull then None
                      else Some (to_llong ((val_ull * (-1 mod two64)) mod two64))
                 else if LLONG_MAX <? val_ull then None else Some (to_llong val_ull) in
        match r with
        | None => fail ERANGE
        | Some val_ll =>
            if (limit_min <=? val_ll) && (val_ll <=? limit_max)
            then Ok (Parsed NoErr (if dst then Some val_ll else None)
                            (match src with Some _ => Some num4 | None => None end))
            else fail ERANGE
        end
    | e => fail e
    end.

(** strnum.c:657-700 consume_unsigned *)
Definition consume_unsigned (m : mem) (dst : bool) (src : option view) (options limit_max : Z)
  : outcome (parsed Z) :=
  let fail e := Ok (Parsed e None None) in
  let base := start_base options in
  let num := match src with Some s => s | None => INVALID end in
  if negb (strview_is_valid num) then fail EINVAL
  else
    let! num1 := if negb (flag options STRNUM_NOSPACE)
                 then strview_trim_start cf m num (vlit [32]) else Ok num in
    let! (base', num3) := consume_base_prefix m base num1 options in
    let! (err, val_ull, num4) := consume_digits m num3 base' in
    match err with
    | NoErr =>
        if limit_max <? val_ull then fail ERANGE
        else Ok (Parsed NoErr (if dst then Some val_ull else None)
                        (match src with Some _ => Some num4 | None => None end))
    | e => fail e
    end.

(** Casts applied to the parsed value before it is stored. *)
(** strnum.c:81, 93, 105, 117, 212, 219, 226, 233, 275, 282, 289, 296, 303. *)
Definition ucast (bits z : Z) : Z := z mod 2 ^ bits.
(** strnum.c:146, 158, 170, 184, 191, 198, 205, 247, 254, 261, 268 *)
Definition scast (bits z : Z) : Z := (z + 2 ^ (bits - 1)) mod 2 ^ bits - 2 ^ (bits - 1).
(** strnum.c:134, 240 *)
Definition ccast (z : Z) : Z := if c_char_signed cf then scast 8 z else ucast 8 z.
(** The width of long (strnum.c:163-173) *)
Definition long_bits : Z := if c_long64 cf then 64 else 32.

(** The wrapper pattern  "if(!err && dst) *dst = (type)val;" : the local [val] is always
    written by the inner call, [dst] is the caller's pointer. *)
(** strnum.c:80-81, 92-93 and the like up to 170. *)
Definition store_as (dst : bool) (cast : Z -> Z) (r : outcome (parsed Z)) : outcome (parsed Z) :=
  let! p := r in
  Ok (Parsed (pr_err p)
             (match pr_err p, pr_dst p with
              | NoErr, Some v => if dst then Some (cast v) else None
              | _, _ => None end)
             (pr_src p)).

(** strnum.c:74-178 strnum_consume_uchar .. strnum_consume_llong *)
Definition strnum_consume_uchar m (dst : bool) src options :=
  store_as dst (ucast 8) (consume_unsigned m true src options 255).
(** strnum.c:86-96 *)
Definition strnum_consume_ushort m (dst : bool) src options :=
  store_as dst (ucast 16) (consume_unsigned m true src options 65535).
(** strnum.c:98-108 *)
Definition strnum_consume_uint m (dst : bool) src options :=
  store_as dst (ucast 32) (consume_unsigned m true src options UINT_MAX).
(** strnum.c:110-120 *)
Definition strnum_consume_ulong m (dst : bool) src options :=
  store_as dst (ucast long_bits) (consume_unsigned m true src options ULONG_MAX).
(** strnum.c:122-125 *)
Definition strnum_consume_ullong m (dst : bool) src options :=
  consume_unsigned m dst src options ULLONG_MAX.
(** strnum.c:127-137 *)
Definition strnum_consume_char m (dst : bool) src options :=
  store_as dst ccast (consume_signed m true src options CHAR_MIN CHAR_MAX).
(** strnum.c:139-149 *)
Definition strnum_consume_short m (dst : bool) src options :=
  store_as dst (scast 16) (consume_signed m true src options (-32768) 32767).
(** strnum.c:151-161 *)
Definition strnum_consume_int m (dst : bool) src options :=
  store_as dst (scast 32) (consume_signed m true src options INT_MIN INT_MAX).
(** strnum.c:163-173 *)
Definition strnum_consume_long m (dst : bool) src options :=
  store_as dst (scast long_bits) (consume_signed m true src options LONG_MIN LONG_MAX).
(** strnum.c:175-178 *)
Definition strnum_consume_llong m (dst : bool) src options :=
  consume_signed m dst src options LLONG_MIN LLONG_MAX.

(** The pattern  "return err ? dfault : (type)v;" *)
(** strnum.c:184, 191 and the like up to 303. *)
Definition or_default (dfault : Z) (cast : Z -> Z) (r : outcome (parsed Z)) : outcome Z :=
  let! p := r in
  Ok (match pr_err p, pr_dst p with
      | NoErr, Some v => cast v
      | _, _ => dfault end).

(** strnum.c:180-234 strnum_i8 .. strnum_u64 *)
Definition strnum_i8 m src dfault options :=
  or_default dfault (scast 8) (consume_signed m true (Some src) options (-128) 127).
(** strnum.c:187-192 *)
Definition strnum_i16 m src dfault options :=
  or_default dfault (scast 16) (consume_signed m true (Some src) options (-32768) 32767).
(** strnum.c:194-199 *)
Definition strnum_i32 m src dfault options :=
  or_default dfault (scast 32) (consume_signed m true (Some src) options INT_MIN INT_MAX).
(** strnum.c:201-206 *)
Definition strnum_i64 m src dfault options :=
  or_default dfault (scast 64) (consume_signed m true (Some src) options LLONG_MIN LLONG_MAX).
(** strnum.c:208-213 *)
Definition strnum_u8 m src dfault options :=
  or_default dfault (ucast 8) (consume_unsigned m true (Some src) options 255).
(** strnum.c:215-220 *)
Definition strnum_u16 m src dfault options :=
  or_default dfault (ucast 16) (consume_unsigned m true (Some src) options 65535).
(** strnum.c:222-227 *)
Definition strnum_u32 m src dfault options :=
  or_default dfault (ucast 32) (consume_unsigned m true (Some src) options UINT_MAX).
(** strnum.c:229-234 *)
Definition strnum_u64 m src dfault options :=
  or_default dfault (ucast 64) (consume_unsigned m true (Some src) options ULLONG_MAX).

(** strnum.c:236-304 strnum_char .. strnum_ullong *)
Definition strnum_char m src dfault options :=
  or_default dfault ccast (consume_signed m true (Some src) options CHAR_MIN CHAR_MAX).
(** strnum.c:243-248 *)
Definition strnum_short m src dfault options :=
  or_default dfault (scast 16) (consume_signed m true (Some src) options (-32768) 32767).
(** strnum.c:250-255 *)
Definition strnum_int m src dfault options :=
  or_default dfault (scast 32) (consume_signed m true (Some src) options INT_MIN INT_MAX).
(** strnum.c:257-262 *)
Definition strnum_long m src dfault options :=
  or_default dfault (scast long_bits) (consume_signed m true (Some src) options LONG_MIN LONG_MAX).
(** strnum.c:264-269 *)
Definition strnum_llong m src dfault options :=
  or_default dfault (scast 64) (consume_signed m true (Some src) options LLONG_MIN LLONG_MAX).
(** strnum.c:271-276 *)
Definition strnum_uchar m src dfault options :=
  or_default dfault (ucast 8) (consume_unsigned m true (Some src) options 255).
(** strnum.c:278-283 *)
Definition strnum_ushort m src dfault options :=
  or_default dfault (ucast 16) (consume_unsigned m true (Some src) options 65535).
(** strnum.c:285-290 *)
Definition strnum_uint m src dfault options :=
  or_default dfault (ucast 32) (consume_unsigned m true (Some src) options UINT_MAX).
(** strnum.c:292-297 *)
Definition strnum_ulong m src dfault options :=
  or_default dfault (ucast long_bits) (consume_unsigned m true (Some src) options ULONG_MAX).
(** strnum.c:299-304 *)
Definition strnum_ullong m src dfault options :=
  or_default dfault (ucast 64) (consume_unsigned m true (Some src) options ULLONG_MAX).

(** ** Floating point *)

(** strnum.c:22-32 float_components_t: the special value, and the parts *)
Inductive special : Type := NoSpecial | SpInf | SpNan.

(** strnum.c:893-907 split_digits: result and *src *)
Fixpoint split_digits_loop (fuel : nat) (m : mem) (src : view) (n : Z) : outcome (Z * view) :=
  match fuel with
  | O => Fuel
  | S f =>
      let! d := at_digit m src in
      if d then
        let! (_, s') := pop m src in
        let! n' := iadd cf n 1 in
        split_digits_loop f m s' n'
      else Ok (n, src)
  end.
(** strnum.c:893-907 split_digits *)
Definition split_digits (m : mem) (src : view) : outcome (view * view) :=
  let! d := at_digit m src in
  if d then
    let! (n, s') := split_digits_loop (S (Z.to_nat (v_size src))) m src 0 in
    Ok (View (v_data src) n, s')
  else Ok (INVALID, src).

(** strnum.c:514-533 consume_float_special (the literal in the source reads "infinty") *)
Definition consume_float_special (m : mem) (num : view) : outcome (special * view) :=
  let! a := strview_starts_with_nocase cf m num (vlit [105; 110; 102; 105; 110; 116; 121]) in
  if (a : bool) then let! s := strview_sub cf m num 8 INT_MAX in Ok (SpInf, s)
  else
    let! b := strview_starts_with_nocase cf m num (vlit [105; 110; 102]) in
    if (b : bool) then let! s := strview_sub cf m num 3 INT_MAX in Ok (SpInf, s)
    else
      let! c := strview_starts_with_nocase cf m num (vlit [110; 97; 110]) in
      if (c : bool) then let! s := strview_sub cf m num 3 INT_MAX in Ok (SpNan, s)
      else Ok (NoSpecial, num).

(** strnum.c:535-547 consume_exponent: error, exp_value, num *)
Definition consume_exponent (m : mem) (num : view) : outcome (errno * Z * view) :=
  let! exp_view := strview_sub cf m num 1 INT_MAX in
  let! p := strnum_consume_int m true (Some exp_view) (STRNUM_NOSPACE + STRNUM_NOBX) in
  match pr_err p, pr_dst p, pr_src p with
  | NoErr, Some v, Some s => Ok (NoErr, v, s)
  | EINVAL, _, _ => Ok (NoErr, 0, num)
  | e, _, _ => Ok (e, 0, num)
  end.

(** strnum.c:22-32 float_components_t *)
Record components : Type := Comp {
  fc_num : view; fc_neg : bool; fc_special : special; fc_int : view; fc_frac : view; fc_exp : Z }.

(** strnum.c:473-512 process_float_components *)
Definition process_float_components (m : mem) (num : view) (options : Z) : outcome (errno * components) :=
  if negb (strview_is_valid num) then Ok (EINVAL, Comp num false NoSpecial INVALID INVALID 0)
  else
    let! num1 := if negb (flag options STRNUM_NOSPACE)
                 then strview_trim_start cf m num (vlit [32]) else Ok num in
    let! (is_neg, num2) := if negb (flag options STRNUM_NOSIGN)
                           then consume_sign m num1 else Ok (false, num1) in
    let! (sp, num3) := consume_float_special m num2 in
    match sp with
    | NoSpecial =>
        let! (ip, num4) := split_digits m num3 in
        let! (fp, num5) :=
          if v_size num4 =? 0 then Ok (INVALID, num4)
          else let! x := load_byte m (v_data num4) in
               if char_int cf x =? 46
               then let! (_, s) := pop m num4 in split_digits m s
               else Ok (INVALID, num4) in
        if negb (strview_is_valid ip) && negb (strview_is_valid fp)
        then Ok (EINVAL, Comp num5 is_neg NoSpecial ip fp 0)
        else
          let! e := if negb (flag options STRNUM_NOEXP)
                    then strview_starts_with_nocase cf m num5 (vlit [69]) else Ok false in
          if (e : bool) then
            let! (err, ev, num6) := consume_exponent m num5 in
            Ok (err, Comp num6 is_neg NoSpecial ip fp ev)
          else Ok (NoErr, Comp num5 is_neg NoSpecial ip fp 0)
    | _ => Ok (NoErr, Comp num3 is_neg sp INVALID INVALID 0)
    end.

(** Arithmetic of the destination type; instantiated with exact rationals and with
    IEEE-754 formats.  [a_pow10 n] is powfunc(10, n). *)
(** strnum.c:549-571 with typ and powfunc of 575, 580, 585. *)
Record arith : Type := Arith {
  a_t : Type;
  a_zero : a_t;
  a_inf : a_t;
  a_nan : a_t;
  a_add : a_t -> a_t -> a_t;
  a_mul : a_t -> a_t -> a_t;
  a_neg : a_t -> a_t;
  a_of_ull : Z -> a_t;
  a_pow10 : Z -> a_t;
  a_is_inf : a_t -> bool;   (* value == INFINITY *)
  a_is_nan : a_t -> bool    (* value != value *)
}.

Section Arith.
Variable A : arith.

(** strnum.c:554-559 make_float_type: the loop over the integral digits *)
Fixpoint int_loop (fuel : nat) (m : mem) (digits : view) (result : a_t A) : outcome (a_t A) :=
  match fuel with
  | O => Fuel
  | S f =>
      if v_size digits =? 0 then Ok result
      else
        let! (_, ull, digits') := consume_decimal_digits m digits in
        int_loop f m digits'
          (a_mul A (a_add A result (a_of_ull A ull)) (a_pow10 A (v_size digits')))
  end.

(** strnum.c:561-569: the loop over the fractional digits *)
Fixpoint frac_loop (fuel : nat) (m : mem) (digits : view) (power : Z) (result : a_t A) : outcome (a_t A) :=
  match fuel with
  | O => Fuel
  | S f =>
      if v_size digits =? 0 then Ok result
      else
        let! p1 := isub cf power (v_size digits) in
        let! (_, ull, digits') := consume_decimal_digits m digits in
        let! p2 := iadd cf p1 (v_size digits') in
        frac_loop f m digits' p2 (a_add A result (a_mul A (a_of_ull A ull) (a_pow10 A p2)))
  end.

(** strnum.c:549-586 make_float / make_double / make_ldouble *)
Definition make_float (m : mem) (ip fp : view) (exp_value : Z) : outcome (a_t A) :=
  let! r1 := int_loop (S (Z.to_nat (v_size ip))) m ip (a_zero A) in
  let! fp' := strview_trim_end cf m fp (vlit [48]) in
  let! r2 := frac_loop (S (Z.to_nat (v_size fp'))) m fp' 0 r1 in
  Ok (a_mul A r2 (a_pow10 A exp_value)).

(** The common tail of strnum_consume_float/double/ldouble (strnum.c:329-350, 375-396, 421-442).
    Writing *src needs a source. *)
Definition finish_float (m : mem) (dst : bool) (src : option view) (err : errno) (fc : components)
  : outcome (parsed (a_t A)) :=
  match err with
  | NoErr =>
      let! value := match fc_special fc with
                    | SpInf => Ok (a_inf A)
                    | SpNan => Ok (a_nan A)
                    | NoSpecial => make_float m (fc_int fc) (fc_frac fc) (fc_exp fc)
                    end in
      let over := match fc_special fc with NoSpecial => a_is_inf A value | _ => false end in
      if over then Ok (Parsed ERANGE None None)
      else
        match src with
        | None => UB UB_null
        | Some _ =>
            Ok (Parsed NoErr
                  (if dst then Some (if a_is_nan A value then a_nan A
                                     else if fc_neg fc then a_neg A value else value) else None)
                  (Some (fc_num fc)))
        end
  | e => Ok (Parsed e None None)
  end.

(** strnum.c:307-351 strnum_consume_float: the components are only processed if src is not NULL *)
Definition strnum_consume_float (m : mem) (dst : bool) (src : option view) (options : Z)
  : outcome (parsed (a_t A)) :=
  match src with
  | Some s => let! (err, fc) := process_float_components m s options in
              finish_float m dst src err fc
  | None => finish_float m dst None NoErr (Comp INVALID false NoSpecial INVALID INVALID 0)
  end.

(** strnum.c:353-397 strnum_consume_double, 399-443 strnum_consume_ldouble *)
Definition strnum_consume_double (m : mem) (dst : bool) (src : option view) (options : Z)
  : outcome (parsed (a_t A)) :=
  let num := match src with Some s => s | None => INVALID end in
  let! (err, fc) := process_float_components m num options in
  finish_float m dst src err fc.

(** strnum.c:445-464 strnum_float / strnum_double / strnum_ldouble *)
Definition strnum_float (m : mem) (src : view) (dfault : a_t A) (options : Z) : outcome (a_t A) :=
  let! p := strnum_consume_float m true (Some src) options in
  Ok (match pr_err p, pr_dst p with NoErr, Some v => v | _, _ => dfault end).
(** strnum.c:452-457 strnum_double *)
Definition strnum_double (m : mem) (src : view) (dfault : a_t A) (options : Z) : outcome (a_t A) :=
  let! p := strnum_consume_double m true (Some src) options in
  Ok (match pr_err p, pr_dst p with NoErr, Some v => v | _, _ => dfault end).

End Arith.
End Cfg.
Arguments Parsed {T}.
Arguments pr_err {T}.
Arguments pr_dst {T}.
Arguments pr_src {T}.
