(** Model of the text formatter prnf (/repo/test/prnf.c) used by strbuf_prnf, configured as
    in /repo/test/prnf_conf.h: long long and float supported, column alignment, no
    extensions (%n), no assertion handler, not AVR.  prnf_long_t is 64 bits wide. *)
From Verif Require Import Base Mem Libc StrviewModel.

(** prnf.c:34-41 prnf_float_t (float) and the operations used on it.  Comparisons with a
    constant use the constant converted to prnf_float_t (exact for all constants in the
    code except ULLONG_MAX, where the code itself casts).  [f_trunc] is the conversion to an
    unsigned 64-bit integer, None if the value is not representable. *)
Record fops : Type := Fops {
  fl : Type;                       (* prnf_float_t *)
  dbl : Type;                      (* double *)
  f_of_dbl : dbl -> fl;
  f_lt : fl -> fl -> bool;
  f_eq : fl -> fl -> bool;
  f_neg : fl -> fl;
  f_mul : fl -> fl -> fl;
  f_div : fl -> fl -> fl;
  f_sub : fl -> fl -> fl;
  f_int : Z -> fl;                 (* integer constants and conversions from prnf_ulong_t *)
  f_half : fl;
  f_max : fl;                      (* FLT_MAX *)
  f_pow10 : Z -> fl;               (* prnf.c:174-182 pow10_tbl *)
  f_trunc : fl -> option Z
}.

(** prnf.c:77 TYPE_x without TYPE_PSTR and TYPE_NSTR (not configured) *)
Inductive ptype : Type := TYPE_NONE | TYPE_BIN | TYPE_INT | TYPE_UINT | TYPE_HEX | TYPE_STR | TYPE_CHAR | TYPE_FLOAT | TYPE_ENG.

(** prnf.c:79-91 struct placeholder_struct *)
Record placeholder : Type := Ph {
  ph_minus : bool; ph_zero : bool; ph_sign : Z; ph_pspec : bool; ph_width : Z; ph_prec : Z;
  ph_pdyn : bool; ph_wdyn : bool; ph_size : Z; ph_type : ptype }.

(** An argument of the variable argument list.  Simplification: integer arguments are
    distinguished by their width only (bit pattern as an unsigned number). *)
(** prnf.c:112-123 union varg_union, and va_arg at 352-394. *)
Inductive arg (D : Type) : Type :=
| A32 (bits : Z)
| A64 (bits : Z)
| AP (p : ptr)
| AD (d : D).
Arguments A32 {D} bits.
Arguments A64 {D} bits.
Arguments AP {D} p.
Arguments AD {D} d.

(** Two to the width of unsigned int (prnf.c:119). *)
Definition two32' : Z := 4294967296.
(** Two to the width of prnf_ulong_t (prnf.c:23). *)
Definition two64' : Z := 18446744073709551616.
(** Conversion to int (prnf.c:118) *)
Definition s32 (b : Z) : Z := if b <? 2147483648 then b else b - two32'.
(** Conversion to prnf_long_t (prnf.c:22, 114) *)
Definition s64 (b : Z) : Z := if b <? 9223372036854775808 then b else b - two64'.

(** prnf.c:1038-1041 is_type_unsigned, 1044-1047 is_type_int, 1050-1053 is_type_numeric *)
Definition is_type_unsigned (t : ptype) : bool := match t with TYPE_UINT | TYPE_HEX | TYPE_BIN => true | _ => false end.
(** prnf.c:1044-1047 is_type_int *)
Definition is_type_int (t : ptype) : bool := match t with TYPE_UINT | TYPE_INT | TYPE_HEX | TYPE_BIN => true | _ => false end.
(** prnf.c:1050-1053 is_type_numeric *)
Definition is_type_numeric (t : ptype) : bool :=
  match t with TYPE_BIN | TYPE_INT | TYPE_UINT | TYPE_HEX | TYPE_FLOAT | TYPE_ENG => true | _ => false end.
(** prnf.c:1028-1035 is_centered_string *)
Definition is_centered_string (ph : placeholder) : bool :=
  match ph_type ph with TYPE_STR => true | _ => false end
  && negb (ph_pdyn ph) && negb (ph_width ph =? 0) && ph_pspec ph && (ph_prec ph =? 0).
(** prnf.c:1055-1058 prnf_is_digit *)
Definition prnf_is_digit (x : Z) : bool := (48 <=? x) && (x <=? 57).
(** prnf.c:1060-1071 ascii_hex_digit; [x] is converted to uint_least8_t by the caller *)
Definition ascii_hex_digit (x : Z) : Z := let x := Z.land x 15 in if x <? 10 then 48 + x else 65 + (x - 10).

(** DEC_BUF_SIZE (prnf.c:43-49) *)
Definition DEC_BUF_SIZE : Z := 20.
(** *buf++ = c on the local array txt, represented by the characters stored so far *)
(** prnf.c:1139, 1148, 1156 and 818. *)
Definition txt_put (txt : list Z) (c : Z) : outcome (list Z) :=
  if Zlen txt <? DEC_BUF_SIZE then Ok (txt ++ [c]) else UB UB_bounds.

(** prnf.c:1131-1161 ulong2asc_rev; both loops divide by ten *)
Fixpoint asc_loop (fuel : nat) (lim : Z) (txt : list Z) (il : Z) : outcome (list Z * Z) :=
  match fuel with
  | O => Fuel
  | S f => if lim <? il
           then let! txt := txt_put txt (48 + il mod 10) in asc_loop f lim txt (il / 10)
           else Ok (txt, il)
  end.
(** prnf.c:1131-1161 ulong2asc_rev *)
Definition ulong2asc_rev (il : Z) : outcome (list Z) :=
  let! (txt, i) := asc_loop 64 UINT_MAX [] il in
  let! (txt, _) := asc_loop 64 0 txt i in
  match txt with [] => txt_put txt 48 | _ => Ok txt end.

Section Prnf.
Variable cf : cfg.
Variable A : fops.
(** State of the program while formatting: contains the memory, and whatever the
    character handler keeps. *)
Variable W : Type.
Variable rd : W -> mem.
Variable wr : W -> mem -> W.

(** prnf.c:93-103 struct out_struct; the handler's void* is part of the state *)
Record out : Type := Out {
  o_col : Z; o_cnt : Z; o_limit : Z; o_buf : ptr; o_fn : option (W -> Z -> outcome W); o_st : W }.

(** prnf.c:1168-1184 out_char; [x] is the char as a byte *)
Definition out_char (o : out) (x : Z) : outcome out :=
  let! direct := if is_null (o_buf o) then Ok false
                 else let! n := iadd cf (o_cnt o) 1 in Ok (n <? o_limit o) in
  let! (buf, s) :=
    if direct : bool
    then let! m := store_byte (rd (o_st o)) (o_buf o) x in
         let! b := padd cf m (o_buf o) 1 in Ok (b, wr (o_st o) m)
    else match o_fn o with
         | Some f => let! s := f (o_st o) x in Ok (o_buf o, s)
         | None => Ok (o_buf o, o_st o)
         end in
  let! col := if (x =? 13) || (x =? 10) then Ok 0
              else if 31 <? char_int cf x then iadd cf (o_col o) 1 else Ok (o_col o) in
  let! cnt := iadd cf (o_cnt o) 1 in
  Ok (Out col cnt (o_limit o) buf (o_fn o) s).

(** prnf.c:1187-1191 out_terminate *)
Definition out_terminate (o : out) : outcome out :=
  if negb (is_null (o_buf o)) && negb (o_limit o =? 0)
  then let! m := store_byte (rd (o_st o)) (o_buf o) 0 in
       Ok (Out (o_col o) (o_cnt o) (o_limit o) (o_buf o) (o_fn o) (wr (o_st o) m))
  else Ok o.

(** Several out_char() in a row *)
(** prnf.c:685-689, 839-845, 874-875. *)
Fixpoint out_chars (o : out) (l : list Z) : outcome out :=
  match l with
  | [] => Ok o
  | c :: t => let! o := out_char o c in out_chars o t
  end.
(** while(n--) out_char(x) *)
(** prnf.c:683-684, 1002-1003, 1023-1024. *)
Fixpoint out_rep (n : nat) (o : out) (x : Z) : outcome out :=
  match n with
  | O => Ok o
  | S n' => let! o := out_char o x in out_rep n' o x
  end.
(** Number of iterations of while(n--): a negative int runs through INT_MIN. *)
(** prnf.c:683, 912, 1002 and 1023. *)
Definition loops (n : Z) : outcome nat :=
  if 0 <=? n then Ok (Z.to_nat n) else if c_wrapv cf then Ok (Z.to_nat (n + two32')) else UB UB_overflow.

(** prnf.c:984-1004 prepad *)
Definition prepad (o : out) (ph : placeholder) (source_len : Z) : outcome out :=
  let! pad_len :=
    if is_centered_string ph && (source_len <? ph_width ph)
    then let! d := isub cf (ph_width ph) source_len in Ok (Z.quot d 2)
    else if negb (ph_minus ph) && (source_len <? ph_width ph)
    then isub cf (ph_width ph) source_len
    else Ok 0 in
  let pad_char :=
    if is_type_numeric (ph_type ph) && ph_zero ph
    then if negb (ph_pspec ph && is_type_int (ph_type ph)) then 48 else 32
    else 32 in
  let! n := loops pad_len in
  out_rep n o pad_char.

(** prnf.c:1007-1025 postpad *)
Definition postpad (o : out) (ph : placeholder) (source_len : Z) : outcome out :=
  let! pad_len :=
    if is_centered_string ph && (source_len <? ph_width ph)
    then let! d := isub cf (ph_width ph) source_len in
         let! d := if Z.odd d then iadd cf d 1 else Ok d in
         Ok (Z.shiftr d 1)
    else if ph_minus ph && (source_len <? ph_width ph)
    then isub cf (ph_width ph) source_len
    else Ok 0 in
  let! n := loops pad_len in
  out_rep n o 32.

(** prnf.c:641-693 print_dec; -value overflows for LLONG_MIN *)
Definition print_dec (o : out) (ph : placeholder) (value : Z) : outcome out :=
  let! (uvalue, sign_char) :=
    if is_type_unsigned (ph_type ph) then Ok (value mod two64', 0)
    else if value <? 0
    then if (value =? LLONG_MIN) && negb (c_wrapv cf) then UB UB_overflow
         else Ok ((- value) mod two64', 45)
    else Ok (value mod two64', ph_sign ph) in
  let! txt := ulong2asc_rev uvalue in
  let number_len := Zlen txt in
  let! zero_pad_len := if ph_pspec ph && (number_len <? ph_prec ph)
                       then isub cf (ph_prec ph) number_len else Ok 0 in
  let! number_len := iadd cf number_len zero_pad_len in
  let! number_len := if sign_char =? 0 then Ok number_len else iadd cf number_len 1 in
  let! o := prepad o ph number_len in
  let! o := if sign_char =? 0 then Ok o else out_char o sign_char in
  let! n := loops zero_pad_len in
  let! o := out_rep n o 48 in
  let! o := out_chars o (rev txt) in
  postpad o ph number_len.

(** prnf.c:695-719 print_bin *)
Fixpoint bin_loop (fuel : nat) (o : out) (uvalue bit : Z) : outcome out :=
  match fuel with
  | O => Fuel
  | S f => if bit =? 0 then Ok o
           else let! o := out_char o (if Z.land uvalue bit =? 0 then 48 else 49) in
                bin_loop f o uvalue (Z.shiftr bit 1)
  end.
(** prnf.c:695-719 print_bin *)
Definition print_bin (o : out) (ph : placeholder) (uvalue : Z) : outcome out :=
  let number_len := if ph_pspec ph then ph_prec ph else ph_size ph * 8 in
  let! o := prepad o ph number_len in
  let! n := isub cf number_len 1 in
  if (0 <=? n) && (n <? 64)
  then let! o := bin_loop 65 o uvalue (Z.shiftl 1 n) in postpad o ph number_len
  else UB UB_shift.

(** prnf.c:721-745 print_hex; offset is uint_least8_t *)
Fixpoint hex_loop (fuel : nat) (o : out) (uvalue offset : Z) : outcome out :=
  match fuel with
  | O => Fuel
  | S f =>
      let offset := (offset - 4) mod 256 in
      if offset <? 64
      then let! o := out_char o (ascii_hex_digit (Z.shiftr uvalue offset mod 256)) in
           if offset =? 0 then Ok o else hex_loop f o uvalue offset
      else UB UB_shift
  end.
(** prnf.c:721-745 print_hex *)
Definition print_hex (o : out) (ph : placeholder) (uvalue : Z) : outcome out :=
  let number_len := if ph_pspec ph then ph_prec ph else ph_size ph * 2 in
  let! o := prepad o ph number_len in
  let! k := int_res cf (number_len * 4) in
  let! o := hex_loop 65 o uvalue (k mod 256) in
  postpad o ph number_len.

(** prnf.c:951-965 prnf_strlen.  Simplification: overflow of the int counter is decided at the end. *)
Definition prnf_strlen (m : mem) (str : ptr) : outcome Z :=
  if is_null str then Ok 0 else let! n := strlen m str in int_res cf n.

(** prnf.c:899-919 print_str *)
Fixpoint str_loop (n : nat) (o : out) (str : ptr) : outcome out :=
  match n with
  | O => Ok o
  | S n' => let! c := load_byte (rd (o_st o)) str in
            let! o := out_char o c in
            let! str := padd cf (rd (o_st o)) str 1 in
            str_loop n' o str
  end.
(** prnf.c:899-919 print_str *)
Definition print_str (o : out) (ph : placeholder) (str : ptr) : outcome out :=
  let! source_len := prnf_strlen (rd (o_st o)) str in
  let source_len := if ph_pspec ph && (ph_prec ph <? source_len) && negb (is_centered_string ph)
                    then ph_prec ph else source_len in
  let! o := prepad o ph source_len in
  let! n := loops source_len in
  let! o := str_loop n o str in
  postpad o ph source_len.

(** ** Floating point *)

(** prnf.c:1097-1115 get_prec: uint_least8_t, FLOAT_PREC_MAX is 19, the defaults are in prnf_conf.h *)
Definition get_prec (ph : placeholder) : Z :=
  let prec := if ph_pspec ph then ph_prec ph mod 256
              else match ph_type ph with TYPE_ENG => 0 | _ => 3 end in
  if 19 <? prec then 19 else prec.

(** prnf.c:880-896 determine_sign_char_of_float *)
Definition determine_sign_char_of_float (ph : placeholder) (v : fl A) : Z :=
  if f_lt A v (f_int A 0) then 45
  else if f_eq A v v then ph_sign ph else 0.

(** prnf.c:761-788 determine_float_msg: NAN, INF, OVER or none *)
Definition determine_float_msg (ph : placeholder) (v : fl A) : option (list Z) :=
  let v := if f_lt A v (f_int A 0) then f_neg A v else v in
  if negb (f_eq A v v) then Some [78; 65; 78]
  else if f_lt A (f_max A) v then Some [73; 78; 70]
  else
    let v := f_mul A v (f_pow10 A (get_prec ph)) in
    if f_lt A (f_int A ULLONG_MAX) v || f_eq A (f_int A ULLONG_MAX) v then Some [79; 86; 69; 82] else None.

(** prnf.c:1117-1127 round_float_to_ulong *)
Definition round_float_to_ulong (x : fl A) : outcome Z :=
  match f_trunc A x with
  | None => UB UB_float
  | Some r => let d := f_sub A x (f_int A r) in
              Ok (if f_lt A (f_half A) d || f_eq A (f_half A) d then (r + 1) mod two64' else r)
  end.

(** The do loop of prnf.c:790-852 print_float_normal: digits most significant first *)
Fixpoint float_loop (o : out) (radix_pos : Z) (l : list Z) : outcome out :=
  match l with
  | [] => Ok o
  | c :: t =>
      let! o := if radix_pos =? 0 then out_char o 46 else Ok o in
      let! o := out_char o c in
      float_loop o ((radix_pos - 1) mod 256) t
  end.

(** while(number_len < prec+1) of prnf.c:790-852 print_float_normal *)
Fixpoint zero_fill (fuel : nat) (txt : list Z) (prec : Z) : outcome (list Z) :=
  match fuel with
  | O => Fuel
  | S f => if Zlen txt <? prec + 1 then let! txt := txt_put txt 48 in zero_fill f txt prec else Ok txt
  end.

(** prnf.c:790-852 print_float_normal; postpend = 0 means none *)
Definition print_float_normal (o : out) (ph : placeholder) (v : fl A) (postpend : Z) : outcome out :=
  let sign_char := determine_sign_char_of_float ph v in
  let prec := get_prec ph in
  let v := if f_lt A v (f_int A 0) then f_neg A v else v in
  let! uvalue := round_float_to_ulong (f_mul A v (f_pow10 A prec)) in
  let! txt := ulong2asc_rev uvalue in
  let! txt := zero_fill 64 txt prec in
  let number_len := Zlen txt in
  let '(number_len, radix_pos) := if prec =? 0 then (number_len, 255) else (number_len + 1, (number_len + 1 - prec - 1) mod 256) in
  let number_len := if sign_char =? 0 then number_len else number_len + 1 in
  let post := negb (postpend =? 0) && negb (uvalue =? 0) in
  let number_len := (if post then number_len + 1 else number_len) mod 256 in
  let! o := prepad o ph number_len in
  let! o := if sign_char =? 0 then Ok o else out_char o sign_char in
  let! o := float_loop o radix_pos (rev txt) in
  let! o := if post then out_char o postpend else Ok o in
  postpad o ph number_len.

(** prnf.c:856-877 print_float_special: printed as a string with precision 1 *)
Definition print_float_special (o : out) (ph : placeholder) (msg : list Z) (v : fl A) : outcome out :=
  let sign_char := determine_sign_char_of_float ph v in
  let ph' := Ph (ph_minus ph) (ph_zero ph) (ph_sign ph) (ph_pspec ph) (ph_width ph) 1 (ph_pdyn ph) (ph_wdyn ph) (ph_size ph) TYPE_STR in
  let msg_len := if sign_char =? 0 then Zlen msg else Zlen msg + 1 in
  let! o := prepad o ph' msg_len in
  let! o := if sign_char =? 0 then Ok o else out_char o sign_char in
  let! o := out_chars o msg in
  postpad o ph' msg_len.

(** prnf.c:749-758 print_float *)
Definition print_float (o : out) (ph : placeholder) (v : fl A) (postpend : Z) : outcome out :=
  match determine_float_msg ph v with
  | Some msg => print_float_special o ph msg v
  | None => print_float_normal o ph v postpend
  end.

(** prnf.c:1074-1095 get_eng: the table of prefixes y z a f p n u m - k M G T P E Z Y *)
Definition eng_tbl : list Z := [121; 122; 97; 102; 112; 110; 117; 109; 0; 107; 77; 71; 84; 80; 69; 90; 89].
(** prnf.c:1080 and 1086: the conditions of the loops *)
Definition within (v : fl A) (k : Z) : bool := f_lt A (f_int A (- k)) v && f_lt A v (f_int A k).
(** prnf.c:1080-1084 (get_eng): the loop for large values *)
Fixpoint eng_up (fuel : nat) (v : fl A) (i : Z) : fl A * Z :=
  match fuel with
  | O => (v, i)
  | S f => if negb (within v 1000) && (i <? 16) then eng_up f (f_div A v (f_int A 1000)) (i + 1) else (v, i)
  end.
(** prnf.c:1086-1090 (get_eng): the loop for small values *)
Fixpoint eng_down (fuel : nat) (v : fl A) (i : Z) : fl A * Z :=
  match fuel with
  | O => (v, i)
  | S f => if within v 1 && negb (i =? 0) then eng_down f (f_mul A v (f_int A 1000)) (i - 1) else (v, i)
  end.
(** prnf.c:1074-1095 get_eng *)
Definition get_eng (v : fl A) : fl A * Z :=
  let '(v, i) := eng_up 17 v 8 in
  let '(v, i) := eng_down 17 v i in
  (v, nth (Z.to_nat i) eng_tbl 0).

(** ** Arguments *)

(** Contents of union varg_union (prnf.c:112-123) after READ_VARG: an integer is kept as
    the 64 bits of prnf_ul / prnf_l. *)
Inductive varg : Type := VNone | VInt (bits : Z) | VFlt (v : fl A) | VChar (c : Z) | VStr (p : ptr).

(** prnf.c:352 and 361: va_arg(va, int) *)
Definition next_int (va : list (arg (dbl A))) : outcome (Z * list (arg (dbl A))) :=
  match va with A32 b :: t => Ok (s32 b, t) | _ => UB UB_varg end.

(** prnf.c:346-396 READ_VARG.  sizeof(prnf_ulong_t) is 8; sizes 8 and sizeof(long) = 8
    coincide, otherwise long and int are both 32 bits wide. *)
Definition read_varg (ph : placeholder) (va : list (arg (dbl A))) : outcome (placeholder * varg * list (arg (dbl A))) :=
  let! (ph, va) :=
    if ph_wdyn ph
    then let! (w, va) := next_int va in
         if w <? 0
         then let! w := isub cf 0 w in
              Ok (Ph true (ph_zero ph) (ph_sign ph) (ph_pspec ph) w (ph_prec ph) (ph_pdyn ph) (ph_wdyn ph) (ph_size ph) (ph_type ph), va)
         else Ok (Ph (ph_minus ph) (ph_zero ph) (ph_sign ph) (ph_pspec ph) w (ph_prec ph) (ph_pdyn ph) (ph_wdyn ph) (ph_size ph) (ph_type ph), va)
    else Ok (ph, va) in
  let! (ph, va) :=
    if ph_pdyn ph
    then let! (p, va) := next_int va in
         Ok (Ph (ph_minus ph) (ph_zero ph) (ph_sign ph) (ph_pspec ph) (ph_width ph) p (ph_pdyn ph) (ph_wdyn ph) (ph_size ph) (ph_type ph), va)
    else Ok (ph, va) in
  match ph_type ph with
  | TYPE_NONE => Ok (ph, VNone, va)
  | TYPE_UINT | TYPE_HEX | TYPE_BIN | TYPE_INT =>
      if ph_size ph =? 8
      then match va with A64 b :: t => Ok (ph, VInt b, t) | _ => UB UB_varg end
      else match va with
           | A32 b :: t => Ok (ph, VInt (if is_type_unsigned (ph_type ph) then b else s32 b mod two64'), t)
           | _ => UB UB_varg
           end
  | TYPE_FLOAT | TYPE_ENG => match va with AD d :: t => Ok (ph, VFlt (f_of_dbl A d), t) | _ => UB UB_varg end
  | TYPE_CHAR => match va with A32 b :: t => Ok (ph, VChar (b mod 256), t) | _ => UB UB_varg end
  | TYPE_STR => match va with AP p :: t => Ok (ph, VStr p, t) | _ => UB UB_varg end
  end.

(** prnf.c:596-638 print_placeholder *)
Definition print_placeholder (o : out) (v : varg) (ph : placeholder) : outcome out :=
  match ph_type ph, v with
  | TYPE_INT, VInt b | TYPE_UINT, VInt b => print_dec o ph (s64 b)
  | TYPE_BIN, VInt b => print_bin o ph b
  | TYPE_HEX, VInt b => print_hex o ph b
  | TYPE_FLOAT, VFlt x => print_float o ph x 0
  | TYPE_ENG, VFlt x => let (x, prefix) := get_eng x in print_float o ph x prefix
  | TYPE_CHAR, VChar c => out_char o c
  | TYPE_STR, VStr p => print_str o ph p
  | _, _ => Ok o
  end.

(** ** The format string *)

(** prnf.c:967-981 prnf_atoi *)
Fixpoint prnf_atoi (fuel : nat) (m : mem) (fmt : ptr) (value : Z) : outcome (Z * ptr) :=
  match fuel with
  | O => Fuel
  | S f => let! c := load_byte m fmt in
           if prnf_is_digit c
           then let! value := int_res cf (value * 10) in
                let! value := iadd cf value (Z.land c 15) in
                let! fmt := padd cf m fmt 1 in
                prnf_atoi f m fmt value
           else Ok (value, fmt)
  end.

(** prnf.c:448-464 the flags *)
Fixpoint parse_flags (fuel : nat) (m : mem) (fmt : ptr) (minus zero : bool) (sign : Z) : outcome (bool * bool * Z * ptr) :=
  match fuel with
  | O => Fuel
  | S f => let! c := load_byte m fmt in
           let! next := if (c =? 48) || (c =? 45) || (c =? 43) || (c =? 32) || (c =? 35) || (c =? 39)
                        then padd cf m fmt 1 else Ok fmt in
           if c =? 48 then parse_flags f m next minus true sign
           else if c =? 45 then parse_flags f m next true zero sign
           else if (c =? 43) || (c =? 32) then parse_flags f m next minus zero c
           else if (c =? 35) || (c =? 39) then parse_flags f m next minus zero sign
           else Ok (minus, zero, sign, fmt)
  end.

(** prnf.c:367, 512, 515: sizeof(long) *)
Definition sizeof_long : Z := if c_long64 cf then 8 else 4.

(** prnf.c:489-529 the size modifier; size_t and ptrdiff_t have the size of a pointer *)
Definition parse_size (m : mem) (fmt : ptr) : outcome (Z * ptr) :=
  let! c := load_byte m fmt in
  if c =? 104 then
    let! fmt := padd cf m fmt 1 in
    let! c := load_byte m fmt in
    if c =? 104 then let! fmt := padd cf m fmt 1 in Ok (1, fmt) else Ok (2, fmt)
  else if c =? 108 then
    let! fmt := padd cf m fmt 1 in
    let! c := load_byte m fmt in
    if c =? 108 then let! fmt := padd cf m fmt 1 in Ok (8, fmt) else Ok (sizeof_long, fmt)
  else if (c =? 116) || (c =? 122) then let! fmt := padd cf m fmt 1 in Ok (c_ptrbytes cf, fmt)
  else Ok (4, fmt).

(** prnf.c:531-589 the type; S is the same as s *)
Definition type_of (c : Z) : ptype :=
  if (c =? 100) || (c =? 105) then TYPE_INT
  else if c =? 111 then TYPE_BIN
  else if c =? 117 then TYPE_UINT
  else if (c =? 120) || (c =? 88) then TYPE_HEX
  else if (c =? 102) || (c =? 70) then TYPE_FLOAT
  else if (c =? 101) || (c =? 69) then TYPE_ENG
  else if (c =? 83) || (c =? 115) then TYPE_STR
  else if c =? 99 then TYPE_CHAR
  else TYPE_NONE.

(** prnf.c:443-594 parse_placeholder *)
Definition parse_placeholder (fuel : nat) (m : mem) (fmt : ptr) : outcome (placeholder * ptr) :=
  let! (minus, zero, sign, fmt) := parse_flags fuel m fmt false false 0 in
  let! c := load_byte m fmt in
  let! (wdyn, width, fmt) :=
    if c =? 42 then let! fmt := padd cf m fmt 1 in Ok (true, 0, fmt)
    else let! (w, fmt) := prnf_atoi fuel m fmt 0 in Ok (false, w, fmt) in
  let! c := load_byte m fmt in
  let! (pspec, pdyn, prec, fmt) :=
    if c =? 46 then
      let! fmt := padd cf m fmt 1 in
      let! c := load_byte m fmt in
      if c =? 42 then let! fmt := padd cf m fmt 1 in Ok (true, true, 0, fmt)
      else let! (p, fmt) := prnf_atoi fuel m fmt 0 in Ok (true, false, p, fmt)
    else Ok (false, false, 0, fmt) in
  let! (size, fmt) := parse_size m fmt in
  let! c := load_byte m fmt in
  let! fmt := padd cf m fmt 1 in
  Ok (Ph minus zero sign pspec width prec pdyn wdyn size (type_of c), fmt).

(** prnf.c:925-948 print_col_alignment *)
Fixpoint col_loop (fuel : nat) (o : out) (col pad : Z) : outcome out :=
  match fuel with
  | O => Fuel
  | S f => if o_col o <? col then let! o := out_char o pad in col_loop f o col pad else Ok o
  end.
(** prnf.c:925-948 print_col_alignment *)
Definition print_col_alignment (fuel : nat) (o : out) (fmt : ptr) : outcome (out * ptr) :=
  let m := rd (o_st o) in
  let! c := load_byte m fmt in
  let got_col := prnf_is_digit c in
  let! (col, fmt) := prnf_atoi fuel m fmt 0 in
  let! pad := load_byte m fmt in
  let pad_char := if char_int cf pad <? 32 then 0 else pad in
  if negb got_col then let! o := out_char o 11 in Ok (o, fmt)
  else if negb (pad_char =? 0)
  then let! o := col_loop (S (Z.to_nat (col - o_col o))) o col pad_char in
       let! fmt := padd cf (rd (o_st o)) fmt 1 in Ok (o, fmt)
  else Ok (o, fmt).

(** prnf.c:398-440 core_prnf *)
Fixpoint core_loop (fuel limit : nat) (o : out) (fmt : ptr) (va : list (arg (dbl A))) : outcome out :=
  match fuel with
  | O => Fuel
  | S f =>
      let m := rd (o_st o) in
      let! c := load_byte m fmt in
      if c =? 0 then Ok o
      else if c =? 37 then
        let! fmt := padd cf m fmt 1 in
        let! c := load_byte m fmt in
        if c =? 37 then
          let! o := out_char o 37 in
          let! fmt := padd cf (rd (o_st o)) fmt 1 in
          core_loop f limit o fmt va
        else
          let! (ph, fmt) := parse_placeholder limit m fmt in
          let! (ph, v, va) := read_varg ph va in
          let! o := print_placeholder o v ph in
          core_loop f limit o fmt va
      else if c =? 11 then
        let! fmt := padd cf m fmt 1 in
        let! (o, fmt) := print_col_alignment limit o fmt in
        core_loop f limit o fmt va
      else
        let! o := out_char o c in
        let! fmt := padd cf (rd (o_st o)) fmt 1 in
        core_loop f limit o fmt va
  end.
(** Loops over the format string are bounded by the size of the object it lies in. *)
(** prnf.c:398-440 core_prnf. *)
Definition core_prnf (o : out) (fmt : ptr) (va : list (arg (dbl A))) : outcome (Z * out) :=
  let! blk := access (rd (o_st o)) (p_obj fmt) in
  let limit := S (Z.to_nat (b_size blk)) in
  let! o := core_loop limit limit o fmt va in
  let! o := out_terminate o in
  Ok (o_cnt o, o).

(** prnf.c:325-329 vfptrprnf (and 296-305 fptrprnf, 307-311 vprnf and 241-250 prnf, which pass
    prnf_out_fptr as the handler); the handler may be NULL *)
Definition vfptrprnf (fn : option (W -> Z -> outcome W)) (s : W) (fmt : ptr) (va : list (arg (dbl A))) : outcome (Z * W) :=
  let! (n, o) := core_prnf (Out 0 0 0 null fn s) fmt va in Ok (n, o_st o).
(** prnf.c:319-323 vsnprnf (and 263-272 snprnf); size_t is converted to int *)
Definition vsnprnf (s : W) (dst : ptr) (dst_size : Z) (fmt : ptr) (va : list (arg (dbl A))) : outcome (Z * W) :=
  let! (n, o) := core_prnf (Out 0 0 (to_int dst_size) dst None s) fmt va in Ok (n, o_st o).
(** prnf.c:313-317 vsprnf (and 252-261 sprnf) *)
Definition vsprnf (s : W) (dst : ptr) (fmt : ptr) (va : list (arg (dbl A))) : outcome (Z * W) :=
  let! (n, o) := core_prnf (Out 0 0 INT_MAX dst None s) fmt va in Ok (n, o_st o).
(** prnf.c:274-294 snappf *)
Definition snappf (s : W) (dst : ptr) (dst_size : Z) (fmt : ptr) (va : list (arg (dbl A))) : outcome (Z * W) :=
  let! org_len := if dst_size =? 0 then Ok 0
                  else let! n := prnf_strlen (rd s) dst in
                       Ok (if dst_size - 1 <? n then dst_size - 1 else n) in
  let! d := padd cf (rd s) dst org_len in
  vsnprnf s d (dst_size - org_len) fmt va.

End Prnf.
