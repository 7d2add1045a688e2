(** Model of the text formatter prnf (/repo/test/prnf.c) without PRNF_SUPPORT_LONG_LONG where
    long has 32 bits, and without PRNF_SUPPORT_FLOAT: prnf_long_t is long (prnf.c:26-28), and
    LONG_IS_32 (42-45).  PRNF_COL_ALIGNMENT is defined or not.  What the width of prnf_long_t
    does not touch is shared with PrnfModel and PrnfConfModel. *)
From Verif Require Import Base Mem Libc StrviewModel PrnfModel PrnfConfModel.

(** DEC_BUF_SIZE (prnf.c:43) *)
Definition DEC_BUF_SIZE_32 : Z := 10.
(** *buf++ = c on the local array txt, represented by the characters stored so far *)
(** prnf.c:1139, 1148 and 1156. *)
Definition txt_put_32 (txt : list Z) (c : Z) : outcome (list Z) :=
  if Zlen txt <? DEC_BUF_SIZE_32 then Ok (txt ++ [c]) else UB UB_bounds.
(** prnf.c:1131-1161 ulong2asc_rev; both loops divide by ten *)
Fixpoint asc_loop_32 (fuel : nat) (lim : Z) (txt : list Z) (il : Z) : outcome (list Z * Z) :=
  match fuel with
  | O => Fuel
  | S f => if lim <? il
           then let! txt := txt_put_32 txt (48 + il mod 10) in asc_loop_32 f lim txt (il / 10)
           else Ok (txt, il)
  end.
(** prnf.c:1131-1161 ulong2asc_rev *)
Definition ulong2asc_rev_32 (il : Z) : outcome (list Z) :=
  let! (txt, i) := asc_loop_32 64 UINT_MAX [] il in
  let! (txt, _) := asc_loop_32 64 0 txt i in
  match txt with [] => txt_put_32 txt 48 | _ => Ok txt end.

Section Long.
Variable cf : cfg.
Variable A : fops.
Variable W : Type.
Variable rd : W -> mem.
Variable wr : W -> mem -> W.
(** PRNF_COL_ALIGNMENT (prnf_conf.h:21) *)
Variable col : bool.
Notation out := (out W).
Notation out_char := (out_char cf W rd wr).
Notation prepad := (prepad cf W rd wr).
Notation postpad := (postpad cf W rd wr).

(** prnf_conf.h:5, 8, 21 the switches of this build *)
Definition no_long_long : build := Build false false col.

(** prnf.c:641-693 print_dec; -value overflows for LONG_MIN, which is INT_MIN *)
Definition print_dec_32 (o : out) (ph : placeholder) (value : Z) : outcome out :=
  let! (uvalue, sign_char) :=
    if is_type_unsigned (ph_type ph) then Ok (value mod two32', 0)
    else if value <? 0
    then if (value =? INT_MIN) && negb (c_wrapv cf) then UB UB_overflow
         else Ok ((- value) mod two32', 45)
    else Ok (value mod two32', ph_sign ph) in
  let! txt := ulong2asc_rev_32 uvalue in
  let number_len := Zlen txt in
  let! zero_pad_len := if ph_pspec ph && (number_len <? ph_prec ph)
                       then isub cf (ph_prec ph) number_len else Ok 0 in
  let! number_len := iadd cf number_len zero_pad_len in
  let! number_len := if sign_char =? 0 then Ok number_len else iadd cf number_len 1 in
  let! o := prepad o ph number_len in
  let! o := if sign_char =? 0 then Ok o else out_char o sign_char in
  let! n := loops cf zero_pad_len in
  let! o := out_rep cf W rd wr n o 48 in
  let! o := out_chars cf W rd wr o (rev txt) in
  postpad o ph number_len.

(** prnf.c:695-719 print_bin: shifts of 32 bits and more are undefined *)
Definition print_bin_32 (o : out) (ph : placeholder) (uvalue : Z) : outcome out :=
  let number_len := if ph_pspec ph then ph_prec ph else ph_size ph * 8 in
  let! o := prepad o ph number_len in
  let! n := isub cf number_len 1 in
  if (0 <=? n) && (n <? 32)
  then let! o := bin_loop cf W rd wr 65 o uvalue (Z.shiftl 1 n) in postpad o ph number_len
  else UB UB_shift.

(** prnf.c:721-745 print_hex; offset is uint_least8_t *)
Fixpoint hex_loop_32 (fuel : nat) (o : out) (uvalue offset : Z) : outcome out :=
  match fuel with
  | O => Fuel
  | S f =>
      let offset := (offset - 4) mod 256 in
      if offset <? 32
      then let! o := out_char o (ascii_hex_digit (Z.shiftr uvalue offset mod 256)) in
           if offset =? 0 then Ok o else hex_loop_32 f o uvalue offset
      else UB UB_shift
  end.
(** prnf.c:721-745 print_hex *)
Definition print_hex_32 (o : out) (ph : placeholder) (uvalue : Z) : outcome out :=
  let number_len := if ph_pspec ph then ph_prec ph else ph_size ph * 2 in
  let! o := prepad o ph number_len in
  let! k := int_res cf (number_len * 4) in
  let! o := hex_loop_32 65 o uvalue (k mod 256) in
  postpad o ph number_len.

(** prnf.c:346-361 READ_VARG: width and precision taken from the arguments *)
Definition read_dyn (ph : placeholder) (va : list (arg (dbl A))) : outcome (placeholder * list (arg (dbl A))) :=
  let! (ph, va) :=
    if ph_wdyn ph
    then let! (w, va) := next_int A va in
         if w <? 0
         then let! w := isub cf 0 w in
              Ok (Ph true (ph_zero ph) (ph_sign ph) (ph_pspec ph) w (ph_prec ph) (ph_pdyn ph) (ph_wdyn ph) (ph_size ph) (ph_type ph), va)
         else Ok (Ph (ph_minus ph) (ph_zero ph) (ph_sign ph) (ph_pspec ph) w (ph_prec ph) (ph_pdyn ph) (ph_wdyn ph) (ph_size ph) (ph_type ph), va)
    else Ok (ph, va) in
  if ph_pdyn ph
  then let! (p, va) := next_int A va in
       Ok (Ph (ph_minus ph) (ph_zero ph) (ph_sign ph) (ph_pspec ph) (ph_width ph) p (ph_pdyn ph) (ph_wdyn ph) (ph_size ph) (ph_type ph), va)
  else Ok (ph, va).
(** prnf.c:346-396 READ_VARG.  sizeof(prnf_ulong_t) is 4 (365); every other size, also the 8 of
    %zd with 64 bit pointers, is read as an unsigned int (377).  Simplification: int and long
    are not told apart, both have 32 bits. *)
Definition read_varg_32 (ph : placeholder) (va : list (arg (dbl A))) : outcome (placeholder * varg A * list (arg (dbl A))) :=
  let! (ph, va) := read_dyn ph va in
  match ph_type ph with
  | TYPE_UINT | TYPE_HEX | TYPE_BIN | TYPE_INT =>
      match va with A32 b :: t => Ok (ph, VInt A b, t) | _ => UB UB_varg end
  | TYPE_CHAR => match va with A32 b :: t => Ok (ph, VChar A (b mod 256), t) | _ => UB UB_varg end
  | TYPE_STR => match va with AP p :: t => Ok (ph, VStr A p, t) | _ => UB UB_varg end
  | _ => Ok (ph, VNone A, va)
  end.

(** prnf.c:596-638 print_placeholder *)
Definition print_placeholder_32 (o : out) (v : varg A) (ph : placeholder) : outcome out :=
  match ph_type ph, v with
  | TYPE_INT, VInt _ b | TYPE_UINT, VInt _ b => print_dec_32 o ph (s32 b)
  | TYPE_BIN, VInt _ b => print_bin_32 o ph b
  | TYPE_HEX, VInt _ b => print_hex_32 o ph b
  | TYPE_CHAR, VChar _ c => out_char o c
  | TYPE_STR, VStr _ p => print_str cf W rd wr o ph p
  | _, _ => Ok o
  end.

(** prnf.c:398-440 core_prnf *)
Fixpoint core_loop_32 (fuel limit : nat) (o : out) (fmt : ptr) (va : list (arg (dbl A))) : outcome out :=
  match fuel with
  | O => Fuel
  | S f =>
      let m := rd (o_st W o) in
      let! c := load_byte m fmt in
      if c =? 0 then Ok o
      else if c =? 37 then
        let! fmt := padd cf m fmt 1 in
        let! c := load_byte m fmt in
        if c =? 37 then
          let! o := out_char o 37 in
          let! fmt := padd cf (rd (o_st W o)) fmt 1 in
          core_loop_32 f limit o fmt va
        else
          let! (ph, fmt) := parse_placeholder_b cf no_long_long limit m fmt in
          let! (ph, v, va) := read_varg_32 ph va in
          let! o := print_placeholder_32 o v ph in
          core_loop_32 f limit o fmt va
      else if col && (c =? 11) then
        let! fmt := padd cf m fmt 1 in
        let! (o, fmt) := print_col_alignment cf W rd wr limit o fmt in
        core_loop_32 f limit o fmt va
      else
        let! o := out_char o c in
        let! fmt := padd cf (rd (o_st W o)) fmt 1 in
        core_loop_32 f limit o fmt va
  end.
(** prnf.c:398-440 core_prnf.  Loops over the format string are bounded by the size of the
    object it lies in. *)
Definition core_prnf_32 (o : out) (fmt : ptr) (va : list (arg (dbl A))) : outcome (Z * out) :=
  let! blk := access (rd (o_st W o)) (p_obj fmt) in
  let limit := S (Z.to_nat (b_size blk)) in
  let! o := core_loop_32 limit limit o fmt va in
  let! o := out_terminate W rd wr o in
  Ok (o_cnt W o, o).

(** prnf.c:325-329 vfptrprnf (and 296-305 fptrprnf, 307-311 vprnf, 241-250 prnf) *)
Definition vfptrprnf_32 (fn : option (W -> Z -> outcome W)) (s : W) (fmt : ptr) (va : list (arg (dbl A))) : outcome (Z * W) :=
  let! (n, o) := core_prnf_32 (Out W 0 0 0 null fn s) fmt va in Ok (n, o_st W o).
(** prnf.c:319-323 vsnprnf (and 263-272 snprnf); size_t is converted to int *)
Definition vsnprnf_32 (s : W) (dst : ptr) (dst_size : Z) (fmt : ptr) (va : list (arg (dbl A))) : outcome (Z * W) :=
  let! (n, o) := core_prnf_32 (Out W 0 0 (to_int dst_size) dst None s) fmt va in Ok (n, o_st W o).
(** prnf.c:313-317 vsprnf (and 252-261 sprnf) *)
Definition vsprnf_32 (s : W) (dst : ptr) (fmt : ptr) (va : list (arg (dbl A))) : outcome (Z * W) :=
  let! (n, o) := core_prnf_32 (Out W 0 0 INT_MAX dst None s) fmt va in Ok (n, o_st W o).
End Long.
