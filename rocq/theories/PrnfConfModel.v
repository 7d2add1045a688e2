(** Model of the text formatter prnf (/repo/test/prnf.c) for the switches of
    /repo/test/prnf_conf.h other than as shipped: PRNF_SUPPORT_LONG_LONG, PRNF_SUPPORT_FLOAT
    and PRNF_COL_ALIGNMENT each defined or not.  What the switches do not touch is shared with
    PrnfModel.  Simplification: without PRNF_SUPPORT_LONG_LONG prnf_long_t is long
    (prnf.c:21-32), this file models that configuration only where long is 64 bits wide. *)
From Verif Require Import Base Mem Libc StrviewModel PrnfModel.

(** prnf_conf.h:5, 8, 21 the switches *)
Record build : Type := Build { b_ll : bool; b_float : bool; b_col : bool }.
(** prnf_conf.h:5-21 as shipped *)
Definition shipped : build := Build true true true.

Section Conf.
Variable cf : cfg.
Variable A : fops.
Variable W : Type.
Variable rd : W -> mem.
Variable wr : W -> mem -> W.
Variable bd : build.

(** prnf.c:489-529 the size modifier; the second l is looked at only with
    PRNF_SUPPORT_LONG_LONG (505-516), PRNF_ASSERT does nothing *)
Definition parse_size_b (m : mem) (fmt : ptr) : outcome (Z * ptr) :=
  let! c := load_byte m fmt in
  if c =? 104 then
    let! fmt := padd cf m fmt 1 in
    let! c := load_byte m fmt in
    if c =? 104 then let! fmt := padd cf m fmt 1 in Ok (1, fmt) else Ok (2, fmt)
  else if c =? 108 then
    let! fmt := padd cf m fmt 1 in
    if b_ll bd
    then let! c := load_byte m fmt in
         if c =? 108 then let! fmt := padd cf m fmt 1 in Ok (8, fmt) else Ok (sizeof_long cf, fmt)
    else Ok (sizeof_long cf, fmt)
  else if (c =? 116) || (c =? 122) then let! fmt := padd cf m fmt 1 in Ok (c_ptrbytes cf, fmt)
  else Ok (4, fmt).

(** prnf.c:531-589 the type; f, F, e and E are types only with PRNF_SUPPORT_FLOAT (555-565) *)
Definition type_of_b (c : Z) : ptype :=
  if (c =? 100) || (c =? 105) then TYPE_INT
  else if c =? 111 then TYPE_BIN
  else if c =? 117 then TYPE_UINT
  else if (c =? 120) || (c =? 88) then TYPE_HEX
  else if b_float bd && ((c =? 102) || (c =? 70)) then TYPE_FLOAT
  else if b_float bd && ((c =? 101) || (c =? 69)) then TYPE_ENG
  else if (c =? 83) || (c =? 115) then TYPE_STR
  else if c =? 99 then TYPE_CHAR
  else TYPE_NONE.

(** prnf.c:443-594 parse_placeholder *)
Definition parse_placeholder_b (fuel : nat) (m : mem) (fmt : ptr) : outcome (placeholder * ptr) :=
  let! (minus, zero, sign, fmt) := parse_flags cf fuel m fmt false false 0 in
  let! c := load_byte m fmt in
  let! (wdyn, width, fmt) :=
    if c =? 42 then let! fmt := padd cf m fmt 1 in Ok (true, 0, fmt)
    else let! (w, fmt) := prnf_atoi cf fuel m fmt 0 in Ok (false, w, fmt) in
  let! c := load_byte m fmt in
  let! (pspec, pdyn, prec, fmt) :=
    if c =? 46 then
      let! fmt := padd cf m fmt 1 in
      let! c := load_byte m fmt in
      if c =? 42 then let! fmt := padd cf m fmt 1 in Ok (true, true, 0, fmt)
      else let! (p, fmt) := prnf_atoi cf fuel m fmt 0 in Ok (true, false, p, fmt)
    else Ok (false, false, 0, fmt) in
  let! (size, fmt) := parse_size_b m fmt in
  let! c := load_byte m fmt in
  let! fmt := padd cf m fmt 1 in
  Ok (Ph minus zero sign pspec width prec pdyn wdyn size (type_of_b c), fmt).

(** prnf.c:398-440 core_prnf; \v is special only with PRNF_COL_ALIGNMENT (421-428).
    out_char keeps the column in any case here (prnf.c:1176-1181 only with
    PRNF_COL_ALIGNMENT): nothing but print_col_alignment reads it. *)
Fixpoint core_loop_b (fuel limit : nat) (o : out W) (fmt : ptr) (va : list (arg (dbl A))) : outcome (out W) :=
  match fuel with
  | O => Fuel
  | S f =>
      let m := rd (o_st W o) in
      let! c := load_byte m fmt in
      if c =? 0 then Ok o
      else if c =? 37 then
        let! fmt := padd cf m fmt 1 in
        let! c := load_byte m fmt in
        if c =? 37 then
          let! o := out_char cf W rd wr o 37 in
          let! fmt := padd cf (rd (o_st W o)) fmt 1 in
          core_loop_b f limit o fmt va
        else
          let! (ph, fmt) := parse_placeholder_b limit m fmt in
          let! (ph, v, va) := read_varg cf A ph va in
          let! o := print_placeholder cf A W rd wr o v ph in
          core_loop_b f limit o fmt va
      else if b_col bd && (c =? 11) then
        let! fmt := padd cf m fmt 1 in
        let! (o, fmt) := print_col_alignment cf W rd wr limit o fmt in
        core_loop_b f limit o fmt va
      else
        let! o := out_char cf W rd wr o c in
        let! fmt := padd cf (rd (o_st W o)) fmt 1 in
        core_loop_b f limit o fmt va
  end.
(** prnf.c:398-440 core_prnf.  Loops over the format string are bounded by the size of the
    object it lies in. *)
Definition core_prnf_b (o : out W) (fmt : ptr) (va : list (arg (dbl A))) : outcome (Z * out W) :=
  let! blk := access (rd (o_st W o)) (p_obj fmt) in
  let limit := S (Z.to_nat (b_size blk)) in
  let! o := core_loop_b limit limit o fmt va in
  let! o := out_terminate W rd wr o in
  Ok (o_cnt W o, o).

(** prnf.c:325-329 vfptrprnf (and 296-305 fptrprnf, 307-311 vprnf, 241-250 prnf) *)
Definition vfptrprnf_b (fn : option (W -> Z -> outcome W)) (s : W) (fmt : ptr) (va : list (arg (dbl A))) : outcome (Z * W) :=
  let! (n, o) := core_prnf_b (Out W 0 0 0 null fn s) fmt va in Ok (n, o_st W o).
(** prnf.c:319-323 vsnprnf (and 263-272 snprnf); size_t is converted to int *)
Definition vsnprnf_b (s : W) (dst : ptr) (dst_size : Z) (fmt : ptr) (va : list (arg (dbl A))) : outcome (Z * W) :=
  let! (n, o) := core_prnf_b (Out W 0 0 (to_int dst_size) dst None s) fmt va in Ok (n, o_st W o).
(** prnf.c:313-317 vsprnf (and 252-261 sprnf) *)
Definition vsprnf_b (s : W) (dst : ptr) (fmt : ptr) (va : list (arg (dbl A))) : outcome (Z * W) :=
  let! (n, o) := core_prnf_b (Out W 0 0 INT_MAX dst None s) fmt va in Ok (n, o_st W o).
End Conf.
