(** Model of the text formatter prnf (/repo/test/prnf.c) with a PRNF_ASSERT() that returns
    (prnf_conf.h:39-45, for example a function that counts or reports failures).  The handler is
    simplified to a count of its calls with a false argument: it does not change anything prnf
    works on.  The other switches are as shipped, so that the assertion in prnf.c:514 is not
    compiled; what an assertion does not touch is shared with PrnfModel. *)
From Verif Require Import Base Mem Libc StrviewModel PrnfModel PrnfAssertModel.

Section Return.
Variable cf : cfg.
Variable A : fops.
Variable W : Type.
Variable rd : W -> mem.
Variable wr : W -> mem -> W.

(** prnf.c:529-531: L and j are not skipped, so that they are met again as a type *)
Definition size_calls (c : Z) : Z := if (c =? 76) || (c =? 106) then 1 else 0.
(** prnf.c:586-588 a character that names no type *)
Definition type_calls (c : Z) : Z := match type_of c with TYPE_NONE => 1 | _ => 0 end.
(** prnf.c:443-594 parse_placeholder, and the number of calls of the handler *)
Definition parse_placeholder_r (fuel : nat) (m : mem) (fmt : ptr) : outcome (placeholder * ptr * Z) :=
  let! (minus, zero, sign, fmt) := parse_flags cf fuel m fmt false false 0 in
  let! c := load_byte m fmt in
  let! (wdyn, width, fmt) :=
    if c =? 42 then let! fmt := padd cf m fmt 1 in Ok (true, 0, fmt)
    else let! (w, fmt) := prnf_atoi cf fuel m fmt 0 in Ok (false, w, fmt) in
  let! c := load_byte m fmt in
  let! (pspec, pdyn, prec, fmt) :=
    if c =? 46 then
      let! fmt := padd cf m fmt 1 in
      let! c := load_byte m fmt in
      if c =? 42 then let! fmt := padd cf m fmt 1 in Ok (true, true, 0, fmt)
      else let! (p, fmt) := prnf_atoi cf fuel m fmt 0 in Ok (true, false, p, fmt)
    else Ok (false, false, 0, fmt) in
  let! c := load_byte m fmt in
  let k := size_calls c in
  let! (size, fmt) := parse_size cf m fmt in
  let! c := load_byte m fmt in
  let k := k + type_calls c in
  let! fmt := padd cf m fmt 1 in
  Ok (Ph minus zero sign pspec width prec pdyn wdyn size (type_of c), fmt, k).

(** prnf.c:1108-1112 get_prec, called by determine_float_msg (prnf.c:779) unless the number is
    special, and by print_float_normal (prnf.c:803) unless it is too large *)
Definition prec_calls (ph : placeholder) (v : fl A) : Z :=
  if prec_asserts A ph v then match determine_float_msg A ph v with Some _ => 1 | None => 2 end else 0.
(** prnf.c:612-619 the calls of print_float in print_placeholder *)
Definition print_calls (v : varg A) (ph : placeholder) : Z :=
  match ph_type ph, v with
  | TYPE_FLOAT, VFlt _ x => prec_calls ph x
  | TYPE_ENG, VFlt _ x => prec_calls ph (fst (get_eng A x))
  | _, _ => 0
  end.

(** prnf.c:398-440 core_prnf; [n] counts the calls of the handler *)
Fixpoint core_loop_r (fuel limit : nat) (n : Z) (o : out W) (fmt : ptr) (va : list (arg (dbl A))) : outcome (Z * out W) :=
  match fuel with
  | O => Fuel
  | S f =>
      let m := rd (o_st W o) in
      let! c := load_byte m fmt in
      if c =? 0 then Ok (n, o)
      else if c =? 37 then
        let! fmt := padd cf m fmt 1 in
        let! c := load_byte m fmt in
        if c =? 37 then
          let! o := out_char cf W rd wr o 37 in
          let! fmt := padd cf (rd (o_st W o)) fmt 1 in
          core_loop_r f limit n o fmt va
        else
          let! (ph, fmt, k) := parse_placeholder_r limit m fmt in
          let! (ph, v, va) := read_varg cf A ph va in
          let! o := print_placeholder cf A W rd wr o v ph in
          core_loop_r f limit (n + k + print_calls v ph) o fmt va
      else if c =? 11 then
        let! fmt := padd cf m fmt 1 in
        let! (o, fmt) := print_col_alignment cf W rd wr limit o fmt in
        core_loop_r f limit n o fmt va
      else
        let! o := out_char cf W rd wr o c in
        let! fmt := padd cf (rd (o_st W o)) fmt 1 in
        core_loop_r f limit n o fmt va
  end.
(** prnf.c:398-440 core_prnf.  Loops over the format string are bounded by the size of the
    object it lies in.  The results are the return value, the number of calls and the state. *)
Definition core_prnf_r (o : out W) (fmt : ptr) (va : list (arg (dbl A))) : outcome (Z * Z * out W) :=
  let! blk := access (rd (o_st W o)) (p_obj fmt) in
  let limit := S (Z.to_nat (b_size blk)) in
  let! (n, o) := core_loop_r limit limit 0 o fmt va in
  let! o := out_terminate W rd wr o in
  Ok (o_cnt W o, n, o).

(** prnf.c:325-329 vfptrprnf (and 296-305 fptrprnf, 307-311 vprnf, 241-250 prnf) *)
Definition vfptrprnf_r (fn : option (W -> Z -> outcome W)) (s : W) (fmt : ptr) (va : list (arg (dbl A))) : outcome (Z * Z * W) :=
  let! (k, n, o) := core_prnf_r (Out W 0 0 0 null fn s) fmt va in Ok (k, n, o_st W o).
(** prnf.c:319-323 vsnprnf (and 263-272 snprnf); size_t is converted to int *)
Definition vsnprnf_r (s : W) (dst : ptr) (dst_size : Z) (fmt : ptr) (va : list (arg (dbl A))) : outcome (Z * Z * W) :=
  let! (k, n, o) := core_prnf_r (Out W 0 0 (to_int dst_size) dst None s) fmt va in Ok (k, n, o_st W o).
(** prnf.c:313-317 vsprnf (and 252-261 sprnf) *)
Definition vsprnf_r (s : W) (dst : ptr) (fmt : ptr) (va : list (arg (dbl A))) : outcome (Z * Z * W) :=
  let! (k, n, o) := core_prnf_r (Out W 0 0 INT_MAX dst None s) fmt va in Ok (k, n, o_st W o).
End Return.
