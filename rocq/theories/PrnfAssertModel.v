(** Model of the text formatter prnf (/repo/test/prnf.c) with a PRNF_ASSERT() that stops the
    program (prnf_conf.h:39-45, for example assert()).  The other switches are as shipped, so that
    the assertion in prnf.c:514 is not compiled.  What an assertion does not touch is shared with
    PrnfModel.  PRNF_WARN() (prnf.c:458-459) is defined as nothing, as shipped. *)
From Verif Require Import Base Mem Libc StrviewModel PrnfModel.

Section Assert.
Variable cf : cfg.
Variable A : fops.
Variable W : Type.
Variable rd : W -> mem.
Variable wr : W -> mem -> W.

(** prnf.c:531 and 587: PRNF_ASSERT(false) in parse_placeholder.  The characters L and j do not
    name a type either, hence 531 fails only where 587 would. *)
Definition no_type (ph : placeholder) : bool := match ph_type ph with TYPE_NONE => true | _ => false end.

(** prnf.c:1110: PRNF_ASSERT(false) in get_prec, first called in prnf.c:779 by determine_float_msg,
    before anything of the number is printed *)
Definition prec_asserts (ph : placeholder) (v : fl A) : bool :=
  let v := if f_lt A v (f_int A 0) then f_neg A v else v in
  let prec := if ph_pspec ph then ph_prec ph mod 256
              else match ph_type ph with TYPE_ENG => 0 | _ => 3 end in
  f_eq A v v && negb (f_lt A (f_max A) v) && (19 <? prec).

(** prnf.c:612-619 the calls of print_float in print_placeholder *)
Definition asserts (v : varg A) (ph : placeholder) : bool :=
  match ph_type ph, v with
  | TYPE_FLOAT, VFlt _ x => prec_asserts ph x
  | TYPE_ENG, VFlt _ x => prec_asserts ph (fst (get_eng A x))
  | _, _ => false
  end.

(** prnf.c:398-440 core_prnf; the result is false if an assertion stopped the program *)
Fixpoint core_loop_a (fuel limit : nat) (o : out W) (fmt : ptr) (va : list (arg (dbl A))) : outcome (bool * out W) :=
  match fuel with
  | O => Fuel
  | S f =>
      let m := rd (o_st W o) in
      let! c := load_byte m fmt in
      if c =? 0 then Ok (true, o)
      else if c =? 37 then
        let! fmt := padd cf m fmt 1 in
        let! c := load_byte m fmt in
        if c =? 37 then
          let! o := out_char cf W rd wr o 37 in
          let! fmt := padd cf (rd (o_st W o)) fmt 1 in
          core_loop_a f limit o fmt va
        else
          let! (ph, fmt) := parse_placeholder cf limit m fmt in
          if no_type ph then Ok (false, o) else
          let! (ph, v, va) := read_varg cf A ph va in
          if asserts v ph then Ok (false, o) else
          let! o := print_placeholder cf A W rd wr o v ph in
          core_loop_a f limit o fmt va
      else if c =? 11 then
        let! fmt := padd cf m fmt 1 in
        let! (o, fmt) := print_col_alignment cf W rd wr limit o fmt in
        core_loop_a f limit o fmt va
      else
        let! o := out_char cf W rd wr o c in
        let! fmt := padd cf (rd (o_st W o)) fmt 1 in
        core_loop_a f limit o fmt va
  end.
(** prnf.c:398-440 core_prnf.  Loops over the format string are bounded by the size of the
    object it lies in.  No count if an assertion stopped the program. *)
Definition core_prnf_a (o : out W) (fmt : ptr) (va : list (arg (dbl A))) : outcome (option Z * out W) :=
  let! blk := access (rd (o_st W o)) (p_obj fmt) in
  let limit := S (Z.to_nat (b_size blk)) in
  let! (fin, o) := core_loop_a limit limit o fmt va in
  if fin : bool
  then let! o := out_terminate W rd wr o in Ok (Some (o_cnt W o), o)
  else Ok (None, o).

(** prnf.c:325-329 vfptrprnf (and 296-305 fptrprnf, 307-311 vprnf, 241-250 prnf) *)
Definition vfptrprnf_a (fn : option (W -> Z -> outcome W)) (s : W) (fmt : ptr) (va : list (arg (dbl A))) : outcome (option Z * W) :=
  let! (n, o) := core_prnf_a (Out W 0 0 0 null fn s) fmt va in Ok (n, o_st W o).
(** prnf.c:319-323 vsnprnf (and 263-272 snprnf); size_t is converted to int *)
Definition vsnprnf_a (s : W) (dst : ptr) (dst_size : Z) (fmt : ptr) (va : list (arg (dbl A))) : outcome (option Z * W) :=
  let! (n, o) := core_prnf_a (Out W 0 0 (to_int dst_size) dst None s) fmt va in Ok (n, o_st W o).
(** prnf.c:313-317 vsprnf (and 252-261 sprnf) *)
Definition vsprnf_a (s : W) (dst : ptr) (fmt : ptr) (va : list (arg (dbl A))) : outcome (option Z * W) :=
  let! (n, o) := core_prnf_a (Out W 0 0 INT_MAX dst None s) fmt va in Ok (n, o_st W o).
End Assert.
