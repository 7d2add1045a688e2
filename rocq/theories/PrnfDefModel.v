(** Model of the text formatter prnf (/repo/test/prnf.c) for other values of
    PRNF_FLOAT_PREC_DEFAULT and PRNF_ENG_PREC_DEFAULT (prnf_conf.h:10-15).  The other switches are
    as shipped.  What the two values do not touch is shared with PrnfModel. *)
From Verif Require Import Base Mem Libc StrviewModel PrnfModel.

(** prnf_conf.h:11 and 15: the default precision of %e and of %f *)
Record defaults : Type := Defaults { d_eng : Z; d_flt : Z }.
(** prnf_conf.h:11 and 15 as shipped *)
Definition as_shipped : defaults := Defaults 0 3.

Section Def.
Variable cf : cfg.
Variable A : fops.
Variable W : Type.
Variable rd : W -> mem.
Variable wr : W -> mem -> W.
Variable df : defaults.
Notation out := (out W).
Notation out_char := (out_char cf W rd wr).
Notation prepad := (prepad cf W rd wr).
Notation postpad := (postpad cf W rd wr).

(** prnf.c:1097-1115 get_prec: the default is converted to uint_least8_t as well *)
Definition get_prec_d (ph : placeholder) : Z :=
  let prec := (if ph_pspec ph then ph_prec ph
               else match ph_type ph with TYPE_ENG => d_eng df | _ => d_flt df end) mod 256 in
  if 19 <? prec then 19 else prec.

(** prnf.c:761-788 determine_float_msg: NAN, INF, OVER or none *)
Definition determine_float_msg_d (ph : placeholder) (v : fl A) : option (list Z) :=
  let v := if f_lt A v (f_int A 0) then f_neg A v else v in
  if negb (f_eq A v v) then Some [78; 65; 78]
  else if f_lt A (f_max A) v then Some [73; 78; 70]
  else
    let v := f_mul A v (f_pow10 A (get_prec_d ph)) in
    if f_lt A (f_int A ULLONG_MAX) v || f_eq A (f_int A ULLONG_MAX) v then Some [79; 86; 69; 82] else None.

(** prnf.c:790-852 print_float_normal; postpend = 0 means none *)
Definition print_float_normal_d (o : out) (ph : placeholder) (v : fl A) (postpend : Z) : outcome out :=
  let sign_char := determine_sign_char_of_float A ph v in
  let prec := get_prec_d ph in
  let v := if f_lt A v (f_int A 0) then f_neg A v else v in
  let! uvalue := round_float_to_ulong A (f_mul A v (f_pow10 A prec)) in
  let! txt := ulong2asc_rev uvalue in
  let! txt := zero_fill 64 txt prec in
  let number_len := Zlen txt in
  let '(number_len, radix_pos) := if prec =? 0 then (number_len, 255) else (number_len + 1, (number_len + 1 - prec - 1) mod 256) in
  let number_len := if sign_char =? 0 then number_len else number_len + 1 in
  let post := negb (postpend =? 0) && negb (uvalue =? 0) in
  let number_len := (if post then number_len + 1 else number_len) mod 256 in
  let! o := prepad o ph number_len in
  let! o := if sign_char =? 0 then Ok o else out_char o sign_char in
  let! o := float_loop cf W rd wr o radix_pos (rev txt) in
  let! o := if post then out_char o postpend else Ok o in
  postpad o ph number_len.

(** prnf.c:749-758 print_float *)
Definition print_float_d (o : out) (ph : placeholder) (v : fl A) (postpend : Z) : outcome out :=
  match determine_float_msg_d ph v with
  | Some msg => print_float_special cf A W rd wr o ph msg v
  | None => print_float_normal_d o ph v postpend
  end.

(** prnf.c:596-638 print_placeholder *)
Definition print_placeholder_d (o : out) (v : varg A) (ph : placeholder) : outcome out :=
  match ph_type ph, v with
  | TYPE_FLOAT, VFlt _ x => print_float_d o ph x 0
  | TYPE_ENG, VFlt _ x => let (x, prefix) := get_eng A x in print_float_d o ph x prefix
  | _, _ => print_placeholder cf A W rd wr o v ph
  end.

(** prnf.c:398-440 core_prnf *)
Fixpoint core_loop_d (fuel limit : nat) (o : out) (fmt : ptr) (va : list (arg (dbl A))) : outcome out :=
  match fuel with
  | O => Fuel
  | S f =>
      let m := rd (o_st W o) in
      let! c := load_byte m fmt in
      if c =? 0 then Ok o
      else if c =? 37 then
        let! fmt := padd cf m fmt 1 in
        let! c := load_byte m fmt in
        if c =? 37 then
          let! o := out_char o 37 in
          let! fmt := padd cf (rd (o_st W o)) fmt 1 in
          core_loop_d f limit o fmt va
        else
          let! (ph, fmt) := parse_placeholder cf limit m fmt in
          let! (ph, v, va) := read_varg cf A ph va in
          let! o := print_placeholder_d o v ph in
          core_loop_d f limit o fmt va
      else if c =? 11 then
        let! fmt := padd cf m fmt 1 in
        let! (o, fmt) := print_col_alignment cf W rd wr limit o fmt in
        core_loop_d f limit o fmt va
      else
        let! o := out_char o c in
        let! fmt := padd cf (rd (o_st W o)) fmt 1 in
        core_loop_d f limit o fmt va
  end.
(** prnf.c:398-440 core_prnf.  Loops over the format string are bounded by the size of the
    object it lies in. *)
Definition core_prnf_d (o : out) (fmt : ptr) (va : list (arg (dbl A))) : outcome (Z * out) :=
  let! blk := access (rd (o_st W o)) (p_obj fmt) in
  let limit := S (Z.to_nat (b_size blk)) in
  let! o := core_loop_d limit limit o fmt va in
  let! o := out_terminate W rd wr o in
  Ok (o_cnt W o, o).

(** prnf.c:325-329 vfptrprnf (and 296-305 fptrprnf, 307-311 vprnf, 241-250 prnf) *)
Definition vfptrprnf_d (fn : option (W -> Z -> outcome W)) (s : W) (fmt : ptr) (va : list (arg (dbl A))) : outcome (Z * W) :=
  let! (n, o) := core_prnf_d (Out W 0 0 0 null fn s) fmt va in Ok (n, o_st W o).
(** prnf.c:319-323 vsnprnf (and 263-272 snprnf); size_t is converted to int *)
Definition vsnprnf_d (s : W) (dst : ptr) (dst_size : Z) (fmt : ptr) (va : list (arg (dbl A))) : outcome (Z * W) :=
  let! (n, o) := core_prnf_d (Out W 0 0 (to_int dst_size) dst None s) fmt va in Ok (n, o_st W o).
(** prnf.c:313-317 vsprnf (and 252-261 sprnf) *)
Definition vsprnf_d (s : W) (dst : ptr) (fmt : ptr) (va : list (arg (dbl A))) : outcome (Z * W) :=
  let! (n, o) := core_prnf_d (Out W 0 0 INT_MAX dst None s) fmt va in Ok (n, o_st W o).
End Def.
