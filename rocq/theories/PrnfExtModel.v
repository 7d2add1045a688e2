(** Model of the text formatter prnf (/repo/test/prnf.c) with PRNF_SUPPORT_EXTENSIONS defined
    (prnf_conf.h:24-30, prnf.h:271-298): %n takes a string from the heap, prints it and frees
    it.  The other switches are as shipped.  What the switch does not touch is shared with
    PrnfModel.  TYPE_NSTR (prnf.c:77) is represented by TYPE_NONE, which no condition on the type
    treats differently (prnf.c:363-395, 997-999, 1030, 1039-1053, 1103), and the character n. *)
From Verif Require Import Base Mem Libc Alloc StrviewModel PrnfModel.

Section Ext.
Variable cf : cfg.
Variable A : fops.
Variable W : Type.
Variable rd : W -> mem.
Variable wr : W -> mem -> W.
(** prnf_conf.h:25-30 the allocator that prnf_free() belongs to *)
Variable heap : allocator.

(** prnf.c:635 prnf_free(varg.str), with the meaning of free() *)
Definition prnf_free (m : mem) (p : ptr) : outcome mem :=
  if is_null p then Ok m else let! (b, _) := owned m heap p in Ok (kill_at m b).

(** prnf.c:532 FMTRD(fmtstr): the character behind which parse_placeholder stopped, that is the type *)
Definition type_read (m : mem) (fmt : ptr) : outcome Z := load_byte m (Ptr (p_obj fmt) (p_ofs fmt - 1)).

(** prnf.c:632-636 in print_placeholder *)
Definition print_nstr (o : out W) (ph : placeholder) (p : ptr) : outcome (out W) :=
  let! o := print_str cf W rd wr o ph p in
  let! m := prnf_free (rd (o_st W o)) p in
  Ok (Out W (o_col W o) (o_cnt W o) (o_limit W o) (o_buf W o) (o_fn W o) (wr (o_st W o) m)).

(** prnf.c:398-440 core_prnf; the argument of %n is an int * (393-394).  Simplification: all
    pointers have one representation. *)
Fixpoint core_loop_n (fuel limit : nat) (o : out W) (fmt : ptr) (va : list (arg (dbl A))) : outcome (out W) :=
  match fuel with
  | O => Fuel
  | S f =>
      let m := rd (o_st W o) in
      let! c := load_byte m fmt in
      if c =? 0 then Ok o
      else if c =? 37 then
        let! fmt := padd cf m fmt 1 in
        let! c := load_byte m fmt in
        if c =? 37 then
          let! o := out_char cf W rd wr o 37 in
          let! fmt := padd cf (rd (o_st W o)) fmt 1 in
          core_loop_n f limit o fmt va
        else
          let! (ph, fmt) := parse_placeholder cf limit m fmt in
          let! t := type_read m fmt in
          let! (ph, v, va) := read_varg cf A ph va in
          if t =? 110
          then match va with
               | AP p :: va => let! o := print_nstr o ph p in core_loop_n f limit o fmt va
               | _ => UB UB_varg
               end
          else let! o := print_placeholder cf A W rd wr o v ph in
               core_loop_n f limit o fmt va
      else if c =? 11 then
        let! fmt := padd cf m fmt 1 in
        let! (o, fmt) := print_col_alignment cf W rd wr limit o fmt in
        core_loop_n f limit o fmt va
      else
        let! o := out_char cf W rd wr o c in
        let! fmt := padd cf (rd (o_st W o)) fmt 1 in
        core_loop_n f limit o fmt va
  end.
(** prnf.c:398-440 core_prnf.  Loops over the format string are bounded by the size of the
    object it lies in. *)
Definition core_prnf_n (o : out W) (fmt : ptr) (va : list (arg (dbl A))) : outcome (Z * out W) :=
  let! blk := access (rd (o_st W o)) (p_obj fmt) in
  let limit := S (Z.to_nat (b_size blk)) in
  let! o := core_loop_n limit limit o fmt va in
  let! o := out_terminate W rd wr o in
  Ok (o_cnt W o, o).

(** prnf.c:325-329 vfptrprnf (and 296-305 fptrprnf, 307-311 vprnf, 241-250 prnf) *)
Definition vfptrprnf_n (fn : option (W -> Z -> outcome W)) (s : W) (fmt : ptr) (va : list (arg (dbl A))) : outcome (Z * W) :=
  let! (n, o) := core_prnf_n (Out W 0 0 0 null fn s) fmt va in Ok (n, o_st W o).
(** prnf.c:319-323 vsnprnf (and 263-272 snprnf); size_t is converted to int *)
Definition vsnprnf_n (s : W) (dst : ptr) (dst_size : Z) (fmt : ptr) (va : list (arg (dbl A))) : outcome (Z * W) :=
  let! (n, o) := core_prnf_n (Out W 0 0 (to_int dst_size) dst None s) fmt va in Ok (n, o_st W o).
(** prnf.c:313-317 vsprnf (and 252-261 sprnf) *)
Definition vsprnf_n (s : W) (dst : ptr) (fmt : ptr) (va : list (arg (dbl A))) : outcome (Z * W) :=
  let! (n, o) := core_prnf_n (Out W 0 0 INT_MAX dst None s) fmt va in Ok (n, o_st W o).
End Ext.
