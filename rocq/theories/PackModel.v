(** Model of accessories/strbuf_pack.h, strview_unpack.h and xendian.h: packing integers into
    a buffer and unpacking them from a view. *)
From Verif Require Import Base Mem Libc StrviewModel Alloc StrbufModel.

(** stdint.h exact width integer types: the types accepted by the _Generic selection
    xendian.h:61-70 xendian_SWAP *)
Inductive width : Type := W8 | W16 | W32 | W64.
(** The types of xendian.h:63-70: signedness and width. *)
Record ity : Type := Ity { i_signed : bool; i_width : width }.
(** xendian.h:63-70: widths in bytes. *)
Definition bytes_of (w : width) : nat := match w with W8 => 1 | W16 => 2 | W32 => 4 | W64 => 8 end.
(** sizeof *)
(** Used at strbuf_pack.h:19, 22 and strview_unpack.h:22, 24, 30, 32. *)
Definition i_bytes (t : ity) : nat := bytes_of (i_width t).
(** The suffixes _LE and _BE of strbuf_pack.h:19, 22 and strview_unpack.h:19, 27. *)
Inductive order : Type := LE | BE.

Section Cfg.
Variable cf : cfg.

(** Conversion of an integer to the type [t] (modulo two to the width). *)
(** The casts of xendian.h:65, 67, 69 and the arguments of xendian.h:99-130. *)
Definition conv (t : ity) (x : Z) : Z :=
  let n := 2 ^ (8 * Z.of_nat (i_bytes t)) in
  let y := x mod n in
  if i_signed t && (n / 2 <=? y) then y - n else y.

(** Object representation of an [n] byte integer, two's complement, in host byte order. *)
(** Members of the unions at xendian.h:43-59. *)
Fixpoint le_repr (n : nat) (x : Z) : list Z :=
  match n with O => [] | S n' => x mod 256 :: le_repr n' (x / 256) end.
(** xendian.h:43-59: the bytes of a member, in host byte order *)
Definition to_bytes (n : nat) (x : Z) : list Z :=
  if c_big_endian cf then rev (le_repr n x) else le_repr n x.
(** The integer of type [t] with a given object representation. *)
(** Members of the unions at xendian.h:43-59. *)
Fixpoint le_value (l : list Z) : Z :=
  match l with [] => 0 | b :: t => b + 256 * le_value t end.
(** xendian.h:43-59: the value of a member, in host byte order *)
Definition of_bytes (t : ity) (l : list Z) : Z :=
  conv t (le_value (if c_big_endian cf then rev l else l)).

(** int16_t (xendian.h:46, 51) *)
Definition s16 : ity := Ity true W16.
(** int32_t (xendian.h:52, 57) *)
Definition s32 : ity := Ity true W32.
(** int64_t (xendian.h:58) *)
Definition s64 : ity := Ity true W64.

(** xendian.h:99-107 xendian_swap16: the members of a union share their bytes *)
Definition xendian_swap16 (x : Z) : Z :=
  let inb := to_bytes 2 x in
  of_bytes s16 [nth 1 inb 0; nth 0 inb 0].

(** xendian.h:109-117 xendian_swap32: word16[0] is the first two bytes *)
Definition xendian_swap32 (x : Z) : Z :=
  let inb := to_bytes 4 x in
  let in0 := of_bytes s16 (firstn 2 inb) in
  let in1 := of_bytes s16 (skipn 2 inb) in
  of_bytes s32 (to_bytes 2 (xendian_swap16 in1) ++ to_bytes 2 (xendian_swap16 in0)).

(** xendian.h:119-127 xendian_swap64 *)
Definition xendian_swap64 (x : Z) : Z :=
  let inb := to_bytes 8 x in
  let in0 := of_bytes s32 (firstn 4 inb) in
  let in1 := of_bytes s32 (skipn 4 inb) in
  of_bytes s64 (to_bytes 4 (xendian_swap32 in1) ++ to_bytes 4 (xendian_swap32 in0)).

(** xendian.h:61-70 xendian_SWAP: arguments are converted to the signed parameter type,
    results back to the type of the argument *)
Definition xendian_SWAP (t : ity) (x : Z) : Z :=
  match i_width t with
  | W8 => x
  | W16 => conv t (xendian_swap16 (conv s16 x))
  | W32 => conv t (xendian_swap32 (conv s32 x))
  | W64 => conv t (xendian_swap64 (conv s64 x))
  end.

(** xendian.h:76-88 xendian_pack_LE, xendian_pack_BE, by host byte order *)
Definition xendian_pack (o : order) (t : ity) (x : Z) : Z :=
  match o, c_big_endian cf with
  | LE, false => x
  | BE, false => xendian_SWAP t x
  | LE, true => xendian_SWAP t x
  | BE, true => x
  end.

(** xendian.h:76-88 xendian_unpack_LE, xendian_unpack_BE *)
Definition xendian_unpack (o : order) (t : ity) (x : Z) : Z :=
  match o, c_big_endian cf with
  | LE, false => x
  | BE, false => xendian_SWAP t x
  | LE, true => xendian_SWAP t x
  | BE, true => x
  end.

(** A local variable with the given bytes: a new object, at an address chosen by the
    compiler, disjoint from all others. *)
(** strbuf_pack.h:19 and 22: typeof(src) tmp. *)
Definition push_local (w : st) (base : Z) (l : list Z) : ptr * st :=
  let m := s_mem w in
  (Ptr (PBlk (length m)) 0,
   with_mem w (m ++ [Block (place cf m (Choice false false base) (Zlen l)) (Zlen l) true Static
                           (fun i => CByte (nth (Z.to_nat i) l 0))])).
(** The end of the life of local variable [p]: its object is removed, or left dead if other
    objects were created after it. *)
(** strbuf_pack.h:19 and 22: the end of the block of do ... while(0). *)
Definition pop_local (w : st) (p : ptr) : st :=
  match p_obj p with
  | PBlk b => with_mem w (if (S b =? length (s_mem w))%nat then firstn b (s_mem w) else kill_at (s_mem w) b)
  | _ => w
  end.

(** strbuf_pack.h:19 STRBUF_PACK_LE and strbuf_pack.h:22 STRBUF_PACK_BE: *dst and state.
    Simplification: the name capture of the macro (a src or dst expression that mentions a
    variable called tmp) is not modelled. *)
Definition STRBUF_PACK (o : order) (w : st) (dst : option ptr) (base : Z) (t : ity) (src : Z) : outcome (option ptr * st) :=
  let tmp := conv t (xendian_pack o t src) in
  let (q, w1) := push_local w base (to_bytes (i_bytes t) tmp) in
  let! (_, dst', w2) := strbuf_append_strview cf w1 dst (View q (Z.of_nat (i_bytes t))) in
  Ok (dst', pop_local w2 q).

(** strview_unpack.h:19-33 STRVIEW_UNPACK_LE, STRVIEW_UNPACK_BE: dst and view afterwards.
    Simplification: dst is a variable outside of the modelled memory. *)
Definition STRVIEW_UNPACK (o : order) (m : mem) (t : ity) (v : view) : outcome (Z * view) :=
  let! l := load_bytes m (v_data v) (i_bytes t) in
  let dst := of_bytes t l in
  let dst' := conv t (xendian_unpack o t dst) in
  let! v' := strview_sub cf m v (Z.of_nat (i_bytes t)) INT_MAX in
  Ok (dst', v').

End Cfg.
