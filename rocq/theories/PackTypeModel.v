(** Model of the type selection of accessories/xendian.h and of the macros of strbuf_pack.h and strview_unpack.h for
    arguments of any arithmetic type.  None is a program that does not compile. *)
From Verif Require Import Base Mem Libc StrviewModel Alloc StrbufModel MacroModel PackModel.
Local Open Scope Z_scope.

(** The platform: which types stdint.h names int8_t, int16_t, int32_t and int64_t, and the size of long double. *)
(** The types named at xendian.h:63-70. *)
Record plat : Type := Plat { p_8 : dtype; p_16 : dtype; p_32 : dtype; p_64 : dtype; p_ldouble : nat }.
(** uintN_t is the unsigned type that corresponds to intN_t (C11 7.20.1p1). *)
(** xendian.h:63, 65, 67, 69. *)
Definition unsigned_of (t : dtype) : dtype :=
  match t with DSchar => DUchar | DShort => DUshort | DInt => DUint | DLong => DUlong | DLlong => DUllong | _ => t end.

Section Cfg.
Variable cf : cfg.
Variable P : plat.

(** Size and signedness of the integer types; bool is one byte. *)
(** typeof(src) at strbuf_pack.h:19, 22; dst at strview_unpack.h:19-33. *)
Definition int_rep (t : dtype) : option ity :=
  match t with
  | DUchar | DBool => Some (Ity false W8)
  | DSchar => Some (Ity true W8)
  | DChar => Some (Ity (c_char_signed cf) W8)
  | DUshort => Some (Ity false W16) | DShort => Some (Ity true W16)
  | DUint => Some (Ity false W32) | DInt => Some (Ity true W32)
  | DUlong => Some (Ity false (if c_long64 cf then W64 else W32)) | DLong => Some (Ity true (if c_long64 cf then W64 else W32))
  | DUllong => Some (Ity false W64) | DLlong => Some (Ity true W64)
  | DFloat | DDouble | DLdouble => None
  end.
(** sizeof *)
(** strbuf_pack.h:19, 22 sizeof(tmp), strview_unpack.h:22, 24, 30, 32 sizeof(dst). *)
Definition size_of (t : dtype) : nat :=
  match int_rep t with
  | Some it => i_bytes it
  | None => match t with DFloat => 4 | DDouble => 8 | _ => p_ldouble P end
  end.

(** xendian.h:61-70 xendian_SWAP: the associations in their order *)
Definition swap_assocs : list (dtype * (Z -> Z)) :=
  [(unsigned_of (p_8 P), fun a => a);
   (p_8 P, fun a => a);
   (unsigned_of (p_16 P), fun a => conv (Ity false W16) (xendian_swap16 cf (conv s16 a)));
   (p_16 P, fun a => xendian_swap16 cf (conv s16 a));
   (unsigned_of (p_32 P), fun a => conv (Ity false W32) (xendian_swap32 cf (conv s32 a)));
   (p_32 P, fun a => xendian_swap32 cf (conv s32 a));
   (unsigned_of (p_64 P), fun a => conv (Ity false W64) (xendian_swap64 cf (conv s64 a)));
   (p_64 P, fun a => xendian_swap64 cf (conv s64 a))].
(** No two associations may have the same type (C11 6.5.1.1p2). *)
(** Constraint on xendian.h:62-70. *)
Fixpoint types_distinct {F} (l : list (dtype * F)) : bool :=
  match l with [] => true | (t, _) :: r => negb (existsb (fun x => dtype_eqb t (fst x)) r) && types_distinct r end.
(** xendian.h:61-70 xendian_SWAP: the function selected *)
Definition swap_of (t : dtype) : option (Z -> Z) :=
  if types_distinct swap_assocs then generic_select t swap_assocs else None.

(** What a macro does to its argument: xendian.h:76-88, the argument itself or a selection *)
Inductive how : Type := AsIs | Swap (f : Z -> Z).
(** xendian.h:80-81, 85-86: xendian_SWAP(a) *)
Definition swapped (t : dtype) : option how := match swap_of t with Some f => Some (Swap f) | None => None end.
(** xendian_pack_LE, xendian_pack_BE *)
(** xendian.h:78, 80, 85, 87. *)
Definition pack_how (o : order) (t : dtype) : option how :=
  match o, c_big_endian cf with LE, false => Some AsIs | BE, false => swapped t | LE, true => swapped t | BE, true => Some AsIs end.
(** xendian_unpack_LE, xendian_unpack_BE *)
(** xendian.h:79, 81, 86, 88. *)
Definition unpack_how (o : order) (t : dtype) : option how :=
  match o, c_big_endian cf with LE, false => Some AsIs | BE, false => swapped t | LE, true => swapped t | BE, true => Some AsIs end.

(** A value: an integer, or the object representation of a floating point number. *)
(** src of strbuf_pack.h:19, 22. *)
Inductive value : Type := VInt (x : Z) | VRep (l : list Z).
(** The bytes of a variable initialised with the value. *)
(** strbuf_pack.h:19, 22: typeof(src) tmp = xendian_pack_LE(src). *)
Definition stored (t : dtype) (h : how) (v : value) : option (list Z) :=
  match v, int_rep t, h with
  | VInt x, Some it, AsIs => Some (to_bytes cf (i_bytes it) (conv it x))
  | VInt x, Some it, Swap f => Some (to_bytes cf (i_bytes it) (conv it (f x)))
  | VRep l, None, AsIs => Some l
  | _, _, _ => None
  end.
(** A view of a local variable with the bytes [l] is appended. *)
(** strbuf_pack.h:19, 22: strbuf_append_strview((dst), ...). *)
Definition append_local (w : st) (dst : option ptr) (base : Z) (l : list Z) : outcome (option ptr * st) :=
  let (q, w1) := push_local cf w base l in
  let! (_, dst', w2) := strbuf_append_strview cf w1 dst (View q (Zlen l)) in
  Ok (dst', pop_local w2 q).
(** strbuf_pack.h:19 STRBUF_PACK_LE and strbuf_pack.h:22 STRBUF_PACK_BE with an argument src of type [t].  If src mentions a
    variable called tmp ([src_tmp]) the initialiser refers to the variable of the macro, which is not initialised yet
    (C11 6.2.1p7); if dst does, that variable, which is no pointer, is passed as a pointer. *)
Definition pack_macro (o : order) (w : st) (dst : option ptr) (dst_tmp : bool) (base : Z) (t : dtype) (src : value) (src_tmp : bool) :
  option (outcome (option ptr * st)) :=
  match pack_how o t with
  | None => None
  | Some h =>
      if dst_tmp then None
      else if src_tmp then Some (UB UB_uninit)
      else match stored t h src with Some l => Some (append_local w dst base l) | None => None end
  end.

(** strview_unpack.h:19-33 STRVIEW_UNPACK_LE, STRVIEW_UNPACK_BE with a variable dst of type [t]: dst and view afterwards.
    Simplification: dst is a variable outside of the modelled memory. *)
Definition unpack_macro (o : order) (m : mem) (t : dtype) (v : view) : option (outcome (value * view)) :=
  match unpack_how o t with
  | None => None
  | Some h =>
      Some (let! l := load_bytes m (v_data v) (size_of t) in
            let! v' := strview_sub cf m v (Z.of_nat (size_of t)) INT_MAX in
            Ok (match int_rep t, h with
                | Some it, AsIs => VInt (conv it (of_bytes cf it l))
                | Some it, Swap f => VInt (conv it (f (of_bytes cf it l)))
                | None, _ => VRep l
                end, v'))
  end.
End Cfg.
