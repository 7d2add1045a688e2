(** Specification of the types that can be packed and unpacked. *)
From Verif Require Import Base Mem StrviewModel Spec Alloc StrbufModel BufSpec MacroModel PackModel PackSpec PackTypeModel.

(** The types that stdint.h can choose: signed integer types of the right size.  short has 16, int 32, long 32 or 64 and
    long long 64 bits. *)
Definition plat_ok (cf : cfg) (P : plat) : Prop :=
  p_8 P = DSchar /\ p_16 P = DShort /\ (p_32 P = DInt \/ p_32 P = DLong /\ c_long64 cf = false) /\
  (p_64 P = DLlong \/ p_64 P = DLong /\ c_long64 cf = true) /\ (0 < p_ldouble P)%nat.
(** The types with a name in stdint.h. *)
Definition exact_width (P : plat) (t : dtype) (it : ity) : Prop :=
  (t, it) = (p_8 P, Ity true W8) \/ (t, it) = (unsigned_of (p_8 P), Ity false W8) \/
  (t, it) = (p_16 P, Ity true W16) \/ (t, it) = (unsigned_of (p_16 P), Ity false W16) \/
  (t, it) = (p_32 P, Ity true W32) \/ (t, it) = (unsigned_of (p_32 P), Ity false W32) \/
  (t, it) = (p_64 P, Ity true W64) \/ (t, it) = (unsigned_of (p_64 P), Ity false W64).
(** The byte order of the host. *)
Definition host (cf : cfg) : order := if c_big_endian cf then BE else LE.
(** Values an object of the type can have. *)
Definition value_of (cf : cfg) (P : plat) (t : dtype) (v : value) : Prop :=
  match v, int_rep cf t with
  | VInt x, Some it => in_type it x
  | VRep l, None => Zlen l = Z.of_nat (size_of cf P t) /\ Forall is_byte l /\ Zlen l <= INT_MAX
  | _, _ => False
  end.
(** Its bytes in the stated order, those of the host for floating point numbers. *)
Definition wired (cf : cfg) (o : order) (t : dtype) (v : value) : list Z :=
  match v, int_rep cf t with
  | VInt x, Some it => wire o it x
  | VRep l, _ => l
  | VInt _, None => []
  end.

(** What is left of a view behind its first [n] bytes: nothing left is an invalid view. *)
Definition behind (m : mem) (v : view) (n : Z) (rest : list Z) (v' : view) : Prop :=
  (rest <> [] -> v' = subview v n (Zlen rest) /\ has_view m v' rest) /\ (rest = [] -> v' = INVALID).
(** The bytes [l] are appended to the contents of the buffer at [p]. *)
Definition appended (cf : cfg) (w : st) (p : ptr) (B : buffer) (l : list Z) (r : outcome (option ptr * st)) : Prop :=
  exists p' w', r = Ok (Some p', w') /\ buf_at cf (s_mem w') p' (put cf B (bf_data B ++ l)) /\
    touches cf (s_mem w) (s_mem w') p p' B /\ mem_wf (s_mem w') /\ no_fail w'.
