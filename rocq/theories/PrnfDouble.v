(** prnf configured with PRNF_SUPPORT_DOUBLE: prnf_float_t is double (prnf.c:34-41).  The rest of prnf is the same code, so
    only the operations are replaced.  And which number a text printed by %f then stands for. *)
From Coq Require Import ZArith Reals.
From Flocq Require Import Core BinarySingleNaN.
From Verif Require Import Base Mem IeeeSpec PrnfModel PrnfSpec PrnfIeee.
Open Scope Z_scope.

Definition double_of (z e : Z) : b64 := binary_normalize 53 1024 p64 l64 mode_NE z e false.
(** (double)f *)
(** prnf.c:385: the conversion of a float argument to double by the call. *)
Definition widen (f : b32) : b64 :=
  match f with
  | B754_zero s => B754_zero s
  | B754_infinity s => B754_infinity s
  | B754_nan => B754_nan
  | B754_finite s m e _ => binary_normalize 53 1024 p64 l64 mode_NE (cond_Zopp s (Zpos m)) e s
  end.
(** (unsigned long long)x, undefined if the truncated value is out of range (ISO C 6.3.1.4) *)
Definition double_to_ulong (x : b64) : option Z :=
  if is_finite x && (0 <=? Btrunc x) && (Btrunc x <? 2 ^ 64) then Some (Btrunc x) else None.
(** prnf.c:179 pow10_tbl: the literals have the suffix F, they are rounded to float before they are stored as doubles;
    prnf.c:775 FLT_MAX is a float as well. *)
Definition dieee : fops :=
  Fops b64 b64 (fun d => d) Bltb Beqb Bopp (Bmult mode_NE) (Bdiv mode_NE) (Bminus mode_NE)
       (fun z => double_of z 0) (double_of 1 (-1)) (widen (float_of (2 ^ 24 - 1) 104)) (fun n => widen (float_of (10 ^ n) 0)) double_to_ulong.

(** ** Specification *)
Definition FLT_MAX : R := (bpow radix2 128 - bpow radix2 104)%R.
(** Relative error: one rounding to 53 bits up to ten decimals, where the powers of ten are exact; beyond also one to 24 bits. *)
Definition double_rel (p : Z) : R := if p <=? 10 then bpow radix2 (-53) else bpow radix2 (-23).
Definition double_error (p : Z) (x : R) : R := (/ 2 * / IZR (10 ^ p) + double_rel p * Rabs x + bpow radix2 (-1075))%R.
(** [r] is an acceptable reading of the number [d] with [p] decimals. *)
Definition double_reading (d : b64) (p : Z) (r : reading) : Prop :=
  match d with
  | B754_nan => r = RNan
  | B754_infinity s => r = RInf s
  | _ =>
      let x := B2R d in
      match r with
      | RNan => False
      | RInf neg => neg = Rlt_bool x 0 /\ (FLT_MAX < Rabs x)%R
      | ROver neg => neg = Rlt_bool x 0 /\ (Rabs x <= FLT_MAX)%R /\ (bpow radix2 64 * (1 - 2 * double_rel p) <= Rabs x * IZR (10 ^ p))%R
      | RNum neg n =>
          neg = Rlt_bool x 0 /\ 0 <= n < 2 ^ 64 /\ (Rabs x <= FLT_MAX)%R /\
          (Rabs (IZR n / IZR (10 ^ p) - Rabs x) <= double_error p x)%R
      end
  end.

(** In engineering notation the text is [n] / 10^[p] followed by the prefix for 1000^[k]; up to eight more roundings. *)
Definition double_eng_rel (p : Z) : R := (double_rel p + bpow radix2 (-49))%R.
Definition double_eng_error (p k : Z) (x : R) : R := (/ 2 * / IZR (10 ^ p) * powerRZ 1000 k + double_eng_rel p * Rabs x + bpow radix2 (-1075))%R.
(** [r] with the prefix for 1000^[k] is an acceptable reading of the number [d] with [p] decimals. *)
Definition double_eng_reading (d : b64) (p k : Z) (r : reading) : Prop :=
  match d with
  | B754_nan => r = RNan
  | B754_infinity s => r = RInf s
  | _ =>
      let x := B2R d in
      -8 <= k <= 8 /\
      match r with
      | RNan => False
      | RInf neg => neg = Rlt_bool x 0 /\ (FLT_MAX * powerRZ 1000 8 * (1 - bpow radix2 (-49)) <= Rabs x)%R
      | ROver neg =>
          neg = Rlt_bool x 0 /\ (bpow radix2 64 * (1 - 2 * double_eng_rel p) * powerRZ 1000 k <= Rabs x * IZR (10 ^ p))%R /\ (k = 8 \/ 16 <= p)
      | RNum neg n =>
          neg = Rlt_bool x 0 /\ 0 <= n < 2 ^ 64 /\
          (Rabs (IZR n / IZR (10 ^ p) * powerRZ 1000 k - Rabs x) <= double_eng_error p k x)%R /\
          (p <= 7 -> k < 8 -> n <= 1000 * 10 ^ p) /\ (p <= 10 -> -8 < k -> 10 ^ p <= n)
      end
  end.
