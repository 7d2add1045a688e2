(** IEEE-754 arithmetic (as formalised by Flocq) as an instance of the floating point
    operations of prnf, and which number a text printed by %f stands for. *)
From Coq Require Import ZArith Reals.
From Flocq Require Import Core BinarySingleNaN.
From Verif Require Import Base Mem IeeeSpec PrnfModel PrnfSpec.
Open Scope Z_scope.

(** prnf.c:34-41 float and double of gcc on x86-64, round to nearest even, no excess
    precision.  prnf.c:174-182 the literals of pow10_tbl are rounded correctly. *)
Definition float_of (z e : Z) : b32 := binary_normalize 24 128 p32 l32 mode_NE z e false.
(** prnf.c:385 (float)d *)
Definition narrow (d : b64) : b32 :=
  match d with
  | B754_zero s => B754_zero s
  | B754_infinity s => B754_infinity s
  | B754_nan => B754_nan
  | B754_finite s m e _ => binary_normalize 24 128 p32 l32 mode_NE (cond_Zopp s (Zpos m)) e s
  end.
(** prnf.c:1121 (unsigned long long)x, undefined if the truncated value is out of range (ISO C 6.3.1.4) *)
Definition to_ulong (x : b32) : option Z :=
  if is_finite x && (0 <=? Btrunc x) && (Btrunc x <? 2 ^ 64) then Some (Btrunc x) else None.
(** prnf.c:34-41, 174-182, 1117-1127 arithmetic of prnf_float_t as shipped *)
Definition ieee : fops :=
  Fops b32 b64 narrow Bltb Beqb Bopp (Bmult mode_NE) (Bdiv mode_NE) (Bminus mode_NE)
       (fun z => float_of z 0) (float_of 1 (-1)) (float_of (2 ^ 24 - 1) 104) (fun n => float_of (10 ^ n) 0) to_ulong.

(** ** Specification *)
(** Largest error of [n] / 10^[p] as a representation of [x]: half a unit of the last
    decimal, four roundings to 24 bits, and underflow. *)
Definition print_error (p : Z) (x : R) : R := (/ 2 * / IZR (10 ^ p) + bpow radix2 (-22) * Rabs x + bpow radix2 (-148))%R.
(** [r] is an acceptable reading of the number [d] with [p] decimals. *)
Definition float_reading (d : b64) (p : Z) (r : reading) : Prop :=
  match d with
  | B754_nan => r = RNan
  | B754_infinity s => r = RInf s
  | _ =>
      let x := B2R d in
      match r with
      | RNan => False
      | RInf neg => neg = Rlt_bool x 0 /\ (bpow radix2 128 * (1 - bpow radix2 (-24)) <= Rabs x)%R
      | ROver neg => neg = Rlt_bool x 0 /\ (bpow radix2 64 * (1 - bpow radix2 (-22)) <= Rabs x * IZR (10 ^ p))%R
      | RNum neg n =>
          0 <= n < 2 ^ 64 /\ (Rabs (IZR n / IZR (10 ^ p) - Rabs x) <= print_error p x)%R /\
          (if neg then x < 0 else - bpow radix2 (-150) <= x)%R
      end
  end.

(** In engineering notation the text is [n] / 10^[p] followed by the prefix for 1000^[k]. *)
Definition si_prefix (k : Z) : list Z :=
  if k =? 0 then [] else [nth (Z.to_nat (k + 8)) [121; 122; 97; 102; 112; 110; 117; 109; 0; 107; 77; 71; 84; 80; 69; 90; 89] 0].
Definition eng_error (p k : Z) (x : R) : R :=
  (/ 2 * / IZR (10 ^ p) * powerRZ 1000 k + bpow radix2 (-20) * Rabs x + bpow radix2 (-148))%R.
(** [r] with the prefix for 1000^[k] is an acceptable reading of the number [d] with [p]
    decimals.  Between 1 and 1000 are shown if the prefixes reach that far. *)
Definition eng_reading (d : b64) (p k : Z) (r : reading) : Prop :=
  match d with
  | B754_nan => r = RNan
  | B754_infinity s => r = RInf s
  | _ =>
      let x := B2R d in
      -8 <= k <= 8 /\
      match r with
      | RNan => False
      | RInf neg => neg = Rlt_bool x 0 /\ (bpow radix2 128 * (1 - bpow radix2 (-24)) <= Rabs x)%R
      | ROver neg =>
          neg = Rlt_bool x 0 /\ (bpow radix2 64 * (1 - bpow radix2 (-20)) * powerRZ 1000 k <= Rabs x * IZR (10 ^ p))%R /\ (k = 8 \/ 16 <= p)
      | RNum neg n =>
          0 <= n < 2 ^ 64 /\ (Rabs (IZR n / IZR (10 ^ p) * powerRZ 1000 k - Rabs x) <= eng_error p k x)%R /\
          (if neg then x < 0 else - bpow radix2 (-150) <= x)%R /\
          (p <= 7 -> k < 8 -> n <= 1000 * 10 ^ p) /\ (p <= 10 -> -8 < k -> 10 ^ p <= n)
      end
  end.
