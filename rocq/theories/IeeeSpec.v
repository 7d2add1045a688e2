(** IEEE-754 arithmetic (as formalised by Flocq) as an instance of the arithmetic of the
    floating point parsers, and the real number written by a decimal text. *)
From Coq Require Import ZArith Reals.
From Flocq Require Import Core BinarySingleNaN.
From Verif Require Import Base Mem StrviewModel StrnumModel NumSpec.
Open Scope Z_scope.

(** The three formats of gcc on x86-64: float, double, long double. *)
Notation b32 := (binary_float 24 128).
Notation b64 := (binary_float 53 1024).
Notation b80 := (binary_float 64 16384).
#[global] Instance p32 : Prec_gt_0 24. Proof. reflexivity. Qed.
#[global] Instance l32 : Prec_lt_emax 24 128. Proof. reflexivity. Qed.
#[global] Instance p64 : Prec_gt_0 53. Proof. reflexivity. Qed.
#[global] Instance l64 : Prec_lt_emax 53 1024. Proof. reflexivity. Qed.
#[global] Instance p80 : Prec_gt_0 64. Proof. reflexivity. Qed.
#[global] Instance l80 : Prec_lt_emax 64 16384. Proof. reflexivity. Qed.

(** Round to nearest even; [pow10 n] is what pow(10, n) of the C library returns. *)
Definition flocq (prec emax : Z) (Hp : Prec_gt_0 prec) (Hm : Prec_lt_emax prec emax)
  (pow10 : Z -> binary_float prec emax) : arith :=
  Arith (binary_float prec emax) (B754_zero false) (B754_infinity false) B754_nan
        (Bplus mode_NE) (Bmult mode_NE) Bopp
        (fun z => binary_normalize prec emax Hp Hm mode_NE z 0 false) pow10
        (fun a => match a with B754_infinity false => true | _ => false end)
        (fun a => match a with B754_nan => true | _ => false end).

(** Rounding of a real number to the nearest number of the format, ties to even. *)
Definition nearest (prec emax : Z) (x : R) : R :=
  round radix2 (SpecFloat.fexp prec emax) ZnearestE x.

(** ** The real number written by a decimal text, without its sign *)
Definition p10 (n : Z) : R := powerRZ 10 n.
Definition mantissa (t : float_text) : R :=
  (IZR (num_val 10 (ft_int t)) + IZR (num_val 10 (ft_frac t)) * p10 (- Zlen (ft_frac t)))%R.
Definition real_value (t : float_text) : R := (mantissa t * p10 (ft_exp t))%R.
Definition with_sign (neg : bool) (x : R) : R := if neg then (- x)%R else x.

(** The C library computes powers of ten between 10^lo and 10^hi with relative error [e]. *)
Definition pow_accurate {prec emax : Z} (pow10 : Z -> binary_float prec emax) (e : R) (lo hi : Z) : Prop :=
  forall n, lo <= n <= hi -> is_finite (pow10 n) = true /\ (Rabs (B2R (pow10 n) - p10 n) <= e * p10 n)%R.
(** ISO C F.10.4.4: pow(x, 0) is 1. *)
Definition pow_zero {prec emax : Z} (pow10 : Z -> binary_float prec emax) : Prop :=
  is_finite (pow10 0) = true /\ B2R (pow10 0) = 1%R.

(** Smallest normal number, and half of a unit in the last place. *)
Definition min_normal (prec emax : Z) : R := bpow radix2 (2 - emax).
Definition half_ulp (prec : Z) : R := bpow radix2 (- prec).
(** A perfect pow(): every power is the nearest representable number, and overflow gives +infinity. *)
Definition pow_correct {prec emax : Z} (pow10 : Z -> binary_float prec emax) : Prop :=
  forall n, if Rlt_bool (nearest prec emax (p10 n)) (bpow radix2 emax)
    then is_finite (pow10 n) = true /\ B2R (pow10 n) = nearest prec emax (p10 n) /\ Bsign (pow10 n) = false
    else pow10 n = B754_infinity false.
(** A power function never returns a negative number. *)
Definition pow_nonneg {prec emax : Z} (pow10 : Z -> binary_float prec emax) : Prop :=
  forall n, Bsign (pow10 n) = false.
