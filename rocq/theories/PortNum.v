(** Withdrawing a compiler's promises changes an outcome only into an undefined one: numbers. *)
From Verif Require Import Base Mem Libc StrviewModel StrnumModel PortSpec PortView.

Lemma store_as_mono dst cast x y : below x y -> below (store_as dst cast x) (store_as dst cast y).
Proof. intros; unfold store_as; mono. Qed.
Lemma or_default_mono d cast x y : below x y -> below (or_default d cast x) (or_default d cast y).
Proof. intros; unfold or_default; mono. Qed.
Global Hint Resolve store_as_mono or_default_mono : mono.

Lemma ulong_mod_eq fw cf : ulong_mod (restrict fw cf) = ulong_mod cf.
Proof. reflexivity. Qed.
Global Hint Rewrite ulong_mod_eq : mono.

Lemma ULONG_MAX_eq fw cf : ULONG_MAX (restrict fw cf) = ULONG_MAX cf.
Proof. reflexivity. Qed.
Global Hint Rewrite ULONG_MAX_eq : mono.

Lemma LONG_MAX_eq fw cf : LONG_MAX (restrict fw cf) = LONG_MAX cf.
Proof. reflexivity. Qed.
Global Hint Rewrite LONG_MAX_eq : mono.

Lemma LONG_MIN_eq fw cf : LONG_MIN (restrict fw cf) = LONG_MIN cf.
Proof. reflexivity. Qed.
Global Hint Rewrite LONG_MIN_eq : mono.

Lemma CHAR_MIN_eq fw cf : CHAR_MIN (restrict fw cf) = CHAR_MIN cf.
Proof. reflexivity. Qed.
Global Hint Rewrite CHAR_MIN_eq : mono.

Lemma CHAR_MAX_eq fw cf : CHAR_MAX (restrict fw cf) = CHAR_MAX cf.
Proof. reflexivity. Qed.
Global Hint Rewrite CHAR_MAX_eq : mono.

Lemma at_digit_mono fw cf : forall (m : mem) (s : view),
  below (at_digit (restrict fw cf) m s) (at_digit cf m s).
Proof. intros; unfold at_digit; mono. Qed.
Global Hint Resolve at_digit_mono : mono.

Lemma at_xdigit_mono fw cf : forall (m : mem) (s : view),
  below (at_xdigit (restrict fw cf) m s) (at_xdigit cf m s).
Proof. intros; unfold at_xdigit; mono. Qed.
Global Hint Resolve at_xdigit_mono : mono.

Lemma at_bdigit_mono fw cf : forall (m : mem) (s : view),
  below (at_bdigit (restrict fw cf) m s) (at_bdigit cf m s).
Proof. intros; unfold at_bdigit; mono. Qed.
Global Hint Resolve at_bdigit_mono : mono.

Lemma pop_mono fw cf : forall (m : mem) (s : view),
  below (pop (restrict fw cf) m s) (pop cf m s).
Proof. intros; unfold pop; mono. Qed.
Global Hint Resolve pop_mono : mono.

Lemma dec_loop_mono fw cf : forall (fuel : nat) (m : mem) (md limit : Z) (s : view) (res : Z),
  below (dec_loop (restrict fw cf) fuel m md limit s res) (dec_loop cf fuel m md limit s res).
Proof.
  induction fuel; intros; cbn [dec_loop]; mono.
Qed.
Global Hint Resolve dec_loop_mono : mono.

Lemma dec_loop3_mono fw cf : forall (fuel : nat) (m : mem) (s : view) (res : Z),
  below (dec_loop3 (restrict fw cf) fuel m s res) (dec_loop3 cf fuel m s res).
Proof.
  induction fuel; intros; cbn [dec_loop3]; mono.
Qed.
Global Hint Resolve dec_loop3_mono : mono.

Lemma consume_decimal_digits_mono fw cf : forall (m : mem) (str : view),
  below (consume_decimal_digits (restrict fw cf) m str) (consume_decimal_digits cf m str).
Proof. intros; unfold consume_decimal_digits; mono. Qed.
Global Hint Resolve consume_decimal_digits_mono : mono.

Lemma hex_loop_mono fw cf : forall (fuel : nat) (m : mem) (s : view) (res : Z),
  below (hex_loop (restrict fw cf) fuel m s res) (hex_loop cf fuel m s res).
Proof.
  induction fuel; intros; cbn [hex_loop]; mono.
Qed.
Global Hint Resolve hex_loop_mono : mono.

Lemma consume_hex_digits_mono fw cf : forall (m : mem) (str : view),
  below (consume_hex_digits (restrict fw cf) m str) (consume_hex_digits cf m str).
Proof. intros; unfold consume_hex_digits; mono. Qed.
Global Hint Resolve consume_hex_digits_mono : mono.

Lemma bin_loop_mono fw cf : forall (fuel : nat) (m : mem) (s : view) (res : Z),
  below (bin_loop (restrict fw cf) fuel m s res) (bin_loop cf fuel m s res).
Proof.
  induction fuel; intros; cbn [bin_loop]; mono.
Qed.
Global Hint Resolve bin_loop_mono : mono.

Lemma consume_bin_digits_mono fw cf : forall (m : mem) (str : view),
  below (consume_bin_digits (restrict fw cf) m str) (consume_bin_digits cf m str).
Proof. intros; unfold consume_bin_digits; mono. Qed.
Global Hint Resolve consume_bin_digits_mono : mono.

Lemma consume_digits_mono fw cf : forall (m : mem) (src : view) (base : Z),
  below (consume_digits (restrict fw cf) m src base) (consume_digits cf m src base).
Proof. intros; unfold consume_digits; mono. Qed.
Global Hint Resolve consume_digits_mono : mono.

Lemma consume_base_prefix_mono fw cf : forall (m : mem) (base : Z) (src : view) (options : Z),
  below (consume_base_prefix (restrict fw cf) m base src options) (consume_base_prefix cf m base src options).
Proof. intros; unfold consume_base_prefix; mono. Qed.
Global Hint Resolve consume_base_prefix_mono : mono.

Lemma consume_sign_mono fw cf : forall (m : mem) (num : view),
  below (consume_sign (restrict fw cf) m num) (consume_sign cf m num).
Proof. intros; unfold consume_sign; mono. Qed.
Global Hint Resolve consume_sign_mono : mono.

Lemma consume_signed_mono fw cf : forall (m : mem) (dst : bool) (src : option view) (options limit_min limit_max : Z),
  below (consume_signed (restrict fw cf) m dst src options limit_min limit_max)
        (consume_signed cf m dst src options limit_min limit_max).
Proof. intros; unfold consume_signed; mono. Qed.
Global Hint Resolve consume_signed_mono : mono.

Lemma consume_unsigned_mono fw cf : forall (m : mem) (dst : bool) (src : option view) (options limit_max : Z),
  below (consume_unsigned (restrict fw cf) m dst src options limit_max)
        (consume_unsigned cf m dst src options limit_max).
Proof. intros; unfold consume_unsigned; mono. Qed.
Global Hint Resolve consume_unsigned_mono : mono.

Lemma ccast_eq fw cf : ccast (restrict fw cf) = ccast cf.
Proof. reflexivity. Qed.
Global Hint Rewrite ccast_eq : mono.

Lemma long_bits_eq fw cf : long_bits (restrict fw cf) = long_bits cf.
Proof. reflexivity. Qed.
Global Hint Rewrite long_bits_eq : mono.

Lemma strnum_consume_uchar_mono fw cf : forall m (dst : bool) src options,
  below (strnum_consume_uchar (restrict fw cf) m dst src options) (strnum_consume_uchar cf m dst src options).
Proof. intros; unfold strnum_consume_uchar; mono. Qed.
Global Hint Resolve strnum_consume_uchar_mono : mono.

Lemma strnum_consume_ushort_mono fw cf : forall m (dst : bool) src options,
  below (strnum_consume_ushort (restrict fw cf) m dst src options) (strnum_consume_ushort cf m dst src options).
Proof. intros; unfold strnum_consume_ushort; mono. Qed.
Global Hint Resolve strnum_consume_ushort_mono : mono.

Lemma strnum_consume_uint_mono fw cf : forall m (dst : bool) src options,
  below (strnum_consume_uint (restrict fw cf) m dst src options) (strnum_consume_uint cf m dst src options).
Proof. intros; unfold strnum_consume_uint; mono. Qed.
Global Hint Resolve strnum_consume_uint_mono : mono.

Lemma strnum_consume_ulong_mono fw cf : forall m (dst : bool) src options,
  below (strnum_consume_ulong (restrict fw cf) m dst src options) (strnum_consume_ulong cf m dst src options).
Proof. intros; unfold strnum_consume_ulong; mono. Qed.
Global Hint Resolve strnum_consume_ulong_mono : mono.

Lemma strnum_consume_ullong_mono fw cf : forall m (dst : bool) src options,
  below (strnum_consume_ullong (restrict fw cf) m dst src options) (strnum_consume_ullong cf m dst src options).
Proof. intros; unfold strnum_consume_ullong; mono. Qed.
Global Hint Resolve strnum_consume_ullong_mono : mono.

Lemma strnum_consume_char_mono fw cf : forall m (dst : bool) src options,
  below (strnum_consume_char (restrict fw cf) m dst src options) (strnum_consume_char cf m dst src options).
Proof. intros; unfold strnum_consume_char; mono. Qed.
Global Hint Resolve strnum_consume_char_mono : mono.

Lemma strnum_consume_short_mono fw cf : forall m (dst : bool) src options,
  below (strnum_consume_short (restrict fw cf) m dst src options) (strnum_consume_short cf m dst src options).
Proof. intros; unfold strnum_consume_short; mono. Qed.
Global Hint Resolve strnum_consume_short_mono : mono.

Lemma strnum_consume_int_mono fw cf : forall m (dst : bool) src options,
  below (strnum_consume_int (restrict fw cf) m dst src options) (strnum_consume_int cf m dst src options).
Proof. intros; unfold strnum_consume_int; mono. Qed.
Global Hint Resolve strnum_consume_int_mono : mono.

Lemma strnum_consume_long_mono fw cf : forall m (dst : bool) src options,
  below (strnum_consume_long (restrict fw cf) m dst src options) (strnum_consume_long cf m dst src options).
Proof. intros; unfold strnum_consume_long; mono. Qed.
Global Hint Resolve strnum_consume_long_mono : mono.

Lemma strnum_consume_llong_mono fw cf : forall m (dst : bool) src options,
  below (strnum_consume_llong (restrict fw cf) m dst src options) (strnum_consume_llong cf m dst src options).
Proof. intros; unfold strnum_consume_llong; mono. Qed.
Global Hint Resolve strnum_consume_llong_mono : mono.

Lemma strnum_i8_mono fw cf : forall m src dfault options,
  below (strnum_i8 (restrict fw cf) m src dfault options) (strnum_i8 cf m src dfault options).
Proof. intros; unfold strnum_i8; mono. Qed.
Global Hint Resolve strnum_i8_mono : mono.

Lemma strnum_i16_mono fw cf : forall m src dfault options,
  below (strnum_i16 (restrict fw cf) m src dfault options) (strnum_i16 cf m src dfault options).
Proof. intros; unfold strnum_i16; mono. Qed.
Global Hint Resolve strnum_i16_mono : mono.

Lemma strnum_i32_mono fw cf : forall m src dfault options,
  below (strnum_i32 (restrict fw cf) m src dfault options) (strnum_i32 cf m src dfault options).
Proof. intros; unfold strnum_i32; mono. Qed.
Global Hint Resolve strnum_i32_mono : mono.

Lemma strnum_i64_mono fw cf : forall m src dfault options,
  below (strnum_i64 (restrict fw cf) m src dfault options) (strnum_i64 cf m src dfault options).
Proof. intros; unfold strnum_i64; mono. Qed.
Global Hint Resolve strnum_i64_mono : mono.

Lemma strnum_u8_mono fw cf : forall m src dfault options,
  below (strnum_u8 (restrict fw cf) m src dfault options) (strnum_u8 cf m src dfault options).
Proof. intros; unfold strnum_u8; mono. Qed.
Global Hint Resolve strnum_u8_mono : mono.

Lemma strnum_u16_mono fw cf : forall m src dfault options,
  below (strnum_u16 (restrict fw cf) m src dfault options) (strnum_u16 cf m src dfault options).
Proof. intros; unfold strnum_u16; mono. Qed.
Global Hint Resolve strnum_u16_mono : mono.

Lemma strnum_u32_mono fw cf : forall m src dfault options,
  below (strnum_u32 (restrict fw cf) m src dfault options) (strnum_u32 cf m src dfault options).
Proof. intros; unfold strnum_u32; mono. Qed.
Global Hint Resolve strnum_u32_mono : mono.

Lemma strnum_u64_mono fw cf : forall m src dfault options,
  below (strnum_u64 (restrict fw cf) m src dfault options) (strnum_u64 cf m src dfault options).
Proof. intros; unfold strnum_u64; mono. Qed.
Global Hint Resolve strnum_u64_mono : mono.

Lemma strnum_char_mono fw cf : forall m src dfault options,
  below (strnum_char (restrict fw cf) m src dfault options) (strnum_char cf m src dfault options).
Proof. intros; unfold strnum_char; mono. Qed.
Global Hint Resolve strnum_char_mono : mono.

Lemma strnum_short_mono fw cf : forall m src dfault options,
  below (strnum_short (restrict fw cf) m src dfault options) (strnum_short cf m src dfault options).
Proof. intros; unfold strnum_short; mono. Qed.
Global Hint Resolve strnum_short_mono : mono.

Lemma strnum_int_mono fw cf : forall m src dfault options,
  below (strnum_int (restrict fw cf) m src dfault options) (strnum_int cf m src dfault options).
Proof. intros; unfold strnum_int; mono. Qed.
Global Hint Resolve strnum_int_mono : mono.

Lemma strnum_long_mono fw cf : forall m src dfault options,
  below (strnum_long (restrict fw cf) m src dfault options) (strnum_long cf m src dfault options).
Proof. intros; unfold strnum_long; mono. Qed.
Global Hint Resolve strnum_long_mono : mono.

Lemma strnum_llong_mono fw cf : forall m src dfault options,
  below (strnum_llong (restrict fw cf) m src dfault options) (strnum_llong cf m src dfault options).
Proof. intros; unfold strnum_llong; mono. Qed.
Global Hint Resolve strnum_llong_mono : mono.

Lemma strnum_uchar_mono fw cf : forall m src dfault options,
  below (strnum_uchar (restrict fw cf) m src dfault options) (strnum_uchar cf m src dfault options).
Proof. intros; unfold strnum_uchar; mono. Qed.
Global Hint Resolve strnum_uchar_mono : mono.

Lemma strnum_ushort_mono fw cf : forall m src dfault options,
  below (strnum_ushort (restrict fw cf) m src dfault options) (strnum_ushort cf m src dfault options).
Proof. intros; unfold strnum_ushort; mono. Qed.
Global Hint Resolve strnum_ushort_mono : mono.

Lemma strnum_uint_mono fw cf : forall m src dfault options,
  below (strnum_uint (restrict fw cf) m src dfault options) (strnum_uint cf m src dfault options).
Proof. intros; unfold strnum_uint; mono. Qed.
Global Hint Resolve strnum_uint_mono : mono.

Lemma strnum_ulong_mono fw cf : forall m src dfault options,
  below (strnum_ulong (restrict fw cf) m src dfault options) (strnum_ulong cf m src dfault options).
Proof. intros; unfold strnum_ulong; mono. Qed.
Global Hint Resolve strnum_ulong_mono : mono.

Lemma strnum_ullong_mono fw cf : forall m src dfault options,
  below (strnum_ullong (restrict fw cf) m src dfault options) (strnum_ullong cf m src dfault options).
Proof. intros; unfold strnum_ullong; mono. Qed.
Global Hint Resolve strnum_ullong_mono : mono.

Lemma split_digits_loop_mono fw cf : forall (fuel : nat) (m : mem) (src : view) (n : Z),
  below (split_digits_loop (restrict fw cf) fuel m src n) (split_digits_loop cf fuel m src n).
Proof.
  induction fuel; intros; cbn [split_digits_loop]; mono.
Qed.
Global Hint Resolve split_digits_loop_mono : mono.

Lemma split_digits_mono fw cf : forall (m : mem) (src : view),
  below (split_digits (restrict fw cf) m src) (split_digits cf m src).
Proof. intros; unfold split_digits; mono. Qed.
Global Hint Resolve split_digits_mono : mono.

Lemma consume_float_special_mono fw cf : forall (m : mem) (num : view),
  below (consume_float_special (restrict fw cf) m num) (consume_float_special cf m num).
Proof. intros; unfold consume_float_special; mono. Qed.
Global Hint Resolve consume_float_special_mono : mono.

Lemma consume_exponent_mono fw cf : forall (m : mem) (num : view),
  below (consume_exponent (restrict fw cf) m num) (consume_exponent cf m num).
Proof. intros; unfold consume_exponent; mono. Qed.
Global Hint Resolve consume_exponent_mono : mono.

Lemma process_float_components_mono fw cf : forall (m : mem) (num : view) (options : Z),
  below (process_float_components (restrict fw cf) m num options) (process_float_components cf m num options).
Proof. intros; unfold process_float_components; mono. Qed.
Global Hint Resolve process_float_components_mono : mono.

Lemma int_loop_mono fw cf A : forall (fuel : nat) (m : mem) (digits : view) (result : a_t A),
  below (int_loop (restrict fw cf) A fuel m digits result) (int_loop cf A fuel m digits result).
Proof.
  induction fuel; intros; cbn [int_loop]; mono.
Qed.
Global Hint Resolve int_loop_mono : mono.

Lemma frac_loop_mono fw cf A : forall (fuel : nat) (m : mem) (digits : view) (power : Z) (result : a_t A),
  below (frac_loop (restrict fw cf) A fuel m digits power result) (frac_loop cf A fuel m digits power result).
Proof.
  induction fuel; intros; cbn [frac_loop]; mono.
Qed.
Global Hint Resolve frac_loop_mono : mono.

Lemma make_float_mono fw cf A : forall (m : mem) (ip fp : view) (exp_value : Z),
  below (make_float (restrict fw cf) A m ip fp exp_value) (make_float cf A m ip fp exp_value).
Proof. intros; unfold make_float; mono. Qed.
Global Hint Resolve make_float_mono : mono.

Lemma finish_float_mono fw cf A : forall (m : mem) (dst : bool) (src : option view) (err : errno) (fc : components),
  below (finish_float (restrict fw cf) A m dst src err fc) (finish_float cf A m dst src err fc).
Proof. intros; unfold finish_float; mono. Qed.
Global Hint Resolve finish_float_mono : mono.

Lemma strnum_consume_float_mono fw cf A : forall (m : mem) (dst : bool) (src : option view) (options : Z),
  below (strnum_consume_float (restrict fw cf) A m dst src options) (strnum_consume_float cf A m dst src options).
Proof. intros; unfold strnum_consume_float; mono. Qed.
Global Hint Resolve strnum_consume_float_mono : mono.

Lemma strnum_consume_double_mono fw cf A : forall (m : mem) (dst : bool) (src : option view) (options : Z),
  below (strnum_consume_double (restrict fw cf) A m dst src options) (strnum_consume_double cf A m dst src options).
Proof. intros; unfold strnum_consume_double; mono. Qed.
Global Hint Resolve strnum_consume_double_mono : mono.

Lemma strnum_float_mono fw cf A : forall (m : mem) (src : view) (dfault : a_t A) (options : Z),
  below (strnum_float (restrict fw cf) A m src dfault options) (strnum_float cf A m src dfault options).
Proof. intros; unfold strnum_float; mono. Qed.
Global Hint Resolve strnum_float_mono : mono.

Lemma strnum_double_mono fw cf A : forall (m : mem) (src : view) (dfault : a_t A) (options : Z),
  below (strnum_double (restrict fw cf) A m src dfault options) (strnum_double cf A m src dfault options).
Proof. intros; unfold strnum_double; mono. Qed.
Global Hint Resolve strnum_double_mono : mono.

