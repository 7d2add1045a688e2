(** Property theorems about floating point parsing in IEEE-754 arithmetic (C32, C77 - C81). *)
From Coq Require Import String ZArith Reals Lra Lia.
From Flocq Require Import Core BinarySingleNaN.
From Verif Require Import Base Mem Libc StrviewModel Spec MemLemmas StrviewProofs ExampleLib
  StrnumModel NumSpec StrnumFloat StrnumFloatVal IeeeSpec StrnumIeee StrnumIeee2 StrnumIeee3.
Local Open Scope string_scope.
Local Open Scope list_scope.
Local Open Scope Z_scope.

Definition fm : mem := [ blk 4096 (bs "-009007199254740993.00;"); blk 8192 (bs "314.159e-2 "); blk 12288 (bs "0.3");
  blk 16384 (bs "0.01e309"); blk 20480 (bs "10000000000000000000e-324"); blk 24576 (bs "00.0e-7") ].
Example fm_wf : mem_wf fm. Proof. wf_check. Qed.
(** [f] is the parser for a type whose arithmetic is [A]. *)
Definition parser_of (cf : cfg) (A : arith) (f : mem -> bool -> option view -> Z -> outcome (parsed (a_t A))) : Prop :=
  f = strnum_consume_float cf A \/ f = strnum_consume_double cf A.
(** The text [l] is a number: neither inf, nan nor the misspelt word. *)
Definition is_number (opt : Z) (l : list Z) (t : float_text) : Prop :=
  strip_word w_infinty (snd (float_body opt l)) = None /\ read_float opt l = FGood t /\ ft_special t = NoSpecial.
(** A power function for double. *)
Definition pow64 : Z -> b64 := sample_pow10 53 1024 p64 l64.
Notation A64 := (flocq 53 1024 p64 l64).

(** ** C77: whole numbers *)
Theorem C77_nearest : forall prec emax Hp Hm pow10 cf f m s l opt t,
  parser_of cf (flocq prec emax Hp Hm pow10) f -> mem_wf m -> has_view m s l -> ctype_safe cf l -> is_number opt l t ->
  66 <= emax -> pow_zero pow10 ->
  num_val 10 (ft_int t) <= ULLONG_MAX -> Forall (fun c => c = 48) (ft_frac t) -> ft_exp t = 0 ->
  exists b rest, f m true (Some s) opt = Ok (Parsed NoErr (Some b) rest) /\ is_finite b = true
    /\ B2R b = nearest prec emax (with_sign (ft_neg t) (IZR (num_val 10 (ft_int t)))).
Proof. intros prec emax Hp Hm pow10 cf f m s l opt t Hf Hw Hv Hc (N1 & N2 & N3). exact (whole_ok prec emax Hp Hm pow10 cf f m s l opt t Hf Hw Hv Hc N1 N2 N3). Qed.
Print Assumptions C77_nearest.
Theorem C77_exact : forall prec emax Hp Hm pow10 cf f m s l opt t,
  parser_of cf (flocq prec emax Hp Hm pow10) f -> mem_wf m -> has_view m s l -> ctype_safe cf l -> is_number opt l t ->
  66 <= emax -> pow_zero pow10 ->
  num_val 10 (ft_int t) <= ULLONG_MAX -> num_val 10 (ft_int t) <= 2 ^ prec ->
  Forall (fun c => c = 48) (ft_frac t) -> ft_exp t = 0 ->
  exists b rest, f m true (Some s) opt = Ok (Parsed NoErr (Some b) rest) /\ is_finite b = true
    /\ B2R b = with_sign (ft_neg t) (IZR (num_val 10 (ft_int t))).
Proof. intros prec emax Hp Hm pow10 cf f m s l opt t Hf Hw Hv Hc (N1 & N2 & N3). exact (whole_exact prec emax Hp Hm pow10 cf f m s l opt t Hf Hw Hv Hc N1 N2 N3). Qed.
Print Assumptions C77_exact.
Example C77_pow : pow_zero pow64.
Proof. exact pow64_zero. Qed.
(** 2^53 + 1 is not a double: the even neighbour is stored. *)
Example C77_ex : has_view fm (vw 0 0 23) (bs "-009007199254740993.00;")
  /\ is_number 0 (bs "-009007199254740993.00;") (FloatText true NoSpecial (bs "009007199254740993") (bs "00") 0 (bs ";"))
  /\ num_val 10 (bs "009007199254740993") = 2 ^ 53 + 1
  /\ match strnum_consume_double gcc64 (A64 pow64) fm true (Some (vw 0 0 23)) 0 with
     | Ok (Parsed NoErr (Some b) (Some r)) => B2SF b = SpecFloat.S754_finite true (2 ^ 52) 1 /\ r = vw 0 22 1
     | _ => False end.
Proof.
  split; [view_check|]. split; [repeat split; vm_compute; reflexivity|]. split; [vm_compute; reflexivity|].
  vm_compute. split; reflexivity.
Qed.

(** ** C78: accuracy *)
(** [e] bounds half a unit in the last place and the relative error of pow().  Every digit and
    every operation contributes; one operation more for each further 19 digits. *)
Theorem C78_accuracy : forall prec emax Hp Hm pow10 cf f e lo hi m s l opt t,
  parser_of cf (flocq prec emax Hp Hm pow10) f -> mem_wf m -> has_view m s l -> ctype_safe cf l -> is_number opt l t ->
  66 <= emax -> (half_ulp prec <= e < 1)%R -> pow_accurate pow10 e lo hi -> lo <= 0 -> 19 <= hi ->
  (2 * min_normal prec emax <= p10 lo)%R ->
  num_val 10 (ft_int t) < 10 ^ 38 -> (IZR (num_val 10 (ft_int t)) + 1 <= bpow radix2 (emax - 2))%R ->
  Zlen (ft_frac t) <= - lo -> lo <= ft_exp t <= hi ->
  (real_value t = 0 \/ 2 * min_normal prec emax <= real_value t)%R -> (real_value t <= bpow radix2 (emax - 2))%R ->
  let k := Z.to_nat (10 + Zlen (ft_frac t) / 19) in
  (INR k * e <= / 2)%R ->
  exists b rest, f m true (Some s) opt = Ok (Parsed NoErr (Some b) rest) /\ is_finite b = true
    /\ (Rabs (B2R b - with_sign (ft_neg t) (real_value t)) <= ((1 + e) ^ k - 1) * real_value t)%R.
Proof. intros prec emax Hp Hm pow10 cf f e lo hi m s l opt t Hf Hw Hv Hc (N1 & N2 & N3). exact (accuracy_ok prec emax Hp Hm pow10 cf f e lo hi m s l opt t Hf Hw Hv Hc N1 N2 N3). Qed.
Print Assumptions C78_accuracy.
(** For double: up to 18 fraction digits and a pow() within 2 ulp (2^-51), less than 2^-47. *)
Theorem C78_double : forall cf pow10 m s l opt t, mem_wf m -> has_view m s l -> ctype_safe cf l -> is_number opt l t ->
  pow_accurate pow10 (bpow radix2 (-51)) (-300) 300 ->
  num_val 10 (ft_int t) < 10 ^ 38 -> Zlen (ft_frac t) <= 18 -> -300 <= ft_exp t <= 300 ->
  (real_value t = 0 \/ p10 (-300) <= real_value t <= p10 300)%R ->
  exists b rest, strnum_consume_double cf (A64 pow10) m true (Some s) opt = Ok (Parsed NoErr (Some b) rest) /\ is_finite b = true
    /\ (Rabs (B2R b - with_sign (ft_neg t) (real_value t)) <= bpow radix2 (-47) * real_value t)%R.
Proof. intros cf pow10 m s l opt t Hw Hv Hc (N1 & N2 & N3). exact (double_accuracy cf pow10 m s l opt t Hw Hv Hc N1 N2 N3). Qed.
Print Assumptions C78_double.
Example C78_pow : pow_accurate pow64 (bpow radix2 (-51)) (-300) 300.
Proof. exact pow64_accurate. Qed.
Example C78_ex : has_view fm (vw 1 0 11) (bs "314.159e-2 ")
  /\ is_number 0 (bs "314.159e-2 ") (FloatText false NoSpecial (bs "314") (bs "159") (-2) (bs " "))
  /\ (p10 (-300) <= real_value (FloatText false NoSpecial (bs "314") (bs "159") (-2) (bs " ")) <= p10 300)%R.
Proof.
  split; [view_check|]. split; [repeat split; vm_compute; reflexivity|].
  assert (real_value (FloatText false NoSpecial (bs "314") (bs "159") (-2) (bs " ")) = 3.14159)%R as ->.
  { unfold real_value, mantissa, p10. vm_compute (num_val 10 _). vm_compute (ft_exp _). vm_compute (- Zlen _)%Z. cbn [powerRZ Pos.to_nat Pos.iter_op Nat.add pow]. change (Pos.to_nat 3) with 3%nat. change (Pos.to_nat 2) with 2%nat. cbn [pow]. lra. }
  assert (p10 0 = 1)%R as E0 by reflexivity. assert (p10 1 = 10)%R as E1 by (rewrite p10_nat by lia; reflexivity).
  split; [apply Rle_trans with (p10 0)|apply Rle_trans with (p10 1)]; try (apply p10_le; lia); lra.
Qed.

(** ** C79: the nearest double *)
(** Full statement: the result is the double nearest to the number written.  It is false even
    when every power of ten is computed perfectly. *)
Theorem C79_nearest_refuted : exists m s l t, mem_wf m /\ has_view m s l /\ is_number 0 l t /\
  real_value t = (3 / 10)%R /\
  forall cf pow10, pow_correct pow10 -> exists b rest,
    strnum_consume_double cf (A64 pow10) m true (Some s) 0 = Ok (Parsed NoErr (Some b) rest)
    /\ is_finite b = true /\ B2R b <> nearest 53 1024 (real_value t).
Proof.
  exists fm, (vw 2 0 3), (bs "0.3"), t03. assert (has_view fm (vw 2 0 3) (bs "0.3")) as V by view_check.
  split; [exact fm_wf|]. split; [exact V|]. split; [repeat split; vm_compute; reflexivity|].
  split; [exact real_03|]. intros cf pow10 P. exact (parse_03 pow10 P cf fm _ fm_wf V).
Qed.
Print Assumptions C79_nearest_refuted.
Example C79_pow : pow_correct (best_pow10 53 1024 p64 l64).
Proof. exact (best_correct 53 1024 p64 l64). Qed.
(** With the computable power function the result is 0.30000000000000004. *)
Example C79_ex : match strnum_consume_double gcc64 (A64 pow64) fm true (Some (vw 2 0 3)) 0 with
     | Ok (Parsed NoErr (Some b) (Some r)) => B2SF b = SpecFloat.S754_finite false 5404319552844596 (-54) /\ r = vw 2 3 0
     | _ => False end.
Proof. vm_compute. split; reflexivity. Qed.

(** ** C80: numbers in the range of the type *)
(** Full statement: a number in the range of normal doubles is not rejected and not stored as
    zero.  Both parts are false even with a perfect pow(); C78 says where they hold. *)
Theorem C80_rejected_refuted : exists m s l t, mem_wf m /\ has_view m s l /\ is_number 0 l t /\
  (1 <= real_value t <= bpow radix2 1023)%R /\
  forall cf pow10, pow_correct pow10 -> exists rest,
    strnum_consume_double cf (A64 pow10) m true (Some s) 0 = Ok (Parsed ERANGE None rest).
Proof.
  exists fm, (vw 3 0 8), (bs "0.01e309"), t309. assert (has_view fm (vw 3 0 8) (bs "0.01e309")) as V by view_check.
  split; [exact fm_wf|]. split; [exact V|]. split; [repeat split; vm_compute; reflexivity|].
  split; [exact real_309|]. intros cf pow10 P. exact (parse_309 pow10 P cf fm _ fm_wf V).
Qed.
Print Assumptions C80_rejected_refuted.
Theorem C80_zero_refuted : exists m s l t, mem_wf m /\ has_view m s l /\ is_number 0 l t /\
  (min_normal 53 1024 <= real_value t <= 1)%R /\
  forall cf pow10, pow_correct pow10 -> exists rest,
    strnum_consume_double cf (A64 pow10) m true (Some s) 0 = Ok (Parsed NoErr (Some (B754_zero false)) rest).
Proof.
  exists fm, (vw 4 0 25), (bs "10000000000000000000e-324"), t324.
  assert (has_view fm (vw 4 0 25) (bs "10000000000000000000e-324")) as V by view_check.
  split; [exact fm_wf|]. split; [exact V|]. split; [repeat split; vm_compute; reflexivity|].
  split; [exact (conj real_324 real_324_le)|]. intros cf pow10 P. exact (parse_324 pow10 P cf fm _ fm_wf V).
Qed.
Print Assumptions C80_zero_refuted.

(** ** C81: a number is never stored as infinity *)
Theorem C81_never_infinite : forall prec emax Hp Hm pow10 cf f m s l opt t p,
  parser_of cf (flocq prec emax Hp Hm pow10) f -> mem_wf m -> has_view m s l -> ctype_safe cf l -> is_number opt l t ->
  pow_nonneg pow10 ->
  f m true (Some s) opt = Ok p -> pr_err p = NoErr ->
  exists b, pr_dst p = Some b /\ b <> B754_infinity false /\ b <> B754_infinity true.
Proof. intros prec emax Hp Hm pow10 cf f m s l opt t p Hf Hw Hv Hc (N1 & N2 & N3). exact (not_infinite prec emax Hp Hm pow10 cf f m s l opt t p Hf Hw Hv Hc N1 N2 N3). Qed.
Print Assumptions C81_never_infinite.
Example C81_pow : pow_nonneg (best_pow10 53 1024 p64 l64).
Proof. exact (best_nonneg 53 1024 p64 l64). Qed.
Example C81_ex : is_number 0 (bs "0.01e309") t309
  /\ match strnum_consume_double gcc64 (A64 pow64) fm true (Some (vw 3 0 8)) 0 with
     | Ok (Parsed ERANGE None None) => True | _ => False end
  /\ is_number 0 (bs "0.3") t03
  /\ match strnum_consume_double gcc64 (A64 pow64) fm true (Some (vw 2 0 3)) 0 with
     | Ok (Parsed NoErr (Some _) (Some _)) => True | _ => False end.
Proof.
  split; [repeat split; vm_compute; reflexivity|]. split; [vm_compute; exact I|].
  split; [repeat split; vm_compute; reflexivity|]. vm_compute; exact I.
Qed.

(** ** C32: a zero mantissa, when the power of ten is finite *)
Theorem C32_finite_power_partial : forall prec emax Hp Hm pow10 cf f m s l opt t,
  parser_of cf (flocq prec emax Hp Hm pow10) f -> mem_wf m -> has_view m s l -> ctype_safe cf l -> is_number opt l t ->
  Forall (fun c => c = 48) (ft_int t) -> Forall (fun c => c = 48) (ft_frac t) ->
  is_finite (pow10 0) = true -> is_finite (pow10 (ft_exp t)) = true ->
  exists b rest, f m true (Some s) opt = Ok (Parsed NoErr (Some b) rest) /\ is_finite b = true /\ B2R b = 0%R.
Proof. intros prec emax Hp Hm pow10 cf f m s l opt t Hf Hw Hv Hc (N1 & N2 & N3). exact (zero_ok prec emax Hp Hm pow10 cf f m s l opt t Hf Hw Hv Hc N1 N2 N3). Qed.
Print Assumptions C32_finite_power_partial.
Example C32_ieee_ex : has_view fm (vw 5 0 7) (bs "00.0e-7")
  /\ is_number 0 (bs "00.0e-7") (FloatText false NoSpecial (bs "00") (bs "0") (-7) [])
  /\ is_finite (pow64 0) = true /\ is_finite (pow64 (-7)) = true.
Proof. split; [view_check|]. split; [repeat split; vm_compute; reflexivity|]. split; vm_compute; reflexivity. Qed.
