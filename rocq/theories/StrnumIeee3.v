(** What even a perfect pow() does not give: the refutations of C79 and C80. *)
From Coq Require Import String ZArith Reals Lra Lia.
From Flocq Require Import Core BinarySingleNaN.
From Verif Require Import Base Mem Libc StrviewModel Spec MemLemmas StrviewProofs ExampleLib
  StrnumModel NumSpec StrnumFloat StrnumFloatVal IeeeSpec StrnumIeee StrnumIeee2.
Local Open Scope list_scope.
Local Open Scope Z_scope.

(** ** A perfect pow() exists *)
Section Best.
Variables prec emax : Z.
Hypothesis Hp : Prec_gt_0 prec.
Hypothesis Hm : Prec_lt_emax prec emax.
Hypothesis H3 : 3 <= emax.
Notation fx := (SpecFloat.fexp prec emax).
Definition best_pow10 (n : Z) : binary_float prec emax :=
  let x := nearest prec emax (p10 n) in
  if Rlt_bool x (bpow radix2 emax)
  then binary_normalize prec emax Hp Hm mode_NE (Ztrunc (scaled_mantissa radix2 fx x)) (cexp radix2 fx x) false
  else B754_infinity false.
Lemma nearest_nonneg : forall x, (0 <= x)%R -> (0 <= nearest prec emax x)%R.
Proof. intros x H. unfold nearest. apply round_ge_generic; auto with typeclass_instances.
  - apply (fexp_correct prec emax Hp).
  - apply generic_format_0.
Qed.
Lemma best_correct : pow_correct best_pow10.
Proof.
  intros n. unfold best_pow10. set (x := nearest prec emax (p10 n)).
  pose proof (nearest_nonneg (p10 n) (Rlt_le _ _ (p10_pos n))) as Px. fold x in Px.
  assert (generic_format radix2 fx x) as G by (apply generic_format_round; auto with typeclass_instances; apply (fexp_correct prec emax Hp)).
  destruct (Rlt_bool_spec x (bpow radix2 emax)) as [L|L]; [|reflexivity].
  pose proof (binary_normalize_correct prec emax Hp Hm mode_NE (Ztrunc (scaled_mantissa radix2 fx x)) (cexp radix2 fx x) false) as C.
  red in G. rewrite <- G in C. cbn [round_mode] in C.
  rewrite round_generic in C; auto with typeclass_instances.
  rewrite Rlt_bool_true in C by (rewrite Rabs_pos_eq; auto).
  destruct C as (C1 & C2 & C3). split; auto. split; auto. rewrite C3.
  destruct (Rcompare_spec x 0); auto. lra.
Qed.
End Best.

(** ** Evaluation of pow() at the points used *)
Notation one64 := (binary_normalize 53 1024 p64 l64 mode_NE 1 0 false).
Notation B64 z := (binary_normalize 53 1024 p64 l64 mode_NE z 0 false).

Lemma int64 : forall z, Z.abs z <= 2 ^ 53 -> is_finite (B64 z) = true /\ B2R (B64 z) = IZR z.
Proof.
  intros z Hz. pose proof (binary_normalize_correct 53 1024 p64 l64 mode_NE z 0 false) as C.
  assert (F2R (Float radix2 z 0) = IZR z) as E by (unfold F2R; cbn; ring). rewrite E in C.
  cbn [round_mode] in C. rewrite round_generic in C; auto with typeclass_instances.
  2:{ apply (int_format 53 1024); auto; try lia. reflexivity. }
  rewrite Rlt_bool_true in C; [destruct C as (C1 & C2 & _); auto|].
  rewrite <- abs_IZR. apply Rle_lt_trans with (bpow radix2 53); [|apply bpow_lt; lia].
  rewrite <- IZR_Zpower by lia. apply IZR_le. exact Hz.
Qed.
Lemma quot64 : forall a b, Z.abs a <= 2 ^ 53 -> 0 < b <= 2 ^ 53 ->
  is_finite (Bdiv mode_NE (B64 a) (B64 b)) = true ->
  B2R (Bdiv mode_NE (B64 a) (B64 b)) = nearest 53 1024 (IZR a / IZR b).
Proof.
  intros a b Ha Hb Hf. destruct (int64 a Ha) as [Fa Va]. destruct (int64 b) as [Fb Vb]; [lia|].
  assert (B2R (B64 b) <> 0)%R as N by (rewrite Vb; apply IZR_neq; lia).
  pose proof (Bdiv_correct 53 1024 p64 l64 mode_NE (B64 a) (B64 b) N) as C.
  rewrite Va, Vb in C. destruct (Rlt_bool _ _).
  - destruct C as (C & _). exact C.
  - exfalso. destruct (Bdiv mode_NE (B64 a) (B64 b)) as [| | |]; try discriminate; unfold binary_overflow in C; destruct (overflow_to_inf _ _); discriminate.
Qed.
Lemma pow_is : forall (pow10 : Z -> b64) n c, pow_correct pow10 -> is_finite c = true -> Bsign c = false ->
  B2R c = nearest 53 1024 (p10 n) -> pow10 n = c.
Proof.
  intros pow10 n c P Fc Sc Vc. specialize (P n).
  rewrite Rlt_bool_true in P.
  - destruct P as (F & V & S). apply B2R_Bsign_inj; auto; congruence.
  - rewrite <- Vc. apply Rle_lt_trans with (1 := Rle_abs _). apply abs_B2R_lt_emax.
Qed.
Lemma pow_0 : forall pow10 : Z -> b64, pow_correct pow10 -> pow10 0 = B64 1.
Proof.
  intros pow10 P. destruct (int64 1) as [F V]; [vm_compute; discriminate|]. apply pow_is; auto.
  rewrite V. unfold nearest. change (p10 0) with 1%R. symmetry. apply round_generic; auto with typeclass_instances.
  apply (int_format 53 1024 p64); [lia|lia|vm_compute; discriminate].
Qed.
Lemma pow_1 : forall pow10 : Z -> b64, pow_correct pow10 -> pow10 (-1) = Bdiv mode_NE (B64 1) (B64 10).
Proof.
  intros pow10 P. apply pow_is; auto.
  rewrite quot64; try reflexivity; try (vm_compute; discriminate).
  - f_equal. change (p10 (-1)) with (/ (10 * 1))%R. lra.
  - split; vm_compute; congruence.
Qed.
Lemma pow_2 : forall pow10 : Z -> b64, pow_correct pow10 -> pow10 (-2) = Bdiv mode_NE (B64 1) (B64 100).
Proof.
  intros pow10 P. apply pow_is; auto.
  rewrite quot64; try reflexivity; try (vm_compute; discriminate).
  - f_equal. change (p10 (-2)) with (/ (10 * (10 * 1)))%R. lra.
  - split; vm_compute; congruence.
Qed.
Lemma pow_309 : forall pow10 : Z -> b64, pow_correct pow10 -> pow10 309 = B754_infinity false.
Proof.
  intros pow10 P. specialize (P 309). rewrite Rlt_bool_false in P; auto.
  unfold nearest. apply round_ge_generic; auto with typeclass_instances.
  - apply (fexp_correct 53 1024 p64).
  - apply generic_format_bpow. vm_compute. discriminate.
  - rewrite p10_nat by lia. rewrite <- IZR_Zpower by lia. apply IZR_le. vm_compute. discriminate.
Qed.
Lemma p10_neg : forall n, 0 <= n -> (p10 n * p10 (- n) = 1)%R.
Proof. intros. rewrite <- p10_plus. replace (n + - n) with 0 by lia. reflexivity. Qed.
Lemma pow_324 : forall pow10 : Z -> b64, pow_correct pow10 -> pow10 (-324) = B754_zero false.
Proof.
  intros pow10 P. apply pow_is; auto. cbn [B2R]. symmetry. unfold nearest.
  apply round_N_small_pos with (ex := -1076); [|vm_compute; reflexivity].
  pose proof (p10_neg 324 ltac:(lia)) as E. change (- (324)) with (-324) in E.
  pose proof (p10_pos (-324)).
  assert (bpow radix2 1077 * bpow radix2 (-1076 - 1) = 1)%R as E1 by (rewrite <- bpow_plus; reflexivity).
  assert (bpow radix2 1076 * bpow radix2 (-1076) = 1)%R as E2 by (rewrite <- bpow_plus; reflexivity).
  assert (p10 324 <= bpow radix2 1077)%R as L1 by (apply p10_bpow; [lia|lia|vm_compute; discriminate]).
  assert (bpow radix2 1076 < p10 324)%R as L2.
  { rewrite p10_nat by lia. rewrite <- IZR_Zpower by lia. apply IZR_lt. vm_compute. reflexivity. }
  pose proof (bpow_gt_0 radix2 (-1076 - 1)). pose proof (bpow_gt_0 radix2 (-1076)). pose proof (p10_pos 324).
  split; nra.
Qed.

(** ** The computation of three texts, whatever the arithmetic *)
Section Any.
Variable A : arith.
Lemma fp_03 : float_pure A [48] [51] 0 =
  a_mul A (a_add A (a_mul A (a_add A (a_zero A) (a_of_ull A 0)) (a_pow10 A 0)) (a_mul A (a_of_ull A 3) (a_pow10 A (-1)))) (a_pow10 A 0).
Proof. vm_compute. reflexivity. Qed.
Lemma fp_309 : float_pure A [48] [48; 49] 309 =
  a_mul A (a_add A (a_mul A (a_add A (a_zero A) (a_of_ull A 0)) (a_pow10 A 0)) (a_mul A (a_of_ull A 1) (a_pow10 A (-2)))) (a_pow10 A 309).
Proof. vm_compute. reflexivity. Qed.
Lemma fp_324 : float_pure A (49 :: repeat 48 19) [] (-324) =
  a_mul A (a_mul A (a_add A (a_zero A) (a_of_ull A (10 ^ 19))) (a_pow10 A 0)) (a_pow10 A (-324)).
Proof. vm_compute. reflexivity. Qed.
End Any.

(** ** Three numbers *)
Definition t03 := FloatText false NoSpecial [48] [51] 0 [].
Definition t309 := FloatText false NoSpecial [48] [48; 49] 309 [].
Definition t324 := FloatText false NoSpecial (49 :: repeat 48 19) [] (-324) [].

Lemma sf_neq : forall (x y : b64) m1 m2 e, B2SF x = SpecFloat.S754_finite false m1 e -> B2SF y = SpecFloat.S754_finite false m2 e ->
  m1 <> m2 -> B2R x <> B2R y.
Proof.
  intros x y m1 m2 e E1 E2 N H. rewrite <- !SF2R_B2SF, E1, E2 in H. cbn [SF2R cond_Zopp] in H.
  apply N. apply eq_F2R in H. congruence.
Qed.

Lemma value_03 : forall (pow10 : Z -> b64), pow_correct pow10 ->
  let x := float_pure (flocq 53 1024 p64 l64 pow10) [48] [51] 0 in
  a_is_inf (flocq 53 1024 p64 l64 pow10) x = false /\ a_is_nan (flocq 53 1024 p64 l64 pow10) x = false /\
  is_finite (x : b64) = true /\ B2R (x : b64) <> nearest 53 1024 (real_value t03).
Proof.
  intros pow10 P x. unfold x. rewrite fp_03. cbn [a_mul a_add a_zero a_of_ull a_pow10 a_is_inf a_is_nan flocq].
  rewrite (pow_0 _ P), (pow_1 _ P).
  split; [vm_compute; reflexivity|].
  split; [vm_compute; reflexivity|]. split; [vm_compute; reflexivity|].
  assert (nearest 53 1024 (real_value t03) = B2R (Bdiv mode_NE (B64 3) (B64 10))) as ->.
  { rewrite quot64.
    4: vm_compute; reflexivity.
    2: vm_compute; discriminate.
    - f_equal. unfold real_value, mantissa. cbn [t03 ft_int ft_frac ft_exp].
      vm_compute (num_val 10 _). vm_compute (- Zlen _)%Z. change (p10 (-1)) with (/ (10 * 1))%R. change (p10 0) with 1%R. lra.
    - split; vm_compute; congruence. }
  match goal with |- B2R ?x <> B2R ?y =>
    assert (B2SF x = SpecFloat.S754_finite false 5404319552844596 (-54)) as E1 by (vm_compute; reflexivity);
    assert (B2SF y = SpecFloat.S754_finite false 5404319552844595 (-54)) as E2 by (vm_compute; reflexivity);
    exact (sf_neq x y _ _ _ E1 E2 ltac:(discriminate))
  end.
Qed.
Lemma value_309 : forall (pow10 : Z -> b64), pow_correct pow10 ->
  a_is_inf (flocq 53 1024 p64 l64 pow10) (float_pure (flocq 53 1024 p64 l64 pow10) [48] [48; 49] 309) = true.
Proof.
  intros pow10 P. rewrite fp_309. cbn [a_mul a_add a_zero a_of_ull a_pow10 a_is_inf flocq].
  rewrite (pow_0 _ P), (pow_2 _ P), (pow_309 _ P). vm_compute. reflexivity.
Qed.
Lemma value_324 : forall (pow10 : Z -> b64), pow_correct pow10 ->
  float_pure (flocq 53 1024 p64 l64 pow10) (49 :: repeat 48 19) [] (-324) = (B754_zero false : b64).
Proof.
  intros pow10 P. rewrite fp_324. cbn [a_mul a_add a_zero a_of_ull a_pow10 flocq].
  rewrite (pow_0 _ P), (pow_324 _ P). apply B2SF_inj. vm_compute. reflexivity.
Qed.
Lemma real_309 : (1 <= real_value t309 <= bpow radix2 1023)%R.
Proof.
  assert (real_value t309 = p10 307) as ->.
  { unfold real_value, mantissa. cbn [t309 ft_int ft_frac ft_exp].
    vm_compute (num_val 10 _). vm_compute (num_val 10 _). vm_compute (- Zlen _)%Z. change 307 with (-2 + 309). rewrite p10_plus. lra. }
  split; [apply (p10_le 0); lia|]. apply p10_bpow; [lia|lia|vm_compute; discriminate].
Qed.
Lemma real_324 : (min_normal 53 1024 <= real_value t324)%R.
Proof.
  assert (real_value t324 = p10 (-305)) as ->.
  { unfold real_value, mantissa. cbn [t324 ft_int ft_frac ft_exp].
    assert (num_val 10 (49 :: repeat 48 19) = 10 ^ 19) as -> by (vm_compute; reflexivity). change (num_val 10 []) with 0.
    change (-305) with (19 + -324). rewrite p10_plus. rewrite (p10_nat 19) by lia. ring. }
  apply (bpow_p10 305 1022); [lia|lia|vm_compute; discriminate].
Qed.

Section Parse.
Variable pow10 : Z -> b64.
Notation A := (flocq 53 1024 p64 l64 pow10).
Hypothesis P : pow_correct pow10.
Lemma parse_03 : forall cf m s, mem_wf m -> has_view m s (bs "0.3") -> exists b rest,
  strnum_consume_double cf A m true (Some s) 0 = Ok (Parsed NoErr (Some b) rest) /\ is_finite b = true
  /\ B2R b <> nearest 53 1024 (real_value t03).
Proof.
  intros cf m s Hw Hv.
  destruct (parser_value 53 1024 p64 l64 pow10 cf (strnum_consume_double cf A) m s _ 0 t03 (or_intror eq_refl) Hw Hv) as (_ & _ & a & _ & E).
  - repeat constructor; cbn; lia.
  - reflexivity.
  - vm_compute; reflexivity.
  - reflexivity.
  - rewrite E. cbn [t03 ft_int ft_frac ft_exp ft_neg]. destruct (value_03 pow10 P) as (I & N & F & V). rewrite I, N. eauto.
Qed.
Lemma parse_309 : forall cf m s, mem_wf m -> has_view m s (bs "0.01e309") -> exists rest,
  strnum_consume_double cf A m true (Some s) 0 = Ok (Parsed ERANGE None rest).
Proof.
  intros cf m s Hw Hv.
  destruct (parser_value 53 1024 p64 l64 pow10 cf (strnum_consume_double cf A) m s _ 0 t309 (or_intror eq_refl) Hw Hv) as (_ & _ & a & _ & E).
  - repeat constructor; cbn; lia.
  - reflexivity.
  - vm_compute; reflexivity.
  - reflexivity.
  - rewrite E. cbn [t309 ft_int ft_frac ft_exp ft_neg]. rewrite (value_309 pow10 P). eauto.
Qed.
Lemma parse_324 : forall cf m s, mem_wf m -> has_view m s (bs "10000000000000000000e-324") -> exists rest,
  strnum_consume_double cf A m true (Some s) 0 = Ok (Parsed NoErr (Some (B754_zero false)) rest).
Proof.
  intros cf m s Hw Hv.
  destruct (parser_value 53 1024 p64 l64 pow10 cf (strnum_consume_double cf A) m s _ 0 t324 (or_intror eq_refl) Hw Hv) as (_ & _ & a & _ & E).
  - repeat constructor; cbn; lia.
  - reflexivity.
  - vm_compute; reflexivity.
  - reflexivity.
  - rewrite E. cbn [t324 ft_int ft_frac ft_exp ft_neg]. rewrite (value_324 pow10 P). cbn. eauto.
Qed.
End Parse.

Lemma real_03 : real_value t03 = (3 / 10)%R.
Proof.
  unfold real_value, mantissa. cbn [t03 ft_int ft_frac ft_exp].
  vm_compute (num_val 10 _). vm_compute (- Zlen _)%Z. change (p10 (-1)) with (/ (10 * 1))%R. change (p10 0) with 1%R. lra.
Qed.
Lemma real_324_le : (real_value t324 <= 1)%R.
Proof.
  assert (real_value t324 = p10 (-305)) as ->.
  { unfold real_value, mantissa. cbn [t324 ft_int ft_frac ft_exp].
    assert (num_val 10 (49 :: repeat 48 19) = 10 ^ 19) as -> by (vm_compute; reflexivity). change (num_val 10 []) with 0.
    change (-305) with (19 + -324). rewrite p10_plus. rewrite (p10_nat 19) by lia. ring. }
  apply (p10_le (-305) 0). lia.
Qed.
Lemma best_nonneg : forall prec emax Hp Hm, pow_nonneg (best_pow10 prec emax Hp Hm).
Proof.
  intros prec emax Hp Hm n. pose proof (best_correct prec emax Hp Hm n) as C. destruct (Rlt_bool _ _).
  - apply C.
  - rewrite C. reflexivity.
Qed.
Lemma not_infinite : forall prec emax Hp Hm pow10 cf f m s l opt t p,
  f = strnum_consume_float cf (flocq prec emax Hp Hm pow10) \/ f = strnum_consume_double cf (flocq prec emax Hp Hm pow10) ->
  mem_wf m -> has_view m s l -> ctype_safe cf l ->
  strip_word w_infinty (snd (float_body opt l)) = None ->
  read_float opt l = FGood t -> ft_special t = NoSpecial -> pow_nonneg pow10 ->
  f m true (Some s) opt = Ok p -> pr_err p = NoErr ->
  exists b, pr_dst p = Some b /\ b <> B754_infinity false /\ b <> B754_infinity true.
Proof.
  intros prec emax Hp Hm pow10 cf f m s l opt t p Hf Hw Hv Hc N1 N2 N3 Hn. apply (never_inf prec emax Hp Hm pow10 cf f m s l opt t p); auto.
  intros n. specialize (Hn n). destruct (pow10 n); cbn in *; auto.
Qed.
