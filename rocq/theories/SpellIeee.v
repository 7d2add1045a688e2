(** Spellings in IEEE-754 arithmetic: a leading zero does not matter, moving the point does. *)
From Coq Require Import String ZArith Reals Lra Lia.
From Flocq Require Import Core BinarySingleNaN.
From Verif Require Import Base Mem Libc StrviewModel Spec MemLemmas StrviewProofs ExampleLib
  StrnumModel NumSpec StrnumFloat StrnumFloatVal IeeeSpec StrnumIeee StrnumIeee2 StrnumIeee3 SpellSpec.
Local Open Scope Z_scope.

Lemma flocq_zero : forall prec emax Hp Hm pow10, pow_zero pow10 -> zero_is_nothing (flocq prec emax Hp Hm pow10).
Proof.
  intros prec emax Hp Hm pow10 [F V]. unfold zero_is_nothing. cbn [flocq a_mul a_add a_zero a_of_ull a_pow10].
  destruct (pow10 0) as [s|s| |s mm e B]; try discriminate.
  - cbn in V. lra.
  - assert (s = false) as ->.
    { destruct s; auto. cbn [B2R cond_Zopp] in V. pose proof (F2R_lt_0 radix2 (Float radix2 (Z.neg mm) e) ltac:(cbn; lia)).
      change (Zpos mm) with (Z.pos mm) in V. cbn [Z.opp] in V. lra. }
    reflexivity.
Qed.

Definition t3 := FloatText false NoSpecial [51] [] 0 [].
Definition t03e1 := FloatText false NoSpecial [48] [51] 1 [].
Lemma pow_10 : forall pow10 : Z -> b64, pow_correct pow10 -> pow10 1 = B64 10.
Proof.
  intros pow10 P. destruct (int64 10) as [F V]; [vm_compute; discriminate|]. apply pow_is; auto.
  rewrite V. unfold nearest. assert (p10 1 = 10)%R as -> by (rewrite p10_nat by lia; reflexivity).
  symmetry. apply round_generic; auto with typeclass_instances.
  apply (int_format 53 1024 p64); [lia|lia|vm_compute; discriminate].
Qed.
Lemma fp_3 : forall A, float_pure A [51] [] 0 =
  a_mul A (a_mul A (a_add A (a_zero A) (a_of_ull A 3)) (a_pow10 A 0)) (a_pow10 A 0).
Proof. intro A. vm_compute. reflexivity. Qed.
Lemma fp_03e1 : forall A, float_pure A [48] [51] 1 =
  a_mul A (a_add A (a_mul A (a_add A (a_zero A) (a_of_ull A 0)) (a_pow10 A 0)) (a_mul A (a_of_ull A 3) (a_pow10 A (-1)))) (a_pow10 A 1).
Proof. intro A. vm_compute. reflexivity. Qed.

Lemma value_3 : forall (pow10 : Z -> b64), pow_correct pow10 ->
  let A := flocq 53 1024 p64 l64 pow10 in let x := float_pure A [51] [] 0 in
  a_is_inf A x = false /\ a_is_nan A x = false /\ B2SF (x : b64) = SpecFloat.S754_finite false 6755399441055744 (-51).
Proof.
  intros pow10 P A x. unfold x, A. rewrite fp_3. cbn [a_mul a_add a_zero a_of_ull a_pow10 a_is_inf a_is_nan flocq].
  rewrite (pow_0 _ P). repeat split; vm_compute; reflexivity.
Qed.
Lemma value_03e1 : forall (pow10 : Z -> b64), pow_correct pow10 ->
  let A := flocq 53 1024 p64 l64 pow10 in let x := float_pure A [48] [51] 1 in
  a_is_inf A x = false /\ a_is_nan A x = false /\ B2SF (x : b64) = SpecFloat.S754_finite false 6755399441055745 (-51).
Proof.
  intros pow10 P A x. unfold x, A. rewrite fp_03e1. cbn [a_mul a_add a_zero a_of_ull a_pow10 a_is_inf a_is_nan flocq].
  rewrite (pow_0 _ P), (pow_1 _ P), (pow_10 _ P). repeat split; vm_compute; reflexivity.
Qed.
Lemma sf_finite : forall (x : b64) s mm e, B2SF x = SpecFloat.S754_finite s mm e -> is_finite x = true.
Proof. intros x s mm e H. destruct x; cbn in *; congruence. Qed.

Lemma moved_point : forall (pow10 : Z -> b64) cf m s1 s2, pow_correct pow10 -> mem_wf m ->
  has_view m s1 (bs "3") -> has_view m s2 (bs "0.3e1") -> exists b1 b2 r1 r2,
  strnum_consume_double cf (flocq 53 1024 p64 l64 pow10) m true (Some s1) 0 = Ok (Parsed NoErr (Some b1) r1) /\
  strnum_consume_double cf (flocq 53 1024 p64 l64 pow10) m true (Some s2) 0 = Ok (Parsed NoErr (Some b2) r2) /\
  is_finite (b1 : b64) = true /\ is_finite (b2 : b64) = true /\ (B2R (b1 : b64) <> B2R (b2 : b64)).
Proof.
  intros pow10 cf m s1 s2 P Hw V1 V2. set (A := flocq 53 1024 p64 l64 pow10).
  destruct (parser_value 53 1024 p64 l64 pow10 cf (strnum_consume_double cf A) m s1 _ 0 t3 (or_intror eq_refl) Hw V1) as (_ & _ & a1 & _ & E1);
    [repeat constructor; cbn; lia|reflexivity|vm_compute; reflexivity|reflexivity|].
  destruct (parser_value 53 1024 p64 l64 pow10 cf (strnum_consume_double cf A) m s2 _ 0 t03e1 (or_intror eq_refl) Hw V2) as (_ & _ & a2 & _ & E2);
    [repeat constructor; cbn; lia|reflexivity|vm_compute; reflexivity|reflexivity|].
  subst A. rewrite E1, E2. cbn [t3 t03e1 ft_int ft_frac ft_exp ft_neg].
  destruct (value_3 pow10 P) as (I1 & N1 & S1). destruct (value_03e1 pow10 P) as (I2 & N2 & S2). rewrite I1, N1, I2, N2.
  do 4 eexists. split; [reflexivity|]. split; [reflexivity|].
  split; [exact (sf_finite _ _ _ _ S1)|]. split; [exact (sf_finite _ _ _ _ S2)|].
  apply (sf_neq _ _ _ _ _ S1 S2). discriminate.
Qed.
Lemma same_real : real_value t3 = real_value t03e1.
Proof.
  unfold real_value, mantissa. cbn [t3 t03e1 ft_int ft_frac ft_exp]. assert (p10 1 = 10)%R as -> by (rewrite p10_nat by lia; reflexivity).
  vm_compute (num_val 10 _). vm_compute (- Zlen _). change (p10 (-1)) with (/ (10 * 1))%R. change (p10 0) with 1%R.
  change (p10 (-0)) with 1%R. lra.
Qed.
