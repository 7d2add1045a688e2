(** Rounding error analysis of the floating point parsers. *)
From Coq Require Import ZArith Reals Lra Lia Psatz.
From Flocq Require Import Core BinarySingleNaN Relative.
From Verif Require Import Base Mem Libc StrviewModel StrnumModel Spec NumSpec MemLemmas StrviewProofs StrviewProofs2 StrviewProofs3 StrnumProofs StrnumProofs2 StrnumProofs3
  StrnumFloat StrnumFloatVal IeeeSpec.
Open Scope Z_scope.

(** ** Relative closeness *)
Section Near.
Variable e : R.
Hypothesis He : (0 <= e < 1)%R.

Definition near (k : nat) (y x : R) : Prop := (0 <= y)%R /\ ((1 - e) ^ k * y <= x <= (1 + e) ^ k * y)%R.

Lemma lo_pos : forall k, (0 < (1 - e) ^ k)%R.
Proof. intro k. apply pow_lt. lra. Qed.
Lemma lo_le1 : forall k, ((1 - e) ^ k <= 1)%R.
Proof. intro k. apply Rle_trans with (1 ^ k)%R; [apply pow_incr; lra|rewrite pow1; lra]. Qed.
Lemma hi_ge1 : forall k, (1 <= (1 + e) ^ k)%R.
Proof. intro k. apply Rle_trans with (1 ^ k)%R; [rewrite pow1; lra|apply pow_incr; lra]. Qed.

Lemma near_0 : forall y, (0 <= y)%R -> near 0 y y.
Proof. intros y H. split; auto. cbn. lra. Qed.
Lemma near_nonneg : forall k y x, near k y x -> (0 <= x)%R.
Proof. intros k y x [H1 [H2 _]]. pose proof (lo_pos k). assert (0 <= (1 - e) ^ k * y)%R by (apply Rmult_le_pos; lra). lra. Qed.
Lemma near_S : forall k y x, near k y x -> near (S k) y x.
Proof.
  intros k y x [H1 [H2 H3]]. split; auto. cbn [pow].
  pose proof (lo_pos k). pose proof (hi_ge1 k). split.
  - apply Rle_trans with ((1 - e) ^ k * y)%R; auto. rewrite Rmult_assoc.
    assert (0 <= (1 - e) ^ k * y)%R by (apply Rmult_le_pos; lra). nra.
  - apply Rle_trans with ((1 + e) ^ k * y)%R; auto. rewrite Rmult_assoc.
    assert (0 <= (1 + e) ^ k * y)%R by (apply Rmult_le_pos; lra). nra.
Qed.
Lemma near_le : forall k k' y x, near k y x -> (k <= k')%nat -> near k' y x.
Proof. intros k k' y x H L. induction L; auto. now apply near_S. Qed.
Lemma near_add : forall k y1 x1 y2 x2, near k y1 x1 -> near k y2 x2 -> near k (y1 + y2) (x1 + x2).
Proof. intros k y1 x1 y2 x2 [A1 [A2 A3]] [B1 [B2 B3]]. split; [lra|]. rewrite !Rmult_plus_distr_l. lra. Qed.
Lemma near_mul : forall j k y1 x1 y2 x2, near j y1 x1 -> near k y2 x2 -> near (j + k) (y1 * y2) (x1 * x2).
Proof.
  intros j k y1 x1 y2 x2 HA HB. pose proof (near_nonneg _ _ _ HA) as PA. pose proof (near_nonneg _ _ _ HB) as PB.
  destruct HA as [A1 [A2 A3]]. destruct HB as [B1 [B2 B3]].
  split; [apply Rmult_le_pos; auto|]. rewrite !pow_add. pose proof (lo_pos j). pose proof (lo_pos k).
  pose proof (hi_ge1 j). pose proof (hi_ge1 k). split.
  - replace ((1 - e) ^ j * (1 - e) ^ k * (y1 * y2))%R with (((1 - e) ^ j * y1) * ((1 - e) ^ k * y2))%R by ring.
    apply Rmult_le_compat; auto; apply Rmult_le_pos; lra.
  - replace ((1 + e) ^ j * (1 + e) ^ k * (y1 * y2))%R with (((1 + e) ^ j * y1) * ((1 + e) ^ k * y2))%R by ring.
    apply Rmult_le_compat; auto.
Qed.
Lemma near_rel : forall y x z, (0 <= x)%R -> forall k, near k y x -> (Rabs (z - x) <= e * x)%R -> near (S k) y z.
Proof.
  intros y x z Hx k [H1 [H2 H3]] Hz. apply Rabs_le_inv in Hz. split; auto. cbn [pow]. split.
  - apply Rle_trans with ((1 - e) * x)%R; [|lra]. rewrite Rmult_assoc. apply Rmult_le_compat_l; lra.
  - apply Rle_trans with ((1 + e) * x)%R; [lra|]. rewrite Rmult_assoc. apply Rmult_le_compat_l; lra.
Qed.
(** Bernoulli, both ways *)
Lemma lo_half : forall k, (INR k * e <= / 2)%R -> (/ 2 <= (1 - e) ^ k)%R.
Proof.
  assert (forall k, 1 - INR k * e <= (1 - e) ^ k)%R as B.
  { induction k as [|k IH]; [cbn; lra|]. cbn [pow]. rewrite S_INR.
    pose proof (pos_INR k). assert (0 <= INR k * e * e)%R by (apply Rmult_le_pos; [apply Rmult_le_pos|]; lra).
    apply Rle_trans with ((1 - e) * (1 - INR k * e))%R; [lra|]. apply Rmult_le_compat_l; lra. }
  intros k H. specialize (B k). lra.
Qed.
Lemma hi_two : forall k, (INR k * e <= / 2)%R -> ((1 + e) ^ k <= 2)%R.
Proof.
  intros k H. pose proof (lo_half k H) as L. pose proof (hi_ge1 k).
  assert ((1 - e) ^ k * (1 + e) ^ k <= 1)%R as M.
  { rewrite <- Rpow_mult_distr. apply Rle_trans with (1 ^ k)%R; [apply pow_incr; nra|rewrite pow1; lra]. }
  nra.
Qed.
End Near.

Lemma bernoulli_sym : forall e k, (0 <= e < 1)%R -> (1 - (1 - e) ^ k <= (1 + e) ^ k - 1)%R.
Proof.
  intros e k He. assert (2 <= (1 - e) ^ k + (1 + e) ^ k)%R; [|lra].
  induction k as [|k IH]; [cbn; lra|]. cbn [pow].
  assert ((1 - e) ^ k <= (1 + e) ^ k)%R by (apply pow_incr; lra). nra.
Qed.
Lemma near_abs : forall e k y x, (0 <= e < 1)%R -> near e k y x -> (Rabs (x - y) <= ((1 + e) ^ k - 1) * y)%R.
Proof.
  intros e k y x He [H1 [H2 H3]]. pose proof (bernoulli_sym e k He). apply Rabs_le. split; nra.
Qed.

(** ** Machine operations *)
Section Ops.
Variables (prec emax : Z).
Context (Hp : Prec_gt_0 prec) (Hm : Prec_lt_emax prec emax).
Hypothesis Hemax : 66 <= emax.
Variable e : R.
Hypothesis He : (0 <= e < 1)%R.
Hypothesis Hu : (half_ulp prec <= e)%R.
Notation bf := (binary_float prec emax).
Notation rnd := (round radix2 (SpecFloat.fexp prec emax) ZnearestE).
Notation mn := (min_normal prec emax).
Notation top := (bpow radix2 (emax - 2)).

Local Instance vexp : Valid_exp (SpecFloat.fexp prec emax) := FLT_exp_valid _ prec.

Definition fits (k : nat) (y : R) (b : bf) : Prop := is_finite b = true /\ near e k y (B2R b).

Lemma fits_le : forall k k' y b, fits k y b -> (k <= k')%nat -> fits k' y b.
Proof. intros k k' y b [F N] L. split; auto. eapply near_le; eauto. Qed.

Lemma rnd_rel : forall x, (mn <= x)%R -> (Rabs (rnd x - x) <= e * x)%R.
Proof.
  intros x Hx. assert (0 < mn)%R as P by apply bpow_gt_0.
  pose proof (relative_error_N_FLT radix2 (SpecFloat.emin prec emax) prec Hp (fun x => negb (Z.even x)) x) as R.
  rewrite Rabs_pos_eq in R at 1 by lra.
  assert (bpow radix2 (SpecFloat.emin prec emax + prec - 1) <= x)%R as Hx'.
  { unfold SpecFloat.emin. replace (3 - emax - prec + prec - 1) with (2 - emax) by lia. exact Hx. }
  specialize (R Hx'). rewrite (Rabs_pos_eq x) in R by lra.
  apply Rle_trans with (1 := R). apply Rmult_le_compat_r; [lra|].
  apply Rle_trans with (2 := Hu). unfold half_ulp. rewrite bpow_plus. change (bpow radix2 1) with 2%R. lra.
Qed.

Lemma rnd_top : forall x n, (0 <= x <= bpow radix2 n)%R -> SpecFloat.emin prec emax <= n < emax ->
  (Rabs (rnd x) < bpow radix2 emax)%R.
Proof.
  intros x n [H1 H2] Hn.
  assert (0 <= rnd x)%R by (rewrite <- (round_0 radix2 (SpecFloat.fexp prec emax) ZnearestE); apply round_le; auto with typeclass_instances).
  rewrite Rabs_pos_eq by auto. apply Rle_lt_trans with (bpow radix2 n); [|apply bpow_lt; lia].
  apply round_le_generic; auto with typeclass_instances.
  apply generic_format_bpow. unfold SpecFloat.fexp. red in Hp. lia.
Qed.

Lemma near_rnd : forall k y x, near e k y x -> (INR k * e <= / 2)%R -> (y = 0 \/ 2 * mn <= y)%R -> near e (S k) y (rnd x).
Proof.
  intros k y x N L [-> | Hy].
  - assert (x = 0)%R as -> by (destruct N as [_ N]; lra). rewrite round_0 by auto with typeclass_instances. now apply near_S.
  - pose proof (near_nonneg e He k y x N) as Px. apply near_rel with x; auto. apply rnd_rel.
    pose proof (lo_half e He k L). destruct N as [Py [N _]]. nra.
Qed.

Lemma near_top : forall k y x, near e k y x -> (INR k * e <= / 2)%R -> (y <= top)%R -> (0 <= x <= bpow radix2 (emax - 1))%R.
Proof.
  intros k y x N L Hy. split; [eapply near_nonneg; eauto|]. pose proof (hi_two e He k L). destruct N as [Py [_ N]].
  replace (emax - 1) with (emax - 2 + 1) by lia. rewrite bpow_plus. change (bpow radix2 1) with 2%R.
  pose proof (bpow_ge_0 radix2 (emax - 2)). nra.
Qed.

Lemma emin_le : SpecFloat.emin prec emax <= emax - 1 < emax.
Proof. unfold SpecFloat.emin. red in Hp. lia. Qed.

Lemma ull_fits : forall z, 0 <= z < two64 -> fits 1 (IZR z) (binary_normalize prec emax Hp Hm mode_NE z 0 false).
Proof.
  intros z Hz. pose proof (binary_normalize_correct prec emax Hp Hm mode_NE z 0 false) as C. cbv zeta in C.
  assert (@F2R radix2 {| Fnum := z; Fexp := 0 |} = IZR z) as E by (unfold F2R; cbn; ring). rewrite E in C. clear E.
  assert (0 <= IZR z <= bpow radix2 64)%R as B.
  { change (bpow radix2 64) with (IZR two64). split; apply IZR_le; lia. }
  rewrite Rlt_bool_true in C.
  - destruct C as (C1 & C2 & _). split; auto. rewrite C1. apply near_rnd.
    + apply near_0. lra.
    + cbn. lra.
    + destruct (Z.eq_dec z 0) as [->|]; [left; reflexivity|right].
      apply Rle_trans with 1%R; [|apply IZR_le; lia]. unfold min_normal.
      replace (2 * bpow radix2 (2 - emax))%R with (bpow radix2 (3 - emax)) by (replace (3 - emax) with (1 + (2 - emax)) by lia; rewrite bpow_plus; reflexivity).
      change 1%R with (bpow radix2 0). apply bpow_le. lia.
  - apply rnd_top with 64; auto. unfold SpecFloat.emin. red in Hp. lia.
Qed.

Lemma add_fits : forall k y1 y2 b1 b2, fits k y1 b1 -> fits k y2 b2 -> (INR k * e <= / 2)%R ->
  (y1 + y2 = 0 \/ 2 * mn <= y1 + y2)%R -> (y1 + y2 <= top)%R -> fits (S k) (y1 + y2) (Bplus mode_NE b1 b2).
Proof.
  intros k y1 y2 b1 b2 [F1 N1] [F2 N2] L Hy Ht. pose proof (near_add e k _ _ _ _ N1 N2) as N.
  pose proof (Bplus_correct prec emax Hp Hm mode_NE b1 b2 F1 F2) as C. rewrite Rlt_bool_true in C.
  - destruct C as (C1 & C2 & _). split; auto. rewrite C1. now apply near_rnd.
  - apply rnd_top with (emax - 1); [now apply near_top with k (y1 + y2)%R|apply emin_le].
Qed.

Lemma mul_fits : forall j k y1 y2 b1 b2, fits j y1 b1 -> fits k y2 b2 -> (INR (j + k) * e <= / 2)%R ->
  (y1 * y2 = 0 \/ 2 * mn <= y1 * y2)%R -> (y1 * y2 <= top)%R -> fits (S (j + k)) (y1 * y2) (Bmult mode_NE b1 b2).
Proof.
  intros j k y1 y2 b1 b2 [F1 N1] [F2 N2] L Hy Ht. pose proof (near_mul e He j k _ _ _ _ N1 N2) as N.
  pose proof (Bmult_correct prec emax Hp Hm mode_NE b1 b2) as C. rewrite Rlt_bool_true in C.
  - destruct C as (C1 & C2 & _). split; [now rewrite C2, F1, F2|]. rewrite C1. now apply near_rnd.
  - apply rnd_top with (emax - 1); [now apply near_top with (j + k)%nat (y1 * y2)%R|apply emin_le].
Qed.
End Ops.

(** ** Shape of the computation *)
Lemma p10_plus : forall a b, p10 (a + b) = (p10 a * p10 b)%R.
Proof. intros. apply powerRZ_add. lra. Qed.
Lemma p10_pos : forall n, (0 < p10 n)%R.
Proof. intro n. apply powerRZ_lt. lra. Qed.
Lemma p10_nat : forall n, 0 <= n -> p10 n = IZR (10 ^ n).
Proof.
  intros n Hn. unfold p10. rewrite <- (Z2Nat.id n) by auto. rewrite <- pow_powerRZ. rewrite <- pow_IZR. reflexivity.
Qed.
Lemma p10_0 : p10 0 = 1%R. Proof. reflexivity. Qed.
Lemma p10_le : forall a b, a <= b -> (p10 a <= p10 b)%R.
Proof.
  intros a b H. replace b with (a + (b - a)) by lia. rewrite p10_plus. pose proof (p10_pos a).
  assert (1 <= p10 (b - a))%R; [|nra]. rewrite p10_nat by lia. apply IZR_le.
  pose proof (Z.pow_pos_nonneg 10 (b - a)). lia.
Qed.

Section Shape.
Variable A : arith.
Lemma int_nil : forall k r, int_pure A k [] r = r.
Proof. destruct k; reflexivity. Qed.
Lemma int_cases : forall l, digits10 l -> num_val 10 l < 10 ^ 38 ->
  l = [] \/
  (num_val 10 l <= ULLONG_MAX /\ forall r,
     int_pure A (length l) l r = a_mul A (a_add A r (a_of_ull A (num_val 10 l))) (a_pow10 A 0)) \/
  exists a b, l = a ++ b /\ digits10 a /\ digits10 b /\ Zlen b <= 19 /\ num_val 10 a <= ULLONG_MAX /\ num_val 10 b <= ULLONG_MAX /\
    0 < num_val 10 a /\ forall r,
     int_pure A (length l) l r = a_mul A (a_add A (a_mul A (a_add A r (a_of_ull A (num_val 10 a))) (a_pow10 A (Zlen b)))
                                    (a_of_ull A (num_val 10 b))) (a_pow10 A 0).
Proof.
  intros l Hd Hb. destruct l as [|x l]; [auto|right]. set (L := x :: l) in *.
  destruct (chunk1_spec L 0 Hd ltac:(unfold ULLONG_MAX; lia)) as (a1 & b1 & E1 & C1 & U1 & S1).
  pose proof (chunk1_progress x l ltac:(now inversion Hd)) as P1. fold L in P1. rewrite C1 in P1. cbn [snd] in P1.
  rewrite <- num_acc in *.
  assert (length L = S (length l)) as -> by reflexivity.
  assert (forall r, int_pure A (S (length l)) L r =
     int_pure A (length l) b1 (a_mul A (a_add A r (a_of_ull A (num_val 10 a1))) (a_pow10 A (Zlen b1)))) as Step.
  { intro r. cbn [int_pure]. unfold L at 1. rewrite C1. reflexivity. }
  clearbody L. clear x. subst L. apply Forall_app in Hd as [Hd1 Hd2].
  destruct b1 as [|y b1].
  { left. rewrite app_nil_r. split; auto. intro r. rewrite app_nil_r in Step. rewrite Step. apply int_nil. }
  right. destruct (chunk1_spec (y :: b1) 0 Hd2 ltac:(unfold ULLONG_MAX; lia)) as (a2 & b2 & E2 & C2 & U2 & S2).
  rewrite <- num_acc in *.
  destruct S1 as [S1|(d1 & b1' & Eb & O1)]; [discriminate|].
  destruct (length l) as [|n]; [cbn in P1; lia|].
  assert (isdig 10 y = true) as Hy by now inversion Hd2. injection Eb as <- <-.
  pose proof (isdig_dval _ _ Hy) as Hyv.
  assert (10 ^ 18 <= num_val 10 a1) as G1 by (change (10 ^ 18) with 1000000000000000000; unfold ULLONG_MAX in *; lia).
  assert (b2 = []) as ->.
  { destruct S2 as [S2|(d2 & b2' & -> & O2)]; auto. exfalso.
    rewrite E2 in Hd2, Hb. apply Forall_app in Hd2 as [Hda2 Hdb2]. inversion Hdb2; subst.
    apply isdig_dval in H1.
    pose proof (num_lt a1 Hd1) as N1. pose proof (num_lt a2 Hda2) as N2. pose proof (num_lt (d2 :: b2') Hdb2) as N3.
    rewrite !num_app in Hb. rewrite Zlen_app, (Zlen_cons d2) in Hb.
    assert (10 ^ 18 <= num_val 10 a2) by (change (10 ^ 18) with 1000000000000000000; unfold ULLONG_MAX in *; lia).
    assert (19 <= Zlen a2).
    { destruct (Z_lt_ge_dec (Zlen a2) 19); [exfalso|lia].
      assert (10 ^ Zlen a2 <= 10 ^ 18) by (apply Z.pow_le_mono_r; lia). lia. }
    assert (10 ^ 20 <= 10 ^ (Zlen a2 + (Zlen b2' + 1))).
    { apply Z.pow_le_mono_r; [lia|]. pose proof (Zlen_nonneg b2'). lia. }
    assert (10 ^ 18 * 10 ^ 20 <= num_val 10 a1 * 10 ^ (Zlen a2 + (Zlen b2' + 1))) by (apply Z.mul_le_mono_nonneg; lia).
    change (10 ^ 18 * 10 ^ 20) with (10 ^ 38) in *.
    assert (0 <= num_val 10 a2 * 10 ^ Zlen (d2 :: b2')) by (apply Z.mul_nonneg_nonneg; [lia|apply Z.pow_nonneg; lia]).
    lia. }
  rewrite app_nil_r in E2. subst a2. exists a1, (y :: b1). split; auto. split; auto. split; auto.
  assert (Zlen (y :: b1) <= 19) as L19.
  { destruct (Z_le_gt_dec (Zlen (y :: b1)) 19); auto. exfalso. rewrite num_app in Hb.
    pose proof (num_lt _ Hd2). assert (10 ^ 20 <= 10 ^ Zlen (y :: b1)) by (apply Z.pow_le_mono_r; lia).
    assert (10 ^ 18 * 10 ^ 20 <= num_val 10 a1 * 10 ^ Zlen (y :: b1)) by (apply Z.mul_le_mono_nonneg; lia).
    change (10 ^ 18 * 10 ^ 20) with (10 ^ 38) in *. lia. }
  split; auto. split; auto. split; auto. split; [lia|]. intro r. rewrite Step. cbn [int_pure]. rewrite C2. apply int_nil.
Qed.
End Shape.

(** Number of chunks of at most 20 digits *)
Fixpoint chunks (fuel : nat) (l : list Z) : nat :=
  match fuel, l with
  | O, _ => O
  | _, [] => O
  | S f, _ => S (chunks f (snd (chunk1 l 0)))
  end.
Lemma chunks_bound : forall n l, digits10 l -> (length l <= n)%nat -> Z.of_nat (chunks n l) <= 1 + Zlen l / 19.
Proof.
  induction n as [|n IH]; intros l Hd Hn.
  - cbn [chunks Z.of_nat]. pose proof (Z.div_pos (Zlen l) 19 (Zlen_nonneg l) eq_refl). lia.
  - destruct l as [|x l]; [cbn; lia|]. set (L := x :: l) in *.
    destruct (chunk1_spec L 0 Hd ltac:(unfold ULLONG_MAX; lia)) as (a1 & b1 & E1 & C1 & U1 & S1).
    pose proof (chunk1_progress x l ltac:(now inversion Hd)) as P1. fold L in P1.
    assert (chunks (S n) L = S (chunks n (snd (chunk1 L 0)))) as -> by reflexivity. rewrite C1 in *. cbn [snd] in *.
    rewrite E1 in Hd. apply Forall_app in Hd as [Hd1 Hd2].
    destruct S1 as [-> | (d & b' & -> & O1)].
    { assert (chunks n [] = O) as -> by (destruct n; reflexivity). pose proof (Z.div_pos (Zlen L) 19 (Zlen_nonneg L) eq_refl). lia. }
    assert (19 <= Zlen a1).
    { destruct (Z_le_gt_dec 19 (Zlen a1)); auto. exfalso. inversion Hd2; subst. apply isdig_dval in H1.
      rewrite <- num_acc in *. pose proof (num_lt a1 Hd1). assert (10 ^ Zlen a1 <= 10 ^ 18) by (apply Z.pow_le_mono_r; lia).
      change (10 ^ 18) with 1000000000000000000 in *. unfold ULLONG_MAX in *. lia. }
    specialize (IH (d :: b') Hd2 ltac:(unfold L in *; cbn in *; lia)). rewrite E1, Zlen_app.
    assert (Zlen (d :: b') / 19 + 1 <= (Zlen a1 + Zlen (d :: b')) / 19); [|lia].
    rewrite <- Z.div_add by lia. apply Z.div_le_mono; lia.
Qed.

Section Value.
Variables (prec emax : Z).
Context (Hp : Prec_gt_0 prec) (Hm : Prec_lt_emax prec emax).
Hypothesis Hemax : 66 <= emax.
Variable e : R.
Hypothesis He : (0 <= e < 1)%R.
Hypothesis Hu : (half_ulp prec <= e)%R.
Variable pow10 : Z -> binary_float prec emax.
Variables lo hi : Z.
Hypothesis Hpow : pow_accurate pow10 e lo hi.
Hypotheses (Hlo0 : lo <= 0) (Hhi : 19 <= hi).
Notation mn := (min_normal prec emax).
Notation top := (bpow radix2 (emax - 2)).
Hypothesis Hlo : (2 * mn <= p10 lo)%R.
Notation A := (flocq prec emax Hp Hm pow10).
Notation fits := (fits prec emax e).

Lemma pow_fits : forall n, lo <= n <= hi -> fits 1 (p10 n) (pow10 n).
Proof.
  intros n Hn. destruct (Hpow n Hn) as [F N]. split; auto. pose proof (p10_pos n).
  apply near_rel with (p10 n); auto; [lra|apply near_0; lra].
Qed.

Lemma int_or : forall z, 0 <= z -> (IZR z = 0 \/ 2 * mn <= IZR z)%R.
Proof.
  intros z Hz. destruct (Z.eq_dec z 0) as [->|]; [left; reflexivity|right].
  apply Rle_trans with (p10 0); [apply Rle_trans with (p10 lo); [auto|now apply p10_le]|]. rewrite p10_0. apply IZR_le. lia.
Qed.
Lemma scaled_or : forall z p, 0 <= z -> lo <= p -> (IZR z * p10 p = 0 \/ 2 * mn <= IZR z * p10 p)%R.
Proof.
  intros z p Hz Hlp. destruct (Z.eq_dec z 0) as [->|]; [left; ring|right].
  apply Rle_trans with (p10 p); [apply Rle_trans with (p10 lo); [auto|now apply p10_le]|].
  assert (1 <= IZR z)%R by (apply IZR_le; lia). pose proof (p10_pos p). nra.
Qed.
Lemma k_le : forall j k, (INR k * e <= / 2)%R -> (j <= k)%nat -> (INR j * e <= / 2)%R.
Proof. intros j k H L. apply le_INR in L. apply Rle_trans with (2 := H). apply Rmult_le_compat_r; lra. Qed.

Lemma zero_fits : fits 0 0 (B754_zero false).
Proof. split; [reflexivity|]. apply (near_0 e 0%R). apply Rle_refl. Qed.

Lemma int_fits : forall l, digits10 l -> num_val 10 l < 10 ^ 38 -> (IZR (num_val 10 l) <= top)%R -> (INR 7 * e <= / 2)%R ->
  fits 7 (IZR (num_val 10 l)) (int_pure A (length l) l (a_zero A)).
Proof.
  intros l Hd Hb Ht H7. pose proof (num_lt l Hd) as Hn.
  assert (forall z, 0 <= z <= ULLONG_MAX -> fits 1 (IZR z) (a_of_ull A z)) as Fu.
  { intros z Hz. apply ull_fits; auto. unfold two64, ULLONG_MAX in *. lia. }
  assert (fits 1 1 (pow10 0)) as F0 by (apply (pow_fits 0); lia).
  pose proof (fits_le prec emax e He 0 1 _ _ zero_fits (le_S _ _ (le_n 0))) as Z1.
  destruct (int_cases A l Hd Hb) as [-> | [[U E] | (a & b & -> & Da & Db & Lb & Ua & Ub & Pa & E)]].
  - apply fits_le with O; auto. apply zero_fits. lia.
  - rewrite E. cbn [a_mul a_add a_pow10 a_zero flocq].
    pose proof (add_fits prec emax Hp Hm Hemax e He Hu 1 _ _ _ _ Z1 (Fu _ (conj (proj1 Hn) U)) (k_le 1 7 H7 ltac:(lia))) as F1.
    rewrite Rplus_0_l in F1. specialize (F1 (int_or _ (proj1 Hn)) Ht).
    pose proof (mul_fits prec emax Hp Hm Hemax e He Hu 2 1 _ _ _ _ F1 F0 (k_le 3 7 H7 ltac:(lia))) as F2.
    rewrite Rmult_1_r in F2. specialize (F2 (int_or _ (proj1 Hn)) Ht). apply fits_le with 4%nat; auto; lia.
  - rewrite E. cbn [a_mul a_add a_pow10 a_zero flocq].
    pose proof (num_lt a Da) as Na. pose proof (num_lt b Db) as Nb. pose proof (Zlen_nonneg b) as Lb0.
    rewrite num_app, plus_IZR, mult_IZR in Ht |- *. rewrite <- (p10_nat (Zlen b)) in Ht |- * by auto.
    assert (0 <= IZR (num_val 10 b))%R as Rb by (apply IZR_le; lia).
    assert (1 <= IZR (num_val 10 a))%R as Ra by (apply IZR_le; lia).
    assert (1 <= p10 (Zlen b))%R as Pb by (rewrite <- p10_0; apply p10_le; auto).
    assert (IZR (num_val 10 a) <= IZR (num_val 10 a) * p10 (Zlen b))%R by nra.
    pose proof (add_fits prec emax Hp Hm Hemax e He Hu 1 _ _ _ _ Z1 (Fu _ (conj (proj1 Na) Ua)) (k_le 1 7 H7 ltac:(lia))) as F1.
    rewrite Rplus_0_l in F1. specialize (F1 (int_or _ (proj1 Na)) ltac:(lra)).
    assert (lo <= Zlen b <= hi) as Hlb by lia.
    pose proof (mul_fits prec emax Hp Hm Hemax e He Hu 2 1 _ _ _ _ F1 (pow_fits _ Hlb) (k_le 3 7 H7 ltac:(lia))
                 (scaled_or _ _ (proj1 Na) (proj1 Hlb)) ltac:(lra)) as F2. cbn [Nat.add] in F2.
    pose proof (add_fits prec emax Hp Hm Hemax e He Hu 4 _ _ _ _ F2
                 (fits_le prec emax e He 1 4 _ _ (Fu _ (conj (proj1 Nb) Ub)) ltac:(lia)) (k_le 4 7 H7 ltac:(lia))) as F3.
    assert (IZR (num_val 10 a) * p10 (Zlen b) + IZR (num_val 10 b) = IZR (num_val 10 a * 10 ^ Zlen b + num_val 10 b))%R as EZ
      by (rewrite plus_IZR, mult_IZR, p10_nat by auto; reflexivity).
    assert (0 <= num_val 10 a * 10 ^ Zlen b + num_val 10 b) as PZ by (rewrite num_app in Hn; lia).
    specialize (F3 ltac:(rewrite EZ; now apply int_or) Ht).
    pose proof (mul_fits prec emax Hp Hm Hemax e He Hu 5 1 _ _ _ _ F3 F0 (k_le 6 7 H7 ltac:(lia))) as F4.
    rewrite Rmult_1_r in F4. apply F4; [rewrite EZ; now apply int_or|exact Ht].
Qed.

Lemma frac_fits : forall n l p k y r, digits10 l -> (length l <= n)%nat -> fits k y r -> (3 <= k)%nat ->
  (INR (k + chunks n l) * e <= / 2)%R -> p <= 0 -> lo <= p - Zlen l ->
  (y = 0 \/ 2 * mn <= y)%R -> (y + p10 p <= top)%R ->
  fits (k + chunks n l) (y + IZR (num_val 10 l) * p10 (p - Zlen l)) (frac_pure A n l p r)
  /\ (y + IZR (num_val 10 l) * p10 (p - Zlen l) <= top)%R
  /\ (y + IZR (num_val 10 l) * p10 (p - Zlen l) = 0 \/ 2 * mn <= y + IZR (num_val 10 l) * p10 (p - Zlen l))%R.
Proof.
  induction n as [|n IH]; intros l p k y r Hd Hn Hr Hk Hke Hp0 Hlp Hy Ht.
  - destruct l; [|cbn in Hn; lia]. cbn [frac_pure chunks]. change (num_val 10 []) with 0. pose proof (p10_pos p).
    rewrite Rmult_0_l, Rplus_0_r, Nat.add_0_r. repeat split; auto; try apply Hr. lra.
  - destruct l as [|x l].
    { cbn [frac_pure chunks]. change (num_val 10 []) with 0. pose proof (p10_pos p).
      rewrite Rmult_0_l, Rplus_0_r, Nat.add_0_r. repeat split; auto; try apply Hr. lra. }
    set (L := x :: l) in *.
    destruct (chunk1_spec L 0 Hd ltac:(unfold ULLONG_MAX; lia)) as (a1 & b1 & E1 & C1 & U1 & S1).
    pose proof (chunk1_progress x l ltac:(now inversion Hd)) as P1. fold L in P1.
    assert (chunks (S n) L = S (chunks n (snd (chunk1 L 0)))) as Ech by reflexivity. rewrite Ech in *. rewrite C1 in *. cbn [snd] in *.
    rewrite <- num_acc in *. set (p' := p - Zlen L + Zlen b1).
    assert (frac_pure A (S n) L p r = frac_pure A n b1 p'
      (a_add A r (a_mul A (a_of_ull A (num_val 10 a1)) (a_pow10 A p')))) as ->.
    { cbn [frac_pure]. unfold L at 1. rewrite C1. reflexivity. }
    cbn [a_mul a_add a_of_ull a_pow10 flocq].
    assert (digits10 a1 /\ digits10 b1) as [Hd1 Hd2] by (rewrite E1 in Hd; now apply Forall_app in Hd).
    pose proof (num_lt a1 Hd1) as N1. pose proof (Zlen_nonneg b1) as Lb. pose proof (Zlen_nonneg a1) as La.
    assert (Zlen L = Zlen a1 + Zlen b1) as EL by (rewrite E1; apply Zlen_app).
    assert (p' = p - Zlen a1) as Ep by (unfold p'; lia).
    assert (lo <= p' <= hi) as Hp' by lia.
    pose proof (p10_pos p') as Pp'.
    assert (0 <= IZR (num_val 10 a1))%R as Ra by (apply IZR_le; lia).
    assert ((IZR (num_val 10 a1) + 1) * p10 p' <= p10 p)%R as Step.
    { replace p with (Zlen a1 + p') by lia. rewrite p10_plus. apply Rmult_le_compat_r; [lra|].
      rewrite p10_nat by auto. rewrite <- plus_IZR. apply IZR_le. lia. }
    assert (0 <= y)%R as Py by apply Hr.
    assert (INR 3 * e <= / 2)%R as H3 by (exact (k_le 3 _ Hke ltac:(lia))).
    pose proof (ull_fits prec emax Hp Hm Hemax e He Hu (num_val 10 a1) ltac:(unfold two64, ULLONG_MAX in *; lia)) as Fu.
    pose proof (mul_fits prec emax Hp Hm Hemax e He Hu 1 1 _ _ _ _ Fu (pow_fits _ Hp') (k_le 2 3 H3 ltac:(lia))
      (scaled_or _ _ (proj1 N1) (proj1 Hp')) ltac:(nra)) as Fm. cbn [Nat.add] in Fm.
    pose proof (add_fits prec emax Hp Hm Hemax e He Hu k _ _ _ _ Hr (fits_le prec emax e He 3 k _ _ Fm Hk) (k_le k _ Hke ltac:(lia))) as Fa.
    assert (y + IZR (num_val 10 a1) * p10 p' = 0 \/ 2 * mn <= y + IZR (num_val 10 a1) * p10 p')%R as Or.
    { destruct (scaled_or _ p' (proj1 N1) (proj1 Hp')) as [Z|Z]; [rewrite Z, Rplus_0_r; auto|right; lra]. }
    specialize (Fa Or ltac:(nra)).
    assert (fits (S k + chunks n b1) (y + IZR (num_val 10 a1) * p10 p' + IZR (num_val 10 b1) * p10 (p' - Zlen b1))
              (frac_pure A n b1 p' (Bplus mode_NE r (Bmult mode_NE (binary_normalize prec emax Hp Hm mode_NE (num_val 10 a1) 0 false) (pow10 p'))))
            /\ (y + IZR (num_val 10 a1) * p10 p' + IZR (num_val 10 b1) * p10 (p' - Zlen b1) <= top)%R
            /\ (y + IZR (num_val 10 a1) * p10 p' + IZR (num_val 10 b1) * p10 (p' - Zlen b1) = 0 \/
                2 * mn <= y + IZR (num_val 10 a1) * p10 p' + IZR (num_val 10 b1) * p10 (p' - Zlen b1))%R) as K.
    { apply IH; auto; try lia; try lra.
      - cbn in Hn. lia.
      - replace (S k + chunks n b1)%nat with (k + S (chunks n b1))%nat by lia. auto. }
    assert (y + IZR (num_val 10 L) * p10 (p - Zlen L) = y + IZR (num_val 10 a1) * p10 p' + IZR (num_val 10 b1) * p10 (p' - Zlen b1))%R as EV.
    { rewrite E1 at 1. rewrite num_app, plus_IZR, mult_IZR. rewrite <- p10_nat by auto.
      replace (p' - Zlen b1) with (p - Zlen L) by (unfold p'; lia).
      unfold p'. rewrite p10_plus. ring. }
    rewrite EV. replace (k + S (chunks n b1))%nat with (S k + chunks n b1)%nat by lia. exact K.
Qed.

Lemma trim_zeros_real : forall l, digits10 l ->
  (IZR (num_val 10 (drop_in_end [48%Z] l)) * p10 (- Zlen (drop_in_end [48%Z] l)) = IZR (num_val 10 l) * p10 (- Zlen l))%R.
Proof.
  intros l Hd. destruct (drop_in_end_spec [48] l) as (c & E & Hc & _). set (d := drop_in_end [48] l) in *. clearbody d. subst l.
  rewrite num_app. assert (num_val 10 c = 0) as ->.
  { rewrite num_acc. apply zeros_val; auto; [lia|]. eapply Forall_impl; [|exact Hc]. cbn. intros a [<-|[]]; auto. }
  rewrite Z.add_0_r, mult_IZR. rewrite <- p10_nat by apply Zlen_nonneg. rewrite Zlen_app.
  rewrite Rmult_assoc, <- p10_plus. replace (Zlen c + - (Zlen d + Zlen c)) with (- Zlen d) by lia. reflexivity.
Qed.

Lemma float_fits : forall li lf ex k, digits10 li -> digits10 lf -> num_val 10 li < 10 ^ 38 ->
  (IZR (num_val 10 li) + 1 <= top)%R -> Zlen lf <= - lo -> lo <= ex <= hi ->
  let m := (IZR (num_val 10 li) + IZR (num_val 10 lf) * p10 (- Zlen lf))%R in
  (m * p10 ex = 0 \/ 2 * mn <= m * p10 ex)%R -> (m * p10 ex <= top)%R ->
  10 + Zlen lf / 19 = Z.of_nat k -> (INR k * e <= / 2)%R ->
  fits k (m * p10 ex) (float_pure A li lf ex).
Proof.
  intros li lf ex k Di Df Hb Ht Hl Hex m Hv Hvt Ek Hk. unfold float_pure.
  destruct (drop_in_end_spec [48] lf) as (c & E & Hc & _). pose proof (trim_zeros_real lf Df) as TV.
  set (d := drop_in_end [48] lf) in *.
  assert (digits10 d) as Dd by (rewrite E in Df; now apply Forall_app in Df as [Df _]).
  assert (Zlen d <= Zlen lf) as Ld by (rewrite E, Zlen_app; pose proof (Zlen_nonneg c); lia).
  pose proof (chunks_bound (length d) d Dd (le_n _)) as CB.
  assert (Zlen d / 19 <= Zlen lf / 19) as DD by (apply Z.div_le_mono; lia).
  assert (0 <= Zlen lf / 19) as D0 by (apply Z.div_pos; [apply Zlen_nonneg|lia]).
  assert (9 + chunks (length d) d <= k)%nat as Kc by lia.
  pose proof (int_fits li Di Hb ltac:(lra) (k_le 7 k Hk ltac:(lia))) as FI.
  pose proof (num_lt li Di) as Ni.
  destruct (frac_fits (length d) d 0 7 _ _ Dd (le_n _) FI ltac:(lia) (k_le (7 + chunks (length d) d) k Hk ltac:(lia)) ltac:(lia) ltac:(lia)
    (int_or _ (proj1 Ni)) ltac:(rewrite p10_0; lra)) as (F1 & F2 & F3).
  rewrite Z.sub_0_l in F1, F2, F3. rewrite TV in F1, F2, F3. fold m in F1, F2, F3.
  cbn [a_mul a_pow10 flocq].
  apply fits_le with (S (7 + chunks (length d) d + 1)); auto; [|lia].
  apply mul_fits; auto. apply pow_fits; auto. apply k_le with k; auto; lia.
Qed.
End Value.
