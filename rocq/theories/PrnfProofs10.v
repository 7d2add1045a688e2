(** Proofs about prnf with IEEE-754 arithmetic: numbers that are printed exactly. *)
From Coq Require Import ZArith Reals Lra.
From Flocq Require Import Core BinarySingleNaN.
From Verif Require Import Base Mem Spec IeeeSpec PrnfModel PrnfSpec PrnfIeee PrnfProofs4 PrnfProofs7 PrnfProofs8.
Open Scope Z_scope.
Notation fexp32 := (SpecFloat.fexp 24 128).
Notation rnd := (round radix2 fexp32 ZnearestE).

Lemma small_format : forall n, Z.abs n <= 2 ^ 24 -> generic_format radix2 fexp32 (IZR n).
Proof.
  intros n Hn. destruct (Z.eq_dec (Z.abs n) (2 ^ 24)) as [E|E].
  - destruct (Z.abs_spec n) as [[_ A]|[_ A]].
    + replace n with (2 ^ 24) by lia. change (IZR (2 ^ 24)) with (bpow radix2 24). apply generic_format_bpow. cbn. unfold SpecFloat.emin. lia.
    + replace n with (- 2 ^ 24) by lia. rewrite opp_IZR. apply generic_format_opp. change (IZR (2 ^ 24)) with (bpow radix2 24). apply generic_format_bpow. cbn. unfold SpecFloat.emin. lia.
  - apply generic_format_FLT. exists (Float radix2 n 0).
    + unfold F2R. cbn [Fnum Fexp bpow]. rewrite Rmult_1_r. reflexivity.
    + cbn [Fnum]. change (Zpower radix2 24) with (2 ^ 24). lia.
    + cbn. unfold SpecFloat.emin. lia.
Qed.
Lemma floor_whole : forall n, Zfloor (IZR n + / 2) = n.
Proof. intros n. apply Zfloor_imp. rewrite plus_IZR. lra. Qed.

(** The number is a float and its decimals are not more than printed. *)
Theorem exact_reading : forall (d : b64) p n, 0 <= p <= 10 -> is_finite d = true -> generic_format radix2 fexp32 (B2R d) ->
  (Rabs (B2R d) * IZR (10 ^ p) = IZR n)%R -> n <= 2 ^ 24 -> read_as ieee p (narrow d) = RNum (Rlt_bool (B2R d) 0) n.
Proof.
  intros d p n Hp Fd Gd Hn Hl.
  assert (0 <= n) as N0 by (apply le_IZR; rewrite <- Hn; apply Rmult_le_pos; [apply Rabs_pos|apply IZR_le, Z.pow_nonneg; lia]).
  assert (1 <= IZR (10 ^ p))%R as T1 by (apply IZR_le; apply (Z.pow_le_mono_r 10 0 p); lia).
  assert (Rabs (B2R d) <= IZR (2 ^ 24))%R as Small.
  { apply Rle_trans with (IZR n); [|now apply IZR_le]. rewrite <- Hn. pose proof (Rabs_pos (B2R d)). rewrite <- (Rmult_1_r (Rabs (B2R d))) at 1. now apply Rmult_le_compat_l. }
  assert (is_finite (narrow d) = true /\ B2R (narrow d) = B2R d) as [Fv Vv].
  { destruct (narrow_ok d Fd) as [[Fv Vv]|[_ Hm]].
    - split; auto. rewrite Vv. apply round_generic; auto. apply valid_rnd_N.
    - exfalso. assert (IZR (2 ^ 24) < bpow radix2 128 * (1 - bpow radix2 (-24)))%R as L; [|exact (Rlt_irrefl _ (Rlt_le_trans _ _ _ L (Rle_trans _ _ _ Hm Small)))].
      change (IZR (2 ^ 24)) with (bpow radix2 24). apply Rlt_le_trans with (bpow radix2 127); [apply bpow_lt; lia|].
      change (bpow radix2 128) with (bpow radix2 (127 + 1)). rewrite bpow_plus. change (bpow radix2 1) with 2%R. pose proof (bpow_gt_0 radix2 127).
      assert (bpow radix2 (-24) <= bpow radix2 (-1))%R as B by (apply bpow_le; lia). change (bpow radix2 (-1)) with (/ 2)%R in B.
      rewrite Rmult_assoc. rewrite <- (Rmult_1_r (bpow radix2 127)) at 1. apply Rmult_le_compat_l; lra. }
  assert (rnd (Rabs (B2R (narrow d)) * rnd (IZR (10 ^ p))) = IZR n) as Ey.
  { rewrite Vv. rewrite (round_generic radix2 fexp32 ZnearestE (IZR (10 ^ p))) by (apply pow10_format; auto). rewrite Hn.
    apply round_generic; [apply valid_rnd_N|]. apply small_format. lia. }
  destruct (read_finite p (narrow d) ltac:(lia) Fv) as [(Y & _)|(Y & Yn & E)]; rewrite Ey in *.
  - exfalso. assert (IZR n < bpow radix2 64)%R as L; [|exact (Rlt_irrefl _ (Rlt_le_trans _ _ _ L Y))]. change (bpow radix2 64) with (IZR (2 ^ 64)). apply IZR_lt. lia.
  - rewrite E, Vv, floor_whole. reflexivity.
Qed.

Lemma zero_reading : forall s p, 0 <= p <= 10 -> read_as ieee p (narrow (B754_zero s)) = RNum false 0.
Proof.
  intros s p Hp. rewrite (exact_reading (B754_zero s) p 0); auto; cbn [B2R].
  - rewrite Rlt_bool_false; [reflexivity|apply Rle_refl].
  - apply generic_format_0.
  - rewrite Rabs_R0. apply Rmult_0_l.
  - lia.
Qed.
