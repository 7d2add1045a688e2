(** Proofs about prnf configured with PRNF_SUPPORT_DOUBLE: floating point arguments in IEEE-754 arithmetic. *)
From Coq Require Import ZArith Reals Lra Lia Psatz.
From Flocq Require Import Core BinarySingleNaN Relative Sterbenz.
From Verif Require Import Base Mem NumSpec IeeeSpec StrnumIeee StrnumIeee2 PrnfModel PrnfSpec PrnfProofs4 PrnfIeee PrnfDouble.
From Verif Require PrnfProofs7 PrnfProofs8.
Open Scope Z_scope.

Notation fexp64 := (SpecFloat.fexp 53 1024).
Notation rnd := (round radix2 fexp64 ZnearestE).
#[local] Instance vexp64 : Valid_exp fexp64 := FLT_exp_valid _ 53.
Notation u := (bpow radix2 (-53)).
Notation eta := (bpow radix2 (-1075)).

Lemma rnd_err : forall x, (Rabs (rnd x - x) <= u * Rabs x + eta)%R.
Proof.
  intros x. destruct (error_N_FLT radix2 (SpecFloat.emin 53 1024) 53 eq_refl (fun x => negb (Z.even x)) x) as (e & h & E1 & E2 & _ & E).
  change (round radix2 (FLT_exp (SpecFloat.emin 53 1024) 53) (Znearest (fun x => negb (Z.even x))) x) with (rnd x) in E. rewrite E.
  replace (x * (1 + e) + h - x)%R with (x * e + h)%R by ring.
  assert (/ 2 * bpow radix2 (-53 + 1) = u)%R as U by (rewrite bpow_plus; change (bpow radix2 1) with 2%R; lra).
  assert (/ 2 * bpow radix2 (SpecFloat.emin 53 1024) = eta)%R as V.
  { change (SpecFloat.emin 53 1024) with (-1075 + 1). rewrite bpow_plus. change (bpow radix2 1) with 2%R. lra. }
  assert (Rabs e <= u)%R as E1' by (rewrite <- U; exact E1). rewrite V in E2. apply Rle_trans with (1 := Rabs_triang _ _). rewrite Rabs_mult.
  pose proof (Rabs_pos x). assert (Rabs x * Rabs e <= Rabs x * u)%R by (apply Rmult_le_compat_l; auto). lra.
Qed.

Lemma rnd_b64 : forall x : b64, rnd (B2R x) = B2R x.
Proof. intros x. apply round_generic; [apply valid_rnd_N|apply generic_format_B2R]. Qed.

(** Whole part of a number of the format. *)
Lemma floor_format : forall x, generic_format radix2 fexp64 x -> generic_format radix2 fexp64 (IZR (Zfloor x)).
Proof.
  intros x Hx. pose proof (generic_round_generic radix2 fexp64 (FIX_exp 0) Zfloor x Hx) as G.
  unfold round, F2R, scaled_mantissa, cexp, FIX_exp in G. cbn [Fnum Fexp] in G. cbn [bpow Z.opp] in G. rewrite !Rmult_1_r in G. exact G.
Qed.
Lemma big_whole : forall x, generic_format radix2 fexp64 x -> (bpow radix2 53 <= x)%R -> x = IZR (Zfloor x).
Proof.
  intros x Hx Hb. unfold generic_format in Hx. set (mm := Ztrunc (scaled_mantissa radix2 fexp64 x)) in *.
  assert (54 <= mag radix2 x) as Hm by (apply (mag_ge_bpow radix2 x 54); rewrite Rabs_pos_eq; [exact Hb|pose proof (bpow_gt_0 radix2 53); lra]).
  assert (0 <= cexp radix2 fexp64 x) as Hc by (unfold cexp, SpecFloat.fexp, SpecFloat.emin; lia).
  assert (x = IZR (mm * 2 ^ cexp radix2 fexp64 x)) as E.
  { rewrite Hx at 1. unfold F2R. cbn [Fnum Fexp]. rewrite mult_IZR. f_equal. rewrite <- (IZR_Zpower radix2) by auto. reflexivity. }
  rewrite E at 2. now rewrite Zfloor_IZR.
Qed.
Lemma frac_format : forall x, (0 <= x)%R -> generic_format radix2 fexp64 x -> generic_format radix2 fexp64 (x - IZR (Zfloor x)).
Proof.
  intros x H0 Hx. pose proof (Zfloor_lb x) as L. pose proof (Zfloor_ub x) as U.
  destruct (Z.eq_dec (Zfloor x) 0) as [E|E]; [rewrite E, Rminus_0_r; exact Hx|].
  assert (1 <= Zfloor x) as P by (assert (0 <= Zfloor x) by (apply Zfloor_lub; exact H0); lia). apply IZR_le in P.
  apply sterbenz; auto using floor_format; [apply vexp64|apply FLT_exp_monotone|]. lra.
Qed.

(** Numbers of the model *)
Lemma double_of_ok : forall z e, (Rabs (F2R (Float radix2 z e)) <= bpow radix2 1023)%R ->
  is_finite (double_of z e) = true /\ B2R (double_of z e) = rnd (F2R (Float radix2 z e)).
Proof.
  intros z e H. unfold double_of. pose proof (binary_normalize_correct 53 1024 p64 l64 mode_NE z e false) as C. cbv zeta in C.
  rewrite Rlt_bool_true in C; [destruct C as (C1 & C2 & _); auto|].
  apply Rle_lt_trans with (bpow radix2 1023); [|apply bpow_lt; lia].
  apply abs_round_le_generic; [exact vexp64|apply valid_rnd_N| |exact H]. apply generic_format_bpow. unfold SpecFloat.fexp, SpecFloat.emin. lia.
Qed.
Lemma float_int : forall z, Z.abs z <= 2 ^ 64 -> is_finite (double_of z 0) = true /\ B2R (double_of z 0) = rnd (IZR z).
Proof.
  intros z Hz. assert (F2R (Float radix2 z 0) = IZR z) as E by (unfold F2R; cbn; ring). rewrite <- E. apply double_of_ok. rewrite E, <- abs_IZR.
  apply Rle_trans with (IZR (2 ^ 64)); [now apply IZR_le|]. change (IZR (2 ^ 64)) with (bpow radix2 64). apply bpow_le. lia.
Qed.
Lemma B2R_SF : forall (x : b64) s m e, B2SF x = SpecFloat.S754_finite s m e -> B2R x = F2R (Float radix2 (cond_Zopp s (Zpos m)) e) /\ is_finite x = true.
Proof. intros x s m e H. destruct x; try discriminate. injection H as -> -> ->. auto. Qed.

Lemma zero_val : B2R (double_of 0 0) = 0%R /\ is_finite (double_of 0 0) = true. Proof. split; reflexivity. Qed.
Lemma half_val : B2R (double_of 1 (-1)) = (/ 2)%R /\ is_finite (double_of 1 (-1)) = true.
Proof.
  destruct (B2R_SF (double_of 1 (-1)) false 4503599627370496 (-53) eq_refl) as [-> ->]. split; auto. unfold F2R. cbn [Fnum Fexp cond_Zopp].
  change (4503599627370496) with (2 ^ 52). change (IZR (2 ^ 52)) with (bpow radix2 52). rewrite <- bpow_plus. reflexivity.
Qed.
Lemma ullong_val : B2R (double_of ULLONG_MAX 0) = bpow radix2 64 /\ is_finite (double_of ULLONG_MAX 0) = true.
Proof.
  destruct (B2R_SF (double_of ULLONG_MAX 0) false 4503599627370496 12 eq_refl) as [-> ->]. split; auto. unfold F2R. cbn [Fnum Fexp cond_Zopp].
  change 4503599627370496 with (2 ^ 52). change (IZR (2 ^ 52)) with (bpow radix2 52). rewrite <- bpow_plus. reflexivity.
Qed.
(** A float is also a double. *)
Lemma format_32_64 : forall x, generic_format radix2 (SpecFloat.fexp 24 128) x -> generic_format radix2 fexp64 x.
Proof. intros x H. apply (generic_inclusion_mag radix2 (SpecFloat.fexp 24 128)); [intros _; unfold SpecFloat.fexp, SpecFloat.emin; lia|exact H]. Qed.
Lemma widen_ok : forall f : b32, is_finite f = true -> is_finite (widen f) = true /\ B2R (widen f) = B2R f.
Proof.
  intros [s|s| |s mm e Hb] Hf; try discriminate Hf; [split; reflexivity|]. set (f := B754_finite s mm e Hb : b32) in *.
  pose proof (binary_normalize_correct 53 1024 p64 l64 mode_NE (cond_Zopp s (Zpos mm)) e s) as C. cbv zeta in C.
  change (F2R (Float radix2 (cond_Zopp s (Zpos mm)) e)) with (B2R f) in C. change (round_mode mode_NE) with ZnearestE in C.
  rewrite round_generic in C; [|apply valid_rnd_N|apply format_32_64, generic_format_B2R].
  rewrite Rlt_bool_true in C; [destruct C as (C1 & C2 & _); split; [exact C2|exact C1]|].
  apply Rlt_le_trans with (bpow radix2 128); [apply (abs_B2R_lt_emax 24 128)|apply bpow_le; lia].
Qed.
Notation fmax := (widen (float_of (2 ^ 24 - 1) 104)).
Lemma max_val : B2R fmax = FLT_MAX /\ is_finite fmax = true.
Proof.
  destruct PrnfProofs7.max_val as [V F]. destruct (widen_ok _ F) as [-> ->]. split; auto. rewrite V. unfold FLT_MAX.
  rewrite Rmult_minus_distr_l, Rmult_1_r, <- bpow_plus. reflexivity.
Qed.
(** The entries of the table *)
Definition pw (p : Z) : R := B2R (widen (float_of (10 ^ p) 0)).
Definition tbl_rel (p : Z) : R := if p <=? 10 then 0%R else bpow radix2 (-24).
Lemma pow_val : forall p, 0 <= p <= 19 -> is_finite (widen (float_of (10 ^ p) 0)) = true
  /\ (Rabs (pw p - IZR (10 ^ p)) <= tbl_rel p * IZR (10 ^ p))%R /\ (1 <= pw p)%R /\ (1 <= IZR (10 ^ p))%R.
Proof.
  intros p Hp. destruct (PrnfProofs7.pow_val p Hp) as (F & V & E & P1 & T1). unfold pw. destruct (widen_ok _ F) as [-> ->]. rewrite V.
  split; auto. split; auto. unfold tbl_rel. destruct (Z.leb_spec p 10) as [L|L]; [|exact E].
  rewrite round_generic; [|apply valid_rnd_N|apply PrnfProofs8.pow10_format; lia]. rewrite Rminus_eq_0, Rabs_R0. lra.
Qed.

Lemma inf_SF : forall (x : b64) s, B2SF x = SpecFloat.S754_infinity s -> x = B754_infinity s.
Proof. intros x s H. destruct x; try discriminate. injection H as ->. reflexivity. Qed.

Lemma neg_ok : forall v : b64, is_finite v = true -> f_lt dieee v (f_int dieee 0) = Rlt_bool (B2R v) 0.
Proof. intros v H. cbn [f_lt f_int dieee]. rewrite Bltb_correct by (auto; apply zero_val). now rewrite (proj1 zero_val). Qed.
Lemma absv_ok : forall v : b64, is_finite v = true -> is_finite (absv dieee v) = true /\ B2R (absv dieee v) = Rabs (B2R v).
Proof.
  intros v H. unfold absv. rewrite neg_ok by auto. cbn [f_neg dieee]. destruct (Rlt_bool_spec (B2R v) 0) as [L|L].
  - rewrite is_finite_Bopp, B2R_Bopp. split; auto. now rewrite Rabs_left.
  - split; auto. now rewrite Rabs_pos_eq.
Qed.

Lemma half_up : forall x, Zfloor (x + / 2) = if Rle_bool (/ 2) (x - IZR (Zfloor x)) then Zfloor x + 1 else Zfloor x.
Proof.
  intros x. pose proof (Zfloor_lb x). pose proof (Zfloor_ub x). destruct (Rle_bool_spec (/ 2) (x - IZR (Zfloor x))) as [L|L];
    apply Zfloor_imp; rewrite ?plus_IZR; lra.
Qed.

Lemma round_ok : forall x : b64, is_finite x = true -> (0 <= B2R x < bpow radix2 64)%R ->
  round_float_to_ulong dieee x = Ok (Zfloor (B2R x + / 2)) /\ 0 <= Zfloor (B2R x + / 2) < 2 ^ 64.
Proof.
  intros x Fx [X0 X1]. set (r := Zfloor (B2R x)).
  assert (Btrunc x = r) as Er.
  { apply eq_IZR. rewrite (Btrunc_correct 53 1024 l64). unfold round, F2R, scaled_mantissa, cexp, FIX_exp. cbn [Fnum Fexp bpow Z.opp]. rewrite !Rmult_1_r.
    now rewrite Ztrunc_floor. }
  pose proof (Zfloor_lb (B2R x)) as L. pose proof (Zfloor_ub (B2R x)) as U. fold r in L, U.
  assert (0 <= r) as R0 by (apply Zfloor_lub; exact X0).
  assert (r < 2 ^ 64) as R1 by (apply lt_IZR; apply Rle_lt_trans with (1 := L); exact X1).
  pose proof (generic_format_B2R 53 1024 x) as G.
  destruct (float_int r ltac:(lia)) as [Fr Vr]. rewrite round_generic in Vr; [|apply valid_rnd_N|apply floor_format; exact G].
  assert (is_finite (Bminus mode_NE x (double_of r 0)) = true /\ B2R (Bminus mode_NE x (double_of r 0)) = B2R x - IZR r)%R as [Fd Vd].
  { pose proof (Bminus_correct 53 1024 p64 l64 mode_NE x (double_of r 0) Fx Fr) as C. rewrite Vr in C. change (round_mode mode_NE) with ZnearestE in C.
    rewrite round_generic in C; [|apply valid_rnd_N|apply frac_format; auto].
    rewrite Rlt_bool_true in C; [destruct C as (C1 & C2 & _); auto|]. rewrite Rabs_pos_eq by lra.
    apply Rlt_le_trans with 1%R; [lra|]. change 1%R with (bpow radix2 0). apply bpow_le. lia. }
  assert (f_lt dieee (f_half dieee) (f_sub dieee x (f_int dieee r)) || f_eq dieee (f_half dieee) (f_sub dieee x (f_int dieee r)) = Rle_bool (/ 2) (B2R x - IZR r)) as Ec.
  { cbn [f_lt f_eq f_half f_sub f_int dieee]. destruct half_val as [Vh Fh]. rewrite Bltb_correct, Beqb_correct by auto. rewrite Vh, Vd.
    destruct (Rle_bool_spec (/ 2) (B2R x - IZR r)) as [K|K]; destruct (Rlt_bool_spec (/ 2) (B2R x - IZR r)) as [K1|K1];
      destruct (Req_bool_spec (/ 2) (B2R x - IZR r)) as [K2|K2]; try reflexivity; exfalso; lra. }
  unfold round_float_to_ulong. cbn [f_trunc dieee]. unfold double_to_ulong. rewrite Fx, Er. rewrite (proj2 (Z.leb_le _ _)), (proj2 (Z.ltb_lt _ _)) by auto. cbn [andb].
  rewrite Ec. rewrite half_up. fold r. destruct (Rle_bool_spec (/ 2) (B2R x - IZR r)) as [K|K]; [|auto].
  assert (r + 1 < 2 ^ 64) as R2.
  { destruct (Rle_or_lt (bpow radix2 53) (B2R x)) as [B|B]; [exfalso; apply big_whole in B; auto; fold r in B; lra|].
    assert (r < 2 ^ 53) by (apply lt_IZR; apply Rle_lt_trans with (1 := L); exact B). lia. }
  unfold two64'. rewrite Z.mod_small by (change (2 ^ 64) with 18446744073709551616 in R2; lia). split; [reflexivity|lia].
Qed.

(** The scaled value *)
Lemma scaled_ok : forall p (v : b64), 0 <= p <= 19 -> is_finite v = true ->
  let y := rnd (Rabs (B2R v) * pw p) in
  (too_big dieee (scaled dieee p v) = true /\ (bpow radix2 64 <= y)%R) \/
  (too_big dieee (scaled dieee p v) = false /\ (0 <= y < bpow radix2 64)%R /\
   is_finite (scaled dieee p v) = true /\ B2R (scaled dieee p v) = y).
Proof.
  intros p v Hp Hv y. destruct (absv_ok v Hv) as [Fa Va]. destruct (pow_val p Hp) as (Fp & _ & P1 & _). pose proof (eq_refl : B2R (widen (float_of (10 ^ p) 0)) = pw p) as Vp.
  assert (0 <= y)%R as Y0.
  { apply round_ge_generic; [exact vexp64|apply valid_rnd_N|apply generic_format_0|]. apply Rmult_le_pos; [apply Rabs_pos|lra]. }
  pose proof (Bmult_correct 53 1024 p64 l64 mode_NE (absv dieee v) (widen (float_of (10 ^ p) 0))) as C. rewrite Va, Vp in C.
  change (round_mode mode_NE) with ZnearestE in C. fold y in C.
  change (scaled dieee p v) with (Bmult mode_NE (absv dieee v) (widen (float_of (10 ^ p) 0))). unfold too_big.
  change (f_int dieee ULLONG_MAX) with (double_of ULLONG_MAX 0). destruct ullong_val as [Vu Fu].
  destruct (Rlt_bool_spec (Rabs y) (bpow radix2 1024)) as [L|L].
  - destruct C as (C1 & C2 & _). rewrite Fa, Fp in C2. set (x := Bmult mode_NE (absv dieee v) (widen (float_of (10 ^ p) 0))) in *. cbn [f_lt f_eq dieee].
    rewrite Bltb_correct, Beqb_correct by auto. rewrite Vu, C1.
    destruct (Rlt_bool_spec (bpow radix2 64) y) as [K|K]; [left; split; [reflexivity|lra]|].
    destruct (Req_bool_spec (bpow radix2 64) y) as [K2|K2]; [left; split; [reflexivity|lra]|].
    right. split; [reflexivity|]. split; [lra|]. auto.
  - left. split.
    + assert (exists s, Bmult mode_NE (absv dieee v) (widen (float_of (10 ^ p) 0)) = B754_infinity s) as [s Es] by (eexists; apply inf_SF; exact C).
      assert (s = false) as ->.
      { assert (B2SF (Bmult mode_NE (absv dieee v) (widen (float_of (10 ^ p) 0))) = SpecFloat.S754_infinity (xorb (Bsign (absv dieee v)) (Bsign (widen (float_of (10 ^ p) 0))))) as Q by exact C.
        rewrite Es in Q. injection Q as ->.
        assert (forall z : b64, is_finite z = true -> (0 < B2R z)%R -> Bsign z = false) as Sg.
        { clear. intros [s|s| |s mm e Hb] Hf Hz; try discriminate Hf; [exfalso; exact (Rlt_irrefl 0 Hz)|].
          destruct s; [exfalso|reflexivity]. apply (Rlt_irrefl 0). apply Rlt_trans with (1 := Hz). apply F2R_lt_0. reflexivity. }
        rewrite !Sg; auto; [rewrite Vp; lra|]. rewrite Va. pose proof (Rabs_pos (B2R v)) as A0. destruct (Req_dec (Rabs (B2R v)) 0) as [E0|E0]; [|lra].
        exfalso. unfold y in L. rewrite E0, Rmult_0_l, round_0, Rabs_R0 in L by apply valid_rnd_N. pose proof (bpow_gt_0 radix2 1024). lra. }
      rewrite Es. cbn [f_lt dieee]. destruct (double_of ULLONG_MAX 0) as [| | |s mm e Hb]; try discriminate Fu; [reflexivity|destruct s; reflexivity].
    + rewrite Rabs_pos_eq in L by auto. apply Rle_trans with (2 := L). apply bpow_le. lia.
Qed.

Lemma eq_self : forall v : b64, f_eq dieee v v = negb (is_nan v).
Proof. intros v. cbn [f_eq dieee]. destruct v as [s|s| |s mm e Hb]; try reflexivity; try (destruct s; reflexivity). rewrite Beqb_correct by reflexivity.
  now rewrite Req_bool_true. Qed.
Lemma inf_vals : forall s, f_lt dieee (B754_infinity s) (f_int dieee 0) = s /\ f_lt dieee (f_max dieee) (absv dieee (B754_infinity s)) = true.
Proof.
  intros s. assert (f_lt dieee (B754_infinity s) (f_int dieee 0) = s) as E.
  { cbn [f_lt f_int dieee]. pose proof (proj2 zero_val) as Z0. destruct (double_of 0 0) as [z|z| |z mm e Hb]; try discriminate Z0; destruct s; reflexivity. }
  split; auto. unfold absv. rewrite E. cbn [f_lt f_max f_neg dieee]. pose proof (proj2 max_val) as Z0.
  destruct fmax as [z|z| |z mm e Hb]; try discriminate Z0; destruct s; reflexivity || (destruct z; reflexivity).
Qed.
Lemma nan_vals : f_lt dieee B754_nan (f_int dieee 0) = false.
Proof. cbn [f_lt f_int dieee]. reflexivity. Qed.
Lemma abs_max : forall v : b64, is_finite v = true -> f_lt dieee (f_max dieee) (absv dieee v) = Rlt_bool FLT_MAX (Rabs (B2R v)).
Proof.
  intros v Hv. destruct (absv_ok v Hv) as [Fa Va]. destruct max_val as [Vm Fm]. cbn [f_lt f_max dieee]. rewrite Bltb_correct by auto. now rewrite Vm, Va.
Qed.

Lemma ieee_fine : forall p (v : b64), 0 <= p <= 19 -> value_fine dieee p v.
Proof.
  intros p v Hp. unfold value_fine. destruct (is_nan v) eqn:N.
  - destruct v; try discriminate. rewrite nan_vals. unfold absv. rewrite nan_vals. rewrite eq_self. repeat split; auto. discriminate.
  - rewrite !eq_self, N. split.
    + unfold absv. destruct (f_lt dieee v (f_int dieee 0)); auto; [|now rewrite N]. cbn [f_neg dieee]. now rewrite is_nan_Bopp, N.
    + split; [discriminate|]. intros _ H1 H2. destruct (is_finite v) eqn:F.
      * destruct (scaled_ok p v Hp F) as [[K _]|(_ & K1 & K2 & K3)]; [congruence|]. eexists. rewrite <- K3 in K1. destruct (round_ok _ K2 K1) as [R1 R2].
        split; [exact R1|exact R2].
      * destruct v as [s|s| |s mm e Hb]; try discriminate. rewrite (proj2 (inf_vals s)) in H1. discriminate.
Qed.

Theorem ieee_flt_fine : forall eng c (d : b64), flt_fine dieee eng c d.
Proof.
  intros eng c d. apply ieee_fine. apply flt_prec_range.
Qed.

(** Reading of a finite number *)
Lemma read_finite : forall p (v : b64), 0 <= p <= 19 -> is_finite v = true ->
  let y := rnd (Rabs (B2R v) * pw p) in
  ((FLT_MAX < Rabs (B2R v))%R /\ read_as dieee p v = RInf (Rlt_bool (B2R v) 0)) \/
  ((Rabs (B2R v) <= FLT_MAX)%R /\ (bpow radix2 64 <= y)%R /\ read_as dieee p v = ROver (Rlt_bool (B2R v) 0)) \/
  ((Rabs (B2R v) <= FLT_MAX)%R /\ (0 <= y < bpow radix2 64)%R /\ 0 <= Zfloor (y + / 2) < 2 ^ 64 /\ read_as dieee p v = RNum (Rlt_bool (B2R v) 0) (Zfloor (y + / 2))).
Proof.
  intros p v Hp Hv y. unfold read_as. rewrite eq_self, abs_max, neg_ok by auto.
  replace (is_nan v) with false by (destruct v; auto; discriminate). cbn [negb].
  destruct (Rlt_bool_spec FLT_MAX (Rabs (B2R v))) as [L|L]; [left; auto|right].
  destruct (scaled_ok p v Hp Hv) as [[K1 K2]|(K1 & K2 & K3 & K4)]; rewrite K1; [left; auto|]. right. split; [exact L|]. split; [exact K2|]. rewrite <- K4 in K2.
  destruct (round_ok _ K3 K2) as [R1 R2]. rewrite R1. unfold y. rewrite <- K4. split; [exact R2|reflexivity].
Qed.

Lemma floor_half : forall y, (Rabs (IZR (Zfloor (y + / 2)) - y) <= / 2)%R.
Proof. intros y. pose proof (Zfloor_lb (y + / 2)). pose proof (Zfloor_ub (y + / 2)). apply Rabs_le. lra. Qed.

Lemma u_small : (0 < u <= / 1000000)%R.
Proof. split; [apply bpow_gt_0|]. cbn. lra. Qed.
Lemma rel_small : forall p, (0 < double_rel p <= / 1000000)%R.
Proof. intros p. unfold double_rel. destruct (p <=? 10); split; try apply bpow_gt_0; cbn; lra. Qed.
Lemma rel_sum : forall p, (u * (1 + tbl_rel p) + tbl_rel p <= double_rel p /\ 0 <= tbl_rel p)%R.
Proof. intros p. unfold double_rel, tbl_rel. destruct (p <=? 10); split; try (cbn; lra). Qed.

Lemma scale_err : forall p x, 0 <= p <= 19 -> (0 <= x)%R ->
  let T := IZR (10 ^ p) in (Rabs (rnd (x * pw p) - x * T) <= double_rel p * (x * T) + eta)%R.
Proof.
  intros p x Hp Hx T. destruct (pow_val p Hp) as (_ & E & P1 & T1). fold T in E, T1. destruct (rel_sum p) as [Rs R0].
  set (P := pw p) in *. set (y := rnd (x * P)). pose proof (rnd_err (x * P)) as E2. fold y in E2. rewrite (Rabs_pos_eq (x * P)) in E2 by (apply Rmult_le_pos; lra).
  set (e := tbl_rel p) in *. assert (0 <= x * T)%R as XT by (apply Rmult_le_pos; lra). assert (0 < u)%R as U by apply bpow_gt_0.
  assert (Rabs (x * P - x * T) <= e * (x * T))%R as E3.
  { rewrite <- Rmult_minus_distr_l, Rabs_mult, (Rabs_pos_eq x) by auto. apply Rle_trans with (x * (e * T))%R; [apply Rmult_le_compat_l; auto|lra]. }
  assert (x * P <= (1 + e) * (x * T))%R as E4 by (apply Rabs_le_inv in E3; lra).
  replace (y - x * T)%R with ((y - x * P) + (x * P - x * T))%R by ring. eapply Rle_trans; [apply Rabs_triang|].
  assert (u * (x * P) <= u * ((1 + e) * (x * T)))%R by (apply Rmult_le_compat_l; lra).
  assert ((u * (1 + e) + e) * (x * T) <= double_rel p * (x * T))%R by (apply Rmult_le_compat_r; lra). lra.
Qed.

Theorem double_reading_ok : forall (d : b64) p, 0 <= p <= 19 -> double_reading d p (read_as dieee p d).
Proof.
  intros d p Hp. destruct (is_finite d) eqn:F.
  - assert (match read_as dieee p d with
      | RNan => False
      | RInf neg => neg = Rlt_bool (B2R d) 0 /\ (FLT_MAX < Rabs (B2R d))%R
      | ROver neg => neg = Rlt_bool (B2R d) 0 /\ (Rabs (B2R d) <= FLT_MAX)%R /\ (bpow radix2 64 * (1 - 2 * double_rel p) <= Rabs (B2R d) * IZR (10 ^ p))%R
      | RNum neg n =>
          neg = Rlt_bool (B2R d) 0 /\ 0 <= n < 2 ^ 64 /\ (Rabs (B2R d) <= FLT_MAX)%R /\
          (Rabs (IZR n / IZR (10 ^ p) - Rabs (B2R d)) <= double_error p (B2R d))%R
      end) as G; [|destruct d; try discriminate; exact G].
    set (x := B2R d). pose proof (Rabs_pos x) as X0. destruct (pow_val p Hp) as (_ & _ & _ & T1).
    pose proof (scale_err p (Rabs x) Hp X0) as Es. cbv zeta in Es. pose proof (rel_small p) as U. assert (0 < eta)%R as Et by apply bpow_gt_0.
    destruct (read_finite p d Hp F) as [(Y & ->)|[(M & Y & ->)|(M & Y & Yn & ->)]]; fold x in Y; try fold x in M; [auto| |].
    + split; [reflexivity|]. split; [exact M|]. set (T := IZR (10 ^ p)) in *. apply Rabs_le_inv in Es. assert (0 <= Rabs x * T)%R as XT by (apply Rmult_le_pos; lra).
      set (q := (Rabs x * T)%R) in *. set (y := rnd (Rabs x * pw p)) in *. set (r := double_rel p) in *. set (B := bpow radix2 64) in *.
      assert (1 <= B)%R as B1 by (change 1%R with (bpow radix2 0); apply bpow_le; lia).
      assert (eta <= r * / 2)%R as Er.
      { apply Rle_trans with (bpow radix2 (-53) * / 2)%R; [change (/ 2)%R with (bpow radix2 (-1)); rewrite <- bpow_plus; apply bpow_le; lia|].
        apply Rmult_le_compat_r; [lra|]. unfold r, double_rel. destruct (p <=? 10); apply bpow_le; lia. }
      assert (B <= (1 + r) * q + r * / 2)%R as A by lra. destruct (Rle_or_lt (B * (1 - 2 * r)) q) as [L|L]; auto. exfalso.
      assert ((1 + r) * q <= (1 + r) * (B * (1 - 2 * r)))%R as A2 by (apply Rmult_le_compat_l; lra).
      assert (1 * r <= B * r)%R as A3 by (apply Rmult_le_compat_r; lra).
      replace ((1 + r) * (B * (1 - 2 * r)))%R with (B - B * r - 2 * r * (B * r))%R in A2 by ring.
      assert (0 <= r * (B * r))%R by (apply Rmult_le_pos; lra). lra.
    + fold x in Yn |- *. split; [reflexivity|]. split; [exact Yn|]. split; [exact M|]. set (y := rnd (Rabs x * pw p)) in *. set (T := IZR (10 ^ p)) in *. pose proof (floor_half y) as Hh.
      set (N := IZR (Zfloor (y + / 2))) in *. unfold double_error. fold T.
      assert (Rabs (N - Rabs x * T) <= / 2 + (double_rel p * (Rabs x * T) + eta))%R as E.
      { replace (N - Rabs x * T)%R with ((N - y) + (y - Rabs x * T))%R by ring. eapply Rle_trans; [apply Rabs_triang|]. lra. }
      assert (0 < / T <= 1)%R as TI by (split; [apply Rinv_0_lt_compat; lra|rewrite <- Rinv_1; apply Rinv_le_contravar; lra]).
      replace (N / T - Rabs x)%R with ((N - Rabs x * T) * / T)%R by (field; lra). rewrite Rabs_mult, (Rabs_pos_eq (/ T)) by lra.
      eapply Rle_trans; [apply Rmult_le_compat_r; [lra|exact E]|].
      replace ((/ 2 + (double_rel p * (Rabs x * T) + eta)) * / T)%R with (/ 2 * / T + double_rel p * Rabs x + eta * / T)%R by (field; lra).
      assert (eta * / T <= eta * 1)%R by (apply Rmult_le_compat_l; lra). lra.
  - destruct d as [s|s| |s mm e Hb]; try discriminate; cbn [double_reading]; unfold read_as; rewrite eq_self; cbn [is_nan negb]; auto.
    destruct (inf_vals s) as [I1 I2]. now rewrite I1, I2.
Qed.

(** Exactly representable decimals *)
Theorem double_exact : forall (d : b64) p n, 0 <= p <= 10 -> is_finite d = true ->
  (Rabs (B2R d) * IZR (10 ^ p) = IZR n)%R -> n <= 2 ^ 53 -> read_as dieee p d = RNum (Rlt_bool (B2R d) 0) n.
Proof.
  intros d p n Hp Hf Hn Hl. destruct (pow_val p ltac:(lia)) as (_ & E & P1 & T1). pose proof (Rabs_pos (B2R d)) as X0.
  assert (pw p = IZR (10 ^ p)) as Ep.
  { unfold tbl_rel in E. rewrite (proj2 (Z.leb_le p 10)), Rmult_0_l in E by lia. apply Rabs_le_inv in E. lra. }
  assert (0 <= n) as N0 by (apply le_IZR; rewrite <- Hn; apply Rmult_le_pos; lra).
  assert (rnd (Rabs (B2R d) * pw p) = IZR n) as Ey.
  { rewrite Ep, Hn. apply round_generic; [apply valid_rnd_N|]. destruct (Z.eq_dec n (2 ^ 53)) as [->|N].
    - change (IZR (2 ^ 53)) with (bpow radix2 53). apply generic_format_bpow. unfold SpecFloat.fexp, SpecFloat.emin. lia.
    - apply generic_format_FLT. exists (Float radix2 n 0); [unfold F2R; cbn; ring|cbn [Fnum]; change (radix2 ^ 53) with (2 ^ 53); lia|cbn [Fexp]; unfold SpecFloat.emin; lia]. }
  assert (IZR n <= bpow radix2 53)%R as Hb by (change (bpow radix2 53) with (IZR (2 ^ 53)); now apply IZR_le).
  assert (bpow radix2 53 < bpow radix2 64)%R as Hb2 by (apply bpow_lt; lia).
  destruct (read_finite p d ltac:(lia) Hf) as [(Y & _)|[(M & Y & _)|(M & Y & Yn & ->)]].
  - exfalso. assert (Rabs (B2R d) * 1 <= Rabs (B2R d) * IZR (10 ^ p))%R by (apply Rmult_le_compat_l; lra).
    assert (bpow radix2 64 <= FLT_MAX)%R.
    { unfold FLT_MAX. replace 128 with (1 + 127) by lia. rewrite bpow_plus. change (bpow radix2 1) with 2%R.
      assert (bpow radix2 104 <= bpow radix2 127)%R by (apply bpow_le; lia). assert (bpow radix2 64 <= bpow radix2 127)%R by (apply bpow_le; lia). lra. }
    lra.
  - exfalso. rewrite Ey in Y. lra.
  - rewrite Ey. f_equal. apply Zfloor_imp. rewrite plus_IZR. lra.
Qed.
