(** Proofs about prnf: floating point arguments in IEEE-754 arithmetic. *)
From Coq Require Import ZArith Reals Lra Lia Psatz.
From Flocq Require Import Core BinarySingleNaN Relative Sterbenz.
From Verif Require Import Base Mem NumSpec IeeeSpec StrnumIeee StrnumIeee2 PrnfModel PrnfSpec PrnfProofs4 PrnfIeee.
Open Scope Z_scope.

Notation fexp32 := (SpecFloat.fexp 24 128).
Notation rnd := (round radix2 fexp32 ZnearestE).
#[local] Instance vexp32 : Valid_exp fexp32 := FLT_exp_valid _ 24.
Notation u := (bpow radix2 (-24)).
Notation eta := (bpow radix2 (-150)).

Lemma rnd_err : forall x, (Rabs (rnd x - x) <= u * Rabs x + eta)%R.
Proof.
  intros x. destruct (error_N_FLT radix2 (SpecFloat.emin 24 128) 24 eq_refl (fun x => negb (Z.even x)) x) as (e & h & E1 & E2 & _ & E).
  change (round radix2 (FLT_exp (SpecFloat.emin 24 128) 24) (Znearest (fun x => negb (Z.even x))) x) with (rnd x) in E. rewrite E.
  replace (x * (1 + e) + h - x)%R with (x * e + h)%R by ring.
  assert (/ 2 * bpow radix2 (-24 + 1) = u)%R as U by (rewrite bpow_plus; change (bpow radix2 1) with 2%R; lra).
  assert (/ 2 * bpow radix2 (SpecFloat.emin 24 128) = eta)%R as V.
  { change (SpecFloat.emin 24 128) with (-150 + 1). rewrite bpow_plus. change (bpow radix2 1) with 2%R. lra. }
  assert (Rabs e <= u)%R as E1' by (rewrite <- U; exact E1). rewrite V in E2. apply Rle_trans with (1 := Rabs_triang _ _). rewrite Rabs_mult.
  pose proof (Rabs_pos x). assert (Rabs x * Rabs e <= Rabs x * u)%R by (apply Rmult_le_compat_l; auto). lra.
Qed.

Lemma rnd_b32 : forall x : b32, rnd (B2R x) = B2R x.
Proof. intros x. apply round_generic; [apply valid_rnd_N|apply generic_format_B2R]. Qed.

(** Whole part of a number of the format. *)
Lemma floor_format : forall x, generic_format radix2 fexp32 x -> generic_format radix2 fexp32 (IZR (Zfloor x)).
Proof.
  intros x Hx. pose proof (generic_round_generic radix2 fexp32 (FIX_exp 0) Zfloor x Hx) as G.
  unfold round, F2R, scaled_mantissa, cexp, FIX_exp in G. cbn [Fnum Fexp] in G. cbn [bpow Z.opp] in G. rewrite !Rmult_1_r in G. exact G.
Qed.
Lemma big_whole : forall x, generic_format radix2 fexp32 x -> (bpow radix2 24 <= x)%R -> x = IZR (Zfloor x).
Proof.
  intros x Hx Hb. unfold generic_format in Hx. set (mm := Ztrunc (scaled_mantissa radix2 fexp32 x)) in *.
  assert (25 <= mag radix2 x) as Hm by (apply (mag_ge_bpow radix2 x 25); rewrite Rabs_pos_eq; [exact Hb|pose proof (bpow_gt_0 radix2 24); lra]).
  assert (0 <= cexp radix2 fexp32 x) as Hc by (unfold cexp, SpecFloat.fexp, SpecFloat.emin; lia).
  assert (x = IZR (mm * 2 ^ cexp radix2 fexp32 x)) as E.
  { rewrite Hx at 1. unfold F2R. cbn [Fnum Fexp]. rewrite mult_IZR. f_equal. rewrite <- (IZR_Zpower radix2) by auto. reflexivity. }
  rewrite E at 2. now rewrite Zfloor_IZR.
Qed.
Lemma frac_format : forall x, (0 <= x)%R -> generic_format radix2 fexp32 x -> generic_format radix2 fexp32 (x - IZR (Zfloor x)).
Proof.
  intros x H0 Hx. pose proof (Zfloor_lb x) as L. pose proof (Zfloor_ub x) as U.
  destruct (Z.eq_dec (Zfloor x) 0) as [E|E]; [rewrite E, Rminus_0_r; exact Hx|].
  assert (1 <= Zfloor x) as P by (assert (0 <= Zfloor x) by (apply Zfloor_lub; exact H0); lia). apply IZR_le in P.
  apply sterbenz; auto using floor_format; [apply vexp32|apply FLT_exp_monotone|]. lra.
Qed.

(** Numbers of the model *)
Lemma float_of_ok : forall z e, (Rabs (F2R (Float radix2 z e)) <= bpow radix2 127)%R ->
  is_finite (float_of z e) = true /\ B2R (float_of z e) = rnd (F2R (Float radix2 z e)).
Proof.
  intros z e H. unfold float_of. pose proof (binary_normalize_correct 24 128 p32 l32 mode_NE z e false) as C. cbv zeta in C.
  rewrite Rlt_bool_true in C; [destruct C as (C1 & C2 & _); auto|].
  apply Rle_lt_trans with (bpow radix2 127); [|apply bpow_lt; lia].
  apply abs_round_le_generic; [exact vexp32|apply valid_rnd_N| |exact H]. apply generic_format_bpow. unfold SpecFloat.fexp, SpecFloat.emin. lia.
Qed.
Lemma float_int : forall z, Z.abs z <= 2 ^ 64 -> is_finite (float_of z 0) = true /\ B2R (float_of z 0) = rnd (IZR z).
Proof.
  intros z Hz. assert (F2R (Float radix2 z 0) = IZR z) as E by (unfold F2R; cbn; ring). rewrite <- E. apply float_of_ok. rewrite E, <- abs_IZR.
  apply Rle_trans with (IZR (2 ^ 64)); [now apply IZR_le|]. change (IZR (2 ^ 64)) with (bpow radix2 64). apply bpow_le. lia.
Qed.
Lemma B2R_SF : forall (x : b32) s m e, B2SF x = SpecFloat.S754_finite s m e -> B2R x = F2R (Float radix2 (cond_Zopp s (Zpos m)) e) /\ is_finite x = true.
Proof. intros x s m e H. destruct x; try discriminate. injection H as -> -> ->. auto. Qed.

Lemma zero_val : B2R (float_of 0 0) = 0%R /\ is_finite (float_of 0 0) = true. Proof. split; reflexivity. Qed.
Lemma half_val : B2R (float_of 1 (-1)) = (/ 2)%R /\ is_finite (float_of 1 (-1)) = true.
Proof.
  destruct (B2R_SF (float_of 1 (-1)) false 8388608 (-24) eq_refl) as [-> ->]. split; auto. unfold F2R. cbn [Fnum Fexp cond_Zopp].
  change (8388608) with (2 ^ 23). change (IZR (2 ^ 23)) with (bpow radix2 23). rewrite <- bpow_plus. reflexivity.
Qed.
Lemma max_val : B2R (float_of (2 ^ 24 - 1) 104) = (bpow radix2 128 * (1 - u))%R /\ is_finite (float_of (2 ^ 24 - 1) 104) = true.
Proof.
  destruct (B2R_SF (float_of (2 ^ 24 - 1) 104) false 16777215 104 eq_refl) as [-> ->]. split; auto. unfold F2R. cbn [Fnum Fexp cond_Zopp].
  rewrite Rmult_minus_distr_l, Rmult_1_r, <- bpow_plus. change (128 + -24) with 104. change 128 with (24 + 104). rewrite bpow_plus.
  change (bpow radix2 24) with 16777216%R. ring_simplify. change (IZR 16777215) with (16777215)%R. lra.
Qed.
Lemma ullong_val : B2R (float_of ULLONG_MAX 0) = bpow radix2 64 /\ is_finite (float_of ULLONG_MAX 0) = true.
Proof.
  destruct (B2R_SF (float_of ULLONG_MAX 0) false 8388608 41 eq_refl) as [-> ->]. split; auto. unfold F2R. cbn [Fnum Fexp cond_Zopp].
  change 8388608 with (2 ^ 23). change (IZR (2 ^ 23)) with (bpow radix2 23). rewrite <- bpow_plus. reflexivity.
Qed.
Lemma pow_val : forall p, 0 <= p <= 19 -> is_finite (float_of (10 ^ p) 0) = true /\ B2R (float_of (10 ^ p) 0) = rnd (IZR (10 ^ p))
  /\ (Rabs (rnd (IZR (10 ^ p)) - IZR (10 ^ p)) <= u * IZR (10 ^ p))%R /\ (1 <= rnd (IZR (10 ^ p)))%R /\ (1 <= IZR (10 ^ p))%R.
Proof.
  intros p Hp. assert (1 <= 10 ^ p) as H1 by (change 1 with (10 ^ 0); apply Z.pow_le_mono_r; lia).
  assert (10 ^ p <= 10 ^ 19) as H2 by (apply Z.pow_le_mono_r; lia). change (10 ^ 19) with 10000000000000000000 in H2.
  destruct (float_int (10 ^ p)) as [F V]; [change (2 ^ 64) with 18446744073709551616; lia|]. split; auto. split; auto.
  apply IZR_le in H1. split; [|split; auto].
  - apply (rnd_rel 24 128 p32 u); [apply Rle_refl|]. unfold min_normal.
    change 1%R with (bpow radix2 0) in H1. apply Rle_trans with (2 := H1). apply bpow_le. lia.
  - apply round_ge_generic; [exact vexp32|apply valid_rnd_N| |exact H1]. change 1%R with (bpow radix2 0). apply generic_format_bpow. unfold SpecFloat.fexp, SpecFloat.emin. lia.
Qed.

Lemma inf_SF : forall (x : b32) s, B2SF x = SpecFloat.S754_infinity s -> x = B754_infinity s.
Proof. intros x s H. destruct x; try discriminate. injection H as ->. reflexivity. Qed.

Definition flt_max : R := (bpow radix2 128 * (1 - u))%R.
Lemma max_format : generic_format radix2 fexp32 flt_max.
Proof. unfold flt_max. rewrite <- (proj1 max_val). apply generic_format_B2R. Qed.
Lemma max_lt : (flt_max < bpow radix2 128)%R.
Proof. unfold flt_max. pose proof (bpow_gt_0 radix2 128). pose proof (bpow_gt_0 radix2 (-24)). nra. Qed.
Lemma over_max : forall x, (bpow radix2 128 <= Rabs (rnd x))%R -> (flt_max <= Rabs x)%R.
Proof.
  intros x H. destruct (Rle_or_lt flt_max (Rabs x)) as [L|L]; auto. exfalso.
  assert (Rabs (rnd x) <= flt_max)%R by (apply abs_round_le_generic; [exact vexp32|apply valid_rnd_N|exact max_format|lra]).
  pose proof max_lt. lra.
Qed.

Lemma narrow_ok : forall d : b64, is_finite d = true ->
  (is_finite (narrow d) = true /\ B2R (narrow d) = rnd (B2R d)) \/
  (narrow d = B754_infinity (Rlt_bool (B2R d) 0) /\ (flt_max <= Rabs (B2R d))%R).
Proof.
  intros d Hd. destruct d as [s|s| |s mm e Hb]; try discriminate; cbn [narrow].
  - left. split; auto. cbn [B2R]. symmetry. apply round_0. apply valid_rnd_N.
  - pose proof (binary_normalize_correct 24 128 p32 l32 mode_NE (cond_Zopp s (Zpos mm)) e s) as C. cbv zeta in C.
    change (F2R (Float radix2 (cond_Zopp s (Zpos mm)) e)) with (B2R (B754_finite s mm e Hb : b64)) in C.
    set (x := B2R (B754_finite s mm e Hb : b64)) in *. change (round_mode mode_NE) with ZnearestE in C.
    destruct (Rlt_bool_spec (Rabs (rnd x)) (bpow radix2 128)) as [L|L].
    + left. destruct C as (C1 & C2 & _). auto.
    + right. split; [apply inf_SF; exact C|apply over_max; exact L].
Qed.

Lemma neg_ok : forall v : b32, is_finite v = true -> f_lt ieee v (f_int ieee 0) = Rlt_bool (B2R v) 0.
Proof. intros v H. cbn [f_lt f_int ieee]. rewrite Bltb_correct by (auto; apply zero_val). now rewrite (proj1 zero_val). Qed.
Lemma absv_ok : forall v : b32, is_finite v = true -> is_finite (absv ieee v) = true /\ B2R (absv ieee v) = Rabs (B2R v).
Proof.
  intros v H. unfold absv. rewrite neg_ok by auto. cbn [f_neg ieee]. destruct (Rlt_bool_spec (B2R v) 0) as [L|L].
  - rewrite is_finite_Bopp, B2R_Bopp. split; auto. now rewrite Rabs_left.
  - split; auto. now rewrite Rabs_pos_eq.
Qed.

Lemma half_up : forall x, Zfloor (x + / 2) = if Rle_bool (/ 2) (x - IZR (Zfloor x)) then Zfloor x + 1 else Zfloor x.
Proof.
  intros x. pose proof (Zfloor_lb x). pose proof (Zfloor_ub x). destruct (Rle_bool_spec (/ 2) (x - IZR (Zfloor x))) as [L|L];
    apply Zfloor_imp; rewrite ?plus_IZR; lra.
Qed.

Lemma round_ok : forall x : b32, is_finite x = true -> (0 <= B2R x < bpow radix2 64)%R ->
  round_float_to_ulong ieee x = Ok (Zfloor (B2R x + / 2)) /\ 0 <= Zfloor (B2R x + / 2) < 2 ^ 64.
Proof.
  intros x Fx [X0 X1]. set (r := Zfloor (B2R x)).
  assert (Btrunc x = r) as Er.
  { apply eq_IZR. rewrite (Btrunc_correct 24 128 l32). unfold round, F2R, scaled_mantissa, cexp, FIX_exp. cbn [Fnum Fexp bpow Z.opp]. rewrite !Rmult_1_r.
    now rewrite Ztrunc_floor. }
  pose proof (Zfloor_lb (B2R x)) as L. pose proof (Zfloor_ub (B2R x)) as U. fold r in L, U.
  assert (0 <= r) as R0 by (apply Zfloor_lub; exact X0).
  assert (r < 2 ^ 64) as R1 by (apply lt_IZR; apply Rle_lt_trans with (1 := L); exact X1).
  pose proof (generic_format_B2R 24 128 x) as G.
  destruct (float_int r ltac:(lia)) as [Fr Vr]. rewrite round_generic in Vr; [|apply valid_rnd_N|apply floor_format; exact G].
  assert (is_finite (Bminus mode_NE x (float_of r 0)) = true /\ B2R (Bminus mode_NE x (float_of r 0)) = B2R x - IZR r)%R as [Fd Vd].
  { pose proof (Bminus_correct 24 128 p32 l32 mode_NE x (float_of r 0) Fx Fr) as C. rewrite Vr in C. change (round_mode mode_NE) with ZnearestE in C.
    rewrite round_generic in C; [|apply valid_rnd_N|apply frac_format; auto].
    rewrite Rlt_bool_true in C; [destruct C as (C1 & C2 & _); auto|]. rewrite Rabs_pos_eq by lra.
    apply Rlt_le_trans with 1%R; [lra|]. change 1%R with (bpow radix2 0). apply bpow_le. lia. }
  assert (f_lt ieee (f_half ieee) (f_sub ieee x (f_int ieee r)) || f_eq ieee (f_half ieee) (f_sub ieee x (f_int ieee r)) = Rle_bool (/ 2) (B2R x - IZR r)) as Ec.
  { cbn [f_lt f_eq f_half f_sub f_int ieee]. destruct half_val as [Vh Fh]. rewrite Bltb_correct, Beqb_correct by auto. rewrite Vh, Vd.
    destruct (Rle_bool_spec (/ 2) (B2R x - IZR r)) as [K|K]; destruct (Rlt_bool_spec (/ 2) (B2R x - IZR r)) as [K1|K1];
      destruct (Req_bool_spec (/ 2) (B2R x - IZR r)) as [K2|K2]; try reflexivity; exfalso; lra. }
  unfold round_float_to_ulong. cbn [f_trunc ieee]. unfold to_ulong. rewrite Fx, Er. rewrite (proj2 (Z.leb_le _ _)), (proj2 (Z.ltb_lt _ _)) by auto. cbn [andb].
  rewrite Ec. rewrite half_up. fold r. destruct (Rle_bool_spec (/ 2) (B2R x - IZR r)) as [K|K]; [|auto].
  assert (r + 1 < 2 ^ 64) as R2.
  { destruct (Rle_or_lt (bpow radix2 24) (B2R x)) as [B|B]; [exfalso; apply big_whole in B; auto; fold r in B; lra|].
    assert (r < 2 ^ 24) by (apply lt_IZR; apply Rle_lt_trans with (1 := L); exact B). lia. }
  unfold two64'. rewrite Z.mod_small by (change (2 ^ 64) with 18446744073709551616 in R2; lia). split; [reflexivity|lia].
Qed.

(** The scaled value *)
Lemma scaled_ok : forall p (v : b32), 0 <= p <= 19 -> is_finite v = true ->
  let y := rnd (Rabs (B2R v) * rnd (IZR (10 ^ p))) in
  (too_big ieee (scaled ieee p v) = true /\ (bpow radix2 64 <= y)%R) \/
  (too_big ieee (scaled ieee p v) = false /\ (0 <= y < bpow radix2 64)%R /\
   is_finite (scaled ieee p v) = true /\ B2R (scaled ieee p v) = y).
Proof.
  intros p v Hp Hv y. destruct (absv_ok v Hv) as [Fa Va]. destruct (pow_val p Hp) as (Fp & Vp & _ & P1 & _).
  assert (0 <= y)%R as Y0.
  { apply round_ge_generic; [exact vexp32|apply valid_rnd_N|apply generic_format_0|]. apply Rmult_le_pos; [apply Rabs_pos|lra]. }
  pose proof (Bmult_correct 24 128 p32 l32 mode_NE (absv ieee v) (float_of (10 ^ p) 0)) as C. rewrite Va, Vp in C.
  change (round_mode mode_NE) with ZnearestE in C. fold y in C.
  change (scaled ieee p v) with (Bmult mode_NE (absv ieee v) (float_of (10 ^ p) 0)). unfold too_big.
  change (f_int ieee ULLONG_MAX) with (float_of ULLONG_MAX 0). destruct ullong_val as [Vu Fu].
  destruct (Rlt_bool_spec (Rabs y) (bpow radix2 128)) as [L|L].
  - destruct C as (C1 & C2 & _). rewrite Fa, Fp in C2. set (x := Bmult mode_NE (absv ieee v) (float_of (10 ^ p) 0)) in *. cbn [f_lt f_eq ieee].
    rewrite Bltb_correct, Beqb_correct by auto. rewrite Vu, C1.
    destruct (Rlt_bool_spec (bpow radix2 64) y) as [K|K]; [left; split; [reflexivity|lra]|].
    destruct (Req_bool_spec (bpow radix2 64) y) as [K2|K2]; [left; split; [reflexivity|lra]|].
    right. split; [reflexivity|]. split; [lra|]. auto.
  - left. split.
    + assert (exists s, Bmult mode_NE (absv ieee v) (float_of (10 ^ p) 0) = B754_infinity s) as [s Es] by (eexists; apply inf_SF; exact C).
      assert (s = false) as ->.
      { assert (B2SF (Bmult mode_NE (absv ieee v) (float_of (10 ^ p) 0)) = SpecFloat.S754_infinity (xorb (Bsign (absv ieee v)) (Bsign (float_of (10 ^ p) 0)))) as Q by exact C.
        rewrite Es in Q. injection Q as ->.
        assert (forall z : b32, is_finite z = true -> (0 < B2R z)%R -> Bsign z = false) as Sg.
        { clear. intros [s|s| |s mm e Hb] Hf Hz; try discriminate Hf; [exfalso; exact (Rlt_irrefl 0 Hz)|].
          destruct s; [exfalso|reflexivity]. apply (Rlt_irrefl 0). apply Rlt_trans with (1 := Hz). apply F2R_lt_0. reflexivity. }
        rewrite !Sg; auto; [rewrite Vp; lra|]. rewrite Va. pose proof (Rabs_pos (B2R v)) as A0. destruct (Req_dec (Rabs (B2R v)) 0) as [E0|E0]; [|lra].
        exfalso. unfold y in L. rewrite E0, Rmult_0_l, round_0, Rabs_R0 in L by apply valid_rnd_N. pose proof (bpow_gt_0 radix2 128). lra. }
      rewrite Es. cbn [f_lt ieee]. destruct (float_of ULLONG_MAX 0) as [| | |s mm e Hb]; try discriminate Fu; [reflexivity|destruct s; reflexivity].
    + rewrite Rabs_pos_eq in L by auto. apply Rle_trans with (2 := L). apply bpow_le. lia.
Qed.

Lemma eq_self : forall v : b32, f_eq ieee v v = negb (is_nan v).
Proof. intros v. cbn [f_eq ieee]. destruct v as [s|s| |s mm e Hb]; try reflexivity; try (destruct s; reflexivity). rewrite Beqb_correct by reflexivity.
  now rewrite Req_bool_true. Qed.
Lemma inf_vals : forall s, f_lt ieee (B754_infinity s) (f_int ieee 0) = s /\ f_lt ieee (f_max ieee) (absv ieee (B754_infinity s)) = true.
Proof.
  intros s. assert (f_lt ieee (B754_infinity s) (f_int ieee 0) = s) as E.
  { cbn [f_lt f_int ieee]. pose proof (proj2 zero_val) as Z0. destruct (float_of 0 0) as [z|z| |z mm e Hb]; try discriminate Z0; destruct s; reflexivity. }
  split; auto. unfold absv. rewrite E. cbn [f_lt f_max f_neg ieee]. pose proof (proj2 max_val) as Z0.
  destruct (float_of (2 ^ 24 - 1) 104) as [z|z| |z mm e Hb]; try discriminate Z0; destruct s; reflexivity || (destruct z; reflexivity).
Qed.
Lemma nan_vals : f_lt ieee B754_nan (f_int ieee 0) = false.
Proof. cbn [f_lt f_int ieee]. reflexivity. Qed.
Lemma abs_max : forall v : b32, is_finite v = true -> f_lt ieee (f_max ieee) (absv ieee v) = false.
Proof.
  intros v Hv. destruct (absv_ok v Hv) as [Fa Va]. destruct max_val as [Vm Fm]. cbn [f_lt f_max ieee]. rewrite Bltb_correct by auto. rewrite Vm, Va.
  apply Rlt_bool_false. pose proof (abs_B2R_le_emax_minus_prec 24 128 p32 v) as B. change (128 - 24) with 104 in B. eapply Rle_trans; [exact B|].
  apply Req_le. rewrite Rmult_minus_distr_l, Rmult_1_r. rewrite <- bpow_plus. reflexivity.
Qed.

Lemma ieee_fine : forall p (v : b32), 0 <= p <= 19 -> value_fine ieee p v.
Proof.
  intros p v Hp. unfold value_fine. destruct (is_nan v) eqn:N.
  - destruct v; try discriminate. rewrite nan_vals. unfold absv. rewrite nan_vals. rewrite eq_self. repeat split; auto. discriminate.
  - rewrite !eq_self, N. split.
    + unfold absv. destruct (f_lt ieee v (f_int ieee 0)); auto; [|now rewrite N]. cbn [f_neg ieee]. now rewrite is_nan_Bopp, N.
    + split; [discriminate|]. intros _ H1 H2. destruct (is_finite v) eqn:F.
      * destruct (scaled_ok p v Hp F) as [[K _]|(_ & K1 & K2 & K3)]; [congruence|]. eexists. rewrite <- K3 in K1. destruct (round_ok _ K2 K1) as [R1 R2].
        split; [exact R1|exact R2].
      * destruct v as [s|s| |s mm e Hb]; try discriminate. rewrite (proj2 (inf_vals s)) in H1. discriminate.
Qed.

Theorem ieee_flt_fine : forall eng c (d : b64), flt_fine ieee eng c d.
Proof.
  intros eng c d. apply ieee_fine. apply flt_prec_range.
Qed.

(** Reading of a finite float *)
Lemma read_finite : forall p (v : b32), 0 <= p <= 19 -> is_finite v = true ->
  let y := rnd (Rabs (B2R v) * rnd (IZR (10 ^ p))) in
  ((bpow radix2 64 <= y)%R /\ read_as ieee p v = ROver (Rlt_bool (B2R v) 0)) \/
  ((0 <= y < bpow radix2 64)%R /\ 0 <= Zfloor (y + / 2) < 2 ^ 64 /\ read_as ieee p v = RNum (Rlt_bool (B2R v) 0) (Zfloor (y + / 2))).
Proof.
  intros p v Hp Hv y. unfold read_as. rewrite eq_self, abs_max, neg_ok by auto.
  replace (is_nan v) with false by (destruct v; auto; discriminate). cbn [negb].
  destruct (scaled_ok p v Hp Hv) as [[K1 K2]|(K1 & K2 & K3 & K4)]; rewrite K1; [left; split; [exact K2|reflexivity]|]. right. split; [exact K2|]. rewrite <- K4 in K2.
  destruct (round_ok _ K3 K2) as [R1 R2]. rewrite R1. unfold y. rewrite <- K4. split; [exact R2|reflexivity].
Qed.

Lemma floor_half : forall y, (Rabs (IZR (Zfloor (y + / 2)) - y) <= / 2)%R.
Proof. intros y. pose proof (Zfloor_lb (y + / 2)). pose proof (Zfloor_ub (y + / 2)). apply Rabs_le. lra. Qed.

Lemma u_small : (0 < u <= / 1000000)%R.
Proof. split; [apply bpow_gt_0|]. cbn. lra. Qed.
Lemma eta_pos : (0 < eta <= u)%R.
Proof. split; [apply bpow_gt_0|]. apply bpow_le. lia. Qed.

Lemma scale_err : forall p x, 0 <= p <= 19 -> (0 <= x)%R ->
  let T := IZR (10 ^ p) in let y := rnd (x * rnd T) in
  (Rabs (y - x * T) <= T * (x * (2 * u + u * u) + eta))%R.
Proof.
  intros p x Hp Hx T y. destruct (pow_val p Hp) as (_ & _ & E & P1 & T1). fold T in E, P1, T1. pose proof u_small as U. pose proof eta_pos as Et.
  set (P := rnd T) in *. pose proof (rnd_err (x * P)) as E2. fold y in E2. rewrite (Rabs_pos_eq (x * P)) in E2 by (apply Rmult_le_pos; lra).
  assert (Rabs (x * P - x * T) <= x * (u * T))%R as E3.
  { rewrite <- Rmult_minus_distr_l, Rabs_mult, (Rabs_pos_eq x) by auto. apply Rmult_le_compat_l; auto. }
  assert (x * P <= x * (T + u * T))%R as E4 by (apply Rmult_le_compat_l; auto; apply Rabs_le_inv in E; lra).
  replace (y - x * T)%R with ((y - x * P) + (x * P - x * T))%R by ring. eapply Rle_trans; [apply Rabs_triang|].
  assert (u * (x * P) <= u * (x * (T + u * T)))%R by (apply Rmult_le_compat_l; lra).
  assert (eta <= T * eta)%R by nra. nra.
Qed.

Lemma narrow_err : forall (d : R) (T : R) (N : R), (0 < T)%R ->
  let f := Rabs (rnd d) in
  (Rabs (N - f * T) <= / 2 + T * (f * (2 * u + u * u) + eta) ->
   Rabs (N / T - Rabs d) <= / 2 * / T + bpow radix2 (-22) * Rabs d + bpow radix2 (-148))%R.
Proof.
  intros d T N HT f H. pose proof u_small as U. pose proof eta_pos as Et. pose proof (rnd_err d) as E. pose proof (Rabs_triang_inv2 (rnd d) d) as E1.
  fold f in E1. assert (Rabs (f - Rabs d) <= u * Rabs d + eta)%R as E2 by lra. pose proof (Rabs_pos d) as D0. pose proof (Rabs_pos (rnd d)) as F0. fold f in F0.
  assert (bpow radix2 (-22) = 4 * u)%R as -> by (change (-22) with (2 + -24); rewrite bpow_plus; reflexivity).
  assert (bpow radix2 (-148) = 4 * eta)%R as -> by (change (-148) with (2 + -150); rewrite bpow_plus; reflexivity).
  assert (Rabs (N / T - f) <= / 2 * / T + (f * (2 * u + u * u) + eta))%R as E3.
  { replace (N / T - f)%R with ((N - f * T) * / T)%R by (field; lra). rewrite Rabs_mult, (Rabs_pos_eq (/ T)) by (apply Rlt_le, Rinv_0_lt_compat; auto).
    eapply Rle_trans; [apply Rmult_le_compat_r; [apply Rlt_le, Rinv_0_lt_compat; auto|exact H]|]. apply Req_le. field. lra. }
  replace (N / T - Rabs d)%R with ((N / T - f) + (f - Rabs d))%R by ring. eapply Rle_trans; [apply Rabs_triang|].
  set (D := Rabs d) in *. set (h := (/ 2 * / T)%R) in *. apply Rabs_le_inv in E2.
  assert (f <= D * (1 + u) + eta)%R as E4 by lra.
  assert (f * (2 * u + u * u) <= (D * (1 + u) + eta) * (2 * u + u * u))%R as E5 by (apply Rmult_le_compat_r; nra).
  assert (Rabs (f - D) <= u * D + eta)%R as E6 by (apply Rabs_le; lra).
  assert ((D * (1 + u) + eta) * (2 * u + u * u) <= 3 * u * D + 2 * eta)%R as E7.
  { assert (2 * u + u * u <= / 100000)%R by nra. assert ((1 + u) * (2 * u + u * u) <= 3 * u)%R by nra. nra. }
  lra.
Qed.

Lemma rnd_0 : forall x, rnd x = 0%R -> (Rabs x <= eta)%R.
Proof.
  intros x H. destruct (Rle_or_lt (bpow radix2 (-149)) (Rabs x)) as [L|L].
  - exfalso. assert (bpow radix2 (-149) <= Rabs (rnd x))%R as G.
    { apply abs_round_ge_generic; [exact vexp32|apply valid_rnd_N|apply generic_format_bpow; unfold SpecFloat.fexp, SpecFloat.emin; lia|exact L]. }
    rewrite H, Rabs_R0 in G. pose proof (bpow_gt_0 radix2 (-149)). lra.
  - assert (Prec_gt_0 24) as P24 by reflexivity. pose proof (error_le_half_ulp radix2 fexp32 (fun x => negb (Z.even x)) x) as E.
    change (Znearest (fun x => negb (Z.even x))) with ZnearestE in E. rewrite H in E.
    change (ulp radix2 fexp32 x) with (ulp radix2 (FLT_exp (-149) 24) x) in E.
    rewrite ulp_FLT_small in E; [|exact P24|apply Rlt_le_trans with (1 := L); apply bpow_le; lia].
    rewrite Rminus_0_l, Rabs_Ropp in E. apply Rle_trans with (1 := E). change (-149) with (1 + -150). rewrite bpow_plus. change (bpow radix2 1) with 2%R. lra.
Qed.

Theorem float_reading_ok : forall (d : b64) p, 0 <= p <= 19 -> float_reading d p (read_as ieee p (narrow d)).
Proof.
  intros d p Hp. destruct (is_finite d) eqn:F.
  - assert (match read_as ieee p (narrow d) with
      | RNan => False
      | RInf neg => neg = Rlt_bool (B2R d) 0 /\ (flt_max <= Rabs (B2R d))%R
      | ROver neg => neg = Rlt_bool (B2R d) 0 /\ (bpow radix2 64 * (1 - bpow radix2 (-22)) <= Rabs (B2R d) * IZR (10 ^ p))%R
      | RNum neg n =>
          0 <= n < 2 ^ 64 /\ (Rabs (IZR n / IZR (10 ^ p) - Rabs (B2R d)) <= print_error p (B2R d))%R /\
          (if neg then B2R d < 0 else - bpow radix2 (-150) <= B2R d)%R
      end) as G; [|destruct d; try discriminate; exact G].
    set (x := B2R d). destruct (narrow_ok d F) as [[Fv Vv]|[Ev Hm]].
    + destruct (pow_val p Hp) as (_ & _ & _ & _ & T1). pose proof u_small as U. pose proof eta_pos as Et. pose proof (rnd_err x) as En. fold x in Vv.
      assert (0 <= Rabs (rnd x))%R as Rx by apply Rabs_pos. pose proof (scale_err p (Rabs (rnd x)) Hp Rx) as Es. cbv zeta in Es.
      destruct (read_finite p (narrow d) Hp Fv) as [(Y & ->)|(Y & Yn & ->)]; rewrite Vv in *; set (T := IZR (10 ^ p)) in *; set (y := rnd (Rabs (rnd x) * rnd T)) in *.
      * assert (bpow radix2 64 * (1 - bpow radix2 (-22)) <= Rabs x * T)%R as B.
        { assert (bpow radix2 (-22) = 4 * u)%R as -> by (change (-22) with (2 + -24); rewrite bpow_plus; reflexivity).
          assert (Rabs (rnd x) <= Rabs x * (1 + u) + eta)%R as E2.
          { pose proof (Rabs_triang_inv2 (rnd x) x) as E1. assert (Rabs (Rabs (rnd x) - Rabs x) <= u * Rabs x + eta)%R as E3 by lra. apply Rabs_le_inv in E3. lra. }
          pose proof (Rabs_pos x) as X0. set (D := Rabs x) in *. set (f := Rabs (rnd x)) in *. apply Rabs_le_inv in Es. set (M := bpow radix2 64) in *.
          assert (2 * eta * IZR (10 ^ 19) <= u)%R as Es2.
          { assert (IZR (10 ^ 19) <= bpow radix2 64)%R by (change (bpow radix2 64) with (IZR (2 ^ 64)); apply IZR_le; lia).
            apply Rle_trans with (2 * eta * bpow radix2 64)%R; [apply Rmult_le_compat_l; lra|].
            change 2%R with (bpow radix2 1). rewrite <- !bpow_plus. apply bpow_le. lia. }
          assert (T <= IZR (10 ^ 19))%R as T2 by (apply IZR_le; apply Z.pow_le_mono_r; lia).
          assert (2 * eta * T <= u)%R as Es3 by (apply Rle_trans with (2 := Es2); apply Rmult_le_compat_l; lra).
          assert (1 <= M)%R as M1 by (change 1%R with (bpow radix2 0); apply bpow_le; lia).
          assert (M <= f * T * (1 + 2 * u + u * u) + eta * T)%R as A1 by lra.
          assert (f * T <= D * T * (1 + u) + eta * T)%R as A2 by (replace (D * T * (1 + u) + eta * T)%R with ((D * (1 + u) + eta) * T)%R by ring; apply Rmult_le_compat_r; lra).
          assert (0 <= D * T)%R as DT by (apply Rmult_le_pos; lra). set (q := (D * T)%R) in *. set (g := (f * T)%R) in *. set (h := (eta * T)%R) in *.
          assert (0 <= h)%R as H0 by (apply Rmult_le_pos; lra). assert (h <= u / 2)%R as H1 by (unfold h; lra).
          assert (M <= q * ((1 + u) * (1 + 2 * u + u * u)) + h * (2 + 2 * u + u * u))%R as A3 by nra.
          assert ((1 + u) * (1 + 2 * u + u * u) <= 1 + 3 * u + 4 * (u * u))%R as A4 by nra.
          assert (h * (2 + 2 * u + u * u) <= u + 2 * (u * u))%R as A5 by nra.
          assert (M <= q * (1 + 3 * u + 4 * (u * u)) + (u + 2 * (u * u)))%R as A6 by nra.
          assert (0 <= u * u <= u / 1000000)%R as A7 by nra.
          destruct (Rle_or_lt (M * (1 - 4 * u)) q) as [L|L]; auto. exfalso.
          assert (q * (1 + 3 * u + 4 * (u * u)) <= (M * (1 - 4 * u)) * (1 + 3 * u + 4 * (u * u)))%R as A8 by (apply Rmult_le_compat_r; nra).
          assert (1000 <= M)%R by (apply Rle_trans with (bpow radix2 10); [cbn; lra|apply bpow_le; lia]). 
          assert ((1 - 4 * u) * (1 + 3 * u + 4 * (u * u)) <= 1 - u)%R as A9 by nra.
          assert (M * ((1 - 4 * u) * (1 + 3 * u + 4 * (u * u))) <= M * (1 - u))%R as A10 by (apply Rmult_le_compat_l; lra).
          assert (1000 * u <= M * u)%R as A11 by (apply Rmult_le_compat_r; lra). clear - A6 A7 A8 A10 A11 U. lra. }
        split; auto. destruct (Rlt_bool_spec x 0) as [L|L].
        -- apply Rlt_bool_true. destruct (Rle_or_lt 0 (rnd x)) as [L2|L2]; auto. exfalso.
           assert (rnd x <= 0)%R by (apply round_le_generic; [exact vexp32|apply valid_rnd_N|apply generic_format_0|lra]).
           assert (rnd x = 0)%R as Z by lra. unfold y in Y. rewrite Z, Rabs_R0, Rmult_0_l, round_0 in Y by apply valid_rnd_N. pose proof (bpow_gt_0 radix2 64). lra.
        -- apply Rlt_bool_false. apply round_ge_generic; [exact vexp32|apply valid_rnd_N|apply generic_format_0|lra].
      * split; auto. split.
        -- apply (narrow_err x T (IZR (Zfloor (y + / 2)))); [lra|].
           pose proof (floor_half y) as Hh. replace (IZR (Zfloor (y + / 2)) - Rabs (rnd x) * T)%R with ((IZR (Zfloor (y + / 2)) - y) + (y - Rabs (rnd x) * T))%R by ring.
           eapply Rle_trans; [apply Rabs_triang|]. lra.
        -- destruct (Rlt_bool_spec (rnd x) 0) as [L|L].
           ++ destruct (Rle_or_lt 0 x) as [L2|L2]; auto. exfalso.
              assert (0 <= rnd x)%R by (apply round_ge_generic; [exact vexp32|apply valid_rnd_N|apply generic_format_0|lra]). lra.
           ++ destruct (Rle_or_lt 0 x) as [L2|L2]; [lra|]. assert (rnd x <= 0)%R by (apply round_le_generic; [exact vexp32|apply valid_rnd_N|apply generic_format_0|lra]).
              assert (rnd x = 0)%R as Z by lra. pose proof (rnd_0 x Z) as R0. apply Rabs_le_inv in R0. lra.
    + unfold read_as. rewrite Ev, eq_self. destruct (inf_vals (Rlt_bool (B2R d) 0)) as [I1 I2]. rewrite I1, I2. cbn [is_nan negb]. auto.
  - destruct d as [s|s| |s mm e Hb]; try discriminate; cbn [narrow float_reading]; unfold read_as; rewrite eq_self; cbn [is_nan negb]; auto.
    destruct (inf_vals s) as [I1 I2]. now rewrite I1, I2.
Qed.
