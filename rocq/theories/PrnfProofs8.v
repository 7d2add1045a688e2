(** Proofs about prnf: engineering notation in IEEE-754 arithmetic. *)
From Coq Require Import ZArith Reals Lra Lia Psatz.
From Flocq Require Import Core BinarySingleNaN Relative.
From Verif Require Import Base Mem NumSpec IeeeSpec StrnumIeee StrnumIeee2 PrnfModel PrnfSpec PrnfProofs4 PrnfIeee PrnfProofs7.
Open Scope Z_scope.

Notation K := (IZR 1000).
Lemma thousand : B2R (float_of 1000 0) = K /\ is_finite (float_of 1000 0) = true.
Proof. split; [|reflexivity]. change (B2R (float_of 1000 0)) with (F2R (Float radix2 16384000 (-14))). unfold F2R. cbn. lra. Qed.
Lemma mthousand : B2R (float_of (- (1000)) 0) = (- K)%R /\ is_finite (float_of (- (1000)) 0) = true.
Proof. split; [|reflexivity]. change (B2R (float_of (- (1000)) 0)) with (F2R (Float radix2 (-16384000) (-14))). unfold F2R. cbn. lra. Qed.
Lemma one_val : B2R (float_of 1 0) = 1%R /\ is_finite (float_of 1 0) = true.
Proof. split; [|reflexivity]. change (B2R (float_of 1 0)) with (F2R (Float radix2 8388608 (-23))). unfold F2R. cbn. lra. Qed.
Lemma mone_val : B2R (float_of (- (1)) 0) = (- 1)%R /\ is_finite (float_of (- (1)) 0) = true.
Proof. split; [|reflexivity]. change (B2R (float_of (- (1)) 0)) with (F2R (Float radix2 (-8388608) (-23))). unfold F2R. cbn. lra. Qed.

Lemma within_ok : forall v k (a b : b32), is_finite v = true -> is_finite a = true -> is_finite b = true -> B2R a = (- k)%R -> B2R b = k ->
  Bltb a v && Bltb v b = Rlt_bool (Rabs (B2R v)) k.
Proof.
  intros v k a b Hv Ha Hb Ea Eb. rewrite !Bltb_correct by auto. rewrite Ea, Eb. destruct (Rlt_bool_spec (Rabs (B2R v)) k) as [L|L].
  - apply Rabs_lt_inv in L. rewrite !Rlt_bool_true; auto; lra.
  - destruct (Rlt_bool_spec (- k) (B2R v)) as [A|A]; destruct (Rlt_bool_spec (B2R v) k) as [B|B]; auto. exfalso.
    assert (Rabs (B2R v) < k)%R by (apply Rabs_lt; lra). lra.
Qed.
Lemma within_1000 : forall v : b32, is_finite v = true -> within ieee v 1000 = Rlt_bool (Rabs (B2R v)) K.
Proof. intros v H. apply within_ok; auto; apply thousand || apply mthousand. Qed.
Lemma within_1 : forall v : b32, is_finite v = true -> within ieee v 1 = Rlt_bool (Rabs (B2R v)) 1.
Proof. intros v H. apply within_ok; auto; apply one_val || apply mone_val. Qed.

Lemma one_format : generic_format radix2 fexp32 1.
Proof. rewrite <- (proj1 one_val). apply generic_format_B2R. Qed.
Lemma thousand_format : generic_format radix2 fexp32 K.
Proof. rewrite <- (proj1 thousand). apply generic_format_B2R. Qed.

(** Relative error where nothing underflows. *)
Lemma rel_big : forall x, (1 <= Rabs x)%R -> exists e, (Rabs e <= u)%R /\ rnd x = (x * (1 + e))%R.
Proof.
  intros x Hx. assert (Prec_gt_0 24) as P24 by reflexivity.
  destruct (relative_error_N_FLT_ex radix2 (SpecFloat.emin 24 128) 24 P24 (fun x => negb (Z.even x)) x) as (e & E1 & E2).
  - apply Rle_trans with (2 := Hx). change 1%R with (bpow radix2 0). apply bpow_le. unfold SpecFloat.emin. lia.
  - exists e. split; [|exact E2]. apply Rle_trans with (1 := E1). apply Req_le. rewrite bpow_plus. change (bpow radix2 1) with 2%R. change (- (24)) with (-24). lra.
Qed.
Lemma rel_mul : forall x, generic_format radix2 fexp32 x -> exists e, (Rabs e <= u)%R /\ rnd (x * K) = (x * K * (1 + e))%R.
Proof.
  intros x Hx. destruct (Rle_or_lt (bpow radix2 (-126)) (Rabs (x * K))) as [L|L].
  - assert (Prec_gt_0 24) as P24 by reflexivity.
    destruct (relative_error_N_FLT_ex radix2 (SpecFloat.emin 24 128) 24 P24 (fun x => negb (Z.even x)) (x * K)) as (e & E1 & E2).
    + apply Rle_trans with (2 := L). apply bpow_le. unfold SpecFloat.emin. lia.
    + exists e. split; [|exact E2]. apply Rle_trans with (1 := E1). apply Req_le. rewrite bpow_plus. change (bpow radix2 1) with 2%R. change (- (24)) with (-24). lra.
  - exists 0%R. split; [rewrite Rabs_R0; apply Rlt_le, bpow_gt_0|]. rewrite Rplus_0_r, Rmult_1_r. apply round_generic; [apply valid_rnd_N|].
    assert (generic_format radix2 (FIX_exp (-149)) x) as Fx.
    { assert (Prec_gt_0 24) as P24 by reflexivity. apply (generic_format_FIX_FLT radix2 (-149) 24). exact Hx. }
    apply FIX_format_generic in Fx. destruct Fx as [[mm e] E1 E2]. cbn [Fexp] in E2. subst e.
    apply generic_format_FLT. 
    assert (x * K = F2R (Float radix2 (mm * 1000) (-149)))%R as E3 by (rewrite E1; unfold F2R; cbn [Fnum Fexp]; rewrite mult_IZR; ring).
    exists (Float radix2 (mm * 1000) (-149)); [exact E3| |cbn; unfold SpecFloat.emin; lia].
    cbn [Fnum]. rewrite E3 in L. rewrite <- F2R_Zabs in L. unfold F2R in L. cbn [Fnum Fexp] in L.
    assert (IZR (Z.abs (mm * 1000)) < bpow radix2 23)%R as B.
    { apply Rmult_lt_reg_r with (bpow radix2 (-149)); [apply bpow_gt_0|]. rewrite <- bpow_plus. exact L. }
    change (bpow radix2 23) with (IZR (2 ^ 23)) in B. apply lt_IZR in B. change (radix_val radix2) with 2. lia.
Qed.

(** ** The loops *)
(** [w] times 1000^j is [v] up to [m] roundings. *)
Definition near (x : R) (j : Z) (m : Z) (w : b32) : Prop :=
  is_finite w = true /\ exists t, (Rabs (t - 1) <= 11 / 10 * IZR m * u)%R /\ (B2R w * powerRZ K j = x * t)%R.

Lemma K_pos : forall j, (0 < powerRZ K j)%R.
Proof. intros j. apply powerRZ_lt. lra. Qed.

Lemma t_step : forall t e m, 0 <= m <= 8 -> (Rabs (t - 1) <= 11 / 10 * IZR m * u)%R -> (Rabs e <= u)%R ->
  (Rabs (t * (1 + e) - 1) <= 11 / 10 * IZR (m + 1) * u)%R.
Proof.
  intros t e m [M0 M8] Ht He. pose proof u_small as U. apply IZR_le in M0, M8. rewrite plus_IZR.
  replace (t * (1 + e) - 1)%R with ((t - 1) + t * e)%R by ring. eapply Rle_trans; [apply Rabs_triang|]. rewrite Rabs_mult.
  assert (11 / 10 * IZR m * u <= / 10)%R as S by nra.
  assert (Rabs t <= 11 / 10)%R as T by (apply Rabs_le_inv in Ht; apply Rabs_le; lra).
  assert (Rabs t * Rabs e <= 11 / 10 * u)%R by (apply Rmult_le_compat; auto; apply Rabs_pos). lra.
Qed.

Lemma near_up : forall x j m w, 0 <= m <= 8 -> near x j m w -> (K <= Rabs (B2R w))%R ->
  near x (j + 1) (m + 1) (f_div ieee w (f_int ieee 1000)) /\ (1 <= Rabs (B2R (f_div ieee w (f_int ieee 1000))))%R.
Proof.
  intros x j m w Hm (Fw & t & Ht & Ew) Hw. cbn [f_div f_int ieee]. destruct thousand as [V F].
  pose proof (Bdiv_correct 24 128 p32 l32 mode_NE w (float_of 1000 0)) as C. rewrite V in C. specialize (C ltac:(lra)). change (round_mode mode_NE) with ZnearestE in C.
  assert (1 <= Rabs (B2R w / K))%R as L1.
  { unfold Rdiv. rewrite Rabs_mult, (Rabs_pos_eq (/ K)) by (apply Rlt_le, Rinv_0_lt_compat; lra). apply Rmult_le_reg_r with K; [lra|]. rewrite Rmult_assoc, Rinv_l by lra. lra. }
  rewrite Rlt_bool_true in C.
  - destruct C as (C1 & C2 & _). rewrite C1. split.
    + split; [rewrite C2; exact Fw|]. destruct (rel_big _ L1) as (e & E1 & E2). exists (t * (1 + e))%R. split; [apply t_step; auto|].
      rewrite C1, E2. rewrite powerRZ_add by lra. rewrite powerRZ_1. replace (x * (t * (1 + e)))%R with (x * t * (1 + e))%R by ring. rewrite <- Ew. field. 
    + apply abs_round_ge_generic; [exact vexp32|apply valid_rnd_N|exact one_format|exact L1].
  - assert (Rabs (rnd (B2R w / K)) <= Rabs (B2R w))%R as B.
    { apply abs_round_le_generic; [exact vexp32|apply valid_rnd_N|apply generic_format_abs, generic_format_B2R|].
      unfold Rdiv. rewrite Rabs_mult, (Rabs_pos_eq (/ K)) by (apply Rlt_le, Rinv_0_lt_compat; lra). pose proof (Rabs_pos (B2R w)). lra. }
    apply Rle_lt_trans with (1 := B). apply abs_B2R_lt_emax.
Qed.

Lemma near_down : forall x j m w, 0 <= m <= 8 -> near x j m w -> (Rabs (B2R w) < 1)%R ->
  near x (j - 1) (m + 1) (f_mul ieee w (f_int ieee 1000)) /\ (Rabs (B2R (f_mul ieee w (f_int ieee 1000))) <= K)%R.
Proof.
  intros x j m w Hm (Fw & t & Ht & Ew) Hw. cbn [f_mul f_int ieee]. destruct thousand as [V F].
  pose proof (Bmult_correct 24 128 p32 l32 mode_NE w (float_of 1000 0)) as C. rewrite V in C. change (round_mode mode_NE) with ZnearestE in C.
  assert (Rabs (rnd (B2R w * K)) <= K)%R as B.
  { apply abs_round_le_generic; [exact vexp32|apply valid_rnd_N|exact thousand_format|].
    rewrite Rabs_mult, (Rabs_pos_eq K) by lra. pose proof (Rabs_pos (B2R w)). lra. }
  rewrite Rlt_bool_true in C.
  - destruct C as (C1 & C2 & _). rewrite C1. split; [|exact B]. split; [rewrite C2, Fw, F; reflexivity|].
    destruct (rel_mul _ (generic_format_B2R 24 128 w)) as (e & E1 & E2). exists (t * (1 + e))%R. split; [apply t_step; auto|].
    rewrite C1, E2. replace (x * (t * (1 + e)))%R with (x * t * (1 + e))%R by ring. rewrite <- Ew.
    replace (powerRZ K j) with (powerRZ K (j - 1) * K)%R; [ring|]. rewrite <- (powerRZ_1 K) at 2. rewrite <- powerRZ_add by lra. f_equal. lia.
  - apply Rle_lt_trans with (1 := B). apply Rlt_trans with (bpow radix2 10); [cbn; lra|apply bpow_lt; lia].
Qed.

Lemma eng_up_ok : forall fuel x w i, 8 <= i <= 16 -> 16 - i < Z.of_nat fuel -> near x (i - 8) (i - 8) w -> (i = 8 \/ (1 <= Rabs (B2R w))%R) ->
  exists w' i', eng_up ieee fuel w i = (w', i') /\ i <= i' <= 16 /\ near x (i' - 8) (i' - 8) w' /\ (i' = 16 \/ (Rabs (B2R w') < K)%R) /\
    (i' = 8 \/ (1 <= Rabs (B2R w'))%R).
Proof.
  induction fuel as [|fuel IH]; intros x w i Hi Hf Hn H1; [lia|]. cbn [eng_up]. rewrite within_1000 by apply Hn.
  destruct (Rlt_bool_spec (Rabs (B2R w)) K) as [L|L]; cbn [negb andb].
  - exists w, i. repeat split; auto; try lia; apply Hn.
  - destruct (Z.ltb_spec i 16) as [L16|L16].
    + destruct (near_up x (i - 8) (i - 8) w ltac:(lia) Hn L) as [N1 N2]. replace (i - 8 + 1) with (i + 1 - 8) in N1 by lia.
      destruct (IH x _ (i + 1) ltac:(lia) ltac:(lia) N1 (or_intror N2)) as (w' & i' & E & A & R). exists w', i'. rewrite E. split; auto. split; [lia|exact R].
    + exists w, i. assert (i = 16) by lia. repeat split; auto; try lia; apply Hn.
Qed.

Lemma eng_down_ok : forall fuel x w i, 0 <= i <= 8 -> i < Z.of_nat fuel -> near x (i - 8) (8 - i) w -> (Rabs (B2R w) <= K)%R ->
  exists w' i', eng_down ieee fuel w i = (w', i') /\ 0 <= i' <= i /\ near x (i' - 8) (8 - i') w' /\ (Rabs (B2R w') <= K)%R /\
    (i' = 0 \/ (1 <= Rabs (B2R w'))%R).
Proof.
  induction fuel as [|fuel IH]; intros x w i Hi Hf Hn H1; [lia|]. cbn [eng_down]. rewrite within_1 by apply Hn.
  destruct (Rlt_bool_spec (Rabs (B2R w)) 1) as [L|L]; cbn [andb].
  - destruct (Z.eqb_spec i 0) as [E0|E0]; cbn [negb].
    + exists w, i. repeat split; auto; try lia; apply Hn.
    + destruct (near_down x (i - 8) (8 - i) w ltac:(lia) Hn L) as [N1 N2]. replace (i - 8 - 1) with (i - 1 - 8) in N1 by lia. replace (8 - i + 1) with (8 - (i - 1)) in N1 by lia.
      destruct (IH x _ (i - 1) ltac:(lia) ltac:(lia) N1 N2) as (w' & i' & E & A & R). exists w', i'. rewrite E. split; auto. split; [lia|exact R].
  - exists w, i. repeat split; auto; try lia; apply Hn.
Qed.

Lemma get_eng_ok : forall v : b32, is_finite v = true ->
  exists w k, -8 <= k <= 8 /\ fst (get_eng ieee v) = w /\ snd (get_eng ieee v) = nth (Z.to_nat (k + 8)) eng_tbl 0 /\
    near (B2R v) k 8 w /\ (k = 8 \/ (Rabs (B2R w) <= K)%R) /\ (k = -8 \/ (1 <= Rabs (B2R w))%R).
Proof.
  intros v Fv. assert (near (B2R v) (8 - 8) (8 - 8) v) as N0.
  { split; auto. exists 1%R. change (8 - 8) with 0. split; [|cbn; ring]. rewrite Rminus_eq_0, Rabs_R0. change (IZR 0) with 0%R. lra. }
  assert (forall x j m w, 0 <= m <= 8 -> near x j m w -> near x j 8 w) as Nm.
  { clear. intros x j m w Hm (F & t & T1 & T2). split; auto. exists t. split; auto. apply Rle_trans with (1 := T1). pose proof u_small.
    assert (IZR m <= 8)%R by (apply IZR_le; lia). nra. }
  destruct (eng_up_ok 17 (B2R v) v 8 ltac:(lia) ltac:(lia) N0 (or_introl eq_refl)) as (w1 & i1 & E1 & R1 & N1 & B1 & B2).
  unfold get_eng. rewrite E1. destruct (Z.eq_dec i1 8) as [->|Hne].
  - assert (Rabs (B2R w1) <= K)%R as B3 by (destruct B1 as [B1|B1]; [lia|lra]).
    destruct (eng_down_ok 17 (B2R v) w1 8 ltac:(lia) ltac:(lia) N1 B3) as (w2 & i2 & E2 & R2 & N2 & B4 & B5). rewrite E2.
    exists w2, (i2 - 8). cbn [fst snd]. replace (i2 - 8 + 8) with i2 by lia. split; [lia|]. split; auto. split; auto.
    split; [apply Nm with (8 - i2); auto; lia|]. split; [right; auto|]. destruct B5; [left; lia|right; auto].
  - destruct B2 as [B2|B2]; [lia|].
    assert (eng_down ieee 17 w1 i1 = (w1, i1)) as ->.
    { cbn [eng_down]. rewrite within_1 by apply N1. rewrite Rlt_bool_false by lra. reflexivity. }
    exists w1, (i1 - 8). cbn [fst snd]. replace (i1 - 8 + 8) with i1 by lia. split; [lia|]. split; auto. split; auto.
    split; [apply Nm with (i1 - 8); auto; lia|]. split; [destruct B1; [left; lia|right; lra]|right; auto].
Qed.

Lemma pow10_format : forall p, 0 <= p <= 10 -> generic_format radix2 fexp32 (IZR (10 ^ p)).
Proof.
  intros p Hp. apply generic_format_FLT. exists (Float radix2 (5 ^ p) p).
  - unfold F2R. cbn [Fnum Fexp]. rewrite <- (IZR_Zpower radix2) by lia. rewrite <- mult_IZR. f_equal. change (Zpower radix2 p) with (2 ^ p).
    rewrite <- Z.pow_mul_l. reflexivity.
  - cbn [Fnum]. change (radix_val radix2) with 2. rewrite Z.abs_eq by (apply Z.pow_nonneg; lia).
    assert (5 ^ p <= 5 ^ 10) by (apply Z.pow_le_mono_r; lia). lia.
  - cbn. unfold SpecFloat.emin. lia.
Qed.

Lemma eta_u2 : (eta <= u * u)%R.
Proof. rewrite <- bpow_plus. apply bpow_le. lia. Qed.
Lemma Km8 : powerRZ K (-8) = (/ IZR (10 ^ 24))%R.
Proof. change (powerRZ K (-8)) with (/ (K ^ 8))%R. f_equal. rewrite pow_IZR. reflexivity. Qed.
Lemma Q_range : forall k, -8 <= k <= 8 -> (bpow radix2 (-80) <= powerRZ K k)%R /\ (k = -8 -> (powerRZ K k <= 1)%R).
Proof.
  intros k Hk. assert (bpow radix2 (-80) <= powerRZ K (-8))%R as B.
  { rewrite Km8. change (bpow radix2 (-80)) with (/ IZR (2 ^ 80))%R. apply Rinv_le_contravar; [apply IZR_lt; lia|apply IZR_le; lia]. }
  split; [|intros ->; rewrite Km8; rewrite <- Rinv_1; apply Rinv_le_contravar; [lra|apply IZR_le; lia]]. apply Rle_trans with (1 := B). replace k with (-8 + (k + 8)) by lia. rewrite powerRZ_add by lra.
  assert (1 <= powerRZ K (k + 8))%R.
  { assert (0 <= k + 8) as P by lia. destruct (k + 8); [cbn; lra| |lia]. cbn [powerRZ]. apply pow_R1_Rle. lra. }
  pose proof (K_pos (-8)). nra.
Qed.

(** The error of the number shown *)
Lemma eng_err : forall x T N W Q t k, (1 <= T)%R -> -8 <= k <= 8 -> Q = powerRZ K k ->
  (0 <= W)%R -> (Rabs (t - 1) <= 11 / 10 * IZR 8 * u)%R -> (W * Q = Rabs (rnd x) * t)%R -> (k = -8 \/ (1 <= W)%R) ->
  (Rabs (N - W * T) <= / 2 + T * (W * (2 * u + u * u) + eta))%R ->
  (Rabs (N / T * Q - Rabs x) <= / 2 * / T * Q + bpow radix2 (-20) * Rabs x + bpow radix2 (-148))%R.
Proof.
  intros x T N W Q t k HT Hk EQ HW Ht EW H1 H. pose proof u_small as U. pose proof eta_pos as Et. pose proof eta_u2 as Eu. pose proof (K_pos k) as Q0. rewrite <- EQ in Q0.
  assert (bpow radix2 (-20) = 16 * u)%R as -> by (change (-20) with (4 + -24); rewrite bpow_plus; reflexivity).
  assert (bpow radix2 (-148) = 4 * eta)%R as -> by (change (-148) with (2 + -150); rewrite bpow_plus; reflexivity).
  set (D := Rabs x) in *. set (f := Rabs (rnd x)) in *. assert (0 <= D)%R as D0 by apply Rabs_pos. assert (0 <= f)%R as F0 by apply Rabs_pos.
  assert (Rabs (f - D) <= u * D + eta)%R as E2 by (eapply Rle_trans; [exact (Rabs_triang_inv2 (rnd x) x)|exact (rnd_err x)]).
  assert (eta * Q <= eta + u * u * (W * Q))%R as EQ2.
  { destruct H1 as [H1|H1].
    - destruct (Q_range k Hk) as [_ Q1]. specialize (Q1 H1). rewrite <- EQ in Q1. assert (0 <= W * Q)%R by (apply Rmult_le_pos; lra).
      assert (eta * Q <= eta * 1)%R by (apply Rmult_le_compat_l; lra). assert (0 <= u * u)%R by nra. assert (0 <= u * u * (W * Q))%R by (apply Rmult_le_pos; auto). lra.
    - assert (Q <= W * Q)%R by nra. assert (eta * Q <= u * u * (W * Q))%R by (apply Rmult_le_compat; lra). lra. }
  assert (Rabs (N / T * Q - W * Q) <= / 2 * / T * Q + (W * Q) * (2 * u + u * u) + eta * Q)%R as E3.
  { replace (N / T * Q - W * Q)%R with ((N - W * T) * (/ T * Q))%R by (field; lra).
    assert (0 <= / T * Q)%R as P by (apply Rmult_le_pos; [apply Rlt_le, Rinv_0_lt_compat; lra|lra]).
    rewrite Rabs_mult, (Rabs_pos_eq (/ T * Q)) by exact P. eapply Rle_trans; [apply Rmult_le_compat_r; [exact P|exact H]|]. apply Req_le. field. lra. }
  set (h := (/ 2 * / T * Q)%R) in *. set (Y := (N / T * Q)%R) in *. set (G := (W * Q)%R) in *.
  assert (Rabs (t - 1) <= 9 * u)%R as T1 by lra. apply Rabs_le_inv in T1. apply Rabs_le_inv in E2.
  assert (Rabs (G - D) <= 11 * u * D + 2 * eta)%R as E4.
  { rewrite EW. apply Rabs_le. assert (f * (1 - 9 * u) <= f * t <= f * (1 + 9 * u))%R as [A1 A2] by (split; apply Rmult_le_compat_l; lra).
    assert (f * (1 + 9 * u) <= (D * (1 + u) + eta) * (1 + 9 * u))%R as A3 by (apply Rmult_le_compat_r; lra).
    assert ((D * (1 - u) - eta) * (1 - 9 * u) <= f * (1 - 9 * u))%R as A4 by (apply Rmult_le_compat_r; lra).
    assert (D * ((1 + u) * (1 + 9 * u)) <= D * (1 + 11 * u))%R as A5 by (apply Rmult_le_compat_l; nra).
    assert (D * (1 - 10 * u) <= D * ((1 - u) * (1 - 9 * u)))%R as A6 by (apply Rmult_le_compat_l; nra).
    assert (eta * (1 + 9 * u) <= 2 * eta)%R as A7 by nra. assert (0 <= eta * (9 * u))%R as A8 by nra. assert (0 <= u * D)%R as A9 by nra. split; lra. }
  assert (0 <= G)%R as G0 by (apply Rmult_le_pos; lra).
  replace (Y - D)%R with ((Y - G) + (G - D))%R by ring. eapply Rle_trans; [apply Rabs_triang|]. pose proof E4 as E5. apply Rabs_le_inv in E5.
  assert (G * (2 * u + u * u + u * u) <= G * (21 / 10 * u))%R as E6 by (apply Rmult_le_compat_l; nra).
  assert (G * u <= (D * (1 + 11 * u) + 2 * eta) * u)%R as E7 by (apply Rmult_le_compat_r; lra).
  assert (D * ((1 + 11 * u) * u) <= D * (11 / 10 * u))%R as E8 by (apply Rmult_le_compat_l; nra).
  assert (2 * eta * u <= eta / 10)%R as E9 by nra. lra.
Qed.

Lemma eng_over : forall x T y W Q t k p, 0 <= p <= 19 -> T = IZR (10 ^ p) -> -8 <= k <= 8 -> Q = powerRZ K k ->
  (0 <= W)%R -> (Rabs (t - 1) <= 11 / 10 * IZR 8 * u)%R -> (W * Q = Rabs (rnd x) * t)%R ->
  (Rabs (y - W * T) <= T * (W * (2 * u + u * u) + eta))%R -> (bpow radix2 64 <= y)%R ->
  (bpow radix2 64 * (1 - bpow radix2 (-20)) * Q <= Rabs x * T)%R.
Proof.
  intros x T y W Q t k p Hp ET Hk EQ HW Ht EW H Hy. pose proof u_small as U. pose proof eta_pos as Et. pose proof (K_pos k) as Q0. rewrite <- EQ in Q0.
  destruct (pow_val p Hp) as (_ & _ & _ & _ & T1). rewrite <- ET in T1.
  destruct (Q_range k Hk) as [QL _]. rewrite <- EQ in QL.
  assert (bpow radix2 (-20) = 16 * u)%R as -> by (change (-20) with (4 + -24); rewrite bpow_plus; reflexivity).
  set (D := Rabs x) in *. set (f := Rabs (rnd x)) in *. assert (0 <= D)%R as D0 by apply Rabs_pos. assert (0 <= f)%R as F0 by apply Rabs_pos.
  assert (Rabs (f - D) <= u * D + eta)%R as E2 by (eapply Rle_trans; [exact (Rabs_triang_inv2 (rnd x) x)|exact (rnd_err x)]).
  assert (Rabs (t - 1) <= 9 * u)%R as T2 by lra. apply Rabs_le_inv in T2. apply Rabs_le_inv in E2. apply Rabs_le_inv in H.
  set (M := bpow radix2 64) in *.
  assert (eta * T <= bpow radix2 (-86))%R as ET2.
  { apply Rle_trans with (eta * bpow radix2 64)%R; [|rewrite <- bpow_plus; apply bpow_le; lia]. apply Rmult_le_compat_l; [lra|].
    rewrite ET. change (bpow radix2 64) with (IZR (2 ^ 64)). apply IZR_le. assert (10 ^ p <= 10 ^ 19) by (apply Z.pow_le_mono_r; lia). lia. }
  assert (bpow radix2 (-86) <= u * (M * Q))%R as MQ.
  { apply Rle_trans with (u * (M * bpow radix2 (-80)))%R; [unfold M; rewrite <- !bpow_plus; apply bpow_le; lia|].
    apply Rmult_le_compat_l; [lra|]. apply Rmult_le_compat_l; [apply Rlt_le, bpow_gt_0|exact QL]. }
  assert (bpow radix2 (-86) <= u * M)%R as MQ1 by (unfold M; rewrite <- bpow_plus; apply bpow_le; lia).
  assert (0 < M)%R as M0 by apply bpow_gt_0.
  set (g := (W * T)%R) in *. assert (0 <= g)%R as G0 by (apply Rmult_le_pos; lra). set (h := (eta * T)%R) in *.
  assert (T * (W * (2 * u + u * u) + eta) = g * (2 * u + u * u) + h)%R as Eg by (unfold g, h; ring). rewrite Eg in H.
  assert (M <= g * (1 + 2 * u + u * u) + h)%R as A1 by lra.
  assert (M * (1 - u) <= g * (1 + 2 * u + u * u))%R as A2 by lra.
  assert (g * (1 + 2 * u + u * u) <= g * (1 + 21 / 10 * u))%R as A3 by (apply Rmult_le_compat_l; nra).
  assert (M * (1 - u) * Q <= g * (1 + 21 / 10 * u) * Q)%R as A4 by (apply Rmult_le_compat_r; lra).
  assert (g * Q = f * t * T)%R as A5 by (rewrite <- EW; unfold g; ring).
  assert (f * t * T <= f * (1 + 9 * u) * T)%R as A6 by (apply Rmult_le_compat_r; [lra|]; apply Rmult_le_compat_l; lra).
  assert (f * T <= D * T * (1 + u) + h)%R as A7.
  { unfold h. replace (D * T * (1 + u) + eta * T)%R with ((D * (1 + u) + eta) * T)%R by ring. apply Rmult_le_compat_r; lra. }
  set (q := (D * T)%R) in *. assert (0 <= q)%R as q0 by (apply Rmult_le_pos; lra). set (m := (M * Q)%R) in *. assert (0 < m)%R as m0 by (apply Rmult_lt_0_compat; lra).
  assert (m * (1 - u) <= f * t * T * (1 + 21 / 10 * u))%R as A8 by (rewrite <- A5; replace (m * (1 - u))%R with (M * (1 - u) * Q)%R by (unfold m; ring); lra).
  assert (f * t * T <= (q * (1 + u) + h) * (1 + 9 * u))%R as A9.
  { apply Rle_trans with (1 := A6). replace (f * (1 + 9 * u) * T)%R with (f * T * (1 + 9 * u))%R by ring. apply Rmult_le_compat_r; lra. }
  assert (m * (1 - u) <= (q * (1 + u) + h) * (1 + 9 * u) * (1 + 21 / 10 * u))%R as A10 by (apply Rle_trans with (1 := A8); apply Rmult_le_compat_r; lra).
  assert ((1 + 9 * u) * (1 + 21 / 10 * u) <= 1 + 112 / 10 * u)%R as A11 by (clear - U; nra).
  assert (0 <= h)%R as h0 by (apply Rmult_le_pos; lra).
  assert (m * (1 - u) <= (q * (1 + u) + h) * (1 + 112 / 10 * u))%R as A12.
  { apply Rle_trans with (1 := A10). rewrite Rmult_assoc. apply Rmult_le_compat_l; [nra|exact A11]. }
  assert (h <= u * m)%R as A13 by (apply Rle_trans with (1 := ET2); exact MQ).
  assert (h * (1 + 112 / 10 * u) <= u * m * (1 + 112 / 10 * u))%R as A14 by (apply Rmult_le_compat_r; lra).
  assert (u * m * (1 + 112 / 10 * u) <= 11 / 10 * (u * m))%R as A15 by nra.
  assert (q * ((1 + u) * (1 + 112 / 10 * u)) <= q * (1 + 123 / 10 * u))%R as A16 by (apply Rmult_le_compat_l; nra).
  assert (m * (1 - 21 / 10 * u) <= q * (1 + 123 / 10 * u))%R as A17 by lra.
  destruct (Rle_or_lt (m * (1 - 16 * u)) q) as [L|L]; [unfold m in L; lra|]. exfalso.
  assert (q * (1 + 123 / 10 * u) < m * (1 - 16 * u) * (1 + 123 / 10 * u))%R as A18 by (apply Rmult_lt_compat_r; lra).
  assert (m * ((1 - 16 * u) * (1 + 123 / 10 * u)) <= m * (1 - 3 * u))%R as A19 by (apply Rmult_le_compat_l; nra).
  assert (m * (1 - 3 * u) < m * (1 - 21 / 10 * u))%R by (apply Rmult_lt_compat_l; lra). lra.
Qed.


Lemma prefix_ok : forall k, -8 <= k <= 8 -> (let x := nth (Z.to_nat (k + 8)) eng_tbl 0 in if x =? 0 then [] else [x]) = si_prefix k.
Proof.
  intros k Hk. assert (k = -8 \/ k = -7 \/ k = -6 \/ k = -5 \/ k = -4 \/ k = -3 \/ k = -2 \/ k = -1 \/ k = 0 \/ k = 1 \/ k = 2 \/ k = 3 \/ k = 4 \/ k = 5 \/ k = 6 \/ k = 7 \/ k = 8) as C by lia.
  repeat (destruct C as [->|C]; [reflexivity|]). subst k. reflexivity.
Qed.
Lemma eng_inf : forall s, get_eng ieee (B754_infinity s) = (B754_infinity s, 89).
Proof. intros [|]; vm_compute; reflexivity. Qed.
Lemma eng_nan : get_eng ieee B754_nan = (B754_nan, 89).
Proof. vm_compute. reflexivity. Qed.

Lemma eng_finite : forall (d : b64) p, 0 <= p <= 19 -> is_finite d = true -> is_finite (narrow d) = true ->
  exists k, -8 <= k <= 8 /\ snd (get_eng ieee (narrow d)) = nth (Z.to_nat (k + 8)) eng_tbl 0 /\
    eng_reading d p k (read_as ieee p (fst (get_eng ieee (narrow d)))).
Proof.
  intros d p Hp F Fv. destruct (get_eng_ok _ Fv) as (w & k & Hk & Ew & Ep & (Fw & t & Ht & Et) & B1 & B2). exists k. split; auto. split; auto. rewrite Ew. clear Ew Ep.
  assert (B2R (narrow d) = rnd (B2R d)) as Vv by (destruct (narrow_ok d F) as [[_ V]|[V _]]; [exact V|rewrite V in Fv; discriminate]).
  rewrite Vv in Et. set (x := B2R d) in *. pose proof u_small as U. pose proof (K_pos k) as Q0.
  assert (0 < t)%R as T0 by (apply Rabs_le_inv in Ht; lra).
  assert (Rabs (B2R w) * powerRZ K k = Rabs (rnd x) * t)%R as Ea.
  { rewrite <- (Rabs_pos_eq (powerRZ K k)) by lra. rewrite <- (Rabs_pos_eq t) at 1 by lra. rewrite <- !Rabs_mult. now rewrite Et. }
  assert (Rlt_bool (B2R w) 0 = Rlt_bool (rnd x) 0) as Es.
  { destruct (Rlt_bool_spec (rnd x) 0) as [L|L].
    - apply Rlt_bool_true. destruct (Rle_or_lt 0 (B2R w)) as [P|P]; auto. exfalso. assert (0 <= B2R w * powerRZ K k)%R by (apply Rmult_le_pos; lra). nra.
    - apply Rlt_bool_false. destruct (Rle_or_lt 0 (B2R w)) as [P|P]; auto. exfalso. assert (0 <= rnd x * t)%R by (apply Rmult_le_pos; lra). nra. }
  destruct (pow_val p Hp) as (_ & _ & EP & P1 & T1). pose proof (Rabs_pos (B2R w)) as W0.
  pose proof (scale_err p (Rabs (B2R w)) Hp W0) as Se. cbv zeta in Se.
  assert (-8 <= k <= 8 /\
      match read_as ieee p w with
      | RNan => False
      | RInf neg => neg = Rlt_bool x 0 /\ (bpow radix2 128 * (1 - bpow radix2 (-24)) <= Rabs x)%R
      | ROver neg =>
          neg = Rlt_bool x 0 /\ (bpow radix2 64 * (1 - bpow radix2 (-20)) * powerRZ 1000 k <= Rabs x * IZR (10 ^ p))%R /\ (k = 8 \/ 16 <= p)
      | RNum neg n =>
          0 <= n < 2 ^ 64 /\ (Rabs (IZR n / IZR (10 ^ p) * powerRZ 1000 k - Rabs x) <= eng_error p k x)%R /\
          (if neg then x < 0 else - bpow radix2 (-150) <= x)%R /\
          (p <= 7 -> k < 8 -> n <= 1000 * 10 ^ p) /\ (p <= 10 -> -8 < k -> 10 ^ p <= n)
      end) as G; [|destruct d; try discriminate F; exact G].
  split; auto. destruct (read_finite p w Hp Fw) as [(Y & ->)|(Y & Yn & ->)]; rewrite Es; set (T := IZR (10 ^ p)) in *; set (y := rnd (Rabs (B2R w) * rnd T)) in *.
  - split; [|split].
    + destruct (Rlt_bool_spec x 0) as [L|L].
      * apply Rlt_bool_true. destruct (Rle_or_lt 0 (rnd x)) as [L2|L2]; auto. exfalso.
        assert (rnd x <= 0)%R by (apply round_le_generic; [exact vexp32|apply valid_rnd_N|apply generic_format_0|lra]).
        assert (rnd x = 0)%R as Z by lra. rewrite Z, Rabs_R0, Rmult_0_l in Ea. apply Rmult_integral in Ea. destruct Ea as [Ea|Ea]; [|lra].
        unfold y in Y. rewrite Ea, Rmult_0_l, round_0 in Y by apply valid_rnd_N. pose proof (bpow_gt_0 radix2 64). lra.
      * apply Rlt_bool_false. apply round_ge_generic; [exact vexp32|apply valid_rnd_N|apply generic_format_0|lra].
    + apply (eng_over x T y (Rabs (B2R w)) (powerRZ K k) t k p); auto.
    + destruct B1 as [B1|B1]; [auto|]. right. destruct (Z.le_gt_cases 16 p) as [L|L]; auto. exfalso.
      assert (y <= bpow radix2 63)%R as Yb.
      { apply round_le_generic; [exact vexp32|apply valid_rnd_N|apply generic_format_bpow; unfold SpecFloat.fexp, SpecFloat.emin; lia|].
        apply Rabs_le_inv in EP. assert (T <= IZR (10 ^ 15))%R as T15 by (apply IZR_le; apply Z.pow_le_mono_r; lia). change (IZR (10 ^ 15)) with 1000000000000000%R in T15.
        assert (rnd T <= 2000000000000000)%R by nra. apply Rle_trans with (K * 2000000000000000)%R; [apply Rmult_le_compat; lra|].
        rewrite <- mult_IZR. change (bpow radix2 63) with (IZR (2 ^ 63)). apply IZR_le. lia. }
      assert (bpow radix2 63 < bpow radix2 64)%R by (apply bpow_lt; lia). lra.
  - split; auto. split; [|split].
    + apply (eng_err x T (IZR (Zfloor (y + / 2))) (Rabs (B2R w)) (powerRZ K k) t k); auto.
      pose proof (floor_half y) as Hh. replace (IZR (Zfloor (y + / 2)) - Rabs (B2R w) * T)%R with ((IZR (Zfloor (y + / 2)) - y) + (y - Rabs (B2R w) * T))%R by ring.
      eapply Rle_trans; [apply Rabs_triang|]. lra.
    + destruct (Rlt_bool_spec (rnd x) 0) as [L|L].
      * destruct (Rle_or_lt 0 x) as [L2|L2]; auto. exfalso.
        assert (0 <= rnd x)%R by (apply round_ge_generic; [exact vexp32|apply valid_rnd_N|apply generic_format_0|lra]). lra.
      * destruct (Rle_or_lt 0 x) as [L2|L2]; [pose proof eta_pos; lra|]. assert (rnd x <= 0)%R by (apply round_le_generic; [exact vexp32|apply valid_rnd_N|apply generic_format_0|lra]).
        assert (rnd x = 0)%R as Z by lra. pose proof (rnd_0 x Z) as R0. apply Rabs_le_inv in R0. lra.
    + split.
      * intros P7 K8. destruct B1 as [B1|B1]; [lia|]. assert (y <= IZR (10 ^ (p + 3)))%R as Yb.
        { apply round_le_generic; [exact vexp32|apply valid_rnd_N|apply pow10_format; lia|].
          rewrite (round_generic radix2 fexp32 ZnearestE T) by (apply pow10_format; lia). rewrite Z.pow_add_r by lia. rewrite mult_IZR. change (IZR (10 ^ 3)) with K.
          rewrite Rmult_comm. fold T. apply Rmult_le_compat_l; [lra|exact B1]. }
        rewrite Z.pow_add_r in Yb by lia. change (10 ^ 3) with 1000 in Yb. rewrite Z.mul_comm in Yb.
        assert (Zfloor (y + / 2) < 1000 * 10 ^ p + 1) as Q; [|lia]. apply lt_IZR. rewrite plus_IZR. pose proof (Zfloor_lb (y + / 2)). lra.
      * intros P10 K8. destruct B2 as [B2|B2]; [lia|]. assert (T <= y)%R as Yb.
        { apply round_ge_generic; [exact vexp32|apply valid_rnd_N|apply pow10_format; lia|].
          rewrite (round_generic radix2 fexp32 ZnearestE T) by (apply pow10_format; lia). rewrite <- (Rmult_1_l T) at 1. apply Rmult_le_compat_r; lra. }
        apply Zfloor_lub. fold T. lra.
Qed.

Theorem eng_text_ok : forall c (d : b64), 0 <= flt_prec true c <= 19 ->
  exists k r, flt ieee true c d = flt_text true c (si_prefix k) r /\ eng_reading d (flt_prec true c) k r.
Proof.
  intros c d Hp. set (p := flt_prec true c) in *. unfold flt. cbn [f_of_dbl ieee].
  destruct (is_finite d) eqn:F.
  - destruct (is_finite (narrow d)) eqn:Fv.
    + destruct (eng_finite d p Hp F Fv) as (k & Hk & E1 & E2). destruct (get_eng ieee (narrow d)) as [w x]. cbn [fst snd] in *. subst x.
      eexists k, _. split; [|exact E2]. rewrite <- (prefix_ok k Hk). reflexivity.
    + destruct (narrow_ok d F) as [[V _]|[V Hm]]; [congruence|]. rewrite V. rewrite eng_inf. exists 0, (RInf (Rlt_bool (B2R d) 0)). split.
      * unfold read_as. rewrite eq_self. destruct (inf_vals (Rlt_bool (B2R d) 0)) as [I1 I2]. rewrite I1, I2. cbn [is_nan negb]. reflexivity.
      * destruct d; try discriminate F; cbn [eng_reading]; (split; [lia|]; split; [reflexivity|exact Hm]).
  - destruct d as [s|s| |s mm e Hb]; try discriminate F; cbn [narrow].
    + rewrite eng_inf. exists 0, (RInf s). split; [|reflexivity]. unfold read_as. rewrite eq_self. destruct (inf_vals s) as [I1 I2]. rewrite I1, I2. cbn [is_nan negb]. reflexivity.
    + rewrite eng_nan. exists 0, RNan. split; [|reflexivity]. unfold read_as. rewrite eq_self. reflexivity.
Qed.

Theorem flt_text_ok : forall c (d : b64), 0 <= flt_prec false c <= 19 ->
  exists r, flt ieee false c d = flt_text false c [] r /\ float_reading d (flt_prec false c) r.
Proof. intros c d Hp. eexists. split; [reflexivity|]. apply float_reading_ok. exact Hp. Qed.
