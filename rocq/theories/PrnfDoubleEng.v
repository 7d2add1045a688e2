(** Proofs about prnf: engineering notation with PRNF_SUPPORT_DOUBLE. *)
From Coq Require Import ZArith Reals Lra Lia Psatz.
From Flocq Require Import Core BinarySingleNaN Relative.
From Verif Require Import Base Mem NumSpec IeeeSpec StrnumIeee StrnumIeee2 PrnfModel PrnfSpec PrnfProofs4 PrnfIeee PrnfDouble PrnfDoubleProofs.
From Verif Require PrnfProofs8.
Open Scope Z_scope.

Notation K := (IZR 1000).
Lemma thousand : B2R (double_of 1000 0) = K /\ is_finite (double_of 1000 0) = true.
Proof. split; [|reflexivity]. change (B2R (double_of 1000 0)) with (F2R (Float radix2 8796093022208000 (-43))). unfold F2R. cbn. lra. Qed.
Lemma mthousand : B2R (double_of (- (1000)) 0) = (- K)%R /\ is_finite (double_of (- (1000)) 0) = true.
Proof. split; [|reflexivity]. change (B2R (double_of (- (1000)) 0)) with (F2R (Float radix2 (-8796093022208000) (-43))). unfold F2R. cbn. lra. Qed.
Lemma one_val : B2R (double_of 1 0) = 1%R /\ is_finite (double_of 1 0) = true.
Proof. split; [|reflexivity]. change (B2R (double_of 1 0)) with (F2R (Float radix2 4503599627370496 (-52))). unfold F2R. cbn. lra. Qed.
Lemma mone_val : B2R (double_of (- (1)) 0) = (- 1)%R /\ is_finite (double_of (- (1)) 0) = true.
Proof. split; [|reflexivity]. change (B2R (double_of (- (1)) 0)) with (F2R (Float radix2 (-4503599627370496) (-52))). unfold F2R. cbn. lra. Qed.

Lemma within_ok : forall v k (a b : b64), is_finite v = true -> is_finite a = true -> is_finite b = true -> B2R a = (- k)%R -> B2R b = k ->
  Bltb a v && Bltb v b = Rlt_bool (Rabs (B2R v)) k.
Proof.
  intros v k a b Hv Ha Hb Ea Eb. rewrite !Bltb_correct by auto. rewrite Ea, Eb. destruct (Rlt_bool_spec (Rabs (B2R v)) k) as [L|L].
  - apply Rabs_lt_inv in L. rewrite !Rlt_bool_true; auto; lra.
  - destruct (Rlt_bool_spec (- k) (B2R v)) as [A|A]; destruct (Rlt_bool_spec (B2R v) k) as [B|B]; auto. exfalso.
    assert (Rabs (B2R v) < k)%R by (apply Rabs_lt; lra). lra.
Qed.
Lemma within_1000 : forall v : b64, is_finite v = true -> within dieee v 1000 = Rlt_bool (Rabs (B2R v)) K.
Proof. intros v H. apply within_ok; auto; apply thousand || apply mthousand. Qed.
Lemma within_1 : forall v : b64, is_finite v = true -> within dieee v 1 = Rlt_bool (Rabs (B2R v)) 1.
Proof. intros v H. apply within_ok; auto; apply one_val || apply mone_val. Qed.

Lemma one_format : generic_format radix2 fexp64 1.
Proof. rewrite <- (proj1 one_val). apply generic_format_B2R. Qed.
Lemma thousand_format : generic_format radix2 fexp64 K.
Proof. rewrite <- (proj1 thousand). apply generic_format_B2R. Qed.

(** Relative error where nothing underflows. *)
Lemma rel_big : forall x, (1 <= Rabs x)%R -> exists e, (Rabs e <= u)%R /\ rnd x = (x * (1 + e))%R.
Proof.
  intros x Hx. assert (Prec_gt_0 53) as P53 by reflexivity.
  destruct (relative_error_N_FLT_ex radix2 (SpecFloat.emin 53 1024) 53 P53 (fun x => negb (Z.even x)) x) as (e & E1 & E2).
  - apply Rle_trans with (2 := Hx). change 1%R with (bpow radix2 0). apply bpow_le. unfold SpecFloat.emin. lia.
  - exists e. split; [|exact E2]. apply Rle_trans with (1 := E1). apply Req_le. rewrite bpow_plus. change (bpow radix2 1) with 2%R. change (- (53)) with (-53). lra.
Qed.
Lemma rel_mul : forall x, generic_format radix2 fexp64 x -> exists e, (Rabs e <= u)%R /\ rnd (x * K) = (x * K * (1 + e))%R.
Proof.
  intros x Hx. destruct (Rle_or_lt (bpow radix2 (-1022)) (Rabs (x * K))) as [L|L].
  - assert (Prec_gt_0 53) as P53 by reflexivity.
    destruct (relative_error_N_FLT_ex radix2 (SpecFloat.emin 53 1024) 53 P53 (fun x => negb (Z.even x)) (x * K)) as (e & E1 & E2).
    + apply Rle_trans with (2 := L). apply bpow_le. unfold SpecFloat.emin. lia.
    + exists e. split; [|exact E2]. apply Rle_trans with (1 := E1). apply Req_le. rewrite bpow_plus. change (bpow radix2 1) with 2%R. change (- (53)) with (-53). lra.
  - exists 0%R. split; [rewrite Rabs_R0; apply Rlt_le, bpow_gt_0|]. rewrite Rplus_0_r, Rmult_1_r. apply round_generic; [apply valid_rnd_N|].
    assert (generic_format radix2 (FIX_exp (-1074)) x) as Fx.
    { assert (Prec_gt_0 53) as P53 by reflexivity. apply (generic_format_FIX_FLT radix2 (-1074) 53). exact Hx. }
    apply FIX_format_generic in Fx. destruct Fx as [[mm e] E1 E2]. cbn [Fexp] in E2. subst e.
    apply generic_format_FLT. 
    assert (x * K = F2R (Float radix2 (mm * 1000) (-1074)))%R as E3 by (rewrite E1; unfold F2R; cbn [Fnum Fexp]; rewrite mult_IZR; ring).
    exists (Float radix2 (mm * 1000) (-1074)); [exact E3| |cbn; unfold SpecFloat.emin; lia].
    cbn [Fnum]. rewrite E3 in L. rewrite <- F2R_Zabs in L. unfold F2R in L. cbn [Fnum Fexp] in L.
    assert (IZR (Z.abs (mm * 1000)) < bpow radix2 52)%R as B.
    { apply Rmult_lt_reg_r with (bpow radix2 (-1074)); [apply bpow_gt_0|]. rewrite <- bpow_plus. exact L. }
    change (bpow radix2 52) with (IZR (2 ^ 52)) in B. apply lt_IZR in B. change (radix_val radix2) with 2. lia.
Qed.

(** ** The loops *)
(** [w] times 1000^j is [v] up to [m] roundings. *)
Definition near (x : R) (j : Z) (m : Z) (w : b64) : Prop :=
  is_finite w = true /\ exists t, (Rabs (t - 1) <= 11 / 10 * IZR m * u)%R /\ (B2R w * powerRZ K j = x * t)%R.

Lemma K_pos : forall j, (0 < powerRZ K j)%R.
Proof. intros j. apply powerRZ_lt. lra. Qed.

Lemma t_step : forall t e m, 0 <= m <= 8 -> (Rabs (t - 1) <= 11 / 10 * IZR m * u)%R -> (Rabs e <= u)%R ->
  (Rabs (t * (1 + e) - 1) <= 11 / 10 * IZR (m + 1) * u)%R.
Proof.
  intros t e m [M0 M8] Ht He. pose proof u_small as U. apply IZR_le in M0, M8. rewrite plus_IZR.
  replace (t * (1 + e) - 1)%R with ((t - 1) + t * e)%R by ring. eapply Rle_trans; [apply Rabs_triang|]. rewrite Rabs_mult.
  assert (11 / 10 * IZR m * u <= / 10)%R as S by nra.
  assert (Rabs t <= 11 / 10)%R as T by (apply Rabs_le_inv in Ht; apply Rabs_le; lra).
  assert (Rabs t * Rabs e <= 11 / 10 * u)%R by (apply Rmult_le_compat; auto; apply Rabs_pos). lra.
Qed.

Lemma near_up : forall x j m w, 0 <= m <= 8 -> near x j m w -> (K <= Rabs (B2R w))%R ->
  near x (j + 1) (m + 1) (f_div dieee w (f_int dieee 1000)) /\ (1 <= Rabs (B2R (f_div dieee w (f_int dieee 1000))))%R.
Proof.
  intros x j m w Hm (Fw & t & Ht & Ew) Hw. cbn [f_div f_int dieee]. destruct thousand as [V F].
  pose proof (Bdiv_correct 53 1024 p64 l64 mode_NE w (double_of 1000 0)) as C. rewrite V in C. specialize (C ltac:(lra)). change (round_mode mode_NE) with ZnearestE in C.
  assert (1 <= Rabs (B2R w / K))%R as L1.
  { unfold Rdiv. rewrite Rabs_mult, (Rabs_pos_eq (/ K)) by (apply Rlt_le, Rinv_0_lt_compat; lra). apply Rmult_le_reg_r with K; [lra|]. rewrite Rmult_assoc, Rinv_l by lra. lra. }
  rewrite Rlt_bool_true in C.
  - destruct C as (C1 & C2 & _). rewrite C1. split.
    + split; [rewrite C2; exact Fw|]. destruct (rel_big _ L1) as (e & E1 & E2). exists (t * (1 + e))%R. split; [apply t_step; auto|].
      rewrite C1, E2. rewrite powerRZ_add by lra. rewrite powerRZ_1. replace (x * (t * (1 + e)))%R with (x * t * (1 + e))%R by ring. rewrite <- Ew. field. 
    + apply abs_round_ge_generic; [exact vexp64|apply valid_rnd_N|exact one_format|exact L1].
  - assert (Rabs (rnd (B2R w / K)) <= Rabs (B2R w))%R as B.
    { apply abs_round_le_generic; [exact vexp64|apply valid_rnd_N|apply generic_format_abs, generic_format_B2R|].
      unfold Rdiv. rewrite Rabs_mult, (Rabs_pos_eq (/ K)) by (apply Rlt_le, Rinv_0_lt_compat; lra). pose proof (Rabs_pos (B2R w)). lra. }
    apply Rle_lt_trans with (1 := B). apply abs_B2R_lt_emax.
Qed.

Lemma near_down : forall x j m w, 0 <= m <= 8 -> near x j m w -> (Rabs (B2R w) < 1)%R ->
  near x (j - 1) (m + 1) (f_mul dieee w (f_int dieee 1000)) /\ (Rabs (B2R (f_mul dieee w (f_int dieee 1000))) <= K)%R.
Proof.
  intros x j m w Hm (Fw & t & Ht & Ew) Hw. cbn [f_mul f_int dieee]. destruct thousand as [V F].
  pose proof (Bmult_correct 53 1024 p64 l64 mode_NE w (double_of 1000 0)) as C. rewrite V in C. change (round_mode mode_NE) with ZnearestE in C.
  assert (Rabs (rnd (B2R w * K)) <= K)%R as B.
  { apply abs_round_le_generic; [exact vexp64|apply valid_rnd_N|exact thousand_format|].
    rewrite Rabs_mult, (Rabs_pos_eq K) by lra. pose proof (Rabs_pos (B2R w)). lra. }
  rewrite Rlt_bool_true in C.
  - destruct C as (C1 & C2 & _). rewrite C1. split; [|exact B]. split; [rewrite C2, Fw, F; reflexivity|].
    destruct (rel_mul _ (generic_format_B2R 53 1024 w)) as (e & E1 & E2). exists (t * (1 + e))%R. split; [apply t_step; auto|].
    rewrite C1, E2. replace (x * (t * (1 + e)))%R with (x * t * (1 + e))%R by ring. rewrite <- Ew.
    replace (powerRZ K j) with (powerRZ K (j - 1) * K)%R; [ring|]. rewrite <- (powerRZ_1 K) at 2. rewrite <- powerRZ_add by lra. f_equal. lia.
  - apply Rle_lt_trans with (1 := B). apply Rlt_trans with (bpow radix2 10); [cbn; lra|apply bpow_lt; lia].
Qed.

Lemma eng_up_ok : forall fuel x w i, 8 <= i <= 16 -> 16 - i < Z.of_nat fuel -> near x (i - 8) (i - 8) w -> (i = 8 \/ (1 <= Rabs (B2R w))%R) ->
  exists w' i', eng_up dieee fuel w i = (w', i') /\ i <= i' <= 16 /\ near x (i' - 8) (i' - 8) w' /\ (i' = 16 \/ (Rabs (B2R w') < K)%R) /\
    (i' = 8 \/ (1 <= Rabs (B2R w'))%R).
Proof.
  induction fuel as [|fuel IH]; intros x w i Hi Hf Hn H1; [lia|]. cbn [eng_up]. rewrite within_1000 by apply Hn.
  destruct (Rlt_bool_spec (Rabs (B2R w)) K) as [L|L]; cbn [negb andb].
  - exists w, i. repeat split; auto; try lia; apply Hn.
  - destruct (Z.ltb_spec i 16) as [L16|L16].
    + destruct (near_up x (i - 8) (i - 8) w ltac:(lia) Hn L) as [N1 N2]. replace (i - 8 + 1) with (i + 1 - 8) in N1 by lia.
      destruct (IH x _ (i + 1) ltac:(lia) ltac:(lia) N1 (or_intror N2)) as (w' & i' & E & A & R). exists w', i'. rewrite E. split; auto. split; [lia|exact R].
    + exists w, i. assert (i = 16) by lia. repeat split; auto; try lia; apply Hn.
Qed.

Lemma eng_down_ok : forall fuel x w i, 0 <= i <= 8 -> i < Z.of_nat fuel -> near x (i - 8) (8 - i) w -> (Rabs (B2R w) <= K)%R ->
  exists w' i', eng_down dieee fuel w i = (w', i') /\ 0 <= i' <= i /\ near x (i' - 8) (8 - i') w' /\ (Rabs (B2R w') <= K)%R /\
    (i' = 0 \/ (1 <= Rabs (B2R w'))%R).
Proof.
  induction fuel as [|fuel IH]; intros x w i Hi Hf Hn H1; [lia|]. cbn [eng_down]. rewrite within_1 by apply Hn.
  destruct (Rlt_bool_spec (Rabs (B2R w)) 1) as [L|L]; cbn [andb].
  - destruct (Z.eqb_spec i 0) as [E0|E0]; cbn [negb].
    + exists w, i. repeat split; auto; try lia; apply Hn.
    + destruct (near_down x (i - 8) (8 - i) w ltac:(lia) Hn L) as [N1 N2]. replace (i - 8 - 1) with (i - 1 - 8) in N1 by lia. replace (8 - i + 1) with (8 - (i - 1)) in N1 by lia.
      destruct (IH x _ (i - 1) ltac:(lia) ltac:(lia) N1 N2) as (w' & i' & E & A & R). exists w', i'. rewrite E. split; auto. split; [lia|exact R].
  - exists w, i. repeat split; auto; try lia; apply Hn.
Qed.

Lemma get_eng_ok : forall v : b64, is_finite v = true ->
  exists w k, -8 <= k <= 8 /\ fst (get_eng dieee v) = w /\ snd (get_eng dieee v) = nth (Z.to_nat (k + 8)) eng_tbl 0 /\
    near (B2R v) k 8 w /\ (k = 8 \/ (Rabs (B2R w) <= K)%R) /\ (k = -8 \/ (1 <= Rabs (B2R w))%R).
Proof.
  intros v Fv. assert (near (B2R v) (8 - 8) (8 - 8) v) as N0.
  { split; auto. exists 1%R. change (8 - 8) with 0. split; [|cbn; ring]. rewrite Rminus_eq_0, Rabs_R0. change (IZR 0) with 0%R. lra. }
  assert (forall x j m w, 0 <= m <= 8 -> near x j m w -> near x j 8 w) as Nm.
  { clear. intros x j m w Hm (F & t & T1 & T2). split; auto. exists t. split; auto. apply Rle_trans with (1 := T1). pose proof u_small.
    assert (IZR m <= 8)%R by (apply IZR_le; lia). nra. }
  destruct (eng_up_ok 17 (B2R v) v 8 ltac:(lia) ltac:(lia) N0 (or_introl eq_refl)) as (w1 & i1 & E1 & R1 & N1 & B1 & B2).
  unfold get_eng. rewrite E1. destruct (Z.eq_dec i1 8) as [->|Hne].
  - assert (Rabs (B2R w1) <= K)%R as B3 by (destruct B1 as [B1|B1]; [lia|lra]).
    destruct (eng_down_ok 17 (B2R v) w1 8 ltac:(lia) ltac:(lia) N1 B3) as (w2 & i2 & E2 & R2 & N2 & B4 & B5). rewrite E2.
    exists w2, (i2 - 8). cbn [fst snd]. replace (i2 - 8 + 8) with i2 by lia. split; [lia|]. split; auto. split; auto.
    split; [apply Nm with (8 - i2); auto; lia|]. split; [right; auto|]. destruct B5; [left; lia|right; auto].
  - destruct B2 as [B2|B2]; [lia|].
    assert (eng_down dieee 17 w1 i1 = (w1, i1)) as ->.
    { cbn [eng_down]. rewrite within_1 by apply N1. rewrite Rlt_bool_false by lra. reflexivity. }
    exists w1, (i1 - 8). cbn [fst snd]. replace (i1 - 8 + 8) with i1 by lia. split; [lia|]. split; auto. split; auto.
    split; [apply Nm with (i1 - 8); auto; lia|]. split; [destruct B1; [left; lia|right; lra]|right; auto].
Qed.


Lemma prefix_ok : forall k, -8 <= k <= 8 -> (let x := nth (Z.to_nat (k + 8)) eng_tbl 0 in if x =? 0 then [] else [x]) = si_prefix k.
Proof. exact PrnfProofs8.prefix_ok. Qed.
Lemma eng_inf : forall s, get_eng dieee (B754_infinity s) = (B754_infinity s, 89).
Proof. intros [|]; vm_compute; reflexivity. Qed.
Lemma eng_nan : get_eng dieee B754_nan = (B754_nan, 89).
Proof. vm_compute. reflexivity. Qed.
Lemma fmax_big : (bpow radix2 127 <= FLT_MAX)%R.
Proof.
  unfold FLT_MAX. replace 128 with (1 + 127) by lia. rewrite bpow_plus. change (bpow radix2 1) with 2%R.
  assert (bpow radix2 104 <= bpow radix2 127)%R by (apply bpow_le; lia). lra.
Qed.
Lemma pow10_format : forall p, 0 <= p <= 10 -> generic_format radix2 fexp64 (IZR (10 ^ p)).
Proof. intros p Hp. apply format_32_64, PrnfProofs8.pow10_format, Hp. Qed.
Lemma pw_exact : forall p, 0 <= p <= 10 -> pw p = IZR (10 ^ p).
Proof.
  intros p Hp. destruct (pow_val p ltac:(lia)) as (_ & E & _ & _). unfold tbl_rel in E. rewrite (proj2 (Z.leb_le p 10)), Rmult_0_l in E by lia.
  apply Rabs_le_inv in E. lra.
Qed.

Lemma eng_err : forall D T N W Q t k r, (0 <= D)%R -> (1 <= T)%R -> -8 <= k <= 8 -> Q = powerRZ K k -> (0 <= W)%R -> (0 < r <= / 1000000)%R ->
  (Rabs (t - 1) <= 9 * u)%R -> (W * Q = D * t)%R -> (k = -8 \/ (1 <= W)%R) ->
  (Rabs (N - W * T) <= / 2 + (r * (W * T) + eta))%R ->
  (Rabs (N / T * Q - D) <= / 2 * / T * Q + (r + bpow radix2 (-49)) * D + eta)%R.
Proof.
  intros D T N W Q t k r D0 HT Hk EQ HW Hr Ht EW H1 H. pose proof u_small as U. pose proof (K_pos k) as Q0. rewrite <- EQ in Q0.
  assert (0 < eta <= u / 100)%R as Et.
  { split; [apply bpow_gt_0|]. apply Rle_trans with (bpow radix2 (-53) * bpow radix2 (-10))%R; [rewrite <- bpow_plus; apply bpow_le; lia|].
    change (bpow radix2 (-10)) with (/ 1024)%R. lra. }
  assert (bpow radix2 (-49) = 16 * u)%R as -> by (change (-49) with (4 + -53); rewrite bpow_plus; reflexivity).
  assert (0 < / T <= 1)%R as TI by (split; [apply Rinv_0_lt_compat; lra|rewrite <- Rinv_1; apply Rinv_le_contravar; lra]).
  pose proof Ht as Ht'. apply Rabs_le_inv in Ht.
  assert (D * t <= D * (1 + 9 * u))%R as Dt by (apply Rmult_le_compat_l; lra). assert (0 <= D * t)%R as Dt0 by (apply Rmult_le_pos; lra).
  assert (eta * / T * Q <= eta + u / 50 * D)%R as EQ2.
  { apply Rle_trans with (eta * 1 * Q)%R; [apply Rmult_le_compat_r; [lra|]; apply Rmult_le_compat_l; lra|]. rewrite Rmult_1_r. assert (0 <= u / 50 * D)%R by (apply Rmult_le_pos; lra).
    destruct H1 as [H1|H1].
    - destruct (PrnfProofs8.Q_range k Hk) as [_ Q1]. specialize (Q1 H1). rewrite <- EQ in Q1. assert (eta * Q <= eta * 1)%R by (apply Rmult_le_compat_l; lra). lra.
    - assert (1 * Q <= W * Q)%R by (apply Rmult_le_compat_r; lra). assert (eta * Q <= u / 100 * (D * t))%R by (apply Rmult_le_compat; lra).
      assert (u / 100 * (D * t) <= u / 100 * (D * 2))%R by (apply Rmult_le_compat_l; [lra|]; apply Rmult_le_compat_l; lra). lra. }
  assert (Rabs (N / T * Q - W * Q) <= / 2 * / T * Q + r * (D * t) + eta * / T * Q)%R as E3.
  { rewrite <- EW. replace (N / T * Q - W * Q)%R with ((N - W * T) * (/ T * Q))%R by (field; lra).
    assert (0 <= / T * Q)%R as P by (apply Rmult_le_pos; lra).
    rewrite Rabs_mult, (Rabs_pos_eq (/ T * Q)) by exact P. eapply Rle_trans; [apply Rmult_le_compat_r; [exact P|exact H]|]. apply Req_le. field. lra. }
  assert (Rabs (W * Q - D) <= 9 * u * D)%R as E4.
  { rewrite EW. replace (D * t - D)%R with (D * (t - 1))%R by ring. rewrite Rabs_mult, (Rabs_pos_eq D) by auto. rewrite (Rmult_comm (9 * u) D). apply Rmult_le_compat_l; auto. }
  replace (N / T * Q - D)%R with ((N / T * Q - W * Q) + (W * Q - D))%R by ring. eapply Rle_trans; [apply Rabs_triang|].
  assert (r * (D * t) <= r * (D * (1 + 9 * u)))%R as E5 by (apply Rmult_le_compat_l; lra).
  assert (0 <= u * D)%R as UD by (apply Rmult_le_pos; lra).
  assert (r * (9 * (u * D)) <= / 1000000 * (9 * (u * D)))%R as E6 by (apply Rmult_le_compat_r; lra). lra.
Qed.

Lemma eng_over : forall D T y W Q t r, (0 <= D)%R -> (1 <= T)%R -> (0 < Q)%R -> (0 <= W)%R -> (u <= r <= / 1000000)%R ->
  (Rabs (t - 1) <= 9 * u)%R -> (W * Q = D * t)%R -> (Rabs (y - W * T) <= r * (W * T) + eta)%R -> (bpow radix2 64 <= y)%R ->
  (bpow radix2 64 * (1 - 2 * (r + bpow radix2 (-49))) * Q <= D * T)%R.
Proof.
  intros D T y W Q t r D0 HT Q0 HW Hr Ht EW H Hy. pose proof u_small as U. apply Rabs_le_inv in Ht. apply Rabs_le_inv in H.
  assert (bpow radix2 (-49) = 16 * u)%R as -> by (change (-49) with (4 + -53); rewrite bpow_plus; reflexivity).
  assert (0 < eta <= u)%R as Et by (split; [apply bpow_gt_0|apply bpow_le; lia]).
  set (B := bpow radix2 64) in *. assert (1 <= B)%R as B1 by (change 1%R with (bpow radix2 0); apply bpow_le; lia).
  assert (0 <= W * T)%R as WT by (apply Rmult_le_pos; lra). assert (B <= (1 + r) * (W * T) + u)%R as A1 by lra.
  assert (1 * u <= B * u)%R as A2 by (apply Rmult_le_compat_r; lra). assert (B * (1 - u) <= (1 + r) * (W * T))%R as A3 by lra.
  assert (B * (1 - u) * Q <= (1 + r) * (W * T) * Q)%R as A4 by (apply Rmult_le_compat_r; lra).
  replace ((1 + r) * (W * T) * Q)%R with ((1 + r) * ((W * Q) * T))%R in A4 by ring. rewrite EW in A4.
  assert (0 <= D * T)%R as DT by (apply Rmult_le_pos; lra).
  assert (D * t * T <= (1 + 9 * u) * (D * T))%R as A5 by (replace (D * t * T)%R with (t * (D * T))%R by ring; apply Rmult_le_compat_r; lra).
  assert ((1 + r) * (D * t * T) <= (1 + r) * ((1 + 9 * u) * (D * T)))%R as A6 by (apply Rmult_le_compat_l; lra).
  assert (0 <= r * u <= / 1000000 * u)%R as A7 by (split; [apply Rmult_le_pos; lra|apply Rmult_le_compat_r; lra]).
  set (q := (D * T)%R) in *. set (m := (B * Q)%R). assert (0 < m)%R as M0 by (apply Rmult_lt_0_compat; lra).
  assert (m * (1 - u) <= (1 + r + 10 * u) * q)%R as A8.
  { replace (m * (1 - u))%R with (B * (1 - u) * Q)%R by (unfold m; ring). apply Rle_trans with (1 := A4). apply Rle_trans with (1 := A6).
    rewrite <- Rmult_assoc. apply Rmult_le_compat_r; [exact DT|]. lra. }
  replace (B * (1 - 2 * (r + 16 * u)) * Q)%R with (m * (1 - 2 * (r + 16 * u)))%R by (unfold m; ring).
  destruct (Rle_or_lt (m * (1 - 2 * (r + 16 * u))) q) as [L|L]; auto. exfalso.
  assert ((1 + r + 10 * u) * q < (1 + r + 10 * u) * (m * (1 - 2 * (r + 16 * u))))%R as A9 by (apply Rmult_lt_compat_l; lra).
  assert (m * ((1 + r + 10 * u) * (1 - 2 * (r + 16 * u))) <= m * (1 - u))%R; [|lra]. apply Rmult_le_compat_l; [lra|].
  assert (0 <= (r + 10 * u) * (r + 16 * u))%R by (apply Rmult_le_pos; lra). lra.
Qed.

Lemma eng_finite : forall (d : b64) p, 0 <= p <= 19 -> is_finite d = true ->
  exists k, -8 <= k <= 8 /\ snd (get_eng dieee d) = nth (Z.to_nat (k + 8)) eng_tbl 0 /\
    double_eng_reading d p k (read_as dieee p (fst (get_eng dieee d))).
Proof.
  intros d p Hp F. destruct (get_eng_ok _ F) as (w & k & Hk & Ew & Ep & (Fw & t & Ht & Et) & B1 & B2). exists k. split; auto. split; auto. rewrite Ew. clear Ew Ep.
  set (x := B2R d) in *. pose proof u_small as U. pose proof (K_pos k) as Q0.
  assert (Rabs (t - 1) <= 9 * u)%R as Ht2 by (apply Rle_trans with (1 := Ht); lra). clear Ht. rename Ht2 into Ht.
  assert (0 < t)%R as T0 by (apply Rabs_le_inv in Ht; lra).
  assert (Rabs (B2R w) * powerRZ K k = Rabs x * t)%R as Ea.
  { rewrite <- (Rabs_pos_eq (powerRZ K k)) by lra. rewrite <- (Rabs_pos_eq t) at 1 by lra. rewrite <- !Rabs_mult. now rewrite Et. }
  assert (Rlt_bool (B2R w) 0 = Rlt_bool x 0) as Es.
  { destruct (Rlt_bool_spec x 0) as [L|L].
    - apply Rlt_bool_true. destruct (Rle_or_lt 0 (B2R w)) as [P|P]; auto. exfalso. assert (0 <= B2R w * powerRZ K k)%R by (apply Rmult_le_pos; lra). nra.
    - apply Rlt_bool_false. destruct (Rle_or_lt 0 (B2R w)) as [P|P]; auto. exfalso. assert (0 <= x * t)%R by (apply Rmult_le_pos; lra). nra. }
  destruct (pow_val p Hp) as (_ & EP & P1 & T1). pose proof (Rabs_pos (B2R w)) as W0. pose proof (Rabs_pos x) as X0.
  pose proof (scale_err p (Rabs (B2R w)) Hp W0) as Se. cbv zeta in Se.
  assert (u <= double_rel p)%R as Ur by (unfold double_rel; destruct (p <=? 10); apply bpow_le; lia). pose proof (rel_small p) as Rs.
  assert (-8 <= k <= 8 /\
      match read_as dieee p w with
      | RNan => False
      | RInf neg => neg = Rlt_bool x 0 /\ (FLT_MAX * powerRZ 1000 8 * (1 - bpow radix2 (-49)) <= Rabs x)%R
      | ROver neg =>
          neg = Rlt_bool x 0 /\ (bpow radix2 64 * (1 - 2 * double_eng_rel p) * powerRZ 1000 k <= Rabs x * IZR (10 ^ p))%R /\ (k = 8 \/ 16 <= p)
      | RNum neg n =>
          neg = Rlt_bool x 0 /\ 0 <= n < 2 ^ 64 /\
          (Rabs (IZR n / IZR (10 ^ p) * powerRZ 1000 k - Rabs x) <= double_eng_error p k x)%R /\
          (p <= 7 -> k < 8 -> n <= 1000 * 10 ^ p) /\ (p <= 10 -> -8 < k -> 10 ^ p <= n)
      end) as G; [|destruct d; try discriminate F; exact G].
  split; auto. destruct (read_finite p w Hp Fw) as [(Y & ->)|[(_ & Y & ->)|(_ & Y & Yn & ->)]]; rewrite Es; set (T := IZR (10 ^ p)) in *; set (y := rnd (Rabs (B2R w) * pw p)) in *.
  - split; [reflexivity|]. pose proof fmax_big as Fb. assert (bpow radix2 10 <= bpow radix2 127)%R as B10 by (apply bpow_le; lia). change (bpow radix2 10) with 1024%R in B10.
    destruct B1 as [->|B1]; [|exfalso; lra].
    assert (bpow radix2 (-49) = 16 * u)%R as -> by (change (-49) with (4 + -53); rewrite bpow_plus; reflexivity).
    assert (FLT_MAX * powerRZ K 8 <= Rabs x * t)%R as A1 by (rewrite <- Ea; apply Rmult_le_compat_r; lra).
    assert (Rabs x * t <= Rabs x * (1 + 9 * u))%R as A2 by (apply Rmult_le_compat_l; [lra|]; apply Rabs_le_inv in Ht; lra).
    set (M := (FLT_MAX * powerRZ K 8)%R) in *. assert (0 < M)%R as M0 by (apply Rmult_lt_0_compat; lra).
    assert (M * (1 - 16 * u) <= Rabs x * (1 + 9 * u) * (1 - 16 * u))%R as A3 by (apply Rmult_le_compat_r; lra).
    assert (Rabs x * ((1 + 9 * u) * (1 - 16 * u)) <= Rabs x * 1)%R as A4 by (apply Rmult_le_compat_l; [lra|]; nra). lra.
  - split; [reflexivity|]. split.
    + apply (eng_over (Rabs x) T y (Rabs (B2R w)) (powerRZ K k) t (double_rel p)); auto. lra.
    + destruct B1 as [B1|B1]; [auto|]. right. destruct (Z.le_gt_cases 16 p) as [L|L]; auto. exfalso.
      assert (y <= bpow radix2 63)%R as Yb.
      { apply round_le_generic; [exact vexp64|apply valid_rnd_N|apply generic_format_bpow; unfold SpecFloat.fexp, SpecFloat.emin; lia|].
        destruct (rel_sum p) as [Rm Rp]. assert (tbl_rel p <= 1)%R as Tr by nra.
        apply Rabs_le_inv in EP. assert (T <= IZR (10 ^ 15))%R as T15 by (apply IZR_le; apply Z.pow_le_mono_r; lia). change (IZR (10 ^ 15)) with 1000000000000000%R in T15.
        assert (pw p <= 2000000000000000)%R by nra. apply Rle_trans with (K * 2000000000000000)%R; [apply Rmult_le_compat; lra|].
        rewrite <- mult_IZR. change (bpow radix2 63) with (IZR (2 ^ 63)). apply IZR_le. lia. }
      assert (bpow radix2 63 < bpow radix2 64)%R by (apply bpow_lt; lia). lra.
  - split; [reflexivity|]. split; auto. split; [|split].
    + apply (eng_err (Rabs x) T (IZR (Zfloor (y + / 2))) (Rabs (B2R w)) (powerRZ K k) t k (double_rel p)); auto.
      pose proof (floor_half y) as Hh. replace (IZR (Zfloor (y + / 2)) - Rabs (B2R w) * T)%R with ((IZR (Zfloor (y + / 2)) - y) + (y - Rabs (B2R w) * T))%R by ring.
      eapply Rle_trans; [apply Rabs_triang|]. lra.
    + intros P7 K8. destruct B1 as [B1|B1]; [lia|]. assert (y <= IZR (10 ^ (p + 3)))%R as Yb.
      { apply round_le_generic; [exact vexp64|apply valid_rnd_N|apply pow10_format; lia|].
        rewrite pw_exact by lia. rewrite Z.pow_add_r by lia. rewrite mult_IZR. change (IZR (10 ^ 3)) with K.
        rewrite Rmult_comm. fold T. apply Rmult_le_compat_l; [lra|exact B1]. }
      rewrite Z.pow_add_r in Yb by lia. change (10 ^ 3) with 1000 in Yb. rewrite Z.mul_comm in Yb.
      assert (Zfloor (y + / 2) < 1000 * 10 ^ p + 1) as Q; [|lia]. apply lt_IZR. rewrite plus_IZR. pose proof (Zfloor_lb (y + / 2)). lra.
    + intros P10 K8. destruct B2 as [B2|B2]; [lia|]. assert (T <= y)%R as Yb.
      { apply round_ge_generic; [exact vexp64|apply valid_rnd_N|apply pow10_format; lia|].
        rewrite pw_exact by lia. fold T. rewrite <- (Rmult_1_l T) at 1. apply Rmult_le_compat_r; lra. }
      apply Zfloor_lub. fold T. lra.
Qed.

Theorem double_eng_text_ok : forall c (d : b64), 0 <= flt_prec true c <= 19 ->
  exists k r, flt dieee true c d = flt_text true c (si_prefix k) r /\ double_eng_reading d (flt_prec true c) k r.
Proof.
  intros c d Hp. set (p := flt_prec true c) in *. unfold flt. cbn [f_of_dbl dieee].
  destruct (is_finite d) eqn:F.
  - destruct (eng_finite d p Hp F) as (k & Hk & E1 & E2). destruct (get_eng dieee d) as [w x]. cbn [fst snd] in *. subst x.
    eexists k, _. split; [|exact E2]. rewrite <- (prefix_ok k Hk). reflexivity.
  - destruct d as [s|s| |s mm e Hb]; try discriminate F.
    + rewrite eng_inf. exists 0, (RInf s). split; [|reflexivity]. unfold read_as. rewrite eq_self. destruct (inf_vals s) as [I1 I2]. rewrite I1, I2. cbn [is_nan negb]. reflexivity.
    + rewrite eng_nan. exists 0, RNan. split; [|reflexivity]. unfold read_as. rewrite eq_self. reflexivity.
Qed.

Theorem double_text_ok : forall c (d : b64), 0 <= flt_prec false c <= 19 ->
  exists r, flt dieee false c d = flt_text false c [] r /\ double_reading d (flt_prec false c) r.
Proof. intros c d Hp. eexists. split; [reflexivity|]. apply double_reading_ok. exact Hp. Qed.
