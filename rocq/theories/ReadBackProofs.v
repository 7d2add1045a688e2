(** Floating point numbers printed by prnf and read by strnum. *)
From Coq Require Import ZArith Reals Lra Lia.
From Flocq Require Import Core BinarySingleNaN.
From Verif Require Import Base Mem Libc StrviewModel Spec MemLemmas StrviewProofs StrnumModel NumSpec StrnumProofs StrnumProofs2 StrnumProofs3
  StrnumFloat StrnumFloatVal IeeeSpec StrnumIeee StrnumIeee2 StrnumIeee3 PrnfModel PrnfSpec PrnfSpec2 PrnfIeee PrnfProofs PrnfProofs9.
Local Open Scope Z_scope.

Definition sign_text (s : list Z) : Prop := s = [] \/ s = [45] \/ s = [43] \/ s = [32].
Lemma plus_sign_text : forall fl, sign_text (plus_sign fl) /\ plus_sign fl <> [45].
Proof.
  unfold sign_text. induction fl as [|f fl [IH N]]; cbn [plus_sign]; [split; [auto|discriminate]|].
  destruct (plus_sign fl) as [|x t] eqn:E; [|split; auto]. destruct f; split; auto; discriminate.
Qed.

(** The text between sign and end is read completely. *)
Definition point_read (neg : bool) (p n : Z) : float_text :=
  FloatText neg NoSpecial (show 10 (n / 10 ^ p)) (PrnfSpec.fixed 10 (Z.to_nat p) (n mod 10 ^ p)) 0 [].

Lemma digit_facts : forall y, isdig 10 y = true -> 48 <= y <= 57.
Proof.
  intros y H. unfold isdig in H. apply andb_true_iff in H as [H1 H2]. apply Z.ltb_lt in H2. unfold dval in H2.
  destruct (y <=? 57) eqn:E1; [apply Z.leb_le in E1; lia|]. destruct (y <=? 70) eqn:E2; lia.
Qed.

Lemma read_point : forall sg p n, sign_text sg -> 0 <= p -> 0 <= n < two64 ->
  strip_word w_infinty (snd (float_body 0 (sg ++ point_text p n))) = None
  /\ read_float 0 (sg ++ point_text p n) = FGood (point_read (match sg with [45] => true | _ => false end) p n).
Proof.
  intros sg p n Hs Hp Hn.
  assert (0 < 10 ^ p) as P10 by (apply Z.pow_pos_nonneg; lia).
  assert (0 <= n / 10 ^ p < two64) as Hq.
  { split; [apply Z.div_pos; lia|]. apply Z.le_lt_trans with n; [|lia]. apply Z.div_le_upper_bound; nia. }
  destruct (show10_facts (n / 10 ^ p)) as (S1 & S2 & S3 & S4); [exact Hq|].
  assert (0 <= n mod 10 ^ p) as Hr by (apply Z.mod_pos_bound; lia).
  destruct (fixed_ok 10 (Z.to_nat p) (n mod 10 ^ p)) as [F1 F2]; [lia|exact Hr|].
  set (tl := if p =? 0 then [] else 46 :: PrnfSpec.fixed 10 (Z.to_nat p) (n mod 10 ^ p)).
  assert (point_text p n = show 10 (n / 10 ^ p) ++ tl) as ET by reflexivity. rewrite ET.
  unfold point_read. destruct (show 10 (n / 10 ^ p)) as [|y s] eqn:Es; [congruence|]. rewrite <- Es in *.
  assert (48 <= y <= 57) as Hy. { rewrite Es in S1. inversion S1; subst. now apply digit_facts. }
  assert (float_body 0 (sg ++ show 10 (n / 10 ^ p) ++ tl) = (match sg with [45] => true | _ => false end, show 10 (n / 10 ^ p) ++ tl)) as EB.
  { unfold float_body. change (flag 0 STRNUM_NOSPACE) with false. change (flag 0 STRNUM_NOSIGN) with false. cbv iota.
    assert (forall r, snd (span (Z.eqb 32) (y :: r)) = y :: r) as SP.
    { intro r. cbn [span]. rewrite (proj2 (Z.eqb_neq 32 y)) by lia. reflexivity. }
    rewrite Es. destruct Hs as [-> | [-> | [-> | ->]]]; cbn [app].
    - rewrite SP. unfold read_sign. rewrite (proj2 (Z.eqb_neq y 45)), (proj2 (Z.eqb_neq y 43)) by lia. reflexivity.
    - reflexivity.
    - reflexivity.
    - assert (forall r, snd (span (Z.eqb 32) (32 :: r)) = snd (span (Z.eqb 32) r)) as SQ.
      { intro r. cbn [span]. change (32 =? 32) with true. cbv iota. destruct (span (Z.eqb 32) r). reflexivity. }
      rewrite SQ, SP.
      unfold read_sign. rewrite (proj2 (Z.eqb_neq y 45)), (proj2 (Z.eqb_neq y 43)) by lia. reflexivity. }
  assert (forall x w r, 58 <= x -> strip_word (x :: w) (y :: r) = None) as SW.
  { intros x w r Hx. cbn [strip_word]. unfold lower. rewrite (proj2 (Z.leb_gt 65 y)) by lia. cbn [andb].
    rewrite (proj2 (Z.eqb_neq y x)) by lia. reflexivity. }
  unfold read_float. rewrite EB. cbn [snd]. split.
  { rewrite Es. unfold w_infinty. cbn [app]. apply SW. lia. }
  assert (strip_word w_inf (show 10 (n / 10 ^ p) ++ tl) = None) as ->.
  { rewrite Es. unfold w_inf. cbn [app]. apply SW. lia. }
  assert (strip_word w_nan (show 10 (n / 10 ^ p) ++ tl) = None) as ->.
  { rewrite Es. unfold w_nan. cbn [app]. apply SW. lia. }
  assert (span (isdig 10) (show 10 (n / 10 ^ p) ++ tl) = (show 10 (n / 10 ^ p), tl)) as ->.
  { rewrite (span_prefix (isdig 10) (show 10 (n / 10 ^ p)) tl S1).
    assert (headb (isdig 10) tl = false) as Ht by (unfold tl; destruct (p =? 0); reflexivity).
    rewrite (span_nil _ tl Ht). cbn [fst snd]. now rewrite app_nil_r. }
  unfold tl. destruct (p =? 0) eqn:Ep.
  - apply Z.eqb_eq in Ep. subst p. cbn [Z.to_nat PrnfSpec.fixed]. rewrite Es. reflexivity.
  - rewrite (PrnfProofs9.span_all (isdig 10) _ F1). rewrite Es. cbn [read_exp]. reflexivity.
Qed.

Lemma point_value : forall neg p n, 0 <= p -> 0 <= n < two64 ->
  num_val 10 (ft_int (point_read neg p n)) = n / 10 ^ p
  /\ Zlen (ft_frac (point_read neg p n)) = p
  /\ real_value (point_read neg p n) = (IZR n / IZR (10 ^ p))%R.
Proof.
  intros neg p n Hp Hn. unfold point_read, real_value, mantissa. cbn [ft_int ft_frac ft_exp].
  assert (0 < 10 ^ p) as P10 by (apply Z.pow_pos_nonneg; lia).
  assert (0 <= n / 10 ^ p < two64) as Hq.
  { split; [apply Z.div_pos; lia|]. apply Z.le_lt_trans with n; [|lia]. apply Z.div_le_upper_bound; nia. }
  destruct (show10_facts (n / 10 ^ p)) as (S1 & S2 & S3 & S4); [exact Hq|].
  assert (0 <= n mod 10 ^ p < 10 ^ p) as Hr by (apply Z.mod_pos_bound; lia).
  destruct (fixed_ok 10 (Z.to_nat p) (n mod 10 ^ p)) as [F1 F2]; [lia|lia|].
  rewrite Z2Nat.id in F2 by lia. rewrite (Z.mod_small (n mod 10 ^ p)) in F2 by lia.
  rewrite fixed_len, Z2Nat.id by lia. rewrite S2, F2. split; [reflexivity|]. split; [reflexivity|].
  rewrite p10_0, Rmult_1_r.
  assert (p10 (- p) = / IZR (10 ^ p))%R as ->.
  { pose proof (p10_neg p Hp) as E. rewrite (p10_nat p Hp) in E. apply (Rmult_eq_reg_l (IZR (10 ^ p))).
    - rewrite E, Rinv_r; auto. apply not_0_IZR. lia.
    - apply not_0_IZR. lia. }
  rewrite (Z.div_mod n (10 ^ p)) at 3 by lia. rewrite plus_IZR, mult_IZR. field. apply not_0_IZR. lia.
Qed.

Lemma point_len : forall p n, 0 <= p -> 0 <= n < two64 -> Zlen (point_text p n) <= 21 + p.
Proof.
  intros p n Hp Hn. unfold point_text. rewrite Zlen_app.
  assert (0 < 10 ^ p) as P10 by (apply Z.pow_pos_nonneg; lia).
  assert (0 <= n / 10 ^ p < two64) as Hq.
  { split; [apply Z.div_pos; lia|]. apply Z.le_lt_trans with n; [|lia]. apply Z.div_le_upper_bound; nia. }
  destruct (show10_facts (n / 10 ^ p)) as (S1 & S2 & S3 & S4); [exact Hq|].
  destruct (p =? 0); [change (Zlen (@nil Z)) with 0; lia|]. rewrite Zlen_cons, fixed_len, Z2Nat.id; lia.
Qed.

(** The distance of what is read from what was printed. *)
Lemma read_error : forall (x y v E p : R), (0 <= p)%R ->
  (Rabs (v - Rabs x) <= / 2 * p + bpow radix2 (-22) * Rabs x + bpow radix2 (-148))%R -> (0 <= v)%R ->
  forall neg : bool, (if neg then x < 0 else - bpow radix2 (-150) <= x)%R ->
  (Rabs (y - with_sign neg v) <= bpow radix2 (-47) * v)%R -> (bpow radix2 (-60) <= p)%R ->
  (Rabs (y - x) <= 51 / 100 * p + bpow radix2 (-21) * Rabs x)%R.
Proof.
  intros x y v E p Hp H1 Hv neg Hs H2 Hp2.
  set (a := bpow radix2 (-22)) in *. set (b := bpow radix2 (-47)) in *.
  assert (bpow radix2 (-21) = 2 * a)%R as -> by (unfold a; change (-21) with (1 + -22); rewrite bpow_plus; reflexivity).
  assert (a <= / 1000000)%R as Ha. { unfold a. cbn. lra. }
  assert (0 < a)%R as Ha0 by apply bpow_gt_0.
  assert (b <= a / 1000)%R as Hb. { unfold a, b. cbn. lra. }
  assert (0 < b)%R as Hb0 by apply bpow_gt_0.
  assert (bpow radix2 (-148) <= / 1000 * p)%R as Hc.
  { apply Rle_trans with (/ 1000 * bpow radix2 (-60))%R; [cbn; lra|]. apply Rmult_le_compat_l; lra. }
  assert (bpow radix2 (-150) <= / 1000 * p)%R as Hd.
  { apply Rle_trans with (/ 1000 * bpow radix2 (-60))%R; [cbn; lra|]. apply Rmult_le_compat_l; lra. }
  pose proof (bpow_gt_0 radix2 (-148)). pose proof (bpow_gt_0 radix2 (-150)).
  pose proof (Rabs_pos x) as X0. apply Rabs_le_inv in H1. apply Rabs_le_inv in H2.
  assert (v <= (1 + a) * Rabs x + / 2 * p + / 1000 * p)%R as Hv2 by lra.
  assert (b * v <= b * ((1 + a) * Rabs x + / 2 * p + / 1000 * p))%R as Hbv by (apply Rmult_le_compat_l; lra).
  assert (b * ((1 + a) * Rabs x) <= a / 500 * Rabs x)%R as Hb1.
  { rewrite <- Rmult_assoc. apply Rmult_le_compat_r; auto. apply Rle_trans with (a / 1000 * (1 + a))%R.
    - apply Rmult_le_compat_r; lra.
    - nra. }
  assert (b * (/ 2 * p + / 1000 * p) <= / 1000 * p)%R as Hb2.
  { replace (b * (/ 2 * p + / 1000 * p))%R with (b * (501 / 1000) * p)%R by lra. apply Rmult_le_compat_r; auto. nra. }
  assert (0 <= a * Rabs x)%R as Hax by (apply Rmult_le_pos; lra).
  apply Rabs_le. unfold with_sign in H2. destruct neg.
  - rewrite (Rabs_left x) in * by lra. split; lra.
  - destruct (Rle_or_lt 0 x) as [Hx|Hx].
    + rewrite (Rabs_right x) in * by lra. split; lra.
    + rewrite (Rabs_left x) in * by lra. split; lra.
Qed.

Lemma point_small : forall p n, 0 <= p -> 0 <= n < two64 -> Forall (fun x => 43 <= x <= 57) (point_text p n).
Proof.
  intros p n Hp Hn. unfold point_text.
  assert (0 < 10 ^ p) as P10 by (apply Z.pow_pos_nonneg; lia).
  assert (0 <= n / 10 ^ p < two64) as Hq.
  { split; [apply Z.div_pos; lia|]. apply Z.le_lt_trans with n; [|lia]. apply Z.div_le_upper_bound; nia. }
  destruct (show10_facts (n / 10 ^ p)) as (S1 & S2 & S3 & S4); [exact Hq|].
  assert (0 <= n mod 10 ^ p) as Hr by (apply Z.mod_pos_bound; lia).
  destruct (fixed_ok 10 (Z.to_nat p) (n mod 10 ^ p)) as [F1 F2]; [lia|exact Hr|].
  apply Forall_app. split; [|destruct (p =? 0); constructor; [lia|]].
  - eapply Forall_impl; [|exact S1]. intros x Hx. cbv beta in Hx. apply digit_facts in Hx. lia.
  - eapply Forall_impl; [|exact F1]. intros x Hx. cbv beta in Hx. apply digit_facts in Hx. lia.
Qed.

Lemma fixed_zero : forall k, Forall (fun c => c = 48) (PrnfSpec.fixed 10 k 0).
Proof. induction k as [|k IH]; cbn [PrnfSpec.fixed]; [constructor|]. apply Forall_app. split; [exact IH|]. repeat constructor. Qed.
