(** Property theorems about floating point numbers printed by prnf and read by strnum (C130). *)
From Coq Require Import String ZArith Reals Lra Lia.
From Flocq Require Import Core BinarySingleNaN.
From Verif Require Import Base Mem Libc StrviewModel Spec MemLemmas StrviewProofs StrnumModel NumSpec StrnumProofs StrnumProofs2 StrnumProofs3
  StrnumFloat StrnumFloatVal IeeeSpec StrnumIeee StrnumIeee2 StrnumIeee3 CryptProofs3 PrnfModel PrnfSpec PrnfSpec2 PrnfIeee PrnfProofs PrnfProofs4 PrnfProofs5 PrnfProofs6 PrnfProofs7 PrnfProofs8 PrnfProofs9 PrnfProofs10
  ExampleLib BufExample PropsNum PropsIeee PropsPrnf PropsPrnfIeee ReadBackProofs.
Local Open Scope string_scope.
Local Open Scope list_scope.
Local Open Scope Z_scope.

Lemma clear_less : forall dst w k q n, k <= w -> clear_of dst w q n -> clear_of dst k q n.
Proof. intros dst w k q n H [E|[E|E]]; [left|right; left|right; right]; auto; lia. Qed.
Lemma narrower : forall D m dst fmt (items : list (item D)) w k, 0 <= k <= w -> writable m dst w -> elsewhere dst w fmt items ->
  writable m dst k /\ elsewhere dst k fmt items.
Proof.
  intros D m dst fmt items w k Hk (b & kb & W1 & W2 & W3 & W4 & W5) [E1 E2]. split.
  - exists b, kb. repeat (split; [assumption|]). lia.
  - split; [eapply clear_less; [|exact E1]; lia|]. eapply Forall_impl; [|exact E2]. intros i Hi. unfold item_clear in *.
    destruct i; auto. destruct Hi as [Hi|Hi]; auto. right. eapply clear_less; [|exact Hi]; lia.
Qed.
Lemma printed_number : forall cf m dst fmt b c d va, wf_cfg cf -> mem_wf m -> conv_ok c ->
  let items := [Flt b c d] in exists r, float_reading d (flt_prec false c) r /\
  let t := flt_text false c [] r in (Zlen t < 48 -> writable m dst 48 -> given m fmt items -> elsewhere dst 48 fmt items ->
    exists m', sprnf cf ieee m dst fmt (arguments cf items ++ va) = Ok (Zlen t, m') /\ mem_wf m' /\ has_view m' (View dst (Zlen t)) t).
Proof.
  intros cf m dst fmt b c d va Wf Wm Hc items. assert (items_ok cf float_ok items) as Hi by (cbn; unfold float_ok; auto).
  destruct (ieee_printed cf items Hi) as [P1 P2].
  pose proof (fun g => text_bytes cf ieee Wf items m 0 P1 g) as TB.
  pose proof (fun a b' c' e f' g => vsprnf_ok cf ieee m dst fmt items va Wf a b' c' e P1 f' g) as V. cbv zeta in V.
  set (t := printed cf (flt ieee) 0 items) in *. clearbody t.
  destruct P2 as (s & r0 & E & (rd & -> & R) & Hr). cbn [prints] in Hr. subst r0. rewrite app_nil_r in E. subst t.
  exists rd. split; [exact R|]. intros t Ht Hw Hg He. assert (0 <= Zlen t) as T0 by apply Zlen_nonneg.
  destruct (narrower _ m dst fmt items 48 (Zlen t + 1) ltac:(lia) Hw He) as [Hw' [He1 He2]]. destruct Hg as [G1 G2].
  assert (Zlen t < INT_MAX) as Ht' by (unfold INT_MAX; lia).
  destruct (V Ht' Hw' G1 He1 G2 He2) as (m' & E & F & B). fold t in E, F, B.
  destruct Hw' as (bb & kb & W1 & W2 & W3 & W4 & W5). pose proof (mem_wf_frame _ _ _ _ _ (F bb W1) Wm) as Wm'.
  exists m'. split; [exact E|]. split; [exact Wm'|]. apply bytes_at_app in B as [B _].
  split; [exact B|]. split; [reflexivity|]. split; [unfold INT_MAX in *; lia|exact (TB G2)].
Qed.

(** ** C130 *)
(** A finite number, not too large for its decimals, printed without padding. *)
Definition printable (c : conv) (d : b64) : Prop :=
  is_finite d = true /\ width_of c = 0 /\ flt_prec false c <= 18 /\
  (Rabs (B2R d) * IZR (10 ^ flt_prec false c) < bpow radix2 64 * (1 - bpow radix2 (-22)))%R /\
  (Rabs (B2R d) < bpow radix2 128 * (1 - bpow radix2 (-24)))%R.
Theorem C130_close : forall cf pow10 m dst fmt b c d va, wf_cfg cf -> mem_wf m -> conv_ok c -> printable c d ->
  pow_accurate pow10 (bpow radix2 (-51)) (-300) 300 ->
  let items := [Flt b c d] in writable m dst 48 -> given m fmt items -> elsewhere dst 48 fmt items ->
  exists k m' y s', sprnf cf ieee m dst fmt (arguments cf items ++ va) = Ok (k, m') /\
    strnum_consume_double cf (A64 pow10) m' true (Some (View dst k)) 0 = Ok (Parsed NoErr (Some y) (Some s')) /\ has_view m' s' [] /\
    is_finite y = true /\
    (Rabs (B2R y - B2R d) <= 51 / 100 * / IZR (10 ^ flt_prec false c) + bpow radix2 (-21) * Rabs (B2R d))%R.
Proof.
  intros cf pow10 m dst fmt b c d va Wf Wm Hc (P1 & P2 & P3 & P4 & P5) Hpow items Hw Hg He.
  destruct (printed_number cf m dst fmt b c d va Wf Wm Hc) as (r & R & V). cbv zeta in V. fold items in V.
  set (p := flt_prec false c) in *.
  assert (0 <= p) as P0 by (unfold p, flt_prec; destruct Hc as [_ Hc]; unfold prec_of; destruct (cv_prec c); lia).
  assert (0 < IZR (10 ^ p))%R as Pp by (apply IZR_lt, Z.pow_pos_nonneg; lia).
  assert (exists neg n, r = RNum neg n /\ 0 <= n < two64 /\ (Rabs (IZR n / IZR (10 ^ p) - Rabs (B2R d)) <= print_error p (B2R d))%R
    /\ (if neg then B2R d < 0 else - bpow radix2 (-150) <= B2R d)%R) as (neg & n & -> & Hn & Rd & Rs).
  { destruct d as [s|s| |s mm e Hb]; try discriminate P1; cbn [float_reading] in R; destruct r as [|ng|ng|ng n]; try contradiction;
      try (destruct R as [_ R]; lra); exists ng, n; (split; [reflexivity|]); exact R. }
  set (sg := flt_sign c neg). set (txt := sg ++ point_text p n).
  assert (sign_text sg /\ (match sg with [45] => true | _ => false end) = neg /\ Zlen sg <= 1 /\ Forall (fun x => x < 128) sg) as (S1 & S2 & S3 & S4).
  { unfold sg, flt_sign. destruct neg; [split; [right; left; reflexivity|]; split; [reflexivity|]; split; [vm_compute; discriminate|repeat constructor]|].
    destruct (plus_sign_text (cv_flags c)) as [Q N]. split; [exact Q|].
    destruct Q as [-> | [Q | [-> | ->]]]; [|congruence| |]; (split; [reflexivity|]); (split; [vm_compute; discriminate|repeat constructor]). }
  assert (flt_text false c [] (RNum neg n) = txt) as Et.
  { cbn [flt_text]. rewrite pad_none by exact P2. fold p. destruct (n =? 0); rewrite app_nil_r; reflexivity. }
  rewrite Et in V. pose proof (point_len p n P0 Hn) as Hl.
  assert (Zlen txt < 48) as Ht by (unfold txt; rewrite Zlen_app; lia).
  destruct (V Ht Hw Hg He) as (m' & E & Wm' & Vw).
  destruct (read_point sg p n S1 P0 Hn) as [N1 N2]. rewrite S2 in N2. fold txt in N1, N2.
  assert (ctype_safe cf txt) as Cs.
  { right; right. unfold txt. apply Forall_app. split; [eapply Forall_impl; [|exact S4]; intros x Hx; cbv beta in Hx; lia|].
    eapply Forall_impl; [|exact (point_small p n P0 Hn)]. intros x Hx. cbv beta in Hx. lia. }
  destruct (point_value neg p n P0 Hn) as (V1 & V2 & V3).
  assert (0 <= n / 10 ^ p < two64) as Hq.
  { assert (0 < 10 ^ p) by (apply Z.pow_pos_nonneg; lia). split; [apply Z.div_pos; lia|].
    apply Z.le_lt_trans with n; [|lia]. apply Z.div_le_upper_bound; nia. }
  assert (0 <= IZR n / IZR (10 ^ p))%R as Hv0.
  { apply Rmult_le_pos; [apply IZR_le; lia|]. apply Rlt_le, Rinv_0_lt_compat. exact Pp. }
  destruct (C78_double cf pow10 m' (View dst (Zlen txt)) txt 0 (point_read neg p n) Wm' Vw Cs) as (y & rest & Ey & Fy & By).
  - split; [exact N1|]. split; [exact N2|]. reflexivity.
  - exact Hpow.
  - rewrite V1. unfold two64 in Hq. lia.
  - rewrite V2. exact P3.
  - cbn [point_read ft_exp]. lia.
  - rewrite V3. destruct (Z.eq_dec n 0) as [->|Nz]; [left; lra|]. right.
    rewrite <- (p10_nat p P0). assert (IZR n / p10 p = IZR n * p10 (- p))%R as ->.
    { unfold Rdiv. f_equal. pose proof (p10_neg p P0) as Q. pose proof (p10_pos p). apply (Rmult_eq_reg_l (p10 p)); [|lra]. rewrite Q, Rinv_r; lra. }
    assert (1 <= IZR n)%R as Hn1 by (apply IZR_le; lia).
    assert (IZR n <= p10 20)%R as Hn2. { rewrite p10_nat by lia. apply IZR_le. unfold two64 in Hn. lia. }
    pose proof (p10_pos (- p)). split.
    + apply Rle_trans with (1 * p10 (- p))%R; [rewrite Rmult_1_l; apply p10_le; lia|]. apply Rmult_le_compat_r; lra.
    + apply Rle_trans with (p10 20 * p10 (- p))%R; [apply Rmult_le_compat_r; lra|]. rewrite <- p10_plus. apply p10_le. lia.
  - cbn [point_read ft_neg] in By. rewrite V3 in By.
    pose proof (C29_float_grammar cf (A64 pow10) _ m' true (View dst (Zlen txt)) txt 0 (or_intror eq_refl) Wm' Vw Cs N1) as G.
    rewrite N2 in G. destruct G as (a & x & G1 & G2 & G3). cbn [point_read ft_special ft_rest] in G1, G3. rewrite app_nil_r in G1. subst a.
    rewrite Ey in G3. destruct (a_is_inf (A64 pow10) x); [discriminate G3|]. injection G3 as G3 Grest. subst rest.
    exists (Zlen txt), m', y. eexists. split; [exact E|]. split; [exact Ey|]. split.
    + apply has_view_suffix. rewrite app_nil_r. exact Vw.
    + split; [exact Fy|]. apply (read_error (B2R d) (B2R y) (IZR n / IZR (10 ^ p)) 0 (/ IZR (10 ^ p))) with (neg := neg); auto.
      * apply Rlt_le, Rinv_0_lt_compat. exact Pp.
      * change (bpow radix2 (-60)) with (/ IZR (2 ^ 60))%R. apply Rinv_le; [exact Pp|]. apply IZR_le.
        apply Z.le_trans with (10 ^ 18); [apply Z.pow_le_mono_r; lia|vm_compute; discriminate].
Qed.
Print Assumptions C130_close.
Definition third : b64 := dbl_of 6004799503160661 (-54).
Definition three : conv := Conv [] WNone PNone Lint.
Lemma third_value : B2R third = (6004799503160661 / 18014398509481984)%R.
Proof.
  rewrite <- SF2R_B2SF. replace (B2SF third) with (SpecFloat.S754_finite false 6004799503160661 (-54)) by (vm_compute; reflexivity).
  unfold SF2R, F2R. cbn. lra.
Qed.
(** One third is printed as 0.333, which is read back. *)
Example C130_ex : wf_cfg gcc64 /\ mem_wf (one_mem "%f") /\ conv_ok three /\ printable three third
  /\ writable (one_mem "%f") xdst 48 /\ given (one_mem "%f") xfmt [Flt false three third] /\ elsewhere xdst 48 xfmt [Flt false three third]
  /\ match sprnf gcc64 ieee (one_mem "%f") xdst xfmt [AD third] with
     | Ok (k, m') => k = 5 /\ match strnum_consume_double gcc64 (A64 pow64) m' true (Some (View xdst k)) 0 with
         | Ok (Parsed NoErr (Some y) (Some s')) => v_size s' = 0 /\ B2SF y = SpecFloat.S754_finite false 5998794703657501 (-54)
         | _ => False end
     | _ => False end.
Proof.
  split; [exact gcc64_wf|]. split; [wf_check|]. split; [vm_compute; repeat split; discriminate|]. split.
  - split; [vm_compute; reflexivity|]. split; [reflexivity|]. split; [vm_compute; discriminate|]. rewrite third_value.
    change (IZR (10 ^ flt_prec false three)) with 1000%R. rewrite Rabs_right by lra. cbn. lra.
  - split; [apply xdst_writable; lia|]. split; [split; [apply bytes_atb_ok; vm_compute; reflexivity|repeat constructor]|].
    split; [split; [left; discriminate|repeat constructor]|]. vm_compute. repeat split.
Qed.

(** Whole numbers whose printed digits are below 2^24 come back unchanged. *)
Lemma sign_facts : forall c neg, let sg := flt_sign c neg in
  sign_text sg /\ (match sg with [45] => true | _ => false end) = neg /\ Zlen sg <= 1 /\ Forall (fun x => x < 128) sg.
Proof.
  intros c neg sg. unfold sg, flt_sign. destruct neg; [split; [right; left; reflexivity|]; split; [reflexivity|]; split; [vm_compute; discriminate|repeat constructor]|].
  destruct (plus_sign_text (cv_flags c)) as [Q N]. split; [exact Q|].
  destruct Q as [-> | [Q | [-> | ->]]]; [|congruence| |]; (split; [reflexivity|]); (split; [vm_compute; discriminate|repeat constructor]).
Qed.
Theorem C130_whole : forall cf pow10 m dst fmt b c d z va, wf_cfg cf -> mem_wf m -> conv_ok c ->
  is_finite d = true -> width_of c = 0 -> B2R d = IZR z -> flt_prec false c <= 10 -> Z.abs z * 10 ^ flt_prec false c <= 2 ^ 24 ->
  pow_zero pow10 ->
  let items := [Flt b c d] in writable m dst 48 -> given m fmt items -> elsewhere dst 48 fmt items ->
  exists k m' y s', sprnf cf ieee m dst fmt (arguments cf items ++ va) = Ok (k, m') /\
    strnum_consume_double cf (A64 pow10) m' true (Some (View dst k)) 0 = Ok (Parsed NoErr (Some y) (Some s')) /\ has_view m' s' [] /\
    is_finite y = true /\ B2R y = B2R d.
Proof.
  intros cf pow10 m dst fmt b c d z va Wf Wm Hc Fd Hw0 Hz Hp Hl Hpow items Hw Hg He.
  set (p := flt_prec false c) in *.
  assert (0 <= p) as P0 by (unfold p, flt_prec; destruct Hc as [_ Hc]; unfold prec_of; destruct (cv_prec c); lia).
  assert (0 < 10 ^ p) as Pp by (apply Z.pow_pos_nonneg; lia).
  set (n := Z.abs z * 10 ^ p) in *. set (neg := Rlt_bool (B2R d) 0).
  assert (n / 10 ^ p = Z.abs z /\ n mod 10 ^ p = 0) as [D1 D2] by (split; [apply Z.div_mul; lia|apply Z.mod_mul; lia]).
  assert (0 <= n) as N0 by (unfold n; nia). assert (0 <= n < two64) as Hn by (unfold two64; lia).
  assert (Z.abs z <= 2 ^ 24) as Az by (unfold n in Hl; nia).
  set (sg := flt_sign c neg). set (txt := sg ++ point_text p n).
  destruct (sign_facts c neg) as (S1 & S2 & S3 & S4). fold sg in S1, S2, S3, S4.
  assert (flt_text false c [] (RNum neg n) = txt) as Et.
  { cbn [flt_text]. rewrite pad_none by exact Hw0. fold p. destruct (n =? 0); rewrite app_nil_r; reflexivity. }
  pose proof (point_len p n P0 Hn) as Hlen.
  assert (Zlen txt < 48) as Ht by (unfold txt; rewrite Zlen_app; lia). assert (0 <= Zlen txt) as T0 by apply Zlen_nonneg.
  destruct (narrower _ m dst fmt items 48 (Zlen txt + 1) ltac:(lia) Hw He) as [Hw' [He1 He2]]. destruct Hg as [G1 G2].
  assert (items_ok cf float_ok items) as Hi by (cbn; unfold float_ok; auto). destruct (ieee_printed cf items Hi) as [P1 _].
  assert (printed cf (flt ieee) 0 items = txt) as Ep.
  { unfold items. cbn [printed item_out]. rewrite app_nil_r. unfold flt. cbn [f_of_dbl ieee]. fold p. rewrite (exact_reading d p n); auto; try lia.
    - rewrite Hz. destruct (Z.abs_eq_or_opp z) as [Q|Q]; [replace z with (Z.abs z) by lia; apply small_format; lia|].
      replace z with (- Z.abs z) by lia. rewrite opp_IZR. apply generic_format_opp, small_format. lia.
    - rewrite Hz, <- abs_IZR, <- mult_IZR. reflexivity. }
  pose proof (text_bytes cf ieee Wf items m 0 P1 G2) as TB. pose proof (vsprnf_ok cf ieee m dst fmt items va Wf) as V. cbv zeta in V. rewrite Ep in V, TB.
  assert (Zlen txt < INT_MAX) as Ht' by (unfold INT_MAX; lia).
  destruct (V Ht' Hw' G1 He1 P1 G2 He2) as (m' & E & F & B).
  destruct Hw' as (bb & kb & W1 & W2 & W3 & W4 & W5). pose proof (mem_wf_frame _ _ _ _ _ (F bb W1) Wm) as Wm'.
  assert (has_view m' (View dst (Zlen txt)) txt) as Vw.
  { apply bytes_at_app in B as [B _]. split; [exact B|]. split; [reflexivity|]. split; [unfold INT_MAX in *; lia|exact TB]. }
  destruct (read_point sg p n S1 P0 Hn) as [N1 N2]. rewrite S2 in N2. fold txt in N1, N2.
  assert (ctype_safe cf txt) as Cs.
  { right; right. unfold txt. apply Forall_app. split; [eapply Forall_impl; [|exact S4]; intros x Hx; cbv beta in Hx; lia|].
    eapply Forall_impl; [|exact (point_small p n P0 Hn)]. intros x Hx. cbv beta in Hx. lia. }
  destruct (point_value neg p n P0 Hn) as (V1 & V2 & V3). rewrite D1 in V1.
  destruct (C77_exact 53 1024 p64 l64 pow10 cf (strnum_consume_double cf (A64 pow10)) m' (View dst (Zlen txt)) txt 0 (point_read neg p n)) as (y & rest & Ey & Fy & By);
    [right; reflexivity|exact Wm'|exact Vw|exact Cs|split; [exact N1|split; [exact N2|reflexivity]]|lia|exact Hpow|rewrite V1; unfold ULLONG_MAX; lia|rewrite V1; lia| |reflexivity|].
  { cbn [point_read ft_frac]. rewrite D2. apply fixed_zero. }
  cbn [point_read ft_neg] in By. rewrite V1 in By.
  pose proof (C29_float_grammar cf (A64 pow10) _ m' true (View dst (Zlen txt)) txt 0 (or_intror eq_refl) Wm' Vw Cs N1) as G.
  rewrite N2 in G. destruct G as (a & x & Ga & Gb & Gc). cbn [point_read ft_special ft_rest] in Ga, Gc. rewrite app_nil_r in Ga. subst a.
  rewrite Ey in Gc. destruct (a_is_inf (A64 pow10) x); [discriminate Gc|]. injection Gc as Gc Grest. subst rest.
  exists (Zlen txt), m', y. eexists. split; [exact E|]. split; [exact Ey|]. split; [apply has_view_suffix; rewrite app_nil_r; exact Vw|]. split; [exact Fy|].
  rewrite By, Hz. unfold with_sign, neg. rewrite Hz. destruct (Rlt_bool_spec (IZR z) 0) as [Q|Q].
  - apply lt_IZR in Q. rewrite <- opp_IZR. f_equal. lia.
  - apply le_IZR in Q. f_equal. lia.
Qed.
Print Assumptions C130_whole.
Example C130_whole_ex : B2R (dbl_of (-1234) 0) = IZR (-1234)
  /\ Z.abs (-1234) * 10 ^ flt_prec false (Conv [FPlus] WNone (PNum 2) Lint) <= 2 ^ 24
  /\ pow_zero pow64 /\ given (one_mem "%+.2f") xfmt [Flt false (Conv [FPlus] WNone (PNum 2) Lint) (dbl_of (-1234) 0)]
  /\ match sprnf gcc64 ieee (one_mem "%+.2f") xdst xfmt [AD (dbl_of (-1234) 0)] with
     | Ok (k, m') => k = 8 /\ match strnum_consume_double gcc64 (A64 pow64) m' true (Some (View xdst k)) 0 with
         | Ok (Parsed NoErr (Some y) (Some s')) => v_size s' = 0 /\ B2SF y = B2SF (dbl_of (-1234) 0)
         | _ => False end
     | _ => False end.
Proof.
  split.
  { rewrite <- SF2R_B2SF. replace (B2SF (dbl_of (-1234) 0)) with (SpecFloat.S754_finite true (1234 * 2 ^ 42) (-42)) by (vm_compute; reflexivity).
    unfold SF2R, F2R. cbn. lra. }
  split; [vm_compute; discriminate|]. split; [exact pow64_zero|].
  split; [split; [apply bytes_atb_ok; vm_compute; reflexivity|repeat constructor]|]. vm_compute. repeat split.
Qed.

(** NaN and the infinities come back, whatever the arithmetic of the parser. *)
Lemma read_special : forall sg, sign_text sg ->
  strip_word w_infinty (snd (float_body 0 (sg ++ [73; 78; 70]))) = None /\
  read_float 0 (sg ++ [73; 78; 70]) = FGood (FloatText (match sg with [45] => true | _ => false end) SpInf [] [] 0 []).
Proof. intros sg [-> | [-> | [-> | ->]]]; split; vm_compute; reflexivity. Qed.
Theorem C130_special : forall cf A m dst fmt b c d va, wf_cfg cf -> mem_wf m -> conv_ok c -> is_finite d = false -> width_of c = 0 ->
  let items := [Flt b c d] in writable m dst 48 -> given m fmt items -> elsewhere dst 48 fmt items ->
  exists k m' s', sprnf cf ieee m dst fmt (arguments cf items ++ va) = Ok (k, m') /\
    strnum_consume_double cf A m' true (Some (View dst k)) 0 =
      Ok (Parsed NoErr (Some (let x := match d with B754_infinity _ => a_inf A | _ => a_nan A end in
                              if a_is_nan A x then a_nan A else match d with B754_infinity true => a_neg A x | _ => x end)) (Some s')).
Proof.
  intros cf A m dst fmt b c d va Wf Wm Hc Fd Hw0 items Hw Hg He.
  destruct (printed_number cf m dst fmt b c d va Wf Wm Hc) as (r & R & V). cbv zeta in V. fold items in V.
  destruct d as [s|s| |s mm e Hb]; try discriminate Fd; cbn [float_reading] in R; subst r; cbn [flt_text] in V; rewrite pad_none in V by exact Hw0.
  - destruct (sign_facts c s) as (S1 & S2 & S3 & S4). set (sg := flt_sign c s) in *.
    destruct (V ltac:(rewrite Zlen_app; change (Zlen [73; 78; 70]) with 3; lia) Hw Hg He) as (m' & E & Wm' & Vw).
    destruct (read_special sg S1) as [N1 N2]. rewrite S2 in N2.
    assert (ctype_safe cf (sg ++ [73; 78; 70])) as Cs.
    { right; right. apply Forall_app. split; [eapply Forall_impl; [|exact S4]; intros x Hx; cbv beta in Hx; lia|repeat constructor]. }
    pose proof (C29_float_grammar cf A _ m' true (View dst (Zlen (sg ++ [73; 78; 70]))) _ 0 (or_intror eq_refl) Wm' Vw Cs N1) as G. rewrite N2 in G.
    destruct G as (a & x & _ & _ & G). cbn [ft_special ft_neg ft_rest] in G. destruct G as [-> G].
    exists (Zlen (sg ++ [73; 78; 70])), m'. eexists. split; [exact E|]. rewrite G. cbv zeta. destruct s; reflexivity.
  - destruct (V ltac:(vm_compute; reflexivity) Hw Hg He) as (m' & E & Wm' & Vw).
    assert (ctype_safe cf [78; 65; 78]) as Cs by (right; right; repeat constructor).
    pose proof (C29_float_grammar cf A _ m' true (View dst (Zlen [78; 65; 78])) _ 0 (or_intror eq_refl) Wm' Vw Cs eq_refl) as G.
    change (read_float 0 [78; 65; 78]) with (FGood (FloatText false SpNan [] [] 0 [])) in G.
    destruct G as (a & x & _ & _ & G). cbn [ft_special ft_neg ft_rest] in G. destruct G as [-> G].
    exists (Zlen [78; 65; 78]), m'. eexists. split; [exact E|]. rewrite G. cbv zeta. reflexivity.
Qed.
Print Assumptions C130_special.
Definition minus_inf : b64 := B754_infinity true.
Example C130_special_ex : conv_ok three /\ given (one_mem "%f") xfmt [Flt false three minus_inf]
  /\ match sprnf gcc64 ieee (one_mem "%f") xdst xfmt [AD minus_inf] with
     | Ok (k, m') => k = 4 /\ match strnum_consume_double gcc64 (A64 pow64) m' true (Some (View xdst k)) 0 with
         | Ok (Parsed NoErr (Some y) (Some s')) => B2SF y = SpecFloat.S754_infinity true
         | _ => False end
     | _ => False end.
Proof.
  split; [vm_compute; repeat split; discriminate|].
  split; [split; [apply bytes_atb_ok; vm_compute; reflexivity|repeat constructor]|]. vm_compute. repeat split.
Qed.

Lemma read_as_float : forall (o : outcome (parsed b64)) v,
  match o with Ok (Parsed NoErr (Some y) (Some _)) => B2SF y = v | _ => False end ->
  exists y s', o = Ok (Parsed NoErr (Some y) (Some s')) /\ B2SF y = v.
Proof. intros [[[| |] [y|] [s'|]]|u|] v H; try contradiction. eauto. Qed.
(** Full statement: the number read back is the number printed, if enough decimals are printed.
    It is false for a whole number: 2^24 + 1 comes back as 2^24. *)
Theorem C130_same_refuted : exists m m' d y s', printable (Conv [] WNone PDot Lint) d /\ B2R d = IZR (2 ^ 24 + 1) /\
  given m xfmt [Flt false (Conv [] WNone PDot Lint) d] /\ sprnf gcc64 ieee m xdst xfmt [AD d] = Ok (8, m') /\
  strnum_consume_double gcc64 (A64 pow64) m' true (Some (View xdst 8)) 0 = Ok (Parsed NoErr (Some y) (Some s')) /\ B2R y = IZR (2 ^ 24).
Proof.
  assert (B2R (dbl_of (2 ^ 24 + 1) 0) = IZR (2 ^ 24 + 1)) as E.
  { rewrite <- SF2R_B2SF. replace (B2SF (dbl_of (2 ^ 24 + 1) 0)) with (SpecFloat.S754_finite false (16777217 * 2 ^ 28) (-28)) by (vm_compute; reflexivity).
    unfold SF2R, F2R. cbn. lra. }
  set (run := sprnf gcc64 ieee (one_mem "%.f") xdst xfmt [AD (dbl_of (2 ^ 24 + 1) 0)]).
  assert (match run with Ok (k, m') => k = 8 /\ match strnum_consume_double gcc64 (A64 pow64) m' true (Some (View xdst 8)) 0 with
      | Ok (Parsed NoErr (Some y) (Some _)) => B2SF y = SpecFloat.S754_finite false (2 ^ 52) (-28) | _ => False end | _ => False end) as Q
    by (vm_compute; split; reflexivity).
  destruct run as [[k m']| |] eqn:Er; try contradiction. destruct Q as [-> Q]. apply read_as_float in Q as (y & s' & Q & Y).
  exists (one_mem "%.f"), m', (dbl_of (2 ^ 24 + 1) 0), y, s'. split.
  { split; [vm_compute; reflexivity|]. split; [reflexivity|]. split; [vm_compute; discriminate|]. rewrite E.
    change (IZR (10 ^ flt_prec false (Conv [] WNone PDot Lint))) with 1%R. rewrite Rabs_right by (cbn; lra). cbn. lra. }
  split; [exact E|]. split; [split; [apply bytes_atb_ok; vm_compute; reflexivity|repeat constructor]|].
  split; [exact Er|]. split; [exact Q|]. rewrite <- SF2R_B2SF, Y. unfold SF2R, F2R. cbn. lra.
Qed.
Print Assumptions C130_same_refuted.
(** A number too large for its decimals is printed as a word that cannot be read. *)
Theorem C130_large_refuted : exists m m' d, is_finite d = true /\ (0 < B2R d <= IZR (2 ^ 55))%R /\ given m xfmt [Flt false three d] /\
  sprnf gcc64 ieee m xdst xfmt [AD d] = Ok (4, m') /\ bytes_at m' xdst (bs "OVER" ++ [0]) /\
  strnum_consume_double gcc64 (A64 pow64) m' true (Some (View xdst 4)) 0 = Ok (Parsed EINVAL None None).
Proof.
  exists (one_mem "%f"). eexists. exists (dbl_of 1 55). split; [vm_compute; reflexivity|]. split.
  { rewrite <- SF2R_B2SF. replace (B2SF (dbl_of 1 55)) with (SpecFloat.S754_finite false (2 ^ 52) 3) by (vm_compute; reflexivity).
    unfold SF2R, F2R. cbn. lra. }
  split; [split; [apply bytes_atb_ok; vm_compute; reflexivity|repeat constructor]|]. split; [vm_compute; reflexivity|].
  split; [apply bytes_atb_ok; vm_compute; reflexivity|vm_compute; reflexivity].
Qed.
Print Assumptions C130_large_refuted.
