(** The floating point parsers in IEEE-754 arithmetic: accuracy, whole numbers, zero, and
    the absence of infinite results. *)
From Coq Require Import ZArith Reals Lra Lia Psatz.
From Flocq Require Import Core BinarySingleNaN Relative.
From Verif Require Import Base Mem Libc StrviewModel StrnumModel Spec NumSpec MemLemmas StrviewProofs StrviewProofs2 StrviewProofs3
  StrnumProofs StrnumProofs2 StrnumProofs3 StrnumFloat StrnumFloatVal IeeeSpec StrnumIeee.
Open Scope Z_scope.

Section Parsers.
Variables (prec emax : Z).
Context (Hp : Prec_gt_0 prec) (Hm : Prec_lt_emax prec emax).
Variable pow10 : Z -> binary_float prec emax.
Notation A := (flocq prec emax Hp Hm pow10).
Notation bf := (binary_float prec emax).
Notation rnd := (nearest prec emax).
Local Instance vexp2 : Valid_exp (SpecFloat.fexp prec emax) := FLT_exp_valid _ prec.

(** What is stored for a number: the value computed, with the sign. *)
Lemma parser_value : forall cf f m s l opt t,
  f = strnum_consume_float cf A \/ f = strnum_consume_double cf A ->
  mem_wf m -> has_view m s l -> ctype_safe cf l ->
  strip_word w_infinty (snd (float_body opt l)) = None ->
  read_float opt l = FGood t -> ft_special t = NoSpecial ->
  let x := float_pure A (ft_int t) (ft_frac t) (ft_exp t) in
  digits10 (ft_int t) /\ digits10 (ft_frac t) /\ exists a, l = a ++ ft_rest t /\
  f m true (Some s) opt =
    Ok (if a_is_inf A x then Parsed ERANGE None None
        else Parsed NoErr (Some (if a_is_nan A x then B754_nan else if ft_neg t then Bopp x else x))
                    (Some (subview s (Zlen a) (Zlen (ft_rest t))))).
Proof.
  intros cf f m s l opt t Hf Hw Hv Hc Hn Ht Hs x.
  destruct (float_ok cf A m true s l opt Hw Hv Hc Hn) as [E K].
  assert (f m true (Some s) opt = strnum_consume_double cf A m true (Some s) opt) as -> by (destruct Hf as [-> | ->]; auto).
  rewrite Ht in K. destruct K as (a & El & _ & D1 & D2 & K). split; auto. split; auto. exists a. split; auto.
  rewrite K. unfold float_over, signed_result, float_result, rest_view_of. rewrite Hs. reflexivity.
Qed.

Lemma finite_value : forall (x : bf) (neg : bool), is_finite x = true -> exists y : bf,
  a_is_inf A x = false /\ (if a_is_nan A x then B754_nan else if neg then Bopp x else x) = y
  /\ is_finite y = true /\ B2R y = with_sign neg (B2R x).
Proof.
  intros x neg F. eexists. split; [destruct x; try discriminate; reflexivity|]. split; [reflexivity|].
  assert (a_is_nan A x = false) as -> by (destruct x; try discriminate; reflexivity).
  unfold with_sign. destruct neg; [rewrite is_finite_Bopp, B2R_Bopp|]; auto.
Qed.

Lemma accuracy_ok : forall cf f e lo hi m s l opt t,
  f = strnum_consume_float cf A \/ f = strnum_consume_double cf A ->
  mem_wf m -> has_view m s l -> ctype_safe cf l ->
  strip_word w_infinty (snd (float_body opt l)) = None ->
  read_float opt l = FGood t -> ft_special t = NoSpecial ->
  66 <= emax -> (half_ulp prec <= e < 1)%R -> pow_accurate pow10 e lo hi -> lo <= 0 -> 19 <= hi ->
  (2 * min_normal prec emax <= p10 lo)%R ->
  num_val 10 (ft_int t) < 10 ^ 38 -> (IZR (num_val 10 (ft_int t)) + 1 <= bpow radix2 (emax - 2))%R ->
  Zlen (ft_frac t) <= - lo -> lo <= ft_exp t <= hi ->
  (real_value t = 0 \/ 2 * min_normal prec emax <= real_value t)%R -> (real_value t <= bpow radix2 (emax - 2))%R ->
  let k := Z.to_nat (10 + Zlen (ft_frac t) / 19) in
  (INR k * e <= / 2)%R ->
  exists b rest, f m true (Some s) opt = Ok (Parsed NoErr (Some b) rest) /\ is_finite b = true
    /\ (Rabs (B2R b - with_sign (ft_neg t) (real_value t)) <= ((1 + e) ^ k - 1) * real_value t)%R.
Proof.
  intros cf f e lo hi m s l opt t Hf Hw Hv Hc Hn Ht Hs Hemax He Hpow Hlo Hhi Hmn Hi1 Hi2 Hfr Hex Hv1 Hv2 k Hk.
  destruct (parser_value cf f m s l opt t Hf Hw Hv Hc Hn Ht Hs) as (D1 & D2 & a & _ & E).
  assert (0 <= e < 1)%R as He' by (pose proof (bpow_ge_0 radix2 (- prec)); unfold half_ulp in He; lra).
  assert (10 + Zlen (ft_frac t) / 19 = Z.of_nat k) as Ek.
  { unfold k. rewrite Z2Nat.id; auto. pose proof (Z.div_pos _ 19 (Zlen_nonneg (ft_frac t)) eq_refl). lia. }
  destruct (float_fits prec emax Hp Hm Hemax e He' (proj1 He) pow10 lo hi Hpow Hlo Hhi Hmn (ft_int t) (ft_frac t) (ft_exp t) k
             D1 D2 Hi1 Hi2 Hfr Hex Hv1 Hv2 Ek Hk) as [F N].
  fold (mantissa t) in N. fold (real_value t) in N.
  destruct (finite_value _ (ft_neg t) F) as (y & Y1 & Y2 & Y3 & Y4). rewrite Y1, Y2 in E.
  eexists; eexists; split; [exact E|]. split; auto. rewrite Y4. apply near_abs in N; auto.
  unfold with_sign. destruct (ft_neg t); auto.
  match goal with |- (Rabs ?z <= _)%R => replace z with (- (B2R (float_pure A (ft_int t) (ft_frac t) (ft_exp t)) - real_value t))%R by ring end.
  now rewrite Rabs_Ropp.
Qed.

(** ** Whole numbers *)
Lemma rnd_id : forall x : bf, rnd (B2R x) = B2R x.
Proof. intro x. apply round_generic; auto with typeclass_instances. apply generic_format_B2R. Qed.

Lemma add_zero : forall x : bf, is_finite x = true ->
  is_finite (Bplus mode_NE (B754_zero false) x) = true /\ B2R (Bplus mode_NE (B754_zero false) x) = B2R x.
Proof.
  intros x F. pose proof (Bplus_correct prec emax Hp Hm mode_NE (B754_zero false) x eq_refl F) as C.
  cbn [B2R] in C. rewrite Rplus_0_l in C. pose proof (rnd_id x) as I. unfold nearest in I. cbn [round_mode] in C. rewrite I in C.
  rewrite Rlt_bool_true in C by apply abs_B2R_lt_emax. destruct C as (C1 & C2 & _). auto.
Qed.
Lemma mul_one : forall x y : bf, is_finite x = true -> is_finite y = true -> B2R y = 1%R ->
  is_finite (Bmult mode_NE x y) = true /\ B2R (Bmult mode_NE x y) = B2R x.
Proof.
  intros x y F F1 E. pose proof (Bmult_correct prec emax Hp Hm mode_NE x y) as C.
  rewrite E, Rmult_1_r in C. pose proof (rnd_id x) as I. unfold nearest in I. cbn [round_mode] in C. rewrite I in C.
  rewrite Rlt_bool_true in C by apply abs_B2R_lt_emax. destruct C as (C1 & C2 & _). rewrite C2, F, F1. auto.
Qed.
Lemma mul_zero : forall x y : bf, is_finite x = true -> is_finite y = true -> B2R x = 0%R ->
  is_finite (Bmult mode_NE x y) = true /\ B2R (Bmult mode_NE x y) = 0%R.
Proof.
  intros x y F F1 E. pose proof (Bmult_correct prec emax Hp Hm mode_NE x y) as C.
  rewrite E, Rmult_0_l, round_0, Rabs_R0 in C by auto with typeclass_instances.
  rewrite Rlt_bool_true in C by apply bpow_gt_0. destruct C as (C1 & C2 & _). rewrite C2, F, F1. auto.
Qed.

Lemma ull_round : forall z, 66 <= emax -> 0 <= z <= ULLONG_MAX ->
  is_finite (a_of_ull A z) = true /\ B2R (a_of_ull A z : bf) = rnd (IZR z).
Proof.
  intros z Hemax Hz. cbn [a_of_ull flocq]. pose proof (binary_normalize_correct prec emax Hp Hm mode_NE z 0 false) as C. cbv zeta in C.
  assert (@F2R radix2 {| Fnum := z; Fexp := 0 |} = IZR z) as E by (unfold F2R; cbn; ring). rewrite E in C. clear E.
  rewrite Rlt_bool_true in C.
  - destruct C as (C1 & C2 & _). auto.
  - apply rnd_top with 64; auto.
    + change (bpow radix2 64) with (IZR two64). split; apply IZR_le; unfold two64, ULLONG_MAX in *; lia.
    + unfold SpecFloat.emin. red in Hp. lia.
Qed.

Lemma all_zero_trim : forall l, Forall (fun c => c = 48) l -> drop_in_end [48] l = [].
Proof.
  intros l H. destruct (drop_in_end_spec [48] l) as (c & E & _ & Hl).
  destruct (drop_in_end [48] l) as [|x d] eqn:D; auto. exfalso.
  assert (x :: d <> []) as N by discriminate. apply exists_last in N as (d' & y & Ey). rewrite Ey in *.
  apply (Hl d' y eq_refl). rewrite E in H. rewrite <- app_assoc in H. apply Forall_app in H as [_ H]. inversion H; subst. left; auto.
Qed.

Lemma int_one_chunk : forall l, digits10 l -> num_val 10 l <= ULLONG_MAX -> l = [] \/ forall r,
  int_pure A (length l) l r = a_mul A (a_add A r (a_of_ull A (num_val 10 l))) (a_pow10 A 0).
Proof.
  intros l D U. destruct l as [|x l]; [auto|right]. intro r.
  pose proof (chunk1_ok (x :: l) [] 0) as C. rewrite app_nil_r in C.
  specialize (C D ltac:(lia) ltac:(rewrite <- num_acc; auto) (or_introl eq_refl)). rewrite <- num_acc in C.
  cbn [length int_pure]. rewrite C. apply int_nil.
Qed.

Lemma whole_value : forall li lf, 66 <= emax -> pow_zero pow10 -> digits10 li -> Forall (fun c => c = 48) lf ->
  num_val 10 li <= ULLONG_MAX ->
  is_finite (float_pure A li lf 0) = true /\ B2R (float_pure A li lf 0 : bf) = rnd (IZR (num_val 10 li)).
Proof.
  intros li lf Hemax [P1 P2] D Z U. unfold float_pure. rewrite all_zero_trim by auto. cbn [length frac_pure].
  assert (is_finite (int_pure A (length li) li (a_zero A)) = true /\
          B2R (int_pure A (length li) li (a_zero A) : bf) = rnd (IZR (num_val 10 li))) as [I1 I2].
  { pose proof (num_lt li D) as [N _]. destruct (int_one_chunk li D U) as [-> | E].
    - split; [reflexivity|]. cbn. unfold nearest. now rewrite round_0 by auto with typeclass_instances.
    - rewrite E. destruct (ull_round (num_val 10 li) Hemax (conj N U)) as [F1 F2].
      destruct (add_zero _ F1) as [G1 G2]. destruct (mul_one _ _ G1 P1 P2) as [K1 K2].
      cbn [a_mul a_add a_pow10 a_zero flocq]. split; auto.
      rewrite <- F2, <- G2, <- K2. reflexivity. }
  destruct (mul_one _ _ I1 P1 P2) as [K1 K2]. cbn [a_mul a_pow10 flocq]. split; auto. rewrite <- I2, <- K2. reflexivity.
Qed.

Lemma whole_ok : forall cf f m s l opt t,
  f = strnum_consume_float cf A \/ f = strnum_consume_double cf A ->
  mem_wf m -> has_view m s l -> ctype_safe cf l ->
  strip_word w_infinty (snd (float_body opt l)) = None ->
  read_float opt l = FGood t -> ft_special t = NoSpecial ->
  66 <= emax -> pow_zero pow10 ->
  num_val 10 (ft_int t) <= ULLONG_MAX -> Forall (fun c => c = 48) (ft_frac t) -> ft_exp t = 0 ->
  exists b rest, f m true (Some s) opt = Ok (Parsed NoErr (Some b) rest) /\ is_finite b = true
    /\ B2R b = rnd (with_sign (ft_neg t) (IZR (num_val 10 (ft_int t)))).
Proof.
  intros cf f m s l opt t Hf Hw Hv Hc Hn Ht Hs Hemax Hz U Zf Ex.
  destruct (parser_value cf f m s l opt t Hf Hw Hv Hc Hn Ht Hs) as (D1 & D2 & a & _ & E). rewrite Ex in E.
  destruct (whole_value (ft_int t) (ft_frac t) Hemax Hz D1 Zf U) as [F V].
  destruct (finite_value _ (ft_neg t) F) as (y & Y1 & Y2 & Y3 & Y4). rewrite Y1, Y2 in E.
  eexists; eexists; split; [exact E|]. split; auto. rewrite Y4, V. unfold with_sign, nearest. destruct (ft_neg t); auto.
  now rewrite <- round_NE_opp.
Qed.

(** ** Zero *)
Lemma zero_ok : forall cf f m s l opt t,
  f = strnum_consume_float cf A \/ f = strnum_consume_double cf A ->
  mem_wf m -> has_view m s l -> ctype_safe cf l ->
  strip_word w_infinty (snd (float_body opt l)) = None ->
  read_float opt l = FGood t -> ft_special t = NoSpecial ->
  Forall (fun c => c = 48) (ft_int t) -> Forall (fun c => c = 48) (ft_frac t) ->
  is_finite (pow10 0) = true -> is_finite (pow10 (ft_exp t)) = true ->
  exists b rest, f m true (Some s) opt = Ok (Parsed NoErr (Some b) rest) /\ is_finite b = true /\ B2R b = 0%R.
Proof.
  intros cf f m s l opt t Hf Hw Hv Hc Hn Ht Hs Zi Zf P0 Pe.
  destruct (parser_value cf f m s l opt t Hf Hw Hv Hc Hn Ht Hs) as (D1 & D2 & a & _ & E).
  assert (num_val 10 (ft_int t) = 0) as N0 by (rewrite num_acc; apply zeros_val; auto; lia).
  assert (is_finite (float_pure A (ft_int t) (ft_frac t) (ft_exp t)) = true /\
          B2R (float_pure A (ft_int t) (ft_frac t) (ft_exp t) : bf) = 0%R) as [F V].
  { unfold float_pure. rewrite all_zero_trim by auto. cbn [length frac_pure a_mul a_pow10 flocq].
    apply mul_zero; auto; (destruct (int_one_chunk (ft_int t) D1 ltac:(rewrite N0; discriminate)) as [E0 | E0]; [rewrite E0; reflexivity|]);
    rewrite E0, N0; cbn [a_mul a_add a_pow10 a_zero a_of_ull flocq binary_normalize Bplus].
    - apply mul_zero; auto.
    - apply mul_zero; auto. }
  destruct (finite_value _ (ft_neg t) F) as (y & Y1 & Y2 & Y3 & Y4). rewrite Y1, Y2 in E.
  eexists; eexists; split; [exact E|]. split; auto. rewrite Y4, V. unfold with_sign. destruct (ft_neg t); lra.
Qed.

(** ** Numbers never become infinite *)
Definition nonneg (x : bf) : Prop := match x with B754_nan => True | _ => Bsign x = false end.
Lemma over_pos : forall x : bf, B2SF x = SpecFloat.S754_infinity false -> nonneg x.
Proof. intros [| | |] H; try discriminate. cbn in *. now injection H. Qed.
Lemma nonneg_R : forall x : bf, Bsign x = false -> (0 <= B2R x)%R.
Proof.
  intros [| | |s0 m e H] E; cbn in *; try apply Rle_refl. subst s0. apply F2R_ge_0. cbn. lia.
Qed.
Lemma mul_nonneg : forall x y, nonneg x -> nonneg y -> nonneg (Bmult mode_NE x y).
Proof.
  intros x y Hx Hy.
  destruct (is_nan x) eqn:Nx; [destruct x; try discriminate; exact I|].
  destruct (is_nan y) eqn:Ny; [destruct x; destruct y; try discriminate; exact I|].
  assert (Bsign x = false) as Sx by (destruct x; auto; discriminate).
  assert (Bsign y = false) as Sy by (destruct y; auto; discriminate).
  pose proof (Bmult_correct prec emax Hp Hm mode_NE x y) as C. destruct (Rlt_bool _ _).
  - destruct C as (_ & _ & C). destruct (is_nan (Bmult mode_NE x y)) eqn:N.
    + destruct (Bmult mode_NE x y); try discriminate; exact I.
    + specialize (C eq_refl). rewrite Sx, Sy in C. cbn in C. destruct (Bmult mode_NE x y); auto; exact I.
  - rewrite Sx, Sy in C. now apply over_pos.
Qed.
Lemma add_nonneg : forall x y, nonneg x -> nonneg y -> nonneg (Bplus mode_NE x y).
Proof.
  intros x y Hx Hy.
  destruct (is_finite x) eqn:Fx; [destruct (is_finite y) eqn:Fy|].
  - assert (Bsign x = false) as Sx by (destruct x; auto; discriminate).
    assert (Bsign y = false) as Sy by (destruct y; auto; discriminate).
    pose proof (Bplus_correct prec emax Hp Hm mode_NE x y Fx Fy) as C. destruct (Rlt_bool _ _).
    + destruct C as (_ & F & C). pose proof (nonneg_R _ Sx). pose proof (nonneg_R _ Sy).
      assert (Bsign (Bplus mode_NE x y) = false) as S.
      { rewrite C. destruct (Rcompare_spec (B2R x + B2R y) 0); [lra|now rewrite Sx|reflexivity]. }
      destruct (Bplus mode_NE x y); auto; exact I.
    + destruct C as [C _]. rewrite Sx in C. now apply over_pos.
  - destruct x; try discriminate; destruct y; try discriminate; try exact I; exact Hy.
  - destruct x; try discriminate; [|exact I]. destruct y; try exact I; try exact Hx.
    cbn in *. rewrite Hx, Hy. reflexivity.
Qed.
Lemma ull_nonneg : forall z, 0 <= z -> nonneg (a_of_ull A z).
Proof.
  intros z Hz. cbn [a_of_ull flocq]. pose proof (binary_normalize_correct prec emax Hp Hm mode_NE z 0 false) as C. cbv zeta in C.
  assert (@F2R radix2 {| Fnum := z; Fexp := 0 |} = IZR z) as E by (unfold F2R; cbn; ring). rewrite E in C. clear E.
  assert (0 <= IZR z)%R by (apply IZR_le; lia). destruct (Rlt_bool _ _).
  - destruct C as (_ & _ & C).
    assert (Bsign (binary_normalize prec emax Hp Hm mode_NE z 0 false) = false) as S.
    { rewrite C. destruct (Rcompare_spec (IZR z) 0); [lra|reflexivity|reflexivity]. }
    destruct (binary_normalize prec emax Hp Hm mode_NE z 0 false); auto; exact I.
  - rewrite Rlt_bool_false in C by auto. now apply over_pos.
Qed.

Lemma chunk1_nonneg : forall l acc, digits10 l -> 0 <= acc -> 0 <= fst (chunk1 l acc) /\ digits10 (snd (chunk1 l acc)).
Proof.
  induction l as [|x l IH]; intros acc D P; [cbn; auto|]. cbn [chunk1]. inversion D; subst.
  destruct (_ <=? _); [|auto]. apply IH; auto. apply isdig_dval in H1. lia.
Qed.
Lemma float_nonneg : forall li lf ex, digits10 li -> digits10 lf -> (forall n, nonneg (pow10 n)) -> nonneg (float_pure A li lf ex).
Proof.
  intros li lf ex Di Df Hpn. unfold float_pure. cbn [a_mul a_pow10 flocq]. apply mul_nonneg; auto.
  assert (digits10 (drop_in_end [48] lf)) as Dd.
  { destruct (drop_in_end_spec [48] lf) as (c & E & _). rewrite E in Df. now apply Forall_app in Df as [Df _]. }
  assert (forall k l (r : bf), digits10 l -> nonneg r -> nonneg (int_pure A k l r)) as I.
  { induction k as [|k IH]; intros l r D R; [exact R|]. destruct l as [|x l]; [exact R|]. cbn [int_pure].
    destruct (chunk1_nonneg (x :: l) 0 D ltac:(lia)) as [C1 C2]. destruct (chunk1 (x :: l) 0) as [v b]. cbn [fst snd] in *.
    apply IH; auto. cbn [a_mul a_add a_pow10 flocq]. apply mul_nonneg; auto. apply add_nonneg; auto. now apply ull_nonneg. }
  assert (forall k l p (r : bf), digits10 l -> nonneg r -> nonneg (frac_pure A k l p r)) as J.
  { induction k as [|k IH]; intros l p r D R; [exact R|]. destruct l as [|x l]; [exact R|]. cbn [frac_pure].
    destruct (chunk1_nonneg (x :: l) 0 D ltac:(lia)) as [C1 C2]. destruct (chunk1 (x :: l) 0) as [v b]. cbn [fst snd] in *.
    apply IH; auto. cbn [a_mul a_add a_pow10 flocq]. apply add_nonneg; auto. apply mul_nonneg; auto. now apply ull_nonneg. }
  apply J; auto. apply I; auto. reflexivity.
Qed.

Lemma never_inf : forall cf f m s l opt t p,
  f = strnum_consume_float cf A \/ f = strnum_consume_double cf A ->
  mem_wf m -> has_view m s l -> ctype_safe cf l ->
  strip_word w_infinty (snd (float_body opt l)) = None ->
  read_float opt l = FGood t -> ft_special t = NoSpecial -> (forall n, nonneg (pow10 n)) ->
  f m true (Some s) opt = Ok p -> pr_err p = NoErr ->
  exists b, pr_dst p = Some b /\ b <> B754_infinity false /\ b <> B754_infinity true.
Proof.
  intros cf f m s l opt t p Hf Hw Hv Hc Hn Ht Hs Hpn Ep Ee.
  destruct (parser_value cf f m s l opt t Hf Hw Hv Hc Hn Ht Hs) as (D1 & D2 & a & _ & E).
  pose proof (float_nonneg (ft_int t) (ft_frac t) (ft_exp t) D1 D2 Hpn) as N.
  set (x := float_pure A (ft_int t) (ft_frac t) (ft_exp t)) in *. clearbody x. rewrite E in Ep. clear E.
  destruct (a_is_inf A x) eqn:Ei; injection Ep as <-; [discriminate Ee|]. cbn [pr_dst]. eexists; split; [reflexivity|].
  destruct x as [s0|s0| |s0 m0 e0 H0]; cbn in *.
  - destruct (ft_neg t); split; discriminate.
  - subst s0. discriminate.
  - split; discriminate.
  - destruct (ft_neg t); split; discriminate.
Qed.
End Parsers.

(** ** A correctly behaving pow(10, n), to show that the assumptions can be met *)
Section Pow.
Variables (prec emax : Z).
Context (Hp : Prec_gt_0 prec) (Hm : Prec_lt_emax prec emax).
Notation bf := (binary_float prec emax).
Definition sample_pow10 (n : Z) : bf :=
  if 0 <=? n then binary_normalize prec emax Hp Hm mode_NE (10 ^ n) 0 false
  else Bdiv mode_NE (binary_normalize prec emax Hp Hm mode_NE 1 0 false)
                    (binary_normalize prec emax Hp Hm mode_NE (10 ^ (- n)) 0 false).
Local Instance vexp3 : Valid_exp (SpecFloat.fexp prec emax) := FLT_exp_valid _ prec.
Notation u := (half_ulp prec).
Hypothesis Hprec : 3 <= prec.
Hypothesis Hemax : 66 <= emax.

Lemma u_small : (0 < u <= / 8)%R.
Proof.
  unfold half_ulp. split; [apply bpow_gt_0|]. change (/ 8)%R with (bpow radix2 (-3)). apply bpow_le. lia.
Qed.
Lemma mn_one : (min_normal prec emax <= 1)%R.
Proof. unfold min_normal. change 1%R with (bpow radix2 0). apply bpow_le. lia. Qed.

Lemma norm_rel : forall z, 1 <= z -> (IZR z <= bpow radix2 (emax - 2))%R ->
  is_finite (binary_normalize prec emax Hp Hm mode_NE z 0 false) = true /\
  (Rabs (B2R (binary_normalize prec emax Hp Hm mode_NE z 0 false) - IZR z) <= u * IZR z)%R.
Proof.
  intros z Hz Ht. pose proof (binary_normalize_correct prec emax Hp Hm mode_NE z 0 false) as C. cbv zeta in C.
  assert (@F2R radix2 {| Fnum := z; Fexp := 0 |} = IZR z) as E by (unfold F2R; cbn; ring). rewrite E in C. clear E.
  assert (1 <= IZR z)%R as Hz' by (apply IZR_le; auto). pose proof mn_one. pose proof u_small.
  rewrite Rlt_bool_true in C.
  - destruct C as (C1 & C2 & _). split; auto. rewrite C1. apply (rnd_rel prec emax Hp u (Rle_refl u)). lra.
  - apply rnd_top with (emax - 2); auto; [lra|]. unfold SpecFloat.emin. red in Hp. lia.
Qed.

Lemma sample_ok : forall lo hi, (p10 hi <= bpow radix2 (emax - 2))%R -> (p10 (- lo) <= bpow radix2 (emax - 2))%R ->
  (2 * min_normal prec emax <= p10 lo)%R -> pow_accurate sample_pow10 (4 * u) lo hi.
Proof.
  intros lo hi Hhi Hlo Hmn n Hn. unfold sample_pow10. pose proof u_small as U.
  destruct (Z.leb_spec 0 n) as [P|P].
  - assert (p10 n = IZR (10 ^ n)) as E by (now apply p10_nat). rewrite E.
    assert (1 <= 10 ^ n) by (pose proof (Z.pow_pos_nonneg 10 n); lia).
    destruct (norm_rel (10 ^ n)) as [F R]; auto.
    { rewrite <- E. apply Rle_trans with (p10 hi); auto. apply p10_le. lia. }
    split; auto. assert (1 <= IZR (10 ^ n))%R by (apply IZR_le; auto). nra.
  - assert (p10 (- n) = IZR (10 ^ (- n))) as E by (apply p10_nat; lia).
    assert (1 <= 10 ^ (- n)) as H1 by (pose proof (Z.pow_pos_nonneg 10 (- n)); lia).
    assert (1 <= IZR (10 ^ (- n)))%R as H1' by (apply IZR_le; auto).
    destruct (norm_rel (10 ^ (- n))) as [F R]; auto.
    { rewrite <- E. apply Rle_trans with (p10 (- lo)); auto. apply p10_le. lia. }
    assert (B2R (binary_normalize prec emax Hp Hm mode_NE 1 0 false) = 1%R
            /\ is_finite (binary_normalize prec emax Hp Hm mode_NE 1 0 false) = true) as [O1 O2].
    { pose proof (binary_normalize_correct prec emax Hp Hm mode_NE 1 0 false) as C. cbv zeta in C.
      assert (@F2R radix2 {| Fnum := 1; Fexp := 0 |} = 1%R) as E1 by (unfold F2R; cbn; ring). rewrite E1 in C. clear E1.
      assert (round radix2 (SpecFloat.fexp prec emax) (round_mode mode_NE) 1 = 1%R) as E1.
      { apply round_generic; auto with typeclass_instances. change 1%R with (bpow radix2 0). apply generic_format_bpow.
        unfold SpecFloat.fexp, SpecFloat.emin. red in Hp. lia. }
      rewrite E1 in C. rewrite Rlt_bool_true in C; [destruct C as (C1 & C2 & _); auto|].
      rewrite Rabs_R1. change 1%R with (bpow radix2 0). apply bpow_lt. lia. }
    set (b := binary_normalize prec emax Hp Hm mode_NE (10 ^ (- n)) 0 false) in *.
    set (one := binary_normalize prec emax Hp Hm mode_NE 1 0 false) in *.
    set (q := p10 n). assert (IZR (10 ^ (- n)) * q = 1)%R as Eq.
    { rewrite <- E. unfold q. rewrite <- p10_plus. replace (- n + n) with 0 by lia. reflexivity. }
    assert (0 < q)%R as Pq by apply p10_pos.
    apply Rabs_le_inv in R.
    assert (0 < B2R b)%R as Pb by nra.
    assert (0 < / B2R b)%R as Pi by (now apply Rinv_0_lt_compat).
    assert (B2R b * / B2R b = 1)%R as Ei by (apply Rinv_r; lra).
    assert ((1 - u) * q <= / B2R b <= (1 + 2 * u) * q)%R as Bi.
    { set (i := (/ B2R b)%R) in *. set (Z := IZR (10 ^ (- n))) in *. clearbody i Z q.
      assert (1 - u <= B2R b * q)%R by (assert ((1 - u) * Z * q <= B2R b * q)%R by (apply Rmult_le_compat_r; lra); nra).
      assert (B2R b * q <= 1 + u)%R by (assert (B2R b * q <= (1 + u) * Z * q)%R by (apply Rmult_le_compat_r; lra); nra).
      split; apply Rmult_le_reg_l with (B2R b); auto; rewrite ?Ei; nra. }
    pose proof (Bdiv_correct prec emax Hp Hm mode_NE one b ltac:(lra)) as C. rewrite O1 in C.
    unfold Rdiv in C. rewrite Rmult_1_l in C. cbn [round_mode] in C.
    assert (min_normal prec emax <= / B2R b)%R as Mn.
    { assert (2 * min_normal prec emax <= q)%R by (apply Rle_trans with (p10 lo); auto; apply p10_le; lia). nra. }
    rewrite Rlt_bool_true in C.
    + destruct C as (C1 & C2 & _). rewrite C2, O2. split; auto. rewrite C1.
      pose proof (rnd_rel prec emax Hp u (Rle_refl u) (/ B2R b) Mn) as RR. apply Rabs_le_inv in RR.
      apply Rabs_le. nra.
    + apply rnd_top with 1; auto.
      * split; [lra|]. change (bpow radix2 1) with 2%R.
        assert (q <= 1)%R by (unfold q; rewrite <- p10_0; apply p10_le; lia). nra.
      * unfold SpecFloat.emin. red in Hp. lia.
Qed.
End Pow.

(** ** Consequences for the concrete formats *)
Lemma int_format : forall prec emax, Prec_gt_0 prec -> 66 <= emax -> prec < emax -> forall z, Z.abs z <= 2 ^ prec ->
  generic_format radix2 (SpecFloat.fexp prec emax) (IZR z).
Proof.
  intros prec emax Hp Hemax Hm z Hz. red in Hp.
  destruct (Z.eq_dec (Z.abs z) (2 ^ prec)) as [E|E].
  - assert (IZR (2 ^ prec) = bpow radix2 prec) as E2 by (rewrite <- IZR_Zpower by lia; reflexivity).
    assert (generic_format radix2 (SpecFloat.fexp prec emax) (bpow radix2 prec)) as G.
    { apply generic_format_bpow. unfold SpecFloat.fexp, SpecFloat.emin. lia. }
    destruct (Z.abs_eq_or_opp z) as [A|A].
    + rewrite <- A, E, E2. exact G.
    + replace z with (- 2 ^ prec) by lia. rewrite opp_IZR, E2. now apply generic_format_opp.
  - apply (generic_format_FLT radix2 (SpecFloat.emin prec emax) prec). exists (Float radix2 z 0).
    + unfold F2R. cbn. ring.
    + cbn [Fnum]. change (Zpower radix2 prec) with (2 ^ prec). lia.
    + cbn [Fexp]. unfold SpecFloat.emin. lia.
Qed.

Lemma whole_exact : forall prec emax Hp Hm pow10 cf f m s l opt t,
  f = strnum_consume_float cf (flocq prec emax Hp Hm pow10) \/ f = strnum_consume_double cf (flocq prec emax Hp Hm pow10) ->
  mem_wf m -> has_view m s l -> ctype_safe cf l ->
  strip_word w_infinty (snd (float_body opt l)) = None ->
  read_float opt l = FGood t -> ft_special t = NoSpecial ->
  66 <= emax -> pow_zero pow10 ->
  num_val 10 (ft_int t) <= ULLONG_MAX -> num_val 10 (ft_int t) <= 2 ^ prec ->
  Forall (fun c => c = 48) (ft_frac t) -> ft_exp t = 0 ->
  exists b rest, f m true (Some s) opt = Ok (Parsed NoErr (Some b) rest) /\ is_finite b = true
    /\ B2R b = with_sign (ft_neg t) (IZR (num_val 10 (ft_int t))).
Proof.
  intros prec emax Hp Hm pow10 cf f m s l opt t Hf Hw Hv Hc N1 N2 N3 Hemax Hz U U2 Zf Ex.
  destruct (parser_value prec emax Hp Hm pow10 cf f m s l opt t Hf Hw Hv Hc N1 N2 N3) as (D1 & _).
  destruct (whole_ok prec emax Hp Hm pow10 cf f m s l opt t Hf Hw Hv Hc N1 N2 N3 Hemax Hz U Zf Ex) as (b & rest & E & F & V).
  exists b, rest. split; auto. split; auto. rewrite V. unfold nearest. apply round_generic; auto with typeclass_instances.
  pose proof (num_lt _ D1) as [P _]. unfold with_sign.
  destruct (ft_neg t); [rewrite <- opp_IZR|]; apply int_format; auto; rewrite ?Z.abs_opp, Z.abs_eq; auto.
Qed.

Lemma p10_bpow : forall n k, 0 <= n -> 0 <= k -> 10 ^ n <= 2 ^ k -> (p10 n <= bpow radix2 k)%R.
Proof. intros n k Hn Hk H. rewrite p10_nat by auto. rewrite <- IZR_Zpower by auto. apply IZR_le. exact H. Qed.
Lemma bpow_p10 : forall n k, 0 <= n -> 0 <= k -> 10 ^ n <= 2 ^ k -> (bpow radix2 (- k) <= p10 (- n))%R.
Proof.
  intros n k Hn Hk H. pose proof (p10_bpow n k Hn Hk H) as B.
  assert (p10 n * p10 (- n) = 1)%R as E by (rewrite <- p10_plus; replace (n + - n) with 0 by lia; reflexivity).
  assert (bpow radix2 k * bpow radix2 (- k) = 1)%R as E2 by (rewrite <- bpow_plus; replace (k + - k) with 0 by lia; reflexivity).
  pose proof (p10_pos n). pose proof (p10_pos (- n)). pose proof (bpow_gt_0 radix2 k). pose proof (bpow_gt_0 radix2 (- k)). nra.
Qed.

Lemma pow64_zero : pow_zero (sample_pow10 53 1024 p64 l64).
Proof.
  split; [vm_compute; reflexivity|].
  assert (B2SF (sample_pow10 53 1024 p64 l64 0) = SpecFloat.S754_finite false (2 ^ 52) (-52)) as E by (vm_compute; reflexivity).
  rewrite <- SF2R_B2SF, E. cbn [SF2R cond_Zopp]. unfold F2R. cbn [Fnum Fexp].
  change (IZR (Z.pos (2 ^ 52))) with (bpow radix2 52). rewrite <- bpow_plus. reflexivity.
Qed.
Lemma mn64 : (2 * min_normal 53 1024 <= p10 (-300))%R.
Proof.
  unfold min_normal. replace (2 * bpow radix2 (2 - 1024))%R with (bpow radix2 (- 1021)).
  - apply (bpow_p10 300 1021); [lia|lia|vm_compute; discriminate].
  - change (- 1021) with (1 + (2 - 1024)). rewrite bpow_plus. reflexivity.
Qed.
Lemma pow64_accurate : pow_accurate (sample_pow10 53 1024 p64 l64) (bpow radix2 (-51)) (-300) 300.
Proof.
  assert (4 * half_ulp 53 = bpow radix2 (-51))%R as <-.
  { unfold half_ulp. change (-51) with (2 + - (53)). rewrite bpow_plus. reflexivity. }
  apply sample_ok; try lia.
  - apply p10_bpow; [lia|lia|vm_compute; discriminate].
  - apply (p10_bpow 300); [lia|lia|vm_compute; discriminate].
  - exact mn64.
Qed.

Lemma double_accuracy : forall cf pow10 m s l opt t, mem_wf m -> has_view m s l -> ctype_safe cf l ->
  strip_word w_infinty (snd (float_body opt l)) = None -> read_float opt l = FGood t -> ft_special t = NoSpecial ->
  pow_accurate pow10 (bpow radix2 (-51)) (-300) 300 ->
  num_val 10 (ft_int t) < 10 ^ 38 -> Zlen (ft_frac t) <= 18 -> -300 <= ft_exp t <= 300 ->
  (real_value t = 0 \/ p10 (-300) <= real_value t <= p10 300)%R ->
  exists b rest, strnum_consume_double cf (flocq 53 1024 p64 l64 pow10) m true (Some s) opt = Ok (Parsed NoErr (Some b) rest) /\ is_finite b = true
    /\ (Rabs (B2R b - with_sign (ft_neg t) (real_value t)) <= bpow radix2 (-47) * real_value t)%R.
Proof.
  intros cf pow10 m s l opt t Hw Hv Hc N1 N2 N3 Hpow Hi Hfr Hex Hv1.
  destruct (accuracy_ok 53 1024 p64 l64 pow10 cf (strnum_consume_double cf (flocq 53 1024 p64 l64 pow10))
    (bpow radix2 (-51)) (-300) 300 m s l opt t (or_intror eq_refl) Hw Hv Hc N1 N2 N3) as (b & rest & E & F & V); auto; try lia.
  - unfold half_ulp. split; [apply bpow_le; lia|]. change 1%R with (bpow radix2 0). apply bpow_lt; lia.
  - exact mn64.
  - apply Rle_trans with (bpow radix2 127); [|apply bpow_le; lia]. rewrite <- IZR_Zpower by lia.
    rewrite <- plus_IZR. apply IZR_le. change (radix_val radix2) with 2. assert (10 ^ 38 + 1 <= 2 ^ 127) by (vm_compute; discriminate). lia.
  - destruct Hv1 as [H|[H _]]; auto. right. pose proof mn64. lra.
  - destruct Hv1 as [->|[_ H]]; [apply bpow_ge_0|]. apply Rle_trans with (1 := H). apply p10_bpow; [lia|lia|vm_compute; discriminate].
  - rewrite (Z.div_small (Zlen (ft_frac t)) 19) by (pose proof (Zlen_nonneg (ft_frac t)); lia).
    change (INR (Z.to_nat (10 + 0))) with (INR 10). replace (INR 10) with 10%R by (cbn; ring).
    assert (bpow radix2 (-51) <= bpow radix2 (-10))%R by (apply bpow_le; lia). change (bpow radix2 (-10)) with (/ 1024)%R in *. lra.
  - rewrite (Z.div_small (Zlen (ft_frac t)) 19) in V by (pose proof (Zlen_nonneg (ft_frac t)); lia).
    change (Z.to_nat (10 + 0)) with 10%nat in V. exists b, rest. split; auto. split; auto.
    apply Rle_trans with (1 := V). apply Rmult_le_compat_r.
    + destruct Hv1 as [->|[H _]]; [lra|]. pose proof (p10_pos (-300)). lra.
    + set (u := bpow radix2 (-51)). replace (bpow radix2 (-47)) with (16 * u)%R.
      2:{ unfold u. change (-47) with (4 + -51). rewrite bpow_plus. reflexivity. }
      assert (0 < u <= / 1024)%R as Hu.
      { split; [apply bpow_gt_0|]. change (/ 1024)%R with (bpow radix2 (-10)). apply bpow_le. lia. }
      clearbody u. clear - Hu.
      assert ((1 + u) ^ 2 <= 1 + 2.1 * u)%R as P2 by (cbn; nra).
      assert ((1 + u) ^ 5 <= 1 + 5.6 * u)%R as P5.
      { replace ((1 + u) ^ 5)%R with ((1 + u) ^ 2 * ((1 + u) ^ 2) * (1 + u))%R by (cbn; ring).
        assert (0 <= (1 + u) ^ 2)%R by (apply pow_le; lra).
        assert ((1 + u) ^ 2 * (1 + u) ^ 2 <= (1 + 2.1 * u) * (1 + 2.1 * u))%R by (apply Rmult_le_compat; auto). nra. }
      replace ((1 + u) ^ 10)%R with ((1 + u) ^ 5 * (1 + u) ^ 5)%R by (cbn; ring).
      assert (0 <= (1 + u) ^ 5)%R by (apply pow_le; lra).
      assert ((1 + u) ^ 5 * (1 + u) ^ 5 <= (1 + 5.6 * u) * (1 + 5.6 * u))%R by (apply Rmult_le_compat; auto). nra.
Qed.
