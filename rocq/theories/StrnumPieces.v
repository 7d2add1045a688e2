(** The value computed by the floating point parsers for an integral part of any length. *)
From Coq Require Import QArith Qpower Lqa.
From Verif Require Import Base Mem Libc StrviewModel StrnumModel Spec NumSpec FloatSpec MemLemmas
  StrviewProofs StrnumProofs StrnumFloat StrnumFloatVal NumSpec2.
Open Scope Z_scope.

(** ** Specification *)

(** The digits cut into pieces, each the longest one whose number is at most 2^64 - 1. *)
Inductive pieces : list Z -> list (list Z) -> Prop :=
| pieces_end : pieces [] []
| pieces_cut : forall a b ps, a <> [] -> num_val 10 a <= 2 ^ 64 - 1 ->
    (b = [] \/ exists d b', b = d :: b' /\ 2 ^ 64 - 1 < num_val 10 (a ++ [d])) ->
    pieces b ps -> pieces (a ++ b) (a :: ps).

(** The number that results when, after each piece is added, the sum is multiplied by ten for
    every digit still to come. *)
Fixpoint piled (acc : Z) (ps : list (list Z)) : Z :=
  match ps with
  | [] => acc
  | p :: t => piled ((acc + num_val 10 p) * 10 ^ Zlen (concat t)) t
  end.
Definition piled_value (ps : list (list Z)) (t : float_text) : Q :=
  ((inject_Z (piled 0 ps) + inject_Z (num_val 10 (ft_frac t)) * Qpower ten (- Zlen (ft_frac t)))
   * Qpower ten (ft_exp t))%Q.

(** ** Proofs *)

Lemma pieces_concat : forall l ps, pieces l ps -> concat ps = l.
Proof. induction 1; cbn; [reflexivity|]. now f_equal. Qed.

Lemma num_snoc : forall a d, num_val 10 (a ++ [d]) = num_val 10 a * 10 + dval d.
Proof. intros. rewrite num_app. reflexivity. Qed.

Lemma pieces_exist : forall l, digits10 l -> exists ps, pieces l ps.
Proof.
  intro l. remember (length l) as n eqn:En. revert l En.
  induction n as [n IH] using lt_wf_ind; intros l En Hd.
  destruct l as [|x l]; [exists []; constructor|].
  destruct (chunk1_spec (x :: l) 0 Hd ltac:(unfold ULLONG_MAX; lia)) as (a & b & E & C & U & S).
  pose proof (chunk1_progress x l ltac:(now inversion Hd)) as P. rewrite C in P. cbn [snd] in P.
  rewrite <- num_acc in *.
  assert (digits10 b) as Db by (rewrite E in Hd; now apply Forall_app in Hd as [_ Hd]).
  destruct (IH (length b) ltac:(cbn in En; lia) b eq_refl Db) as (ps & Hp).
  exists (a :: ps). rewrite E. constructor; auto.
  - intros ->. cbn in E. rewrite <- E in P. cbn in P. lia.
  - destruct S as [S|(d & b' & S1 & S2)]; [now left|right]. exists d, b'. rewrite num_snoc. auto.
Qed.

Lemma int_piled : forall l ps, pieces l ps -> digits10 l -> forall n r acc, (length l <= n)%nat -> is_fin r (inject_Z acc) ->
  is_fin (int_pure exact n l r) (inject_Z (piled acc ps)).
Proof.
  induction 1 as [|a b ps Ha Hu Hs Hp IH]; intros Hd n r acc Hn Hr.
  - destruct n; exact Hr.
  - destruct n as [|n]; [destruct a; [congruence|cbn in Hn; lia]|].
    assert (int_pure exact (S n) (a ++ b) r = int_pure exact n b (a_mul exact (a_add exact r (a_of_ull exact (num_val 10 a))) (a_pow10 exact (Zlen b)))) as ->.
    { assert (chunk1 (a ++ b) 0 = (num_val 10 a, b)) as C.
      { rewrite num_acc. apply chunk1_ok; try (rewrite <- num_acc); auto; try lia.
        destruct Hs as [Hs|(d & b' & S1 & S2)]; [now left|right]. exists d, b'. rewrite num_snoc in S2. auto. }
      cbn [int_pure]. destruct (a ++ b) as [|y k] eqn:Eab; [destruct a; [congruence|discriminate]|]. now rewrite C. }
    cbn [piled]. rewrite (pieces_concat _ _ Hp). apply IH.
    + now apply Forall_app in Hd as [_ Hd].
    + rewrite app_length in Hn. destruct a; [congruence|cbn in Hn; lia].
    + destruct r as [q| |]; cbn in Hr; try contradiction. cbn [is_fin exact a_mul a_add a_of_ull a_pow10 xadd xmul].
      rewrite Hr, inject_Z_mult, inject_Z_plus, pow_nat by apply Zlen_nonneg. reflexivity.
Qed.

Lemma float_piled : forall li lf e ps, digits10 li -> digits10 lf -> pieces li ps ->
  is_fin (float_pure exact li lf e)
    ((inject_Z (piled 0 ps) + inject_Z (num_val 10 lf) * Qpower ten (- Zlen lf)) * Qpower ten e).
Proof.
  intros li lf e ps Di Df Hp. unfold float_pure.
  assert (digits10 (drop_in_end [48] lf)) as Df'.
  { destruct (drop_in_end_spec [48] lf) as (c & E & _). rewrite E in Df. now apply Forall_app in Df as [Df _]. }
  pose proof (frac_exact (length (drop_in_end [48] lf)) (drop_in_end [48] lf) 0 _ _ Df' (le_n _)
    (int_piled li ps Hp Di (length li) (a_zero exact) 0 (le_n _) ltac:(reflexivity))) as H.
  destruct (frac_pure _ _ _ _ _); cbn [is_fin] in *; try contradiction.
  cbn [a_mul exact xmul a_pow10 is_fin]. rewrite H. rewrite Z.sub_0_l, trim_zeros_val by auto. reflexivity.
Qed.

(** At most two pieces: nothing is multiplied twice. *)
Lemma piled_two : forall l ps, pieces l ps -> (length ps <= 2)%nat -> piled 0 ps = num_val 10 l.
Proof.
  intros l ps Hp Hl. rewrite <- (pieces_concat _ _ Hp). destruct ps as [|a [|b [|c ps]]].
  - reflexivity.
  - cbn [piled concat]. rewrite app_nil_r. change (Zlen (@nil Z)) with 0. lia.
  - cbn [piled concat]. rewrite app_nil_r, num_app. change (Zlen (@nil Z)) with 0. lia.
  - cbn in Hl. lia.
Qed.

Lemma pieces_digits : forall l ps, pieces l ps -> digits10 l -> Forall digits10 ps.
Proof. induction 1; intro Hd; constructor; apply Forall_app in Hd; tauto. Qed.

Lemma piled_ge : forall ps acc, Forall digits10 ps -> 0 <= acc -> acc <= piled acc ps.
Proof.
  induction ps as [|p ps IH]; intros acc Hd Ha; [cbn; lia|]. inversion Hd; subst. cbn [piled].
  pose proof (num_lt p H1). assert (1 <= 10 ^ Zlen (concat ps)) by (pose proof (Z.pow_pos_nonneg 10 (Zlen (concat ps)) ltac:(lia) (Zlen_nonneg _)); lia).
  transitivity ((acc + num_val 10 p) * 10 ^ Zlen (concat ps)); [nia|]. apply IH; auto. nia.
Qed.

Lemma piled_more : forall l ps, pieces l ps -> digits10 l -> (2 < length ps)%nat ->
  9 * (num_val 10 l + 1) <= piled 0 ps.
Proof.
  intros l ps Hp Hd Hl. pose proof (pieces_digits _ _ Hp Hd) as Dp.
  destruct ps as [|a [|b [|c ps]]]; cbn in Hl; try lia. clear Hl.
  inversion Hp as [|a' r ps' Ha Hu Hs Hr]; subst. inversion Hr as [|b' r2 ps' Hb Hu2 Hs2 Hr2]; subst.
  inversion Hr2 as [|c' r3 ps' Hc Hu3 Hs3 Hr3]; subst.
  inversion Dp as [|? ? Da Dp']; subst. inversion Dp' as [|? ? Db Dp'']; subst.
  destruct Hs as [Hs|(d & k & E & Hs)]; [destruct b; [congruence|discriminate]|].
  rewrite num_snoc in Hs.
  assert (0 <= dval d < 10) as Dd.
  { apply Forall_app in Hd as [_ Hd]. rewrite E in Hd. inversion Hd; subst. now apply isdig_dval. }
  assert (10 ^ 18 <= num_val 10 a) as Big by lia.
  cbn [piled]. rewrite !Z.add_0_l.
  assert (Zlen (concat (b :: c :: ps)) = Zlen b + Zlen (concat (c :: ps))) as -> by (cbn [concat]; apply Zlen_app).
  assert (concat (c :: ps) = c ++ r3) as Ec by (cbn [concat]; now rewrite (pieces_concat _ _ Hr3)).
  assert (1 <= Zlen (concat (c :: ps))) as L1.
  { rewrite Ec, Zlen_app. pose proof (Zlen_nonneg r3). destruct c; [congruence|]. rewrite Zlen_cons. pose proof (Zlen_nonneg c). lia. }
  pose proof (Zlen_nonneg b) as L0.
  assert (num_val 10 (a ++ b ++ c ++ r3) < (num_val 10 a + 1) * 10 ^ (Zlen b + Zlen (concat (c :: ps)))) as Up.
  { rewrite num_app. rewrite Ec, <- Zlen_app. apply Forall_app in Hd as [_ Hd]. pose proof (num_lt _ Hd). lia. }
  set (K := 10 ^ (Zlen b + Zlen (concat (c :: ps)))) in *.
  assert (1 <= K) by (unfold K; pose proof (Z.pow_pos_nonneg 10 (Zlen b + Zlen (concat (c :: ps))) ltac:(lia) ltac:(lia)); lia).
  assert (10 <= 10 ^ Zlen (concat (c :: ps))) as T by (change 10 with (10 ^ 1) at 1; apply Z.pow_le_mono_r; lia).
  set (T10 := 10 ^ Zlen (concat (c :: ps))) in *. pose proof (num_lt b Db) as Nb.
  transitivity ((num_val 10 a * K + num_val 10 b) * T10).
  - assert (0 <= num_val 10 a * K) by nia.
    assert (num_val 10 a * K * 10 <= (num_val 10 a * K + num_val 10 b) * T10) by nia.
    assert (9 * ((num_val 10 a + 1) * K) <= num_val 10 a * K * 10); [|lia].
    assert (9 * (num_val 10 a + 1) <= num_val 10 a * 10) by lia. nia.
  - apply (piled_ge (c :: ps)); auto. assert (0 <= num_val 10 a * K) by nia. nia.
Qed.

Lemma ten_pow_pos : forall n, (0 < Qpower ten n)%Q.
Proof. intro n. apply Qpower_0_lt. reflexivity. Qed.

Lemma frac_below : forall l, digits10 l ->
  (0 <= inject_Z (num_val 10 l) * Qpower ten (- Zlen l) < 1)%Q.
Proof.
  intros l Hd. pose proof (num_lt l Hd) as [N0 N1]. pose proof (ten_pow_pos (- Zlen l)) as P.
  assert (inject_Z (10 ^ Zlen l) * Qpower ten (- Zlen l) == 1)%Q as E.
  { rewrite pow_nat by apply Zlen_nonneg. rewrite <- pow_plus. replace (Zlen l + - Zlen l) with 0 by lia. reflexivity. }
  split.
  - apply Qmult_le_0_compat; [|now apply Qlt_le_weak]. change 0%Q with (inject_Z 0). now rewrite <- Zle_Qle.
  - rewrite <- E. apply Qmult_lt_compat_r; auto. now rewrite <- Zlt_Qlt.
Qed.

Lemma piled_value_two : forall t ps, pieces (ft_int t) ps -> (length ps <= 2)%nat -> (piled_value ps t == float_value t)%Q.
Proof. intros t ps Hp Hl. unfold piled_value, float_value. now rewrite (piled_two _ _ Hp Hl). Qed.

Lemma piled_value_more : forall t ps, pieces (ft_int t) ps -> digits10 (ft_int t) -> digits10 (ft_frac t) ->
  (2 < length ps)%nat -> (0 < float_value t /\ inject_Z 9 * float_value t < piled_value ps t)%Q.
Proof.
  intros t ps Hp Di Df Hl. unfold piled_value, float_value.
  pose proof (frac_below _ Df) as [F0 F1]. pose proof (ten_pow_pos (ft_exp t)) as P.
  pose proof (piled_more _ _ Hp Di Hl) as M. set (F := (inject_Z (num_val 10 (ft_frac t)) * Qpower ten (- Zlen (ft_frac t)))%Q) in *.
  assert (1 <= num_val 10 (ft_int t)) as One.
  { clear P. revert Hp Di. clear M. generalize (ft_int t). intros li Hp Di. destruct ps as [|a [|b ps]]; cbn in Hl; try lia.
    inversion Hp as [|a' r ps' Ha Hu Hs Hr]; subst. apply Forall_app in Di as [Da Dr].
    inversion Hr as [|b' r2 ps' Hb Hu2 Hs2 Hr2]; subst.
    destruct Hs as [Hs|(d & k & Ed & Hs)]; [destruct b; [congruence|discriminate]|].
    rewrite num_snoc in Hs. assert (0 <= dval d < 10) by (rewrite Ed in Dr; inversion Dr; subst; now apply isdig_dval).
    rewrite num_app. pose proof (num_lt _ Dr). pose proof (num_lt _ Da).
    assert (1 <= 10 ^ Zlen (b ++ r2)) by (pose proof (Z.pow_pos_nonneg 10 (Zlen (b ++ r2)) ltac:(lia) (Zlen_nonneg _)); lia).
    nia. }
  assert (inject_Z 9 * (inject_Z (num_val 10 (ft_int t)) + 1) <= inject_Z (piled 0 ps))%Q as M'.
  { change 1%Q with (inject_Z 1). rewrite <- inject_Z_plus, <- inject_Z_mult, <- Zle_Qle. exact M. }
  assert (1 <= inject_Z (num_val 10 (ft_int t)))%Q as One' by (change 1%Q with (inject_Z 1); rewrite <- Zle_Qle; exact One).
  change (inject_Z 9) with (9 # 1) in *. split.
  - apply Qmult_lt_0_compat; auto. lra.
  - rewrite Qmult_assoc. apply Qmult_lt_compat_r; auto. lra.
Qed.

Lemma float_any_length : forall cf m s l opt t, mem_wf m -> has_view m s l -> ctype_safe cf l ->
  read_float_exact opt l = FGood t -> ft_special t = NoSpecial ->
  (exists ps, pieces (ft_int t) ps) /\
  forall ps, pieces (ft_int t) ps ->
  exists q rest, strnum_consume_double cf exact m true (Some s) opt = Ok (Parsed NoErr (Some (Fin (if ft_neg t then - q else q)%Q)) rest)
    /\ (q == piled_value ps t)%Q
    /\ ((length ps <= 2)%nat -> (q == float_value t)%Q)
    /\ ((2 < length ps)%nat -> (0 < float_value t /\ inject_Z 9 * float_value t < q)%Q).
Proof.
  intros cf m s l opt t Hw Hv Hc Ht Hs. unfold read_float_exact in Ht.
  destruct (strip_word w_infinty (snd (float_body opt l))) as [r|] eqn:E; [injection Ht as <-; discriminate|].
  destruct (float_ok cf exact m true s l opt Hw Hv Hc E) as [_ K]. rewrite Ht in K.
  destruct K as (a & _ & _ & Di & Df & K). split; [now apply pieces_exist|]. intros ps Hp.
  pose proof (float_piled (ft_int t) (ft_frac t) (ft_exp t) ps Di Df Hp) as F.
  rewrite K. unfold float_over, signed_result, float_result. rewrite Hs.
  destruct (float_pure exact _ _ _) as [q| |]; try contradiction. cbn [is_fin] in F.
  cbn [a_is_inf a_is_nan exact a_neg xneg]. exists q, (Some (rest_view_of s (Zlen a) t)).
  split; [destruct (ft_neg t); reflexivity|]. split; [exact F|]. split; intro L.
  - rewrite F. exact (piled_value_two t ps Hp L).
  - rewrite F. exact (piled_value_more t ps Hp Di Df L).
Qed.
