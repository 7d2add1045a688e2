(** Spellings of the same number give the same value in every arithmetic. *)
From Verif Require Import Base Mem Libc StrviewModel StrnumModel Spec NumSpec NumSpec2 FloatSpec MemLemmas
  StrviewProofs StrviewProofs2 StrviewProofs3 StrnumProofs StrnumProofs2 StrnumProofs3 StrnumFloat StrnumFloatVal NumDocsProofs SpellSpec.
Open Scope Z_scope.

Lemma isdig_range : forall y, isdig 10 y = true -> 48 <= y <= 57.
Proof.
  intros y H. unfold isdig in H. apply andb_true_iff in H as [H1 H2]. apply Z.ltb_lt in H2. unfold dval in H2.
  destruct (y <=? 57) eqn:E1; [apply Z.leb_le in E1; lia|]. destruct (y <=? 70) eqn:E2; lia.
Qed.
Lemma zeros_digits : forall k, digits10 (repeat 48 k).
Proof. induction k; cbn [repeat]; constructor; auto. Qed.
Lemma int_chars_digits : forall p, spelling_ok p -> digits10 (int_chars p).
Proof. intros p (H & _). apply Forall_app. split; auto. apply zeros_digits. Qed.
Lemma frac_digits_digits : forall p, spelling_ok p -> digits10 (frac_digits p).
Proof.
  intros p (_ & H & _). unfold frac_digits, frac_of in *. destruct (sp_frac p) as [[f k]|]; [|constructor].
  apply Forall_app. split; auto. apply zeros_digits.
Qed.
Lemma spaces_off : forall k l, headb (Z.eqb 32) l = false -> snd (span (Z.eqb 32) (repeat 32 k ++ l)) = l.
Proof. intros k l H. rewrite span_spaces. rewrite span_nil; auto. Qed.

Lemma not_word : forall y w r x, 58 <= x -> y <= 57 -> strip_word (x :: w) (y :: r) = None.
Proof.
  intros y w r x Hx Hy. cbn [strip_word]. unfold lower. rewrite (proj2 (Z.leb_gt 65 y)) by lia. cbn [andb].
  rewrite (proj2 (Z.eqb_neq y x)) by lia. reflexivity.
Qed.

(** The text behind sign and spaces starts with a digit or a point. *)
Lemma head_number : forall p rest, spelling_ok p ->
  exists y r, int_chars p ++ frac_chars p ++ exp_chars p ++ rest = y :: r /\ (48 <= y <= 57 \/ y = 46).
Proof.
  intros p rest H. pose proof (int_chars_digits p H) as Di. destruct H as (_ & _ & Hn & _).
  destruct (int_chars p) as [|y i].
  - cbn [app] in *. unfold frac_chars, frac_digits in *. destruct (sp_frac p) as [[f k]|]; [|congruence].
    cbn [app]. eexists; eexists. split; [reflexivity|]. auto.
  - cbn [app]. inversion Di; subst. eexists; eexists. split; [reflexivity|]. left. now apply isdig_range.
Qed.

Lemma read_exponent : forall p rest, spelling_ok p -> ends_here p rest ->
  read_exp 0 (exp_chars p ++ rest) = Good (exp_of p) rest.
Proof.
  intros p rest (_ & _ & _ & He) Hr. unfold exp_chars, exp_of in *. destruct (sp_exp p) as [[[[up s] k] ds]|] eqn:E.
  - destruct He as (Hd & Hn & Hi). cbn [app].
    assert (forall c, c = 69 \/ c = 101 -> (lower c =? 101) && negb (flag 0 STRNUM_NOEXP) = true) as L.
    { intros c [-> | ->]; reflexivity. }
    unfold read_exp. rewrite L by (destruct up; auto).
    assert (headb (isdig 10) rest = false) as Hh.
    { destruct rest as [|c r]; auto. destruct Hr as (Hr & _). exact Hr. }
    assert (digits10 (repeat 48 k ++ ds)) as Hz by (apply Forall_app; split; auto; apply zeros_digits).
    assert (read_int true (STRNUM_NOSPACE + STRNUM_NOBX) ((sign_chars s ++ repeat 48 k ++ ds) ++ rest)
            = IntText (is_minus s) 10 (repeat 48 k ++ ds) rest) as ER.
    { unfold read_int. change (flag (STRNUM_NOSPACE + STRNUM_NOBX) STRNUM_NOSPACE) with true.
      change (flag (STRNUM_NOSPACE + STRNUM_NOBX) STRNUM_NOSIGN) with false. cbn [andb negb].
      assert (read_sign ((sign_chars s ++ repeat 48 k ++ ds) ++ rest) = (is_minus s, (repeat 48 k ++ ds) ++ rest)) as ->.
      { destruct s as [[|]|]; cbn [sign_chars is_minus app]; try reflexivity.
        destruct (repeat 48 k ++ ds) as [|y r]; [congruence|]. inversion Hz; subst. apply isdig_range in H1.
        cbn [app]. unfold read_sign. rewrite (proj2 (Z.eqb_neq y 45)), (proj2 (Z.eqb_neq y 43)) by lia. reflexivity. }
      assert (forall l, read_prefix (STRNUM_NOSPACE + STRNUM_NOBX) l = (10, l)) as ->.
      { intro l. unfold read_prefix. change (flag (STRNUM_NOSPACE + STRNUM_NOBX) STRNUM_NOBX) with true. cbn [negb].
        destruct l as [|z [|b t]]; try reflexivity. rewrite !andb_false_r. reflexivity. }
      rewrite (span_unique (isdig 10) _ _ Hz Hh). reflexivity. }
    unfold parse_int. rewrite ER. cbn [it_digits it_rest].
    assert (int_value (IntText (is_minus s) 10 (repeat 48 k ++ ds) rest) = if is_minus s then - num_val 10 ds else num_val 10 ds) as ->.
    { unfold int_value. cbn [it_neg it_base it_digits].
      assert (num_val 10 (repeat 48 k ++ ds) = num_val 10 ds) as ->; [|reflexivity].
      rewrite num_app, num_acc. rewrite zeros_val; try lia. clear. induction k; cbn [repeat]; constructor; auto. }
    destruct (repeat 48 k ++ ds) as [|y r]; [congruence|].
    rewrite (proj2 (Z.leb_le _ _)), (proj2 (Z.leb_le _ _)) by lia. reflexivity.
  - cbn [app]. destruct rest as [|c r]; [reflexivity|]. destruct Hr as (_ & Hr & _). destruct (Hr E) as [N1 N2].
    unfold read_exp. assert (lower c =? 101 = false) as ->; [|reflexivity].
    apply Z.eqb_neq. unfold lower. destruct ((65 <=? c) && (c <=? 90)) eqn:Eb; lia.
Qed.

Lemma exp_head : forall p rest, spelling_ok p -> ends_here p rest -> headb (isdig 10) (exp_chars p ++ rest) = false
  /\ (sp_frac p = None -> match exp_chars p ++ rest with c :: _ => c <> 46 | [] => True end).
Proof.
  intros p rest _ Hr. unfold exp_chars. destruct (sp_exp p) as [[[[up s] k] ds]|] eqn:E.
  - cbn [app headb]. split; [destruct up; reflexivity|]. intros _. destruct up; discriminate.
  - cbn [app]. destruct rest as [|c r]; cbn [headb]; auto. destruct Hr as (H1 & _ & H3). auto.
Qed.

Lemma spelled_read : forall p rest, spelling_ok p -> ends_here p rest ->
  read_float_exact 0 (spelled p ++ rest) =
  FGood (FloatText (is_minus (sp_sign p)) NoSpecial (int_chars p) (frac_digits p) (exp_of p) rest).
Proof.
  intros p rest Hp Hr. destruct (head_number p rest Hp) as (y & r & Ey & Hy).
  set (body := int_chars p ++ frac_chars p ++ exp_chars p ++ rest) in *.
  assert (spelled p ++ rest = repeat 32 (sp_spaces p) ++ sign_chars (sp_sign p) ++ body) as ->.
  { unfold spelled, body. now rewrite <- !app_assoc. }
  assert (float_body 0 (repeat 32 (sp_spaces p) ++ sign_chars (sp_sign p) ++ body) = (is_minus (sp_sign p), body)) as EB.
  { unfold float_body. change (flag 0 STRNUM_NOSPACE) with false. change (flag 0 STRNUM_NOSIGN) with false. cbv iota.
    rewrite spaces_off.
    - destruct (sp_sign p) as [[|]|]; cbn [sign_chars is_minus app]; try reflexivity.
      rewrite Ey. unfold read_sign. rewrite (proj2 (Z.eqb_neq y 45)), (proj2 (Z.eqb_neq y 43)) by lia. reflexivity.
    - destruct (sp_sign p) as [[|]|]; cbn [sign_chars app]; try reflexivity. rewrite Ey. cbn [headb]. apply Z.eqb_neq. lia. }
  unfold read_float_exact. rewrite EB. cbn [fst snd].
  assert (strip_word w_infinty body = None) as -> by (rewrite Ey; apply not_word; lia).
  unfold read_float. rewrite EB.
  assert (strip_word w_inf body = None) as -> by (rewrite Ey; apply not_word; lia).
  assert (strip_word w_nan body = None) as -> by (rewrite Ey; apply not_word; lia).
  pose proof (int_chars_digits p Hp) as Di. pose proof (frac_digits_digits p Hp) as Df.
  destruct (exp_head p rest Hp Hr) as [Hh Hd].
  assert (span (isdig 10) body = (int_chars p, frac_chars p ++ exp_chars p ++ rest)) as ->.
  { apply span_unique; auto. unfold frac_chars. destruct (sp_frac p); [reflexivity|]. exact Hh. }
  assert (match frac_chars p ++ exp_chars p ++ rest with 46 :: t => span (isdig 10) t | _ => ([], frac_chars p ++ exp_chars p ++ rest) end
          = (frac_digits p, exp_chars p ++ rest)) as ->.
  { unfold frac_chars. destruct (sp_frac p) as [fk|] eqn:Ef.
    - cbn [app]. apply span_unique; auto.
    - cbn [app]. unfold frac_digits. rewrite Ef. specialize (Hd eq_refl). destruct (exp_chars p ++ rest) as [|c t]; auto.
      destruct c as [|c|c]; auto. do 6 (destruct c as [c|c|]; auto). congruence. }
  rewrite (read_exponent p rest Hp Hr).
  destruct Hp as (_ & _ & Hn & _). destruct (int_chars p), (frac_digits p); try reflexivity. cbn in Hn. congruence.
Qed.

(** ** The value *)
Section Value.
Variable A : arith.
Lemma int_fuel : forall n k l r, digits10 l -> (length l <= n)%nat -> (length l <= k)%nat -> int_pure A n l r = int_pure A k l r.
Proof.
  induction n as [|n IH]; intros k l r Hd Hn Hk.
  - destruct l; [|cbn in Hn; lia]. destruct k; reflexivity.
  - destruct l as [|x l]; [destruct k; reflexivity|]. destruct k as [|k]; [cbn in Hk; lia|].
    cbn [int_pure]. pose proof (chunk1_progress x l ltac:(now inversion Hd)) as Hp.
    destruct (chunk1_spec (x :: l) 0 Hd) as (a & b & E & E1 & _); [unfold ULLONG_MAX; lia|].
    rewrite E1 in *. cbn [fst snd] in Hp. apply IH.
    + rewrite E in Hd. now apply Forall_app in Hd as [_ Hd].
    + cbn in Hn. lia.
    + cbn in Hk. lia.
Qed.
Lemma int_zero : forall l r, digits10 l -> l <> [] -> int_pure A (length (48 :: l)) (48 :: l) r = int_pure A (length l) l r.
Proof.
  intros l r Hd Hn. destruct l as [|x l]; [congruence|]. cbn [length int_pure].
  assert (chunk1 (48 :: x :: l) 0 = chunk1 (x :: l) 0) as -> by reflexivity.
  pose proof (chunk1_progress x l ltac:(now inversion Hd)) as Hp.
  destruct (chunk1_spec (x :: l) 0 Hd) as (a & b & E & E1 & _); [unfold ULLONG_MAX; lia|].
  rewrite E1 in *. cbn [fst snd] in Hp.
  rewrite E in Hd. apply Forall_app in Hd as [_ Hd]. apply (int_fuel (S (length l))); auto; lia.
Qed.
Lemma int_zeros : forall k l r, digits10 l -> l <> [] -> int_pure A (length (repeat 48 k ++ l)) (repeat 48 k ++ l) r = int_pure A (length l) l r.
Proof.
  induction k as [|k IH]; intros l r Hd Hn; [reflexivity|]. cbn [repeat app]. rewrite int_zero.
  - apply IH; auto.
  - apply Forall_app. split; auto. apply zeros_digits.
  - destruct k; cbn; [auto|discriminate].
Qed.
Lemma only_zeros : forall k r, int_pure A (length (repeat 48 (S k))) (repeat 48 (S k)) r
  = a_mul A (a_add A r (a_of_ull A 0)) (a_pow10 A 0).
Proof.
  intros k r. replace (repeat 48 (S k)) with (repeat 48 k ++ [48]).
  - rewrite int_zeros; [reflexivity|repeat constructor|discriminate].
  - clear. induction k; cbn [repeat app]; [reflexivity|]. now rewrite IHk.
Qed.

Lemma same_int : forall j k l, digits10 l -> (repeat 48 j ++ l = [] <-> repeat 48 k ++ l = []) \/ zero_is_nothing A ->
  int_pure A (length (repeat 48 j ++ l)) (repeat 48 j ++ l) (a_zero A) = int_pure A (length (repeat 48 k ++ l)) (repeat 48 k ++ l) (a_zero A).
Proof.
  intros j k l Hd H. destruct l as [|x l].
  - rewrite !app_nil_r in *. destruct j as [|j], k as [|k]; auto; rewrite ?only_zeros; auto.
    + destruct H as [H|H]; [|cbn [repeat length int_pure]; auto]. destruct H as [H _]. specialize (H eq_refl). discriminate.
    + destruct H as [H|H]; [|cbn [repeat length int_pure]; auto]. destruct H as [_ H]. specialize (H eq_refl). discriminate.
  - rewrite !int_zeros; auto; discriminate.
Qed.
Lemma drop_zeros : forall k f, drop_in_end [48] (f ++ repeat 48 k) = drop_in_end [48] f.
Proof.
  induction k as [|k IH]; intro f; cbn [repeat]; [now rewrite app_nil_r|].
  replace (f ++ 48 :: repeat 48 k) with ((f ++ [48]) ++ repeat 48 k) by now rewrite <- app_assoc.
  rewrite IH, drop_in_end_snoc. reflexivity.
Qed.
Lemma frac_trim : forall p, drop_in_end [48] (frac_digits p) = drop_in_end [48] (frac_of p).
Proof. intro p. unfold frac_digits, frac_of. destruct (sp_frac p) as [[f k]|]; [apply drop_zeros|reflexivity]. Qed.

Lemma same_pure : forall p q, spelling_ok p -> spelling_ok q -> same_number p q -> both_whole A p q ->
  float_pure A (int_chars p) (frac_digits p) (exp_of p) = float_pure A (int_chars q) (frac_digits q) (exp_of q).
Proof.
  intros p q (Hp & _) (Hq & _) (_ & Ei & Ef & Ee) Hb. unfold float_pure. rewrite !frac_trim, Ef, Ee.
  unfold int_chars in *. unfold both_whole, int_chars in Hb. rewrite Ei in *. rewrite (same_int (sp_zeros p) (sp_zeros q)); auto.
Qed.
End Value.

Lemma small_safe : forall cf l, Forall (fun c => 0 <= c < 128) l -> forall r, ctype_safe cf r -> ctype_safe cf (l ++ r).
Proof.
  intros cf l H r [K|[K|K]]; [left|right; left|right; right]; auto. apply Forall_app. split; auto.
  eapply Forall_impl; [|exact H]. cbn. lia.
Qed.
Lemma digits_small : forall l, digits10 l -> Forall (fun c => 0 <= c < 128) l.
Proof. intros l H. eapply Forall_impl; [|exact H]. cbn. intros c Hc. apply isdig_range in Hc. lia. Qed.
Lemma sign_small : forall s, Forall (fun c => 0 <= c < 128) (sign_chars s).
Proof. intros [[|]|]; cbn; repeat constructor; lia. Qed.
Lemma spelled_small : forall p, spelling_ok p -> Forall (fun c => 0 <= c < 128) (spelled p).
Proof.
  intros p Hp. pose proof (int_chars_digits p Hp) as Di. pose proof (frac_digits_digits p Hp) as Df. unfold spelled.
  apply Forall_app. split; [induction (sp_spaces p); cbn [repeat]; constructor; auto; lia|].
  apply Forall_app. split; [apply sign_small|].
  apply Forall_app. split; [now apply digits_small|].
  apply Forall_app. split.
  - unfold frac_chars. destruct (sp_frac p); [|constructor]. constructor; [lia|]. now apply digits_small.
  - destruct Hp as (_ & _ & _ & He). unfold exp_chars. destruct (sp_exp p) as [[[[up s] k] ds]|]; [|constructor].
    destruct He as (Hd & _). constructor; [destruct up; lia|]. apply Forall_app. split; [apply sign_small|].
    apply digits_small. apply Forall_app. split; auto. apply zeros_digits.
Qed.

Lemma spelled_alike : forall cf A f m1 m2 dst s1 s2 p q rest1 rest2,
  f = strnum_consume_float cf A \/ f = strnum_consume_double cf A ->
  mem_wf m1 -> mem_wf m2 -> has_view m1 s1 (spelled p ++ rest1) -> has_view m2 s2 (spelled q ++ rest2) ->
  ctype_safe cf rest1 -> ctype_safe cf rest2 ->
  spelling_ok p -> spelling_ok q -> ends_here p rest1 -> ends_here q rest2 -> same_number p q -> both_whole A p q ->
  parses_alike dst m1 m2 rest1 rest2 (f m1 dst (Some s1) 0) (f m2 dst (Some s2) 0).
Proof.
  intros cf A f m1 m2 dst s1 s2 p q rest1 rest2 Hf W1 W2 V1 V2 C1 C2 Hp Hq E1 E2 Hs Hb.
  assert (forall m s, f m dst (Some s) 0 = strnum_consume_double cf A m dst (Some s) 0) as Ef by (destruct Hf as [-> | ->]; auto).
  rewrite !Ef.
  pose proof (float_ok_exact cf A m1 dst s1 _ 0 W1 V1 (small_safe cf _ (spelled_small p Hp) _ C1)) as K1.
  pose proof (float_ok_exact cf A m2 dst s2 _ 0 W2 V2 (small_safe cf _ (spelled_small q Hq) _ C2)) as K2.
  rewrite spelled_read in K1, K2 by auto.
  destruct K1 as (a1 & L1 & _ & K1), K2 as (a2 & L2 & _ & K2). rewrite K1, K2. cbn [ft_rest] in L1, L2.
  unfold float_over, signed_result, rest_view_of, float_result. cbn [ft_special ft_neg ft_int ft_frac ft_exp ft_rest].
  rewrite (same_pure A p q Hp Hq Hs Hb). destruct Hs as (-> & _).
  set (x := float_pure _ _ _ _). destruct (a_is_inf A x).
  - exists ERANGE, None, None, None. repeat split.
  - unfold parses_alike. do 4 eexists. split; [reflexivity|]. split; [reflexivity|]. cbv iota. split.
    + eexists. destruct dst; reflexivity.
    + do 2 eexists. split; [reflexivity|]. split; [reflexivity|].
      rewrite L1 in V1. rewrite L2 in V2. split; [now apply (rest_view m1 s1 a1)|now apply (rest_view m2 s2 a2)].
Qed.
Lemma default_alike : forall cf A m1 m2 s1 s2 p q rest1 rest2 d,
  mem_wf m1 -> mem_wf m2 -> has_view m1 s1 (spelled p ++ rest1) -> has_view m2 s2 (spelled q ++ rest2) ->
  ctype_safe cf rest1 -> ctype_safe cf rest2 ->
  spelling_ok p -> spelling_ok q -> ends_here p rest1 -> ends_here q rest2 -> same_number p q -> both_whole A p q ->
  strnum_float cf A m1 s1 d 0 = strnum_float cf A m2 s2 d 0 /\ strnum_double cf A m1 s1 d 0 = strnum_double cf A m2 s2 d 0.
Proof.
  intros cf A m1 m2 s1 s2 p q rest1 rest2 d W1 W2 V1 V2 C1 C2 Hp Hq E1 E2 Hs Hb. unfold strnum_float, strnum_double. split.
  - destruct (spelled_alike cf A (strnum_consume_float cf A) m1 m2 true s1 s2 p q rest1 rest2) as (e & v & r1 & r2 & -> & -> & _); auto.
  - destruct (spelled_alike cf A (strnum_consume_double cf A) m1 m2 true s1 s2 p q rest1 rest2) as (e & v & r1 & r2 & -> & -> & _); auto.
Qed.
