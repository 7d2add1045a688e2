(** The value computed by the floating point parsers. *)
From Coq Require Import QArith Qpower Lqa.
From Verif Require Import Base Mem Libc StrviewModel StrnumModel Spec NumSpec FloatSpec MemLemmas
  StrviewProofs StrviewProofs2 StrviewProofs3 StrnumProofs StrnumProofs2 StrnumProofs3 StrnumFloat.
Open Scope Z_scope.

(** ** List-level mirror of make_float_type *)

Fixpoint chunk1 (l : list Z) (acc : Z) : Z * list Z :=
  match l with
  | [] => (acc, [])
  | d :: t => if acc * 10 + dval d <=? ULLONG_MAX then chunk1 t (acc * 10 + dval d) else (acc, l)
  end.

Notation digits10 := (Forall (fun x => isdig 10 x = true)).

Lemma chunk1_ok : forall a b acc, digits10 (a ++ b) -> 0 <= acc -> acc_val 10 acc a <= ULLONG_MAX ->
  (b = [] \/ exists d b', b = d :: b' /\ ULLONG_MAX < acc_val 10 acc a * 10 + dval d) ->
  chunk1 (a ++ b) acc = (acc_val 10 acc a, b).
Proof.
  induction a as [|x a IH]; intros b acc Hd Ha Hv Hb.
  - cbn [app acc_val fold_left]. destruct Hb as [-> | (d & b' & -> & Ho)]; [reflexivity|].
    cbn [chunk1]. cbn in Ho. rewrite (proj2 (Z.leb_gt _ _)) by lia. reflexivity.
  - cbn [app chunk1]. inversion Hd; subst. pose proof (isdig_dval _ _ H1).
    apply Forall_app in H2 as H3. destruct H3 as [Hda _].
    pose proof (acc_nonneg 10 a (acc * 10 + dval x) ltac:(lia) ltac:(lia) Hda) as G.
    change (acc_val 10 acc (x :: a)) with (acc_val 10 (acc * 10 + dval x) a) in *.
    rewrite (proj2 (Z.leb_le _ _)) by lia. apply IH; auto; lia.
Qed.

Lemma chunk1_spec : forall l acc, digits10 l -> 0 <= acc <= ULLONG_MAX -> exists a b, l = a ++ b /\
  chunk1 l acc = (acc_val 10 acc a, b) /\ acc_val 10 acc a <= ULLONG_MAX /\
  (b = [] \/ exists d b', b = d :: b' /\ ULLONG_MAX < acc_val 10 acc a * 10 + dval d).
Proof.
  induction l as [|x l IH]; intros acc Hd Ha.
  - exists [], []. cbn. repeat split; auto; lia.
  - inversion Hd; subst. cbn [chunk1]. pose proof (isdig_dval _ _ H1). destruct (acc * 10 + dval x <=? ULLONG_MAX) eqn:E.
    + apply Z.leb_le in E. destruct (IH (acc * 10 + dval x) H2 ltac:(lia)) as (a & b & -> & E1 & E2 & E3).
      exists (x :: a), b. repeat split; auto.
    + apply Z.leb_gt in E. exists [], (x :: l). cbn [app acc_val fold_left]. repeat split; auto; try lia.
      right. exists x, l. auto.
Qed.

Lemma chunk1_len : forall l acc, (length (snd (chunk1 l acc)) <= length l)%nat.
Proof. induction l as [|x l IH]; intro acc; cbn; auto. destruct (_ <=? _); cbn; auto. Qed.
Lemma chunk1_progress : forall d l, isdig 10 d = true -> (length (snd (chunk1 (d :: l) 0)) <= length l)%nat.
Proof.
  intros d l Hd. cbn [chunk1]. pose proof (isdig_dval _ _ Hd). rewrite (proj2 (Z.leb_le _ _)) by (unfold ULLONG_MAX; lia).
  apply chunk1_len.
Qed.

Lemma consume_chunk1 : forall cf m s l, has_view m s l -> ctype_safe cf l -> digits10 l -> l <> [] ->
  exists e a, l = a ++ snd (chunk1 l 0) /\
  consume_decimal_digits cf m s = Ok (e, fst (chunk1 l 0), rest_of s a (snd (chunk1 l 0))).
Proof.
  intros cf m s l Hv Hc Hd Hn.
  assert (headb (isdig 10) l = true) as Hh by (destruct l; [congruence|]; inversion Hd; auto).
  destruct (consume_decimal_ok cf m s l Hv Hc Hh) as (a & b & e & v & E & -> & Fa & Ev & Bv & S).
  exists e, a. rewrite E. rewrite (chunk1_ok a b 0); auto; try lia.
  - cbn [fst snd]. rewrite Ev, num_acc. auto.
  - rewrite <- num_acc, <- Ev. lia.
  - destruct S as [[_ Hh'] | (_ & d & b' & -> & _ & Ho)].
    + left. destruct b; auto. apply Forall_app in Hd as [_ Hd]. inversion Hd; subst. cbn in Hh'. congruence.
    + right. exists d, b'. rewrite <- num_acc, <- Ev. auto.
Qed.

Section Pure.
Variable A : arith.
Fixpoint int_pure (fuel : nat) (l : list Z) (r : a_t A) : a_t A :=
  match fuel, l with
  | O, _ => r
  | _, [] => r
  | S f, _ => let (v, b) := chunk1 l 0 in
      int_pure f b (a_mul A (a_add A r (a_of_ull A v)) (a_pow10 A (Zlen b)))
  end.
Fixpoint frac_pure (fuel : nat) (l : list Z) (p : Z) (r : a_t A) : a_t A :=
  match fuel, l with
  | O, _ => r
  | _, [] => r
  | S f, _ => let (v, b) := chunk1 l 0 in
      frac_pure f b (p - Zlen l + Zlen b) (a_add A r (a_mul A (a_of_ull A v) (a_pow10 A (p - Zlen l + Zlen b))))
  end.
Definition float_pure (ip fp : list Z) (e : Z) : a_t A :=
  let r1 := int_pure (length ip) ip (a_zero A) in
  let fp' := drop_in_end [48] fp in
  a_mul A (frac_pure (length fp') fp' 0 r1) (a_pow10 A e).

Lemma int_loop_ok : forall cf m n l s r fuel, has_view m s l -> ctype_safe cf l -> digits10 l ->
  (length l <= n)%nat -> (n < fuel)%nat ->
  int_loop cf A fuel m s r = Ok (int_pure n l r).
Proof.
  intros cf m; induction n as [|n IH]; intros l s r fuel Hv Hc Hd Hn Hf; (destruct fuel as [|fuel]; [lia|]);
    cbn [int_loop]; rewrite (has_view_size _ _ _ Hv).
  - destruct l; [|cbn in Hn; lia]. reflexivity.
  - destruct l as [|x l]; [reflexivity|]. rewrite (proj2 (Z.eqb_neq _ _)) by (rewrite Zlen_cons; pose proof (Zlen_nonneg l); lia).
    destruct (consume_chunk1 cf m s (x :: l) Hv Hc Hd ltac:(discriminate)) as (e & a & E1 & E2). rewrite E2. cbn [bind].
    cbn [int_pure]. pose proof (chunk1_progress x l ltac:(now inversion Hd)) as Hp.
    destruct (chunk1 (x :: l) 0) as [v b]. cbn [fst snd] in *.
    rewrite E1 in Hv, Hc, Hd. cbn [rest_of subview v_size].
    rewrite IH with (l := b); auto.
    + now apply (rest_view m s a b).
    + now apply ctype_safe_app in Hc.
    + now apply Forall_app in Hd as [_ Hd].
    + cbn in Hn. lia.
    + lia.
Qed.

Lemma frac_loop_ok : forall cf m n l s p r fuel, has_view m s l -> ctype_safe cf l -> digits10 l ->
  (length l <= n)%nat -> (n < fuel)%nat -> INT_MIN <= p - Zlen l -> p <= 0 ->
  frac_loop cf A fuel m s p r = Ok (frac_pure n l p r).
Proof.
  intros cf m; induction n as [|n IH]; intros l s p r fuel Hv Hc Hd Hn Hf Hp Hp0; (destruct fuel as [|fuel]; [lia|]);
    cbn [frac_loop]; rewrite (has_view_size _ _ _ Hv).
  - destruct l; [|cbn in Hn; lia]. reflexivity.
  - destruct l as [|x l]; [reflexivity|]. pose proof (Zlen_nonneg l) as Hl0. pose proof (Zlen_cons x l) as Hl1.
    rewrite (proj2 (Z.eqb_neq _ _)) by lia.
    destruct (consume_chunk1 cf m s (x :: l) Hv Hc Hd ltac:(discriminate)) as (e & a & E1 & E2).
    rewrite isub_ok by (unfold INT_MAX; lia). cbn [bind]. rewrite E2. cbn [bind].
    cbn [frac_pure]. pose proof (chunk1_progress x l ltac:(now inversion Hd)) as Hpr.
    destruct (chunk1 (x :: l) 0) as [v b]. cbn [fst snd] in *. cbn [rest_of subview v_size].
    pose proof (Zlen_nonneg b).
    assert (Zlen b <= Zlen l) by (unfold Zlen; lia).
    rewrite iadd_ok by (unfold INT_MAX; lia). cbn [bind].
    rewrite E1 in Hv, Hc, Hd.
    rewrite IH with (l := b); auto; try lia.
    + now apply (rest_view m s a b).
    + now apply ctype_safe_app in Hc.
    + now apply Forall_app in Hd as [_ Hd].
    + cbn in Hn. lia.
Qed.

Lemma digits_ctype : forall cf l, digits10 l -> ctype_safe cf l.
Proof.
  intros cf l H. right; right. eapply Forall_impl; [|exact H]. cbn. intros x Hx. apply isdig_ascii in Hx. lia.
Qed.

Lemma make_float_pure : forall cf m ip fp li lf e, opt_view m ip li -> opt_view m fp lf -> digits10 li -> digits10 lf ->
  make_float cf A m ip fp e = Ok (float_pure li lf e).
Proof.
  intros cf m ip fp li lf e Hi Hf Di Df. unfold make_float, float_pure.
  assert (int_loop cf A (S (Z.to_nat (v_size ip))) m ip (a_zero A) = Ok (int_pure (length li) li (a_zero A))) as ->.
  { destruct Hi as [Hi|[-> ->]]; [|reflexivity].
    rewrite (has_view_size _ _ _ Hi), Zlen_to_nat. apply int_loop_ok; auto. now apply digits_ctype. }
  cbn [bind].
  assert (exists fp', strview_trim_end cf m fp (vlit [48]) = Ok fp' /\ opt_view m fp' (drop_in_end [48] lf)) as (fp' & -> & Hf').
  { destruct Hf as [Hf|[-> ->]].
    - rewrite (trim_end_ok cf m fp (vlit [48]) lf (Some [48])); auto.
      + eexists; split; [reflexivity|]. left. cbn [contents].
        destruct (drop_in_end_spec [48] lf) as (c & E & _). rewrite E in Hf.
        apply has_view_prefix in Hf. unfold subview. rewrite shift_0. exact Hf.
      + unfold vlit. apply lit_view; [constructor; [unfold is_byte; lia|constructor]|vm_compute; discriminate].
      + discriminate.
    - exists INVALID. split; auto. right. auto. }
  cbn [bind].
  assert (digits10 (drop_in_end [48] lf)) as Df'.
  { destruct (drop_in_end_spec [48] lf) as (c & E & _). rewrite E in Df. now apply Forall_app in Df as [Df _]. }
  destruct Hf' as [Hf'|[-> ->]]; [|reflexivity].
  rewrite (has_view_size _ _ _ Hf'), Zlen_to_nat. rewrite frac_loop_ok with (n := length (drop_in_end [48] lf)) (l := drop_in_end [48] lf); auto; try lia.
  - now apply digits_ctype.
  - pose proof Hf' as (_ & _ & ? & _). unfold INT_MIN, INT_MAX in *. lia.
Qed.
End Pure.

(** ** Exact value *)

Lemma ten_nz : ~ (ten == 0)%Q.
Proof. unfold ten. discriminate. Qed.
Lemma pow_plus : forall a b, (Qpower ten (a + b) == Qpower ten a * Qpower ten b)%Q.
Proof. intros. apply Qpower_plus. apply ten_nz. Qed.
Lemma pow_nat : forall n, 0 <= n -> (inject_Z (10 ^ n) == Qpower ten n)%Q.
Proof. intros n Hn. rewrite Zpower_Qpower by auto. reflexivity. Qed.

Lemma acc_split : forall l acc, acc_val 10 acc l = acc * 10 ^ Zlen l + num_val 10 l.
Proof.
  induction l as [|x l IH]; intros acc; [cbn; lia|].
  rewrite num_acc. cbn [acc_val fold_left]. fold (acc_val 10 (acc * 10 + dval x) l). fold (acc_val 10 (0 * 10 + dval x) l).
  rewrite (IH (acc * 10 + dval x)), (IH (0 * 10 + dval x)). rewrite Zlen_cons, Z.pow_add_r by (try apply Zlen_nonneg; lia). lia.
Qed.
Lemma num_app : forall a b, num_val 10 (a ++ b) = num_val 10 a * 10 ^ Zlen b + num_val 10 b.
Proof. intros. rewrite num_acc, acc_app, acc_split. reflexivity. Qed.

Lemma num_lt : forall l, digits10 l -> 0 <= num_val 10 l < 10 ^ Zlen l.
Proof.
  induction l as [|x l IH] using rev_ind; intro H; [cbn; lia|].
  apply Forall_app in H as [H1 H2]. inversion H2; subst. apply isdig_dval in H3. specialize (IH H1).
  rewrite num_app. change (Zlen [x]) with 1. rewrite Zlen_app, Z.pow_add_r by (try apply Zlen_nonneg; cbn; lia).
  change (num_val 10 [x]) with (dval x). change (10 ^ 1) with 10. change (10 ^ Zlen [x]) with 10. lia.
Qed.

Definition is_fin (x : xq) (q : Q) : Prop := match x with Fin p => (p == q)%Q | _ => False end.

Lemma int_exact : forall l, digits10 l -> num_val 10 l < 10 ^ 38 ->
  is_fin (int_pure exact (length l) l (a_zero exact)) (inject_Z (num_val 10 l)).
Proof.
  intros l Hd Hb. destruct l as [|x l]; [reflexivity|]. set (L := x :: l) in *.
  destruct (chunk1_spec L 0 Hd ltac:(unfold ULLONG_MAX; lia)) as (a1 & b1 & E1 & C1 & U1 & S1).
  pose proof (chunk1_progress x l ltac:(now inversion Hd)) as P1. fold L in P1. rewrite C1 in P1. cbn [snd] in P1.
  rewrite <- num_acc in *.
  assert (length L = S (length l)) as -> by reflexivity.
  assert (int_pure exact (S (length l)) L (a_zero exact) =
     int_pure exact (length l) b1 (a_mul exact (a_add exact (a_zero exact) (a_of_ull exact (num_val 10 a1))) (a_pow10 exact (Zlen b1)))) as ->.
  { cbn [int_pure]. unfold L at 1. rewrite C1. reflexivity. }
  clearbody L. clear x. subst L. apply Forall_app in Hd as [Hd1 Hd2].
  destruct b1 as [|y b1].
  { destruct (length l); cbn; rewrite app_nil_r; lra. }
  destruct (chunk1_spec (y :: b1) 0 Hd2 ltac:(unfold ULLONG_MAX; lia)) as (a2 & b2 & E2 & C2 & U2 & S2).
  rewrite <- num_acc in *.
  destruct (length l) as [|n]; [cbn in P1; lia|].
  cbn [int_pure]. rewrite C2.
  assert (b2 = []) as ->.
  { destruct S2 as [S2|(d2 & b2' & -> & O2)]; auto. exfalso.
    destruct S1 as [S1|(d1 & b1' & Eb & O1)]; [discriminate|].
    rewrite E2 in Hd2, Hb. apply Forall_app in Hd2 as [Hda2 Hdb2]. inversion Hdb2; subst.
    injection Eb as -> ->.
    assert (isdig 10 d1 = true) as Hdd1. { destruct a2; cbn in E2; injection E2 as -> ->; [auto|now inversion Hda2]. }
    apply isdig_dval in H1. apply isdig_dval in Hdd1.
    pose proof (num_lt a1 Hd1) as N1. pose proof (num_lt a2 Hda2) as N2. pose proof (num_lt (d2 :: b2') Hdb2) as N3.
    rewrite !num_app in Hb. rewrite Zlen_app, (Zlen_cons d2) in Hb.
    assert (10 ^ 18 <= num_val 10 a1) by (change (10 ^ 18) with 1000000000000000000; unfold ULLONG_MAX in *; lia).
    assert (10 ^ 18 <= num_val 10 a2) by (change (10 ^ 18) with 1000000000000000000; unfold ULLONG_MAX in *; lia).
    assert (19 <= Zlen a2).
    { destruct (Z_lt_ge_dec (Zlen a2) 19); [exfalso|lia].
      assert (10 ^ Zlen a2 <= 10 ^ 18) by (apply Z.pow_le_mono_r; lia). lia. }
    assert (10 ^ 20 <= 10 ^ (Zlen a2 + (Zlen b2' + 1))).
    { apply Z.pow_le_mono_r; [lia|]. pose proof (Zlen_nonneg b2'). lia. }
    assert (10 ^ 18 * 10 ^ 20 <= num_val 10 a1 * 10 ^ (Zlen a2 + (Zlen b2' + 1))) by (apply Z.mul_le_mono_nonneg; lia).
    change (10 ^ 18 * 10 ^ 20) with (10 ^ 38) in *.
    assert (0 <= num_val 10 a2 * 10 ^ Zlen (d2 :: b2')) by (apply Z.mul_nonneg_nonneg; [lia|apply Z.pow_nonneg; lia]).
    lia. }
  rewrite app_nil_r in E2. subst a2.
  assert (forall k (r : a_t exact), int_pure exact k [] r = r) as In by (destruct k; reflexivity). rewrite In.
  rewrite num_app. cbn [is_fin a_mul a_add a_of_ull a_pow10 a_zero exact xmul xadd]. change (Zlen (@nil Z)) with 0.
  rewrite inject_Z_plus, inject_Z_mult, pow_nat by apply Zlen_nonneg. cbn [Qpower]. ring.
Qed.

Lemma frac_exact : forall n l p r q, digits10 l -> (length l <= n)%nat -> is_fin r q ->
  is_fin (frac_pure exact n l p r) (q + inject_Z (num_val 10 l) * Qpower ten (p - Zlen l)).
Proof.
  induction n as [|n IH]; intros l p r q Hd Hn Hr.
  - destruct l; [|cbn in Hn; lia]. cbn [frac_pure]. destruct r; cbn in *; try contradiction. rewrite Hr. ring.
  - destruct l as [|x l].
    { cbn [frac_pure]. destruct r; cbn in *; try contradiction. rewrite Hr. ring. }
    set (L := x :: l) in *.
    destruct (chunk1_spec L 0 Hd ltac:(unfold ULLONG_MAX; lia)) as (a1 & b1 & E1 & C1 & U1 & S1).
    pose proof (chunk1_progress x l ltac:(now inversion Hd)) as P1. fold L in P1. rewrite C1 in P1. cbn [snd] in P1.
    rewrite <- num_acc in *.
    assert (frac_pure exact (S n) L p r = frac_pure exact n b1 (p - Zlen L + Zlen b1)
      (a_add exact r (a_mul exact (a_of_ull exact (num_val 10 a1)) (a_pow10 exact (p - Zlen L + Zlen b1))))) as ->.
    { cbn [frac_pure]. unfold L at 1. rewrite C1. reflexivity. }
    pose proof (Forall_app (fun x => isdig 10 x = true) a1 b1) as FA. rewrite <- E1 in FA. apply proj1 in FA. destruct (FA Hd) as [_ Hd1].
    specialize (IH b1 (p - Zlen L + Zlen b1) (a_add exact r (a_mul exact (a_of_ull exact (num_val 10 a1)) (a_pow10 exact (p - Zlen L + Zlen b1))))
      (q + inject_Z (num_val 10 a1) * Qpower ten (p - Zlen L + Zlen b1))%Q Hd1).
    specialize (IH ltac:(cbn in Hn; lia)).
    destruct (frac_pure exact n b1 _ _) as [q'| |]; cbn [is_fin] in *.
    + rewrite IH.
      * rewrite E1 at 3. rewrite num_app, inject_Z_plus, inject_Z_mult, pow_nat by apply Zlen_nonneg.
        replace (p - Zlen L + Zlen b1 - Zlen b1) with (p - Zlen L) by lia.
        rewrite pow_plus. ring.
      * destruct r; cbn in *; try contradiction. rewrite Hr. reflexivity.
    + apply IH. destruct r; cbn in *; try contradiction. rewrite Hr. reflexivity.
    + apply IH. destruct r; cbn in *; try contradiction. rewrite Hr. reflexivity.
Qed.

Lemma trim_zeros_val : forall l, digits10 l ->
  (inject_Z (num_val 10 (drop_in_end [48%Z] l)) * Qpower ten (- Zlen (drop_in_end [48%Z] l))
   == inject_Z (num_val 10 l) * Qpower ten (- Zlen l))%Q.
Proof.
  intros l Hd. destruct (drop_in_end_spec [48] l) as (c & E & Hc & _). set (d := drop_in_end [48] l) in *. clearbody d. subst l.
  rewrite num_app. assert (num_val 10 c = 0) as ->.
  { rewrite num_acc. apply zeros_val; auto; [lia|]. eapply Forall_impl; [|exact Hc]. cbn. intros a [<-|[]]; auto. }
  rewrite Z.add_0_r, inject_Z_mult, pow_nat by apply Zlen_nonneg. rewrite Zlen_app.
  rewrite <- Qmult_assoc, <- pow_plus. replace (Zlen c + - (Zlen d + Zlen c)) with (- Zlen d) by lia. reflexivity.
Qed.

Lemma float_exact : forall li lf e, digits10 li -> digits10 lf -> num_val 10 li < 10 ^ 38 ->
  is_fin (float_pure exact li lf e)
    ((inject_Z (num_val 10 li) + inject_Z (num_val 10 lf) * Qpower ten (- Zlen lf)) * Qpower ten e).
Proof.
  intros li lf e Di Df Hb. unfold float_pure.
  assert (digits10 (drop_in_end [48] lf)) as Df'.
  { destruct (drop_in_end_spec [48] lf) as (c & E & _). rewrite E in Df. now apply Forall_app in Df as [Df _]. }
  pose proof (frac_exact (length (drop_in_end [48] lf)) (drop_in_end [48] lf) 0 _ _ Df' (le_n _) (int_exact li Di Hb)) as H.
  destruct (frac_pure _ _ _ _ _); cbn [is_fin] in *; try contradiction.
  cbn [a_mul exact xmul a_pow10 is_fin]. rewrite H. rewrite Z.sub_0_l, trim_zeros_val by auto. reflexivity.
Qed.

(** ** The public float parsers *)
Definition float_result (A : arith) (t : float_text) : a_t A :=
  match ft_special t with
  | SpInf => a_inf A
  | SpNan => a_nan A
  | NoSpecial => float_pure A (ft_int t) (ft_frac t) (ft_exp t)
  end.
Definition float_over (A : arith) (t : float_text) : bool :=
  match ft_special t with NoSpecial => a_is_inf A (float_result A t) | _ => false end.
Definition signed_result (A : arith) (t : float_text) : a_t A :=
  if a_is_nan A (float_result A t) then a_nan A
  else if ft_neg t then a_neg A (float_result A t) else float_result A t.
Definition rest_view_of (s : view) (k : Z) (t : float_text) : view :=
  match ft_special t, ft_rest t with
  | NoSpecial, _ => subview s k (Zlen (ft_rest t))
  | _, [] => INVALID
  | _, _ => subview s k (Zlen (ft_rest t))
  end.

Lemma float_ok : forall cf A m dst s l opt, mem_wf m -> has_view m s l -> ctype_safe cf l ->
  strip_word w_infinty (snd (float_body opt l)) = None ->
  strnum_consume_float cf A m dst (Some s) opt = strnum_consume_double cf A m dst (Some s) opt /\
  match read_float opt l with
  | FBad e => e <> NoErr /\ strnum_consume_double cf A m dst (Some s) opt = Ok (Parsed e None None)
  | FGood t => exists a, l = a ++ ft_rest t /\ a <> [] /\
      digits10 (ft_int t) /\ digits10 (ft_frac t) /\
      strnum_consume_double cf A m dst (Some s) opt =
      Ok (if float_over A t then Parsed ERANGE None None
          else Parsed NoErr (if dst then Some (signed_result A t) else None) (Some (rest_view_of s (Zlen a) t)))
  end.
Proof.
  intros cf A m dst s l opt Hw Hv Hc Hn. split; [reflexivity|].
  pose proof (components_ok cf m s l opt Hw Hv Hc Hn) as K. unfold strnum_consume_double.
  destruct (read_float opt l) as [e|t].
  - destruct K as (Ne & c & ->). split; auto. cbn [bind finish_float]. destruct e; auto. congruence.
  - destruct K as (c & -> & K1 & K2 & K3 & K4 & K5 & K6 & K7 & _ & a & Ea & Na & K9).
    exists a. repeat (split; [solve [auto]|]). cbn [bind finish_float]. rewrite K2.
    unfold float_over, signed_result, float_result, rest_view_of. rewrite K1, K9.
    destruct (ft_special t); cbn [bind].
    + rewrite K3. rewrite (make_float_pure A cf m _ _ (ft_int t) (ft_frac t)) by auto. cbn [bind].
      destruct (a_is_inf A _); reflexivity.
    + reflexivity.
    + reflexivity.
Qed.
