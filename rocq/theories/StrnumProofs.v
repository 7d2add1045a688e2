(** Proofs about integer parsing. *)
From Verif Require Import Base Mem Libc StrviewModel StrnumModel Spec NumSpec MemLemmas StrviewProofs StrviewProofs2 StrviewProofs3.

Lemma byte_forall : forall P : Z -> bool, forallb P (map Z.of_nat (seq 0 256)) = true ->
  forall x, is_byte x -> P x = true.
Proof.
  intros P H x Hx. rewrite forallb_forall in H. apply H. apply in_map_iff.
  exists (Z.to_nat x). unfold is_byte in Hx. split; [lia|]. apply in_seq. lia.
Qed.

(** ** Characters *)

Definition chr (sg : bool) (b : Z) : Z := if sg && (128 <=? b) then b - 256 else b.
Lemma char_chr : forall cf b, char_int cf b = chr (c_char_signed cf) b.
Proof. reflexivity. Qed.

Ltac by_bytes P :=
  let H := fresh in
  match goal with Hx : is_byte ?x |- _ =>
    assert (P x = true) as H by (refine (byte_forall P _ x Hx); vm_compute; reflexivity); cbv beta in H
  end.

Lemma isdigit_char : forall cf x, is_byte x -> isdigit_c (char_int cf x) = isdig 10 x.
Proof.
  intros cf x Hx. rewrite char_chr. generalize (c_char_signed cf) as sg. intro sg.
  apply eqb_prop. destruct sg.
  - by_bytes (fun x => eqb (isdigit_c (chr true x)) (isdig 10 x)). auto.
  - by_bytes (fun x => eqb (isdigit_c (chr false x)) (isdig 10 x)). auto.
Qed.

Lemma isxdigit_char : forall cf x, is_byte x -> isxdigit_c (char_int cf x) = isdig 16 x.
Proof.
  intros cf x Hx. rewrite char_chr. generalize (c_char_signed cf) as sg. intro sg.
  apply eqb_prop. destruct sg.
  - by_bytes (fun x => eqb (isxdigit_c (chr true x)) (isdig 16 x)). auto.
  - by_bytes (fun x => eqb (isxdigit_c (chr false x)) (isdig 16 x)). auto.
Qed.

Lemma isbdigit_char : forall cf x, is_byte x -> x <> 176 -> x <> 177 -> isbdigit (char_int cf x) = isdig 2 x.
Proof.
  intros cf x Hx N1 N2. rewrite char_chr. generalize (c_char_signed cf) as sg. intro sg.
  apply Z.eqb_neq in N1, N2. destruct sg.
  - by_bytes (fun x => (x =? 176) || (x =? 177) || eqb (isbdigit (chr true x)) (isdig 2 x)).
    rewrite N1, N2 in H. now apply eqb_prop.
  - by_bytes (fun x => (x =? 176) || (x =? 177) || eqb (isbdigit (chr false x)) (isdig 2 x)).
    rewrite N1, N2 in H. now apply eqb_prop.
Qed.

Lemma char_low : forall cf x, 0 <= x < 128 -> char_int cf x = x.
Proof. intros. unfold char_int. destruct (c_char_signed cf); cbn; zb; auto. Qed.

Lemma isdig_ascii : forall base x, isdig base x = true -> 48 <= x <= 102.
Proof.
  intros base x H. unfold isdig in H. lia.
Qed.

Lemma isdig_dval : forall base x, isdig base x = true -> 0 <= dval x < base.
Proof.
  intros base x H. unfold isdig, dval in *. destruct (x <=? 57) eqn:E1; [lia|]. destruct (x <=? 70) eqn:E2; lia.
Qed.

Lemma dec_low : forall x, isdig 10 x = true -> Z.land x 15 = dval x.
Proof.
  intros x H. assert (is_byte x) as Hx by (apply isdig_ascii in H; unfold is_byte; lia).
  by_bytes (fun x => negb (isdig 10 x) || (Z.land x 15 =? dval x)). rewrite H in H0. now apply Z.eqb_eq.
Qed.
Lemma hex_low : forall x, isdig 16 x = true -> xdigit_value x = dval x.
Proof.
  intros x H. assert (is_byte x) as Hx by (apply isdig_ascii in H; unfold is_byte; lia).
  by_bytes (fun x => negb (isdig 16 x) || (xdigit_value x =? dval x)). rewrite H in H0. now apply Z.eqb_eq.
Qed.
Lemma bin_low : forall x, isdig 2 x = true -> Z.land x 1 = dval x.
Proof.
  intros x H. assert (is_byte x) as Hx by (apply isdig_ascii in H; unfold is_byte; lia).
  by_bytes (fun x => negb (isdig 2 x) || (Z.land x 1 =? dval x)). rewrite H in H0. now apply Z.eqb_eq.
Qed.

(** ** Views of the remaining text *)

Definition rest_of (s : view) (a b : list Z) : view := subview s (Zlen a) (Zlen b).

Lemma rest_view : forall m s a b, has_view m s (a ++ b) -> has_view m (rest_of s a b) b.
Proof. intros. apply (has_view_suffix m s a b); auto. Qed.

Lemma rest_nil : forall m s l, has_view m s l -> rest_of s [] l = s.
Proof. intros. unfold rest_of. apply subview_0. now rewrite (has_view_size _ _ _ H). Qed.

Lemma rest_rest : forall s a b c, rest_of (rest_of s a (b ++ c)) b c = rest_of s (a ++ b) c.
Proof. intros. unfold rest_of. rewrite subview_subview. now rewrite Zlen_app. Qed.

Lemma pop_num : forall cf m s x l, has_view m s (x :: l) -> pop cf m s = Ok (char_int cf x, rest_of s [x] l).
Proof.
  intros. unfold pop. destruct (pop_ok cf m s x l H) as [-> _]. cbn [bind]. reflexivity.
Qed.

Definition headb (p : Z -> bool) (l : list Z) : bool := match l with x :: _ => p x | [] => false end.

Lemma ctype_safe_head : forall cf x l, is_byte x -> ctype_safe cf (x :: l) -> ctype_ok cf (char_int cf x) = true.
Proof.
  intros cf x l Hx H. unfold ctype_ok, char_int, is_byte in *.
  destruct H as [H|[H|H]].
  - rewrite H. apply orb_true_r.
  - rewrite H. cbn. zb. reflexivity.
  - inversion H; subst. destruct (c_char_signed cf); cbn; [|zb; reflexivity].
    destruct (128 <=? x) eqn:E; zb; auto.
Qed.

Lemma ctype_safe_app : forall cf a b, ctype_safe cf (a ++ b) -> ctype_safe cf b.
Proof.
  intros cf a b [H|[H|H]]; [left|right;left|right;right]; auto. apply Forall_app in H. apply H.
Qed.

Lemma at_digit_ok : forall cf m s l, has_view m s l -> ctype_safe cf l ->
  at_digit cf m s = Ok (headb (isdig 10) l).
Proof.
  intros cf m s l H Hc. unfold at_digit. rewrite (has_view_size _ _ _ H). destruct l as [|x l]; [reflexivity|].
  rewrite Zlen_cons. pose proof (Zlen_nonneg l). zb.
  destruct H as (Hb & _ & _ & Hf). inversion Hf; subst.
  apply bytes_at_cons in Hb as [Hl _]. rewrite Hl. cbn [bind]. unfold isdigit.
  rewrite (ctype_safe_head cf x l); auto. cbn [headb]. now rewrite isdigit_char.
Qed.

Lemma at_xdigit_ok : forall cf m s l, has_view m s l -> ctype_safe cf l ->
  at_xdigit cf m s = Ok (headb (isdig 16) l).
Proof.
  intros cf m s l H Hc. unfold at_xdigit. rewrite (has_view_size _ _ _ H). destruct l as [|x l]; [reflexivity|].
  rewrite Zlen_cons. pose proof (Zlen_nonneg l). zb.
  destruct H as (Hb & _ & _ & Hf). inversion Hf; subst.
  apply bytes_at_cons in Hb as [Hl _]. rewrite Hl. cbn [bind]. unfold isxdigit.
  rewrite (ctype_safe_head cf x l); auto. cbn [headb]. now rewrite isxdigit_char.
Qed.

Lemma at_bdigit_ok : forall cf m s l, has_view m s l -> no_b0 l ->
  at_bdigit cf m s = Ok (headb (isdig 2) l).
Proof.
  intros cf m s l H [N1 N2]. unfold at_bdigit. rewrite (has_view_size _ _ _ H). destruct l as [|x l]; [reflexivity|].
  rewrite Zlen_cons. pose proof (Zlen_nonneg l). zb.
  destruct H as (Hb & _ & _ & Hf). inversion Hf; subst.
  apply bytes_at_cons in Hb as [Hl _]. rewrite Hl. cbn [bind headb].
  rewrite isbdigit_char; auto.
  - intros ->; apply N1; left; auto.
  - intros ->; apply N2; left; auto.
Qed.

Lemma no_b0_app : forall a b, no_b0 (a ++ b) -> no_b0 b.
Proof. intros a b [H1 H2]. split; intro H; [apply H1|apply H2]; apply in_or_app; auto. Qed.

(** ** Digit strings *)

Definition acc_val (base acc : Z) (ds : list Z) : Z := fold_left (fun acc x => acc * base + dval x) ds acc.

Lemma num_acc : forall base ds, num_val base ds = acc_val base 0 ds.
Proof. reflexivity. Qed.
Lemma acc_app : forall base acc a b, acc_val base acc (a ++ b) = acc_val base (acc_val base acc a) b.
Proof. intros. apply fold_left_app. Qed.
Lemma acc_nonneg : forall base ds acc, 0 < base -> 0 <= acc -> Forall (fun x => isdig base x = true) ds ->
  acc <= acc_val base acc ds.
Proof.
  intros base ds; induction ds as [|d ds IH]; intros acc Hb Ha Hf; [cbn; lia|].
  inversion Hf; subst. cbn [acc_val fold_left]. apply isdig_dval in H1.
  specialize (IH (acc * base + dval d) Hb ltac:(nia) H2). unfold acc_val in IH. nia.
Qed.

(** What the digit consumers do: they take a non-empty prefix of digits whose value fits. *)
Definition chunk (base : Z) (s : view) (l : list Z) (r : outcome (errno * Z * view)) : Prop :=
  exists a b e v, r = Ok (e, v, rest_of s a b) /\ l = a ++ b /\ Forall (fun x => isdig base x = true) a
    /\ v = num_val base a /\ 0 <= v <= ULLONG_MAX
    /\ ((e = NoErr /\ headb (isdig base) b = false) \/
        (e = ERANGE /\ exists d b', b = d :: b' /\ isdig base d = true /\ ULLONG_MAX < v * base + dval d)).

(** ** Decimal *)

Definition loop_res (base limit : Z) (s : view) (l : list Z) (acc : Z) (r : outcome (Z * view)) : Prop :=
  exists a b v, r = Ok (v, rest_of s a b) /\ l = a ++ b /\ Forall (fun x => isdig base x = true) a
    /\ v = acc_val base acc a /\ (headb (isdig base) b = false \/ limit <= v).

Lemma dec_loop_ok : forall cf m md limit, 0 < limit -> limit * 10 + 10 <= md ->
  forall l s fuel acc, has_view m s l -> ctype_safe cf l -> (length l < fuel)%nat -> 0 <= acc < md ->
  loop_res 10 limit s l acc (dec_loop cf fuel m md limit s acc)
  /\ (forall v s', dec_loop cf fuel m md limit s acc = Ok (v, s') -> acc <= v < md).
Proof.
  intros cf m md limit Hl0 Hl. induction l as [|x l IH]; intros s fuel acc Hv Hc Hf Ha;
    (destruct fuel as [|fuel]; [cbn in Hf; lia|]); cbn [dec_loop].
  - rewrite (at_digit_ok cf m s []); auto. cbn [bind headb andb]. split; [|intros v s' E; injection E as <- _; lia].
    exists [], [], acc. rewrite (rest_nil m s []); auto. repeat split; auto.
  - rewrite (at_digit_ok cf m s (x :: l)); auto. cbn [bind headb].
    destruct (isdig 10 x && (acc <? limit)) eqn:E.
    + apply andb_true_iff in E as [Ed El]. apply Z.ltb_lt in El.
      rewrite (pop_num cf m s x l); auto. cbn [bind].
      pose proof (isdig_ascii _ _ Ed). pose proof (isdig_dval _ _ Ed).
      rewrite char_low by lia. rewrite dec_low by auto.
      rewrite (Z.mod_small (acc * 10)) by lia. rewrite Z.mod_small by lia.
      destruct (IH (rest_of s [x] l) fuel (acc * 10 + dval x)) as [H1 H2].
      * apply (rest_view m s [x] l); auto.
      * apply (ctype_safe_app cf [x]); auto.
      * cbn in Hf; lia.
      * lia.
      * split.
        -- destruct H1 as (a & b & v & E1 & E2 & E3 & E4 & E5). exists (x :: a), b, v.
           rewrite E1. subst l. rewrite rest_rest. repeat split; auto.
        -- intros v s' E. apply H2 in E. lia.
    + split; [|intros v s' E'; injection E' as <- _; lia].
      exists [], (x :: l), acc. rewrite (rest_nil m s (x :: l)); auto. repeat split; auto.
      apply andb_false_iff in E as [E|E]; [left; auto|right; lia].
Qed.

Lemma dec_loop3_ok : forall cf m l s fuel acc, has_view m s l -> ctype_safe cf l -> (length l < fuel)%nat ->
  0 <= acc <= ULLONG_MAX ->
  exists a b e v, dec_loop3 cf fuel m s acc = Ok (e, v, rest_of s a b) /\ l = a ++ b
    /\ Forall (fun x => isdig 10 x = true) a
    /\ v = acc_val 10 acc a /\ 0 <= v <= ULLONG_MAX
    /\ ((e = NoErr /\ headb (isdig 10) b = false) \/
        (e = ERANGE /\ exists d b', b = d :: b' /\ isdig 10 d = true /\ ULLONG_MAX < v * 10 + dval d)).
Proof.
  intros cf m. induction l as [|x l IH]; intros s fuel acc Hv Hc Hf Ha;
    (destruct fuel as [|fuel]; [cbn in Hf; lia|]); cbn [dec_loop3].
  - rewrite (at_digit_ok cf m s []); auto. cbn [bind headb].
    exists [], [], NoErr, acc. rewrite (rest_nil m s []); auto. cbn. repeat split; auto; lia.
  - rewrite (at_digit_ok cf m s (x :: l)); auto. cbn [bind headb].
    destruct (isdig 10 x) eqn:Ed.
    2:{ exists [], (x :: l), NoErr, acc. rewrite (rest_nil m s (x :: l)); auto. cbn. repeat split; auto; lia. }
    pose proof (isdig_ascii _ _ Ed). pose proof (isdig_dval _ _ Ed).
    change (ULLONG_MAX / 10) with 1844674407370955161.
    destruct (1844674407370955161 <? acc) eqn:E1.
    { apply Z.ltb_lt in E1. exists [], (x :: l), ERANGE, acc. rewrite (rest_nil m s (x :: l)); auto.
      cbn [app]. repeat split; auto; try lia. right. split; auto. exists x, l. repeat split; auto. unfold ULLONG_MAX in *. lia. }
    apply Z.ltb_ge in E1.
    pose proof (proj1 Hv) as Hb2. apply bytes_at_cons in Hb2 as [Hld _]. rewrite Hld. cbn [bind].
    rewrite char_low by lia. rewrite dec_low by auto.
    unfold two64. rewrite (Z.mod_small (acc * 10)) by lia.
    destruct (Z_lt_ge_dec (acc * 10 + dval x) 18446744073709551616) as [L|G].
    + rewrite Z.mod_small by lia. zb. rewrite (pop_num cf m s x l); auto. cbn [bind].
      destruct (IH (rest_of s [x] l) fuel (acc * 10 + dval x)) as (a & b & e & v & H1 & H2 & H3 & H4 & H5 & H6).
      * apply (rest_view m s [x] l); auto.
      * apply (ctype_safe_app cf [x]); auto.
      * cbn in Hf; lia.
      * unfold ULLONG_MAX; lia.
      * exists (x :: a), b, e, v. rewrite H1. subst l. rewrite rest_rest. repeat split; auto; lia.
    + assert ((acc * 10 + dval x) mod 18446744073709551616 = acc * 10 + dval x - 18446744073709551616) as ->.
      { symmetry. apply (Z.mod_unique _ _ 1); lia. }
      zb. exists [], (x :: l), ERANGE, acc. rewrite (rest_nil m s (x :: l)); auto.
      cbn [app]. repeat split; auto; try lia. right. split; auto. exists x, l. repeat split; auto. unfold ULLONG_MAX in *. lia.
Qed.

(** Skipping a leading character. *)
Lemma trim_char : forall cf m s l c, is_byte c -> has_view m s l -> exists z b, l = z ++ b /\ Forall (fun x => x = c) z /\
  headb (Z.eqb c) b = false /\ strview_trim_start cf m s (vlit [c]) = Ok (rest_of s z b).
Proof.
  intros cf m s l c Hc H.
  rewrite (trim_start_ok cf m s (vlit [c]) l (Some [c])); auto.
  2:{ unfold vlit. apply lit_view; [constructor; [auto|constructor]|vm_compute; discriminate]. }
  2:{ discriminate. }
  destruct (drop_in_spec [c] l) as (z & E & Hz & Hb). cbn [contents] in *.
  exists z, (drop_in [c] l). split; auto. split.
  - eapply Forall_impl; [|exact Hz]. cbn. intros x [Hx|[]]; auto.
  - split.
    + destruct (drop_in [c] l) as [|y t]; auto. cbn [headb]. apply Z.eqb_neq. intro; subst. apply (Hb y t); cbn; auto.
    + f_equal. unfold rest_of. f_equal. rewrite E at 1. rewrite Zlen_app. lia.
Qed.

Lemma zeros_val : forall base z acc, 0 < base -> Forall (fun x => x = 48) z -> acc = 0 -> acc_val base acc z = 0.
Proof.
  intros base z; induction z; intros acc Hb Hf ->; [reflexivity|]. inversion Hf; subst.
  cbn [acc_val fold_left]. apply IHz; auto.
Qed.

Lemma zeros_dig : forall base z, 2 <= base -> Forall (fun x => x = 48) z -> Forall (fun x => isdig base x = true) z.
Proof.
  intros base z Hb Hf. eapply Forall_impl; [|exact Hf]. intros x ->. unfold isdig. cbn [andb orb].
  change (dval 48) with 0. zb. reflexivity.
Qed.

Lemma ulong_lim : forall cf, 0 < ULONG_MAX cf / 10 - 9 /\ (ULONG_MAX cf / 10 - 9) * 10 + 10 <= ulong_mod cf
  /\ two32 <= ulong_mod cf <= two64.
Proof.
  intro cf. unfold ULONG_MAX, ulong_mod. destruct (c_long64 cf).
  - vm_compute; repeat split; discriminate.
  - vm_compute; repeat split; discriminate.
Qed.

Lemma consume_decimal_ok : forall cf m s l, has_view m s l -> ctype_safe cf l -> headb (isdig 10) l = true ->
  chunk 10 s l (consume_decimal_digits cf m s).
Proof.
  intros cf m s l Hv Hc Hd. unfold consume_decimal_digits. rewrite (at_digit_ok cf m s l); auto. rewrite Hd. cbn [bind].
  destruct (trim_char cf m s l 48) as (z & l0 & -> & Hz & _ & ->); auto. { unfold is_byte; lia. } cbn [bind].
  pose proof (rest_view _ _ _ _ Hv) as Hv0. pose proof (ctype_safe_app _ _ _ Hc) as Hc0.
  set (s0 := rest_of s z l0) in *.
  rewrite (has_view_size _ _ _ Hv0), Zlen_to_nat. set (fuel := S (length l0)).
  assert (0 < UINT_MAX / 10 - 9 /\ (UINT_MAX / 10 - 9) * 10 + 10 <= two32) as [W1 W2] by (vm_compute; split; congruence).
  destruct (dec_loop_ok cf m two32 (UINT_MAX / 10 - 9) W1 W2) with (l := l0) (s := s0) (fuel := fuel) (acc := 0)
    as [(a1 & b1 & v1 & E1 & -> & F1 & V1 & S1) R1]; auto.
  { unfold two32; lia. }
  specialize (R1 _ _ E1). rewrite E1. cbn [bind].
  pose proof (rest_view _ _ _ _ Hv0) as Hv1. pose proof (ctype_safe_app _ _ _ Hc0) as Hc1.
  pose proof (ulong_lim cf) as (U1 & U2 & U3).
  destruct (dec_loop_ok cf m (ulong_mod cf) (ULONG_MAX cf / 10 - 9) U1 U2) with (l := b1) (s := rest_of s0 a1 b1) (fuel := fuel) (acc := v1)
    as [(a2 & b2 & v2 & E2 & -> & F2 & V2 & S2) R2]; auto; try lia.
  { unfold fuel. rewrite app_length. lia. }
  specialize (R2 _ _ E2). rewrite E2. cbn [bind].
  pose proof (rest_view _ _ _ _ Hv1) as Hv2. pose proof (ctype_safe_app _ _ _ Hc1) as Hc2.
  destruct (dec_loop3_ok cf m b2 (rest_of (rest_of s0 a1 (a2 ++ b2)) a2 b2) fuel v2)
    as (a3 & b3 & e & v3 & E3 & -> & F3 & V3 & B3 & S3); auto.
  { unfold fuel. rewrite !app_length. lia. }
  { change two64 with (ULLONG_MAX + 1) in U3. lia. }
  exists (z ++ a1 ++ a2 ++ a3), b3, e, v3. rewrite E3. split.
  { f_equal. f_equal. unfold s0, rest_of. rewrite !subview_subview. f_equal; rewrite !Zlen_app; lia. }
  split; [now rewrite <- !app_assoc|]. split.
  { repeat (apply Forall_app; split); auto. apply zeros_dig; auto; lia. }
  split.
  { rewrite num_acc, !acc_app, (zeros_val 10 z 0); auto; try lia. congruence. }
  auto.
Qed.

(** ** Hexadecimal and binary *)

Lemma land_high : forall k i, 0 <= k <= 64 -> 0 <= i < two64 ->
  (Z.land i (Z.shiftl (2 ^ k - 1) (64 - k)) =? 0) = (i <? 2 ^ (64 - k)).
Proof.
  intros k i Hk Hi.
  assert (Z.land i (Z.shiftl (2 ^ k - 1) (64 - k)) = Z.shiftl (i / 2 ^ (64 - k)) (64 - k)) as ->.
  { apply Z.bits_inj'. intros n Hn. rewrite Z.land_spec, !Z.shiftl_spec by lia.
    destruct (Z_lt_ge_dec n (64 - k)) as [L|G].
    - rewrite (Z.testbit_neg_r (2 ^ k - 1)) by lia. rewrite (Z.testbit_neg_r (i / _)) by lia. apply andb_false_r.
    - rewrite Z.div_pow2_bits by lia. replace (n - (64 - k) + (64 - k)) with n by lia.
      replace (2 ^ k - 1) with (Z.ones k) by (rewrite Z.ones_equiv; lia).
      destruct (Z_lt_ge_dec n 64) as [L2|G2].
      + rewrite Z.ones_spec_low by lia. apply andb_true_r.
      + rewrite Z.ones_spec_high by lia. rewrite andb_false_r. symmetry.
        destruct (Z.eq_dec i 0) as [->|N]; [apply Z.bits_0|].
        apply Z.bits_above_log2; [lia|]. assert (Z.log2 i < 64); [|lia]. apply Z.log2_lt_pow2; [lia|]. apply Hi. }
  rewrite Z.shiftl_mul_pow2 by lia.
  assert (0 < 2 ^ (64 - k)) by (apply Z.pow_pos_nonneg; lia).
  destruct (i <? 2 ^ (64 - k)) eqn:E.
  - apply Z.ltb_lt in E. rewrite Z.div_small by lia. reflexivity.
  - apply Z.ltb_ge in E. apply Z.eqb_neq. assert (1 <= i / 2 ^ (64 - k)); [|nia].
    apply Z.div_le_lower_bound; lia.
Qed.

Lemma nibble_ok : forall i, 0 <= i < two64 -> upper_nibble_ull_is_zero i = (i <? 2 ^ 60).
Proof. intros i Hi. exact (land_high 4 i ltac:(lia) Hi). Qed.
Lemma bit_ok : forall i, 0 <= i < two64 -> upper_bit_ull_is_zero i = (i <? 2 ^ 63).
Proof. intros i Hi. exact (land_high 1 i ltac:(lia) Hi). Qed.

Lemma lor_bit : forall r d, 0 <= r -> 0 <= d < 2 -> Z.lor (Z.shiftl r 1) d = 2 * r + d.
Proof.
  intros r d Hr Hd. change (Z.shiftl r 1) with (2 * r).
  assert (d = 0 \/ d = 1) as [-> | ->] by lia; [rewrite Z.lor_0_r; lia|].
  destruct r as [|p|p]; [reflexivity|reflexivity|lia].
Qed.

Lemma hex_loop_ok : forall cf m l s fuel acc, has_view m s l -> ctype_safe cf l -> (length l < fuel)%nat ->
  0 <= acc <= ULLONG_MAX ->
  exists a b e v, hex_loop cf fuel m s acc = Ok (e, v, rest_of s a b) /\ l = a ++ b
    /\ Forall (fun x => isdig 16 x = true) a
    /\ v = acc_val 16 acc a /\ 0 <= v <= ULLONG_MAX
    /\ ((e = NoErr /\ headb (isdig 16) b = false) \/
        (e = ERANGE /\ exists d b', b = d :: b' /\ isdig 16 d = true /\ ULLONG_MAX < v * 16 + dval d)).
Proof.
  intros cf m. induction l as [|x l IH]; intros s fuel acc Hv Hc Hf Ha;
    (destruct fuel as [|fuel]; [cbn in Hf; lia|]); cbn [hex_loop].
  - rewrite (at_xdigit_ok cf m s []); auto. cbn [bind headb].
    exists [], [], NoErr, acc. rewrite (rest_nil m s []); auto. cbn. repeat split; auto; lia.
  - rewrite (at_xdigit_ok cf m s (x :: l)); auto. cbn [bind headb].
    destruct (isdig 16 x) eqn:Ed.
    2:{ exists [], (x :: l), NoErr, acc. rewrite (rest_nil m s (x :: l)); auto. cbn. repeat split; auto; lia. }
    pose proof (isdig_ascii _ _ Ed). pose proof (isdig_dval _ _ Ed).
    change ULLONG_MAX with (two64 - 1) in *.
    rewrite nibble_ok by lia.
    destruct (acc <? 2 ^ 60) eqn:E; cbn [negb].
    + apply Z.ltb_lt in E. change (2 ^ 60) with 1152921504606846976 in E. unfold two64 in *.
      rewrite (pop_num cf m s x l); auto. cbn [bind]. rewrite char_low by lia. rewrite hex_low by auto.
      rewrite Z.shiftl_mul_pow2 by lia. change (2 ^ 4) with 16.
      rewrite (Z.mod_small (acc * 16)) by lia. rewrite Z.mod_small by lia.
      destruct (IH (rest_of s [x] l) fuel (acc * 16 + dval x)) as (a & b & e & v & H1 & H2 & H3 & H4 & H5 & H6).
      * apply (rest_view m s [x] l); auto.
      * apply (ctype_safe_app cf [x]); auto.
      * cbn in Hf; lia.
      * lia.
      * exists (x :: a), b, e, v. rewrite H1. subst l. rewrite rest_rest. repeat split; auto; lia.
    + apply Z.ltb_ge in E. change (2 ^ 60) with 1152921504606846976 in E. unfold two64 in *.
      exists [], (x :: l), ERANGE, acc. rewrite (rest_nil m s (x :: l)); auto.
      cbn [app]. repeat split; auto; try lia. right. split; auto. exists x, l. repeat split; auto. lia.
Qed.

Lemma bin_loop_ok : forall cf m l s fuel acc, has_view m s l -> no_b0 l -> (length l < fuel)%nat ->
  0 <= acc <= ULLONG_MAX ->
  exists a b e v, bin_loop cf fuel m s acc = Ok (e, v, rest_of s a b) /\ l = a ++ b
    /\ Forall (fun x => isdig 2 x = true) a
    /\ v = acc_val 2 acc a /\ 0 <= v <= ULLONG_MAX
    /\ ((e = NoErr /\ headb (isdig 2) b = false) \/
        (e = ERANGE /\ exists d b', b = d :: b' /\ isdig 2 d = true /\ ULLONG_MAX < v * 2 + dval d)).
Proof.
  intros cf m. induction l as [|x l IH]; intros s fuel acc Hv Hc Hf Ha;
    (destruct fuel as [|fuel]; [cbn in Hf; lia|]); cbn [bin_loop].
  - rewrite (at_bdigit_ok cf m s []); auto. cbn [bind headb].
    exists [], [], NoErr, acc. rewrite (rest_nil m s []); auto. cbn. repeat split; auto; lia.
  - rewrite (at_bdigit_ok cf m s (x :: l)); auto. cbn [bind headb].
    destruct (isdig 2 x) eqn:Ed.
    2:{ exists [], (x :: l), NoErr, acc. rewrite (rest_nil m s (x :: l)); auto. cbn. repeat split; auto; lia. }
    pose proof (isdig_ascii _ _ Ed). pose proof (isdig_dval _ _ Ed).
    change ULLONG_MAX with (two64 - 1) in *.
    rewrite bit_ok by lia.
    destruct (acc <? 2 ^ 63) eqn:E; cbn [negb].
    + apply Z.ltb_lt in E. change (2 ^ 63) with 9223372036854775808 in E.
      rewrite (pop_num cf m s x l); auto. cbn [bind]. rewrite char_low by lia. rewrite bin_low by auto.
      rewrite Z.mod_small by (rewrite Z.shiftl_mul_pow2 by lia; unfold two64 in *; lia).
      rewrite lor_bit by lia. unfold two64 in *.
      destruct (IH (rest_of s [x] l) fuel (2 * acc + dval x)) as (a & b & e & v & H1 & H2 & H3 & H4 & H5 & H6).
      * apply (rest_view m s [x] l); auto.
      * apply (no_b0_app [x]); auto.
      * cbn in Hf; lia.
      * lia.
      * exists (x :: a), b, e, v. rewrite H1. subst l. rewrite rest_rest. repeat split; auto; try lia.
        rewrite H4. unfold acc_val. cbn [fold_left]. f_equal. lia.
    + apply Z.ltb_ge in E. change (2 ^ 63) with 9223372036854775808 in E. unfold two64 in *.
      exists [], (x :: l), ERANGE, acc. rewrite (rest_nil m s (x :: l)); auto.
      cbn [app]. repeat split; auto; try lia. right. split; auto. exists x, l. repeat split; auto. lia.
Qed.

Lemma consume_hex_ok : forall cf m s l, has_view m s l -> ctype_safe cf l -> headb (isdig 16) l = true ->
  chunk 16 s l (consume_hex_digits cf m s).
Proof.
  intros cf m s l Hv Hc Hd. unfold consume_hex_digits. rewrite (at_xdigit_ok cf m s l); auto. rewrite Hd. cbn [bind].
  destruct (trim_char cf m s l 48) as (z & l0 & -> & Hz & _ & ->); auto. { unfold is_byte; lia. } cbn [bind].
  pose proof (rest_view _ _ _ _ Hv) as Hv0. pose proof (ctype_safe_app _ _ _ Hc) as Hc0.
  rewrite (has_view_size _ _ _ Hv0), Zlen_to_nat.
  destruct (hex_loop_ok cf m l0 (rest_of s z l0) (S (length l0)) 0) as (a & b & e & v & E & -> & F & V & B & S); auto.
  { unfold ULLONG_MAX; lia. }
  exists (z ++ a), b, e, v. rewrite E, rest_rest. split; auto. split; [now rewrite <- app_assoc|]. split.
  { apply Forall_app; split; auto. apply zeros_dig; auto; lia. }
  split; auto. rewrite num_acc, acc_app, (zeros_val 16 z 0); auto; lia.
Qed.

Lemma consume_bin_ok : forall cf m s l, has_view m s l -> no_b0 l -> headb (isdig 2) l = true ->
  chunk 2 s l (consume_bin_digits cf m s).
Proof.
  intros cf m s l Hv Hc Hd. unfold consume_bin_digits. rewrite (at_bdigit_ok cf m s l); auto. rewrite Hd. cbn [bind].
  destruct (trim_char cf m s l 48) as (z & l0 & -> & Hz & _ & ->); auto. { unfold is_byte; lia. } cbn [bind].
  pose proof (rest_view _ _ _ _ Hv) as Hv0. pose proof (no_b0_app _ _ Hc) as Hc0.
  rewrite (has_view_size _ _ _ Hv0), Zlen_to_nat.
  destruct (bin_loop_ok cf m l0 (rest_of s z l0) (S (length l0)) 0) as (a & b & e & v & E & -> & F & V & B & S); auto.
  { unfold ULLONG_MAX; lia. }
  exists (z ++ a), b, e, v. rewrite E, rest_rest. split; auto. split; [now rewrite <- app_assoc|]. split.
  { apply Forall_app; split; auto. apply zeros_dig; auto; lia. }
  split; auto. rewrite num_acc, acc_app, (zeros_val 2 z 0); auto; lia.
Qed.

Definition base_ok (base : Z) : Prop := base = 2 \/ base = 10 \/ base = 16.

Lemma consume_digits_ok : forall cf m s l base, has_view m s l -> ctype_safe cf l -> (base = 2 -> no_b0 l) -> base_ok base ->
  (headb (isdig base) l = true -> chunk base s l (consume_digits cf m s base)) /\
  (headb (isdig base) l = false -> consume_digits cf m s base = Ok (EINVAL, 0, s)).
Proof.
  intros cf m s l base Hv Hc Hb [-> | [-> | ->]]; unfold consume_digits; cbn [Z.eqb Pos.eqb]; split; intro Hd.
  - apply consume_bin_ok; auto.
  - unfold consume_bin_digits. rewrite (at_bdigit_ok cf m s l); auto. now rewrite Hd.
  - apply consume_decimal_ok; auto.
  - unfold consume_decimal_digits. rewrite (at_digit_ok cf m s l); auto. now rewrite Hd.
  - apply consume_hex_ok; auto.
  - unfold consume_hex_digits. rewrite (at_xdigit_ok cf m s l); auto. now rewrite Hd.
Qed.
