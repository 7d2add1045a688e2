(** The integer parsers on a platform that follows the C standard to the letter about the arguments of
    isdigit() and isxdigit(): proofs. *)
From Verif Require Import Base Mem Libc StrviewModel StrnumModel Spec NumSpec NumSpec2 MemLemmas
  StrviewProofs StrviewProofs2 StrviewProofs3 StrnumProofs StrnumProofs2 StrnumProofs3 NumB0Proofs.

(** The same platform with a lenient isdigit(). *)
Definition lenient (cf : cfg) : cfg :=
  Cfg (c_char_signed cf) (c_wrapv cf) (c_mem0 cf) true (c_ptr cf) (c_long64 cf) (c_big_endian cf) (c_step cf) (c_ptrbytes cf).

Lemma trim_start_lenient : forall cf m s d, strview_trim_start cf m s d = strview_trim_start (lenient cf) m s d.
Proof. intros [] ? ? ?; reflexivity. Qed.
Lemma pop_lenient : forall cf m s, pop cf m s = pop (lenient cf) m s.
Proof. intros [] ? ?; reflexivity. Qed.
Lemma sign_lenient : forall cf m s, consume_sign cf m s = consume_sign (lenient cf) m s.
Proof. intros [] ? ?; reflexivity. Qed.
Lemma prefix_lenient : forall cf m b s o, consume_base_prefix cf m b s o = consume_base_prefix (lenient cf) m b s o.
Proof. intros [] ? ? ? ?; reflexivity. Qed.
Lemma bin_lenient : forall cf m s, consume_bin_digits cf m s = consume_bin_digits (lenient cf) m s.
Proof. intros [] ? ?; reflexivity. Qed.

Lemma at_digit_two : forall cf m s, at_digit cf m s = at_digit (lenient cf) m s
  \/ (at_digit cf m s = UB UB_ctype /\ at_digit (lenient cf) m s = Ok false).
Proof.
  intros cf m s. unfold at_digit. destruct (v_size s =? 0); auto. destruct (load_byte m (v_data s)) as [x| |]; cbn [bind]; auto.
  change (char_int (lenient cf) x) with (char_int cf x). unfold isdigit, ctype_ok. cbn [lenient c_ctype]. rewrite orb_true_r.
  destruct (c_ctype cf); [rewrite orb_true_r; auto|]. rewrite orb_false_r. destruct ((-1 <=? char_int cf x) && (char_int cf x <=? 255)) eqn:E; auto.
  right. split; auto. f_equal. unfold isdigit_c. lia.
Qed.
Lemma at_xdigit_two : forall cf m s, at_xdigit cf m s = at_xdigit (lenient cf) m s
  \/ (at_xdigit cf m s = UB UB_ctype /\ at_xdigit (lenient cf) m s = Ok false).
Proof.
  intros cf m s. unfold at_xdigit. destruct (v_size s =? 0); auto. destruct (load_byte m (v_data s)) as [x| |]; cbn [bind]; auto.
  change (char_int (lenient cf) x) with (char_int cf x). unfold isxdigit, ctype_ok. cbn [lenient c_ctype]. rewrite orb_true_r.
  destruct (c_ctype cf); [rewrite orb_true_r; auto|]. rewrite orb_false_r. destruct ((-1 <=? char_int cf x) && (char_int cf x <=? 255)) eqn:E; auto.
  right. split; auto. f_equal. unfold isxdigit_c, isdigit_c. lia.
Qed.

(** [r] is [r1] unless the digit test [g] at the position [r1] stops at is undefined. *)
Definition guarded {R : Type} (g g1 : view -> outcome bool) (r r1 : outcome (R * view)) : Prop :=
  r = r1 /\ (forall x s, r1 = Ok (x, s) -> g s = g1 s) \/
  exists x s, r1 = Ok (x, s) /\ g1 s = Ok false /\ g s = UB UB_ctype /\ r = UB UB_ctype.

Lemma dec_loop_two : forall cf m md limit n s res,
  guarded (at_digit cf m) (at_digit (lenient cf) m) (dec_loop cf n m md limit s res) (dec_loop (lenient cf) n m md limit s res).
Proof.
  intros cf m md limit. induction n as [|n IH]; intros s res; cbn [dec_loop]. { left. split; auto. discriminate. }
  destruct (at_digit_two cf m s) as [E|[E1 E2]].
  - rewrite E, pop_lenient. destruct (at_digit (lenient cf) m s) as [d| |] eqn:Ed; cbn [bind]; [|left; split; auto; discriminate ..].
    destruct (d && (res <? limit)) eqn:B.
    + destruct (pop (lenient cf) m s) as [[c s']| |]; cbn [bind]; [apply IH|left; split; auto; discriminate ..].
    + left. split; auto. intros x s0 X. injection X as <- <-. congruence.
  - rewrite E1, E2. cbn [bind andb]. right. exists res, s. auto.
Qed.
Lemma dec_loop3_two : forall cf m n s res,
  guarded (at_digit cf m) (at_digit (lenient cf) m) (dec_loop3 cf n m s res) (dec_loop3 (lenient cf) n m s res).
Proof.
  intros cf m. induction n as [|n IH]; intros s res; cbn [dec_loop3]. { left. split; auto. discriminate. }
  destruct (at_digit_two cf m s) as [E|[E1 E2]].
  - rewrite E, pop_lenient. destruct (at_digit (lenient cf) m s) as [d| |] eqn:Ed; cbn [bind]; [|left; split; auto; discriminate ..].
    destruct d. 2:{ left. split; auto. intros x s0 X. injection X as <- <-. congruence. }
    destruct (ULLONG_MAX / 10 <? res). { left. split; auto. intros x s0 X. injection X as <- <-. congruence. }
    destruct (load_byte m (v_data s)) as [x| |]; cbn [bind]; [|left; split; auto; discriminate ..].
    change (char_int (lenient cf) x) with (char_int cf x).
    destruct (_ <? _). { left. split; auto. intros y s0 X. injection X as <- <-. congruence. }
    destruct (pop (lenient cf) m s) as [[c s']| |]; cbn [bind]; [apply IH|left; split; auto; discriminate ..].
  - rewrite E1, E2. cbn [bind]. right. exists (NoErr, res), s. auto.
Qed.
Lemma hex_loop_two : forall cf m n s res,
  guarded (at_xdigit cf m) (at_xdigit (lenient cf) m) (hex_loop cf n m s res) (hex_loop (lenient cf) n m s res).
Proof.
  intros cf m. induction n as [|n IH]; intros s res; cbn [hex_loop]. { left. split; auto. discriminate. }
  destruct (at_xdigit_two cf m s) as [E|[E1 E2]].
  - rewrite E, pop_lenient. destruct (at_xdigit (lenient cf) m s) as [d| |] eqn:Ed; cbn [bind]; [|left; split; auto; discriminate ..].
    destruct d. 2:{ left. split; auto. intros x s0 X. injection X as <- <-. congruence. }
    destruct (negb _). { left. split; auto. intros x s0 X. injection X as <- <-. congruence. }
    destruct (pop (lenient cf) m s) as [[c s']| |]; cbn [bind]; [apply IH|left; split; auto; discriminate ..].
  - rewrite E1, E2. cbn [bind]. right. exists (NoErr, res), s. auto.
Qed.

Lemma dec_loop_stop : forall cf m md limit n s res, at_digit cf m s = Ok false -> dec_loop cf (S n) m md limit s res = Ok (res, s).
Proof. intros. cbn [dec_loop]. now rewrite H. Qed.
Lemma dec_loop3_stop : forall cf m n s res, at_digit cf m s = Ok false -> dec_loop3 cf (S n) m s res = Ok (NoErr, res, s).
Proof. intros. cbn [dec_loop3]. now rewrite H. Qed.

Lemma decimal_two : forall cf m s,
  guarded (at_digit cf m) (at_digit (lenient cf) m) (consume_decimal_digits cf m s) (consume_decimal_digits (lenient cf) m s).
Proof.
  intros cf m s. unfold consume_decimal_digits. rewrite trim_start_lenient.
  destruct (at_digit_two cf m s) as [E|[E1 E2]].
  2:{ rewrite E1, E2. cbn [bind]. right. exists (EINVAL, 0), s. auto. }
  rewrite E. destruct (at_digit (lenient cf) m s) as [[|]| |] eqn:Ed; cbn [bind]; [| |left; split; auto; discriminate ..].
  2:{ left. split; auto. intros x s0 X. injection X as <- <-. congruence. }
  destruct (strview_trim_start (lenient cf) m s (vlit [48])) as [s0| |]; cbn [bind]; [|left; split; auto; discriminate ..].
  change (ulong_mod (lenient cf)) with (ulong_mod cf). change (ULONG_MAX (lenient cf)) with (ULONG_MAX cf).
  set (n := S (Z.to_nat (v_size s0))) in *.
  destruct (dec_loop_two cf m two32 (UINT_MAX / 10 - 9) n s0 0) as [[A1 _]|(x & s1 & A1 & A2 & A3 & A4)].
  - rewrite A1. destruct (dec_loop (lenient cf) n m two32 (UINT_MAX / 10 - 9) s0 0) as [[r1 s1]| |]; cbn [bind]; [|left; split; auto; discriminate ..].
    destruct (dec_loop_two cf m (ulong_mod cf) (ULONG_MAX cf / 10 - 9) n s1 r1) as [[B1 _]|(x & s2 & B1 & B2 & B3 & B4)].
    + rewrite B1. destruct (dec_loop (lenient cf) n m (ulong_mod cf) (ULONG_MAX cf / 10 - 9) s1 r1) as [[r2 s2]| |]; cbn [bind]; [|left; split; auto; discriminate ..].
      apply dec_loop3_two.
    + rewrite B1, B4. cbn [bind]. unfold n. rewrite dec_loop3_stop by auto. right. exists (NoErr, x), s2. auto.
  - rewrite A1, A4. cbn [bind]. unfold n. rewrite dec_loop_stop by auto. cbn [bind]. rewrite dec_loop3_stop by auto.
    right. exists (NoErr, x), s1. auto.
Qed.
Lemma hex_two : forall cf m s,
  guarded (at_xdigit cf m) (at_xdigit (lenient cf) m) (consume_hex_digits cf m s) (consume_hex_digits (lenient cf) m s).
Proof.
  intros cf m s. unfold consume_hex_digits. rewrite trim_start_lenient.
  destruct (at_xdigit_two cf m s) as [E|[E1 E2]].
  2:{ rewrite E1, E2. cbn [bind]. right. exists (EINVAL, 0), s. auto. }
  rewrite E. destruct (at_xdigit (lenient cf) m s) as [[|]| |] eqn:Ed; cbn [bind]; [| |left; split; auto; discriminate ..].
  2:{ left. split; auto. intros x s0 X. injection X as <- <-. congruence. }
  destruct (strview_trim_start (lenient cf) m s (vlit [48])) as [s0| |]; cbn [bind]; [|left; split; auto; discriminate ..].
  apply hex_loop_two.
Qed.

(** ** On texts *)
(** The digit test is made on a byte it is not defined for. *)
Definition stops_at (base : Z) (ds rest : list Z) : Prop :=
  base <> 2 /\ num_val base ds <= ULLONG_MAX /\ exists h r, rest = h :: r /\ 128 <= h <= 254.

Definition at_base (cf : cfg) (base : Z) (m : mem) (s : view) : outcome bool :=
  if base =? 10 then at_digit cf m s else at_xdigit cf m s.
Lemma digits_two : forall cf m s base, base = 10 \/ base = 16 ->
  guarded (at_base cf base m) (at_base (lenient cf) base m) (consume_digits cf m s base) (consume_digits (lenient cf) m s base).
Proof. intros cf m s base [-> | ->]; [apply decimal_two|apply hex_two]. Qed.

Lemma at_base_bad : forall cf base m s h r, c_char_signed cf = true -> c_ctype cf = false -> has_view m s (h :: r) ->
  (at_base cf base m s = UB UB_ctype <-> 128 <= h <= 254).
Proof.
  intros cf base m s h r Cs Ct Hv. pose proof Hv as (Hb & Hs & _ & Hf). inversion Hf; subst. apply bytes_at_cons in Hb as [Hl _].
  rewrite Zlen_cons in Hs. pose proof (Zlen_nonneg r).
  assert (ctype_ok cf (char_int cf h) = negb ((128 <=? h) && (h <=? 254))) as E.
  { unfold ctype_ok, char_int, is_byte in *. rewrite Cs, Ct, orb_false_r. cbn [andb]. destruct (128 <=? h) eqn:X; lia. }
  unfold at_base, at_digit, at_xdigit, isdigit, isxdigit. rewrite Hs, (proj2 (Z.eqb_neq _ 0)) by lia. rewrite Hl. cbn [bind]. rewrite E.
  destruct (base =? 10); destruct ((128 <=? h) && (h <=? 254)) eqn:B; cbn [negb]; split; intro X; try lia; try discriminate; auto.
Qed.
Lemma at_base_empty : forall cf base m s, v_size s = 0 -> at_base cf base m s = Ok false.
Proof. intros cf base m s H. unfold at_base, at_digit, at_xdigit. rewrite H. destruct (base =? 10); reflexivity. Qed.

Lemma digits_strict : forall cf m s l base, c_char_signed cf = true -> c_ctype cf = false -> base_ok base ->
  (has_view m s l \/ (l = [] /\ s = INVALID)) ->
  let ds := fst (span (is_read_digit base) l) in let rest := snd (span (is_read_digit base) l) in
  (stops_at base (map (read_digit base) ds) rest -> consume_digits cf m s base = UB UB_ctype) /\
  (~ stops_at base (map (read_digit base) ds) rest -> consume_digits cf m s base = consume_digits (lenient cf) m s base).
Proof.
  intros cf m s l base Cs Ct Hb Hv ds rest.
  destruct (Z.eq_dec base 2) as [-> |N]. { split; [intros [X _]; congruence|]. intros _. cbn [consume_digits Z.eqb Pos.eqb]. apply bin_lenient. }
  assert (base = 10 \/ base = 16) as Hb' by (destruct Hb as [-> | [-> | ->]]; auto; congruence).
  assert (ctype_safe (lenient cf) l) as Hc by (left; reflexivity).
  pose proof (span_app (is_read_digit base) l) as Al. fold ds rest in Al.
  destruct Hv as [Hv|[El ->]].
  2:{ subst l. split. { intros (_ & _ & h & r & X & _). cbn in X. discriminate. } intros _. destruct Hb' as [-> | ->]; reflexivity. }
  assert (exists e v a b, l = a ++ b /\ consume_digits (lenient cf) m s base = Ok (e, v, rest_of s a b) /\
    (stops_at base (map (read_digit base) ds) rest <-> exists h r, b = h :: r /\ 128 <= h <= 254)) as (e & v & a & b & El & E1 & St).
  { destruct (consume_digits_exact (lenient cf) m s l base Hv Hc Hb) as [H1 H2].
    destruct (headb (is_read_digit base) l) eqn:Eh.
    - destruct (H1 eq_refl) as (a & b & e & v & E & El & Fa & Ev & Bv & S). exists e, v, a, b. split; auto. split; auto.
      unfold ds, rest. rewrite El. rewrite (span_prefix (is_read_digit base) a b Fa).
      destruct S as [[-> Hh]|(-> & d & b' & Eb & Hd & Ho)].
      + rewrite (span_nil _ b Hh). cbn [fst snd]. rewrite app_nil_r. unfold stops_at. rewrite <- Ev. intuition.
      + split.
        * intros (_ & Hle & _). exfalso. subst b. revert Hle. cbn [fst]. 
          pose proof (span_all (is_read_digit base) (d :: b')) as Fs. pose proof (base_pos _ Hb) as Hbp.
          set (x := fst (span (is_read_digit base) (d :: b'))) in *.
          assert (exists x', x = d :: x') as [x' Ex].
          { unfold x. cbn [span]. rewrite Hd. destruct (span (is_read_digit base) b'); cbn. eauto. }
          intro Hle. rewrite map_app, num_acc, acc_app, <- num_acc, <- Ev, Ex in Hle.
          rewrite Ex in Fs. apply Forall_inv_tail in Fs. cbn [map acc_val fold_left] in Hle.
          pose proof (isdig_dval _ _ Hd).
          pose proof (acc_nonneg base (map (read_digit base) x') (v * base + dval (read_digit base d))) as G. unfold acc_val in G.
          specialize (G ltac:(lia) ltac:(nia) (map_digits _ _ Fs)). lia.
        * intros (h & r & Eb' & Hh). exfalso. rewrite Eb in Eb'. injection Eb' as -> _.
          rewrite is_read_digit_same in Hd by auto. unfold isdig in Hd. destruct Hb' as [-> | ->]; cbn [Z.eqb Pos.eqb] in Hd; lia.
    - exists EINVAL, 0, [], l. split; auto. rewrite (H2 eq_refl). split. { now rewrite (rest_nil m s l). }
      unfold ds, rest. rewrite (span_nil _ l Eh). cbn [fst snd map]. unfold stops_at. change (num_val base []) with 0.
      unfold ULLONG_MAX. intuition. }
  assert (has_view m (rest_of s a b) b) as Hvb by (apply rest_view; now rewrite <- El).
  destruct (digits_two cf m s base Hb') as [[G1 G2]|([e' v'] & s' & G1 & G2 & G3 & G4)].
  - split; [|intros _; exact G1]. intro X. apply St in X as (h & r & -> & Hh). exfalso.
    specialize (G2 _ _ E1). rewrite (proj2 (at_base_bad cf base m _ h r Cs Ct Hvb) Hh) in G2.
    pose proof Hvb as (Hbb & _). apply bytes_at_cons in Hbb as [Hl _].
    unfold at_base, at_digit, at_xdigit, isdigit, isxdigit, ctype_ok in G2. rewrite Hl in G2. cbn [bind lenient c_ctype] in G2.
    rewrite !orb_true_r in G2. destruct (base =? 10), (v_size _ =? 0); discriminate.
  - rewrite E1 in G1. injection G1 as <- <- <-. split; [auto|]. intro X. exfalso. apply X, St.
    destruct b as [|h r]. { rewrite at_base_empty in G3; [discriminate|]. now rewrite (has_view_size _ _ _ Hvb). }
    exists h, r. split; auto. now apply (at_base_bad cf base m _ h r Cs Ct Hvb).
Qed.

Definition int_stops (t : int_text) : Prop := stops_at (it_base t) (it_digits t) (it_rest t).

Lemma unsigned_strict : forall cf m dst s l opt hi, c_char_signed cf = true -> c_ctype cf = false -> mem_wf m -> has_view m s l ->
  (int_stops (read_int_exact false opt l) -> consume_unsigned cf m dst (Some s) opt hi = UB UB_ctype) /\
  (~ int_stops (read_int_exact false opt l) -> consume_unsigned cf m dst (Some s) opt hi = consume_unsigned (lenient cf) m dst (Some s) opt hi).
Proof.
  intros cf m dst s l opt hi Cs Ct Hw Hv. unfold consume_unsigned. rewrite (has_view_valid _ _ _ Hv). cbn [negb].
  unfold read_int_exact. cbn [andb]. rewrite trim_start_lenient.
  set (l1 := if flag opt STRNUM_NOSPACE then l else snd (span (Z.eqb 32) l)) in *.
  assert (exists a1, l = a1 ++ l1 /\ (if negb (flag opt STRNUM_NOSPACE)
      then strview_trim_start (lenient cf) m s (vlit [32]) else Ok s) = Ok (rest_of s a1 l1)) as (a1 & El & Et).
  { unfold l1. destruct (flag opt STRNUM_NOSPACE); cbn [negb].
    - exists []. split; auto. now rewrite (rest_nil m s l).
    - destruct (trim_space (lenient cf) m s l Hv) as (z & E1 & E2). exists z. auto. }
  rewrite Et. cbn [bind]. clearbody l1. subst l. pose proof (rest_view _ _ _ _ Hv) as Hv1. rewrite prefix_lenient.
  destruct (prefix_ok (lenient cf) m (rest_of s a1 l1) l1 opt Hw Hv1) as (a2 & s3 & El1 & Ep & Hs3).
  rewrite Ep. cbn [bind]. pose proof (prefix_base opt l1) as Hbo.
  destruct (read_prefix opt l1) as [base l3]. cbn [fst snd] in *. subst l1.
  assert (has_view m s3 l3 \/ (l3 = [] /\ s3 = INVALID)) as Hv3.
  { destruct Hs3 as [-> | H]; auto. left. now apply (rest_view m _ a2 l3). }
  destruct (digits_strict cf m s3 l3 base Cs Ct Hbo Hv3) as [D1 D2].
  destruct (span (is_read_digit base) l3) as [ds rest]. cbn [fst snd] in *. unfold int_stops. cbn [it_base it_digits it_rest].
  split; intro X; [rewrite (D1 X)|rewrite (D2 X)]; reflexivity.
Qed.
Lemma signed_strict : forall cf m dst s l opt lo hi, c_char_signed cf = true -> c_ctype cf = false -> mem_wf m -> has_view m s l ->
  (int_stops (read_int_exact true opt l) -> consume_signed cf m dst (Some s) opt lo hi = UB UB_ctype) /\
  (~ int_stops (read_int_exact true opt l) -> consume_signed cf m dst (Some s) opt lo hi = consume_signed (lenient cf) m dst (Some s) opt lo hi).
Proof.
  intros cf m dst s l opt lo hi Cs Ct Hw Hv. unfold consume_signed. rewrite (has_view_valid _ _ _ Hv). cbn [negb].
  unfold read_int_exact. cbn [andb]. rewrite trim_start_lenient.
  set (l1 := if flag opt STRNUM_NOSPACE then l else snd (span (Z.eqb 32) l)) in *.
  assert (exists a1, l = a1 ++ l1 /\ (if negb (flag opt STRNUM_NOSPACE)
      then strview_trim_start (lenient cf) m s (vlit [32]) else Ok s) = Ok (rest_of s a1 l1)) as (a1 & El & Et).
  { unfold l1. destruct (flag opt STRNUM_NOSPACE); cbn [negb].
    - exists []. split; auto. now rewrite (rest_nil m s l).
    - destruct (trim_space (lenient cf) m s l Hv) as (z & E1 & E2). exists z. auto. }
  rewrite Et. cbn [bind]. clearbody l1. subst l. pose proof (rest_view _ _ _ _ Hv) as Hv1. rewrite sign_lenient.
  set (r := if negb (flag opt STRNUM_NOSIGN) then read_sign l1 else (false, l1)) in *.
  assert (exists a2, l1 = a2 ++ snd r /\
     (if negb (flag opt STRNUM_NOSIGN) then consume_sign (lenient cf) m (rest_of s a1 l1) else Ok (false, rest_of s a1 l1))
     = Ok (fst r, rest_of s (a1 ++ a2) (snd r))) as (a2 & El2 & Es).
  { unfold r. destruct (flag opt STRNUM_NOSIGN); cbn [negb fst snd].
    - exists []. split; auto. now rewrite app_nil_r.
    - destruct (sign_ok (lenient cf) m (rest_of s a1 l1) l1 Hv1) as (z & E1 & E2). exists z. split; auto. rewrite E2.
      rewrite E1 at 2. now rewrite rest_rest. }
  rewrite Es. cbn [bind]. clearbody r. destruct r as [neg l2]. cbn [fst snd] in *. subst l1.
  assert (has_view m (rest_of s (a1 ++ a2) l2) l2) as Hv2. { apply rest_view. now rewrite <- app_assoc. } rewrite prefix_lenient.
  destruct (prefix_ok (lenient cf) m (rest_of s (a1 ++ a2) l2) l2 opt Hw Hv2) as (a3 & s3 & El3 & Ep & Hs3).
  rewrite Ep. cbn [bind]. pose proof (prefix_base opt l2) as Hbo.
  destruct (read_prefix opt l2) as [base l3]. cbn [fst snd] in *. subst l2.
  assert (has_view m s3 l3 \/ (l3 = [] /\ s3 = INVALID)) as Hv3.
  { destruct Hs3 as [-> | H]; auto. left. now apply (rest_view m _ a3 l3). }
  destruct (digits_strict cf m s3 l3 base Cs Ct Hbo Hv3) as [D1 D2].
  destruct (span (is_read_digit base) l3) as [ds rest]. cbn [fst snd] in *. unfold int_stops. cbn [it_base it_digits it_rest].
  split; intro X; [rewrite (D1 X)|rewrite (D2 X)]; reflexivity.
Qed.

Lemma consumer_lenient : forall cf t f, consumer cf t = Some f -> exists f1, consumer (lenient cf) t = Some f1.
Proof. intros cf t f H. destruct t; cbn in *; eauto; discriminate. Qed.
Lemma ty_lo_lenient : forall cf t, ty_lo (lenient cf) t = ty_lo cf t. Proof. reflexivity. Qed.
Lemma ty_hi_lenient : forall cf t, ty_hi (lenient cf) t = ty_hi cf t. Proof. reflexivity. Qed.

(** A parser is undefined exactly when the digits are followed by such a byte, and as everywhere otherwise. *)
Lemma consumer_strict : forall cf m s l opt t f dst, c_char_signed cf = true -> c_ctype cf = false -> mem_wf m -> has_view m s l ->
  consumer cf t = Some f ->
  (int_stops (read_int_exact (ty_signed t) opt l) -> f m dst (Some s) opt = UB UB_ctype) /\
  (~ int_stops (read_int_exact (ty_signed t) opt l) ->
     result_of dst s l (parse_int_exact (ty_signed t) opt (ty_lo cf t) (ty_hi cf t) l) (f m dst (Some s) opt)).
Proof.
  intros cf m s l opt t f dst Cs Ct Hw Hv Hf. destruct (consumer_lenient _ _ _ Hf) as [f1 Hf1].
  pose proof (consumer_ok_x (lenient cf) m s l opt Hw Hv (or_introl eq_refl) t f1 dst Hf1) as K. rewrite ty_lo_lenient, ty_hi_lenient in K.
  enough ((int_stops (read_int_exact (ty_signed t) opt l) -> f m dst (Some s) opt = UB UB_ctype) /\
    (~ int_stops (read_int_exact (ty_signed t) opt l) -> f m dst (Some s) opt = f1 m dst (Some s) opt)) as [A B].
  { split; auto. intro X. now rewrite (B X). }
  destruct t; cbn in Hf, Hf1; try discriminate; injection Hf as <-; injection Hf1 as <-; cbn [ty_signed] in *;
  try (apply (unsigned_strict cf m dst s l opt _ Cs Ct Hw Hv)); try (apply (signed_strict cf m dst s l opt _ _ Cs Ct Hw Hv)).
  - destruct (unsigned_strict cf m true s l opt 255 Cs Ct Hw Hv) as [A B]. unfold strnum_consume_uchar.
    split; intro X; [rewrite (A X)|rewrite (B X)]; reflexivity.
  - destruct (unsigned_strict cf m true s l opt 65535 Cs Ct Hw Hv) as [A B]. unfold strnum_consume_ushort.
    split; intro X; [rewrite (A X)|rewrite (B X)]; reflexivity.
  - destruct (unsigned_strict cf m true s l opt UINT_MAX Cs Ct Hw Hv) as [A B]. unfold strnum_consume_uint.
    split; intro X; [rewrite (A X)|rewrite (B X)]; reflexivity.
  - destruct (unsigned_strict cf m true s l opt (ULONG_MAX cf) Cs Ct Hw Hv) as [A B]. unfold strnum_consume_ulong.
    split; intro X; [rewrite (A X)|rewrite (B X)]; reflexivity.
  - destruct (signed_strict cf m true s l opt (CHAR_MIN cf) (CHAR_MAX cf) Cs Ct Hw Hv) as [A B]. unfold strnum_consume_char.
    split; intro X; [rewrite (A X)|rewrite (B X)]; reflexivity.
  - destruct (signed_strict cf m true s l opt (-32768) 32767 Cs Ct Hw Hv) as [A B]. unfold strnum_consume_short.
    split; intro X; [rewrite (A X)|rewrite (B X)]; reflexivity.
  - destruct (signed_strict cf m true s l opt INT_MIN INT_MAX Cs Ct Hw Hv) as [A B]. unfold strnum_consume_int.
    split; intro X; [rewrite (A X)|rewrite (B X)]; reflexivity.
  - destruct (signed_strict cf m true s l opt (LONG_MIN cf) (LONG_MAX cf) Cs Ct Hw Hv) as [A B]. unfold strnum_consume_long.
    split; intro X; [rewrite (A X)|rewrite (B X)]; reflexivity.
Qed.
