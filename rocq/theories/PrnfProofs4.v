(** Proofs about prnf: floating point text, for any implementation of the floating point operations. *)
From Verif Require Import Base Mem Libc StrviewModel Spec MemLemmas NumSpec StrnumProofs StrnumProofs2 StrnumProofs3
  PrnfModel PrnfSpec PrnfProofs PrnfProofs2 PrnfProofs3.

(** ** Fixed number of digits *)
Lemma fixed_len : forall b k n, length (fixed b k n) = k.
Proof. induction k as [|k IH]; intros n; cbn [fixed]; [reflexivity|]. rewrite app_length, IH. cbn. lia. Qed.

Lemma fixed_split : forall b, 0 < b -> forall p k n, 0 <= n ->
  fixed b (k + p) n = fixed b k (n / b ^ Z.of_nat p) ++ fixed b p (n mod b ^ Z.of_nat p).
Proof.
  intros b Hb. induction p as [|p IH]; intros k n Hn.
  - rewrite Nat.add_0_r. cbn [fixed]. rewrite app_nil_r. change (Z.of_nat 0) with 0. now rewrite Z.pow_0_r, Z.div_1_r.
  - rewrite Nat.add_succ_r. cbn [fixed]. rewrite IH by (apply Z.div_pos; lia). rewrite <- app_assoc.
    assert (b ^ Z.of_nat (S p) = b * b ^ Z.of_nat p) as E by (rewrite Nat2Z.inj_succ, Z.pow_succ_r by lia; reflexivity).
    pose proof (Z.pow_pos_nonneg b (Z.of_nat p)) as Pp. rewrite E.
    rewrite (Z.div_div n b) by lia. f_equal. rewrite Z.rem_mul_r by lia.
    assert ((n mod b + b * ((n / b) mod b ^ Z.of_nat p)) / b = (n / b) mod b ^ Z.of_nat p) as ->.
    { rewrite (Z.mul_comm b), Z.div_add by lia. rewrite (Z.div_small (n mod b)) by (apply Z.mod_pos_bound; lia). lia. }
    assert ((n mod b + b * ((n / b) mod b ^ Z.of_nat p)) mod b = n mod b) as ->.
    { rewrite (Z.mul_comm b), Z.mod_add by lia. apply Z.mod_mod. lia. }
    reflexivity.
Qed.

Lemma fixed_rs : forall k n, 0 <= n < 10 ^ Z.of_nat k -> fixed 10 k n = copies 48 (Z.of_nat k - Zlen (rs k n)) ++ rev (rs k n).
Proof.
  induction k as [|k IH]; intros n Hn; [reflexivity|]. cbn [fixed rs].
  rewrite IH by (apply div10_bound; lia).
  assert (upper_digit (n mod 10) = 48 + n mod 10) as ->.
  { unfold upper_digit. now rewrite (proj2 (Z.ltb_lt (n mod 10) 10)) by (pose proof (Z.mod_pos_bound n 10); lia). }
  destruct (n =? 0) eqn:E.
  - apply Z.eqb_eq in E. subst n. cbn [rev]. assert (rs k (0 / 10) = []) as -> by (destruct k; reflexivity).
    change (Zlen (@nil Z)) with 0. cbn [rev]. rewrite !app_nil_r, !Z.sub_0_r. unfold copies. rewrite !Nat2Z.id.
    change [48 + 0 mod 10] with (repeat 48 1). rewrite <- repeat_app. f_equal. lia.
  - rewrite Zlen_cons. cbn [rev]. rewrite <- app_assoc. f_equal. unfold copies. f_equal. lia.
Qed.

Lemma fixed_show : forall k n, (1 <= k)%nat -> 0 <= n < 10 ^ Z.of_nat k -> n < two64' ->
  fixed 10 k n = copies 48 (Z.of_nat k - Zlen (show 10 n)) ++ show 10 n.
Proof.
  intros k n Hk Hn Hb. destruct (Z.eq_dec n 0) as [->|N].
  - rewrite fixed_rs by auto. assert (rs k 0 = []) as -> by (destruct k; reflexivity). change (show 10 0) with [48].
    change (Zlen (@nil Z)) with 0. change (Zlen [48]) with 1. cbn [rev]. rewrite app_nil_r. unfold copies. change [48] with (repeat 48 1).
    rewrite <- repeat_app. f_equal. lia.
  - rewrite fixed_rs by auto.
    assert (forall j, (j <= 64)%nat -> n < 10 ^ Z.of_nat j -> show 10 n = rev (rs j n)) as S.
    { intros j Hj Hlt. unfold show. apply show_rs; lia. }
    assert (forall a b m, (a <= b)%nat -> 0 <= m < 10 ^ Z.of_nat a -> rs a m = rs b m) as R.
    { induction a as [|a IH]; intros b m Hab Hm; [cbn in Hm; replace m with 0 by lia; destruct b; reflexivity|].
      destruct b as [|b]; [lia|]. cbn [rs]. destruct (m =? 0); auto. f_equal. apply IH; [lia|apply div10_bound; lia]. }
    assert (show 10 n = rev (rs k n)) as ->.
    { destruct (le_lt_dec k 20); [apply S; lia|]. rewrite (S 20%nat); [|lia|unfold two64' in *; change (10 ^ Z.of_nat 20) with 100000000000000000000; lia].
      rewrite (R 20%nat k n); auto; [lia|]. unfold two64' in *; change (10 ^ Z.of_nat 20) with 100000000000000000000; lia. }
    now rewrite Zlen_rev.
Qed.

Lemma show_len_bounds : forall n, 0 < n < two64' -> 10 ^ (Zlen (show 10 n) - 1) <= n < 10 ^ Zlen (show 10 n).
Proof.
  intros n Hn. unfold show. rewrite (show_rs 20); [|split; [lia|unfold two64' in *; change (10 ^ Z.of_nat 20) with 100000000000000000000; lia]|lia].
  rewrite Zlen_rev. assert (n < 10 ^ Z.of_nat 20) as H by (unfold two64' in *; change (10 ^ Z.of_nat 20) with 100000000000000000000; lia).
  destruct Hn as [H0 _]. revert n H0 H. generalize 20%nat. induction n as [|k IH]; intros n H0 H; [cbn in H; lia|].
  cbn [rs]. rewrite (proj2 (Z.eqb_neq n 0)) by lia. rewrite Zlen_cons.
  destruct (Z.lt_ge_cases n 10).
  - rewrite Z.div_small by lia. assert (rs k 0 = []) as -> by (destruct k; reflexivity). change (Zlen (@nil Z)) with 0. cbn. lia.
  - pose proof (div10_bound n k ltac:(lia)) as B. assert (0 < n / 10) as P by (apply Z.div_str_pos; lia).
    specialize (IH (n / 10) P (proj2 B)).
    assert (1 <= Zlen (rs k (n / 10))) as L.
    { pose proof (Zlen_nonneg (rs k (n / 10))). destruct (Z.eq_dec (Zlen (rs k (n / 10))) 0) as [E|]; [|lia]. rewrite E in IH. cbn in IH. lia. }
    replace (Zlen (rs k (n / 10)) + 1 - 1) with (Z.succ (Zlen (rs k (n / 10)) - 1)) by lia.
    rewrite Z.add_1_r. rewrite !Z.pow_succ_r by lia. pose proof (Z.div_mod n 10 ltac:(lia)). pose proof (Z.mod_pos_bound n 10 ltac:(lia)). lia.
Qed.

(** Digits before and after the decimal point. *)
Definition padded_digits (prec n : Z) : list Z := copies 48 (prec + 1 - Zlen (show 10 n)) ++ show 10 n.
Lemma padded_digits_split : forall prec n, 0 <= prec -> 0 <= n < two64' ->
  exists a, padded_digits prec n = a ++ fixed 10 (Z.to_nat prec) (n mod 10 ^ prec) /\ a = show 10 (n / 10 ^ prec) /\ a <> [].
Proof.
  intros prec n Hp Hn. exists (show 10 (n / 10 ^ prec)). pose proof (Z.pow_pos_nonneg 10 prec) as Pp.
  assert (0 <= n / 10 ^ prec < two64') as Hq.
  { split; [apply Z.div_pos; lia|]. apply Z.le_lt_trans with n; [|lia]. apply Z.div_le_upper_bound; [lia|]. nia. }
  destruct (show10_facts _ Hq) as (_ & _ & Ne & _). split; [|split; auto].
  unfold padded_digits. set (len := Zlen (show 10 n)). destruct (show10_facts n Hn) as (_ & _ & _ & L1). fold len in L1.
  set (L := Z.max len (prec + 1)).
  assert (n < 10 ^ L) as HL.
  { destruct (Z.eq_dec n 0) as [->|N]; [apply Z.pow_pos_nonneg; lia|]. destruct (show_len_bounds n ltac:(lia)) as [_ B]. fold len in B.
    apply Z.lt_le_trans with (10 ^ len); auto. apply Z.pow_le_mono_r; lia. }
  assert (copies 48 (prec + 1 - len) ++ show 10 n = fixed 10 (Z.to_nat L) n) as ->.
  { rewrite fixed_show by (rewrite ?Z2Nat.id; lia). f_equal. unfold copies. f_equal. fold len. rewrite Z2Nat.id by lia. lia. }
  replace (Z.to_nat L) with (Z.to_nat (L - prec) + Z.to_nat prec)%nat by lia.
  rewrite fixed_split by lia. rewrite Z2Nat.id by lia. f_equal.
  assert (n / 10 ^ prec < 10 ^ (L - prec)) as Hd.
  { apply Z.div_lt_upper_bound; [lia|]. rewrite <- Z.pow_add_r by lia. now replace (prec + (L - prec)) with L by lia. }
  rewrite fixed_show by (rewrite ?Z2Nat.id; lia). rewrite copies_none; [reflexivity|]. rewrite Z2Nat.id by lia.
  unfold L. destruct (Z.lt_ge_cases len (prec + 1)) as [Hlt|Hge].
  - rewrite Z.max_r by lia. destruct (show10_facts _ Hq) as (_ & _ & _ & Lq). lia.
  - rewrite Z.max_l by lia.
    destruct (Z.eq_dec n 0) as [Z0|N0].
    { destruct (show10_facts _ Hq) as (_ & _ & _ & Lq). assert (len = 1) by (unfold len; rewrite Z0; reflexivity). lia. }
    destruct (show_len_bounds n ltac:(lia)) as [B _]. fold len in B.
    assert (10 ^ (len - 1 - prec) <= n / 10 ^ prec) as Bq.
    { apply Z.div_le_lower_bound; [lia|]. rewrite <- Z.pow_add_r by lia. now replace (prec + (len - 1 - prec)) with (len - 1) by lia. }
    assert (0 < n / 10 ^ prec) as Q0 by (pose proof (Z.pow_pos_nonneg 10 (len - 1 - prec) ltac:(lia) ltac:(lia)); lia).
    destruct (show_len_bounds (n / 10 ^ prec) ltac:(lia)) as [_ B2].
    assert (len - 1 - prec < Zlen (show 10 (n / 10 ^ prec))) by (apply (Z.pow_lt_mono_r_iff 10); try lia; apply Zlen_nonneg). lia.
Qed.

Section Float.
Variable cf : cfg.
Variable A : fops.

Definition absv (v : fl A) : fl A := if f_lt A v (f_int A 0) then f_neg A v else v.
(** The value scaled by a power of ten. *)
Definition scaled (prec : Z) (v : fl A) : fl A := f_mul A (absv v) (f_pow10 A prec).
Definition too_big (x : fl A) : bool := f_lt A (f_int A ULLONG_MAX) x || f_eq A (f_int A ULLONG_MAX) x.
Definition read_as (prec : Z) (v : fl A) : reading :=
  let neg := f_lt A v (f_int A 0) in
  if negb (f_eq A v v) then RNan
  else if f_lt A (f_max A) (absv v) then RInf neg
  else if too_big (scaled prec v) then ROver neg
  else RNum neg (match round_float_to_ulong A (scaled prec v) with Ok n => n | _ => 0 end).

(** The text for a floating point argument. *)
Definition flt (eng : bool) (c : conv) (d : dbl A) : list Z :=
  let v := f_of_dbl A d in
  if eng then let (v, x) := get_eng A v in flt_text eng c (if x =? 0 then [] else [x]) (read_as (flt_prec eng c) v)
  else flt_text eng c [] (read_as (flt_prec eng c) v).

(** Behaviour expected of the operations. *)
Definition value_fine (prec : Z) (v : fl A) : Prop :=
  f_eq A (absv v) (absv v) = f_eq A v v /\ (f_eq A v v = false -> f_lt A v (f_int A 0) = false) /\
  (f_eq A v v = true -> f_lt A (f_max A) (absv v) = false -> too_big (scaled prec v) = false ->
     exists n, round_float_to_ulong A (scaled prec v) = Ok n /\ 0 <= n < two64').
Definition flt_fine (eng : bool) (c : conv) (d : dbl A) : Prop :=
  value_fine (flt_prec eng c) (if eng then fst (get_eng A (f_of_dbl A d)) else f_of_dbl A d).

Variable W : Type.
Variable rd : W -> mem.
Variable wr : W -> mem -> W.
Notation out := (out W).
Notation out_char := (out_char cf W rd wr).
Notation out_chars := (out_chars cf W rd wr).

Lemma float_loop_nodot : forall l o r, Zlen l <= r <= 255 -> float_loop cf W rd wr o r l = out_chars o l.
Proof.
  induction l as [|c l IH]; intros o r Hr; cbn [float_loop PrnfModel.out_chars]; [reflexivity|].
  rewrite Zlen_cons in Hr. pose proof (Zlen_nonneg l). rewrite (proj2 (Z.eqb_neq r 0)) by lia. cbn [bind]. apply bind_ext. intros o'.
  rewrite Z.mod_small by lia. apply IH. lia.
Qed.
Lemma float_loop_dot : forall a b o, b <> [] -> Zlen a <= 255 -> Zlen b <= 255 ->
  float_loop cf W rd wr o (Zlen a) (a ++ b) = out_chars o (a ++ 46 :: b).
Proof.
  induction a as [|c a IH]; intros b o Hb Ha Hb2.
  - destruct b as [|x b]; [congruence|]. cbn [app PrnfModel.out_chars]. change (Zlen (@nil Z)) with 0. cbn [float_loop].
    change (0 =? 0) with true. cbn [bind]. apply bind_ext. intros o'. apply bind_ext. intros o2. apply float_loop_nodot.
    change ((0 - 1) mod 256) with 255. rewrite Zlen_cons in Hb2. lia.
  - cbn [app PrnfModel.out_chars float_loop]. rewrite Zlen_cons in *. pose proof (Zlen_nonneg a).
    rewrite (proj2 (Z.eqb_neq (Zlen a + 1) 0)) by lia. cbn [bind]. apply bind_ext. intros o'.
    replace (Zlen a + 1 - 1) with (Zlen a) by lia. rewrite Z.mod_small by lia. apply IH; auto; lia.
Qed.

Lemma zero_fill_ok : forall k fuel txt prec, Z.of_nat k = Z.max 0 (prec + 1 - Zlen txt) -> Zlen txt <= 20 -> prec <= 19 -> (k < fuel)%nat ->
  zero_fill fuel txt prec = Ok (txt ++ repeat 48 k).
Proof.
  induction k as [|k IH]; intros fuel txt prec Hk Ht Hp Hf; (destruct fuel as [|fuel]; [lia|]); cbn [zero_fill repeat].
  - rewrite (proj2 (Z.ltb_ge _ _)) by lia. now rewrite app_nil_r.
  - rewrite (proj2 (Z.ltb_lt _ _)) by lia. unfold txt_put, DEC_BUF_SIZE. rewrite (proj2 (Z.ltb_lt _ _)) by lia. cbn [bind].
    rewrite IH; auto; try lia; [now rewrite <- app_assoc| |]; rewrite Zlen_app; change (Zlen [48]) with 1; lia.
Qed.

Lemma repeat_rev : forall (x : Z) n, rev (repeat x n) = repeat x n.
Proof.
  intros x. induction n as [|n IH]; [reflexivity|]. cbn [repeat rev]. rewrite IH. change [x] with (repeat x 1). rewrite <- repeat_app.
  now replace (n + 1)%nat with (S n) by lia.
Qed.

Lemma get_prec_eq : forall c (eng : bool), get_prec (ph_of cf c (if eng then TYPE_ENG else TYPE_FLOAT)) = flt_prec eng c.
Proof.
  intros c eng. unfold get_prec, flt_prec in *. cbn [ph_of ph_pspec ph_prec ph_type]. destruct (prec_of c) as [p|].
  - cbv zeta. destruct (19 <? p mod 256) eqn:E; [apply Z.ltb_lt in E|apply Z.ltb_ge in E]; lia.
  - destruct eng; reflexivity.
Qed.
Lemma flt_prec_range : forall c eng, 0 <= flt_prec eng c <= 19.
Proof. intros c eng. unfold flt_prec. destruct (prec_of c) as [p|]; [pose proof (Z.mod_pos_bound p 256); lia|]. destruct eng; lia. Qed.

Lemma flt_sign_eq : forall c (v : fl A) t, f_eq A v v = true ->
  (let s := determine_sign_char_of_float A (ph_of cf c t) v in if s =? 0 then [] else [s]) = flt_sign c (f_lt A v (f_int A 0)).
Proof.
  intros c v t Hv. unfold determine_sign_char_of_float, flt_sign. cbn [ph_of ph_sign]. rewrite Hv. destruct (f_lt A v (f_int A 0)); [reflexivity|].
  destruct (plus_sign_cases (cv_flags c)) as [-> | [-> | ->]]; reflexivity.
Qed.

Lemma special_ok : forall o c (v : fl A) (t : ptype) msg sg, conv_ok c ->
  (let s := determine_sign_char_of_float A (ph_of cf c t) v in if s =? 0 then [] else [s]) = sg ->
  Zlen (pad c 32 (sg ++ msg)) < INT_MAX ->
  print_float_special cf A W rd wr o (ph_of cf c t) msg v = out_chars o (pad c 32 (sg ++ msg)).
Proof.
  intros o c v t msg sg Hc Hs Hl. unfold print_float_special. set (s := determine_sign_char_of_float A (ph_of cf c t) v) in *. cbn zeta in Hs.
  cbn [ph_of ph_minus ph_zero ph_sign ph_pspec ph_width ph_pdyn ph_wdyn ph_size].
  set (ph' := Ph _ _ _ _ _ 1 _ _ _ TYPE_STR).
  assert ((if s =? 0 then Zlen msg else Zlen msg + 1) = Zlen (sg ++ msg)) as ->.
  { rewrite Zlen_app, <- Hs. destruct (s =? 0); [change (Zlen (@nil Z)) with 0|change (Zlen [s]) with 1]; lia. }
  assert (is_centered_string ph' = false) as Hcen by (unfold is_centered_string, ph'; cbn [ph_prec]; apply andb_false_r).
  assert (pad c 32 (sg ++ msg) = padded ph' (sg ++ msg)) as Ep by reflexivity.
  pose proof (pad_len c 32 (sg ++ msg)). rewrite Ep. rewrite <- around; auto; [|exact (width_ok c Hc)|lia].
  apply bind_ext. intros o1. rewrite out_chars_app, <- Hs, <- sign_eq, !bind_bind. apply bind_ext. intros o2. cbn [bind].
  apply bind_ext. intros o3. unfold ph'. reflexivity.
Qed.

Lemma Zlen_show_le : forall n, 0 <= n < two64' -> 1 <= Zlen (show 10 n) <= 20.
Proof. intros n H. now destruct (show10_facts n H) as (_ & _ & _ & L). Qed.

Lemma normal_ok : forall o c (v : fl A) (eng : bool) x n, conv_ok c -> f_eq A v v = true ->
  round_float_to_ulong A (scaled (flt_prec eng c) v) = Ok n -> 0 <= n < two64' ->
  let t := if eng then TYPE_ENG else TYPE_FLOAT in
  let txt := flt_text eng c (if x =? 0 then [] else [x]) (RNum (f_lt A v (f_int A 0)) n) in
  Zlen txt < INT_MAX ->
  print_float_normal cf A W rd wr o (ph_of cf c t) v x = out_chars o txt.
Proof.
  intros o c v eng x n Hc Hv Hr Hn t txt Hl. pose proof (flt_sign_eq c v t Hv) as Hs. unfold print_float_normal.
  assert (get_prec (ph_of cf c t) = flt_prec eng c) as -> by (apply get_prec_eq; auto).
  pose proof (flt_prec_range c eng) as Rp. set (prec := flt_prec eng c) in *.
  set (s := determine_sign_char_of_float A (ph_of cf c t) v) in *. cbn zeta in Hs. set (sg := flt_sign c (f_lt A v (f_int A 0))) in *.
  change (f_mul A (if f_lt A v (f_int A 0) then f_neg A v else v) (f_pow10 A prec)) with (scaled prec v). rewrite Hr. cbn [bind].
  rewrite ulong2asc_ok by auto. cbn [bind]. pose proof (Zlen_show_le n Hn) as Ln.
  rewrite (zero_fill_ok (Z.to_nat (prec + 1 - Zlen (show 10 n)))) by (rewrite ?Zlen_rev; lia). cbn [bind].
  rewrite rev_app_distr, repeat_rev, rev_involutive.
  change (repeat 48 (Z.to_nat (prec + 1 - Zlen (show 10 n))) ++ show 10 n) with (padded_digits prec n).
  destruct (padded_digits_split prec n) as (a & Ea & Eq & Na); [lia|auto|].
  assert (Zlen (rev (show 10 n) ++ repeat 48 (Z.to_nat (prec + 1 - Zlen (show 10 n)))) = Zlen (padded_digits prec n)) as ->.
  { unfold padded_digits, copies. rewrite !Zlen_app, Zlen_rev. lia. }
  assert (Zlen (padded_digits prec n) <= 20) as Lpd.
  { unfold padded_digits. rewrite Zlen_app, Zlen_copies. lia. }
  set (frac := fixed 10 (Z.to_nat prec) (n mod 10 ^ prec)) in *.
  assert (Zlen frac = prec) as Lf by (unfold frac, Zlen; rewrite fixed_len; lia).
  assert (Zlen (padded_digits prec n) = Zlen a + prec) as Lpa by (rewrite Ea, Zlen_app; lia).
  pose proof (Zlen_nonneg a) as La.
  set (post := negb (x =? 0) && negb (n =? 0)).
  set (px := if n =? 0 then [] else if x =? 0 then [] else [x]).
  assert (point_text prec n = a ++ (if prec =? 0 then [] else 46 :: frac)) as Ept by (unfold point_text; rewrite <- Eq; reflexivity).
  set (body := sg ++ point_text prec n ++ px).
  assert (txt = pad c (flt_fill c) body) as Et by reflexivity.
  assert (Zlen sg = if s =? 0 then 0 else 1) as Lsg by (rewrite <- Hs; destruct (s =? 0); reflexivity).
  assert (Zlen px = if post then 1 else 0) as Lpx by (unfold px, post; destruct (x =? 0), (n =? 0); reflexivity).
  assert (Zlen (point_text prec n) = if prec =? 0 then Zlen a else Zlen a + prec + 1) as Lpt.
  { rewrite Ept, Zlen_app. destruct (prec =? 0); [change (Zlen (@nil Z)) with 0; lia|]. rewrite Zlen_cons. lia. }
  set (radix := if prec =? 0 then 255 else Zlen a).
  assert ((if prec =? 0 then (Zlen (padded_digits prec n), 255) else (Zlen (padded_digits prec n) + 1, (Zlen (padded_digits prec n) + 1 - prec - 1) mod 256))
    = (Zlen (point_text prec n), radix)) as ->.
  { rewrite Lpt, Lpa. unfold radix. destruct (prec =? 0) eqn:E; [apply Z.eqb_eq in E; f_equal; lia|].
    rewrite Z.mod_small by lia. f_equal; lia. }
  cbv beta iota.
  assert ((if post then (if s =? 0 then Zlen (point_text prec n) else Zlen (point_text prec n) + 1) + 1 else
     (if s =? 0 then Zlen (point_text prec n) else Zlen (point_text prec n) + 1)) mod 256 = Zlen body) as ->.
  { unfold body. rewrite !Zlen_app, Lsg, Lpx. assert (0 <= Zlen (point_text prec n) <= 22) as B by (rewrite Lpt; destruct (prec =? 0); lia).
    rewrite Z.mod_small; destruct post, (s =? 0); lia. }
  assert (is_centered_string (ph_of cf c t) = false) as Hcen by (unfold is_centered_string, t; destruct eng; reflexivity).
  assert (padded (ph_of cf c t) body = pad c (flt_fill c) body) as Ep.
  { unfold padded, pad, fillc, flt_fill. cbn [ph_of ph_minus ph_width ph_type ph_zero ph_pspec]. unfold t.
    destruct eng; cbn [is_type_numeric is_type_int andb]; rewrite andb_false_r; cbn [negb]; rewrite andb_true_r; reflexivity. }
  rewrite Et. rewrite Et in Hl. pose proof (pad_len c (flt_fill c) body). rewrite <- Ep, <- around; auto; [|exact (width_ok c Hc)|lia].
  apply bind_ext. intros o1. change (out_chars o1 body) with (out_chars o1 (sg ++ point_text prec n ++ px)). clearbody body.
  rewrite out_chars_app, <- Hs, <- sign_eq, !bind_bind. apply bind_ext. intros o2. cbn [bind].
  rewrite out_chars_app, bind_bind.
  assert (float_loop cf W rd wr o2 radix (padded_digits prec n) = out_chars o2 (point_text prec n)) as ->.
  { rewrite Ea, Ept. unfold radix. destruct (prec =? 0) eqn:E.
    - apply Z.eqb_eq in E. rewrite E in Lf. destruct frac; [|rewrite Zlen_cons in Lf; pose proof (Zlen_nonneg frac); lia].
      rewrite !app_nil_r. apply float_loop_nodot. lia.
    - apply Z.eqb_neq in E. apply float_loop_dot; try lia. intros K. rewrite K in Lf. change (Zlen (@nil Z)) with 0 in Lf. lia. }
  apply bind_ext. intros o3.
  assert ((if post then out_char o3 x else Ok o3) = out_chars o3 px) as ->.
  { unfold post, px. destruct (x =? 0), (n =? 0); cbn [negb andb PrnfModel.out_chars]; try reflexivity. now rewrite bind_ret. }
  reflexivity.
Qed.

Lemma print_float_ok : forall o c (v : fl A) (eng : bool) x, conv_ok c -> value_fine (flt_prec eng c) v ->
  let t := if eng then TYPE_ENG else TYPE_FLOAT in
  let txt := flt_text eng c (if x =? 0 then [] else [x]) (read_as (flt_prec eng c) v) in
  Zlen txt < INT_MAX ->
  print_float cf A W rd wr o (ph_of cf c t) v x = out_chars o txt.
Proof.
  intros o c v eng x Hc (F1 & F2 & F3) t txt Hl. unfold print_float, determine_float_msg. assert (get_prec (ph_of cf c t) = flt_prec eng c) as -> by (apply get_prec_eq; auto).
  change (if f_lt A v (f_int A 0) then f_neg A v else v) with (absv v).
  change (f_mul A (absv v) (f_pow10 A (flt_prec eng c))) with (scaled (flt_prec eng c) v). rewrite F1.
  change (f_lt A (f_int A ULLONG_MAX) (scaled (flt_prec eng c) v) || f_eq A (f_int A ULLONG_MAX) (scaled (flt_prec eng c) v)) with (too_big (scaled (flt_prec eng c) v)).
  unfold txt, read_as in *. destruct (f_eq A v v) eqn:Ev; cbn [negb] in *.
  - destruct (f_lt A (f_max A) (absv v)) eqn:Em.
    { apply (special_ok o c v t [73; 78; 70]); auto. now apply flt_sign_eq. }
    destruct (too_big (scaled (flt_prec eng c) v)) eqn:Eb.
    { apply (special_ok o c v t [79; 86; 69; 82]); auto. now apply flt_sign_eq. }
    destruct (F3 eq_refl eq_refl eq_refl) as (n & En & Hn). rewrite En in *. apply normal_ok; auto.
  - apply (special_ok o c v t [78; 65; 78] []); auto. unfold determine_sign_char_of_float. rewrite F2, Ev by auto. reflexivity.
Qed.

Lemma bytes_flt_text : forall eng c x r, is_byte x -> match r with RNum _ n => 0 <= n < two64' | _ => True end ->
  Forall is_byte (flt_text eng c (if x =? 0 then [] else [x]) r).
Proof.
  intros eng c x r Hx Hr. assert (forall neg, Forall is_byte (flt_sign c neg)) as Hs.
  { intros neg. unfold flt_sign. destruct neg; [repeat constructor; unfold is_byte; lia|apply bytes_plus]. }
  pose proof (flt_prec_range c eng).
  destruct r as [|neg|neg|neg n]; cbn [flt_text]; apply bytes_pad; try (unfold is_byte; lia); try (unfold flt_fill, is_byte; destruct (has_flag FZero c); lia).
  - repeat constructor; unfold is_byte; lia.
  - apply Forall_app; split; auto. repeat constructor; unfold is_byte; lia.
  - apply Forall_app; split; auto. repeat constructor; unfold is_byte; lia.
  - repeat (apply Forall_app; split); auto.
    + apply bytes_show. pose proof (Z.pow_pos_nonneg 10 (flt_prec eng c) ltac:(lia) ltac:(lia)). split; [apply Z.div_pos; lia|].
      apply Z.le_lt_trans with n; [|lia]. apply Z.div_le_upper_bound; nia.
    + destruct (flt_prec eng c =? 0); [constructor|]. constructor; [unfold is_byte; lia|]. apply bytes_fixed. lia.
    + destruct (n =? 0); [constructor|]. destruct (x =? 0); repeat constructor; unfold is_byte in *; lia.
Qed.

Lemma get_eng_byte : forall v, is_byte (snd (get_eng A v)).
Proof.
  intros v. unfold get_eng. destruct (eng_up A 17 v 8) as [v1 i1]. destruct (eng_down A 17 v1 i1) as [v2 i2]. cbn [snd].
  assert (forall k, is_byte (nth k eng_tbl 0)) as H.
  { intros k. do 18 (destruct k as [|k]; [unfold is_byte; cbn; lia|]). destruct k; unfold is_byte; cbn; lia. }
  apply H.
Qed.

Lemma flt_bytes : forall b c d, conv_ok c -> flt_fine b c d -> Forall is_byte (flt b c d).
Proof.
  intros b c d Hc H. destruct H as (F1 & F2 & F3). unfold flt.
  assert (forall v, value_fine (flt_prec b c) v -> match read_as (flt_prec b c) v with RNum _ n => 0 <= n < two64' | _ => True end) as R.
  { clear. intros v (F1 & F2 & F3). unfold read_as. destruct (f_eq A v v); cbn [negb]; auto. destruct (f_lt A (f_max A) (absv v)); auto.
    destruct (too_big _); auto. destruct F3 as (n & -> & Hn); auto. }
  destruct b.
  - pose proof (get_eng_byte (f_of_dbl A d)) as Bx. destruct (get_eng A (f_of_dbl A d)) as [v x]. cbn [fst snd] in *. apply bytes_flt_text; auto.
    apply R. repeat split; auto.
  - apply (bytes_flt_text false c 0); auto; [unfold is_byte; lia|]. apply R. repeat split; auto.
Qed.

Lemma flt_f : forall o c d, conv_ok c -> flt_fine false c d -> Zlen (flt false c d) < INT_MAX ->
  print_placeholder cf A W rd wr o (VFlt A (f_of_dbl A d)) (ph_of cf c TYPE_FLOAT) = out_chars o (flt false c d).
Proof.
  intros o c d Hc H Hl. unfold flt_fine in H. unfold print_placeholder. cbn [ph_of ph_type].
  apply (print_float_ok o c (f_of_dbl A d) false 0); auto.
Qed.
Lemma flt_e : forall o c d, conv_ok c -> flt_fine true c d -> Zlen (flt true c d) < INT_MAX ->
  print_placeholder cf A W rd wr o (VFlt A (f_of_dbl A d)) (ph_of cf c TYPE_ENG) = out_chars o (flt true c d).
Proof.
  intros o c d Hc H Hl. unfold flt_fine in H. unfold print_placeholder. cbn [ph_of ph_type].
  unfold flt in *. destruct (get_eng A (f_of_dbl A d)) as [v x]. cbn [fst] in H. apply (print_float_ok o c v true x); auto.
Qed.
End Float.
