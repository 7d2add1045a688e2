(** Proofs about prnf: the text printed for each conversion. *)
From Coq Require Znumtheory.
From Verif Require Import Base Mem Libc StrviewModel Spec MemLemmas NumSpec StrnumProofs StrnumProofs2 StrnumProofs3 PrnfModel PrnfSpec.

Lemma bind_ext : forall {A B} (x : outcome A) (f g : A -> outcome B), (forall a, f a = g a) -> bind x f = bind x g.
Proof. intros A B [a| |] f g H; cbn; auto. Qed.
Lemma bind_ret : forall {A} (x : outcome A), bind x (fun a => Ok a) = x.
Proof. intros A [a| |]; auto. Qed.
Lemma bind_bind : forall {A B C} (x : outcome A) (f : A -> outcome B) (g : B -> outcome C),
  bind (bind x f) g = bind x (fun a => bind (f a) g).
Proof. intros A B C [a| |] f g; auto. Qed.

(** ** Decimal digits *)
Fixpoint rs (k : nat) (n : Z) : list Z :=
  match k with
  | O => []
  | S k' => if n =? 0 then [] else (48 + n mod 10) :: rs k' (n / 10)
  end.

Lemma rs_length : forall k n, (length (rs k n) <= k)%nat.
Proof. induction k as [|k IH]; intros n; cbn [rs]; [cbn; lia|]. destruct (n =? 0); cbn [length]; [lia|]. specialize (IH (n / 10)). lia. Qed.

Lemma pow10_S : forall k, 10 ^ Z.of_nat (S k) = 10 * 10 ^ Z.of_nat k.
Proof. intros k. rewrite Nat2Z.inj_succ, Z.pow_succ_r by lia. reflexivity. Qed.

Lemma div10_bound : forall n k, 0 <= n < 10 ^ Z.of_nat (S k) -> 0 <= n / 10 < 10 ^ Z.of_nat k.
Proof.
  intros n k H. rewrite pow10_S in H. split; [apply Z.div_pos; lia|]. apply Z.div_lt_upper_bound; lia.
Qed.

Lemma show_rs : forall k f n, 0 < n < 10 ^ Z.of_nat k -> (k <= f)%nat -> show_fuel f 10 n = rev (rs k n).
Proof.
  induction k as [|k IH]; intros f n Hn Hf; [cbn in Hn; lia|]. destruct f as [|f]; [lia|].
  cbn [show_fuel rs]. rewrite (proj2 (Z.eqb_neq n 0)) by lia. cbn [rev].
  destruct (n <? 10) eqn:E.
  - apply Z.ltb_lt in E. rewrite (Z.div_small n 10), (Z.mod_small n 10) by lia.
    assert (rs k 0 = []) as -> by (destruct k; reflexivity). cbn [rev app]. unfold digit_char. now rewrite (proj2 (Z.ltb_lt n 10)) by lia.
  - apply Z.ltb_ge in E. rewrite (IH f (n / 10)); [|split; [apply Z.div_str_pos; lia|apply div10_bound; lia]|lia].
    f_equal. f_equal. unfold digit_char. pose proof (Z.mod_pos_bound n 10). now rewrite (proj2 (Z.ltb_lt (n mod 10) 10)) by lia.
Qed.

Lemma asc_loop_ok : forall k fuel lim txt n, 0 <= lim -> 0 <= n < 10 ^ Z.of_nat k -> Zlen txt + Z.of_nat k <= 20 -> (k < fuel)%nat ->
  exists a r k', asc_loop fuel lim txt n = Ok (txt ++ a, r) /\ rs k n = a ++ rs k' r /\ k = (length a + k')%nat
    /\ 0 <= r <= lim /\ r < 10 ^ Z.of_nat k'.
Proof.
  induction k as [|k IH]; intros fuel lim txt n Hl Hn Ht Hf; (destruct fuel as [|fuel]; [lia|]); cbn [asc_loop].
  - replace n with 0 by (cbn in Hn; lia). rewrite (proj2 (Z.ltb_ge lim 0)) by lia. exists [], 0, 0%nat. rewrite app_nil_r.
    repeat split; try lia; reflexivity.
  - destruct (lim <? n) eqn:E; [apply Z.ltb_lt in E|apply Z.ltb_ge in E].
    + unfold txt_put, DEC_BUF_SIZE. rewrite (proj2 (Z.ltb_lt (Zlen txt) 20)) by lia. cbn [bind].
      destruct (IH fuel lim (txt ++ [48 + n mod 10]) (n / 10)) as (a & r & k' & A1 & A2 & A3 & A4 & A5); auto; try lia.
      { apply div10_bound; lia. } { rewrite Zlen_app, Zlen_cons, Zlen_nil. lia. }
      exists ((48 + n mod 10) :: a), r, k'. rewrite A1, <- app_assoc. split; [reflexivity|]. split.
      { cbn [rs]. rewrite (proj2 (Z.eqb_neq n 0)) by lia. rewrite A2. reflexivity. }
      split; [cbn [length]; lia|]. auto.
    + exists [], n, (S k). rewrite app_nil_r. repeat split; try lia; reflexivity.
Qed.

Lemma pow20 : two64' < 10 ^ Z.of_nat 20.
Proof. reflexivity. Qed.

Lemma ulong2asc_ok : forall n, 0 <= n < two64' -> ulong2asc_rev n = Ok (rev (show 10 n)).
Proof.
  intros n Hn. pose proof pow20 as P. unfold ulong2asc_rev.
  destruct (asc_loop_ok 20 64 UINT_MAX [] n) as (a & r & k' & A1 & A2 & A3 & A4 & A5); [unfold UINT_MAX; lia|lia|cbn; lia|lia|].
  rewrite A1. cbn [bind app].
  destruct (asc_loop_ok k' 64 0 a r) as (b & r2 & k2 & B1 & B2 & B3 & B4 & B5); try lia; [unfold Zlen; lia|].
  rewrite B1. cbn [bind]. assert (r2 = 0) as -> by lia.
  assert (rs k2 0 = []) as R0 by (destruct k2; reflexivity). rewrite R0, app_nil_r in B2. rewrite B2 in A2. rewrite <- A2.
  destruct (Z.eq_dec n 0) as [->|N]; [reflexivity|].
  unfold show. rewrite (show_rs 20) by lia. rewrite rev_involutive.
  cbn [rs]. rewrite (proj2 (Z.eqb_neq n 0)) by lia. reflexivity.
Qed.

Lemma show10_facts : forall n, 0 <= n < two64' ->
  Forall (fun x => isdig 10 x = true) (show 10 n) /\ num_val 10 (show 10 n) = n /\ show 10 n <> [] /\ 1 <= Zlen (show 10 n) <= 20.
Proof.
  intros n Hn. pose proof pow20 as P.
  assert (base_ok 10) as Hb by (unfold base_ok; tauto).
  destruct (show_ok 10 Hb 64 n) as (S1 & S2 & S3 & S4 & S5); [|lia|].
  { split; [lia|]. apply Z.lt_trans with (10 ^ Z.of_nat 20); [|reflexivity]. unfold two64' in *. lia. }
  fold (show 10 n) in *. split; auto. split; auto. split; auto. split.
  - destruct (show 10 n); [congruence|]. rewrite Zlen_cons. pose proof (Zlen_nonneg l). lia.
  - destruct (Z.eq_dec n 0) as [E|E]; [rewrite S5 by auto; cbn; lia|].
    unfold show. rewrite (show_rs 20) by lia. rewrite Zlen_rev. pose proof (rs_length 20 n). unfold Zlen. lia.
Qed.

Lemma Zlen_copies : forall x n, Zlen (copies x n) = Z.max 0 n.
Proof. intros x n. unfold copies, Zlen. rewrite repeat_length. lia. Qed.

Lemma copies_none : forall x n, n <= 0 -> copies x n = [].
Proof. intros x n H. unfold copies. now replace (Z.to_nat n) with 0%nat by lia. Qed.

Section Out.
Variable cf : cfg.
Variable A : fops.
Variable W : Type.
Variable rd : W -> mem.
Variable wr : W -> mem -> W.
Notation out := (out W).
Notation out_char := (out_char cf W rd wr).
Notation out_chars := (out_chars cf W rd wr).
Notation out_rep := (out_rep cf W rd wr).
Notation prepad := (prepad cf W rd wr).
Notation postpad := (postpad cf W rd wr).

Lemma out_chars_app : forall a b o, out_chars o (a ++ b) = bind (out_chars o a) (fun o => out_chars o b).
Proof. induction a as [|x a IH]; intros b o; cbn [app PrnfModel.out_chars]; auto. rewrite bind_bind. apply bind_ext. intros o'. apply IH. Qed.

Lemma out_rep_copies : forall n o x, out_rep n o x = out_chars o (repeat x n).
Proof. induction n as [|n IH]; intros o x; cbn [PrnfModel.out_rep repeat PrnfModel.out_chars]; auto. apply bind_ext. intros; apply IH. Qed.

Lemma loops_ok : forall n, 0 <= n -> loops cf n = Ok (Z.to_nat n).
Proof. intros n H. unfold loops. now rewrite (proj2 (Z.leb_le 0 n)). Qed.

Definition fillc (ph : placeholder) : Z :=
  if is_type_numeric (ph_type ph) && ph_zero ph && negb (ph_pspec ph && is_type_int (ph_type ph)) then 48 else 32.

Lemma prepad_eq : forall o ph n, is_centered_string ph = false -> 0 <= ph_width ph <= INT_MAX -> ph_width ph - n <= INT_MAX ->
  prepad o ph n = out_chars o (if ph_minus ph then [] else copies (fillc ph) (ph_width ph - n)).
Proof.
  intros o ph n Hc Hw Hn. unfold PrnfModel.prepad. rewrite Hc. cbn [andb].
  assert ((if is_type_numeric (ph_type ph) && ph_zero ph then if negb (ph_pspec ph && is_type_int (ph_type ph)) then 48 else 32 else 32) = fillc ph) as ->.
  { unfold fillc. destruct (is_type_numeric (ph_type ph) && ph_zero ph); cbn [andb]; reflexivity. }
  destruct (ph_minus ph); cbn [negb andb bind]; [reflexivity|].
  destruct (n <? ph_width ph) eqn:E; [apply Z.ltb_lt in E|apply Z.ltb_ge in E].
  - rewrite isub_ok by (unfold INT_MIN in *; lia). cbn [bind]. rewrite loops_ok by lia. cbn [bind]. apply out_rep_copies.
  - cbn [bind]. rewrite loops_ok by lia. cbn [bind]. rewrite out_rep_copies. now rewrite copies_none by lia.
Qed.

Lemma postpad_eq : forall o ph n, is_centered_string ph = false -> 0 <= ph_width ph <= INT_MAX -> 0 <= n <= INT_MAX ->
  postpad o ph n = out_chars o (if ph_minus ph then copies 32 (ph_width ph - n) else []).
Proof.
  intros o ph n Hc Hw Hn. unfold PrnfModel.postpad. rewrite Hc. cbn [andb].
  destruct (ph_minus ph); cbn [negb andb bind]; [|reflexivity].
  destruct (n <? ph_width ph) eqn:E; [apply Z.ltb_lt in E|apply Z.ltb_ge in E].
  - rewrite isub_ok by (unfold INT_MIN in *; lia). cbn [bind]. rewrite loops_ok by lia. cbn [bind]. apply out_rep_copies.
  - cbn [bind]. rewrite loops_ok by lia. cbn [bind]. rewrite out_rep_copies. now rewrite copies_none by lia.
Qed.

(** Padding around a body. *)
Definition padded (ph : placeholder) (t : list Z) : list Z :=
  if ph_minus ph then t ++ copies 32 (ph_width ph - Zlen t) else copies (fillc ph) (ph_width ph - Zlen t) ++ t.

Lemma around : forall o ph t, is_centered_string ph = false -> 0 <= ph_width ph <= INT_MAX -> Zlen t <= INT_MAX ->
  bind (prepad o ph (Zlen t)) (fun o => bind (out_chars o t) (fun o => postpad o ph (Zlen t))) = out_chars o (padded ph t).
Proof.
  intros o ph t Hc Hw Ht. pose proof (Zlen_nonneg t). rewrite prepad_eq by (auto; lia). unfold padded. destruct (ph_minus ph) eqn:M.
  - cbn [PrnfModel.out_chars bind]. rewrite out_chars_app. apply bind_ext. intros o'. rewrite postpad_eq by (auto; lia). now rewrite M.
  - rewrite out_chars_app. apply bind_ext. intros o'. etransitivity; [|apply bind_ret]. apply bind_ext. intros o2.
    rewrite postpad_eq by (auto; lia). rewrite M. reflexivity.
Qed.

Lemma sign_eq : forall o s, bind (if s =? 0 then Ok o else out_char o s) (fun o => Ok o) = out_chars o (if s =? 0 then [] else [s]).
Proof. intros o s. destruct (s =? 0); cbn [PrnfModel.out_chars]; [reflexivity|]. reflexivity. Qed.

(** ** %d and %u *)
Definition dec_body (ph : placeholder) (sign : Z) (u : Z) : list Z :=
  (if sign =? 0 then [] else [sign]) ++ (if ph_pspec ph then copies 48 (ph_prec ph - Zlen (show 10 u)) else []) ++ show 10 u.

Lemma print_dec_eq : forall o ph v, is_type_int (ph_type ph) = true -> 0 <= ph_width ph <= INT_MAX ->
  LLONG_MIN <= v <= LLONG_MAX -> (c_wrapv cf = true \/ v <> LLONG_MIN \/ is_type_unsigned (ph_type ph) = true) ->
  let u := if is_type_unsigned (ph_type ph) then v mod two64' else Z.abs v in
  let sign := if is_type_unsigned (ph_type ph) then 0 else if v <? 0 then 45 else ph_sign ph in
  Zlen (dec_body ph sign u) <= INT_MAX -> (ph_pspec ph = true -> ph_prec ph <= INT_MAX) ->
  print_dec cf W rd wr o ph v = out_chars o (padded ph (dec_body ph sign u)).
Proof.
  intros o ph v Hi Hw Hv Hx u sign Hlen Hp.
  assert (is_centered_string ph = false) as Hc by (unfold is_centered_string; destruct (ph_type ph); auto; discriminate).
  assert (0 <= u < two64') as Hu.
  { unfold u, two64', LLONG_MIN, LLONG_MAX in *. destruct (is_type_unsigned _); [apply Z.mod_pos_bound; lia|lia]. }
  unfold print_dec.
  assert ((if is_type_unsigned (ph_type ph) then Ok (v mod two64', 0)
    else if v <? 0
    then if (v =? LLONG_MIN) && negb (c_wrapv cf) then UB UB_overflow
         else Ok ((- v) mod two64', 45)
    else Ok (v mod two64', ph_sign ph)) = Ok (u, sign)) as ->.
  { unfold u, sign. destruct (is_type_unsigned (ph_type ph)); [reflexivity|].
    destruct (v <? 0) eqn:E; [apply Z.ltb_lt in E|apply Z.ltb_ge in E].
    - assert ((v =? LLONG_MIN) && negb (c_wrapv cf) = false) as ->.
      { destruct Hx as [->|[Hx|Hx]]; [apply andb_false_r| |discriminate]. now rewrite (proj2 (Z.eqb_neq _ _)). }
      rewrite Z.mod_small by (unfold two64', LLONG_MIN in *; lia). repeat f_equal. lia.
    - rewrite Z.mod_small by (unfold two64', LLONG_MAX in *; lia). repeat f_equal. lia. }
  clearbody u sign. cbn [bind]. rewrite ulong2asc_ok by auto. cbn [bind]. rewrite Zlen_rev, rev_involutive.
  destruct (show10_facts u Hu) as (_ & _ & _ & L1).
  set (zp := if ph_pspec ph && (Zlen (show 10 u) <? ph_prec ph) then ph_prec ph - Zlen (show 10 u) else 0).
  assert ((if ph_pspec ph && (Zlen (show 10 u) <? ph_prec ph) then isub cf (ph_prec ph) (Zlen (show 10 u)) else Ok 0) = Ok zp) as ->.
  { unfold zp. destruct (ph_pspec ph); cbn [andb]; [|reflexivity]. specialize (Hp eq_refl).
    destruct (_ <? _) eqn:E; [apply Z.ltb_lt in E|reflexivity]. apply isub_ok. unfold INT_MIN. lia. }
  cbn [bind].
  assert ((if ph_pspec ph then copies 48 (ph_prec ph - Zlen (show 10 u)) else []) = copies 48 zp) as Ez.
  { unfold zp. destruct (ph_pspec ph); cbn [andb]; [|reflexivity]. destruct (_ <? _) eqn:E; [reflexivity|]. apply Z.ltb_ge in E.
    now rewrite copies_none by lia. }
  assert (0 <= zp) as Hz. { unfold zp. destruct (_ && _) eqn:E; [|lia]. apply andb_true_iff in E as [_ E]. apply Z.ltb_lt in E. lia. }
  unfold dec_body in Hlen |- *. rewrite Ez in Hlen |- *.
  assert (Zlen ((if sign =? 0 then [] else [sign]) ++ copies 48 zp ++ show 10 u) = Zlen (show 10 u) + zp + (if sign =? 0 then 0 else 1)) as El.
  { rewrite !Zlen_app, Zlen_copies. destruct (sign =? 0); rewrite ?Zlen_cons, Zlen_nil; lia. }
  rewrite iadd_ok by (unfold INT_MIN; destruct (sign =? 0); lia). cbn [bind].
  assert ((if sign =? 0 then Ok (Zlen (show 10 u) + zp) else iadd cf (Zlen (show 10 u) + zp) 1) =
          Ok (Zlen ((if sign =? 0 then [] else [sign]) ++ copies 48 zp ++ show 10 u))) as ->.
  { rewrite El. destruct (sign =? 0); [f_equal; lia|]. apply iadd_ok. unfold INT_MIN. lia. }
  cbn [bind]. rewrite <- around by auto. apply bind_ext. intros o1. rewrite !out_chars_app, !bind_bind, <- sign_eq, bind_bind.
  apply bind_ext. intros o2. cbn [bind]. rewrite loops_ok by auto. cbn [bind]. rewrite out_rep_copies, out_chars_app, bind_bind.
  reflexivity.
Qed.

(** ** %x and %o *)
Lemma land_pow2_testbit : forall u i, 0 <= i -> (Z.land u (Z.shiftl 1 i) =? 0) = negb (Z.testbit u i).
Proof.
  intros u i Hi. destruct (Z.testbit u i) eqn:E; cbn [negb].
  - apply Z.eqb_neq. intros K. assert (Z.testbit (Z.land u (Z.shiftl 1 i)) i = true) as T.
    { rewrite Z.land_spec, E, Z.shiftl_spec by lia. rewrite Z.sub_diag. reflexivity. }
    rewrite K, Z.bits_0 in T. discriminate.
  - apply Z.eqb_eq. apply Z.bits_inj'. intros n Hn. rewrite Z.land_spec, Z.bits_0, Z.shiftl_spec by lia.
    destruct (Z.eq_dec n i) as [->|N]; [rewrite E; reflexivity|].
    destruct (Z.lt_ge_cases n i); [rewrite (Z.testbit_neg_r 1) by lia; apply andb_false_r|].
    replace (Z.testbit 1 (n - i)) with false; [apply andb_false_r|]. symmetry. change 1 with (2 ^ 0). apply Z.pow2_bits_false. lia.
Qed.

(** Most significant digit first. *)
Fixpoint bits_down (k : nat) (u : Z) : list Z :=
  match k with O => [] | S k' => (if Z.testbit u (Z.of_nat k') then 49 else 48) :: bits_down k' u end.

Lemma bits_down_S : forall k u, bits_down (S k) u = bits_down k (u / 2) ++ [if Z.testbit u 0 then 49 else 48].
Proof.
  induction k as [|k IH]; intros u; [reflexivity|].
  change (bits_down (S (S k)) u) with ((if Z.testbit u (Z.of_nat (S k)) then 49 else 48) :: bits_down (S k) u).
  rewrite IH. change (bits_down (S k) (u / 2)) with ((if Z.testbit (u / 2) (Z.of_nat k) then 49 else 48) :: bits_down k (u / 2)).
  cbn [app]. f_equal. rewrite Nat2Z.inj_succ. rewrite <- Z.div2_div, Z.div2_spec, Z.shiftr_spec by lia. now rewrite Z.add_1_r.
Qed.

Lemma fixed2 : forall k u, fixed 2 k u = bits_down k u.
Proof.
  induction k as [|k IH]; intros u; [reflexivity|]. rewrite bits_down_S. cbn [fixed]. rewrite IH. f_equal. f_equal.
  unfold upper_digit. rewrite (proj2 (Z.ltb_lt (u mod 2) 10)) by (pose proof (Z.mod_pos_bound u 2); lia).
  rewrite Z.bit0_odd, Zmod_odd. destruct (Z.odd u); reflexivity.
Qed.

Lemma bin_loop_eq : forall k fuel o u, (k < fuel)%nat ->
  bin_loop cf W rd wr fuel o u (if (k =? 0)%nat then 0 else Z.shiftl 1 (Z.of_nat k - 1)) = out_chars o (bits_down k u).
Proof.
  induction k as [|k IH]; intros fuel o u Hf; (destruct fuel as [|fuel]; [lia|]); cbn [bin_loop Nat.eqb bits_down PrnfModel.out_chars].
  - reflexivity.
  - assert (Z.shiftl 1 (Z.of_nat (S k) - 1) =? 0 = false) as ->.
    { apply Z.eqb_neq. rewrite Z.shiftl_1_l. pose proof (Z.pow_pos_nonneg 2 (Z.of_nat (S k) - 1)). lia. }
    rewrite land_pow2_testbit by lia. replace (Z.of_nat (S k) - 1) with (Z.of_nat k) by lia.
    rewrite (if_negb). apply bind_ext. intros o'. rewrite <- (IH fuel o' u) by lia. f_equal.
    destruct k as [|k]; [reflexivity|]. cbn [Nat.eqb]. rewrite !Z.shiftl_1_l, Z.shiftr_div_pow2 by lia.
    change (2 ^ 1) with 2. replace (Z.of_nat (S k)) with (Z.succ (Z.of_nat (S k) - 1)) at 1 by lia. rewrite Z.pow_succ_r by lia.
    rewrite Z.mul_comm. apply Z.div_mul. lia.
Qed.

Lemma print_bin_eq : forall o ph u k, is_type_int (ph_type ph) = true -> 0 <= ph_width ph <= INT_MAX ->
  Z.of_nat k = (if ph_pspec ph then ph_prec ph else ph_size ph * 8) -> (1 <= k <= 64)%nat ->
  print_bin cf W rd wr o ph u = out_chars o (padded ph (fixed 2 k u)).
Proof.
  intros o ph u k Hi Hw Hk Hr.
  assert (is_centered_string ph = false) as Hc by (unfold is_centered_string; destruct (ph_type ph); auto; discriminate).
  assert (Zlen (fixed 2 k u) = Z.of_nat k) as L.
  { rewrite fixed2. unfold Zlen. f_equal. clear. induction k; cbn [bits_down length]; auto. }
  unfold print_bin. rewrite <- Hk. rewrite <- around by (auto; unfold INT_MAX; lia). rewrite L. apply bind_ext. intros o1.
  rewrite isub_ok by (unfold INT_MIN, INT_MAX; lia). cbn [bind].
  rewrite (proj2 (Z.leb_le 0 _)), (proj2 (Z.ltb_lt (Z.of_nat k - 1) 64)) by lia. cbn [andb].
  rewrite fixed2, <- (bin_loop_eq k 65) by lia. destruct k; [lia|]. reflexivity.
Qed.

Fixpoint hex_down (k : nat) (u : Z) : list Z :=
  match k with O => [] | S k' => upper_digit (u / 16 ^ Z.of_nat k' mod 16) :: hex_down k' u end.
Lemma hex_down_S : forall k u, hex_down (S k) u = hex_down k (u / 16) ++ [upper_digit (u mod 16)].
Proof.
  induction k as [|k IH]; intros u. { cbn [hex_down app]. change (16 ^ Z.of_nat 0) with 1. now rewrite Z.div_1_r. }
  change (hex_down (S (S k)) u) with (upper_digit (u / 16 ^ Z.of_nat (S k) mod 16) :: hex_down (S k) u).
  rewrite IH. change (hex_down (S k) (u / 16)) with (upper_digit (u / 16 / 16 ^ Z.of_nat k mod 16) :: hex_down k (u / 16)).
  cbn [app]. f_equal. f_equal. f_equal. rewrite Z.div_div by (try apply Z.pow_pos_nonneg; lia).
  f_equal. rewrite Nat2Z.inj_succ, Z.pow_succ_r by lia. reflexivity.
Qed.
Lemma fixed16 : forall k u, fixed 16 k u = hex_down k u.
Proof. induction k as [|k IH]; intros u; [reflexivity|]. rewrite hex_down_S. cbn [fixed]. now rewrite IH. Qed.

Lemma ascii_hex_ok : forall x, ascii_hex_digit (x mod 256) = upper_digit (x mod 16).
Proof.
  intros x. unfold ascii_hex_digit, upper_digit. change 15 with (Z.ones 4). rewrite Z.land_ones by lia. change (2 ^ 4) with 16.
  assert (x mod 256 mod 16 = x mod 16) as ->.
  { symmetry. apply Znumtheory.Zmod_div_mod; try lia. exists 16. reflexivity. }
  destruct (x mod 16 <? 10); lia.
Qed.

Lemma hex_loop_eq : forall k fuel o u, (k < fuel)%nat -> (1 <= k <= 16)%nat ->
  hex_loop cf W rd wr fuel o u (4 * Z.of_nat k) = out_chars o (hex_down k u).
Proof.
  induction k as [|k IH]; intros fuel o u Hf Hr; [lia|]. destruct fuel as [|fuel]; [lia|]. cbn [hex_loop hex_down PrnfModel.out_chars].
  assert ((4 * Z.of_nat (S k) - 4) mod 256 = 4 * Z.of_nat k) as ->. { rewrite Z.mod_small by lia. lia. }
  rewrite (proj2 (Z.ltb_lt (4 * Z.of_nat k) 64)) by lia. rewrite ascii_hex_ok, Z.shiftr_div_pow2 by lia.
  assert (2 ^ (4 * Z.of_nat k) = 16 ^ Z.of_nat k) as -> by (rewrite Z.pow_mul_r by lia; reflexivity).
  apply bind_ext. intros o'. destruct k as [|k]; [reflexivity|]. rewrite (proj2 (Z.eqb_neq (4 * Z.of_nat (S k)) 0)) by lia. apply IH; lia.
Qed.

Lemma print_hex_eq : forall o ph u k, is_type_int (ph_type ph) = true -> 0 <= ph_width ph <= INT_MAX ->
  Z.of_nat k = (if ph_pspec ph then ph_prec ph else ph_size ph * 2) -> (1 <= k <= 16)%nat ->
  print_hex cf W rd wr o ph u = out_chars o (padded ph (fixed 16 k u)).
Proof.
  intros o ph u k Hi Hw Hk Hr.
  assert (is_centered_string ph = false) as Hc by (unfold is_centered_string; destruct (ph_type ph); auto; discriminate).
  assert (Zlen (fixed 16 k u) = Z.of_nat k) as L.
  { rewrite fixed16. unfold Zlen. f_equal. clear. induction k; cbn [hex_down length]; auto. }
  unfold print_hex. rewrite <- Hk. rewrite <- around by (auto; unfold INT_MAX; lia). rewrite L. apply bind_ext. intros o1.
  rewrite int_res_ok by (unfold INT_MIN, INT_MAX; lia). cbn [bind].
  rewrite Z.mod_small by lia. rewrite Z.mul_comm, hex_loop_eq, fixed16 by lia. reflexivity.
Qed.

(** ** %s *)
Lemma out_char_cnt : forall o c o', 0 <= o_cnt W o < INT_MAX -> out_char o c = Ok o' -> o_cnt W o' = o_cnt W o + 1.
Proof.
  intros o c o' Hr H. unfold PrnfModel.out_char in H.
  match type of H with bind ?X _ = _ => destruct X as [d| |] end; cbn [bind] in H; try discriminate.
  match type of H with bind ?X _ = _ => destruct X as [[b s]| |] end; cbn [bind] in H; try discriminate.
  match type of H with bind ?X _ = _ => destruct X as [col| |] end; cbn [bind] in H; try discriminate.
  rewrite (iadd_ok cf (o_cnt W o) 1) in H by (unfold INT_MIN; lia). cbn [bind] in H. injection H as <-. reflexivity.
Qed.

Section Inv.
(** A property of the state of the output kept by printing. *)
Variable I : out -> Prop.
(** Most characters that may be printed. *)
Variable M : Z.
Hypothesis M_max : M <= INT_MAX.
Hypothesis I_step : forall o c o', I o -> 0 <= o_cnt W o < M -> out_char o c = Ok o' -> I o'.

Lemma I_chars : forall l o o', I o -> 0 <= o_cnt W o -> o_cnt W o + Zlen l <= M -> out_chars o l = Ok o' ->
  I o' /\ o_cnt W o' = o_cnt W o + Zlen l.
Proof.
  induction l as [|c l IH]; intros o o' Ho Hc Hm H; cbn [PrnfModel.out_chars] in H; [injection H as <-; rewrite Zlen_nil; split; auto; lia|].
  rewrite Zlen_cons in *. pose proof (Zlen_nonneg l).
  destruct (out_char o c) as [o1| |] eqn:E; cbn [bind] in H; try discriminate.
  assert (o_cnt W o1 = o_cnt W o + 1) as C by (eapply out_char_cnt; eauto; lia).
  destruct (IH o1 o') as [I1 C1]; auto; try lia. { eapply I_step; eauto. lia. } split; auto. lia.
Qed.

Lemma str_loop_eq : forall p l r, (forall o, I o -> bytes_at (rd (o_st W o)) p (l ++ r)) ->
  forall a b o, l = a ++ b -> I o -> 0 <= o_cnt W o -> o_cnt W o + Zlen b <= M ->
  str_loop cf W rd wr (length b) o (shift p (Zlen a)) = out_chars o b.
Proof.
  intros p l r Hp. intros a b. revert a. induction b as [|c b IH]; intros a o E Ho Hc Hm; cbn [length str_loop PrnfModel.out_chars]; [reflexivity|].
  assert (forall o, I o -> bytes_at (rd (o_st W o)) p (a ++ c :: b ++ r)) as Hp2.
  { intros o' Ho'. specialize (Hp o' Ho'). subst l. rewrite <- app_assoc in Hp. exact Hp. }
  rewrite Zlen_cons in Hm. pose proof (Zlen_nonneg b) as Zb.
  rewrite (bytes_at_mid _ _ _ _ _ (Hp2 o Ho)). cbn [bind]. destruct (out_char o c) as [o1| |] eqn:E1; cbn [bind]; auto.
  assert (I o1) as Ho1 by (eapply I_step; eauto; lia). assert (o_cnt W o1 = o_cnt W o + 1) as C by (eapply out_char_cnt; eauto; lia).
  rewrite (padd_ok_shift cf _ p (a ++ c :: b ++ r)); [|auto|rewrite !Zlen_app, Zlen_cons, Zlen_app; pose proof (Zlen_nonneg a); pose proof (Zlen_nonneg r); lia].
  cbn [bind]. replace (Zlen a + 1) with (Zlen (a ++ [c])) by (rewrite Zlen_app; reflexivity). apply IH; auto; try lia. subst l. now rewrite <- app_assoc.
Qed.

End Inv.
End Out.
