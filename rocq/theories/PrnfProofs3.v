(** Proofs about prnf: the whole format string. *)
From Verif Require Import Base Mem Libc StrviewModel Spec MemLemmas StrviewProofs NumSpec StrnumProofs StrnumProofs2 StrnumProofs3
  PrnfModel PrnfSpec PrnfProofs PrnfProofs2.

Lemma prnf_strlen_ok : forall cf m p l, string_arg m p l -> prnf_strlen cf m p = Ok (Zlen l).
Proof.
  intros cf m p l [[-> ->]|H]; [reflexivity|]. destruct H as (Hb & Hf & Hn & Hl). unfold prnf_strlen.
  rewrite (bytes_at_nonnull _ _ _ Hb). unfold strlen. pose proof Hb as Hb2. destruct Hb2 as (blk & Ha & H0 & Hs & Hg). rewrite Ha. cbn [bind].
  rewrite (strlen_loop_ok m l p); auto.
  - cbn [bind]. apply int_res_ok. pose proof (Zlen_nonneg l). unfold INT_MIN. lia.
  - rewrite Zlen_app, Zlen_cons in Hs. unfold Zlen in *. lia.
Qed.

Lemma after_app : forall cf a b col, after cf col (a ++ b) = after cf (after cf col a) b.
Proof. intros. unfold after. apply fold_left_app. Qed.

(** ** Bytes *)
Lemma bytes_copies : forall x n, is_byte x -> Forall is_byte (copies x n).
Proof. intros x n H. unfold copies. induction (Z.to_nat n); cbn [repeat]; constructor; auto. Qed.
Lemma bytes_show : forall n, 0 <= n < two64' -> Forall is_byte (show 10 n).
Proof.
  intros n H. destruct (show10_facts n H) as (F & _). eapply Forall_impl; [|exact F]. cbn. intros x Hx. destruct (dig10 x Hx). unfold is_byte. lia.
Qed.
Lemma bytes_fixed : forall base, 2 <= base <= 16 -> forall k n, Forall is_byte (fixed base k n).
Proof.
  intros base Hb. induction k as [|k IH]; intros n; cbn [fixed]; [constructor|]. apply Forall_app. split; auto. constructor; [|constructor].
  pose proof (Z.mod_pos_bound n base). unfold upper_digit, is_byte. destruct (n mod base <? 10) eqn:E; [apply Z.ltb_lt in E|apply Z.ltb_ge in E]; lia.
Qed.
Lemma bytes_plus : forall l, Forall is_byte (plus_sign l).
Proof.
  induction l as [|f l IH]; cbn [plus_sign]; [constructor|]. destruct (plus_sign l); auto. destruct f; repeat constructor; unfold is_byte; lia.
Qed.
Lemma bytes_pad : forall c x t, is_byte x -> Forall is_byte t -> Forall is_byte (pad c x t).
Proof.
  intros c x t Hx Ht. unfold pad. destruct (left_aligned c); apply Forall_app; split; auto; apply bytes_copies; auto. unfold is_byte; lia.
Qed.
Lemma bytes_fill : forall c, is_byte (int_fill c).
Proof. intros c. unfold int_fill, is_byte. destruct (prec_of c); [lia|]. destruct (has_flag FZero c); lia. Qed.
Lemma bytes_dec : forall c n, 0 <= n < two64' -> Forall is_byte (dec_digits c n).
Proof.
  intros c n H. unfold dec_digits. apply Forall_app. split; [|now apply bytes_show]. destruct (prec_of c); [|constructor]. apply bytes_copies. unfold is_byte; lia.
Qed.
Lemma Forall_firstn' : forall {A} (P : A -> Prop) n l, Forall P l -> Forall P (firstn n l).
Proof. intros A P n l H. rewrite <- (firstn_skipn n l) in H. now apply Forall_app in H. Qed.
Lemma bytes_str : forall c l, Forall is_byte l -> Forall is_byte (str_text c l).
Proof.
  intros c l H. unfold str_text. assert (is_byte 32) as B by (unfold is_byte; lia). destruct (centred c).
  - repeat (apply Forall_app; split; auto using bytes_copies).
  - apply bytes_pad; auto. unfold str_body. destruct (prec_of c); auto. now apply Forall_firstn'.
Qed.

Lemma arg_bits_cases : forall cf l, arg_bits cf l = 64 \/ arg_bits cf l = 32.
Proof. intros. unfold arg_bits. destruct (len_bytes cf l =? 8); auto. Qed.
Lemma signed_range : forall cf l v, signed_ok cf l v -> LLONG_MIN <= v <= LLONG_MAX.
Proof.
  intros cf l v [H _]. unfold LLONG_MIN, LLONG_MAX. destruct (arg_bits_cases cf l) as [E|E]; rewrite E in H; cbn in H; lia.
Qed.
Lemma unsigned_range : forall cf l v, unsigned_ok cf l v -> 0 <= v < two64'.
Proof. intros cf l v H. unfold unsigned_ok, two64' in *. destruct (arg_bits_cases cf l) as [E|E]; rewrite E in H; cbn in H; lia. Qed.

Section Core.
Variable cf : cfg.
Variable A : fops.
Variable W : Type.
Variable rd : W -> mem.
Variable wr : W -> mem -> W.
Notation D := (dbl A).
Notation out := (out W).
Notation out_char := (out_char cf W rd wr).
Notation out_chars := (out_chars cf W rd wr).
Notation print_placeholder := (print_placeholder cf A W rd wr).
Notation core_loop := (core_loop cf A W rd wr).
Notation memof o := (rd (o_st W o)).

(** Text of floating point arguments, and when it is known. *)
Variable flt : bool -> conv -> D -> list Z.
Variable flt_ok : bool -> conv -> D -> Prop.
Hypothesis flt_bytes : forall b c d, conv_ok c -> flt_ok b c d -> Forall is_byte (flt b c d).
Hypothesis flt_f : forall o c d, conv_ok c -> flt_ok false c d -> Zlen (flt false c d) < INT_MAX ->
  print_placeholder o (VFlt A (f_of_dbl A d)) (ph_of cf c TYPE_FLOAT) = out_chars o (flt false c d).
Hypothesis flt_e : forall o c d, conv_ok c -> flt_ok true c d -> Zlen (flt true c d) < INT_MAX ->
  print_placeholder o (VFlt A (f_of_dbl A d)) (ph_of cf c TYPE_ENG) = out_chars o (flt true c d).

Variable I : out -> Prop.
Variable M : Z.
Hypothesis M_max : M < INT_MAX.
Hypothesis I_step : forall o c o', I o -> 0 <= o_cnt W o < M -> out_char o c = Ok o' -> I o'.

(** ** Conversions *)
Lemma width_ok : forall c, conv_ok c -> 0 <= width_of c <= INT_MAX.
Proof. intros c (H & _). unfold width_of. destruct (cv_width c); unfold INT_MAX in *; lia. Qed.
Lemma prec_ok : forall c, conv_ok c -> match prec_of c with Some p => INT_MIN <= p <= INT_MAX | None => True end.
Proof. intros c (_ & H). unfold prec_of. destruct (cv_prec c); unfold INT_MIN, INT_MAX in *; auto; lia. Qed.

Lemma padded_int : forall c t b, is_type_int t = true -> padded (ph_of cf c t) b = pad c (int_fill c) b.
Proof.
  intros c t b Ht. unfold padded, pad. cbn [ph_of ph_minus ph_width]. destruct (left_aligned c); auto. f_equal. f_equal.
  unfold fillc, int_fill. cbn [ph_of ph_type ph_zero ph_pspec]. rewrite Ht. destruct (prec_of c); cbn [andb negb]; [now rewrite andb_false_r|].
  rewrite andb_true_r. assert (is_type_numeric t = true) as -> by (destruct t; auto; discriminate). reflexivity.
Qed.
Lemma pad_len : forall c x b, Zlen b <= Zlen (pad c x b).
Proof. intros. unfold pad. destruct (left_aligned c); rewrite Zlen_app, Zlen_copies; lia. Qed.

Lemma plus_sign_cases : forall l, plus_sign l = [] \/ plus_sign l = [43] \/ plus_sign l = [32].
Proof.
  induction l as [|f l IH]; cbn [plus_sign]; auto. destruct IH as [-> | [-> | ->]]; auto. destruct f; auto.
Qed.

Lemma dec_body_eq : forall c t v s, (s = 0 -> plus_sign (cv_flags c) = [] \/ t = TYPE_UINT) ->
  dec_body (ph_of cf c t) s v = (if s =? 0 then [] else [s]) ++ dec_digits c v.
Proof. intros c t v s _. unfold dec_body, dec_digits. cbn [ph_of ph_pspec ph_prec]. destruct (prec_of c); reflexivity. Qed.

Lemma dec_item : forall o c v, conv_ok c -> signed_ok cf (cv_len c) v ->
  Zlen (item_out cf flt (o_col W o) (@Dec D false c v)) < INT_MAX ->
  print_dec cf W rd wr o (ph_of cf c TYPE_INT) v = out_chars o (item_out cf flt (o_col W o) (@Dec D false c v)).
Proof.
  intros o c v Hc Hv Hl. pose proof (signed_range _ _ _ Hv) as Rv. destruct Hv as [Hv Hx]. cbn [item_out] in *.
  set (sg := if v <? 0 then [45] else plus_sign (cv_flags c)) in *.
  set (s := if v <? 0 then 45 else hd 0 (plus_sign (cv_flags c))).
  assert ((if s =? 0 then [] else [s]) = sg) as Es.
  { unfold s, sg. destruct (v <? 0); [reflexivity|]. destruct (plus_sign_cases (cv_flags c)) as [-> | [-> | ->]]; reflexivity. }
  assert (dec_body (ph_of cf c TYPE_INT) s (Z.abs v) = sg ++ dec_digits c (Z.abs v)) as Eb.
  { unfold dec_body, dec_digits. cbn [ph_of ph_pspec ph_prec]. rewrite Es. destruct (prec_of c); reflexivity. }
  pose proof (pad_len c (int_fill c) (sg ++ dec_digits c (Z.abs v))) as Lp.
  rewrite print_dec_eq; cbn [ph_of ph_type ph_width is_type_int is_type_unsigned ph_sign ph_pspec ph_prec]; auto.
  - change (PrnfModel.Ph _ _ _ _ _ _ _ _ _ _) with (ph_of cf c TYPE_INT). fold s. rewrite Eb, padded_int by auto. reflexivity.
  - apply width_ok; auto.
  - tauto.
  - change (PrnfModel.Ph _ _ _ _ _ _ _ _ _ _) with (ph_of cf c TYPE_INT). fold s. rewrite Eb. lia.
  - pose proof (prec_ok c Hc) as Hp. destruct (prec_of c); [lia|discriminate].
Qed.

Lemma uns_item : forall o c v, conv_ok c -> unsigned_ok cf (cv_len c) v ->
  Zlen (item_out cf flt (o_col W o) (@Uns D c v)) < INT_MAX ->
  print_dec cf W rd wr o (ph_of cf c TYPE_UINT) (s64 v) = out_chars o (item_out cf flt (o_col W o) (@Uns D c v)).
Proof.
  intros o c v Hc Hv Hl. pose proof (unsigned_range _ _ _ Hv) as Rv. cbn [item_out] in *.
  assert (dec_body (ph_of cf c TYPE_UINT) 0 v = dec_digits c v) as Eb.
  { unfold dec_body, dec_digits. cbn [ph_of ph_pspec ph_prec]. destruct (prec_of c); reflexivity. }
  assert (LLONG_MIN <= s64 v <= LLONG_MAX /\ s64 v mod two64' = v) as [R E].
  { unfold s64, LLONG_MIN, LLONG_MAX, two64' in *. destruct (v <? 9223372036854775808) eqn:K; [apply Z.ltb_lt in K|apply Z.ltb_ge in K].
    - split; [lia|]. apply Z.mod_small; lia.
    - split; [lia|]. symmetry. apply (Z.mod_unique_pos _ _ (-1)); lia. }
  pose proof (pad_len c (int_fill c) (dec_digits c v)) as Lp.
  rewrite print_dec_eq; cbn [ph_of ph_type ph_width is_type_int is_type_unsigned ph_sign ph_pspec ph_prec]; rewrite ?E; auto.
  - change (PrnfModel.Ph _ _ _ _ _ _ _ _ _ _) with (ph_of cf c TYPE_UINT). rewrite Eb, padded_int by auto. reflexivity.
  - apply width_ok; auto.
  - change (PrnfModel.Ph _ _ _ _ _ _ _ _ _ _) with (ph_of cf c TYPE_UINT). rewrite Eb. lia.
  - pose proof (prec_ok c Hc) as Hp. destruct (prec_of c); [lia|discriminate].
Qed.

Lemma len_bytes_range : wf_cfg cf -> forall l, 1 <= len_bytes cf l <= 8.
Proof. intros (_ & H) l. destruct l; cbn; try lia. destruct (c_long64 cf); lia. Qed.

Hypothesis wf : wf_cfg cf.

Lemma hex_item : forall o b c v, conv_ok c -> match prec_of c with Some p => 1 <= p <= 16 | None => True end ->
  print_hex cf W rd wr o (ph_of cf c TYPE_HEX) v = out_chars o (item_out cf flt (o_col W o) (@Hex D b c v)).
Proof.
  intros o b c v Hc Hp. cbn [item_out]. rewrite <- (padded_int c TYPE_HEX) by reflexivity. unfold fixed_digits.
  pose proof (len_bytes_range wf (cv_len c)). apply print_hex_eq; auto.
  - apply (width_ok c Hc).
  - cbn [ph_of ph_pspec ph_prec ph_size]. destruct (prec_of c); lia.
  - destruct (prec_of c); lia.
Qed.
Lemma bin_item : forall o c v, conv_ok c -> match prec_of c with Some p => 1 <= p <= 64 | None => True end ->
  print_bin cf W rd wr o (ph_of cf c TYPE_BIN) v = out_chars o (item_out cf flt (o_col W o) (@Bin D c v)).
Proof.
  intros o c v Hc Hp. cbn [item_out]. rewrite <- (padded_int c TYPE_BIN) by reflexivity. unfold fixed_digits.
  pose proof (len_bytes_range wf (cv_len c)). apply print_bin_eq; auto.
  - apply (width_ok c Hc).
  - cbn [ph_of ph_pspec ph_prec ph_size]. destruct (prec_of c); lia.
  - destruct (prec_of c); lia.
Qed.

Lemma centred_eq : forall c, is_centered_string (ph_of cf c TYPE_STR) = centred c.
Proof.
  intros c. unfold is_centered_string, centred. cbn [ph_of ph_type ph_pdyn ph_width ph_pspec ph_prec andb]. unfold prec_of.
  destruct (cv_prec c); cbn [negb andb]; rewrite ?andb_true_r, ?andb_false_r; auto. apply andb_comm.
Qed.

(** While a string is printed only its characters are read, not its NUL any more. *)
Definition still_there (m : mem) (p : ptr) (l : list Z) : Prop := l = [] \/ bytes_at m p l.
Definition item_still (m : mem) (i : item D) : Prop := match i with Str _ _ p l => still_there m p l | _ => True end.
Lemma item_mem_still : forall m i, item_mem m i -> item_still m i.
Proof.
  intros m i. destruct i; cbn [item_mem item_still]; auto. intros [[_ ->]|(H & _)]; [now left|right]. now apply bytes_at_app in H.
Qed.

Lemma read_str : forall o p l k, I o -> (forall o, I o -> still_there (memof o) p l) -> (k <= length l)%nat ->
  0 <= o_cnt W o -> o_cnt W o + Z.of_nat k <= M ->
  str_loop cf W rd wr k o p = out_chars o (firstn k l).
Proof.
  intros o p l k Ho Hp Hk Hc0 Hc1. destruct k as [|k]; [reflexivity|].
  assert (forall o, I o -> bytes_at (memof o) p (firstn (S k) l ++ skipn (S k) l)) as Hb.
  { intros o' Ho'. destruct (Hp o' Ho') as [->|Hb]; [cbn in Hk; lia|]. rewrite firstn_skipn. exact Hb. }
  rewrite <- (str_loop_eq cf W rd wr I M (Z.lt_le_incl _ _ M_max) I_step p (firstn (S k) l) (skipn (S k) l) Hb [] (firstn (S k) l) o eq_refl Ho) by (auto; unfold Zlen; rewrite firstn_length_le by auto; auto).
  rewrite Zlen_nil, shift_0, firstn_length_le by lia. reflexivity.
Qed.

Lemma str_item : forall o b c p l, conv_ok c -> trim_ok c -> I o -> string_arg (memof o) p l -> (forall o, I o -> still_there (memof o) p l) ->
  0 <= o_cnt W o -> o_cnt W o + Zlen (item_out cf flt (o_col W o) (@Str D b c p l)) <= M ->
  print_str cf W rd wr o (ph_of cf c TYPE_STR) p = out_chars o (item_out cf flt (o_col W o) (@Str D b c p l)).
Proof.
  intros o b c p l Hc Hcut Ho Hsa Hp Hc0 Hl. pose proof (width_ok c Hc) as Hw. pose proof Hcut as Hpr. unfold trim_ok in Hpr. cbn [item_out] in *.
  unfold print_str. rewrite (prnf_strlen_ok cf _ p l) by auto. cbn [bind]. rewrite centred_eq. unfold str_text in *.
  pose proof (Zlen_nonneg l) as Zl.
  destruct (centred c) eqn:Ec.
  - rewrite andb_false_r. set (n := width_of c - Zlen l) in *.
    assert (Zlen l <= INT_MAX - 1) as Hll by (rewrite !Zlen_app, !Zlen_copies in Hl; lia).
    assert (n <= INT_MAX - 1) as Hn.
    { rewrite !Zlen_app, !Zlen_copies in Hl. pose proof (Z.div_mod n 2). pose proof (Z.mod_pos_bound n 2). lia. }
    assert (prepad cf W rd wr o (ph_of cf c TYPE_STR) (Zlen l) = out_chars o (copies 32 (n / 2))) as ->.
    { unfold prepad. rewrite centred_eq, Ec. cbn [andb ph_of ph_width ph_type is_type_numeric ph_minus].
      destruct (Zlen l <? width_of c) eqn:E; [apply Z.ltb_lt in E|apply Z.ltb_ge in E].
      - rewrite isub_ok by (unfold INT_MIN; lia). cbn [bind]. fold n. rewrite Z.quot_div_nonneg by lia.
        rewrite loops_ok by (apply Z.div_pos; lia). cbn [bind]. apply out_rep_copies.
      - rewrite andb_false_r. cbn [bind]. rewrite loops_ok by lia. cbn [bind]. rewrite out_rep_copies, copies_none; [reflexivity|].
        assert (n / 2 < 1) by (apply Z.div_lt_upper_bound; lia). lia. }
    rewrite out_chars_app. destruct (out_chars o (copies 32 (n / 2))) as [o1| |] eqn:E1; cbn [bind]; auto.
    rewrite !Zlen_app in Hl. pose proof (Zlen_nonneg (copies 32 (n - n / 2))). pose proof (Zlen_nonneg l).
    destruct (I_chars cf W rd wr I M (Z.lt_le_incl _ _ M_max) I_step (copies 32 (n / 2)) o o1 Ho Hc0) as [Ho1 C1]; [lia|exact E1|]. rewrite loops_ok by lia. cbn [bind].
    pose proof (Zlen_nonneg (copies 32 (n / 2))).
    rewrite (read_str o1 p l) by (auto; unfold Zlen in *; lia). rewrite firstn_all2 by (unfold Zlen; lia).
    rewrite out_chars_app. apply bind_ext. intros o2.
    unfold postpad. rewrite centred_eq, Ec. cbn [andb ph_of ph_width ph_minus].
    destruct (Zlen l <? width_of c) eqn:E; [apply Z.ltb_lt in E|apply Z.ltb_ge in E].
    + rewrite isub_ok by (unfold INT_MIN; lia). cbn [bind]. fold n.
      assert ((if Z.odd n then iadd cf n 1 else Ok n) = Ok (if Z.odd n then n + 1 else n)) as ->.
      { destruct (Z.odd n); auto. apply iadd_ok. unfold INT_MIN. lia. }
      cbn [bind]. rewrite Z.shiftr_div_pow2 by lia. change (2 ^ 1) with 2.
      assert ((if Z.odd n then n + 1 else n) / 2 = n - n / 2) as ->.
      { pose proof (Zmod_odd n) as Mo. pose proof (Z.div_mod n 2 ltac:(lia)) as Dm. destruct (Z.odd n).
        - replace (n + 1) with ((n / 2 + 1) * 2) by lia. rewrite Z.div_mul by lia. lia.
        - lia. }
      rewrite loops_ok; [cbn [bind]; apply out_rep_copies|]. pose proof (Z.div_mod n 2 ltac:(lia)). pose proof (Z.mod_pos_bound n 2 ltac:(lia)). lia.
    + rewrite andb_false_r. cbn [bind]. rewrite loops_ok by lia. cbn [bind]. rewrite out_rep_copies, copies_none; [reflexivity|].
      pose proof (Z.div_mod n 2 ltac:(lia)). pose proof (Z.mod_pos_bound n 2 ltac:(lia)). lia.
  - destruct Hpr as [Hpr|Hpr]; [discriminate|]. rewrite andb_true_r. pose proof (pad_len c 32 (str_body c l)) as Lp.
    assert ((if ph_pspec (ph_of cf c TYPE_STR) && (ph_prec (ph_of cf c TYPE_STR) <? Zlen l) then ph_prec (ph_of cf c TYPE_STR) else Zlen l) = Zlen (str_body c l)) as ->.
    { unfold str_body. cbn [ph_of ph_pspec ph_prec]. destruct (prec_of c) as [p0|]; cbn [andb]; auto.
      destruct (p0 <? Zlen l) eqn:E; [apply Z.ltb_lt in E|apply Z.ltb_ge in E]; unfold Zlen in *; rewrite firstn_length; lia. }
    assert (padded (ph_of cf c TYPE_STR) (str_body c l) = pad c 32 (str_body c l)) as Ep by reflexivity. rewrite <- Ep in *.
    rewrite <- around; [|rewrite centred_eq; auto|exact Hw|lia].
    destruct (prepad _ _ _ _ _ _ _) as [o1| |] eqn:E1; cbn [bind]; auto.
    rewrite prepad_eq in E1; [|rewrite centred_eq; auto|exact Hw|cbn [ph_of ph_width]; pose proof (Zlen_nonneg (str_body c l)); lia].
    set (pre := if ph_minus (ph_of cf c TYPE_STR) then [] else copies (fillc (ph_of cf c TYPE_STR)) (ph_width (ph_of cf c TYPE_STR) - Zlen (str_body c l))) in *.
    assert (Zlen pre + Zlen (str_body c l) <= Zlen (padded (ph_of cf c TYPE_STR) (str_body c l))) as Lq.
    { unfold pre, padded. destruct (ph_minus (ph_of cf c TYPE_STR)); rewrite Zlen_app, ?Zlen_copies; change (Zlen (@nil Z)) with 0; lia. }
    pose proof (Zlen_nonneg pre) as Zp. pose proof (Zlen_nonneg (str_body c l)) as Zb.
    destruct (I_chars cf W rd wr I M (Z.lt_le_incl _ _ M_max) I_step pre o o1 Ho Hc0) as [Ho1 C1]; [lia|exact E1|]. rewrite loops_ok by apply Zlen_nonneg. cbn [bind].
    assert (exists k, (k <= length l)%nat /\ str_body c l = firstn k l) as (k & Hk & Ek).
    { unfold str_body. destruct (prec_of c) as [p0|]; [|exists (length l); split; [lia|now rewrite firstn_all]].
      destruct (le_lt_dec (Z.to_nat p0) (length l)); [exists (Z.to_nat p0); auto|exists (length l); split; [lia|]]. rewrite firstn_all, firstn_all2 by lia. reflexivity. }
    rewrite Ek. rewrite Zlen_to_nat, firstn_length_le by auto. rewrite (read_str o1 p l k); auto; try lia. rewrite Ek in *. unfold Zlen in *. rewrite firstn_length_le in * by auto. lia.
Qed.

(** ** One item *)
Lemma item_bytes : forall m col i, item_ok cf flt_ok i -> item_mem m i -> Forall is_byte (item_out cf flt col i).
Proof.
  intros m col i H Hm. assert (is_byte 48) as B48 by (unfold is_byte; lia). destruct i; cbn [item_out item_ok item_mem] in *.
  - eapply Forall_impl; [|exact H]. cbn. unfold is_byte. intros; lia.
  - repeat constructor; unfold is_byte; lia.
  - repeat constructor; unfold is_byte; lia.
  - apply bytes_copies. unfold is_byte. lia.
  - constructor.
  - destruct H as [H1 H2]. apply signed_range in H2. apply bytes_pad; [apply bytes_fill|]. apply Forall_app. split.
    + destruct (v <? 0); [repeat constructor; unfold is_byte; lia|apply bytes_plus].
    + apply bytes_dec. unfold LLONG_MIN, LLONG_MAX, two64' in *. lia.
  - destruct H as [H1 H2]. apply unsigned_range in H2. apply bytes_pad; [apply bytes_fill|]. now apply bytes_dec.
  - apply bytes_pad; [apply bytes_fill|]. apply bytes_fixed. lia.
  - apply bytes_pad; [apply bytes_fill|]. apply bytes_fixed. lia.
  - repeat constructor; pose proof (Z.mod_pos_bound v 256); unfold is_byte; lia.
  - apply bytes_str. destruct Hm as [[_ ->]|(_ & H' & _)]; auto.
  - apply flt_bytes; tauto.
  - apply flt_bytes; tauto.
  - constructor.
Qed.

Lemma out_char_col : forall o c o', is_byte c -> 0 <= o_col W o <= o_cnt W o -> o_cnt W o < INT_MAX -> out_char o c = Ok o' ->
  o_col W o' = step_col cf (o_col W o) c /\ o_cnt W o' = o_cnt W o + 1.
Proof.
  intros o c o' Hc Hr Hm H. unfold PrnfModel.out_char in H.
  match type of H with bind ?X _ = _ => destruct X as [d| |] end; cbn [bind] in H; try discriminate.
  match type of H with bind ?X _ = _ => destruct X as [[b s]| |] end; cbn [bind] in H; try discriminate.
  rewrite (iadd_ok cf (o_cnt W o) 1) in H by (unfold INT_MIN; lia).
  unfold step_col, counts. unfold is_byte in Hc.
  destruct ((c =? 13) || (c =? 10)); cbn [bind] in H.
  - injection H as <-. cbn [o_col o_cnt]. auto.
  - assert ((31 <? char_int cf c) = (32 <=? c) && ((c <? 128) || negb (c_char_signed cf))) as E.
    { unfold char_int. destruct (c_char_signed cf); cbn [andb negb]; rewrite ?orb_false_r, ?orb_true_r, ?andb_true_r.
      - destruct (128 <=? c) eqn:E1; [apply Z.leb_le in E1|apply Z.leb_gt in E1].
        + rewrite (proj2 (Z.ltb_ge c 128)) by lia. rewrite andb_false_r. apply Z.ltb_ge. lia.
        + rewrite (proj2 (Z.ltb_lt c 128)) by lia. rewrite andb_true_r. destruct (32 <=? c) eqn:E2; [apply Z.leb_le in E2; apply Z.ltb_lt; lia|apply Z.leb_gt in E2; apply Z.ltb_ge; lia].
      - destruct (32 <=? c) eqn:E2; [apply Z.leb_le in E2; apply Z.ltb_lt; lia|apply Z.leb_gt in E2; apply Z.ltb_ge; lia]. }
    rewrite E in H. destruct ((32 <=? c) && _).
    + rewrite iadd_ok in H by (unfold INT_MIN; lia). cbn [bind] in H. injection H as <-. cbn [o_col o_cnt]. auto.
    + cbn [bind] in H. injection H as <-. cbn [o_col o_cnt]. auto.
Qed.

Lemma step_col_range : forall col c, 0 <= col -> 0 <= step_col cf col c <= col + 1.
Proof. intros. unfold step_col. destruct (_ || _); [lia|]. destruct (counts cf c); lia. Qed.

Lemma out_chars_col : forall l o o', Forall is_byte l -> 0 <= o_col W o <= o_cnt W o -> o_cnt W o + Zlen l <= INT_MAX -> out_chars o l = Ok o' ->
  o_col W o' = after cf (o_col W o) l /\ o_cnt W o' = o_cnt W o + Zlen l /\ 0 <= o_col W o' <= o_cnt W o'.
Proof.
  induction l as [|c l IH]; intros o o' F Hr Hm H; cbn [PrnfModel.out_chars] in H.
  - injection H as <-. rewrite Zlen_nil. cbn. repeat split; lia.
  - destruct (out_char o c) as [o1| |] eqn:E; cbn [bind] in H; try discriminate. inversion F as [|? ? Hc F']; subst.
    rewrite Zlen_cons in *. pose proof (Zlen_nonneg l). destruct (out_char_col o c o1) as [C1 C2]; auto; try lia.
    pose proof (step_col_range (o_col W o) c ltac:(lia)).
    destruct (IH o1 o') as (D1 & D2 & D3); auto; try lia. unfold after in *. cbn [fold_left]. rewrite <- C1. repeat split; auto; lia.
Qed.

Lemma counts_ge : forall c x, counts c x = true -> 32 <= x.
Proof. intros c x H. unfold counts in H. apply andb_true_iff in H as [H _]. now apply Z.leb_le. Qed.
Lemma char_counts : forall x, 0 <= x < 256 -> (char_int cf x <? 32) = negb (counts cf x).
Proof.
  intros x Hx. unfold char_int, counts. destruct (c_char_signed cf), (Z.leb_spec 128 x), (Z.leb_spec 32 x), (Z.ltb_spec x 128); cbn [andb orb negb];
    first [apply Z.ltb_lt; lia|apply Z.ltb_ge; lia].
Qed.

Lemma col_loop_eq : forall k o col x, 0 <= x < 256 -> counts cf x = true -> Z.of_nat k = Z.max 0 (col - o_col W o) -> 0 <= o_col W o <= o_cnt W o -> o_cnt W o + Z.of_nat k < INT_MAX ->
  forall fuel, (k < fuel)%nat -> col_loop cf W rd wr fuel o col x = out_chars o (repeat x k).
Proof.
  induction k as [|k IH]; intros o col x Hx Hv Hk Hr Hm fuel Hf; (destruct fuel as [|fuel]; [lia|]); cbn [col_loop repeat PrnfModel.out_chars].
  - rewrite (proj2 (Z.ltb_ge _ _)) by lia. reflexivity.
  - rewrite (proj2 (Z.ltb_lt _ _)) by lia. destruct (out_char o x) as [o1| |] eqn:E; cbn [bind]; auto.
    destruct (out_char_col o x o1) as [C1 C2]; auto; try lia.
    assert (step_col cf (o_col W o) x = o_col W o + 1) as C3.
    { unfold step_col. pose proof (counts_ge _ _ Hv). rewrite (proj2 (Z.eqb_neq x 13)), (proj2 (Z.eqb_neq x 10)), Hv by lia. reflexivity. }
    apply IH; auto; lia.
Qed.

(** The value of a conversion. *)
Definition item_conv (i : item D) : option (conv * Z * list (arg D)) :=
  match i with
  | Text _ | Percent | Vtab | ColumnZ _ _ _ | BareZ _ _ => None
  | Dec b c v => Some (c, if b then 105 else 100, [int_arg cf (cv_len c) v])
  | Uns c v => Some (c, 117, [int_arg cf (cv_len c) v])
  | Hex b c v => Some (c, if b then 88 else 120, [int_arg cf (cv_len c) v])
  | Bin c v => Some (c, 111, [int_arg cf (cv_len c) v])
  | Chr c v => Some (c, 99, [A32 (v mod 2 ^ 32)])
  | Str b c p _ => Some (c, if b then 83 else 115, [AP p])
  | Flt b c d => Some (c, if b then 70 else 102, [AD d])
  | Eng b c d => Some (c, if b then 69 else 101, [AD d])
  | Other c t => Some (c, t, [])
  end.
Lemma item_conv_text : forall i c t a, item_conv i = Some (c, t, a) -> item_ok cf flt_ok i ->
  item_text i = conv_text c t /\ longer c t = false /\ item_args cf i = conv_args c ++ a.
Proof.
  intros i c t a H Hok. destruct i; cbn [item_conv] in H; try discriminate; injection H as <- <- <-; cbn [item_text item_args];
    (split; [reflexivity|]); (split; [|rewrite ?app_nil_r; reflexivity]); try (apply type_past; unfold type_char; try destruct b; cbn [In]; tauto).
  apply Hok.
Qed.
Lemma item_conv_ok : forall i c t a, item_conv i = Some (c, t, a) -> item_ok cf flt_ok i -> conv_ok c.
Proof. intros i c t a H Hi. destruct i; cbn [item_conv item_ok] in *; try discriminate; injection H as <- <- <-; tauto. Qed.

Lemma s64_small : forall v, LLONG_MIN <= v <= LLONG_MAX -> s64 (v mod two64') = v.
Proof. exact s64_mod. Qed.

Lemma int_arg_value : forall c t v va, is_type_int t = true ->
  (if is_type_unsigned t then unsigned_ok cf (cv_len c) v else signed_ok cf (cv_len c) v) ->
  read_value A (ph_of cf c t) (int_arg cf (cv_len c) v :: va) = Ok (ph_of cf c t, VInt A (v mod two64'), va).
Proof.
  intros c t v va Ht Hv. unfold read_value, int_arg. cbn [ph_of ph_type ph_size].
  assert (forall X Y Z0 T U : outcome (placeholder * varg A * list (arg D)), match t with TYPE_NONE => X | TYPE_UINT | TYPE_HEX | TYPE_BIN | TYPE_INT => Y
     | TYPE_FLOAT | TYPE_ENG => Z0 | TYPE_CHAR => T | TYPE_STR => U end = Y) as -> by (destruct t; auto; discriminate).
  destruct (len_bytes cf (cv_len c) =? 8) eqn:E; [reflexivity|].
  unfold unsigned_ok, signed_ok, arg_bits in Hv. rewrite E in Hv. destruct (is_type_unsigned t).
  - cbn in Hv. rewrite !Z.mod_small; auto; unfold two64'; lia.
  - rewrite s32_mod; auto. cbn in Hv. unfold INT_MIN, INT_MAX. lia.
Qed.

Lemma conv_item : forall i c t a va o, item_conv i = Some (c, t, a) -> item_ok cf flt_ok i -> I o -> item_mem (memof o) i -> (forall o, I o -> item_still (memof o) i) ->
  0 <= o_cnt W o -> o_cnt W o + Zlen (item_out cf flt (o_col W o) i) <= M ->
  exists v, read_value A (ph_of cf c (type_of t)) (a ++ va) = Ok (ph_of cf c (type_of t), v, va) /\
    print_placeholder o v (ph_of cf c (type_of t)) = out_chars o (item_out cf flt (o_col W o) i).
Proof.
  intros i c t a va o Hi Hok Ho Hm Hm2 Hc0 Hl2. assert (Zlen (item_out cf flt (o_col W o) i) < INT_MAX) as Hl by lia. destruct i; cbn [item_conv] in Hi; try discriminate; injection Hi as <- <- <-; cbn [item_ok item_mem item_still] in *.
  - destruct Hok as [Hc Hv]. replace (type_of (if b then 105 else 100)) with TYPE_INT by (destruct b; reflexivity).
    exists (VInt A (v mod two64')). split; [now apply int_arg_value|]. unfold PrnfModel.print_placeholder. cbn [ph_of ph_type].
    change (PrnfModel.Ph _ _ _ _ _ _ _ _ _ _) with (ph_of cf c0 TYPE_INT). rewrite s64_small by (eapply signed_range; eauto). now apply dec_item.
  - destruct Hok as [Hc Hv]. change (type_of 117) with TYPE_UINT. exists (VInt A (v mod two64')). split; [now apply int_arg_value|].
    unfold PrnfModel.print_placeholder. cbn [ph_of ph_type]. change (PrnfModel.Ph _ _ _ _ _ _ _ _ _ _) with (ph_of cf c0 TYPE_UINT).
    rewrite Z.mod_small by (eapply unsigned_range; eauto). now apply uns_item.
  - destruct Hok as (Hc & Hv & Hp). replace (type_of (if b then 88 else 120)) with TYPE_HEX by (destruct b; reflexivity).
    exists (VInt A (v mod two64')). split; [now apply int_arg_value|]. unfold PrnfModel.print_placeholder. cbn [ph_of ph_type].
    change (PrnfModel.Ph _ _ _ _ _ _ _ _ _ _) with (ph_of cf c0 TYPE_HEX). rewrite Z.mod_small by (eapply unsigned_range; eauto). now apply hex_item.
  - destruct Hok as (Hc & Hv & Hp). change (type_of 111) with TYPE_BIN.
    exists (VInt A (v mod two64')). split; [now apply int_arg_value|]. unfold PrnfModel.print_placeholder. cbn [ph_of ph_type].
    change (PrnfModel.Ph _ _ _ _ _ _ _ _ _ _) with (ph_of cf c0 TYPE_BIN). rewrite Z.mod_small by (eapply unsigned_range; eauto). now apply bin_item.
  - change (type_of 99) with TYPE_CHAR. exists (VChar A (v mod 2 ^ 32 mod 256)). split; [reflexivity|]. unfold PrnfModel.print_placeholder. cbn [ph_of ph_type item_out PrnfModel.out_chars].
    assert (v mod 2 ^ 32 mod 256 = v mod 256) as ->.
    { symmetry. apply Znumtheory.Zmod_div_mod; try lia. exists (2 ^ 24). reflexivity. }
    now rewrite bind_ret.
  - replace (type_of (if b then 83 else 115)) with TYPE_STR by (destruct b; reflexivity). eexists. split; [reflexivity|].
    unfold PrnfModel.print_placeholder. cbn [ph_of ph_type]. change (PrnfModel.Ph _ _ _ _ _ _ _ _ _ _) with (ph_of cf c0 TYPE_STR). now apply str_item.
  - replace (type_of (if b then 70 else 102)) with TYPE_FLOAT by (destruct b; reflexivity). eexists. split; [reflexivity|]. cbn [item_out] in *. destruct Hok. now apply flt_f.
  - replace (type_of (if b then 69 else 101)) with TYPE_ENG by (destruct b; reflexivity). eexists. split; [reflexivity|]. cbn [item_out] in *. destruct Hok. now apply flt_e.
  - destruct Hok as (Hc & Ht & _). rewrite (other_type _ Ht). exists (VNone A). split; reflexivity.
Qed.

Lemma num_bytes : forall z n, 0 <= n <= INT_MAX -> Forall is_byte (num_text z n).
Proof.
  intros z n H. destruct (num_small z n H) as (F & _). eapply Forall_impl; [|exact F]. intros x Hx. destruct (dig10 x Hx). unfold is_byte. lia.
Qed.
Lemma conv_bytes : forall c t, conv_ok c -> is_byte t -> Forall is_byte (conv_text c t).
Proof.
  intros c t (Hw & Hp) Ht. unfold conv_text. assert (forall n, 0 <= n <= INT_MAX -> Forall is_byte (show 10 n)) as Sh by (intros; apply bytes_show; unfold two64', INT_MAX in *; lia).
  constructor; [unfold is_byte; lia|]. repeat (apply Forall_app; split).
  - apply Forall_forall. intros x Hx. apply in_map_iff in Hx as (f & <- & _). destruct f; unfold is_byte; cbn; lia.
  - destruct (cv_width c); cbn [wid_text]; [constructor|apply Sh; lia|repeat constructor; unfold is_byte; lia].
  - destruct (cv_prec c); cbn [prc_text]; repeat constructor; try (unfold is_byte; lia). now apply num_bytes.
  - destruct (cv_len c); cbn [len_text]; repeat constructor; unfold is_byte; lia.
  - repeat constructor; apply Ht.
Qed.
Lemma format_bytes : forall items, items_ok cf flt_ok items -> Forall is_byte (format items).
Proof.
  induction items as [|i items IH]; [constructor|]. intros (Hi & Hok & _). change (format (i :: items)) with (item_text i ++ format items).
  apply Forall_app. split; auto. assert (forall n, 0 <= n <= INT_MAX -> Forall is_byte (show 10 n)) as Sh by (intros; apply bytes_show; unfold two64', INT_MAX in *; lia).
  destruct i; cbn [item_text item_ok] in *; try (apply conv_bytes; [tauto|destruct b; unfold is_byte; lia]); try (apply conv_bytes; [tauto|unfold is_byte; lia]).
  - eapply Forall_impl; [|exact Hi]. unfold is_byte. cbn. intros; lia.
  - repeat constructor; unfold is_byte; lia.
  - repeat constructor; unfold is_byte; lia.
  - constructor; [unfold is_byte; lia|]. apply Forall_app. split; [apply num_bytes; lia|]. repeat constructor; unfold is_byte; lia.
  - constructor; [unfold is_byte; lia|]. now apply num_bytes.
  - apply conv_bytes; [tauto|]. destruct Hi as (_ & (Hi & _) & _). exact Hi.
Qed.

(** ** The loop *)
Variable fmt : ptr.
(** The format string, with what follows it. *)
Variable full : list Z.
Hypothesis fmt_at : forall o, I o -> bytes_at (memof o) fmt full.

Lemma fmt_tail : forall o pre x l, I o -> full = pre ++ x :: l ->
  load_byte (memof o) (shift fmt (Zlen pre)) = Ok x /\
  padd cf (memof o) (shift fmt (Zlen pre)) 1 = Ok (shift fmt (Zlen (pre ++ [x]))) /\ bytes_at (memof o) (shift fmt (Zlen pre)) (x :: l).
Proof.
  intros o pre x l Ho E. pose proof (fmt_at o Ho) as H. rewrite E in H. apply bytes_at_app in H as [_ H].
  destruct (at_step cf _ _ _ _ H) as (H1 & H2 & _). rewrite shift_shift in H2. split; auto. split; auto. rewrite H2, Zlen_app. reflexivity.
Qed.

Lemma digit_eq : forall x, prnf_is_digit x = digit x.
Proof. reflexivity. Qed.

Lemma conv_text_len : forall c t, Zlen (conv_text c t) = Zlen (map flg_char (cv_flags c) ++ wid_text (cv_width c) ++ prc_text (cv_prec c) ++ len_text (cv_len c)) + 2.
Proof. intros. unfold conv_text. rewrite Zlen_cons, !Zlen_app, Zlen_cons. change (Zlen (@nil Z)) with 0. lia. Qed.

(** The character after an item. *)
Definition next_ok (i : item D) (x : Z) : Prop :=
  match i with Vtab => digit x = false | BareZ _ _ => counts cf x = false /\ is_byte x | _ => True end.

(** One item, then the rest. *)
Lemma item_step : forall limit, (length full <= limit)%nat -> forall i pre x rest fuel o va,
  full = pre ++ item_text i ++ x :: rest -> item_ok cf flt_ok i -> next_ok i x -> I o -> item_mem (memof o) i -> (forall o, I o -> item_still (memof o) i) ->
  0 <= o_col W o <= o_cnt W o -> o_cnt W o + Zlen (item_out cf flt (o_col W o) i) <= M -> (length (item_text i) < fuel)%nat ->
  exists fuel', (fuel <= fuel' + length (item_text i))%nat /\
    core_loop fuel limit o (shift fmt (Zlen pre)) (item_args cf i ++ va) =
    let! o1 := out_chars o (item_out cf flt (o_col W o) i) in core_loop fuel' limit o1 (shift fmt (Zlen (pre ++ item_text i))) va.
Proof.
  intros limit Hlim i pre x rest fuel o va Efull Hi Hx Ho Hmi Hms Hr Hc Hf.
  set (s := item_out cf flt (o_col W o) i) in *. pose proof (Zlen_nonneg s) as Zs.
  assert (Forall is_byte s) as Bs by (eapply item_bytes; eauto).
  destruct (item_conv i) as [[[c t] a]|] eqn:Ec.
  + (* conversions *)
    destruct (item_conv_text _ _ _ _ Ec Hi) as (Et & Ht & Ea). pose proof (item_conv_ok _ _ _ _ Ec Hi) as Hcv.
    rewrite Ea, <- app_assoc. rewrite Et in *. destruct fuel as [|fuel]; [lia|]. exists fuel. cbn [PrnfModel.core_loop].
    pose proof (conv_text_len c t) as Lt. split; [unfold Zlen in Lt; lia|].
    set (body := map flg_char (cv_flags c) ++ wid_text (cv_width c) ++ prc_text (cv_prec c) ++ len_text (cv_len c)) in *.
    assert (full = pre ++ 37 :: body ++ t :: x :: rest) as E37.
    { rewrite Efull. unfold conv_text, body. cbn [app]. rewrite <- !app_assoc. reflexivity. }
    destruct (fmt_tail o pre 37 (body ++ t :: x :: rest)) as (L1 & L2 & L3); auto.
    rewrite L1. cbn [bind Z.eqb Pos.eqb]. rewrite L2. cbn [bind].
    assert (full = (pre ++ [37]) ++ body ++ t :: x :: rest) as Eb by (rewrite <- app_assoc; exact E37).
    assert (exists y r, body ++ t :: x :: rest = y :: r /\ y <> 37) as (y & r & Ey & Ny).
    { destruct (first_char c t (x :: rest) Hcv Ht) as (y & r & Ey & Ny). exists y, r. split; auto. unfold body. rewrite <- !app_assoc. exact Ey. }
    destruct (fmt_tail o (pre ++ [37]) y r) as (M1 & M2 & M3); auto. { rewrite Eb, Ey. reflexivity. }
    rewrite M1. cbn [bind]. rewrite (proj2 (Z.eqb_neq y 37)) by auto.
    rewrite <- Ey in M3. unfold body in M3. rewrite <- !app_assoc in M3.
    rewrite (parse_placeholder_ok cf c t (x :: rest) limit (memof o) _ Hcv Ht M3).
    2:{ fold body. rewrite E37 in Hlim. rewrite app_length in Hlim. cbn [length] in Hlim. rewrite app_length in Hlim. lia. }
    cbn [bind]. rewrite read_varg_conv by auto. cbn [app].
    destruct (conv_item i c t a va o Ec Hi Ho Hmi Hms) as (v & V1 & V2); [lia|fold s; lia|].
    rewrite V1. cbn [bind]. rewrite V2. fold s. destruct (out_chars o s) as [o1| |] eqn:E1; cbn [bind]; auto.
    rewrite shift_shift. replace (Zlen (pre ++ [37]) + (Zlen (conv_text c t) - 1)) with (Zlen (pre ++ conv_text c t)); [reflexivity|].
    rewrite !Zlen_app, Zlen_cons. change (Zlen (@nil Z)) with 0. lia.
  + destruct i; cbn [item_conv] in Ec; try discriminate; clear Ec; cbn [item_text item_args app item_ok item_out next_ok] in *.
    * (* text *)
      exists (fuel - length l)%nat. split; [lia|].
      assert (forall b a o1 fuel, l = a ++ b -> out_chars o a = Ok o1 -> (length b <= fuel)%nat ->
        core_loop fuel limit o1 (shift fmt (Zlen (pre ++ a))) va =
        bind (out_chars o1 b) (fun o2 => core_loop (fuel - length b) limit o2 (shift fmt (Zlen (pre ++ l))) va)) as K.
      { induction b as [|y b IHb]; intros a o1 f El E1 Hf1; cbn [PrnfModel.out_chars bind].
        - rewrite app_nil_r in El. subst a. rewrite Nat.sub_0_r. reflexivity.
        - destruct f as [|f]; [cbn in Hf1; lia|]. cbn [PrnfModel.core_loop].
          assert (Zlen s = Zlen a + Zlen b + 1) as Ls by (unfold s; rewrite El, Zlen_app, Zlen_cons; lia).
          pose proof (Zlen_nonneg a). pose proof (Zlen_nonneg b).
          destruct (I_chars cf W rd wr I M (Z.lt_le_incl _ _ M_max) I_step a o o1) as [Ho1 Co1]; auto; try lia.
          assert (0 < y < 256 /\ y <> 37 /\ y <> 11) as (X1 & X2 & X3). { rewrite El in Hi. apply Forall_app in Hi as [_ Hi]. now inversion Hi. }
          destruct (fmt_tail o1 (pre ++ a) y (b ++ x :: rest)) as (L1 & _); auto.
          { rewrite Efull, El, <- !app_assoc. reflexivity. }
          rewrite L1. cbn [bind]. rewrite (proj2 (Z.eqb_neq y 0)), (proj2 (Z.eqb_neq y 37)), (proj2 (Z.eqb_neq y 11)) by lia.
          rewrite bind_bind. destruct (out_char o1 y) as [o2| |] eqn:E2; cbn [bind]; auto.
          assert (I o2) as Ho2 by (eapply I_step; eauto; lia).
          destruct (fmt_tail o2 (pre ++ a) y (b ++ x :: rest)) as (_ & L2 & _); auto.
          { rewrite Efull, El, <- !app_assoc. reflexivity. }
          rewrite L2. cbn [bind]. rewrite <- app_assoc. cbn [length Nat.sub]. apply IHb.
          + rewrite El, <- app_assoc. reflexivity.
          + rewrite out_chars_app, E1. cbn [bind PrnfModel.out_chars]. now rewrite E2.
          + cbn [length] in Hf1. lia. }
      specialize (K l [] o fuel eq_refl eq_refl ltac:(lia)). rewrite app_nil_r in K. exact K.
    * (* %% *)
      destruct fuel as [|fuel]; [lia|]. exists fuel. split; [cbn [length]; lia|]. cbn [PrnfModel.core_loop].
      destruct (fmt_tail o pre 37 (37 :: x :: rest)) as (L1 & L2 & _); auto.
      rewrite L1. cbn [bind Z.eqb Pos.eqb]. rewrite L2. cbn [bind].
      destruct (fmt_tail o (pre ++ [37]) 37 (x :: rest)) as (M1 & _); auto. { rewrite Efull, <- !app_assoc. reflexivity. }
      rewrite M1. cbn [bind Z.eqb Pos.eqb]. subst s. cbn [PrnfModel.out_chars] in *. rewrite bind_bind.
      destruct (out_char o 37) as [o1| |] eqn:E1; cbn [bind] in *; auto.
      destruct (fmt_tail o1 (pre ++ [37]) 37 (x :: rest)) as (_ & M2 & _). { eapply I_step; eauto. rewrite Zlen_cons in *. change (Zlen (@nil Z)) with 0 in *. lia. } { rewrite Efull, <- !app_assoc. reflexivity. }
      rewrite M2. cbn [bind]. rewrite <- app_assoc. reflexivity.
    * (* \v *)
      destruct fuel as [|fuel]; [lia|]. exists fuel. split; [cbn [length]; lia|]. cbn [PrnfModel.core_loop].
      destruct (fmt_tail o pre 11 (x :: rest)) as (L1 & L2 & _); auto.
      rewrite L1. cbn [bind Z.eqb Pos.eqb]. rewrite L2. cbn [bind]. unfold print_col_alignment.
      destruct (fmt_tail o (pre ++ [11]) x rest) as (M1 & _ & M3); auto. { rewrite Efull, <- !app_assoc. reflexivity. }
      rewrite M1. cbn [bind]. rewrite digit_eq, Hx.
      rewrite (atoi_ok cf [] limit (memof o) _ 0 x rest); auto; try (cbn; unfold INT_MAX; lia).
      2:{ rewrite Efull in Hlim. rewrite app_length in Hlim. cbn [length app] in *. lia. }
      cbn [bind]. change (Zlen (@nil Z)) with 0. rewrite shift_0, M1. cbn [bind negb]. subst s. cbn [PrnfModel.out_chars] in *. rewrite !bind_bind.
      destruct (out_char o 11) as [o1| |] eqn:E1; cbn [bind] in *; auto.
    * (* column *)
      destruct Hi as (Hn & Hb & Hv & Dx). pose proof (counts_ge _ _ Hv) as Hge. destruct fuel as [|fuel]; [lia|]. exists fuel. split; [cbn [length]; lia|]. cbn [PrnfModel.core_loop].
      destruct (num_small z n Hn) as (S1 & _ & S3).
      assert (full = (pre ++ [11]) ++ num_text z n ++ pad :: x :: rest) as E1.
      { rewrite Efull. cbn [app]. rewrite <- !app_assoc. reflexivity. }
      destruct (fmt_tail o pre 11 (num_text z n ++ pad :: x :: rest)) as (L1 & L2 & _); auto. { rewrite E1, <- !app_assoc. reflexivity. }
      rewrite L1. cbn [bind Z.eqb Pos.eqb]. rewrite L2. cbn [bind]. unfold print_col_alignment.
      assert (exists y r, num_text z n = y :: r /\ prnf_is_digit y = true) as (y & r & Ey & Dy).
      { destruct (num_text z n) as [|y r]; [congruence|]. exists y, r. split; auto. inversion S1 as [|? ? Hy _]; subst. destruct (dig10 y Hy).
        unfold prnf_is_digit. rewrite (proj2 (Z.leb_le 48 y)), (proj2 (Z.leb_le y 57)) by lia. reflexivity. }
      destruct (fmt_tail o (pre ++ [11]) y (r ++ pad :: x :: rest)) as (M1 & _ & M3); auto. { rewrite E1, Ey. reflexivity. }
      rewrite M1. cbn [bind]. rewrite Dy. cbn [negb].
      assert (length (num_text z n) < limit)%nat as Lf.
      { rewrite E1 in Hlim. rewrite !app_length in Hlim. cbn [length] in Hlim. lia. }
      rewrite (atoi_num cf z n limit (memof o) _ pad (x :: rest)); auto; [|rewrite Ey; exact M3].
      cbn [bind]. rewrite shift_shift, <- Zlen_app.
      destruct (fmt_tail o ((pre ++ [11]) ++ num_text z n) pad (x :: rest)) as (N1 & _); auto. { rewrite E1, <- !app_assoc. reflexivity. }
      rewrite N1. cbn [bind]. rewrite char_counts, Hv by exact Hb. cbn [negb]. rewrite (proj2 (Z.eqb_neq pad 0)) by lia. cbn [negb].
      rewrite (col_loop_eq (Z.to_nat (n - o_col W o))); auto; try lia.
      2:{ assert (Zlen s = Z.max 0 (n - o_col W o)) as Ls by apply Zlen_copies. lia. }
      change (repeat pad (Z.to_nat (n - o_col W o))) with (copies pad (n - o_col W o)). fold s.
      destruct (out_chars o s) as [o1| |] eqn:Eo; cbn [bind]; auto.
      destruct (fmt_tail o1 ((pre ++ [11]) ++ num_text z n) pad (x :: rest)) as (_ & N2 & _); auto. { eapply (I_chars cf W rd wr I M (Z.lt_le_incl _ _ M_max) I_step s o o1); eauto; lia. } { rewrite E1, <- !app_assoc. reflexivity. }
      rewrite N2. cbn [bind]. rewrite <- !app_assoc. reflexivity.
    * (* column without a character to fill it with *)
      destruct Hx as [Cx Bx]. destruct fuel as [|fuel]; [lia|]. exists fuel. split; [cbn [length]; lia|]. cbn [PrnfModel.core_loop].
      destruct (num_small z n Hi) as (S1 & _ & S3).
      assert (full = (pre ++ [11]) ++ num_text z n ++ x :: rest) as E1 by (rewrite Efull, <- !app_assoc; reflexivity).
      destruct (fmt_tail o pre 11 (num_text z n ++ x :: rest)) as (L1 & L2 & _); auto.
      rewrite L1. cbn [bind Z.eqb Pos.eqb]. rewrite L2. cbn [bind]. unfold print_col_alignment.
      assert (exists y r, num_text z n = y :: r /\ prnf_is_digit y = true) as (y & r & Ey & Dy).
      { destruct (num_text z n) as [|y r]; [congruence|]. exists y, r. split; auto. inversion S1 as [|? ? Hy _]; subst. destruct (dig10 y Hy).
        unfold prnf_is_digit. rewrite (proj2 (Z.leb_le 48 y)), (proj2 (Z.leb_le y 57)) by lia. reflexivity. }
      destruct (fmt_tail o (pre ++ [11]) y (r ++ x :: rest)) as (M1 & _ & M3); auto. { rewrite E1, Ey. reflexivity. }
      rewrite M1. cbn [bind]. rewrite Dy. cbn [negb].
      assert (length (num_text z n) < limit)%nat as Lf.
      { rewrite E1 in Hlim. rewrite !app_length in Hlim. cbn [length] in Hlim. lia. }
      assert (prnf_is_digit x = false) as Dx.
      { unfold prnf_is_digit. destruct (Z.leb_spec 48 x); auto. apply Z.leb_gt. unfold counts in Cx.
        rewrite (proj2 (Z.leb_le 32 x)) in Cx by lia. destruct (Z.ltb_spec x 128); cbn in Cx; [discriminate|lia]. }
      rewrite (atoi_num cf z n limit (memof o) _ x rest); auto; [|rewrite Ey; exact M3].
      cbn [bind]. rewrite shift_shift, <- Zlen_app.
      destruct (fmt_tail o ((pre ++ [11]) ++ num_text z n) x rest) as (N1 & _); auto. { rewrite E1, <- !app_assoc. reflexivity. }
      rewrite N1. cbn [bind]. rewrite char_counts, Cx by exact Bx. cbn [negb Z.eqb]. rewrite <- !app_assoc. reflexivity.
Qed.

(** Several items; [x] is the character after them. *)
Fixpoint items_then (x : Z) (l : list (item D)) : Prop :=
  match l with
  | [] => True
  | i :: t => item_ok cf flt_ok i /\ items_then x t /\ next_ok i (hd x (format t))
  end.
Lemma items_ok_then : forall a b, items_ok cf flt_ok (a ++ b) -> items_then (hd 0 (format b)) a.
Proof.
  induction a as [|i a IH]; intros b H; [exact Logic.I|]. destruct H as (H1 & H2 & H3). fold (a ++ b) in *. cbn [items_then]. split; auto. split; [now apply IH|].
  assert (hd (hd 0 (format b)) (format a) = hd 0 (format (a ++ b))) as E.
  { unfold format. rewrite map_app, concat_app. destruct (concat (map item_text a)); reflexivity. }
  rewrite E. unfold next_ok. destruct i; auto. split; auto. apply format_bytes in H2. destruct (format (a ++ b)); [unfold is_byte; cbn; lia|now inversion H2].
Qed.

Lemma core_items : forall limit, (length full <= limit)%nat -> forall items pre x rest fuel o va,
  full = pre ++ format items ++ x :: rest -> items_then x items -> I o -> (forall o, I o -> Forall (item_mem (memof o)) items) ->
  0 <= o_col W o <= o_cnt W o -> o_cnt W o + Zlen (printed cf flt (o_col W o) items) <= M -> (length (format items) < fuel)%nat ->
  exists fuel', (fuel <= fuel' + length (format items))%nat /\
    core_loop fuel limit o (shift fmt (Zlen pre)) (arguments cf items ++ va) =
    let! o1 := out_chars o (printed cf flt (o_col W o) items) in core_loop fuel' limit o1 (shift fmt (Zlen (pre ++ format items))) va.
Proof.
  intros limit Hlim. induction items as [|i items IH]; intros pre x rest fuel o va Efull Hok Ho Hm Hr Hc Hf.
  - exists fuel. cbn [printed PrnfModel.out_chars bind length format map concat arguments app]. rewrite app_nil_r. split; [lia|reflexivity].
  - cbn [printed] in *. change (format (i :: items)) with (item_text i ++ format items) in *.
    change (arguments cf (i :: items)) with (item_args cf i ++ arguments cf items). rewrite <- app_assoc.
    destruct Hok as (Hi & Hok & Hx). set (s := item_out cf flt (o_col W o) i) in *.
    assert (forall o, I o -> item_mem (memof o) i) as Hmi by (intros o1 Ho1; specialize (Hm o1 Ho1); now inversion Hm).
    assert (forall o, I o -> Forall (item_mem (memof o)) items) as Hmt by (intros o1 Ho1; specialize (Hm o1 Ho1); now inversion Hm).
    assert (Forall is_byte s) as Bs by (eapply item_bytes; eauto).
    rewrite Zlen_app in Hc. rewrite app_length in Hf.
    pose proof (Zlen_nonneg s) as Zs. pose proof (Zlen_nonneg (printed cf flt (after cf (o_col W o) s) items)) as Zp.
    assert (exists y r, format items ++ x :: rest = y :: r /\ hd x (format items) = y) as (y & r & Ey & Hy).
    { destruct (format items) as [|y r]; [exists x, rest|exists y, (r ++ x :: rest)]; auto. }
    destruct (item_step limit Hlim i pre y r fuel o (arguments cf items ++ va)) as (f1 & F1 & E1); auto using item_mem_still; try lia.
    { rewrite Efull, <- app_assoc, Ey. reflexivity. } { now rewrite <- Hy. } { fold s. lia. }
    rewrite E1. fold s. rewrite out_chars_app.
    destruct (out_chars o s) as [o1|u|] eqn:Es; cbn [bind].
    + destruct (out_chars_col s o o1) as (C1 & C2 & C3); auto; [lia|].
      destruct (IH (pre ++ item_text i) x rest f1 o1 va) as (f2 & F2 & E2); auto.
      * rewrite Efull, <- !app_assoc. reflexivity.
      * eapply (I_chars cf W rd wr I M (Z.lt_le_incl _ _ M_max) I_step s o o1); eauto; lia.
      * rewrite C1, C2. lia.
      * lia.
      * exists f2. rewrite app_length. split; [lia|]. rewrite E2, C1, <- app_assoc. reflexivity.
    + exists fuel. split; [lia|reflexivity].
    + exists fuel. split; [lia|reflexivity].
Qed.

(** A whole format string. *)
Lemma core_ok : forall limit, (length full <= limit)%nat -> forall items pre fuel o va,
  full = pre ++ format items ++ [0] -> items_ok cf flt_ok items -> I o -> (forall o, I o -> Forall (item_mem (memof o)) items) ->
  0 <= o_col W o <= o_cnt W o -> o_cnt W o + Zlen (printed cf flt (o_col W o) items) <= M -> (length (format items) < fuel)%nat ->
  core_loop fuel limit o (shift fmt (Zlen pre)) (arguments cf items ++ va) = out_chars o (printed cf flt (o_col W o) items).
Proof.
  intros limit Hlim items pre fuel o va Efull Hok Ho Hm Hr Hc Hf.
  assert (items_then 0 items) as Ht by (apply (items_ok_then items []); now rewrite app_nil_r).
  destruct (core_items limit Hlim items pre 0 [] fuel o va) as (f1 & F1 & E1); auto. rewrite E1.
  set (s := printed cf flt (o_col W o) items) in *. pose proof (Zlen_nonneg s).
  destruct (out_chars o s) as [o1| |] eqn:Es; cbn [bind]; auto. destruct f1 as [|f1]; [lia|]. cbn [PrnfModel.core_loop].
  destruct (I_chars cf W rd wr I M (Z.lt_le_incl _ _ M_max) I_step s o o1) as [Ho1 _]; auto; try lia.
  destruct (fmt_tail o1 (pre ++ format items) 0 []) as (L1 & _); auto. { now rewrite <- app_assoc. }
  rewrite L1. reflexivity.
Qed.

(** A format string that ends inside of a placeholder, at the end of its object. *)
Lemma core_cut : forall limit, (length full <= limit)%nat -> forall items c pre fuel o va o1,
  full = pre ++ format (items ++ [Other c 0]) -> (forall o, I o -> exists b, access (memof o) (p_obj fmt) = Ok b /\ b_size b = p_ofs fmt + Zlen full) ->
  items_ok cf flt_ok (items ++ [Other c 0]) -> I o -> (forall o, I o -> Forall (item_mem (memof o)) items) ->
  0 <= o_col W o <= o_cnt W o -> o_cnt W o + Zlen (printed cf flt (o_col W o) items) <= M -> (length (format (items ++ [Other c 0])) < fuel)%nat ->
  out_chars o (printed cf flt (o_col W o) items) = Ok o1 ->
  core_loop fuel limit o (shift fmt (Zlen pre)) (arguments cf (items ++ [Other c 0]) ++ va) = UB UB_bounds.
Proof.
  intros limit Hlim items c pre fuel o va o1 Efull Hend Hok Ho Hm Hr Hc Hf E1.
  assert (format (items ++ [Other c 0]) = format items ++ conv_text c 0) as Ef by (unfold format; rewrite map_app, concat_app; cbn [map concat]; now rewrite app_nil_r).
  assert (arguments cf (items ++ [Other c 0]) = arguments cf items ++ conv_args c) as Ea by (unfold arguments; rewrite map_app, concat_app; cbn [map concat]; now rewrite app_nil_r).
  rewrite Ea, <- app_assoc. rewrite Ef in *.
  pose proof (items_ok_then _ _ Hok) as Ht. cbn [format map concat item_text] in Ht. rewrite app_nil_r in Ht. unfold conv_text in Ht at 1. cbn [hd] in Ht.
  assert (conv_ok c) as Hcv. { clear - Hok. induction items as [|i items IH]; [apply Hok|apply IH; apply Hok]. }
  pose proof (nul_past c) as Hp.
  set (body := map flg_char (cv_flags c) ++ wid_text (cv_width c) ++ prc_text (cv_prec c) ++ len_text (cv_len c)).
  assert (conv_text c 0 = 37 :: body ++ [0]) as Eb by (unfold conv_text, body; rewrite <- !app_assoc; reflexivity).
  pose proof (conv_text_len c 0) as Lt. rewrite app_length in Hf.
  destruct (core_items limit Hlim items pre 37 (body ++ [0]) fuel o (conv_args c ++ va)) as (f1 & F1 & E2); auto.
  { rewrite Efull, Eb. reflexivity. } { lia. }
  rewrite E2. set (s := printed cf flt (o_col W o) items) in *. rewrite E1. cbn [bind]. pose proof (Zlen_nonneg s).
  destruct (I_chars cf W rd wr I M (Z.lt_le_incl _ _ M_max) I_step s o o1) as [Ho1 _]; auto; try lia.
  assert (2 <= length (conv_text c 0))%nat as L2 by (unfold Zlen in Lt; lia).
  destruct f1 as [|[|f1]]; [lia|lia|]. cbn [PrnfModel.core_loop]. set (at_ := pre ++ format items).
  assert (full = at_ ++ 37 :: body ++ [0]) as E3 by (unfold at_; rewrite Efull, Eb, <- app_assoc; reflexivity).
  destruct (fmt_tail o1 at_ 37 (body ++ [0])) as (N1 & N2 & _); auto.
  rewrite N1. cbn [bind Z.eqb Pos.eqb]. rewrite N2. cbn [bind].
  assert (exists y r, body ++ [0] = y :: r /\ y <> 37) as (y & r & Ey & Ny).
  { destruct (first_char c 0 [] Hcv Hp) as (y & r & Ey & Ny). exists y, r. split; auto. unfold body. rewrite <- !app_assoc. exact Ey. }
  destruct (fmt_tail o1 (at_ ++ [37]) y r) as (P1 & _ & P3); auto. { rewrite E3, Ey, <- app_assoc. reflexivity. }
  rewrite P1. cbn [bind]. rewrite (proj2 (Z.eqb_neq y 37)) by auto.
  rewrite <- Ey in P3. unfold body in P3. rewrite <- !app_assoc in P3.
  rewrite (parse_placeholder_ok cf c 0 [] limit (memof o1) (shift fmt (Zlen (at_ ++ [37]))) Hcv Hp).
  2:{ exact P3. }
  2:{ fold body. rewrite E3 in Hlim. rewrite app_length in Hlim. cbn [length] in Hlim. rewrite app_length in Hlim. lia. }
  cbn [bind]. rewrite read_varg_conv by auto. change (type_of 0) with TYPE_NONE. unfold read_value. cbn [ph_of ph_type bind].
  unfold PrnfModel.print_placeholder. cbn [ph_of ph_type bind].
  rewrite shift_shift. destruct (Hend o1 Ho1) as (b & B1 & B2). unfold load_byte, load_cell, shift. cbn [p_obj p_ofs]. rewrite B1. cbn [bind].
  assert (p_ofs fmt + (Zlen (at_ ++ [37]) + (Zlen (conv_text c 0) - 1)) = b_size b) as ->.
  { rewrite B2, E3, <- Eb, !Zlen_app. change (Zlen [37]) with 1. lia. }
  unfold in_block. rewrite (proj2 (Z.leb_gt (b_size b + 1) (b_size b))) by lia. rewrite andb_false_r. reflexivity.
Qed.
End Core.
