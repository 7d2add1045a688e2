(** Public integer parsers, default-value parsers, printing round trip. *)
From Verif Require Import Base Mem Libc StrviewModel StrnumModel Spec NumSpec MemLemmas
  StrviewProofs StrviewProofs2 StrviewProofs3 StrnumProofs StrnumProofs2.

Lemma ucast_id : forall b v, 0 <= v <= 2 ^ b - 1 -> ucast b v = v.
Proof. intros. unfold ucast. apply Z.mod_small. lia. Qed.
Lemma scast_id : forall b v, 0 < b -> - 2 ^ (b - 1) <= v <= 2 ^ (b - 1) - 1 -> scast b v = v.
Proof.
  intros b v Hb H. unfold scast.
  assert (2 ^ b = 2 * 2 ^ (b - 1)) by (rewrite <- Z.pow_succ_r by lia; f_equal; lia).
  rewrite Z.mod_small; lia.
Qed.

Lemma parse_range : forall sg opt lo hi l v r, parse_int sg opt lo hi l = Good v r -> lo <= v <= hi.
Proof.
  intros sg opt lo hi l v r H. unfold parse_int in H. destruct (it_digits (read_int sg opt l)); [discriminate|].
  destruct ((lo <=? int_value (read_int sg opt l)) && (int_value (read_int sg opt l) <=? hi)) eqn:E; [|discriminate].
  injection H as <- _. lia.
Qed.

Lemma store_as_ok : forall s l sg opt lo hi dst cast r,
  (forall v, lo <= v <= hi -> cast v = v) ->
  result_of true s l (parse_int sg opt lo hi l) r -> result_of dst s l (parse_int sg opt lo hi l) (store_as dst cast r).
Proof.
  intros s l sg opt lo hi dst cast r Hc H. destruct (parse_int sg opt lo hi l) as [e|v rest] eqn:E; cbn in *.
  - subst r. cbn. destruct e; reflexivity.
  - destruct H as (a & H1 & H2 & ->). exists a. repeat split; auto. cbn. rewrite Hc; auto. eapply parse_range; eauto.
Qed.

Lemma or_default_ok : forall s l sg opt lo hi d cast r,
  (forall v, lo <= v <= hi -> cast v = v) ->
  result_of true s l (parse_int sg opt lo hi l) r ->
  or_default d cast r = Ok (match parse_int sg opt lo hi l with Good v _ => v | Bad _ => d end).
Proof.
  intros s l sg opt lo hi d cast r Hc H. destruct (parse_int sg opt lo hi l) as [e|v rest] eqn:E; cbn in *.
  - subst r. cbn. destruct e; reflexivity.
  - destruct H as (a & H1 & H2 & ->). cbn. rewrite Hc; auto. eapply parse_range; eauto.
Qed.

Section Parsers.
Variables (cf : cfg) (m : mem) (s : view) (l : list Z) (opt : Z).
Hypotheses (Hw : mem_wf m) (Hv : has_view m s l) (Hc : ctype_safe cf l).

Lemma consumer_ok : forall t f dst, consumer cf t = Some f ->
  (it_base (read_int (ty_signed t) opt l) = 2 -> no_b0 l) ->
  result_of dst s l (parse_int (ty_signed t) opt (ty_lo cf t) (ty_hi cf t) l) (f m dst (Some s) opt).
Proof.
  intros t f dst E Hb. destruct t; cbn in E; try discriminate; injection E as <-; cbn [ty_signed] in *.
  - apply store_as_ok; [intros; apply ucast_id; auto|apply unsigned_ok; auto; vm_compute; split; discriminate].
  - apply store_as_ok; [intros; apply ucast_id; auto|apply unsigned_ok; auto; vm_compute; split; discriminate].
  - apply store_as_ok; [intros; apply ucast_id; auto|apply unsigned_ok; auto; vm_compute; split; discriminate].
  - replace (ty_hi cf TUlong) with (ULONG_MAX cf) by (unfold ty_hi, ULONG_MAX, ulong_mod; cbn [ty_neg ty_signed ty_bits]; destruct (c_long64 cf); reflexivity).
    apply store_as_ok; [intros; apply ucast_id; revert H; unfold ty_lo, ULONG_MAX, ulong_mod, long_bits; cbn [ty_neg ty_signed]; destruct (c_long64 cf); auto|].
    apply unsigned_ok; auto. unfold ULONG_MAX, ulong_mod. destruct (c_long64 cf); vm_compute; split; discriminate.
  - apply unsigned_ok; auto. vm_compute; split; discriminate.
  - replace (ty_lo cf TChar) with (CHAR_MIN cf) by (unfold ty_lo, CHAR_MIN; cbn [ty_neg]; destruct (c_char_signed cf); reflexivity).
    replace (ty_hi cf TChar) with (CHAR_MAX cf) by (unfold ty_hi, CHAR_MAX; cbn [ty_neg]; destruct (c_char_signed cf); reflexivity).
    apply store_as_ok.
    + intros v. unfold CHAR_MIN, CHAR_MAX, ccast. destruct (c_char_signed cf); intro; [apply scast_id; auto; lia|apply ucast_id; auto].
    + apply signed_ok; auto; unfold CHAR_MIN, CHAR_MAX; destruct (c_char_signed cf); vm_compute; discriminate.
  - apply store_as_ok; [intros; apply scast_id; auto; lia|apply signed_ok; auto; vm_compute; discriminate].
  - apply store_as_ok; [intros; apply scast_id; auto; lia|apply signed_ok; auto; vm_compute; discriminate].
  - replace (ty_lo cf TLong) with (LONG_MIN cf) by (unfold ty_lo, LONG_MIN, ulong_mod; cbn [ty_neg ty_signed ty_bits]; destruct (c_long64 cf); reflexivity).
    replace (ty_hi cf TLong) with (LONG_MAX cf) by (unfold ty_hi, LONG_MAX, ulong_mod; cbn [ty_neg ty_signed ty_bits]; destruct (c_long64 cf); reflexivity).
    apply store_as_ok.
    + intros v. unfold LONG_MIN, LONG_MAX, long_bits, ulong_mod. destruct (c_long64 cf); intro; apply scast_id; auto; lia.
    + apply signed_ok; auto; unfold LONG_MIN, LONG_MAX, ulong_mod; destruct (c_long64 cf); vm_compute; discriminate.
  - apply signed_ok; auto; vm_compute; discriminate.
Qed.

Lemma default_ok : forall t d,
  (it_base (read_int (ty_signed t) opt l) = 2 -> no_b0 l) ->
  default_parser cf t m s d opt =
  Ok (match parse_int (ty_signed t) opt (ty_lo cf t) (ty_hi cf t) l with Good v _ => v | Bad _ => d end).
Proof.
  intros t d Hb. destruct t; cbn [ty_signed default_parser] in *.
  - apply (or_default_ok s); [intros; apply ucast_id; auto|apply unsigned_ok; auto; vm_compute; split; discriminate].
  - apply (or_default_ok s); [intros; apply ucast_id; auto|apply unsigned_ok; auto; vm_compute; split; discriminate].
  - apply (or_default_ok s); [intros; apply ucast_id; auto|apply unsigned_ok; auto; vm_compute; split; discriminate].
  - replace (ty_hi cf TUlong) with (ULONG_MAX cf) by (unfold ty_hi, ULONG_MAX, ulong_mod; cbn [ty_neg ty_signed ty_bits]; destruct (c_long64 cf); reflexivity).
    apply (or_default_ok s); [intros; apply ucast_id; revert H; unfold ty_lo, ULONG_MAX, ulong_mod, long_bits; cbn [ty_neg ty_signed]; destruct (c_long64 cf); auto|].
    apply unsigned_ok; auto. unfold ULONG_MAX, ulong_mod. destruct (c_long64 cf); vm_compute; split; discriminate.
  - apply (or_default_ok s); [intros; apply ucast_id; auto|apply unsigned_ok; auto; vm_compute; split; discriminate].
  - replace (ty_lo cf TChar) with (CHAR_MIN cf) by (unfold ty_lo, CHAR_MIN; cbn [ty_neg]; destruct (c_char_signed cf); reflexivity).
    replace (ty_hi cf TChar) with (CHAR_MAX cf) by (unfold ty_hi, CHAR_MAX; cbn [ty_neg]; destruct (c_char_signed cf); reflexivity).
    apply (or_default_ok s).
    + intros v. unfold CHAR_MIN, CHAR_MAX, ccast. destruct (c_char_signed cf); intro; [apply scast_id; auto; lia|apply ucast_id; auto].
    + apply signed_ok; auto; unfold CHAR_MIN, CHAR_MAX; destruct (c_char_signed cf); vm_compute; discriminate.
  - apply (or_default_ok s); [intros; apply scast_id; auto; lia|apply signed_ok; auto; vm_compute; discriminate].
  - apply (or_default_ok s); [intros; apply scast_id; auto; lia|apply signed_ok; auto; vm_compute; discriminate].
  - replace (ty_lo cf TLong) with (LONG_MIN cf) by (unfold ty_lo, LONG_MIN, ulong_mod; cbn [ty_neg ty_signed ty_bits]; destruct (c_long64 cf); reflexivity).
    replace (ty_hi cf TLong) with (LONG_MAX cf) by (unfold ty_hi, LONG_MAX, ulong_mod; cbn [ty_neg ty_signed ty_bits]; destruct (c_long64 cf); reflexivity).
    apply (or_default_ok s).
    + intros v. unfold LONG_MIN, LONG_MAX, long_bits, ulong_mod. destruct (c_long64 cf); intro; apply scast_id; auto; lia.
    + apply signed_ok; auto; unfold LONG_MIN, LONG_MAX, ulong_mod; destruct (c_long64 cf); vm_compute; discriminate.
  - apply (or_default_ok s); [intros; apply scast_id; auto; lia|apply signed_ok; auto; vm_compute; discriminate].
  - apply (or_default_ok s); [intros; apply scast_id; auto; lia|apply signed_ok; auto; vm_compute; discriminate].
  - apply (or_default_ok s); [intros; apply scast_id; auto; lia|apply signed_ok; auto; vm_compute; discriminate].
  - apply (or_default_ok s); [intros; apply scast_id; auto; lia|apply signed_ok; auto; vm_compute; discriminate].
  - apply (or_default_ok s); [intros; apply scast_id; auto; lia|apply signed_ok; auto; vm_compute; discriminate].
  - apply (or_default_ok s); [intros; apply ucast_id; auto|apply unsigned_ok; auto; vm_compute; split; discriminate].
  - apply (or_default_ok s); [intros; apply ucast_id; auto|apply unsigned_ok; auto; vm_compute; split; discriminate].
  - apply (or_default_ok s); [intros; apply ucast_id; auto|apply unsigned_ok; auto; vm_compute; split; discriminate].
  - apply (or_default_ok s); [intros; apply ucast_id; auto|apply unsigned_ok; auto; vm_compute; split; discriminate].
Qed.
End Parsers.

(** Invalid or missing source *)
Lemma consumer_invalid : forall cf t f m dst src opt, consumer cf t = Some f -> (src = None \/ src = Some INVALID) ->
  f m dst src opt = Ok (Parsed EINVAL None None).
Proof.
  intros cf t f m dst src opt E [-> | ->]; destruct t; cbn in E; try discriminate; injection E as <-; reflexivity.
Qed.
Lemma default_invalid : forall cf t m d opt, default_parser cf t m INVALID d opt = Ok d.
Proof. intros cf t m d opt. destruct t; reflexivity. Qed.

(** ** Printing *)
Lemma digit_char_ok : forall base d, base_ok base -> 0 <= d < base -> isdig base (digit_char d) = true /\ dval (digit_char d) = d.
Proof.
  intros base d Hb Hd.
  assert (is_byte d) as Hx by (unfold is_byte; destruct Hb as [-> | [-> | ->]]; lia).
  assert ((d <? base) = true) as Hl by (apply Z.ltb_lt; lia).
  assert (isdig base (digit_char d) && (dval (digit_char d) =? d) = true) as H.
  { destruct Hb as [-> | [-> | ->]].
    - by_bytes (fun d => negb (d <? 2) || (isdig 2 (digit_char d) && (dval (digit_char d) =? d))). rewrite Hl in H. exact H.
    - by_bytes (fun d => negb (d <? 10) || (isdig 10 (digit_char d) && (dval (digit_char d) =? d))). rewrite Hl in H. exact H.
    - by_bytes (fun d => negb (d <? 16) || (isdig 16 (digit_char d) && (dval (digit_char d) =? d))). rewrite Hl in H. exact H. }
  apply andb_true_iff in H as [H1 H2]. split; auto. now apply Z.eqb_eq.
Qed.

Lemma show_ok : forall base, base_ok base -> forall fuel n, 0 <= n < base ^ Z.of_nat fuel -> (0 < fuel)%nat ->
  Forall (fun x => isdig base x = true) (show_fuel fuel base n) /\ num_val base (show_fuel fuel base n) = n
  /\ show_fuel fuel base n <> [] /\ (0 < n -> headb (Z.eqb 48) (show_fuel fuel base n) = false)
  /\ (n = 0 -> show_fuel fuel base n = [48]).
Proof.
  intros base Hb. pose proof (base_pos _ Hb).
  induction fuel as [|f IH]; intros n Hn Hf; [lia|]. cbn [show_fuel].
  destruct (n <? base) eqn:E.
  - apply Z.ltb_lt in E. destruct (digit_char_ok base n Hb ltac:(lia)) as [D1 D2].
    split; [auto|]. split; [cbn; lia|]. split; [discriminate|]. split.
    + intro Hp. cbn [headb]. apply Z.eqb_neq. unfold digit_char. destruct (n <? 10); lia.
    + intros ->. reflexivity.
  - apply Z.ltb_ge in E. destruct f as [|f].
    { cbn in Hn. lia. }
    assert (0 < n / base) as Hdp by (apply Z.div_str_pos; lia).
    destruct (IH (n / base)) as (I1 & I2 & I3 & I4 & I5); [|lia|].
    { split; [lia|]. apply Z.div_lt_upper_bound; [lia|]. rewrite <- Z.pow_succ_r by lia. rewrite <- Nat2Z.inj_succ. apply Hn. }
    assert (0 <= n mod base < base) as Hm by (apply Z.mod_pos_bound; lia).
    destruct (digit_char_ok base (n mod base) Hb Hm) as [D1 D2].
    set (sf := show_fuel (S f) base (n / base)) in *. clearbody sf.
    split; [apply Forall_app; split; auto|]. split.
    { rewrite num_acc, acc_app, <- num_acc, I2. cbn [acc_val fold_left]. rewrite D2.
      pose proof (Z.div_mod n base ltac:(lia)). lia. }
    split; [destruct sf; discriminate|]. split; [|lia].
    intros _. specialize (I4 Hdp). destruct sf; [congruence|]. exact I4.
Qed.

Lemma base_pow64 : forall base, base_ok base -> two64 <= base ^ 64.
Proof. intros base [-> | [-> | ->]]; vm_compute; discriminate. Qed.

Lemma stops_head : forall base rest, stops rest -> headb (isdig base) rest = false.
Proof.
  intros base [|c rest] H; auto. cbn in *. unfold alnum in H. unfold isdig.
  destruct ((48 <=? c) && (c <=? 57)) eqn:E1; [cbn in H; discriminate|].
  destruct ((65 <=? c) && (c <=? 70)) eqn:E2; [lia|].
  destruct ((97 <=? c) && (c <=? 102)) eqn:E3; [lia|]. reflexivity.
Qed.

(** Digits printed in the base selected by the options, or with an explicit prefix. *)
Definition base_prefix (base : Z) : list Z := if base =? 2 then [48; 98] else if base =? 16 then [48; 120] else [].

Lemma prefix_none : forall base opt n rest, 0 <= n < two64 -> stops rest -> opt_base opt = base ->
  read_prefix opt (show base n ++ rest) = (base, show base n ++ rest).
Proof.
  intros base opt n rest Hn Hs Hb.
  assert (base_ok base) as Hbo.
  { subst base. unfold opt_base, base_ok. destruct (flag opt STRNUM_BASE_BIN); auto. destruct (flag opt STRNUM_BASE_HEX); auto. }
  pose proof (base_pow64 base Hbo).
  destruct (show_ok base Hbo 64 n) as (S1 & S2 & S3 & S4 & S5); try lia. fold (show base n) in *.
  destruct (show base n) as [|z sh] eqn:Es; [congruence|]. cbn [app].
  assert ((z =? 48) = true -> match sh ++ rest with b :: _ => (b =? 98) || (b =? 66) || (b =? 120) || (b =? 88) = false | [] => True end) as K.
  { intro Hz. apply Z.eqb_eq in Hz. subst z.
    destruct (Z.eq_dec n 0) as [-> |N].
    - injection (S5 eq_refl) as ->. cbn [app]. destruct rest as [|b r]; auto. cbn in Hs. unfold alnum in Hs. lia.
    - cbn in S4. specialize (S4 ltac:(lia)). discriminate. }
  unfold read_prefix. cbn [app]. destruct (sh ++ rest) as [|b t]; [now rewrite Hb|].
  destruct (z =? 48); [|cbn [andb]; now rewrite Hb].
  specialize (K eq_refl). apply orb_false_iff in K as [K K4]. apply orb_false_iff in K as [K K3]. apply orb_false_iff in K as [K1 K2].
  rewrite K1, K2, K3, K4. cbn [andb orb]. now rewrite Hb.
Qed.

Lemma prefix_some : forall base opt t, (base = 2 -> flag opt STRNUM_BASE_HEX = false) -> (base = 16 -> flag opt STRNUM_BASE_BIN = false) ->
  flag opt STRNUM_NOBX = false -> base = 2 \/ base = 16 ->
  read_prefix opt (base_prefix base ++ t) = (base, t).
Proof.
  intros base opt t H1 H2 H3 [-> | ->]; cbn [base_prefix Z.eqb Pos.eqb app read_prefix orb andb].
  - rewrite H3, H1; auto.
  - rewrite H3, H2; auto.
Qed.

Lemma show_reads : forall sg base opt sp neg pre n rest,
  base_ok base -> 0 <= n < two64 -> stops rest ->
  Forall (fun c => c = 32) sp -> (sp <> [] -> flag opt STRNUM_NOSPACE = false) ->
  (neg = [] \/ ((neg = [45] \/ neg = [43]) /\ sg = true /\ flag opt STRNUM_NOSIGN = false)) ->
  (pre = [] /\ opt_base opt = base \/
   pre = base_prefix base /\ (base = 2 \/ base = 16) /\ flag opt STRNUM_NOBX = false /\
     (base = 2 -> flag opt STRNUM_BASE_HEX = false) /\ (base = 16 -> flag opt STRNUM_BASE_BIN = false)) ->
  read_int sg opt (sp ++ neg ++ pre ++ show base n ++ rest) =
  IntText (match neg with [45] => true | _ => false end) base (show base n) rest.
Proof.
  intros sg base opt sp neg pre n rest Hbo Hn Hs Hsp Hns Hneg Hpre.
  pose proof (base_pow64 base Hbo).
  destruct (show_ok base Hbo 64 n) as (S1 & S2 & S3 & S4 & S5); try lia. fold (show base n) in *.
  assert (exists h t, pre ++ show base n ++ rest = h :: t /\ 48 <= h <= 102) as (h & t & Eh & Rh).
  { destruct Hpre as [[-> _] | (-> & [-> | ->] & _)].
    - cbn [app]. destruct (show base n) as [|h t] eqn:E; [congruence|]. inversion S1; subst. exists h, (t ++ rest). split; auto.
      now apply (isdig_ascii base).
    - exists 48, (98 :: show 2 n ++ rest). split; [reflexivity|lia].
    - exists 48, (120 :: show 16 n ++ rest). split; [reflexivity|lia]. }
  unfold read_int.
  set (body := pre ++ show base n ++ rest) in *.
  replace (if flag opt STRNUM_NOSPACE then sp ++ neg ++ body else snd (span (Z.eqb 32) (sp ++ neg ++ body))) with (neg ++ body).
  2:{ destruct (flag opt STRNUM_NOSPACE).
      - destruct sp; auto. specialize (Hns ltac:(discriminate)). discriminate.
      - rewrite span_unique; auto.
        + eapply Forall_impl; [|exact Hsp]. intros ? ->. reflexivity.
        + destruct Hneg as [-> | [[-> | ->] _]]; cbn [app headb]; auto. rewrite Eh. cbn [headb]. apply Z.eqb_neq. lia. }
  replace (if sg && negb (flag opt STRNUM_NOSIGN) then read_sign (neg ++ body) else (false, neg ++ body))
    with (match neg with [45] => true | _ => false end, body).
  2:{ destruct Hneg as [-> | [[-> | ->] [-> ->]]].
      - destruct (sg && negb (flag opt STRNUM_NOSIGN)); auto. cbn [app]. rewrite Eh. unfold read_sign. zb. reflexivity.
      - reflexivity.
      - reflexivity. }
  replace (read_prefix opt body) with (base, show base n ++ rest).
  2:{ unfold body. destruct Hpre as [[-> Hb] | (-> & Hb & H1 & H2 & H3)].
      - symmetry. now apply prefix_none.
      - symmetry. now apply prefix_some. }
  rewrite (span_unique _ (show base n) rest S1 (stops_head base rest Hs)).
  reflexivity.
Qed.

Lemma show_parses : forall sg base opt lo hi sp neg pre n rest,
  base_ok base -> 0 <= n < two64 -> stops rest ->
  Forall (fun c => c = 32) sp -> (sp <> [] -> flag opt STRNUM_NOSPACE = false) ->
  (neg = [] \/ ((neg = [45] \/ neg = [43]) /\ sg = true /\ flag opt STRNUM_NOSIGN = false)) ->
  (pre = [] /\ opt_base opt = base \/
   pre = base_prefix base /\ (base = 2 \/ base = 16) /\ flag opt STRNUM_NOBX = false /\
     (base = 2 -> flag opt STRNUM_BASE_HEX = false) /\ (base = 16 -> flag opt STRNUM_BASE_BIN = false)) ->
  parse_int sg opt lo hi (sp ++ neg ++ pre ++ show base n ++ rest) =
  let v := match neg with [45] => - n | _ => n end in
  if (lo <=? v) && (v <=? hi) then Good v rest else Bad ERANGE.
Proof.
  intros sg base opt lo hi sp neg pre n rest Hbo Hn Hs Hsp Hns Hneg Hpre.
  unfold parse_int. rewrite (show_reads sg base opt sp neg pre n rest); auto.
  pose proof (base_pow64 base Hbo).
  destruct (show_ok base Hbo 64 n) as (S1 & S2 & S3 & S4 & S5); try lia. fold (show base n) in *.
  unfold int_value. cbn [it_digits it_neg it_base it_rest]. rewrite S2.
  destruct (show base n); [congruence|].
  destruct Hneg as [-> | [[-> | ->] _]]; reflexivity.
Qed.

(** The memory-level round trip. *)
Lemma show_ascii : forall base n, base_ok base -> 0 <= n < two64 -> Forall (fun x => x < 128) (show base n).
Proof.
  intros base n Hb Hn. pose proof (base_pow64 base Hb).
  destruct (show_ok base Hb 64 n) as (S1 & _); try lia. eapply Forall_impl; [|exact S1].
  cbn. intros a Ha. apply isdig_ascii in Ha. lia.
Qed.

Lemma ascii_safe : forall cf a b, Forall (fun x => x < 128) a -> ctype_safe cf b -> ctype_safe cf (a ++ b).
Proof.
  intros cf a b Ha [H|[H|H]]; [left; auto|right; left; auto|right; right]. apply Forall_app; split; auto.
  eapply Forall_impl; [|exact Ha]. cbn. auto.
Qed.
Lemma ascii_b0 : forall a b, Forall (fun x => x < 128) a -> no_b0 b -> no_b0 (a ++ b).
Proof.
  intros a b Ha [H1 H2]. rewrite Forall_forall in Ha. split; intro H; apply in_app_or in H as [H|H]; auto; apply Ha in H; lia.
Qed.

Lemma show_round : forall cf t f m s opt dst base sp neg pre n rest, consumer cf t = Some f ->
  base_ok base -> 0 <= n < two64 -> stops rest ->
  Forall (fun c => c = 32) sp -> (sp <> [] -> flag opt STRNUM_NOSPACE = false) ->
  (neg = [] \/ ((neg = [45] \/ neg = [43]) /\ ty_signed t = true /\ flag opt STRNUM_NOSIGN = false)) ->
  (pre = [] /\ opt_base opt = base \/
   pre = base_prefix base /\ (base = 2 \/ base = 16) /\ flag opt STRNUM_NOBX = false /\
     (base = 2 -> flag opt STRNUM_BASE_HEX = false) /\ (base = 16 -> flag opt STRNUM_BASE_BIN = false)) ->
  mem_wf m -> has_view m s (sp ++ neg ++ pre ++ show base n ++ rest) -> ctype_safe cf rest -> (base = 2 -> no_b0 rest) ->
  let v := match neg with [45] => - n | _ => n end in
  ty_lo cf t <= v <= ty_hi cf t ->
  exists k, f m dst (Some s) opt = Ok (Parsed NoErr (if dst then Some v else None) (Some (subview s k (Zlen rest))))
    /\ has_view m (subview s k (Zlen rest)) rest.
Proof.
  intros cf t f m s opt dst base sp neg pre n rest Hf Hbo Hn Hs Hsp Hns Hneg Hpre Hw Hv Hc Hb0 v Hr.
  assert (Forall (fun x => x < 128) (sp ++ neg ++ pre ++ show base n)) as Has.
  { apply Forall_app; split; [eapply Forall_impl; [|exact Hsp]; cbn; intros; lia|].
    apply Forall_app; split. { destruct Hneg as [-> | [[-> | ->] _]]; repeat constructor. }
    apply Forall_app; split; [|apply show_ascii; auto].
    destruct Hpre as [[-> _] | (-> & _)]; [constructor|]. unfold base_prefix. destruct (base =? 2); [repeat constructor|].
    destruct (base =? 16); repeat constructor. }
  pose proof (consumer_ok cf m s (sp ++ neg ++ pre ++ show base n ++ rest) opt Hw Hv) as K.
  assert (sp ++ neg ++ pre ++ show base n ++ rest = (sp ++ neg ++ pre ++ show base n) ++ rest) as Eq by now rewrite <- !app_assoc.
  specialize (K ltac:(rewrite Eq; apply ascii_safe; auto) t f dst Hf).
  rewrite (show_reads (ty_signed t) base opt sp neg pre n rest) in K; auto. cbn [it_base] in K.
  specialize (K ltac:(intro; rewrite Eq; apply ascii_b0; auto)).
  rewrite (show_parses (ty_signed t) base opt _ _ sp neg pre n rest) in K; auto. cbv zeta in K. fold v in K.
  rewrite (proj2 (Z.leb_le _ _) (proj1 Hr)), (proj2 (Z.leb_le _ _) (proj2 Hr)) in K. cbn [andb result_of] in K.
  destruct K as (a & Ea & _ & K). exists (Zlen a). split; auto. rewrite Ea in Hv. now apply has_view_suffix in Hv.
Qed.

(** ** A failing parser writes nothing, whatever its inputs *)
Definition quiet {T : Type} (r : outcome (parsed T)) : Prop :=
  forall p, r = Ok p -> pr_err p <> NoErr -> pr_dst p = None /\ pr_src p = None.

Lemma quiet_fail : forall T e, quiet (Ok (@Parsed T e None None)).
Proof. intros T e p H _. injection H as <-. auto. Qed.
Lemma quiet_good : forall T d s, quiet (Ok (@Parsed T NoErr d s)).
Proof. intros T d s p H N. injection H as <-. now elim N. Qed.
Lemma quiet_bind : forall S T (r : outcome S) (k : S -> outcome (parsed T)), (forall x, quiet (k x)) -> quiet (bind r k).
Proof. intros S T r k H p E. destruct r; try discriminate. eapply H; eauto. Qed.
Lemma quiet_store : forall dst c r, quiet r -> quiet (store_as dst c r).
Proof.
  intros dst c r H p E N. unfold store_as in E. destruct r as [q| |]; try discriminate. cbn [bind] in E. injection E as <-.
  cbn [pr_err pr_dst pr_src] in *. destruct (H q eq_refl N) as [-> ->]. split; auto. destruct (pr_err q); auto.
Qed.
Ltac quiet_tac := repeat first [apply quiet_fail | apply quiet_good | apply quiet_bind; intro
  | match goal with |- quiet (match ?x with _ => _ end) => destruct x end | progress cbv zeta].
Lemma quiet_signed : forall cf m d s o lo hi, quiet (consume_signed cf m d s o lo hi).
Proof. intros. unfold consume_signed. quiet_tac. Qed.
Lemma quiet_unsigned : forall cf m d s o hi, quiet (consume_unsigned cf m d s o hi).
Proof. intros. unfold consume_unsigned. quiet_tac. Qed.
Lemma quiet_consumer : forall cf t f m d s o, consumer cf t = Some f -> quiet (f m d s o).
Proof.
  intros cf t f m d s o E. destruct t; cbn in E; try discriminate; injection E as <-;
  try apply quiet_store; first [apply quiet_signed | apply quiet_unsigned].
Qed.
Lemma quiet_float : forall cf A m d s o, quiet (strnum_consume_float cf A m d s o) /\ quiet (strnum_consume_double cf A m d s o).
Proof.
  intros. assert (forall e c, quiet (finish_float cf A m d s e c)) as H.
  { intros e c. unfold finish_float. quiet_tac. intros p Hp; discriminate. }
  split; [unfold strnum_consume_float|unfold strnum_consume_double; cbv zeta]; repeat first [apply H | apply quiet_bind; intro
  | match goal with |- quiet (match ?x with _ => _ end) => destruct x end].
Qed.

(** ** Base 2: what a successful parse consumed *)
Lemma isdig2 : forall c, isdig 2 c = true <-> c = 48 \/ c = 49.
Proof.
  intro c. unfold isdig, dval. split.
  - intro H. destruct (c <=? 57) eqn:E1; [|destruct (c <=? 70) eqn:E2];
    rewrite ?andb_true_iff, ?orb_true_iff, ?Z.leb_le, ?Z.ltb_lt, ?Z.leb_gt in *; lia.
  - intros [-> | ->]; reflexivity.
Qed.

Lemma read_sign_split : forall l, exists a, l = a ++ snd (read_sign l).
Proof.
  intros [|c l]; [exists []; reflexivity|]. cbn [read_sign].
  destruct (c =? 45); [exists [c]; reflexivity|]. destruct (c =? 43); [exists [c]|exists []]; reflexivity.
Qed.
Lemma read_prefix_split : forall opt l, exists a, l = a ++ snd (read_prefix opt l).
Proof.
  intros opt [|z [|b l]]; try (exists []; reflexivity). cbn [read_prefix].
  destruct (_ && _); [exists [z; b]; reflexivity|]. destruct (_ && _); [exists [z; b]|exists []]; reflexivity.
Qed.
(** The parts of an integer text in order. *)
Lemma read_int_split : forall sg opt l, exists a,
  l = a ++ it_digits (read_int sg opt l) ++ it_rest (read_int sg opt l)
  /\ exists l3, span (isdig (it_base (read_int sg opt l))) l3 = (it_digits (read_int sg opt l), it_rest (read_int sg opt l)).
Proof.
  intros sg opt l. unfold read_int. cbv zeta.
  set (l1 := if flag opt STRNUM_NOSPACE then l else snd (span (Z.eqb 32) l)).
  assert (exists a, l = a ++ l1) as [a1 E1].
  { unfold l1. destruct (flag opt STRNUM_NOSPACE); [exists []; reflexivity|].
    exists (fst (span (Z.eqb 32) l)). symmetry. apply span_app. }
  assert (exists a, l1 = a ++ snd (if sg && negb (flag opt STRNUM_NOSIGN) then read_sign l1 else (false, l1))) as [a2 E2].
  { destruct (sg && _); [apply read_sign_split|exists []; reflexivity]. }
  destruct (if sg && _ then _ else _) as [ng l2]. cbn [snd] in E2.
  destruct (read_prefix_split opt l2) as [a3 E3]. destruct (read_prefix opt l2) as [base l3]. cbn [snd] in E3.
  pose proof (span_app (isdig base) l3) as E4. destruct (span (isdig base) l3) as [ds rest] eqn:Es. cbn [fst snd] in E4.
  cbn [it_digits it_rest it_base]. exists (a1 ++ a2 ++ a3). split; [|exists l3; exact Es].
  rewrite E1, E2, E3, <- E4, <- !app_assoc. reflexivity.
Qed.

Lemma bin_value_ok : forall cf m s l opt t f p, consumer cf t = Some f ->
  mem_wf m -> has_view m s l -> ctype_safe cf l -> no_b0 l ->
  flag opt STRNUM_BASE_BIN = true -> flag opt STRNUM_BASE_HEX = false ->
  f m true (Some s) opt = Ok p -> pr_err p = NoErr ->
  exists a ds rest, l = a ++ ds ++ rest /\ ds <> [] /\ Forall (fun c => c = 48 \/ c = 49) ds
    /\ (forall c r, rest = c :: r -> c <> 48 /\ c <> 49)
    /\ pr_src p = Some (subview s (Zlen (a ++ ds)) (Zlen rest))
    /\ (pr_dst p = Some (num_val 2 ds) \/ pr_dst p = Some (- num_val 2 ds)).
Proof.
  intros cf m s l opt t f p Hf Hw Hv Hc Hb O2 O16 E Ep.
  pose proof (consumer_ok cf m s l opt Hw Hv Hc t f true Hf (fun _ => Hb)) as K.
  unfold parse_int in K. set (n := read_int (ty_signed t) opt l) in *.
  assert (it_base n = 2) as B.
  { unfold n, read_int. cbv zeta. set (l1 := if flag opt STRNUM_NOSPACE then l else snd (span (Z.eqb 32) l)).
    destruct (if ty_signed t && negb (flag opt STRNUM_NOSIGN) then read_sign l1 else (false, l1)) as [ng l2].
    assert (fst (read_prefix opt l2) = 2) as P.
    { unfold read_prefix, opt_base. rewrite O2, O16. destruct l2 as [|z [|b l2]]; try reflexivity.
      cbn [negb andb]. rewrite !andb_false_r. match goal with |- context [if ?c then _ else _] => destruct c end; reflexivity. }
    destruct (read_prefix opt l2) as [base l3]. cbn [fst] in P. subst base.
    destruct (span (isdig 2) l3) as [ds rest] eqn:Es. reflexivity. }
  destruct (read_int_split (ty_signed t) opt l) as (pre & Ep' & l3 & Es). fold n in Ep', Es. rewrite B in Es.
  unfold int_value in K. rewrite B in K.
  destruct (it_digits n) as [|d0 ds0] eqn:Ed.
  { cbn in K. rewrite K in E. injection E as <-. discriminate. }
  destruct (_ && _) in K; cbn [result_of] in K; [|rewrite K in E; injection E as <-; discriminate].
  destruct K as (a & El & Ha & K). rewrite K in E. injection E as <-.
  assert (a = pre ++ d0 :: ds0) as Ea by (rewrite El, app_assoc in Ep'; now apply app_inv_tail in Ep').
  pose proof (span_all (isdig 2) l3) as SA. pose proof (span_head (isdig 2) l3) as SH. rewrite Es in SA, SH. cbn [fst snd] in SA, SH.
  exists pre, (d0 :: ds0), (it_rest n). split; [exact Ep'|]. split; [discriminate|].
  split; [eapply Forall_impl; [|exact SA]; intros c Hx; now apply isdig2|].
  split. { intros c r Er. rewrite Er in SH. cbn in SH. split; intros ->; discriminate. }
  rewrite <- Ea. split; [reflexivity|]. cbn [pr_dst]. destruct (it_neg n); auto.
Qed.
