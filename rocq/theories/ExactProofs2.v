(** Proofs that the cases excluded by the partial theorems about numbers and prnf fail in every instance. *)
From Coq Require Import SpecFloat.
From Verif Require Import Base Mem Libc StrviewModel Spec MemLemmas StrviewProofs NumSpec NumSpec2 FloatSpec StrnumModel StrnumProofs StrnumProofs2 StrnumProofs3
  StrnumFloat StrnumFloatVal NumDocsProofs PrnfModel PrnfSpec PrnfSpec2 PrnfProofs PrnfProofs2 PrnfProofs3 PrnfProofs4 PrnfProofs5 PrnfProofs9 PrnfFormat2 PrnfView PrnfPadProofs.

(** ** What a float parser leaves in the source *)
Lemma float_rest : forall cf A m dst s l opt d s', mem_wf m -> has_view m s l -> ctype_safe cf l ->
  strnum_consume_double cf A m dst (Some s) opt = Ok (Parsed NoErr d (Some s')) ->
  exists t, read_float_exact opt l = FGood t /\
    (ft_special t <> NoSpecial /\ ft_rest t = [] /\ s' = INVALID \/
     (ft_special t = NoSpecial \/ ft_rest t <> []) /\ has_view m s' (ft_rest t)).
Proof.
  intros cf A m dst s l opt d s' Hw Hv Hc E. pose proof (float_ok_exact cf A m dst s l opt Hw Hv Hc) as K.
  destruct (read_float_exact opt l) as [e|t].
  - destruct K as [Ne K]. rewrite E in K. injection K as <- _ _. congruence.
  - exists t. split; auto. destruct K as (a & -> & _ & K). rewrite E in K. destruct (float_over A t); [discriminate|].
    injection K as _ ->. apply has_view_suffix in Hv. unfold rest_view_of. destruct (ft_special t); [right; auto| |].
    + destruct (ft_rest t); [left; repeat split; discriminate|right; split; [right; discriminate|exact Hv]].
    + destruct (ft_rest t); [left; repeat split; discriminate|right; split; [right; discriminate|exact Hv]].
Qed.

(** ** A zero mantissa and an infinite power of ten *)
Lemma chunk1_zeros : forall l, Forall (fun c => c = 48) l -> chunk1 l 0 = (0, []).
Proof. induction 1 as [|x l -> H IH]; [reflexivity|]. cbn [chunk1]. change (0 * 10 + dval 48) with 0. exact IH. Qed.
Lemma drop_zeros : forall l, Forall (fun c => c = 48) l -> drop_in_end [48] l = [].
Proof.
  induction l as [|x l IH] using rev_ind; intros H; [reflexivity|]. apply Forall_app in H as [H1 H2]. inversion H2; subst.
  rewrite drop_in_end_snoc. cbn [existsb Z.eqb Pos.eqb orb]. auto.
Qed.
Lemma zero_times_infinity : forall prec emax pow10 cf m s l opt t, mem_wf m -> has_view m s l -> ctype_safe cf l ->
  read_float_exact opt l = FGood t -> ft_special t = NoSpecial ->
  Forall (fun c => c = 48) (ft_int t) -> Forall (fun c => c = 48) (ft_frac t) ->
  (exists a e, pow10 0 = S754_finite false a e) -> pow10 (ft_exp t) = S754_infinity false ->
  exists rest, strnum_consume_double cf (ieee prec emax pow10) m true (Some s) opt = Ok (Parsed NoErr (Some S754_nan) rest).
Proof.
  intros prec emax pow10 cf m s l opt t Hw Hv Hc Ht Hs Zi Zf (pa & pe & P0) Pe.
  pose proof (float_ok_exact cf (ieee prec emax pow10) m true s l opt Hw Hv Hc) as K. rewrite Ht in K. destruct K as (a & _ & _ & K).
  assert (float_result (ieee prec emax pow10) t = S754_nan) as F.
  { unfold float_result. rewrite Hs. unfold float_pure. rewrite (drop_zeros _ Zf). cbn [length frac_pure].
    assert (exists b, int_pure (ieee prec emax pow10) (length (ft_int t)) (ft_int t) (a_zero (ieee prec emax pow10)) = S754_zero b) as (b & ->).
    { destruct (ft_int t) as [|x li]; [eexists; reflexivity|]. cbn [length int_pure]. rewrite (chunk1_zeros _ Zi).
      assert (forall n (r : a_t (ieee prec emax pow10)), int_pure (ieee prec emax pow10) n [] r = r) as -> by (destruct n; reflexivity).
      cbn [ieee a_mul a_add a_zero a_of_ull a_pow10]. change (Zlen (@nil Z)) with 0. rewrite P0. eexists. reflexivity. }
    cbn [ieee a_mul a_pow10]. rewrite Pe. destruct b; reflexivity. }
  unfold float_over, signed_result in K. rewrite F, Hs in K. cbn [ieee a_is_inf a_is_nan a_nan] in K. eexists. exact K.
Qed.

(** ** The most negative number anywhere in a format *)
Lemma negation_ub : forall cf A m n fmt (items : list (item (dbl A))) c t rest va, wf_cfg cf -> c_wrapv cf = false -> conv_ok c -> t = 100 \/ t = 105 ->
  len_bytes cf (cv_len c) = 8 -> Zlen (plain cf items) < INT_MAX -> items_before cf (fun _ _ _ => False) 37 items -> Forall (item_mem m) items ->
  bytes_at m fmt (format items ++ conv_text c t ++ rest) ->
  vsnprnf cf A mem mid mwr m null n fmt (arguments cf items ++ conv_args c ++ int_arg cf (cv_len c) LLONG_MIN :: va) = UB UB_overflow.
Proof.
  intros cf A m n fmt items c t rest va Wf Wv Hc Ht Hl Hp Hi Hm Hf.
  set (body := map flg_char (cv_flags c) ++ wid_text (cv_width c) ++ prc_text (cv_prec c) ++ len_text (cv_len c)).
  assert (conv_text c t ++ rest = 37 :: body ++ t :: rest) as Eb by (unfold conv_text, body; cbn [app]; rewrite <- !app_assoc; reflexivity).
  rewrite Eb in Hf. assert (longer c t = false) as Hlo by (apply type_past; unfold type_char; cbn [In]; destruct Ht as [E|E]; rewrite E; tauto).
  apply (measure_stuck cf A m n fmt items 37 (body ++ t :: rest)); auto; [unfold is_byte; lia|].
  intros o fuel limit Q Ho Hlim. pose proof Q as (Q1 & Q2 & Q3 & Q4). cbn [core_loop]. rewrite Q3.
  pose proof Hf as Hg. apply bytes_at_app in Hg as [_ Hg]. destruct (at_step cf _ _ _ _ Hg) as (H1 & H2 & H3). change (mid m) with m. rewrite H1. cbn [bind Z.eqb Pos.eqb]. rewrite H2. cbn [bind].
  destruct (first_char c t rest Hc Hlo) as (y & s & Ey & Ny). unfold body in H3. rewrite <- !app_assoc in H3.
  assert (load_byte m (shift (shift fmt (Zlen (format items))) 1) = Ok y) as -> by (rewrite Ey in H3; now apply bytes_at_cons in H3). cbn [bind]. rewrite (proj2 (Z.eqb_neq y 37)) by auto.
  rewrite (parse_placeholder_ok cf c t rest limit m _ Hc Hlo H3).
  2:{ fold body. rewrite app_length in Hlim. cbn [length] in Hlim. rewrite app_length in Hlim. lia. }
  cbn [bind]. rewrite read_varg_conv by auto. assert (type_of t = TYPE_INT) as -> by (destruct Ht as [E|E]; rewrite E; reflexivity).
  unfold read_value, int_arg. cbn [ph_of ph_type ph_size]. rewrite Hl. cbn [Z.eqb Pos.eqb bind].
  unfold print_placeholder. cbn [ph_type]. unfold print_dec. cbn [ph_type is_type_unsigned].
  assert (s64 (LLONG_MIN mod 2 ^ 64) = LLONG_MIN) as -> by (vm_compute; reflexivity).
  rewrite Wv. reflexivity.
Qed.

(** ** Zeros in front of a sign *)
Lemma span_zeros : forall k x r, isdig 10 x = false -> span (isdig 10) (repeat 48 k ++ x :: r) = (repeat 48 k, x :: r).
Proof. induction k as [|k IH]; intros x r H; cbn [repeat app span]; [now rewrite H|]. change (isdig 10 48) with true. cbv iota. now rewrite IH. Qed.
Lemma num_zeros : forall k, num_val 10 (repeat 48 k) = 0.
Proof. induction k as [|k IH]; [reflexivity|]. exact IH. Qed.
Lemma read_zeros : forall sg k x r, x = 43 \/ x = 45 \/ x = 32 ->
  read_int sg 0 (repeat 48 (S k) ++ x :: r) = IntText false 10 (repeat 48 (S k)) (x :: r).
Proof.
  intros sg k x r Hx. unfold read_int. change (flag 0 STRNUM_NOSPACE) with false. change (flag 0 STRNUM_NOSIGN) with false. cbn [repeat app span Z.eqb Pos.eqb snd].
  assert ((if sg && negb false then read_sign (48 :: repeat 48 k ++ x :: r) else (false, 48 :: repeat 48 k ++ x :: r)) = (false, 48 :: repeat 48 k ++ x :: r)) as ->
    by (destruct sg; reflexivity).
  assert (read_prefix 0 (48 :: repeat 48 k ++ x :: r) = (10, repeat 48 (S k) ++ x :: r)) as ->.
  { destruct k as [|k]; [|reflexivity]. cbn [repeat app read_prefix]. destruct Hx as [-> | [-> | ->]]; reflexivity. }
  rewrite span_zeros by (destruct Hx as [-> | [-> | ->]]; reflexivity). reflexivity.
Qed.
Lemma reads_zero : forall cf t f m s k x r, consumer cf t = Some f -> mem_wf m -> has_view m s (repeat 48 (S k) ++ x :: r) -> ctype_safe cf (repeat 48 (S k) ++ x :: r) ->
  x = 43 \/ x = 45 \/ x = 32 ->
  exists s', f m true (Some s) 0 = Ok (Parsed NoErr (Some 0) (Some s')) /\ has_view m s' (x :: r).
Proof.
  intros cf t f m s k x r Hf Hw Hv Hc Hx.
  pose proof (consumer_ok cf m s _ 0 Hw Hv Hc t f true Hf) as K. rewrite (read_zeros (ty_signed t) k x r Hx) in K.
  specialize (K ltac:(cbn; discriminate)). unfold parse_int in K. rewrite (read_zeros (ty_signed t) k x r Hx) in K.
  cbn [it_digits it_rest it_neg it_base repeat] in K. unfold int_value in K. cbn [it_neg it_base it_digits] in K.
  change (48 :: repeat 48 k) with (repeat 48 (S k)) in K. rewrite num_zeros in K.
  assert (ty_lo cf t <= 0 <= ty_hi cf t) as [L U].
  { unfold ty_lo, ty_hi, ty_bits. destruct (ty_neg cf t), t; destruct (c_long64 cf); cbn; lia. }
  rewrite (proj2 (Z.leb_le _ _) L), (proj2 (Z.leb_le _ _) U) in K. cbn [andb] in K.
  destruct K as (a & Ea & _ & K). exists (subview s (Zlen a) (Zlen (x :: r))). split; [exact K|].
  rewrite Ea in Hv. now apply has_view_suffix in Hv.
Qed.

(** ** Zeros in front of a sign *)
Lemma zeros_in_front : forall c x v, 0 <= v < two64' -> left_aligned c = false -> int_fill c = 48 -> x = 43 \/ x = 45 \/ x = 32 ->
  Zlen (x :: dec_digits c v) < width_of c ->
  exists k, pad c (int_fill c) ([x] ++ dec_digits c v) = repeat 48 (S k) ++ x :: dec_digits c v /\
    Forall (fun b => b < 128) (repeat 48 (S k) ++ x :: dec_digits c v).
Proof.
  intros c x v Hv Hl Hf Hx Hw. destruct (dec_digits_ok c v Hv) as (D1 & _ & _). unfold pad. rewrite Hl, Hf. cbn [app] in *.
  exists (Nat.pred (Z.to_nat (width_of c - Zlen (x :: dec_digits c v)))). unfold copies.
  replace (S (Nat.pred (Z.to_nat (width_of c - Zlen (x :: dec_digits c v))))) with (Z.to_nat (width_of c - Zlen (x :: dec_digits c v))) by lia.
  split; auto. apply Forall_app. split.
  - apply Forall_forall. intros b Hb. apply repeat_spec in Hb. lia.
  - constructor; [lia|]. eapply Forall_impl; [|exact D1]. unfold dec, isdig. intros y Hy. lia.
Qed.
