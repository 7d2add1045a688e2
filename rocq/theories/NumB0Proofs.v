(** The integer parsers on every text: without the assumption on the bytes 0xB0 and 0xB1.
    These proofs follow StrnumProofs, StrnumProofs2 and StrnumProofs3 with the exact digit test. *)
From Verif Require Import Base Mem Libc StrviewModel StrnumModel Spec NumSpec NumSpec2 MemLemmas
  StrviewProofs StrviewProofs2 StrviewProofs3 StrnumProofs StrnumProofs2 StrnumProofs3.

Lemma read_digit_same : forall base, base <> 2 -> forall c, read_digit base c = c.
Proof. intros base H c. unfold read_digit. now rewrite (proj2 (Z.eqb_neq base 2)). Qed.
Lemma is_read_digit_same : forall base, base <> 2 -> forall c, is_read_digit base c = isdig base c.
Proof. intros base H c. unfold is_read_digit. now rewrite read_digit_same. Qed.
Lemma read_digit_low : forall c, c <> 176 -> c <> 177 -> read_digit 2 c = c.
Proof. intros c H1 H2. unfold read_digit. cbn [Z.eqb Pos.eqb]. now rewrite (proj2 (Z.eqb_neq c 176)), (proj2 (Z.eqb_neq c 177)). Qed.

Lemma isbdigit_exact : forall cf x, is_byte x -> isbdigit (char_int cf x) = is_read_digit 2 x.
Proof.
  intros cf x Hx. rewrite char_chr. generalize (c_char_signed cf) as sg. intro sg. destruct sg.
  - by_bytes (fun x => eqb (isbdigit (chr true x)) (is_read_digit 2 x)). now apply eqb_prop.
  - by_bytes (fun x => eqb (isbdigit (chr false x)) (is_read_digit 2 x)). now apply eqb_prop.
Qed.
Lemma bin_low_exact : forall cf x, is_byte x -> is_read_digit 2 x = true ->
  Z.land (char_int cf x) 1 = dval (read_digit 2 x).
Proof.
  intros cf x Hx H. rewrite char_chr. generalize (c_char_signed cf) as sg. intro sg. destruct sg.
  - by_bytes (fun x => negb (is_read_digit 2 x) || (Z.land (chr true x) 1 =? dval (read_digit 2 x))).
    rewrite H in H0. now apply Z.eqb_eq.
  - by_bytes (fun x => negb (is_read_digit 2 x) || (Z.land (chr false x) 1 =? dval (read_digit 2 x))).
    rewrite H in H0. now apply Z.eqb_eq.
Qed.

Lemma at_bdigit_exact : forall cf m s l, has_view m s l -> at_bdigit cf m s = Ok (headb (is_read_digit 2) l).
Proof.
  intros cf m s l H. unfold at_bdigit. rewrite (has_view_size _ _ _ H). destruct l as [|x l]; [reflexivity|].
  rewrite Zlen_cons. pose proof (Zlen_nonneg l). zb.
  destruct H as (Hb & _ & _ & Hf). inversion Hf; subst.
  apply bytes_at_cons in Hb as [Hl _]. rewrite Hl. cbn [bind headb]. now rewrite isbdigit_exact.
Qed.

Definition rd (base : Z) (ds : list Z) : list Z := map (read_digit base) ds.

(** What the digit consumers do: they take a non-empty prefix of digits whose value fits. *)
Definition chunk_x (base : Z) (s : view) (l : list Z) (r : outcome (errno * Z * view)) : Prop :=
  exists a b e v, r = Ok (e, v, rest_of s a b) /\ l = a ++ b /\ Forall (fun x => is_read_digit base x = true) a
    /\ v = num_val base (map (read_digit base) a) /\ 0 <= v <= ULLONG_MAX
    /\ ((e = NoErr /\ headb (is_read_digit base) b = false) \/
        (e = ERANGE /\ exists d b', b = d :: b' /\ is_read_digit base d = true
           /\ ULLONG_MAX < v * base + dval (read_digit base d))).

Lemma map_same : forall base, base <> 2 -> forall l, map (read_digit base) l = l.
Proof. intros base H. induction l as [|x l IH]; cbn [map]; auto. now rewrite IH, read_digit_same. Qed.
Lemma headb_same : forall base, base <> 2 -> forall l, headb (is_read_digit base) l = headb (isdig base) l.
Proof. intros base H [|x l]; cbn [headb]; auto. now rewrite is_read_digit_same. Qed.

Lemma chunk_chunk_x : forall base s l r, base <> 2 -> chunk base s l r -> chunk_x base s l r.
Proof.
  intros base s l r Hb (a & b & e & v & H1 & H2 & H3 & H4 & H5 & H6). exists a, b, e, v.
  split; [exact H1|]. split; [exact H2|]. split.
  { eapply Forall_impl; [|exact H3]. intros x Hx. now rewrite is_read_digit_same. }
  rewrite map_same by auto. split; [exact H4|]. split; [exact H5|].
  destruct H6 as [[H6 H7]|[H6 (d & b' & H7 & H8 & H9)]]; [left|right].
  - rewrite headb_same; auto.
  - split; auto. exists d, b'. rewrite is_read_digit_same, read_digit_same; auto.
Qed.

Lemma bin_loop_exact : forall cf m l s fuel acc, has_view m s l -> (length l < fuel)%nat ->
  0 <= acc <= ULLONG_MAX ->
  exists a b e v, bin_loop cf fuel m s acc = Ok (e, v, rest_of s a b) /\ l = a ++ b
    /\ Forall (fun x => is_read_digit 2 x = true) a
    /\ v = acc_val 2 acc (map (read_digit 2) a) /\ 0 <= v <= ULLONG_MAX
    /\ ((e = NoErr /\ headb (is_read_digit 2) b = false) \/
        (e = ERANGE /\ exists d b', b = d :: b' /\ is_read_digit 2 d = true
           /\ ULLONG_MAX < v * 2 + dval (read_digit 2 d))).
Proof.
  intros cf m. induction l as [|x l IH]; intros s fuel acc Hv Hf Ha;
    (destruct fuel as [|fuel]; [cbn in Hf; lia|]); cbn [bin_loop].
  - rewrite (at_bdigit_exact cf m s []); auto. cbn [bind headb].
    exists [], [], NoErr, acc. rewrite (rest_nil m s []); auto. cbn. repeat split; auto; lia.
  - rewrite (at_bdigit_exact cf m s (x :: l)); auto. cbn [bind headb].
    destruct (is_read_digit 2 x) eqn:Ed.
    2:{ exists [], (x :: l), NoErr, acc. rewrite (rest_nil m s (x :: l)); auto. cbn. repeat split; auto; lia. }
    assert (is_byte x) as Hx by (destruct Hv as (_ & _ & _ & Hv); inversion Hv; auto).
    pose proof (isdig_dval _ _ Ed).
    change ULLONG_MAX with (two64 - 1) in *.
    rewrite bit_ok by lia.
    destruct (acc <? 2 ^ 63) eqn:E; cbn [negb].
    + apply Z.ltb_lt in E. change (2 ^ 63) with 9223372036854775808 in E.
      rewrite (pop_num cf m s x l); auto. cbn [bind]. rewrite bin_low_exact by auto.
      rewrite Z.mod_small by (rewrite Z.shiftl_mul_pow2 by lia; unfold two64 in *; lia).
      rewrite lor_bit by lia. unfold two64 in *.
      destruct (IH (rest_of s [x] l) fuel (2 * acc + dval (read_digit 2 x))) as (a & b & e & v & H1 & H2 & H3 & H4 & H5 & H6).
      * apply (rest_view m s [x] l); auto.
      * cbn in Hf; lia.
      * lia.
      * exists (x :: a), b, e, v. rewrite H1. subst l. rewrite rest_rest. repeat split; auto; try lia.
        rewrite H4. unfold acc_val. cbn [map fold_left]. f_equal. lia.
    + apply Z.ltb_ge in E. change (2 ^ 63) with 9223372036854775808 in E. unfold two64 in *.
      exists [], (x :: l), ERANGE, acc. rewrite (rest_nil m s (x :: l)); auto.
      cbn [app]. repeat split; auto; try lia. right. split; auto. exists x, l. repeat split; auto. lia.
Qed.

Lemma zeros_read : forall z, Forall (fun x => x = 48) z -> map (read_digit 2) z = z.
Proof. induction 1 as [|x z -> _ IH]; cbn [map]; auto. now rewrite IH. Qed.

Lemma consume_bin_exact : forall cf m s l, has_view m s l -> headb (is_read_digit 2) l = true ->
  chunk_x 2 s l (consume_bin_digits cf m s).
Proof.
  intros cf m s l Hv Hd. unfold consume_bin_digits. rewrite (at_bdigit_exact cf m s l); auto. rewrite Hd. cbn [bind].
  destruct (trim_char cf m s l 48) as (z & l0 & -> & Hz & _ & ->); auto. { unfold is_byte; lia. } cbn [bind].
  pose proof (rest_view _ _ _ _ Hv) as Hv0.
  rewrite (has_view_size _ _ _ Hv0), Zlen_to_nat.
  destruct (bin_loop_exact cf m l0 (rest_of s z l0) (S (length l0)) 0) as (a & b & e & v & E & -> & F & V & B & S); auto.
  { unfold ULLONG_MAX; lia. }
  exists (z ++ a), b, e, v. rewrite E, rest_rest. split; auto. split; [now rewrite <- app_assoc|]. split.
  { apply Forall_app; split; auto. eapply Forall_impl; [|exact Hz]. intros x ->. reflexivity. }
  split; auto. rewrite map_app, (zeros_read z Hz). rewrite num_acc, acc_app, (zeros_val 2 z 0); auto; lia.
Qed.

Lemma consume_digits_exact : forall cf m s l base, has_view m s l -> ctype_safe cf l -> base_ok base ->
  (headb (is_read_digit base) l = true -> chunk_x base s l (consume_digits cf m s base)) /\
  (headb (is_read_digit base) l = false -> consume_digits cf m s base = Ok (EINVAL, 0, s)).
Proof.
  intros cf m s l base Hv Hc Hb.
  destruct (Z.eq_dec base 2) as [-> |N].
  - unfold consume_digits; cbn [Z.eqb Pos.eqb]; split; intro Hd.
    + now apply consume_bin_exact.
    + unfold consume_bin_digits. rewrite (at_bdigit_exact cf m s l); auto. now rewrite Hd.
  - rewrite headb_same by auto.
    destruct (consume_digits_ok cf m s l base Hv Hc (fun E => False_ind _ (N E)) Hb) as [H1 H2].
    split; intro Hd; auto. apply chunk_chunk_x; auto.
Qed.

Lemma map_digits : forall base a, Forall (fun x => is_read_digit base x = true) a ->
  Forall (fun x => isdig base x = true) (map (read_digit base) a).
Proof. induction 1 as [|x a H _ IH]; cbn [map]; constructor; auto. Qed.

Lemma num_nonneg_x : forall base ds, 2 <= base -> Forall (fun x => is_read_digit base x = true) ds ->
  0 <= num_val base (map (read_digit base) ds).
Proof. intros. apply num_nonneg; auto. now apply map_digits. Qed.

Lemma digits_ok_x : forall cf m s l base, ctype_safe cf l -> base_ok base ->
  (has_view m s l \/ (l = [] /\ s = INVALID)) ->
  let (ds, rest) := span (is_read_digit base) l in
  exists e v s', consume_digits cf m s base = Ok (e, v, s') /\
    (ds = [] -> e = EINVAL) /\
    (ds <> [] -> ULLONG_MAX < num_val base (map (read_digit base) ds) -> e = ERANGE) /\
    (ds <> [] -> num_val base (map (read_digit base) ds) <= ULLONG_MAX ->
       e = NoErr /\ v = num_val base (map (read_digit base) ds) /\ s' = rest_of s ds rest).
Proof.
  intros cf m s l base Hc Hb [Hv|[-> ->]].
  2:{ cbn. exists EINVAL, 0, INVALID. split; [|repeat split; congruence].
      destruct Hb as [-> | [-> | ->]]; reflexivity. }
  destruct (consume_digits_exact cf m s l base) as [H1 H2]; auto.
  destruct (headb (is_read_digit base) l) eqn:Eh.
  - destruct (H1 eq_refl) as (a & b & e & v & E & -> & Fa & Ev & Bv & S).
    pose proof (base_pos _ Hb) as Hbp.
    rewrite (span_prefix (is_read_digit base) a b Fa).
    destruct S as [[-> Hh] | (-> & d & b' & -> & Hd & Ho)].
    + rewrite (span_nil _ b Hh). cbn [fst snd]. rewrite app_nil_r.
      exists NoErr, v, (rest_of s a b). split; auto. rewrite <- Ev. split; [|split].
      * intros ->. cbn in *. congruence.
      * lia.
      * auto.
    + pose proof (span_all (is_read_digit base) (d :: b')) as Fs. pose proof (span_app (is_read_digit base) (d :: b')) as As.
      set (x := fst (span (is_read_digit base) (d :: b'))) in *.
      assert (exists x', x = d :: x') as [x' Ex].
      { unfold x. cbn [span]. rewrite Hd. destruct (span (is_read_digit base) b'); cbn. eauto. }
      exists ERANGE, v, (rest_of s a (d :: b')). split; auto. split; [|split].
      * rewrite Ex. intro Hx. destruct a; discriminate.
      * auto.
      * intros _ Hle. exfalso. rewrite map_app, num_acc, acc_app, <- num_acc, <- Ev, Ex in Hle.
        rewrite Ex in Fs. apply Forall_inv_tail in Fs. cbn [map acc_val fold_left] in Hle.
        pose proof (isdig_dval _ _ Hd).
        pose proof (acc_nonneg base (map (read_digit base) x') (v * base + dval (read_digit base d))) as G. unfold acc_val in G.
        specialize (G ltac:(lia) ltac:(nia) (map_digits _ _ Fs)). lia.
  - rewrite (span_nil _ l Eh). rewrite (H2 eq_refl). exists EINVAL, 0, s. repeat split; auto; congruence.
Qed.

Lemma parse_range_x : forall sg opt lo hi l v r, parse_int_exact sg opt lo hi l = Good v r -> lo <= v <= hi.
Proof.
  intros sg opt lo hi l v r H. unfold parse_int_exact in H. destruct (it_digits (read_int_exact sg opt l)); [discriminate|].
  destruct ((lo <=? int_value (read_int_exact sg opt l)) && (int_value (read_int_exact sg opt l) <=? hi)) eqn:E; [|discriminate].
  injection H as <- _. lia.
Qed.

Lemma store_as_ok_x : forall s l sg opt lo hi dst cast r,
  (forall v, lo <= v <= hi -> cast v = v) ->
  result_of true s l (parse_int_exact sg opt lo hi l) r ->
  result_of dst s l (parse_int_exact sg opt lo hi l) (store_as dst cast r).
Proof.
  intros s l sg opt lo hi dst cast r Hc H. destruct (parse_int_exact sg opt lo hi l) as [e|v rest] eqn:E; cbn in *.
  - subst r. cbn. destruct e; reflexivity.
  - destruct H as (a & H1 & H2 & ->). exists a. repeat split; auto. cbn. rewrite Hc; auto. eapply parse_range_x; eauto.
Qed.

Lemma unsigned_ok_x : forall cf m dst s l opt hi, mem_wf m -> has_view m s l -> ctype_safe cf l ->
  0 <= hi <= ULLONG_MAX ->
  result_of dst s l (parse_int_exact false opt 0 hi l) (consume_unsigned cf m dst (Some s) opt hi).
Proof.
  intros cf m dst s l opt hi Hw Hv Hc Hhi.
  unfold consume_unsigned. rewrite (has_view_valid _ _ _ Hv). cbn [negb].
  unfold parse_int_exact, read_int_exact in *. cbn [andb] in *.
  (* spaces *)
  set (l1 := if flag opt STRNUM_NOSPACE then l else snd (span (Z.eqb 32) l)) in *.
  assert (exists a1, l = a1 ++ l1 /\ (if negb (flag opt STRNUM_NOSPACE)
      then strview_trim_start cf m s (vlit [32]) else Ok s) = Ok (rest_of s a1 l1)) as (a1 & El & Et).
  { unfold l1. destruct (flag opt STRNUM_NOSPACE); cbn [negb].
    - exists []. split; auto. now rewrite (rest_nil m s l).
    - destruct (trim_space cf m s l Hv) as (z & E1 & E2). exists z. auto. }
  rewrite Et. cbn [bind]. clearbody l1. subst l.
  pose proof (rest_view _ _ _ _ Hv) as Hv1. pose proof (ctype_safe_app _ _ _ Hc) as Hc1.
  (* prefix *)
  destruct (prefix_ok cf m (rest_of s a1 l1) l1 opt Hw Hv1) as (a2 & s3 & El1 & Ep & Hs3).
  rewrite Ep. cbn [bind]. pose proof (prefix_base opt l1) as Hbo.
  destruct (read_prefix opt l1) as [base l3]. cbn [fst snd] in *. subst l1.
  assert (ctype_safe cf l3) as Hc3 by (eapply ctype_safe_app; eauto).
  assert (has_view m s3 l3 \/ (l3 = [] /\ s3 = INVALID)) as Hv3.
  { destruct Hs3 as [-> | H]; auto. left. now apply (rest_view m _ a2 l3). }
  pose proof (digits_ok_x cf m s3 l3 base Hc3 Hbo Hv3) as D.
  pose proof (span_all (is_read_digit base) l3) as Fd. pose proof (span_app (is_read_digit base) l3) as Ad.
  destruct (span (is_read_digit base) l3) as [ds rest]. cbn [fst snd] in *.
  destruct D as (e & v & s' & Ed & D1 & D2 & D3). rewrite Ed. cbn [bind].
  unfold int_value. cbn [it_digits it_neg it_base it_rest].
  pose proof (num_nonneg_x base ds (base_pos _ Hbo) Fd) as Hnn.
  destruct ds as [|d ds].
  - rewrite (D1 eq_refl). reflexivity.
  - destruct (Z_le_gt_dec (num_val base (map (read_digit base) (d :: ds))) ULLONG_MAX) as [L|G].
    + destruct (D3 ltac:(discriminate) L) as (-> & -> & ->).
      destruct (hi <? num_val base (map (read_digit base) (d :: ds))) eqn:Eh.
      * apply Z.ltb_lt in Eh. rewrite (proj2 (Z.leb_gt (num_val base (map (read_digit base) (d :: ds))) hi)) by lia. rewrite andb_false_r. reflexivity.
      * apply Z.ltb_ge in Eh. rewrite (proj2 (Z.leb_le 0 (num_val base (map (read_digit base) (d :: ds))))) by lia.
        rewrite (proj2 (Z.leb_le (num_val base (map (read_digit base) (d :: ds))) hi)) by lia. cbn [andb result_of].
        exists (a1 ++ a2 ++ d :: ds). split; [|split].
        -- now rewrite <- Ad, <- !app_assoc.
        -- intro X. apply app_eq_nil in X as [_ X]. apply app_eq_nil in X as [_ X]. discriminate.
        -- do 3 f_equal. destruct Hs3 as [-> | [-> ->]]; [|destruct ds; discriminate].
           rewrite <- Ad. rewrite !chain. unfold rest_of. rewrite subview_subview. f_equal. rewrite !Zlen_app. lia.
    + rewrite (D2 ltac:(discriminate) ltac:(lia)).
      rewrite (proj2 (Z.leb_gt (num_val base (map (read_digit base) (d :: ds))) hi)) by lia. rewrite andb_false_r. reflexivity.
Qed.

Lemma signed_ok_x : forall cf m dst s l opt lo hi, mem_wf m -> has_view m s l -> ctype_safe cf l ->
  LLONG_MIN <= lo -> hi <= LLONG_MAX ->
  result_of dst s l (parse_int_exact true opt lo hi l) (consume_signed cf m dst (Some s) opt lo hi).
Proof.
  intros cf m dst s l opt lo hi Hw Hv Hc Hlo Hhi.
  unfold consume_signed. rewrite (has_view_valid _ _ _ Hv). cbn [negb].
  unfold parse_int_exact, read_int_exact in *. cbn [andb] in *.
  (* spaces *)
  set (l1 := if flag opt STRNUM_NOSPACE then l else snd (span (Z.eqb 32) l)) in *.
  assert (exists a1, l = a1 ++ l1 /\ (if negb (flag opt STRNUM_NOSPACE)
      then strview_trim_start cf m s (vlit [32]) else Ok s) = Ok (rest_of s a1 l1)) as (a1 & El & Et).
  { unfold l1. destruct (flag opt STRNUM_NOSPACE); cbn [negb].
    - exists []. split; auto. now rewrite (rest_nil m s l).
    - destruct (trim_space cf m s l Hv) as (z & E1 & E2). exists z. auto. }
  rewrite Et. cbn [bind]. clearbody l1. subst l.
  pose proof (rest_view _ _ _ _ Hv) as Hv1. pose proof (ctype_safe_app _ _ _ Hc) as Hc1.
  (* sign *)
  set (r := if negb (flag opt STRNUM_NOSIGN) then read_sign l1 else (false, l1)) in *.
  assert (exists a2, l1 = a2 ++ snd r /\
     (if negb (flag opt STRNUM_NOSIGN) then consume_sign cf m (rest_of s a1 l1) else Ok (false, rest_of s a1 l1))
     = Ok (fst r, rest_of s (a1 ++ a2) (snd r))) as (a2 & El2 & Es).
  { unfold r. destruct (flag opt STRNUM_NOSIGN); cbn [negb fst snd].
    - exists []. split; auto. now rewrite app_nil_r.
    - destruct (sign_ok cf m (rest_of s a1 l1) l1 Hv1) as (z & E1 & E2). exists z. split; auto. rewrite E2.
      rewrite E1 at 2. now rewrite rest_rest. }
  rewrite Es. cbn [bind]. clearbody r. destruct r as [neg l2]. cbn [fst snd] in *. subst l1.
  assert (has_view m (rest_of s (a1 ++ a2) l2) l2) as Hv2.
  { apply rest_view. now rewrite <- app_assoc. }
  pose proof (ctype_safe_app _ _ _ Hc1) as Hc2.
  (* prefix *)
  destruct (prefix_ok cf m (rest_of s (a1 ++ a2) l2) l2 opt Hw Hv2) as (a3 & s3 & El3 & Ep & Hs3).
  rewrite Ep. cbn [bind]. pose proof (prefix_base opt l2) as Hbo.
  destruct (read_prefix opt l2) as [base l3]. cbn [fst snd] in *. subst l2.
  assert (ctype_safe cf l3) as Hc3 by (eapply ctype_safe_app; eauto).
  assert (has_view m s3 l3 \/ (l3 = [] /\ s3 = INVALID)) as Hv3.
  { destruct Hs3 as [-> | H]; auto. left. now apply (rest_view m _ a3 l3). }
  pose proof (digits_ok_x cf m s3 l3 base Hc3 Hbo Hv3) as D.
  pose proof (span_all (is_read_digit base) l3) as Fd. pose proof (span_app (is_read_digit base) l3) as Ad.
  destruct (span (is_read_digit base) l3) as [ds rest]. cbn [fst snd] in *.
  destruct D as (e & v & s' & Ed & D1 & D2 & D3). rewrite Ed. cbn [bind].
  unfold int_value. cbn [it_digits it_neg it_base it_rest].
  pose proof (num_nonneg_x base ds (base_pos _ Hbo) Fd) as Hnn.
  destruct ds as [|d ds].
  - rewrite (D1 eq_refl). reflexivity.
  - destruct (Z_le_gt_dec (num_val base (map (read_digit base) (d :: ds))) ULLONG_MAX) as [L|G].
    + destruct (D3 ltac:(discriminate) L) as (-> & -> & ->).
      set (n := num_val base (map (read_digit base) (d :: ds))) in *.
      assert (forall x, LLONG_MIN <= x <= LLONG_MAX -> to_llong x = x) as TL.
      { intros x Hx. unfold to_llong, two64, LLONG_MIN, LLONG_MAX in *. rewrite Z.mod_small; lia. }
      set (val := if neg then - n else n).
      assert ((if neg then if LLONG_MIN mod two64 <? n then None else Some (to_llong ((n * (-1 mod two64)) mod two64))
               else if LLONG_MAX <? n then None else Some (to_llong n))
        = if (LLONG_MIN <=? val) && (val <=? LLONG_MAX) then Some val else None) as ->.
      { unfold val. destruct neg.
        - change (LLONG_MIN mod two64) with 9223372036854775808. change LLONG_MIN with (-9223372036854775808) in *.
          change LLONG_MAX with 9223372036854775807 in *. change ULLONG_MAX with 18446744073709551615 in *.
          destruct (9223372036854775808 <? n) eqn:E.
          + apply Z.ltb_lt in E. zb. reflexivity.
          + apply Z.ltb_ge in E. rewrite (proj2 (Z.leb_le (-9223372036854775808) (- n))) by lia.
            rewrite (proj2 (Z.leb_le (- n) 9223372036854775807)) by lia. cbn [andb]. f_equal.
            change (-1 mod two64) with (two64 - 1). unfold to_llong, two64. change LLONG_MIN with (-9223372036854775808).
            destruct (Z.eq_dec n 0) as [-> |N]; [reflexivity|].
            replace ((n * (18446744073709551616 - 1)) mod 18446744073709551616) with (18446744073709551616 - n).
            2:{ apply (Z.mod_unique _ _ (n - 1)); lia. }
            replace ((18446744073709551616 - n - -9223372036854775808) mod 18446744073709551616) with (9223372036854775808 - n); [lia|].
            apply (Z.mod_unique _ _ 1); lia.
        - change LLONG_MIN with (-9223372036854775808) in *. change LLONG_MAX with 9223372036854775807 in *.
          rewrite (proj2 (Z.leb_le (-9223372036854775808) n)) by lia. cbn [andb].
          destruct (9223372036854775807 <? n) eqn:E.
          + apply Z.ltb_lt in E. zb. reflexivity.
          + apply Z.ltb_ge in E. zb. f_equal. apply TL. lia. }
      destruct ((lo <=? val) && (val <=? hi)) eqn:Er.
      * apply andb_true_iff in Er as [Er1 Er2]. apply Z.leb_le in Er1, Er2.
        rewrite (proj2 (Z.leb_le LLONG_MIN val)) by lia. rewrite (proj2 (Z.leb_le val LLONG_MAX)) by lia. cbn [andb].
        rewrite (proj2 (Z.leb_le lo val)) by lia. rewrite (proj2 (Z.leb_le val hi)) by lia. cbn [andb result_of].
        exists (a1 ++ a2 ++ a3 ++ d :: ds). split; [|split].
        -- now rewrite <- Ad, <- !app_assoc.
        -- intro X. repeat apply app_eq_nil in X as [_ X]. discriminate.
        -- do 3 f_equal. destruct Hs3 as [-> | [-> ->]]; [|destruct ds; discriminate].
           unfold rest_of. rewrite !subview_subview. f_equal. rewrite !Zlen_app. lia.
      * destruct ((LLONG_MIN <=? val) && (val <=? LLONG_MAX)); [|reflexivity]. rewrite Er. reflexivity.
    + rewrite (D2 ltac:(discriminate) ltac:(lia)).
      destruct neg.
      * rewrite (proj2 (Z.leb_gt lo (- num_val base (map (read_digit base) (d :: ds))))); [reflexivity|].
        unfold ULLONG_MAX, LLONG_MIN in *. lia.
      * rewrite (proj2 (Z.leb_gt (num_val base (map (read_digit base) (d :: ds))) hi)); [rewrite andb_false_r; reflexivity|].
        unfold ULLONG_MAX, LLONG_MAX in *. lia.
Qed.

Lemma or_default_ok_x : forall s l sg opt lo hi d cast r,
  (forall v, lo <= v <= hi -> cast v = v) ->
  result_of true s l (parse_int_exact sg opt lo hi l) r ->
  or_default d cast r = Ok (match parse_int_exact sg opt lo hi l with Good v _ => v | Bad _ => d end).
Proof.
  intros s l sg opt lo hi d cast r Hc H. destruct (parse_int_exact sg opt lo hi l) as [e|v rest] eqn:E; cbn in *.
  - subst r. cbn. destruct e; reflexivity.
  - destruct H as (a & H1 & H2 & ->). cbn. rewrite Hc; auto. eapply parse_range_x; eauto.
Qed.

Section ParsersX.
Variables (cf : cfg) (m : mem) (s : view) (l : list Z) (opt : Z).
Hypotheses (Hw : mem_wf m) (Hv : has_view m s l) (Hc : ctype_safe cf l).

Lemma consumer_ok_x : forall t f dst, consumer cf t = Some f ->
  result_of dst s l (parse_int_exact (ty_signed t) opt (ty_lo cf t) (ty_hi cf t) l) (f m dst (Some s) opt).
Proof.
  intros t f dst E. destruct t; cbn in E; try discriminate; injection E as <-; cbn [ty_signed] in *.
  - apply store_as_ok_x; [intros; apply ucast_id; auto|apply unsigned_ok_x; auto; vm_compute; split; discriminate].
  - apply store_as_ok_x; [intros; apply ucast_id; auto|apply unsigned_ok_x; auto; vm_compute; split; discriminate].
  - apply store_as_ok_x; [intros; apply ucast_id; auto|apply unsigned_ok_x; auto; vm_compute; split; discriminate].
  - replace (ty_hi cf TUlong) with (ULONG_MAX cf) by (unfold ty_hi, ULONG_MAX, ulong_mod; cbn [ty_neg ty_signed ty_bits]; destruct (c_long64 cf); reflexivity).
    apply store_as_ok_x; [intros; apply ucast_id; revert H; unfold ty_lo, ULONG_MAX, ulong_mod, long_bits; cbn [ty_neg ty_signed]; destruct (c_long64 cf); auto|].
    apply unsigned_ok_x; auto. unfold ULONG_MAX, ulong_mod. destruct (c_long64 cf); vm_compute; split; discriminate.
  - apply unsigned_ok_x; auto. vm_compute; split; discriminate.
  - replace (ty_lo cf TChar) with (CHAR_MIN cf) by (unfold ty_lo, CHAR_MIN; cbn [ty_neg]; destruct (c_char_signed cf); reflexivity).
    replace (ty_hi cf TChar) with (CHAR_MAX cf) by (unfold ty_hi, CHAR_MAX; cbn [ty_neg]; destruct (c_char_signed cf); reflexivity).
    apply store_as_ok_x.
    + intros v. unfold CHAR_MIN, CHAR_MAX, ccast. destruct (c_char_signed cf); intro; [apply scast_id; auto; lia|apply ucast_id; auto].
    + apply signed_ok_x; auto; unfold CHAR_MIN, CHAR_MAX; destruct (c_char_signed cf); vm_compute; discriminate.
  - apply store_as_ok_x; [intros; apply scast_id; auto; lia|apply signed_ok_x; auto; vm_compute; discriminate].
  - apply store_as_ok_x; [intros; apply scast_id; auto; lia|apply signed_ok_x; auto; vm_compute; discriminate].
  - replace (ty_lo cf TLong) with (LONG_MIN cf) by (unfold ty_lo, LONG_MIN, ulong_mod; cbn [ty_neg ty_signed ty_bits]; destruct (c_long64 cf); reflexivity).
    replace (ty_hi cf TLong) with (LONG_MAX cf) by (unfold ty_hi, LONG_MAX, ulong_mod; cbn [ty_neg ty_signed ty_bits]; destruct (c_long64 cf); reflexivity).
    apply store_as_ok_x.
    + intros v. unfold LONG_MIN, LONG_MAX, long_bits, ulong_mod. destruct (c_long64 cf); intro; apply scast_id; auto; lia.
    + apply signed_ok_x; auto; unfold LONG_MIN, LONG_MAX, ulong_mod; destruct (c_long64 cf); vm_compute; discriminate.
  - apply signed_ok_x; auto; vm_compute; discriminate.
Qed.

Lemma default_ok_x : forall t d,
  default_parser cf t m s d opt =
  Ok (match parse_int_exact (ty_signed t) opt (ty_lo cf t) (ty_hi cf t) l with Good v _ => v | Bad _ => d end).
Proof.
  intros t d. destruct t; cbn [ty_signed default_parser] in *.
  - apply (or_default_ok_x s); [intros; apply ucast_id; auto|apply unsigned_ok_x; auto; vm_compute; split; discriminate].
  - apply (or_default_ok_x s); [intros; apply ucast_id; auto|apply unsigned_ok_x; auto; vm_compute; split; discriminate].
  - apply (or_default_ok_x s); [intros; apply ucast_id; auto|apply unsigned_ok_x; auto; vm_compute; split; discriminate].
  - replace (ty_hi cf TUlong) with (ULONG_MAX cf) by (unfold ty_hi, ULONG_MAX, ulong_mod; cbn [ty_neg ty_signed ty_bits]; destruct (c_long64 cf); reflexivity).
    apply (or_default_ok_x s); [intros; apply ucast_id; revert H; unfold ty_lo, ULONG_MAX, ulong_mod, long_bits; cbn [ty_neg ty_signed]; destruct (c_long64 cf); auto|].
    apply unsigned_ok_x; auto. unfold ULONG_MAX, ulong_mod. destruct (c_long64 cf); vm_compute; split; discriminate.
  - apply (or_default_ok_x s); [intros; apply ucast_id; auto|apply unsigned_ok_x; auto; vm_compute; split; discriminate].
  - replace (ty_lo cf TChar) with (CHAR_MIN cf) by (unfold ty_lo, CHAR_MIN; cbn [ty_neg]; destruct (c_char_signed cf); reflexivity).
    replace (ty_hi cf TChar) with (CHAR_MAX cf) by (unfold ty_hi, CHAR_MAX; cbn [ty_neg]; destruct (c_char_signed cf); reflexivity).
    apply (or_default_ok_x s).
    + intros v. unfold CHAR_MIN, CHAR_MAX, ccast. destruct (c_char_signed cf); intro; [apply scast_id; auto; lia|apply ucast_id; auto].
    + apply signed_ok_x; auto; unfold CHAR_MIN, CHAR_MAX; destruct (c_char_signed cf); vm_compute; discriminate.
  - apply (or_default_ok_x s); [intros; apply scast_id; auto; lia|apply signed_ok_x; auto; vm_compute; discriminate].
  - apply (or_default_ok_x s); [intros; apply scast_id; auto; lia|apply signed_ok_x; auto; vm_compute; discriminate].
  - replace (ty_lo cf TLong) with (LONG_MIN cf) by (unfold ty_lo, LONG_MIN, ulong_mod; cbn [ty_neg ty_signed ty_bits]; destruct (c_long64 cf); reflexivity).
    replace (ty_hi cf TLong) with (LONG_MAX cf) by (unfold ty_hi, LONG_MAX, ulong_mod; cbn [ty_neg ty_signed ty_bits]; destruct (c_long64 cf); reflexivity).
    apply (or_default_ok_x s).
    + intros v. unfold LONG_MIN, LONG_MAX, long_bits, ulong_mod. destruct (c_long64 cf); intro; apply scast_id; auto; lia.
    + apply signed_ok_x; auto; unfold LONG_MIN, LONG_MAX, ulong_mod; destruct (c_long64 cf); vm_compute; discriminate.
  - apply (or_default_ok_x s); [intros; apply scast_id; auto; lia|apply signed_ok_x; auto; vm_compute; discriminate].
  - apply (or_default_ok_x s); [intros; apply scast_id; auto; lia|apply signed_ok_x; auto; vm_compute; discriminate].
  - apply (or_default_ok_x s); [intros; apply scast_id; auto; lia|apply signed_ok_x; auto; vm_compute; discriminate].
  - apply (or_default_ok_x s); [intros; apply scast_id; auto; lia|apply signed_ok_x; auto; vm_compute; discriminate].
  - apply (or_default_ok_x s); [intros; apply scast_id; auto; lia|apply signed_ok_x; auto; vm_compute; discriminate].
  - apply (or_default_ok_x s); [intros; apply ucast_id; auto|apply unsigned_ok_x; auto; vm_compute; split; discriminate].
  - apply (or_default_ok_x s); [intros; apply ucast_id; auto|apply unsigned_ok_x; auto; vm_compute; split; discriminate].
  - apply (or_default_ok_x s); [intros; apply ucast_id; auto|apply unsigned_ok_x; auto; vm_compute; split; discriminate].
  - apply (or_default_ok_x s); [intros; apply ucast_id; auto|apply unsigned_ok_x; auto; vm_compute; split; discriminate].
Qed.
End ParsersX.

(** On texts without those two bytes the two specifications agree. *)
Lemma read_digit_notin : forall base l, (base = 2 -> no_b0 l) ->
  span (is_read_digit base) l = span (isdig base) l
  /\ map (read_digit base) (fst (span (isdig base) l)) = fst (span (isdig base) l).
Proof.
  intros base l H. destruct (Z.eq_dec base 2) as [-> |N].
  - specialize (H eq_refl). induction l as [|x l IH]; [auto|].
    destruct H as [A B].
    assert (x <> 176) by (intros ->; apply A; left; auto). assert (x <> 177) by (intros ->; apply B; left; auto).
    destruct IH as [I1 I2]. { split; intro; [apply A|apply B]; now right. }
    cbn [span]. assert (is_read_digit 2 x = isdig 2 x) as -> by (unfold is_read_digit; now rewrite read_digit_low).
    rewrite I1. destruct (isdig 2 x); [|auto]. destruct (span (isdig 2) l). cbn [fst map] in *. rewrite I2, read_digit_low; auto.
  - split; [|now rewrite map_same]. induction l as [|x l IH]; auto. cbn [span]. rewrite is_read_digit_same by auto.
    rewrite IH; auto. intros ->. congruence.
Qed.

Lemma span_suffix : forall p l, exists a, l = a ++ snd (span p l).
Proof. intros p l. exists (fst (span p l)). now rewrite span_app. Qed.

Lemma read_exact_same : forall sg opt l, (it_base (read_int sg opt l) = 2 -> no_b0 l) ->
  read_int_exact sg opt l = read_int sg opt l.
Proof.
  intros sg opt l H. unfold read_int_exact, read_int in *.
  set (l1 := if flag opt STRNUM_NOSPACE then l else snd (span (Z.eqb 32) l)) in *.
  assert (exists a, l = a ++ l1) as [a1 E1].
  { unfold l1. destruct (flag opt STRNUM_NOSPACE); [exists []; auto|apply span_suffix]. }
  clearbody l1.
  assert (exists a, l1 = a ++ snd (if sg && negb (flag opt STRNUM_NOSIGN) then read_sign l1 else (false, l1))) as [a2 E2].
  { destruct (sg && negb (flag opt STRNUM_NOSIGN)); [|exists []; auto]. unfold read_sign. destruct l1 as [|x t]; [exists []; auto|].
    destruct (x =? 45); [exists [x]; auto|]. destruct (x =? 43); [exists [x]; auto|exists []; auto]. }
  destruct (if sg && negb (flag opt STRNUM_NOSIGN) then read_sign l1 else (false, l1)) as [neg l2]. cbn [snd] in E2.
  assert (exists a, l2 = a ++ snd (read_prefix opt l2)) as [a3 E3].
  { unfold read_prefix. destruct l2 as [|z [|b t]]; try (exists []; reflexivity).
    repeat match goal with |- context[if ?c then _ else _] => destruct c end;
      solve [exists []; reflexivity|exists [z; b]; reflexivity]. }
  destruct (read_prefix opt l2) as [base l3]. cbn [snd] in E3.
  assert (base = 2 -> no_b0 l3) as Hb.
  { intros ->. destruct (span (isdig 2) l3). cbn [it_base] in H. specialize (H eq_refl). subst l l1 l2.
    now apply no_b0_app in H; apply no_b0_app in H; apply no_b0_app in H. }
  destruct (read_digit_notin base l3 Hb) as [-> E]. destruct (span (isdig base) l3). cbn [fst] in E. now rewrite E.
Qed.

Lemma parse_exact_same : forall sg opt lo hi l, (it_base (read_int sg opt l) = 2 -> no_b0 l) ->
  parse_int_exact sg opt lo hi l = parse_int sg opt lo hi l.
Proof. intros sg opt lo hi l H. unfold parse_int_exact, parse_int. now rewrite (read_exact_same sg opt l H). Qed.
