(** Formatted output, reading with a callback, stripping. *)
From Verif Require Import Base Mem Libc StrviewModel Spec MemLemmas Alloc StrbufModel BufSpec StrbufProofs StrbufProofs2 StrbufProofs3 StrbufProofs4 StrbufProofs5 StrbufProofs6.

Lemma iadd_over : forall cf a b, c_wrapv cf = true -> 0 <= a <= INT_MAX -> 0 <= b <= INT_MAX -> INT_MAX < a + b ->
  iadd cf a b = Ok (a + b - 4294967296).
Proof.
  intros cf a b Hw Ha Hb H. unfold iadd, int_res, in_int.
  rewrite (proj2 (Z.leb_gt (a + b) INT_MAX)) by lia. rewrite andb_false_r, Hw. f_equal.
  unfold wrap32, INT_MIN, INT_MAX in *. replace (a + b - -2147483648) with (a + b - 2147483648 + 1 * 4294967296) by lia.
  rewrite Z.mod_add by lia. rewrite Z.mod_small by lia. lia.
Qed.

(** ** Character by character output *)
Lemma rounded_mono : forall cf a b, wf_cfg cf -> a <= b -> rounded cf a <= rounded cf b.
Proof.
  intros cf a b [W _] H. unfold rounded. apply Z.min_le_compat_l. apply Z.mul_le_mono_nonneg_r; [lia|]. apply Z.div_le_mono; lia.
Qed.
(** Everything up to the rounded value rounds to the same. *)
Lemma rounded_same : forall cf a b, wf_cfg cf -> a <= b -> b <= rounded cf a -> rounded cf b = rounded cf a.
Proof.
  intros cf a b W H1 H2. pose proof (rounded_mono cf a b W H1) as M. destruct W as [W _]. unfold rounded in *. set (s := c_step cf) in *.
  enough ((b + s - 1) / s * s <= (a + s - 1) / s * s) by lia. apply Z.mul_le_mono_nonneg_r; [lia|].
  assert (b <= (a + s - 1) / s * s) as Hb by lia.
  assert ((b + s - 1) / s < (a + s - 1) / s + 1); [|lia]. apply Z.div_lt_upper_bound; nia.
Qed.

Lemma put_put : forall cf B c d, wf_cfg cf -> bf_cap B <= INT_MAX -> fits B c = true -> Zlen c <= Zlen d ->
  put cf (put cf B c) d = if fits B d then put cf B d else Buffer [] (bf_cap (put cf B c)) (bf_alloc B).
Proof.
  intros cf B c d W HC Fc Hcd. unfold put at 2 3. rewrite Fc. cbn [bf_cap].
  set (B1 := Buffer c (bf_cap (grown cf B (Zlen c))) (bf_alloc B)).
  pose proof (Zlen_nonneg c) as Z1.
  assert (fits B1 d = fits B d) as Ef.
  { unfold fits. change (dyn B1) with (dyn B). destruct (dyn B) eqn:Dy; auto. unfold B1, grown. cbn [bf_cap]. now rewrite Dy. }
  unfold put. rewrite Ef. destruct (fits B d) eqn:Fd; [|now rewrite Fc].
  f_equal. unfold grown. cbn [bf_cap]. change (dyn B1) with (dyn B). destruct (dyn B) eqn:Dy; cbn [andb]; auto.
  - unfold B1, grown. cbn [bf_cap]. rewrite Dy. cbn [andb]. unfold fits in Fc, Fd. rewrite Dy in *. apply Z.leb_le in Fc, Fd.
    destruct (bf_cap B <? Zlen c) eqn:E1.
    + apply Z.ltb_lt in E1. rewrite (proj2 (Z.ltb_lt (bf_cap B) _)) by lia.
      destruct (rounded cf (Zlen c) <? Zlen d) eqn:E2; auto. apply Z.ltb_ge in E2. symmetry. now apply rounded_same.
    + reflexivity.
  - unfold B1, grown. cbn [bf_cap]. now rewrite Dy.
Qed.

Lemma sums_ok_le : forall cf a b, a <= b -> sums_ok cf b -> sums_ok cf a.
Proof. intros cf a b H [S|S]; [left; auto|right; lia]. Qed.
Lemma put_dyn : forall cf B c, dyn (put cf B c) = dyn B.
Proof. intros. unfold put, dyn. destruct (fits B c); reflexivity. Qed.
Lemma put_fixed_cap : forall cf B c, dyn B = false -> bf_cap (put cf B c) = bf_cap B.
Proof. intros cf B c D. unfold put. destruct (fits B c); auto. unfold grown. cbn [bf_cap]. now rewrite D. Qed.
Lemma put_alloc : forall cf B c, bf_alloc (put cf B c) = bf_alloc B.
Proof. intros. unfold put. destruct (fits B c); reflexivity. Qed.
Lemma put_same : forall cf B, bf_cap B <= INT_MAX -> Zlen (bf_data B) <= bf_cap B -> put cf B (bf_data B) = B.
Proof.
  intros cf B H1 H2. unfold put, fits. rewrite grown_same by auto.
  assert ((if dyn B then Zlen (bf_data B) <=? INT_MAX else Zlen (bf_data B) <=? bf_cap B) = true) as ->; [|now destruct B].
  destruct (dyn B); apply Z.leb_le; lia.
Qed.

(** Emitting characters: a result that fits is complete, otherwise the buffer holds less. *)
Definition emitted (cf : cfg) (B : buffer) (l : list Z) (B' : buffer) : Prop :=
  if fits B (bf_data B ++ l) then B' = put cf B (bf_data B ++ l)
  else Zlen (bf_data B') < Zlen (bf_data B) + Zlen l /\ bf_alloc B' = bf_alloc B /\ bf_cap B' = (if dyn B then INT_MAX else bf_cap B).

Lemma put_full : forall cf B c, bf_cap B = INT_MAX -> bf_cap (put cf B c) = INT_MAX.
Proof.
  intros cf B c H. unfold put, fits. destruct (if dyn B then _ else _) eqn:E; auto. cbn [bf_cap]. unfold grown.
  cbn [bf_cap]. rewrite H. destruct (dyn B); [|reflexivity]. apply Z.leb_le in E. rewrite (proj2 (Z.ltb_ge INT_MAX _)) by lia. reflexivity.
Qed.

Lemma yields_trans : forall cf w p B w1 p1 B1 r B2, dyn B1 = dyn B -> (dyn B = false -> bf_cap B1 = bf_cap B) ->
  touches cf (s_mem w) (s_mem w1) p p1 B -> yields cf w1 p1 B1 r B2 -> yields cf w p B r B2.
Proof.
  intros cf w p B w1 p1 B1 r B2 H1 H2 Ht (p' & w' & E & H3 & H4 & H5 & H6). exists p', w'. split; auto. split; auto. split; auto.
  eapply touches_trans; eauto.
Qed.

Lemma emit_ok : forall cf l w p B, wf_cfg cf -> mem_wf (s_mem w) -> no_fail w -> buf_at cf (s_mem w) p B ->
  Forall is_byte l -> sums_ok cf (Zlen (bf_data B) + Zlen l) ->
  exists B', yields cf w p B (emit cf w p l) B' /\ emitted cf B l B'.
Proof.
  intros cf l. induction l as [|c l IH]; intros w p B W Wm Nf HB Fl Hs.
  - exists B. destruct (buf_at_cap _ _ _ _ HB) as [C _]. split.
    + exists p, w. split; auto. split; auto. split; auto. now apply touches_refl.
    + unfold emitted. rewrite app_nil_r. unfold fits.
      assert ((if dyn B then Zlen (bf_data B) <=? INT_MAX else Zlen (bf_data B) <=? bf_cap B) = true) as ->.
      { destruct (dyn B); apply Z.leb_le; lia. }
      symmetry. apply put_same; lia.
  - inversion Fl as [|? ? Hc Fl']; subst. cbn [emit]. rewrite Zlen_cons in Hs. pose proof (Zlen_nonneg l) as Zl. pose proof (Zlen_nonneg (bf_data B)) as Zb.
    assert (sums_ok cf (Zlen (bf_data B) + 1)) as Hs1 by (eapply sums_ok_le; [|exact Hs]; lia).
    destruct (append_char_yields cf w p B c W Wm Nf HB Hc Hs1) as (p1 & w1 & -> & HB1 & Ht & Wm1 & Nf1).
    cbn [bind]. set (B1 := put cf B (bf_data B ++ [c])) in *.
    destruct (IH w1 p1 B1 W Wm1 Nf1 HB1 Fl') as (B' & Hy & He).
    { eapply sums_ok_le; [|exact Hs]. pose proof (put_data_len cf B (bf_data B ++ [c])) as P. rewrite Zlen_app in P.
      change (Zlen [c]) with 1 in P. fold B1 in P. lia. }
    exists B'. split.
    + eapply yields_trans; [| |exact Ht|exact Hy]; [apply put_dyn|apply put_fixed_cap].
    + destruct (buf_at_cap _ _ _ _ HB) as [C _]. destruct (buf_at_cap _ _ _ _ HB1) as [C1 _].
      unfold emitted in *. destruct (fits B (bf_data B ++ [c])) eqn:F1.
      * assert (bf_data B1 = bf_data B ++ [c]) as Ed by (unfold B1, put; rewrite F1; reflexivity).
        rewrite Ed in He. rewrite <- app_assoc in He. cbn [app] in He.
        assert (fits B1 (bf_data B ++ c :: l) = fits B (bf_data B ++ c :: l)) as Ef.
        { unfold fits. unfold B1 at 1. rewrite put_dyn. destruct (dyn B) eqn:D; auto. unfold B1. now rewrite put_fixed_cap. }
        rewrite Ef in He. destruct (fits B (bf_data B ++ c :: l)) eqn:F2.
        -- rewrite He. unfold B1. rewrite put_put; auto; [now rewrite F2|lia|]. rewrite !Zlen_app. change (Zlen [c]) with 1. rewrite Zlen_cons. lia.
        -- destruct He as (L1 & L2 & L3). rewrite Zlen_app in L1. change (Zlen [c]) with 1 in L1. rewrite Zlen_cons. split; [lia|].
           unfold B1 in L2, L3. rewrite put_alloc in L2. rewrite put_dyn in L3. split; auto. rewrite L3. destruct (dyn B) eqn:D; auto. now rewrite put_fixed_cap.
      * assert (fits B (bf_data B ++ c :: l) = false) as ->.
        { unfold fits in *. rewrite !Zlen_app in *. change (Zlen [c]) with 1 in F1. rewrite Zlen_cons. destruct (dyn B); apply Z.leb_gt in F1; apply Z.leb_gt; lia. }
        assert (bf_data B1 = []) as Ed by (unfold B1, put; rewrite F1; reflexivity).
        rewrite Ed in He. cbn [app] in He. rewrite Zlen_nil in He. rewrite Zlen_cons. split; [|split].
        -- destruct (fits B1 l) eqn:F2.
           ++ rewrite He. pose proof (put_data_len cf B1 l). lia.
           ++ destruct He. lia.
        -- destruct (fits B1 l); [rewrite He, put_alloc; apply put_alloc|]. destruct He as (_ & -> & _). apply put_alloc.
        -- destruct (dyn B) eqn:D.
           ++ assert (bf_cap B1 = INT_MAX) as Ec.
              { unfold B1, put. rewrite F1. cbn [bf_cap]. unfold fits in F1. rewrite D, Zlen_app in F1. change (Zlen [c]) with 1 in F1. apply Z.leb_gt in F1. lia. }
              destruct (fits B1 l).
              ** rewrite He. now apply put_full.
              ** destruct He as (_ & _ & ->). unfold B1 at 1. rewrite put_dyn, D. reflexivity.
           ++ destruct (fits B1 l).
              ** rewrite He. rewrite put_fixed_cap by (unfold B1; now rewrite put_dyn). unfold B1. now rewrite put_fixed_cap.
              ** destruct He as (_ & _ & ->). unfold B1. rewrite put_dyn, D. now rewrite put_fixed_cap.
Qed.

Lemma finish_prnf : forall cf w p B p1 w1 B1 (fail : bool), wf_cfg cf -> buf_at cf (s_mem w1) p1 B1 -> mem_wf (s_mem w1) -> no_fail w1 ->
  touches cf (s_mem w) (s_mem w1) p p1 B -> dyn B1 = dyn B -> (dyn B = false -> bf_cap B1 = bf_cap B) ->
  becomes cf w p B (let! m2 := if fail then empty_buf cf (s_mem w1) p1 else Ok (s_mem w1) in ret_view cf (Some p1) (with_mem w1 m2))
    (if fail then Buffer [] (bf_cap B1) (bf_alloc B1) else B1).
Proof.
  intros cf w p B p1 w1 B1 fail W HB1 Wm1 Nf1 Ht HD HC. destruct fail.
  - destruct (empty_buf_ok cf (s_mem w1) p1 B1 W Wm1 HB1) as (m2 & -> & M2 & M3 & M4 & _). cbn [bind].
    apply (yields_becomes cf w p B (Ok (p1, with_mem w1 m2))); auto. eexists _, _. split; [reflexivity|]. cbn [with_mem s_mem].
    split; auto. split; auto. eapply touches_trans; eauto.
  - cbn [bind]. apply (yields_becomes cf w p B (Ok (p1, with_mem w1 (s_mem w1)))); auto. eexists _, _. split; [reflexivity|]. cbn [with_mem s_mem]. auto.
Qed.

Lemma emitted_dyn : forall cf B l B', emitted cf B l B' -> dyn B' = dyn B /\ (dyn B = false -> bf_cap B' = bf_cap B) /\ bf_alloc B' = bf_alloc B.
Proof.
  intros cf B l B' H. unfold emitted in H. destruct (fits B (bf_data B ++ l)).
  - subst. split; [apply put_dyn|]. split; [apply put_fixed_cap|apply put_alloc].
  - destruct H as (_ & E & H). split; [unfold dyn; now rewrite E|]. split; auto. intros D. now rewrite D in H.
Qed.

Lemma append_prnf_ok : forall cf w p B l, wf_cfg cf -> mem_wf (s_mem w) -> no_fail w -> buf_at cf (s_mem w) p B ->
  Forall is_byte l -> Zlen l <= INT_MAX -> sums_ok cf (Zlen (bf_data B) + Zlen l) ->
  becomes cf w p B (strbuf_append_vprnf cf w (Some p) l) (put_all cf B (bf_data B ++ l)).
Proof.
  intros cf w p B l W Wm Nf HB Fl Hl Hs. unfold strbuf_append_vprnf. rewrite (on_buf_ok cf (s_mem w) p B) by auto.
  rewrite (buf_at_load cf (s_mem w) p B W HB). cbn [bind hdr_of h_size].
  destruct (emit_ok cf l w p B W Wm Nf HB Fl Hs) as (B1 & (p1 & w1 & -> & HB1 & Ht & Wm1 & Nf1) & He). cbn [bind].
  destruct (emitted_dyn _ _ _ _ He) as (HD & HC & HA). destruct (buf_at_cap _ _ _ _ HB) as [C _]. destruct (buf_at_cap _ _ _ _ HB1) as [C1 _].
  pose proof (Zlen_nonneg (bf_data B)) as Z1. pose proof (Zlen_nonneg l) as Z2. pose proof (Zlen_nonneg (bf_data B1)) as Z3.
  unfold put_all, emitted in *.
  destruct (Z.le_gt_cases (Zlen (bf_data B) + Zlen l) INT_MAX) as [Hle|Hgt].
  - rewrite iadd_ok by (unfold INT_MIN; lia). cbn [bind]. rewrite (buf_at_load cf (s_mem w1) p1 B1 W HB1). cbn [bind hdr_of h_size].
    rewrite (proj2 (Z.ltb_ge (_ + _) 0)) by lia. rewrite orb_false_r. destruct (fits B (bf_data B ++ l)) eqn:F.
    + rewrite <- He. assert (bf_data B1 = bf_data B ++ l) as Ed by (subst B1; unfold put; rewrite F; reflexivity).
      rewrite (proj2 (Z.ltb_ge (Zlen (bf_data B1)) _)) by (rewrite Ed, Zlen_app; lia).
      apply (finish_prnf cf w p B p1 w1 B1 false); auto.
    + destruct He as (E1 & E2 & E3). rewrite (proj2 (Z.ltb_lt (Zlen (bf_data B1)) _)) by lia. rewrite <- E2, <- E3. apply (finish_prnf cf w p B p1 w1 B1 true); auto.
  - destruct Hs as [Hs|Hs]; [|destruct W; lia].
    assert (exists z, iadd cf (Zlen (bf_data B)) (Zlen l) = Ok z /\ z < 0) as (z & -> & Hz).
    { eexists. split; [apply iadd_over; auto; lia|]. unfold INT_MAX in *. lia. }
    cbn [bind]. rewrite (buf_at_load cf (s_mem w1) p1 B1 W HB1). cbn [bind hdr_of h_size]. rewrite (proj2 (Z.ltb_lt z 0)) by lia. rewrite orb_true_r.
    assert (fits B (bf_data B ++ l) = false) as F. { unfold fits. rewrite Zlen_app. destruct (dyn B); apply Z.leb_gt; lia. }
    rewrite F in *. destruct He as (E1 & E2 & E3). rewrite <- E2, <- E3. apply (finish_prnf cf w p B p1 w1 B1 true); auto.
Qed.

Lemma prnf_ok : forall cf w p B l, wf_cfg cf -> mem_wf (s_mem w) -> no_fail w -> buf_at cf (s_mem w) p B ->
  Forall is_byte l -> Zlen l <= INT_MAX -> sums_ok cf (Zlen l) ->
  becomes cf w p B (strbuf_vprnf cf w (Some p) l) (put_all cf B l).
Proof.
  intros cf w p B l W Wm Nf HB Fl Hl Hs. unfold strbuf_vprnf. rewrite (on_buf_ok cf (s_mem w) p B) by auto.
  destruct (empty_buf_ok cf (s_mem w) p B W Wm HB) as (m0 & -> & HB0 & Ht0 & Wm0 & _). cbn [bind].
  set (B0 := Buffer [] (bf_cap B) (bf_alloc B)) in *.
  destruct (emit_ok cf l (with_mem w m0) p B0 W Wm0 Nf HB0 Fl Hs) as (B1 & (p1 & w1 & -> & HB1 & Ht & Wm1 & Nf1) & He). cbn [bind].
  destruct (emitted_dyn _ _ _ _ He) as (HD & HC & HA). destruct (buf_at_cap _ _ _ _ HB) as [C _]. destruct (buf_at_cap _ _ _ _ HB1) as [C1 _].
  pose proof (Zlen_nonneg l) as Z2. pose proof (Zlen_nonneg (bf_data B1)) as Z3.
  change (dyn B0) with (dyn B) in HD, HC. change (bf_cap B0) with (bf_cap B) in HC. change (bf_alloc B0) with (bf_alloc B) in HA.
  assert (touches cf (s_mem w) (s_mem w1) p p1 B) as Ht2. { eapply (touches_trans _ _ _ _ _ _ _ B B0); eauto. }
  unfold put_all, emitted in *. change (bf_data B0) with (@nil Z) in He. cbn [app] in He. change (fits B0 l) with (fits B l) in He.
  change (put cf B0 l) with (put cf B l) in He.
  rewrite (buf_at_load cf (s_mem w1) p1 B1 W HB1). cbn [bind hdr_of h_size]. destruct (fits B l) eqn:F.
  - rewrite <- He. assert (bf_data B1 = l) as Ed by (subst B1; unfold put; rewrite F; reflexivity).
    rewrite (proj2 (Z.ltb_ge (Zlen (bf_data B1)) _)) by (rewrite Ed; lia). apply (finish_prnf cf w p B p1 w1 B1 false); auto.
  - rewrite Zlen_nil in He. destruct He as (E1 & E2 & E3). rewrite (proj2 (Z.ltb_lt (Zlen (bf_data B1)) _)) by lia.
    change (dyn B0) with (dyn B) in E3. change (bf_cap B0) with (bf_cap B) in E3. rewrite <- HA, <- E3. apply (finish_prnf cf w p B p1 w1 B1 true); auto.
Qed.

(** ** printf *)
Lemma append_printf_yields : forall cf w p B l, wf_cfg cf -> mem_wf (s_mem w) -> no_fail w -> buf_at cf (s_mem w) p B ->
  Forall is_byte l -> Zlen l <= INT_MAX -> sums_ok cf (Zlen (bf_data B) + Zlen l) ->
  becomes cf w p B (strbuf_append_vprintf cf w (Some p) (FmtText l)) (put cf B (bf_data B ++ l)).
Proof.
  intros cf w p B l W Wm Nf HB Fl Hl Hs. pose proof (hdr_size_pos cf W) as Hp.
  destruct (buf_at_cap _ _ _ _ HB) as [C F]. pose proof (Zlen_nonneg (bf_data B)) as Z1. pose proof (Zlen_nonneg l) as Z2.
  unfold strbuf_append_vprintf. rewrite (on_buf_ok cf (s_mem w) p B) by auto.
  rewrite (buf_at_load cf (s_mem w) p B W HB). cbn [bind hdr_of h_size]. unfold vsnprintf at 1. cbn [Z.leb Z.compare bind].
  unfold put, fits. rewrite Zlen_app.
  destruct (Z.le_gt_cases (Zlen (bf_data B) + Zlen l) INT_MAX) as [Hle|Hgt].
  - rewrite add_check_ok by (auto; lia). cbn [bind]. rewrite iadd_ok by (unfold INT_MIN; lia). cbn [bind].
    set (n := Zlen (bf_data B) + Zlen l) in *.
    destruct (ensure_ok cf w p B n W Wm Nf HB ltac:(lia) ltac:(auto)) as (p1 & w1 & -> & HB1 & Ht & Wm1 & Nf1 & _ & _).
    cbn [bind]. rewrite (buf_at_load cf (s_mem w1) p1 _ W HB1). cbn [bind].
    set (cap1 := bf_cap (grown cf B n)) in *. change (hdr_of (grown cf B n)) with (Hdr (Zlen (bf_data B)) cap1 (bf_alloc B)). cbn [h_cap h_size].
    pose proof (grown_fits cf B n W ltac:(lia)) as Ef. fold cap1 in Ef. rewrite Ef.
    destruct (if dyn B then n <=? INT_MAX else n <=? bf_cap B) eqn:Ef2; cbn [negb] in *.
    + apply Z.ltb_ge in Ef. pose proof HB1 as (b & k & E1 & E2 & HI). destruct p1 as [po o]. cbn [p_obj p_ofs] in *. subst po.
      pose proof (buf_in_chars _ _ _ _ HI) as Ch.
      pose proof HI as (L & O & Al & Fi & H & D & T & By & C1 & Dy).
      change (bf_cap (grown cf B n)) with cap1 in Fi, C1, Dy.
      change (hdr_of (grown cf B n)) with (Hdr (Zlen (bf_data B)) cap1 (bf_alloc B)) in H.
      cbn [grown bf_data bf_alloc] in Ch, D, T, By, C1, Dy. cbn [bind].
      rewrite (buf_at_load cf (s_mem w1) _ _ W HB1). cbn [bind].
      change (hdr_of (grown cf B n)) with (Hdr (Zlen (bf_data B)) cap1 (bf_alloc B)). cbn [h_cap h_size].
      rewrite (char_at_ok cf (s_mem w1) b o k) by (auto; lia). cbn [bind].
      unfold vsnprintf. rewrite (proj2 (Z.leb_gt (cap1 - Zlen (bf_data B) + 1) 0)) by lia.
      rewrite Z.min_l by lia.
      destruct (store_cells_sets (s_mem w1) b k (o + hdr_size cf + Zlen (bf_data B)) (Zlen l + 1)
        (fun i => if i <? Zlen l then CByte (nth (Z.to_nat i) l 0) else CByte 0) E2 L ltac:(lia) ltac:(lia)) as (k1 & X1 & S1 & G1).
      rewrite X1. cbn [bind]. rewrite iadd_ok by (unfold INT_MIN; lia). cbn [bind]. pose proof S1 as (U1 & U2 & U3 & U4).
      assert (nth_error (upd (s_mem w1) b k1) b = Some k1) as N1 by (eapply nth_upd; eauto).
      assert (holder cf (upd (s_mem w1) b k1) b o k1) as Hh by (constructor; auto; try congruence; lia).
      destruct (set_size_sets cf (upd (s_mem w1) b k1) b o k1 (Zlen (bf_data B)) cap1 (bf_alloc B) n W Hh) as (k2 & X2 & S2 & G2).
      { intros i Hi. rewrite G1. rin. now apply H. }
      fold n. rewrite X2. cbn [bind]. rewrite upd_upd. pose proof (shape_trans _ _ _ S1 S2) as S12. pose proof S12 as (V1 & V2 & V3 & V4).
      assert (buf_in cf k2 o (Buffer (bf_data B ++ l) cap1 (bf_alloc B))) as HI2.
      { apply chars_app in Ch as [Ch _]. apply buf_in_intro; auto; try congruence.
        - intros i Hi. rewrite G2. rin. rewrite Zlen_app. fold n. f_equal. lia.
        - apply chars_app. split; [apply chars_app; split|].
          + apply (chars_eq k _ (o + hdr_size cf)); auto. intros i Hi. rewrite G2. rin. rewrite G1. rin. reflexivity.
          + intros i Hi. rewrite G2. rin. rewrite G1. rin. rewrite (proj2 (Z.ltb_lt _ (Zlen l))) by lia. unfold zn. f_equal. f_equal. lia.
          + intros i Hi. change (Zlen [0]) with 1 in Hi. replace i with 0 by lia. rewrite Zlen_app. rewrite G2. rin. rewrite G1. rin.
            rewrite (proj2 (Z.ltb_ge _ (Zlen l))) by lia. reflexivity.
        - apply Forall_app. auto.
        - rewrite Zlen_app. fold n. lia.
        - intros X. rewrite V4, V2. now apply Dy. }
      destruct (in_place cf (s_mem w1) b o k k2 (grown cf B n) _ Wm1 E2 S12 HI2) as (Q1 & Q2 & Q3).
      { intros i Hi. change (bf_cap (grown cf B n)) with cap1 in Hi. rewrite G2. rin. rewrite G1. rin. reflexivity. }
      apply (yields_becomes cf w p B (Ok (Ptr (PBlk b) o, with_mem w1 (upd (s_mem w1) b k2)))); auto.
      eexists _, _. split; [reflexivity|]. cbn [with_mem s_mem]. split; [exact Q1|]. split; [|split; [exact Q3|exact Nf1]].
      eapply grown_touch; eauto.
    + destruct (empty_buf_ok cf (s_mem w1) p1 _ W Wm1 HB1) as (m2 & -> & M2 & M3 & M4 & _).
      cbn [bind]. apply (yields_becomes cf w p B (Ok (p1, with_mem w1 m2))); auto.
      eexists _, _. split; [reflexivity|]. cbn [with_mem s_mem].
      assert (dyn B = false) as Hdf. { destruct (dyn B); auto. apply Z.leb_gt in Ef2. lia. }
      split; [|split; [|split; [exact M4|exact Nf1]]].
      * unfold grown in M2. cbn [bf_cap bf_alloc] in M2. rewrite Hdf in M2. exact M2.
      * eapply grown_touch; eauto.
  - destruct Hs as [Hw|Hs]; [|destruct W as [W _]; lia].
    rewrite add_check_over by (auto; lia). cbn [bind].
    destruct (empty_buf_ok cf (s_mem w) p B W Wm HB) as (m2 & -> & M2 & M3 & M4 & _). cbn [bind].
    apply (yields_becomes cf w p B (Ok (p, with_mem w m2))); auto. eexists _, _. split; [reflexivity|]. cbn [with_mem s_mem].
    assert ((if dyn B then Zlen (bf_data B) + Zlen l <=? INT_MAX else Zlen (bf_data B) + Zlen l <=? bf_cap B) = false) as ->.
    { destruct (dyn B); apply Z.leb_gt; lia. }
    auto.
Qed.

Lemma printf_ok : forall cf w p B l, wf_cfg cf -> mem_wf (s_mem w) -> no_fail w -> buf_at cf (s_mem w) p B ->
  Forall is_byte l -> Zlen l <= INT_MAX -> sums_ok cf (Zlen l) ->
  becomes cf w p B (strbuf_vprintf cf w (Some p) (FmtText l)) (put cf B l).
Proof.
  intros cf w p B l W Wm Nf HB Fl Hl Hs. unfold strbuf_vprintf. rewrite (on_buf_ok cf (s_mem w) p B) by auto.
  destruct (empty_buf_ok cf (s_mem w) p B W Wm HB) as (m2 & -> & M2 & M3 & M4 & _). cbn [bind].
  destruct (append_printf_yields cf (with_mem w m2) p _ l W M4 Nf M2 Fl Hl Hs) as (p' & w' & E & H1 & H2 & H3 & H4).
  exists p', w'. split; [exact E|]. split; [exact H1|]. split; auto. eapply (touches_trans _ _ _ _ _ _ _ B); eauto; reflexivity.
Qed.

Lemma nth_error_ext : forall {A} (a b : list A), (forall i, nth_error a i = nth_error b i) -> a = b.
Proof.
  induction a as [|x a IH]; intros [|y b] H; auto.
  - specialize (H O). discriminate.
  - specialize (H O). discriminate.
  - f_equal; [specialize (H O); now injection H|]. apply IH. intros i. exact (H (S i)).
Qed.

(** ** Callbacks *)

Lemma append_using_ok : forall cf w p B fetch l, wf_cfg cf -> mem_wf (s_mem w) -> no_fail w -> buf_at cf (s_mem w) p B ->
  fetches fetch (s_mem w) (shift (chars_of cf p) (Zlen (bf_data B))) (bf_cap B - Zlen (bf_data B)) (Zlen l) l ->
  Forall is_byte l -> Zlen (bf_data B) + Zlen l <= bf_cap B ->
  becomes_at cf w p B (strbuf_append_using cf w (Some p) fetch) (Buffer (bf_data B ++ l) (bf_cap B) (bf_alloc B)).
Proof.
  intros cf w p B fetch l W Wm Nf HB (b & m1 & Eb & Ef & Hfr & Hby) Fl Hl. pose proof (hdr_size_pos cf W) as Hp.
  destruct (buf_at_cap _ _ _ _ HB) as [C F]. pose proof (Zlen_nonneg (bf_data B)) as Z1. pose proof (Zlen_nonneg l) as Z2.
  unfold strbuf_append_using. rewrite (on_buf_ok cf (s_mem w) p B) by auto.
  rewrite (buf_at_load cf (s_mem w) p B W HB). cbn [bind hdr_of h_size h_cap].
  unfold isub. rewrite int_res_ok by (unfold INT_MIN; lia). cbn [bind].
  pose proof HB as (b0 & k & E1 & E2 & HI). destruct p as [po o]. unfold chars_of, shift in Eb, Ef, Hfr, Hby. cbn [p_obj p_ofs] in *. rewrite E1 in Eb. injection Eb as ->. subst po.
  pose proof (buf_in_chars _ _ _ _ HI) as Ch.
  pose proof HI as (L & O & Al & Fi & H & D & T & By & C1 & Dy).
  rewrite (char_at_ok cf (s_mem w) b o k) by (auto; lia). cbn [bind]. rewrite Ef. cbn [bind].
  rewrite (proj2 (Z.ltb_ge (Zlen l) 0)), (proj2 (Z.ltb_ge _ (Zlen l))) by lia. cbn [orb].
  destruct Hfr as (Fr1 & Fr2 & Fr3). destruct (Fr3 k E2) as (k1 & N1 & U1 & U2 & U3 & U4 & G1).
  assert (shape k k1) as S1 by (unfold shape; auto).
  assert (m1 = upd (s_mem w) b k1) as Em.
  { apply nth_error_ext. intros i. destruct (Nat.eq_dec i b) as [->|Ne].
    - rewrite N1. symmetry. eapply nth_upd; eauto.
    - rewrite nth_error_upd_neq by auto. auto. }
  assert (hdr_at cf k1 o (hdr_of B)) as H1 by (intros i Hi; rewrite G1 by lia; now apply H).
  assert (holder cf m1 b o k1) as Hh by (constructor; auto; try congruence; lia).
  rewrite (load_hdr_ok cf m1 b o k1 (hdr_of B) W Hh H1). cbn [bind hdr_of h_size].
  rewrite iadd_ok by (unfold INT_MIN; lia). cbn [bind].
  destruct (bytes_chars _ _ _ _ _ N1 Hby) as [Ch1 _].
  destruct (close_ok cf m1 b o k1 (bf_data B ++ l) (Zlen (bf_data B)) (bf_cap B) (bf_alloc B) W N1) as (k3 & X3 & S3 & HI3 & G3);
    try (rewrite ?U1, ?U2, ?U3, ?U4; auto; lia).
  { apply chars_app in Ch as [Ch _]. apply chars_app. split; auto.
    apply (chars_eq k _ (o + hdr_size cf)); auto. intros i Hi. now rewrite G1 by lia. }
  { apply Forall_app. auto. }
  { rewrite Zlen_app. lia. }
  rewrite Zlen_app in X3, G3. rewrite (bind_assoc2 _ _ _ _ X3). rewrite Em, upd_upd. pose proof (shape_trans _ _ _ S1 S3) as S13.
  destruct (in_place cf (s_mem w) b o k k3 B _ Wm E2 S13 HI3) as (Q1 & Q2 & Q3).
  { intros i Hi. rewrite G3 by lia. rewrite G1 by lia. reflexivity. }
  eexists. rewrite (ret_view_ok cf (with_mem w (upd (s_mem w) b k3)) _ _ W Q1). split; [reflexivity|]. auto.
Qed.

(** A callback that reports failure or more than the offered space. *)
Lemma append_using_bad : forall cf w p B fetch r, wf_cfg cf -> mem_wf (s_mem w) -> no_fail w -> buf_at cf (s_mem w) p B ->
  fetches fetch (s_mem w) (shift (chars_of cf p) (Zlen (bf_data B))) (bf_cap B - Zlen (bf_data B)) r [] ->
  r < 0 \/ bf_cap B - Zlen (bf_data B) < r ->
  exists w', strbuf_append_using cf w (Some p) fetch = Ok (INVALID, Some p, w') /\
    buf_at cf (s_mem w') p (Buffer [] (bf_cap B) (bf_alloc B)) /\ touches cf (s_mem w) (s_mem w') p p B /\ mem_wf (s_mem w') /\ no_fail w'.
Proof.
  intros cf w p B fetch r W Wm Nf HB (b & m1 & Eb & Ef & Hfr & Hby) Hr. pose proof (hdr_size_pos cf W) as Hp.
  destruct (buf_at_cap _ _ _ _ HB) as [C F]. pose proof (Zlen_nonneg (bf_data B)) as Z1.
  unfold strbuf_append_using. rewrite (on_buf_ok cf (s_mem w) p B) by auto.
  rewrite (buf_at_load cf (s_mem w) p B W HB). cbn [bind hdr_of h_size h_cap].
  unfold isub. rewrite int_res_ok by (unfold INT_MIN; lia). cbn [bind].
  pose proof HB as (b0 & k & E1 & E2 & HI). destruct p as [po o]. unfold chars_of, shift in Eb, Ef, Hfr, Hby. cbn [p_obj p_ofs] in *. rewrite E1 in Eb. injection Eb as ->. subst po.
  pose proof (buf_in_chars _ _ _ _ HI) as Ch.
  pose proof HI as (L & O & Al & Fi & H & D & T & By & C1 & Dy).
  rewrite (char_at_ok cf (s_mem w) b o k) by (auto; lia). cbn [bind]. rewrite Ef. cbn [bind].
  assert ((r <? 0) || (bf_cap B - Zlen (bf_data B) <? r) = true) as ->.
  { destruct Hr; [rewrite (proj2 (Z.ltb_lt r 0)) by lia; reflexivity|]. rewrite (proj2 (Z.ltb_lt _ r)) by lia. apply orb_true_r. }
  destruct Hfr as (Fr1 & Fr2 & Fr3). destruct (Fr3 k E2) as (k1 & N1 & U1 & U2 & U3 & U4 & G1).
  assert (shape k k1) as S1 by (unfold shape; auto).
  assert (m1 = upd (s_mem w) b k1) as Em.
  { apply nth_error_ext. intros i. destruct (Nat.eq_dec i b) as [->|Ne].
    - rewrite N1. symmetry. eapply nth_upd; eauto.
    - rewrite nth_error_upd_neq by auto. auto. }
  assert (hdr_at cf k1 o (hdr_of B)) as H1 by (intros i Hi; rewrite G1 by lia; now apply H).
  destruct (close_ok cf m1 b o k1 [] (Zlen (bf_data B)) (bf_cap B) (bf_alloc B) W N1) as (k3 & X3 & S3 & HI3 & G3);
    try (rewrite ?U1, ?U2, ?U3, ?U4; auto; lia).
  { apply chars_nil. }
  { rewrite Zlen_nil. lia. }
  rewrite Zlen_nil in X3, G3. unfold empty_buf. rewrite X3. cbn [bind]. rewrite Em, upd_upd. pose proof (shape_trans _ _ _ S1 S3) as S13.
  destruct (in_place cf (s_mem w) b o k k3 B _ Wm E2 S13 HI3) as (Q1 & Q2 & Q3).
  { intros i Hi. rewrite G3 by lia. rewrite G1 by lia. reflexivity. }
  eexists. split; [reflexivity|]. auto.
Qed.

(** ** Stripping *)
Lemma contains_loop_ok : forall cf m l p c, bytes_at m p l -> contains_loop cf m p (length l) c = Ok (existsb (Z.eqb c) l).
Proof.
  intros cf m l. induction l as [|x l IH]; intros p c H; [reflexivity|]. cbn [length contains_loop existsb].
  pose proof (bytes_at_cons _ _ _ _ H) as [H1 H2]. rewrite H1. cbn [bind]. erewrite padd_ok; eauto; [|zl]. cbn [bind].
  rewrite (Z.eqb_sym c x). destruct (x =? c); cbn [orb]; [reflexivity|]. now apply IH.
Qed.
Lemma view_contains_char_ok : forall cf m v l c, has_view m v l -> view_contains_char cf m v c = Ok (existsb (Z.eqb c) l).
Proof.
  intros cf m v l c (Hb & Hs & _). unfold view_contains_char, strview_is_valid. rewrite (bytes_at_nonnull _ _ _ Hb). cbn [negb].
  rewrite Hs, Zlen_to_nat. now apply contains_loop_ok.
Qed.


Lemma touches_view : forall cf m m' p p' B v l, touches cf m m' p p' B -> has_view m v l -> outside cf p B v l -> has_view m' v l.
Proof.
  intros cf m m' p p' B v l Ht (H1 & H2) [_ Ho]. split; auto. eapply touches_bytes; eauto.
Qed.

Lemma strip_loop_ok : forall cf v set p cap a rest kept m, wf_cfg cf -> mem_wf m ->
  buf_at cf m p (Buffer (kept ++ rest) cap a) -> has_view m v set -> outside cf p (Buffer (kept ++ rest) cap a) v set ->
  exists m', strip_loop cf m p (shift (chars_of cf p) (Zlen kept)) (length rest) v = Ok m' /\
    buf_at cf m' p (Buffer (kept ++ without set rest) cap a) /\
    touches cf m m' p p (Buffer (kept ++ rest) cap a) /\ mem_wf m'.
Proof.
  intros cf v set p cap a rest. induction rest as [|c rest IH]; intros kept m W Wm HB Hv Ho.
  - exists m. cbn [length strip_loop without filter]. split; auto. split; auto. split; auto. now apply touches_refl.
  - pose proof (hdr_size_pos cf W) as Hp. pose proof (Zlen_nonneg kept) as Z1. pose proof (Zlen_nonneg rest) as Z2.
    cbn [length strip_loop without filter].
    pose proof (buf_at_bytes cf m p _ W HB) as Hb. cbn [bf_data] in Hb. rewrite <- app_assoc in Hb. cbn [app] in Hb.
    apply bytes_at_app in Hb as [_ Hb]. pose proof (bytes_at_cons _ _ _ _ Hb) as [L1 Hb2]. rewrite L1. cbn [bind].
    rewrite (view_contains_char_ok cf m v set c Hv). cbn [bind].
    assert (padd cf m (shift (chars_of cf p) (Zlen kept)) 1 = Ok (shift (chars_of cf p) (Zlen kept + 1))) as Hpa.
    { erewrite padd_ok; eauto; [|zl]. now rewrite shift_shift. }
    destruct (existsb (Z.eqb c) set) eqn:Ec; cbn [negb]; rewrite Hpa; cbn [bind].
    + pose proof HB as (b & k & E1 & E2 & HI). destruct p as [po o]. cbn [p_obj p_ofs] in *. subst po.
      pose proof (buf_in_chars _ _ _ _ HI) as Ch. cbn [bf_data] in Ch.
      pose proof HI as (L & O & Al & Fi & H & D & T & By & C1 & Dy). cbn [bf_data bf_cap bf_alloc] in *.
      unfold chars_of, shift. cbn [p_obj p_ofs].
      assert (Zlen (kept ++ c :: rest) = Zlen kept + (1 + Zlen rest)) as El by (rewrite Zlen_app, Zlen_cons; lia).
      destruct (memmove_sets cf m b k (o + hdr_size cf + Zlen kept) (o + hdr_size cf + (Zlen kept + 1)) (Z.of_nat (S (length rest))) E2 L)
        as (k1 & X1 & S1 & G1); try (rewrite Nat2Z.inj_succ; fold (Zlen rest); lia); try lia.
      rewrite X1. cbn [bind]. replace (Z.of_nat (S (length rest))) with (1 + Zlen rest) in G1 by (unfold Zlen; lia).
      pose proof S1 as (U1 & U2 & U3 & U4).
      assert (nth_error (upd m b k1) b = Some k1) as N1 by (eapply nth_upd; eauto).
      assert (holder cf (upd m b k1) b o k1) as Hh by (constructor; auto; try congruence; lia).
      assert (hdr_at cf k1 o (Hdr (Zlen (kept ++ c :: rest)) cap a)) as H1.
      { intros i Hi. rewrite G1. rin. now apply H. }
      rewrite (load_hdr_ok cf (upd m b k1) b o k1 _ W Hh H1). cbn [bind h_size].
      unfold isub. rewrite int_res_ok by (unfold INT_MIN; lia). cbn [bind].
      destruct (set_size_sets cf (upd m b k1) b o k1 _ _ _ (Zlen (kept ++ c :: rest) - 1) W Hh H1) as (k2 & X2 & S2 & G2).
      rewrite X2. cbn [bind]. rewrite upd_upd. pose proof (shape_trans _ _ _ S1 S2) as S12. pose proof S12 as (V1 & V2 & V3 & V4).
      assert (buf_in cf k2 o (Buffer (kept ++ rest) cap a)) as HI2.
      { rewrite <- app_assoc in Ch. cbn [app] in Ch. apply chars_app in Ch as [Ch1 Ch2].
        change (c :: rest ++ [0]) with ([c] ++ (rest ++ [0])) in Ch2. apply chars_app in Ch2 as [_ Ch2]. change (Zlen [c]) with 1 in Ch2.
        apply Forall_app in By as [By1 By2]. inversion By2; subst.
        apply buf_in_intro; auto; try congruence.
        - intros i Hi. rewrite G2. rin. rewrite El, Zlen_app. f_equal; [f_equal|]; lia.
        - rewrite <- app_assoc. apply chars_app. split.
          + apply (chars_eq k _ (o + hdr_size cf)); auto. intros i Hi. rewrite G2. rin. rewrite G1. rin. reflexivity.
          + apply (chars_eq k _ (o + hdr_size cf + Zlen kept + 1)); auto. intros i Hi. rewrite Zlen_app in Hi. change (Zlen [0]) with 1 in Hi.
            rewrite G2. rin. rewrite G1. rin. f_equal. lia.
        - apply Forall_app. auto.
        - rewrite Zlen_app. lia.
        - intros X. rewrite V4, V2. now apply Dy. }
      destruct (in_place cf m b o k k2 (Buffer (kept ++ c :: rest) cap a) _ Wm E2 S12 HI2) as (Q1 & Q2 & Q3).
      { intros i Hi. cbn [bf_cap] in Hi. rewrite G2. rin. rewrite G1. rin. reflexivity. }
      destruct (IH kept (upd m b k2) W Q3 Q1) as (m' & I1 & I2 & I3 & I4).
      { eapply touches_view; eauto. }
      { exact Ho. }
      exists m'. split; [exact I1|]. split; auto. split; auto. eapply (touches_trans _ _ _ _ _ _ _ _ (Buffer (kept ++ rest) cap a)); eauto.
    + replace (Zlen kept + 1) with (Zlen (kept ++ [c])) by (rewrite Zlen_app; reflexivity).
      replace (kept ++ c :: rest) with ((kept ++ [c]) ++ rest) in * by (now rewrite <- app_assoc).
      destruct (IH (kept ++ [c]) m W Wm HB Hv Ho) as (m' & I1 & I2 & I3 & I4). exists m'. split; auto. split; auto.
      rewrite <- app_assoc in I2. exact I2.
Qed.

Lemma strip_ok : forall cf w p B v set, wf_cfg cf -> mem_wf (s_mem w) -> no_fail w -> buf_at cf (s_mem w) p B ->
  has_view (s_mem w) v set -> outside cf p B v set ->
  becomes_at cf w p B (strbuf_strip_strview cf w (Some p) v) (Buffer (without set (bf_data B)) (bf_cap B) (bf_alloc B)).
Proof.
  intros cf w p B v set W Wm Nf HB Hv Ho. unfold strbuf_strip_strview. rewrite (on_buf_ok cf (s_mem w) p B) by auto.
  pose proof Hv as (Hb & _). unfold strview_is_valid. rewrite (bytes_at_nonnull _ _ _ Hb). cbn [negb].
  rewrite (buf_at_load cf (s_mem w) p B W HB). cbn [bind hdr_of h_size]. rewrite Zlen_to_nat. destruct B as [d cap a]. cbn [bf_data bf_cap bf_alloc] in *.
  destruct (strip_loop_ok cf v set p cap a d [] (s_mem w) W Wm HB Hv Ho) as (m' & I1 & I2 & I3 & I4).
  change (Zlen (@nil Z)) with 0 in I1. replace (shift (chars_of cf p) 0) with (cstr_of cf p) in I1 by (unfold chars_of, cstr_of, shift; cbn [p_obj p_ofs]; f_equal; lia).
  rewrite I1. cbn [bind]. exists (with_mem w m'). rewrite (ret_view_ok cf (with_mem w m') p _ W I2). auto.
Qed.
Lemma strip_invalid : forall cf w p B v, wf_cfg cf -> buf_at cf (s_mem w) p B -> strview_is_valid v = false ->
  strbuf_strip_strview cf w (Some p) v = Ok (buf_view cf p B, Some p, w).
Proof.
  intros cf w p B v W HB Hv. unfold strbuf_strip_strview. rewrite (on_buf_ok cf (s_mem w) p B) by auto. rewrite Hv. now apply ret_view_ok.
Qed.
