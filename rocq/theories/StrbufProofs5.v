(** Single buffer operations. *)
From Verif Require Import Base Mem Libc StrviewModel Spec MemLemmas Alloc StrbufModel BufSpec StrbufProofs StrbufProofs2 StrbufProofs3 StrbufProofs4.

(** The same for internal functions. *)
Definition yields (cf : cfg) (w : st) (p : ptr) (B : buffer) (r : outcome (ptr * st)) (B' : buffer) : Prop :=
  exists p' w', r = Ok (p', w') /\ buf_at cf (s_mem w') p' B' /\
    touches cf (s_mem w) (s_mem w') p p' B /\ mem_wf (s_mem w') /\ no_fail w'.

Lemma view_ok : forall cf m p B, wf_cfg cf -> buf_at cf m p B -> strview_of_buf cf m p = Ok (buf_view cf p B).
Proof.
  intros cf m p B W H. unfold strview_of_buf. rewrite (buf_at_nonnull _ _ _ _ H), (buf_at_load cf m p B W H). reflexivity.
Qed.
Lemma ret_view_ok : forall cf w p B, wf_cfg cf -> buf_at cf (s_mem w) p B -> ret_view cf (Some p) w = Ok (buf_view cf p B, Some p, w).
Proof. intros cf w p B W H. unfold ret_view. now rewrite (view_ok cf _ p B W H). Qed.
Lemma on_buf_ok : forall {T} cf m p B (n : outcome T) f, buf_at cf m p B -> on_buf (Some p) n f = f p.
Proof. intros T cf m p B n f H. unfold on_buf. now rewrite (buf_at_nonnull _ _ _ _ H). Qed.

Lemma yields_becomes : forall cf w p B r B', wf_cfg cf -> yields cf w p B r B' ->
  becomes cf w p B (let! (p', w') := r in ret_view cf (Some p') w') B'.
Proof.
  intros cf w p B r B' W (p' & w' & -> & H1 & H2 & H3 & H4). cbn [bind]. exists p', w'. rewrite (ret_view_ok cf w' p' B' W H1). auto.
Qed.

Lemma put_data_len : forall cf B c, Zlen (bf_data (put cf B c)) <= Zlen c.
Proof. intros cf B c. unfold put. destruct (fits B c); cbn [bf_data]; [lia|]. rewrite Zlen_nil. apply Zlen_nonneg. Qed.

Lemma grown_same : forall cf B n, n <= bf_cap B -> grown cf B n = B.
Proof.
  intros cf B n H. unfold grown. rewrite (proj2 (Z.ltb_ge (bf_cap B) n)) by lia. rewrite andb_false_r. now destruct B.
Qed.

(** ** Insertion entry points *)
Lemma insert_becomes : forall cf w p B i v l, wf_cfg cf -> comparable cf p v -> mem_wf (s_mem w) -> no_fail w ->
  buf_at cf (s_mem w) p B -> source cf (s_mem w) p B v l -> INT_MIN <= i <= INT_MAX ->
  sums_ok cf (Zlen (bf_data B) + Zlen l) ->
  becomes cf w p B (let! (p', w') := insert_strview_into_buf cf w p i v in ret_view cf (Some p') w') (put cf B (insert (bf_data B) i l)).
Proof.
  intros cf w p B i v l W Hc Wm Nf HB Hs Hi Hsum. destruct (insert_cmp cf w p B i v l W Hc Wm Nf HB Hs Hi Hsum) as (p' & w' & -> & H1 & H2 & H3 & H4 & _).
  cbn [bind]. exists p', w'. rewrite (ret_view_ok cf w' p' _ W H1). auto.
Qed.

Lemma insert_end : forall c l, insert c (Zlen c) l = c ++ l.
Proof.
  intros c l. unfold insert, position. pose proof (Zlen_nonneg c). rewrite (proj2 (Z.ltb_ge _ 0)) by lia. rewrite Z.min_id, Zlen_to_nat.
  rewrite firstn_all, skipn_all, app_nil_r. reflexivity.
Qed.
Lemma insert_start : forall c l, insert c 0 l = l ++ c.
Proof. intros c l. unfold insert, position. cbn [Z.ltb Z.compare]. rewrite Z.min_l by apply Zlen_nonneg. reflexivity. Qed.

Lemma append_ok : forall cf w p B v l, wf_cfg cf -> comparable cf p v -> mem_wf (s_mem w) -> no_fail w ->
  buf_at cf (s_mem w) p B -> source cf (s_mem w) p B v l -> sums_ok cf (Zlen (bf_data B) + Zlen l) ->
  becomes cf w p B (strbuf_append_strview cf w (Some p) v) (put cf B (bf_data B ++ l)).
Proof.
  intros cf w p B v l W Hc Wm Nf HB Hs Hsum. unfold strbuf_append_strview. rewrite (on_buf_ok cf (s_mem w) p B) by auto.
  rewrite (buf_at_load cf (s_mem w) p B W HB). cbn [bind hdr_of h_size]. rewrite <- insert_end.
  destruct (buf_at_cap _ _ _ _ HB) as [C _]. pose proof (Zlen_nonneg (bf_data B)).
  apply insert_becomes; auto. unfold INT_MIN. lia.
Qed.
Lemma prepend_ok : forall cf w p B v l, wf_cfg cf -> comparable cf p v -> mem_wf (s_mem w) -> no_fail w ->
  buf_at cf (s_mem w) p B -> source cf (s_mem w) p B v l -> sums_ok cf (Zlen (bf_data B) + Zlen l) ->
  becomes cf w p B (strbuf_prepend_strview cf w (Some p) v) (put cf B (l ++ bf_data B)).
Proof.
  intros cf w p B v l W Hc Wm Nf HB Hs Hsum. unfold strbuf_prepend_strview. rewrite (on_buf_ok cf (s_mem w) p B) by auto.
  rewrite <- insert_start. apply insert_becomes; auto. unfold INT_MIN, INT_MAX. lia.
Qed.
Lemma insert_at_index_ok : forall cf w p B i v l, wf_cfg cf -> comparable cf p v -> mem_wf (s_mem w) -> no_fail w ->
  buf_at cf (s_mem w) p B -> source cf (s_mem w) p B v l -> INT_MIN <= i <= INT_MAX -> sums_ok cf (Zlen (bf_data B) + Zlen l) ->
  becomes cf w p B (strbuf_insert_at_index_strview cf w (Some p) i v) (put cf B (insert (bf_data B) i l)).
Proof.
  intros cf w p B i v l W Hc Wm Nf HB Hs Hi Hsum. unfold strbuf_insert_at_index_strview. rewrite (on_buf_ok cf (s_mem w) p B) by auto.
  apply insert_becomes; auto.
Qed.

(** ** insert_before, insert_after *)
Lemma insert_at_ptr_in : forall cf w p B x src l, wf_cfg cf -> mem_wf (s_mem w) -> no_fail w ->
  buf_at cf (s_mem w) p B -> source cf (s_mem w) p B src l -> 0 <= x <= Zlen (bf_data B) -> sums_ok cf (Zlen (bf_data B) + Zlen l) ->
  insert_at_ptr cf w p (shift (chars_of cf p) x) src = insert_strview_into_buf cf w p x src.
Proof.
  intros cf w p B x src l W Wm Nf HB Hs Hx Hsum. unfold insert_at_ptr, ple. change (cstr_of cf p) with (chars_of cf p).
  destruct (buf_at_cap _ _ _ _ HB) as [C _].
  rewrite pdiff_shift_r. cbn [bind]. rewrite (proj2 (Z.leb_le _ 0)) by lia.
  rewrite (buf_at_load cf (s_mem w) p B W HB). cbn [bind hdr_of h_size].
  pose proof HB as (b & k & E1 & E2 & HI). destruct p as [po o]. cbn [p_obj p_ofs] in E1, HI. subst po. destruct HI as (L & O & _ & F & _).
  pose proof (hdr_size_pos cf W). rewrite (char_at_in cf _ b o k) by (auto; lia). cbn [bind].
  unfold chars_of, shift. cbn [p_obj p_ofs]. rewrite !pdiff_same. cbn [bind]. rewrite (proj2 (Z.leb_le _ 0)) by lia.
  rewrite to_int_ok by (unfold INT_MIN, INT_MAX in *; lia). f_equal. lia.
Qed.

Lemma insert_before_in : forall cf w p B a d c src l, wf_cfg cf -> comparable cf p src -> mem_wf (s_mem w) -> no_fail w ->
  buf_at cf (s_mem w) p B -> source cf (s_mem w) p B src l -> bf_data B = a ++ d ++ c -> sums_ok cf (Zlen (bf_data B) + Zlen l) ->
  becomes cf w p B (strbuf_insert_before_strview cf w (Some p) (View (shift (chars_of cf p) (Zlen a)) (Zlen d)) src)
    (put cf B (a ++ l ++ d ++ c)).
Proof.
  intros cf w p B a d c src l W Hc Wm Nf HB Hs Hd Hsum. unfold strbuf_insert_before_strview. rewrite (on_buf_ok cf (s_mem w) p B) by auto.
  cbn [v_data]. destruct (buf_at_cap _ _ _ _ HB) as [C _].
  assert (0 <= Zlen a <= Zlen (bf_data B)) as Ha by (rewrite Hd; zl).
  rewrite (insert_at_ptr_in cf w p B (Zlen a) src l) by auto.
  assert (a ++ l ++ d ++ c = insert (bf_data B) (Zlen a) l) as ->.
  { unfold insert, position. rewrite (proj2 (Z.ltb_ge (Zlen a) 0)), Z.min_l by lia. rewrite Zlen_to_nat, Hd.
    rewrite firstn_app, skipn_app, Nat.sub_diag, firstn_all, skipn_all. cbn [firstn skipn app]. now rewrite app_nil_r. }
  apply insert_becomes; auto. unfold INT_MIN. lia.
Qed.
Lemma insert_after_in : forall cf w p B a d c src l, wf_cfg cf -> comparable cf p src -> mem_wf (s_mem w) -> no_fail w ->
  buf_at cf (s_mem w) p B -> source cf (s_mem w) p B src l -> bf_data B = a ++ d ++ c -> sums_ok cf (Zlen (bf_data B) + Zlen l) ->
  becomes cf w p B (strbuf_insert_after_strview cf w (Some p) (View (shift (chars_of cf p) (Zlen a)) (Zlen d)) src)
    (put cf B (a ++ d ++ l ++ c)).
Proof.
  intros cf w p B a d c src l W Hc Wm Nf HB Hs Hd Hsum. unfold strbuf_insert_after_strview. rewrite (on_buf_ok cf (s_mem w) p B) by auto.
  destruct (buf_at_cap _ _ _ _ HB) as [C _].
  assert (strview_is_valid (View (shift (chars_of cf p) (Zlen a)) (Zlen d)) = true) as ->.
  { unfold strview_is_valid. cbn [v_data]. pose proof HB as (b & k & E1 & _). unfold is_null, chars_of. rewrite !shift_obj, E1. reflexivity. }
  cbn [v_data v_size].
  assert (padd cf (s_mem w) (shift (chars_of cf p) (Zlen a)) (Zlen d) = Ok (shift (chars_of cf p) (Zlen a + Zlen d))) as ->.
  { pose proof HB as (b & k & E1 & E2 & HI). destruct p as [po o]. cbn [p_obj p_ofs] in E1, HI. subst po. destruct HI as (L & O & _ & F & _).
    pose proof (hdr_size_pos cf W). unfold chars_of, shift. cbn [p_obj p_ofs]. rewrite (padd_in cf _ b _ k) by (auto; rewrite Hd in C; zl). do 2 f_equal. lia. }
  cbn [bind]. assert (0 <= Zlen a + Zlen d <= Zlen (bf_data B)) as Ha by (rewrite Hd; zl).
  rewrite (insert_at_ptr_in cf w p B (Zlen a + Zlen d) src l) by auto.
  assert (a ++ d ++ l ++ c = insert (bf_data B) (Zlen a + Zlen d) l) as ->.
  { unfold insert, position. rewrite (proj2 (Z.ltb_ge (Zlen a + Zlen d) 0)), Z.min_l by lia. rewrite <- Zlen_app, Zlen_to_nat, Hd.
    rewrite (app_assoc a d c). rewrite firstn_app, skipn_app, Nat.sub_diag, firstn_all, skipn_all. cbn [firstn skipn app].
    rewrite app_nil_r, <- !app_assoc. reflexivity. }
  apply insert_becomes; auto. unfold INT_MIN. lia.
Qed.

(** A pointer outside of the characters of the buffer: nothing happens. *)
Lemma insert_at_ptr_out : forall cf w p B v l src, wf_cfg cf -> c_ptr cf = true -> mem_wf (s_mem w) ->
  buf_at cf (s_mem w) p B -> has_view (s_mem w) v l -> outside cf p B v l ->
  forall x, 0 <= x <= Zlen l -> insert_at_ptr cf w p (shift (v_data v) x) src = Ok (p, w).
Proof.
  intros cf w p B v l src W Hc Wm HB Hv Ho x Hx. unfold insert_at_ptr, ple.
  destruct (outside_diff cf (s_mem w) p B v l W (or_introl Hc) Wm HB Hv Ho) as (d & D1 & D2 & D3 & D4).
  pose proof (hdr_size_pos cf W). destruct (buf_at_cap _ _ _ _ HB) as [C _].
  assert (forall a b i e, pdiff cf (s_mem w) a b = Ok e -> pdiff cf (s_mem w) (shift a i) b = Ok (e + i) /\ pdiff cf (s_mem w) b (shift a i) = Ok (- e - i)) as Ps.
  { intros a b i e. unfold pdiff. rewrite !shift_obj, !shift_ofs. destruct (pobj_eqb (p_obj a) (p_obj b)) eqn:Eo.
    - intros E. injection E as <-. apply pobj_eqb_eq in Eo. rewrite Eo, pobj_eqb_refl. split; f_equal; lia.
    - assert (pobj_eqb (p_obj b) (p_obj a) = false) as ->. { destruct (pobj_eqb (p_obj b) (p_obj a)) eqn:E'; auto. apply pobj_eqb_eq in E'. rewrite E', pobj_eqb_refl in Eo. discriminate. }
      rewrite Hc. assert (addr (s_mem w) (shift a i) = match addr (s_mem w) a with Some z => Some (z + i) | None => None end) as ->.
      { unfold addr. rewrite shift_obj, shift_ofs. destruct (p_obj a); auto. destruct (nth_error (s_mem w) b0); auto. f_equal. lia. }
      destruct (addr (s_mem w) a); [|discriminate]. destruct (addr (s_mem w) b); [|discriminate]. intros E. injection E as <-. split; f_equal; lia. }
  destruct (Ps _ _ x _ D1) as [_ Q2]. rewrite Q2. cbn [bind].
  destruct (- d - x <=? 0) eqn:E1; auto. apply Z.leb_le in E1.
  rewrite (buf_at_load cf (s_mem w) p B W HB). cbn [bind hdr_of h_size].
  assert (char_at cf (s_mem w) p (Zlen (bf_data B)) = Ok (shift (cstr_of cf p) (Zlen (bf_data B)))) as ->.
  { pose proof HB as (b & k & E & _). unfold char_at, padd, cstr_of. rewrite shift_obj, E, Hc. reflexivity. }
  cbn [bind]. destruct (Ps _ _ x _ (D4 (Zlen (bf_data B)))) as [Q3 _]. rewrite Q3. cbn [bind]. rewrite (proj2 (Z.leb_gt _ 0)) by lia. reflexivity.
Qed.
Lemma insert_at_ptr_null : forall cf w p B src, c_ptr cf = true -> mem_wf (s_mem w) -> wf_cfg cf ->
  buf_at cf (s_mem w) p B -> insert_at_ptr cf w p null src = Ok (p, w).
Proof.
  intros cf w p B src Hc Wm W HB. unfold insert_at_ptr, ple, pdiff. pose proof HB as (b & k & E1 & E2 & L & O & _).
  unfold cstr_of. rewrite shift_obj, E1. cbn [null p_obj p_ofs pobj_eqb]. rewrite Hc. unfold addr. rewrite shift_obj, E1, E2, shift_ofs. cbn [p_obj null p_ofs bind].
  pose proof (proj1 Wm b k E2 L). pose proof (hdr_size_pos cf W). rewrite (proj2 (Z.leb_gt _ 0)) by lia. reflexivity.
Qed.

Lemma insert_before_out : forall cf w p B dst d src, wf_cfg cf -> c_ptr cf = true -> mem_wf (s_mem w) -> no_fail w ->
  buf_at cf (s_mem w) p B -> (dst = INVALID \/ (has_view (s_mem w) dst d /\ outside cf p B dst d)) ->
  strbuf_insert_before_strview cf w (Some p) dst src = Ok (buf_view cf p B, Some p, w) /\
  strbuf_insert_after_strview cf w (Some p) dst src = Ok (buf_view cf p B, Some p, w).
Proof.
  intros cf w p B dst d src W Hc Wm Nf HB Hd. unfold strbuf_insert_before_strview, strbuf_insert_after_strview.
  rewrite !(on_buf_ok cf (s_mem w) p B) by auto. destruct Hd as [->|[Hv Ho]].
  - cbn [INVALID v_data]. rewrite (insert_at_ptr_null cf w p B src) by auto. cbn [bind strview_is_valid v_data is_null null p_obj p_ofs Z.eqb negb].
    rewrite (ret_view_ok cf w p B W HB). auto.
  - rewrite (has_view_valid _ _ _ Hv). rewrite <- (shift_0 (v_data dst)) at 1.
    pose proof (Zlen_nonneg d). rewrite (insert_at_ptr_out cf w p B dst d src W Hc Wm HB Hv Ho 0) by lia. cbn [bind].
    rewrite (ret_view_ok cf w p B W HB). split; auto.
    pose proof Hv as (Hb & Hsz & _). rewrite Hsz, (padd_ok cf (s_mem w) (v_data dst) d) by (auto; lia). cbn [bind].
    rewrite (insert_at_ptr_out cf w p B dst d src W Hc Wm HB Hv Ho) by lia. cbn [bind]. now rewrite (ret_view_ok cf w p B W HB).
Qed.

(** ** Changes in place *)
Lemma in_place : forall cf m b o k k' B B', mem_wf m -> nth_error m b = Some k -> shape k k' -> buf_in cf k' o B' ->
  (forall i, ~ (o <= i < o + hdr_size cf + bf_cap B + 1) -> b_get k' i = b_get k i) ->
  buf_at cf (upd m b k') (Ptr (PBlk b) o) B' /\ touches cf m (upd m b k') (Ptr (PBlk b) o) (Ptr (PBlk b) o) B /\ mem_wf (upd m b k').
Proof.
  intros cf m b o k k' B B' Wm Hn Hs HI Hf. split; [|split].
  - exists b, k'. split; auto. split; [eapply nth_upd; eauto|exact HI].
  - apply (touches_upd cf m b o k); auto.
  - eapply mem_wf_upd; eauto.
Qed.

Lemma grown_fits : forall cf B n, wf_cfg cf -> 0 <= n <= INT_MAX ->
  (bf_cap (grown cf B n) <? n) = negb (if dyn B then n <=? INT_MAX else n <=? bf_cap B).
Proof.
  intros cf B n W Hn. unfold grown. cbn [bf_cap]. destruct (dyn B); cbn [andb].
  - rewrite (proj2 (Z.leb_le _ INT_MAX)) by lia. cbn [negb]. apply Z.ltb_ge.
    destruct (bf_cap B <? n) eqn:E; [apply rounded_bounds; auto|]. apply Z.ltb_ge in E. lia.
  - symmetry. rewrite <- Z.ltb_antisym. reflexivity.
Qed.
Lemma grown_touch : forall cf m1 m2 m3 p1 p2 p3 B n,
  touches cf m1 m2 p1 p2 B -> touches cf m2 m3 p2 p3 (grown cf B n) -> touches cf m1 m3 p1 p3 B.
Proof.
  intros cf m1 m2 m3 p1 p2 p3 B n H1 H2. refine (touches_trans _ _ _ _ _ _ _ B (grown cf B n) _ _ H1 H2); [reflexivity|].
  intros X. unfold grown. cbn [bf_cap]. now rewrite X.
Qed.

Lemma bind_assoc2 : forall {A B C} (x : outcome A) (f : A -> outcome B) (g : B -> outcome C) r,
  (let! a := x in f a) = Ok r -> (let! a := x in let! b := f a in g b) = g r.
Proof. intros A B C [a| |] f g r H; cbn in *; try discriminate. now rewrite H. Qed.

(** Setting the size and the terminator after the characters are in place. *)
Lemma close_ok : forall cf (m : mem) b o k c s cap a, wf_cfg cf ->
  nth_error m b = Some k -> b_live k = true -> 0 <= o -> (b_base k + o) mod c_ptrbytes cf = 0 ->
  o + hdr_size cf + cap + 1 <= b_size k -> hdr_at cf k o (Hdr s cap a) -> chars k (o + hdr_size cf) c ->
  Forall is_byte c -> Zlen c <= cap <= INT_MAX ->
  (is_dyn a = true -> o = 0 /\ b_owner k = Heap a /\ b_size k = hdr_size cf + cap + 1) ->
  exists k', (let! m2 := set_size cf m (Ptr (PBlk b) o) (Zlen c) in set_char cf m2 (Ptr (PBlk b) o) (Zlen c) 0) = @Ok mem (upd m b k') /\
    shape k k' /\ buf_in cf k' o (Buffer c cap a) /\
    (forall i, ~ (o <= i < o + hdr_size cf) -> i <> o + hdr_size cf + Zlen c -> b_get k' i = b_get k i).
Proof.
  intros cf m b o k c s cap a W Hn L O Al Fi H Ch By C Dy. pose proof (hdr_size_pos cf W) as Hp. pose proof (Zlen_nonneg c) as Zc.
  assert (holder cf m b o k) as Hh by (constructor; auto; lia).
  destruct (set_size_sets cf m b o k s cap a (Zlen c) W Hh H) as (k2 & X2 & S2 & G2).
  rewrite X2. cbn [bind]. pose proof S2 as (V1 & V2 & V3 & V4).
  assert (nth_error (upd m b k2) b = Some k2) as N2 by (eapply nth_upd; eauto).
  destruct (set_char_sets cf (upd m b k2) b o k2 (Zlen c) 0 N2) as (k3 & X3 & S3 & G3); [congruence|lia|].
  rewrite X3. rewrite upd_upd. pose proof (shape_trans _ _ _ S2 S3) as S13. pose proof S13 as (Y1 & Y2 & Y3 & Y4).
  exists k3. split; [reflexivity|]. split; [exact S13|]. split.
  - apply buf_in_intro; auto; try congruence.
    + intros i Hi. rewrite G3. rin. rewrite G2. rin. f_equal. lia.
    + apply chars_app. split.
      * apply (chars_eq k _ (o + hdr_size cf)); auto. intros i Hi. rewrite G3. rin. rewrite G2. rin. reflexivity.
      * intros i Hi. change (Zlen [0]) with 1 in Hi. replace i with 0 by lia. rewrite G3. rin. reflexivity.
    + intros X. rewrite Y4, Y2. now apply Dy.
  - intros i Hi Hj. rewrite G3. rin. rewrite G2. rin. reflexivity.
Qed.

Lemma append_char_yields : forall cf w p B c, wf_cfg cf -> mem_wf (s_mem w) -> no_fail w ->
  buf_at cf (s_mem w) p B -> is_byte c -> sums_ok cf (Zlen (bf_data B) + 1) ->
  yields cf w p B (append_char_to_buf cf w p c) (put cf B (bf_data B ++ [c])).
Proof.
  intros cf w p B c W Wm Nf HB Hc Hsum. destruct (buf_at_cap _ _ _ _ HB) as [C F]. pose proof (Zlen_nonneg (bf_data B)) as Z1.
  pose proof (hdr_size_pos cf W) as Hp.
  unfold append_char_to_buf. rewrite (buf_at_load cf (s_mem w) p B W HB). cbn [bind hdr_of h_size].
  unfold put, fits. rewrite Zlen_app. change (Zlen [c]) with 1.
  destruct (Z.le_gt_cases (Zlen (bf_data B) + 1) INT_MAX) as [Hle|Hgt].
  - rewrite add_check_ok by (unfold INT_MAX in *; lia). cbn [bind].
    destruct (ensure_ok cf w p B (Zlen (bf_data B) + 1) W Wm Nf HB ltac:(lia) ltac:(auto)) as (p1 & w1 & En & HB1 & Ht & Wm1 & Nf1 & _ & Hst).
    rewrite En. cbn [bind]. rewrite (buf_at_load cf (s_mem w1) p1 _ W HB1). cbn [bind].
    set (cap1 := bf_cap (grown cf B (Zlen (bf_data B) + 1))) in *.
    change (hdr_of (grown cf B (Zlen (bf_data B) + 1))) with (Hdr (Zlen (bf_data B)) cap1 (bf_alloc B)). cbn [h_cap h_size].
    pose proof (grown_fits cf B (Zlen (bf_data B) + 1) W ltac:(lia)) as Ef. fold cap1 in Ef. rewrite Ef.
    destruct (if dyn B then Zlen (bf_data B) + 1 <=? INT_MAX else Zlen (bf_data B) + 1 <=? bf_cap B) eqn:Ef2; cbn [negb] in *.
    + apply Z.ltb_ge in Ef. pose proof HB1 as (b & k & E1 & E2 & HI). destruct p1 as [po o]. cbn [p_obj p_ofs] in *. subst po.
      pose proof (buf_in_chars _ _ _ _ HI) as Ch.
      pose proof HI as (L & O & Al & Fi & H & D & T & By & C1 & Dy).
      change (bf_cap (grown cf B (Zlen (bf_data B) + 1))) with cap1 in Fi, C1, Dy.
      change (hdr_of (grown cf B (Zlen (bf_data B) + 1))) with (Hdr (Zlen (bf_data B)) cap1 (bf_alloc B)) in H.
      cbn [grown bf_data bf_alloc] in Ch, D, T, By, C1, Dy.
      destruct (set_char_sets cf (s_mem w1) b o k (Zlen (bf_data B)) c E2 L ltac:(lia)) as (k1 & X1 & S1 & G1).
      rewrite X1. cbn [bind]. pose proof S1 as (U1 & U2 & U3 & U4).
      assert (nth_error (upd (s_mem w1) b k1) b = Some k1) as N1 by (eapply nth_upd; eauto).
      destruct (close_ok cf (upd (s_mem w1) b k1) b o k1 (bf_data B ++ [c]) (Zlen (bf_data B)) cap1 (bf_alloc B) W N1) as (k3 & X3 & S3 & HI3 & G3);
        try (rewrite ?U1, ?U2, ?U3, ?U4; auto; fail).
      { intros i Hi. rewrite G1. rin. now apply H. }
      { apply chars_app in Ch as [Ch _]. apply chars_app. split.
        + apply (chars_eq k _ (o + hdr_size cf)); auto. intros i Hi. rewrite G1. rin. reflexivity.
        + intros i Hi. change (Zlen [c]) with 1 in Hi. replace i with 0 by lia. rewrite G1. rin.
          unfold zn. cbn. f_equal. apply Z.mod_small. exact Hc. }
      { apply Forall_app. auto. }
      { rewrite Zlen_app. change (Zlen [c]) with 1. lia. }
      rewrite Zlen_app in X3, G3. change (Zlen [c]) with 1 in X3, G3.
      rewrite (bind_assoc2 _ _ _ _ X3). rewrite upd_upd. pose proof (shape_trans _ _ _ S1 S3) as S13.
      destruct (in_place cf (s_mem w1) b o k k3 (grown cf B (Zlen (bf_data B) + 1)) _ Wm1 E2 S13 HI3) as (Q1 & Q2 & Q3).
      { intros i Hi. change (bf_cap (grown cf B (Zlen (bf_data B) + 1))) with cap1 in Hi. rewrite G3 by lia. rewrite G1. rin. reflexivity. }
      exists (Ptr (PBlk b) o). eexists. split; [reflexivity|]. unfold with_mem. cbn [s_mem]. split; [exact Q1|]. split; [|split; [exact Q3|exact Nf1]].
      eapply grown_touch; eauto.
    + destruct (empty_buf_ok cf (s_mem w1) p1 _ W Wm1 HB1) as (m2 & M1 & M2 & M3 & M4 & _).
      rewrite M1. cbn [bind]. exists p1. eexists. split; [reflexivity|]. unfold with_mem. cbn [s_mem].
      assert (dyn B = false) as Hdf. { destruct (dyn B); auto. apply Z.leb_gt in Ef2. lia. }
      split; [|split; [|split; [exact M4|exact Nf1]]].
      * unfold grown in M2. cbn [bf_cap bf_alloc] in M2. rewrite Hdf in M2. exact M2.
      * eapply grown_touch; eauto.
  - destruct Hsum as [Hw|Hsum]; [|destruct W as [W _]; lia].
    rewrite add_check_over by (auto; unfold INT_MAX in *; lia). cbn [bind].
    destruct (empty_buf_ok cf (s_mem w) p B W Wm HB) as (m2 & M1 & M2 & M3 & M4 & _).
    rewrite M1. cbn [bind]. exists p. eexists. split; [reflexivity|]. unfold with_mem. cbn [s_mem].
    assert ((if dyn B then Zlen (bf_data B) + 1 <=? INT_MAX else Zlen (bf_data B) + 1 <=? bf_cap B) = false) as ->.
    { destruct (dyn B); apply Z.leb_gt; lia. }
    auto.
Qed.

Lemma append_char_ok : forall cf w p B c, wf_cfg cf -> mem_wf (s_mem w) -> no_fail w ->
  buf_at cf (s_mem w) p B -> is_byte c -> sums_ok cf (Zlen (bf_data B) + 1) ->
  becomes cf w p B (strbuf_append_char cf w (Some p) c) (put cf B (bf_data B ++ [c])).
Proof.
  intros cf w p B c W Wm Nf HB Hc Hsum. unfold strbuf_append_char. rewrite (on_buf_ok cf (s_mem w) p B) by auto.
  apply yields_becomes; auto. now apply append_char_yields.
Qed.

(** ** Assignment *)
Lemma assign_ok : forall cf w p B v l, wf_cfg cf -> mem_wf (s_mem w) -> no_fail w ->
  buf_at cf (s_mem w) p B -> source cf (s_mem w) p B v l -> (dyn B = true -> bf_cap B < Zlen l -> sums_ok cf (Zlen l)) ->
  becomes cf w p B (strbuf_assign cf w (Some p) v) (put cf B l).
Proof.
  intros cf w p B v l W Wm Nf HB Hs Hsum. destruct (buf_at_cap _ _ _ _ HB) as [C F]. pose proof (Zlen_nonneg (bf_data B)) as Z1.
  destruct (source_ok _ _ _ _ _ _ HB Hs) as [Fl Ll]. pose proof (source_len _ _ _ _ _ _ Hs) as Hv. pose proof (Zlen_nonneg l) as Z2.
  pose proof (hdr_size_pos cf W) as Hp.
  unfold strbuf_assign. rewrite (on_buf_ok cf (s_mem w) p B) by auto.
  destruct (strview_is_valid v) eqn:Ev.
  - rewrite Hv.
    destruct (ensure_ok cf w p B (Zlen l) W Wm Nf HB ltac:(lia) ltac:(auto)) as (p1 & w1 & En & HB1 & Ht & Wm1 & Nf1 & _ & Hst).
    rewrite En. cbn [bind]. rewrite (buf_at_load cf (s_mem w1) p1 _ W HB1). cbn [bind].
    set (cap1 := bf_cap (grown cf B (Zlen l))) in *.
    change (hdr_of (grown cf B (Zlen l))) with (Hdr (Zlen (bf_data B)) cap1 (bf_alloc B)). cbn [h_cap h_size].
    pose proof (grown_fits cf B (Zlen l) W ltac:(lia)) as Ef. fold cap1 in Ef. rewrite Ef.
    unfold put, fits. destruct (if dyn B then Zlen l <=? INT_MAX else Zlen l <=? bf_cap B) eqn:Ef2; cbn [negb] in *.
    + apply Z.ltb_ge in Ef. 
      assert (bytes_at (s_mem w1) (v_data v) l) as Hbl.
      { inversion Hs as [E1 E2|v0 l0 HV HO E1 E2|x l0 y Hl E1 E2|q Hq E1 E2]; auto.
        - subst. discriminate.
        - destruct HV as (HV & _). destruct HO as [_ HO]. eapply touches_bytes; eauto.
        - subst. assert (Zlen l <= bf_cap B) as Hlc by (rewrite Hl, !Zlen_app in C; pose proof (Zlen_nonneg x); pose proof (Zlen_nonneg y); lia).
          destruct (Hst (or_intror Hlc)) as [-> ->].
          pose proof (buf_at_bytes cf (s_mem w) p B W HB) as Hb. rewrite Hl in Hb. rewrite <- !app_assoc in Hb.
          apply bytes_at_sub in Hb. exact Hb.
        - subst. assert (Zlen (@nil Z) <= bf_cap B) as Hlc by (change (Zlen (@nil Z)) with 0; lia). destruct (Hst (or_intror Hlc)) as [-> ->]. destruct HB as (b & k & E3 & E4 & L & O & Al & Fi & _).
          exists k. unfold chars_of, shift. cbn [p_obj p_ofs v_data]. rewrite E3. split; [now apply access_ok|]. change (Zlen (@nil Z)) with 0.
          split; [lia|]. split; [lia|]. intros i Hi. lia. }
      pose proof HB1 as (b & k & E1 & E2 & HI). destruct p1 as [po o]. cbn [p_obj p_ofs] in *. subst po.
      pose proof HI as (L & O & Al & Fi & H & D & T & By & C1 & Dy).
      change (bf_cap (grown cf B (Zlen l))) with cap1 in Fi, C1, Dy.
      change (hdr_of (grown cf B (Zlen l))) with (Hdr (Zlen (bf_data B)) cap1 (bf_alloc B)) in H.
      cbn [grown bf_data bf_alloc] in D, T, By, C1, Dy.
      destruct (memmove_bytes cf (s_mem w1) b k (o + hdr_size cf) (v_data v) l E2 L ltac:(lia) ltac:(lia) Hbl) as (k1 & X1 & S1 & G1).
      change (cstr_of cf (Ptr (PBlk b) o)) with (Ptr (PBlk b) (o + hdr_size cf)).
      cbn [bind]. rewrite X1. cbn [bind]. pose proof S1 as (U1 & U2 & U3 & U4).
      assert (nth_error (upd (s_mem w1) b k1) b = Some k1) as N1 by (eapply nth_upd; eauto).
      destruct (close_ok cf (upd (s_mem w1) b k1) b o k1 l (Zlen (bf_data B)) cap1 (bf_alloc B) W N1) as (k3 & X3 & S3 & HI3 & G3);
        try (rewrite ?U1, ?U2, ?U3, ?U4; auto; lia).
      { intros i Hi. rewrite G1. rin. now apply H. }
      { intros i Hi. rewrite G1. rin. f_equal. f_equal. lia. }
      rewrite X3. rewrite upd_upd. cbn [bind]. pose proof (shape_trans _ _ _ S1 S3) as S13.
      destruct (in_place cf (s_mem w1) b o k k3 (grown cf B (Zlen l)) _ Wm1 E2 S13 HI3) as (Q1 & Q2 & Q3).
      { intros i Hi. change (bf_cap (grown cf B (Zlen l))) with cap1 in Hi. rewrite G3 by lia. rewrite G1. rin. reflexivity. }
      apply (yields_becomes cf w p B (Ok (Ptr (PBlk b) o, with_mem w1 (upd (s_mem w1) b k3)))); auto.
      eexists _, _. split; [reflexivity|]. unfold with_mem. cbn [s_mem]. split; [exact Q1|]. split; [|split; [exact Q3|exact Nf1]].
      eapply grown_touch; eauto.
    + destruct (empty_buf_ok cf (s_mem w1) p1 _ W Wm1 HB1) as (m2 & M1 & M2 & M3 & M4 & _).
      cbn [bind]. rewrite M1. cbn [bind]. apply (yields_becomes cf w p B (Ok (p1, with_mem w1 m2))); auto.
      eexists _, _. split; [reflexivity|]. unfold with_mem. cbn [s_mem].
      assert (dyn B = false) as Hdf. { destruct (dyn B); auto. apply Z.leb_gt in Ef2. lia. }
      split; [|split; [|split; [exact M4|exact Nf1]]].
      * unfold grown in M2. cbn [bf_cap bf_alloc] in M2. rewrite Hdf in M2. exact M2.
      * eapply grown_touch; eauto.
  - assert (l = []) as ->.
    { inversion Hs as [E1 E2|v0 l0 HV HO E1 E2|x l0 y Hl E1 E2|q Hq E1 E2]; auto.
      - destruct HO as [(b & E) _]. subst. unfold strview_is_valid in Ev. destruct v as [[ob of] sz]. cbn in *. subst. discriminate.
      - subst. destruct HB as (b & k & E & _). unfold strview_is_valid in Ev. destruct p as [ob of]. cbn in *. subst. discriminate. }
    cbn [bind]. destruct (empty_buf_ok cf (s_mem w) p _ W Wm HB) as (m2 & M1 & M2 & M3 & M4 & _).
    rewrite M1. cbn [bind]. apply (yields_becomes cf w p B (Ok (p, with_mem w m2))); auto.
    eexists _, _. split; [reflexivity|]. unfold with_mem. cbn [s_mem].
    replace (put cf B []) with (Buffer [] (bf_cap B) (bf_alloc B)); auto.
    unfold put, grown. destruct (fits B []); auto. change (Zlen (@nil Z)) with 0. rewrite (proj2 (Z.ltb_ge _ 0)) by lia. now rewrite andb_false_r.
Qed.
