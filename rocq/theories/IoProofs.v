(** Proofs about the file descriptor accessories. *)
From Verif Require Import Base Mem Libc StrviewModel Spec MemLemmas StrviewProofs StrviewProofs2 Alloc StrbufModel BufSpec
  StrbufProofs StrbufProofs2 StrbufProofs3 StrbufProofs4 StrbufProofs5 StrbufProofs6 StrbufProofs7 StrbufProofs9 IoModel IoSpec.

Lemma bind_inv : forall {A B} (x : outcome A) (f : A -> outcome B) y, bind x f = Ok y -> exists a, x = Ok a /\ f a = Ok y.
Proof. intros A B [a| |] f y H; cbn in H; try discriminate. eauto. Qed.

Lemma to_size_ok : forall cf n, wf_cfg cf -> 0 <= n <= INT_MAX -> to_size cf n = n.
Proof.
  intros cf n (_ & W) H. unfold to_size. apply Z.mod_small. unfold INT_MAX in H. split; [lia|].
  destruct W as [-> | ->]; [change (2 ^ (8 * 4)) with 4294967296|change (2 ^ (8 * 8)) with 18446744073709551616]; lia.
Qed.

Lemma Zlen_firstn_le : forall {A} n (l : list A), Zlen (firstn n l) <= Z.of_nat n.
Proof. intros A n l. unfold Zlen. rewrite firstn_length. lia. Qed.

(** ** Reading *)
Lemma sys_read_fetches : forall cf w p B l, wf_cfg cf -> buf_at cf (s_mem w) p B ->
  let got := firstn (Z.to_nat (bf_cap B - Zlen (bf_data B))) l in got <> [] ->
  fetches (fun m d n => sys_read m d n (RdBytes l)) (s_mem w) (shift (chars_of cf p) (Zlen (bf_data B))) (bf_cap B - Zlen (bf_data B)) (Zlen got) got.
Proof.
  intros cf w p B l W HB got Hg. pose proof (hdr_size_pos cf W) as Hp. destruct (buf_at_cap _ _ _ _ HB) as [C F].
  pose proof (Zlen_nonneg (bf_data B)) as Z1.
  pose proof (Zlen_firstn_le (Z.to_nat (bf_cap B - Zlen (bf_data B))) l) as Zg. fold got in Zg. rewrite Z2Nat.id in Zg by lia.
  destruct HB as (b & k & E1 & E2 & HI). pose proof HI as (L & O & Al & Fi & H & D & T & By & C1 & Dy).
  destruct p as [po o]. cbn [p_obj p_ofs] in *. subst po.
  assert (0 < Zlen got) as Hg2 by (destruct got; [congruence|zl]).
  destruct (store_cells_sets (s_mem w) b k (o + hdr_size cf + Zlen (bf_data B)) (Zlen got) (fun i => CByte (nth (Z.to_nat i) got 0)) E2 L ltac:(lia) ltac:(lia)) as (k1 & X1 & S1 & G1).
  exists b, (upd (s_mem w) b k1). unfold chars_of, shift. cbn [p_obj p_ofs]. split; auto.
  unfold sys_read. fold got. rewrite (proj2 (Z.eqb_neq (Zlen got) 0)) by lia. rewrite X1. cbn [bind]. split; auto.
  assert (nth_error (upd (s_mem w) b k1) b = Some k1) as N1 by (eapply nth_upd; eauto).
  pose proof S1 as (U1 & U2 & U3 & U4). split.
  - split; [now rewrite upd_len|]. split; [intros b' Hb; now rewrite nth_error_upd_neq by auto|].
    intros k0 K0. rewrite E2 in K0. injection K0 as <-. exists k1. split; auto. split; auto. split; auto. split; auto. split; auto.
    intros i Hi. rewrite G1. rewrite inr_out by lia. reflexivity.
  - exists k1. split; [apply access_ok; [exact N1|congruence]|]. cbn [p_ofs]. split; [lia|]. split; [lia|].
    intros i Hi. rewrite G1. rewrite inr_in by lia. do 3 f_equal. lia.
Qed.

Lemma append_read_ok : forall cf w p B r, wf_cfg cf -> mem_wf (s_mem w) -> no_fail w -> buf_at cf (s_mem w) p B ->
  (forall l, r = RdBytes l -> Forall is_byte l) ->
  let got := delivered (bf_cap B - Zlen (bf_data B)) r in
  exists w', strbuf_append_read cf w (Some p) r = Ok (rd_result r got, Some p, w') /\
    buf_at cf (s_mem w') p (Buffer (bf_data B ++ got) (bf_cap B) (bf_alloc B)) /\
    touches cf (s_mem w) (s_mem w') p p B /\ mem_wf (s_mem w') /\ no_fail w' /\ (got = [] -> w' = w).
Proof.
  intros cf w p B r W Wm Nf HB Hr got. pose proof (hdr_size_pos cf W) as Hp. destruct (buf_at_cap _ _ _ _ HB) as [C F].
  pose proof (Zlen_nonneg (bf_data B)) as Z1.
  assert (strbuf_append_read cf w (Some p) r =
    let! (retval, m1) := sys_read (s_mem w) (shift (chars_of cf p) (Zlen (bf_data B))) (bf_cap B - Zlen (bf_data B)) r in
    if 0 <? retval then
      let! h1 := load_hdr cf m1 p in
      let! size' := iadd cf (h_size h1) retval in
      let! m2 := set_size cf m1 p size' in
      let! m3 := set_char cf m2 p size' 0 in
      Ok (retval, Some p, with_mem w m3)
    else Ok (retval, Some p, with_mem w m1)) as E.
  { unfold strbuf_append_read. rewrite (on_buf_ok cf (s_mem w) p B) by auto. rewrite (buf_at_load cf (s_mem w) p B W HB). cbn [bind hdr_of h_size h_cap].
    pose proof HB as (b & k & E1 & E2 & L & O & Al & Fi & _). destruct p as [po o]. cbn [p_obj p_ofs] in *. subst po.
    rewrite (char_at_ok cf (s_mem w) b o k) by (auto; lia). cbn [bind].
    unfold isub. rewrite int_res_ok by (unfold INT_MIN; lia). cbn [bind]. rewrite to_size_ok by (auto; lia). unfold chars_of, shift. cbn [p_obj p_ofs].
    reflexivity. }
  rewrite E. destruct r as [|l].
  - cbn [sys_read bind]. change (0 <? -1) with false. cbn match. exists w. cbn [delivered rd_result]. split; [now destruct w|].
    rewrite app_nil_r. split; [now destruct B|]. split; [now apply touches_refl|]. auto.
  - cbn [delivered rd_result] in *. fold got.
    destruct (list_eq_dec Z.eq_dec got []) as [Eg|Hg].
    + cbn [sys_read]. fold got. rewrite Eg. change (Zlen (@nil Z) =? 0) with true. cbn [bind]. change (0 <? 0) with false. cbn match.
      exists w. split; [now destruct w|]. rewrite app_nil_r. split; [now destruct B|]. split; [now apply touches_refl|]. auto.
    + pose proof (sys_read_fetches cf w p B l W HB Hg) as Hf. fold got in Hf.
      assert (Forall is_byte got) as Fg.
      { specialize (Hr l eq_refl). rewrite Forall_forall in *. intros x Hx. apply Hr. unfold got in Hx. rewrite <- (firstn_skipn (Z.to_nat (bf_cap B - Zlen (bf_data B))) l). apply in_or_app. now left. }
      pose proof (Zlen_firstn_le (Z.to_nat (bf_cap B - Zlen (bf_data B))) l) as Zg. fold got in Zg. rewrite Z2Nat.id in Zg by lia.
      destruct (append_using_ok cf w p B _ got W Wm Nf HB Hf Fg ltac:(lia)) as (w' & Eu & B1 & B2 & B3 & B4).
      exists w'. assert (0 < Zlen got) as Hg2 by (destruct got; [congruence|zl]).
      split; [|split; [exact B1|split; [exact B2|split; [exact B3|split; [exact B4|intros; congruence]]]]].
      unfold strbuf_append_using in Eu. rewrite (on_buf_ok cf (s_mem w) p B) in Eu by auto. rewrite (buf_at_load cf (s_mem w) p B W HB) in Eu. cbn [bind hdr_of h_size h_cap] in Eu.
      unfold isub in Eu. rewrite int_res_ok in Eu by (unfold INT_MIN; lia). cbn [bind] in Eu.
      pose proof HB as (b & k & E1 & E2 & L & O & Al & Fi & _). destruct p as [po o]. cbn [p_obj p_ofs] in *. subst po.
      rewrite (char_at_ok cf (s_mem w) b o k) in Eu by (auto; lia). cbn [bind] in Eu.
      destruct Hf as (b1 & m1 & _ & Ef & _). unfold chars_of, shift in Ef. cbn [p_obj p_ofs] in Ef.
      rewrite Ef in Eu. unfold chars_of, shift. cbn [p_obj p_ofs]. rewrite Ef. cbn [bind] in Eu |- *.
      rewrite (proj2 (Z.ltb_ge (Zlen got) 0)), (proj2 (Z.ltb_ge _ (Zlen got))) in Eu by lia. cbn [orb] in Eu.
      rewrite (proj2 (Z.ltb_lt 0 (Zlen got))) by lia.
      apply bind_inv in Eu as (h1 & Eh & Eu). rewrite Eh. cbn [bind].
      apply bind_inv in Eu as (s1 & Es & Eu). rewrite Es. cbn [bind].
      apply bind_inv in Eu as (m2 & Em & Eu). rewrite Em. cbn [bind].
      apply bind_inv in Eu as (m3 & Em3 & Eu). rewrite Em3. cbn [bind].
      unfold ret_view in Eu. apply bind_inv in Eu as (v & _ & Eu). congruence.
Qed.

(** ** Writing *)
Lemma sys_write_ok : forall m p l r, bytes_at m p l -> sys_write m p (Zlen l) r = Ok (wr_result r (taken l r), taken l r).
Proof.
  intros m p l r H. destruct r as [|k]; [reflexivity|]. cbn [sys_write wr_result taken].
  assert (Z.to_nat (Z.min k (Zlen l)) = length (firstn (Z.to_nat k) l)) as ->.
  { rewrite firstn_length. unfold Zlen. lia. }
  rewrite (load_bytes_ok m (firstn (Z.to_nat k) l) p); [reflexivity|].
  rewrite <- (firstn_skipn (Z.to_nat k) l) in H. apply bytes_at_app in H as [H _]. exact H.
Qed.

Lemma taken_left : forall q r, taken q r ++ left_over q r = q.
Proof. intros q [|k]; cbn [taken left_over]; [reflexivity|apply firstn_skipn]. Qed.

Lemma wr_pos : forall q r, (0 <? wr_result r (taken q r)) = negb (match taken q r with [] => true | _ => false end).
Proof.
  intros q [|k]; [reflexivity|]. cbn [wr_result]. destruct (taken q (WrCount k)) as [|x t]; [reflexivity|].
  apply Z.ltb_lt. rewrite Zlen_cons. pose proof (Zlen_nonneg t). lia.
Qed.

(** Dropping what was written from a view. *)
Lemma sub_written : forall cf m v l r, has_view m v l -> taken l r <> [] ->
  strview_sub cf m v (wr_result r (taken l r)) INT_MAX =
    Ok (if match left_over l r with [] => true | _ => false end then INVALID
        else subview v (Zlen (taken l r)) (Zlen (left_over l r))).
Proof.
  intros cf m v l r H Ht. destruct r as [|k]; [now destruct Ht|]. set (x := taken l (WrCount k)) in *. set (y := left_over l (WrCount k)).
  assert (l = x ++ y) as E by (symmetry; apply taken_left). cbn [wr_result].
  pose proof H as (_ & _ & HM & _). assert (0 < Zlen x) as Zx by (destruct x; [congruence|zl]). pose proof (Zlen_nonneg y) as Zy.
  destruct y as [|c t] eqn:Ey.
  - apply (sub_out cf m v l); auto; try (unfold INT_MIN, INT_MAX in *; rewrite E in HM; zl; lia).
    + rewrite E. destruct x; cbn; congruence.
    + unfold py_in, py_index. rewrite E. zl. rewrite (proj2 (Z.ltb_ge (Zlen x) 0)) by lia. change (Zlen (@nil Z)) with 0. lia.
  - rewrite E in H. apply sub_from with (1 := H). discriminate.
Qed.

Lemma write_ok : forall cf w p B r, wf_cfg cf -> mem_wf (s_mem w) -> no_fail w -> buf_at cf (s_mem w) p B ->
  exists p' w', strbuf_write cf w (Some p) r = Ok (wr_result r (taken (bf_data B) r), taken (bf_data B) r, Some p', w') /\
    buf_at cf (s_mem w') p' (Buffer (left_over (bf_data B) r) (bf_cap B) (bf_alloc B)) /\
    touches cf (s_mem w) (s_mem w') p p' B /\ mem_wf (s_mem w') /\ no_fail w'.
Proof.
  intros cf w p B r W Wm Nf HB. destruct (buf_at_cap _ _ _ _ HB) as [C F]. pose proof (Zlen_nonneg (bf_data B)) as Z1.
  pose proof (buf_at_view cf _ p B W HB) as HV. pose proof HV as (HVb & _).
  unfold strbuf_write. rewrite (on_buf_ok cf (s_mem w) p B) by auto. rewrite (buf_at_load cf (s_mem w) p B W HB). cbn [bind hdr_of h_size h_cap].
  rewrite to_size_ok by (auto; lia). change (cstr_of cf p) with (chars_of cf p). cbn [v_data buf_view] in HVb.
  rewrite (sys_write_ok _ _ _ r HVb). cbn [bind]. rewrite wr_pos.
  destruct (taken (bf_data B) r) as [|c t] eqn:Et.
  - cbn [negb]. exists p, w. split; auto. assert (left_over (bf_data B) r = bf_data B) as -> by (rewrite <- (taken_left (bf_data B) r) at 2; now rewrite Et).
    split; [now destruct B|]. split; [now apply touches_refl|]. auto.
  - cbn [negb]. rewrite <- Et. assert (taken (bf_data B) r <> []) as Ht by (rewrite Et; discriminate).
    unfold strbuf_view. rewrite (on_buf_ok cf (s_mem w) p B) by auto. rewrite (view_ok cf _ p B W HB). cbn [bind].
    rewrite (sub_written cf (s_mem w) _ (bf_data B) r HV Ht). cbn [bind].
    set (v1 := if match left_over (bf_data B) r with [] => true | _ => false end then INVALID else _).
    assert (source cf (s_mem w) p B v1 (left_over (bf_data B) r)) as Hs.
    { unfold v1. destruct (left_over (bf_data B) r) as [|c' t'] eqn:El; [apply src_invalid|].
      change (subview (buf_view cf p B) ?a ?b) with (View (shift (chars_of cf p) a) b). apply (src_inside cf (s_mem w) p B _ (c' :: t') []).
      rewrite app_nil_r, <- El. symmetry. apply taken_left. }
    assert (Zlen (left_over (bf_data B) r) <= Zlen (bf_data B)) as Zl.
    { rewrite <- (taken_left (bf_data B) r) at 2. zl. }
    destruct (assign_ok cf w p B v1 (left_over (bf_data B) r) W Wm Nf HB Hs ltac:(lia)) as (p' & w' & Ea & A1 & A2 & A3 & A4).
    rewrite Ea. cbn [bind]. exists p', w'. split; auto. split; auto.
    assert (put cf B (left_over (bf_data B) r) = Buffer (left_over (bf_data B) r) (bf_cap B) (bf_alloc B)) as Ep; [|now rewrite <- Ep].
    unfold put, fits. assert ((if dyn B then Zlen (left_over (bf_data B) r) <=? INT_MAX else Zlen (left_over (bf_data B) r) <=? bf_cap B) = true) as ->.
    { destruct (dyn B); apply Z.leb_le; lia. }
    unfold grown. cbn [bf_cap]. rewrite (proj2 (Z.ltb_ge _ _)) by lia. now rewrite andb_false_r.
Qed.

Lemma view_write_ok : forall cf m v l r, wf_cfg cf -> has_view m v l ->
  strview_write cf m (Some v) r = Ok (wr_result r (taken l r), taken l r,
    Some (if match taken l r with [] => true | _ => false end then v
          else if match left_over l r with [] => true | _ => false end then INVALID
          else subview v (Zlen (taken l r)) (Zlen (left_over l r)))).
Proof.
  intros cf m v l r W H. pose proof H as (HB & HS & HM & HF). unfold strview_write. rewrite (has_view_valid _ _ _ H), HS.
  pose proof (Zlen_nonneg l). rewrite to_size_ok by (auto; lia). rewrite (sys_write_ok _ _ _ r HB). cbn [bind]. rewrite wr_pos.
  destruct (taken l r) as [|c t] eqn:Et; cbn [negb]; [reflexivity|]. rewrite <- Et.
  rewrite (sub_written cf m v l r H) by (rewrite Et; discriminate). reflexivity.
Qed.

(** ** Transfers *)
Lemma run_io_ok : forall cf xs w p B, wf_cfg cf -> mem_wf (s_mem w) -> no_fail w -> buf_at cf (s_mem w) p B -> Forall io_ok xs ->
  exists p' w', run_io cf w (Some p) xs = Ok (queue_out (bf_cap B) (bf_data B) xs, Some p', w') /\
    buf_at cf (s_mem w') p' (Buffer (queue_end (bf_cap B) (bf_data B) xs) (bf_cap B) (bf_alloc B)) /\
    touches cf (s_mem w) (s_mem w') p p' B /\ mem_wf (s_mem w') /\ no_fail w'.
Proof.
  intros cf. induction xs as [|[r|r] xs IH]; intros w p B W Wm Nf HB Fx.
  - exists p, w. cbn [run_io queue_out queue_end]. split; auto. split; [now destruct B|]. split; [now apply touches_refl|]. auto.
  - apply Forall_cons_iff in Fx as [Fr Fx]. cbn [run_io queue_out queue_end].
    destruct (append_read_ok cf w p B r W Wm Nf HB) as (w1 & E1 & B1 & T1 & Wm1 & Nf1 & _).
    { intros l ->. exact Fr. }
    rewrite E1. cbn [bind].
    destruct (IH w1 p _ W Wm1 Nf1 B1 Fx) as (p2 & w2 & E2 & B2 & T2 & Wm2 & Nf2). cbn [bf_cap bf_data bf_alloc] in *.
    exists p2, w2. split; auto. split; auto. split; auto. eapply touches_trans; [| |exact T1|exact T2]; auto.
  - apply Forall_cons_iff in Fx as [Fr Fx]. cbn [run_io queue_out queue_end].
    destruct (write_ok cf w p B r W Wm Nf HB) as (p1 & w1 & E1 & B1 & T1 & Wm1 & Nf1).
    rewrite E1. cbn [bind].
    destruct (IH w1 p1 _ W Wm1 Nf1 B1 Fx) as (p2 & w2 & E2 & B2 & T2 & Wm2 & Nf2). cbn [bf_cap bf_data bf_alloc] in *.
    rewrite E2. cbn [bind]. exists p2, w2. split; auto. split; auto. split; auto. eapply touches_trans; [| |exact T1|exact T2]; auto.
Qed.

Lemma queue_conserved : forall cap xs q, queue_out cap q xs ++ queue_end cap q xs = q ++ queue_in cap q xs.
Proof.
  intros cap. induction xs as [|[r|r] xs IH]; intros q; cbn [queue_out queue_end queue_in].
  - now rewrite app_nil_r.
  - rewrite IH. now rewrite app_assoc.
  - rewrite <- app_assoc, IH, app_assoc, taken_left. reflexivity.
Qed.

Lemma queue_drained : forall cap rs q, (length q <= length (filter accepts rs))%nat -> queue_end cap q (map IoWrite rs) = [].
Proof.
  intros cap. induction rs as [|r rs IH]; intros q Hl; cbn [map queue_end filter] in *.
  - destruct q; [reflexivity|cbn in Hl; lia].
  - apply IH. destruct r as [|k]; cbn [accepts left_over] in *; [exact Hl|]. rewrite skipn_length.
    destruct (0 <? k) eqn:Hk; [apply Z.ltb_lt in Hk; cbn [length] in Hl; lia|lia].
Qed.

Lemma queue_in_writes : forall cap rs q, queue_in cap q (map IoWrite rs) = [].
Proof. intros cap. induction rs as [|r rs IH]; intros q; cbn [map queue_in]; auto. Qed.

Lemma run_view_invalid : forall cf m rs, run_view cf m INVALID rs = Ok ([], INVALID).
Proof. intros cf m. induction rs as [|r rs IH]; cbn [run_view]; [reflexivity|]. change (strview_write cf m (Some INVALID) r) with (Ok (0, @nil Z, Some INVALID)). cbn [bind]. now rewrite IH. Qed.

Lemma run_view_ok : forall cf m rs v l, wf_cfg cf -> has_view m v l ->
  let rest := queue_end 0 l (map IoWrite rs) in
  exists v', run_view cf m v rs = Ok (queue_out 0 l (map IoWrite rs), v') /\
    (rest = [] -> v_size v' = 0) /\ (rest <> [] -> has_view m v' rest /\ v' = subview v (Zlen l - Zlen rest) (Zlen rest)).
Proof.
  intros cf m. induction rs as [|r rs IH]; intros v l W H.
  - cbn [map queue_end queue_out run_view]. exists v. split; auto. split; [intros ->; apply (has_view_size _ _ _ H)|]. intros _. split; auto.
    rewrite Z.sub_diag. symmetry. apply subview_0. symmetry. apply (has_view_size _ _ _ H).
  - cbn [map queue_end queue_out run_view]. rewrite (view_write_ok cf m v l r W H). cbn [bind].
    destruct (taken l r) as [|c t] eqn:Et.
    + assert (left_over l r = l) as -> by (rewrite <- (taken_left l r) at 2; now rewrite Et).
      destruct (IH v l W H) as (v' & E & R1 & R2). rewrite E. cbn [bind]. exists v'. auto.
    + rewrite <- Et. destruct (left_over l r) as [|c' t'] eqn:El.
      * rewrite run_view_invalid. cbn [bind]. exists INVALID. 
        assert (queue_end 0 [] (map IoWrite rs) = [] /\ queue_out 0 [] (map IoWrite rs) = []) as [-> ->].
        { clear. induction rs as [|r rs IH]; [auto|]. cbn [map queue_end queue_out]. destruct r as [|k]; cbn [left_over taken]; [exact IH|]. now rewrite skipn_nil, firstn_nil. }
        split; auto. split; auto. congruence.
      * rewrite <- El in *. assert (has_view m (subview v (Zlen (taken l r)) (Zlen (left_over l r))) (left_over l r)) as H1.
        { rewrite <- (taken_left l r) in H at 1. now apply has_view_suffix in H. }
        destruct (IH _ _ W H1) as (v' & E & R1 & R2). rewrite E. cbn [bind]. exists v'. split; auto. split; auto.
        intros Hn. destruct (R2 Hn) as (R3 & R4). split; auto. rewrite R4, subview_subview. f_equal.
        assert (Zlen l = Zlen (taken l r) + Zlen (left_over l r)) by (rewrite <- Zlen_app; now rewrite taken_left). lia.
Qed.
