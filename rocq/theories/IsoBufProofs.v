(** Buffer programs under the letter of ISO C. *)
From Verif Require Import Base Mem Libc StrviewModel Spec MemLemmas Alloc StrbufModel BufSpec HistSpec StrbufProofs StrbufProofs2 StrbufProofs3 StrbufProofs4
  StrbufProofs5 StrbufProofs6 StrbufProofs7 StrbufProofs8 StrbufHistory PortSpec PortProg IsoBufSpec.

(** ** Comparing pointers into different objects *)
Lemma pdiff_far : forall cf m p q, c_ptr cf = false -> pobj_eqb (p_obj p) (p_obj q) = false -> pdiff cf m p q = UB UB_ptr.
Proof. intros cf m p q Hc E. unfold pdiff. now rewrite E, Hc. Qed.
Lemma pobj_sym : forall x y, pobj_eqb x y = pobj_eqb y x.
Proof.
  intros x y. destruct (pobj_eqb y x) eqn:E.
  - apply pobj_eqb_eq in E. subst. apply pobj_eqb_refl.
  - destruct (pobj_eqb x y) eqn:E2; auto. apply pobj_eqb_eq in E2. subst. now rewrite pobj_eqb_refl in E.
Qed.
Lemma contains_far : forall cf m p v, c_ptr cf = false -> pobj_eqb (p_obj (v_data v)) (p_obj p) = false -> buf_contains_str cf m p v = UB UB_ptr.
Proof.
  intros cf m p v Hc E. unfold buf_contains_str, ple. rewrite pdiff_far; auto. unfold cstr_of. now rewrite shift_obj, pobj_sym.
Qed.
Lemma insert_far : forall cf w p i v, c_ptr cf = false -> pobj_eqb (p_obj (v_data v)) (p_obj p) = false -> insert_strview_into_buf cf w p i v = UB UB_ptr.
Proof. intros cf w p i v Hc E. unfold insert_strview_into_buf. now rewrite contains_far. Qed.
Lemma at_ptr_far : forall cf w p d src, c_ptr cf = false -> pobj_eqb (p_obj d) (p_obj p) = false -> insert_at_ptr cf w p d src = UB UB_ptr.
Proof.
  intros cf w p d src Hc E. unfold insert_at_ptr, ple. rewrite pdiff_far; auto. unfold cstr_of. now rewrite shift_obj, pobj_sym.
Qed.

(** ** A position in the same object, but not in the buffer *)
Lemma insert_at_ptr_near : forall cf w p B v l src, wf_cfg cf -> mem_wf (s_mem w) -> p_obj (v_data v) = p_obj p ->
  buf_at cf (s_mem w) p B -> has_view (s_mem w) v l -> outside cf p B v l ->
  forall x, 0 <= x <= Zlen l -> insert_at_ptr cf w p (shift (v_data v) x) src = Ok (p, w).
Proof.
  intros cf w p B v l src W Wm Hn HB Hv Ho x Hx. pose proof HB as (b & k & E1 & E2 & HI). pose proof (hdr_size_pos cf W).
  destruct p as [po o]. destruct v as [[vo vf] vs]. cbn [p_obj p_ofs v_data] in *. subst po. subst vo.
  destruct Ho as [_ [Ho|[Hd Ho]]]; [cbn [v_data p_obj] in Ho; congruence|]. unfold buf_end in Ho. cbn [v_data p_ofs] in Ho.
  pose proof HI as (L & O & Al & F & H' & D & T & By & C & Dy). pose proof (Zlen_nonneg (bf_data B)).
  unfold insert_at_ptr, ple, cstr_of, shift. cbn [p_obj p_ofs]. rewrite pdiff_same. cbn [bind].
  destruct (o + hdr_size cf - (vf + x) <=? 0) eqn:E; auto. apply Z.leb_le in E.
  rewrite (buf_at_load cf (s_mem w) _ B W HB). cbn [bind hdr_of h_size]. rewrite (char_at_in cf _ b o k) by (auto; lia). cbn [bind].
  rewrite pdiff_same. cbn [bind]. rewrite (proj2 (Z.leb_gt _ 0)) by lia. reflexivity.
Qed.
Lemma insert_out_near : forall cf w p B dst d src, wf_cfg cf -> mem_wf (s_mem w) -> p_obj (v_data dst) = p_obj p ->
  buf_at cf (s_mem w) p B -> has_view (s_mem w) dst d -> outside cf p B dst d ->
  strbuf_insert_before_strview cf w (Some p) dst src = Ok (buf_view cf p B, Some p, w) /\
  strbuf_insert_after_strview cf w (Some p) dst src = Ok (buf_view cf p B, Some p, w).
Proof.
  intros cf w p B dst d src W Wm Hn HB Hv Ho. unfold strbuf_insert_before_strview, strbuf_insert_after_strview.
  rewrite !(on_buf_ok cf (s_mem w) p B) by auto. rewrite (has_view_valid _ _ _ Hv). rewrite <- (shift_0 (v_data dst)) at 1.
  pose proof (Zlen_nonneg d). rewrite (insert_at_ptr_near cf w p B dst d src W Wm Hn HB Hv Ho 0) by lia. cbn [bind].
  rewrite (ret_view_ok cf w p B W HB). split; auto.
  pose proof Hv as (Hb & Hsz & _). rewrite Hsz, (padd_ok cf (s_mem w) (v_data dst) d) by (auto; lia). cbn [bind].
  rewrite (insert_at_ptr_near cf w p B dst d src W Wm Hn HB Hv Ho) by lia. cbn [bind]. now rewrite (ret_view_ok cf w p B W HB).
Qed.

(** ** Concatenation of arguments in the same object *)
Definition near (p : ptr) (v : view) : Prop := p_obj (v_data v) = p_obj p.
Lemma measure_near : forall cf m p B args ls, wf_cfg cf -> Forall (near p) args -> mem_wf m -> buf_at cf m p B ->
  Forall2 (source cf m p B) args ls -> forall n tmp failed, 0 <= n -> n + total ls <= INT_MAX ->
  cat_measure cf m p args n tmp failed = Ok (n + total ls, tmp || existsb (fun v => within cf p v B) args, failed).
Proof.
  intros cf m p B args ls W Hn Wm HB Hf. induction Hf as [|v l args ls Hv Hf IH]; intros n tmp failed H0 Ht; cbn [cat_measure existsb].
  - unfold total. cbn [concat]. rewrite Zlen_nil, Z.add_0_r, orb_false_r. reflexivity.
  - inversion Hn as [|? ? N1 N2]; subst.
    rewrite total_cons in *. rewrite (source_len _ _ _ _ _ _ Hv). pose proof (Zlen_nonneg l). pose proof (Zlen_nonneg (concat ls)) as Z2. fold (total ls) in Z2.
    rewrite add_check_ok by lia. cbn [bind]. rewrite iadd_ok by (unfold INT_MIN; lia). cbn [bind].
    destruct (contains_ok cf m p B v l W (or_intror N1) Wm HB Hv) as (-> & _). cbn [bind]. rewrite IH by (auto; lia).
    rewrite orb_false_r, <- orb_assoc, Z.add_assoc. reflexivity.
Qed.
Lemma iadd_cases : forall cf a b, (exists z, iadd cf a b = Ok z) \/ exists u, iadd cf a b = UB u.
Proof. intros cf a b. unfold iadd, int_res. destruct (in_int (a + b)); eauto. destruct (c_wrapv cf); eauto. Qed.
Lemma measure_far : forall cf m p B args ls, wf_cfg cf -> c_ptr cf = false -> mem_wf m -> buf_at cf m p B ->
  Forall2 (source cf m p B) args ls -> Exists (fun v => pobj_eqb (p_obj (v_data v)) (p_obj p) = false) args ->
  forall n tmp failed, exists u, cat_measure cf m p args n tmp failed = UB u.
Proof.
  intros cf m p B args ls W Hc Wm HB Hf. induction Hf as [|v l args ls Hv Hf IH]; intros He n tmp failed; [inversion He|]. cbn [cat_measure].
  unfold add_will_overflow_int. destruct (iadd_cases cf n (v_size v)) as [(z & ->)|(u & ->)]; cbn [bind]; [|eauto].
  destruct (pobj_eqb (p_obj (v_data v)) (p_obj p)) eqn:E.
  - apply pobj_eqb_eq in E. destruct (contains_ok cf m p B v l W (or_intror E) Wm HB Hv) as (-> & _). cbn [bind]. apply IH.
    inversion He as [? ? H|? ? H]; subst; auto. rewrite E, pobj_eqb_refl in H. discriminate.
  - rewrite contains_far by auto. cbn [bind]. eauto.
Qed.

(** Text beside the buffer, or nothing at a place in it. *)
Definition beside (cf : cfg) (m : mem) (p : ptr) (B : buffer) (v : view) (l : list Z) : Prop :=
  (exists q, 0 <= q <= bf_cap B /\ v = View (shift (chars_of cf p) q) 0 /\ l = []) \/ (has_view m v l /\ outside cf p B v l).
Lemma beside_source : forall cf m p B v l, beside cf m p B v l -> source cf m p B v l.
Proof. intros cf m p B v l [(q & Hq & -> & ->)|[H1 H2]]; [now apply src_empty|now apply src_outside]. Qed.
Lemma beside_touch : forall cf m m' p B d' v l, touches cf m m' p p B -> beside cf m p B v l ->
  beside cf m' p (Buffer d' (bf_cap B) (bf_alloc B)) v l.
Proof.
  intros cf m m' p B d' v l Ht [H|(HV & HO)]; [left; exact H|]. right. split; [|exact HO]. eapply touches_view; eauto.
Qed.
Lemma source_beside : forall cf m p B v l, buf_at cf m p B -> source cf m p B v l -> near p v -> within cf p v B = false -> beside cf m p B v l.
Proof.
  intros cf m p B v l HB Hs Hn Hw. pose proof HB as (b & k & E1 & _). destruct (buf_at_cap _ _ _ _ HB) as [C _].
  inversion Hs as [X1 X2|v0 l0 HV HO X1 X2|x l0 y Hl X1 X2|q Hq X1 X2]; subst.
  - unfold near in Hn. cbn in Hn. congruence.
  - right. auto.
  - left. exists (Zlen x). pose proof (Zlen_nonneg x). pose proof (Zlen_nonneg l). pose proof (Zlen_nonneg y). rewrite Hl, !Zlen_app in C.
    split; [lia|]. destruct l as [|c l]; [auto|]. exfalso.
    unfold within, chars_of, shift in Hw. cbn [v_data p_obj p_ofs] in Hw. rewrite E1 in Hw. cbn [pobj_eqb] in Hw. rewrite Nat.eqb_refl in Hw.
    rewrite Hl, !Zlen_app, Zlen_cons in Hw. rewrite Zlen_cons in *. pose proof (Zlen_nonneg l).
    rewrite (proj2 (Z.leb_le _ _)), (proj2 (Z.ltb_lt _ _)) in Hw by lia. discriminate.
  - left. eauto.
Qed.
Lemma append_all_near : forall cf args ls w p B, wf_cfg cf -> Forall (near p) args -> mem_wf (s_mem w) -> no_fail w ->
  buf_at cf (s_mem w) p B -> Forall2 (beside cf (s_mem w) p B) args ls ->
  Zlen (bf_data B) + total ls <= bf_cap B -> sums_ok cf (Zlen (bf_data B) + total ls) ->
  exists w', cat_append cf w p args = Ok (p, w') /\
    buf_at cf (s_mem w') p (Buffer (bf_data B ++ concat ls) (bf_cap B) (bf_alloc B)) /\
    touches cf (s_mem w) (s_mem w') p p B /\ mem_wf (s_mem w') /\ no_fail w'.
Proof.
  intros cf args. induction args as [|v args IH]; intros ls w p B W Hn Wm Nf HB Hf Ht Hs; inversion Hf as [|? l ? ls' Hv Hf']; subst; cbn [cat_append].
  - exists w. cbn [concat]. rewrite app_nil_r. split; auto. split; [now destruct B|]. split; auto. now apply touches_refl.
  - inversion Hn as [|? ? N1 N2]; subst. rewrite (buf_at_load cf (s_mem w) p B W HB). cbn [bind hdr_of h_size]. rewrite total_cons in *.
    destruct (buf_at_cap _ _ _ _ HB) as [C F]. pose proof (Zlen_nonneg (bf_data B)) as Z1. pose proof (Zlen_nonneg l) as Z2.
    pose proof (Zlen_nonneg (concat ls')) as Z3. fold (total ls') in Z3.
    destruct (insert_cmp cf w p B (Zlen (bf_data B)) v l W (or_intror N1) Wm Nf HB) as (p1 & w1 & E & H1 & Ht1 & Wm1 & Nf1 & Hp).
    { now apply beside_source. }
    { unfold INT_MIN; lia. }
    { eapply sums_ok_le; [|exact Hs]. lia. }
    rewrite E. cbn [bind]. rewrite Hp in * by lia.
    assert (buf_at cf (s_mem w1) p (Buffer (bf_data B ++ l) (bf_cap B) (bf_alloc B))) as HB1.
    { rewrite insert_end in H1. unfold put, fits in H1. rewrite !Zlen_app in H1. rewrite grown_same in H1 by lia.
      assert ((if dyn B then Zlen (bf_data B) + Zlen l <=? INT_MAX else Zlen (bf_data B) + Zlen l <=? bf_cap B) = true) as Ef.
      { destruct (dyn B); apply Z.leb_le; lia. }
      rewrite Ef in H1. exact H1. }
    destruct (IH ls' w1 p (Buffer (bf_data B ++ l) (bf_cap B) (bf_alloc B)) W N2 Wm1 Nf1 HB1) as (w2 & E2 & HB2 & Ht2 & Wm2 & Nf2).
    { revert Hf'. apply Forall2_impl. intros v' l'. now apply beside_touch. }
    { cbn [bf_data bf_cap]. rewrite Zlen_app. lia. }
    { cbn [bf_data]. rewrite Zlen_app. replace (Zlen (bf_data B) + Zlen l + total ls') with (Zlen (bf_data B) + (Zlen l + total ls')) by lia. auto. }
    exists w2. split; auto. cbn [bf_data bf_cap bf_alloc] in HB2. rewrite <- app_assoc in HB2. cbn [concat]. split; auto. split; auto.
    eapply (touches_trans _ _ _ _ _ _ _ B); eauto; reflexivity.
Qed.
(** A dynamic buffer is alone in its object: nothing beside it but empty views. *)
Lemma beside_dyn : forall cf m p B args ls, dyn B = true -> Forall (near p) args -> Forall2 (beside cf m p B) args ls -> concat ls = [].
Proof.
  intros cf m p B args ls D Hn Hf. induction Hf as [|v l args ls Hv Hf IH]; auto. inversion Hn as [|? ? N1 N2]; subst. cbn [concat]. rewrite IH by auto.
  destruct Hv as [(q & _ & _ & ->)|[_ [_ [HO|[HO _]]]]]; auto; congruence.
Qed.

Lemma cat_near : forall cf w p B args ls, wf_cfg cf -> Forall (near p) args -> mem_wf (s_mem w) -> no_fail w ->
  buf_at cf (s_mem w) p B -> Forall2 (source cf (s_mem w) p B) args ls -> total ls + c_step cf <= INT_MAX ->
  dyn B && existsb (fun v => within cf p v B) args = false ->
  becomes cf w p B (strbuf_cat cf w (Some p) args)
    (if negb (dyn B) && existsb (fun v => within cf p v B) args then Buffer [] (bf_cap B) (bf_alloc B) else put cf B (concat ls)).
Proof.
  intros cf w p B args ls W Hn Wm Nf HB Hf Hs Hd. destruct (buf_at_cap _ _ _ _ HB) as [C F]. pose proof (Zlen_nonneg (bf_data B)) as Z1.
  pose proof (Zlen_nonneg (concat ls)) as Z2. fold (total ls) in Z2. assert (0 < c_step cf) as Hstep by (destruct W as [W _]; lia).
  unfold strbuf_cat. rewrite (on_buf_ok cf (s_mem w) p B) by auto. unfold buffer_vcat.
  rewrite (measure_near cf (s_mem w) p B args ls W Hn Wm HB Hf 0 false false) by lia. cbn [bind orb]. rewrite Z.add_0_l.
  rewrite (buf_at_load cf (s_mem w) p B W HB). cbn [bind hdr_of h_alloc h_size]. change (is_dyn (bf_alloc B)) with (dyn B).
  rewrite andb_comm, Hd. destruct (empty_buf_ok cf (s_mem w) p B W Wm HB) as (m2 & Ee & M2 & M3 & M4 & _).
  destruct (existsb (fun v => within cf p v B) args) eqn:Ew; cbn [andb negb].
  - rewrite andb_true_r in Hd. unfold ensure. rewrite (buf_at_load cf (s_mem w) p B W HB). cbn [bind hdr_of h_alloc h_cap]. change (is_dyn (bf_alloc B)) with (dyn B). rewrite Hd. cbn [andb bind negb].
    rewrite Ee. cbn [bind].
    rewrite (buf_at_load cf m2 p _ W M2). cbn [bind hdr_of h_alloc bf_alloc]. change (is_dyn (bf_alloc B)) with (dyn B). rewrite Hd. cbn [orb andb bind with_mem s_mem].
    rewrite (view_ok cf m2 p _ W M2). cbn [bind]. exists p, (with_mem w m2). auto.
  - assert (Forall (fun v => within cf p v B = false) args) as Hfa.
    { clear -Ew. induction args as [|v args IH]; constructor; cbn [existsb] in Ew; apply orb_false_iff in Ew as [E1 E2]; auto. }
    assert (Forall2 (beside cf (s_mem w) p B) args ls) as Hb.
    { clear -Hf Hfa HB Hn. induction Hf as [|v l args ls' Hv Hf IH]; constructor; inversion Hfa; inversion Hn; subst; auto. now apply source_beside. }
    assert (ensure cf w p (total ls) = Ok (p, w)) as ->.
    { unfold ensure. rewrite (buf_at_load cf (s_mem w) p B W HB). cbn [bind hdr_of h_alloc h_cap]. change (is_dyn (bf_alloc B)) with (dyn B).
      destruct (dyn B) eqn:D; auto. unfold total. rewrite (beside_dyn cf _ p B args ls D Hn Hb). rewrite (proj2 (Z.ltb_ge _ _)); auto. change (@Zlen Z []) with 0. lia. }
    cbn [bind]. rewrite Ee. cbn [bind]. rewrite (buf_at_load cf m2 p _ W M2). cbn [bind hdr_of h_alloc h_cap bf_cap bf_alloc]. cbn [negb]. rewrite orb_true_r, andb_false_r. cbn [andb].
    rewrite put_total by lia.
    assert ((bf_cap B <? total ls) = negb (if dyn B then true else total ls <=? bf_cap B)) as ->.
    { destruct (dyn B) eqn:D; [|now rewrite <- Z.ltb_antisym]. unfold total. rewrite (beside_dyn cf _ p B args ls D Hn Hb). apply Z.ltb_ge. change (@Zlen Z []) with 0. lia. }
    rewrite negb_involutive. destruct (if dyn B then true else total ls <=? bf_cap B) eqn:Ef; cbn [bind].
    + assert (Forall2 (beside cf m2 p (Buffer [] (bf_cap B) (bf_alloc B))) args ls) as Hb2.
      { revert Hb. apply Forall2_impl. intros v' l'. now apply beside_touch. }
      assert (total ls <= bf_cap B) as Hcap.
      { destruct (dyn B) eqn:D; [|now apply Z.leb_le in Ef]. unfold total. rewrite (beside_dyn cf _ p B args ls D Hn Hb). change (@Zlen Z []) with 0. lia. }
      destruct (append_all_near cf args ls (with_mem w m2) p (Buffer [] (bf_cap B) (bf_alloc B)) W Hn M4 Nf M2 Hb2) as (w3 & -> & HB3 & Ht3 & Wm3 & Nf3).
      { cbn [bf_data bf_cap]. rewrite Zlen_nil. lia. }
      { cbn [bf_data]. rewrite Zlen_nil, Z.add_0_l. now right. }
      cbn [bind]. cbn [bf_data bf_cap bf_alloc app] in HB3. rewrite grown_same by auto. rewrite (view_ok cf (s_mem w3) p _ W HB3). cbn [bind]. exists p, w3. split; auto. split; auto. split; auto.
      eapply (touches_trans _ _ _ _ _ _ _ B); eauto; reflexivity.
    + cbn [with_mem s_mem]. rewrite (view_ok cf m2 p _ W M2). cbn [bind]. exists p, (with_mem w m2). auto.
Qed.
Lemma cat_temp : forall cf w p B args ls, wf_cfg cf -> c_ptr cf = false -> Forall (near p) args -> mem_wf (s_mem w) -> no_fail w ->
  buf_at cf (s_mem w) p B -> Forall2 (source cf (s_mem w) p B) args ls -> total ls + c_step cf <= INT_MAX ->
  dyn B && existsb (fun v => within cf p v B) args = true ->
  exists u, strbuf_cat cf w (Some p) args = UB u.
Proof.
  intros cf w p B args ls W Hc Hn Wm Nf HB Hf Hs Hd. pose proof (Zlen_nonneg (concat ls)) as Z2. fold (total ls) in Z2. assert (0 < c_step cf) as Hstep by (destruct W as [W _]; lia).
  unfold strbuf_cat. rewrite (on_buf_ok cf (s_mem w) p B) by auto. unfold buffer_vcat.
  rewrite (measure_near cf (s_mem w) p B args ls W Hn Wm HB Hf 0 false false) by lia. cbn [bind orb]. rewrite Z.add_0_l.
  rewrite (buf_at_load cf (s_mem w) p B W HB). cbn [bind hdr_of h_alloc h_size]. change (is_dyn (bf_alloc B)) with (dyn B). rewrite andb_comm, Hd.
  apply andb_true_iff in Hd as [D Ew].
  destruct (create_buf_ok cf w (total ls) (bf_alloc B) W Wm Nf D ltac:(lia)) as (kb & w1 & -> & Em & HIb & Wm1 & Nf1 & _). cbn [bind].
  set (pb := Ptr (PBlk (length (s_mem w))) 0) in *.
  assert (buf_at cf (s_mem w1) pb (Buffer [] (total ls) (bf_alloc B))) as HBb.
  { exists (length (s_mem w)), kb. split; auto. split; auto. rewrite Em, nth_error_app2 by lia. now rewrite Nat.sub_diag. }
  rewrite (buf_at_load cf (s_mem w1) pb _ W HBb). cbn [bind hdr_of h_cap bf_cap]. rewrite Z.ltb_irrefl.
  destruct args as [|v args]; [discriminate|]. cbn [cat_append]. rewrite (buf_at_load cf (s_mem w1) pb _ W HBb). cbn [bind].
  rewrite insert_far; [cbn [bind]; eauto|auto|]. inversion Hn as [|? ? N1 N2]; subst. rewrite N1. destruct HB as (b & k & E1 & E2 & _). rewrite E1. cbn [pb p_obj pobj_eqb].
  apply Nat.eqb_neq. pose proof (nth_error_lt _ _ _ E2). lia.
Qed.
