(** insert_strview_into_buf and its direct callers. *)
From Verif Require Import Base Mem Libc StrviewModel Spec MemLemmas Alloc StrbufModel BufSpec StrbufProofs StrbufProofs2 StrbufProofs3.

(** The part of insert_strview_into_buf after the capacity has been settled. *)
Definition insert_tail (cf : cfg) (w1 : st) (p1 : ptr) (h1 : hdr) (index : Z) (str1 : view) (src_in_dst : bool) : outcome (ptr * st) :=
  let m1 := s_mem w1 in
  let! move_src := char_at cf m1 p1 index in
  let! move_dst := char_at cf m1 p1 (index + v_size str1) in
  let! (m2, left_behind, shifted) :=
    if v_size str1 =? 0 then Ok (m1, INVALID, str1)
    else
      let! m2 := memmove cf m1 move_dst move_src (h_size h1 - index) in
      if (src_in_dst : bool) then
        let! d := pdiff cf m2 move_src (v_data str1) in
        let! (left_behind, sh) :=
          if 0 <? d then
            let! (l, r) := strview_split_index cf m2 (Some str1) (to_int d) in
            match r with Some r => Ok (l, r) | None => UB UB_null end
          else Ok (INVALID, str1) in
        let! dd := pdiff cf m2 move_dst move_src in
        let! q := padd cf m2 (v_data sh) dd in
        Ok (m2, left_behind, View q (v_size sh))
      else Ok (m2, INVALID, str1) in
  let! m3 := set_size cf m2 p1 (h_size h1 + v_size str1) in
  let! m4 := if v_size left_behind =? 0 then Ok m3
             else memcpy cf m3 move_src (v_data left_behind) (v_size left_behind) in
  let! move_src2 := padd cf m4 move_src (v_size left_behind) in
  let! m5 := if v_size shifted =? 0 then Ok m4
             else memcpy cf m4 move_src2 (v_data shifted) (v_size shifted) in
  let! m6 := set_char cf m5 p1 (h_size h1 + v_size str1) 0 in
  Ok (p1, with_mem w1 m6).

Lemma split_index_in : forall cf m b o k n i, nth_error m b = Some k -> b_live k = true -> 0 <= o -> o + n <= b_size k ->
  0 <= n <= INT_MAX -> 0 <= i ->
  strview_split_index cf m (Some (View (Ptr (PBlk b) o) n)) i =
  Ok (View (Ptr (PBlk b) o) (Z.min i n), Some (View (Ptr (PBlk b) (o + Z.min i n)) (n - Z.min i n))).
Proof.
  intros cf m b o k n i Hm L Ho Hk Hn Hi. unfold strview_split_index, split_index. cbn [v_size v_data].
  rewrite (proj2 (Z.ltb_ge i 0)) by lia. cbn [bind]. rewrite (proj2 (Z.ltb_ge i 0)) by lia.
  replace (if n <? i then n else i) with (Z.min i n) by (destruct (n <? i) eqn:E; [apply Z.ltb_lt in E|apply Z.ltb_ge in E]; lia).
  rewrite (padd_in cf m b o k) by (auto; lia). cbn [bind]. rewrite isub_ok by (unfold INT_MIN, INT_MAX in *; lia). reflexivity.
Qed.

Lemma tail_ok : forall cf w1 b o k c1 c2 cap a v l, wf_cfg cf ->
  nth_error (s_mem w1) b = Some k -> buf_in cf k o (Buffer (c1 ++ c2) cap a) ->
  Zlen (c1 ++ c2) + Zlen l <= cap -> Forall is_byte l ->
  source cf (s_mem w1) (Ptr (PBlk b) o) (Buffer (c1 ++ c2) cap a) v l ->
  exists k', insert_tail cf w1 (Ptr (PBlk b) o) (Hdr (Zlen (c1 ++ c2)) cap a) (Zlen c1) v
                         (within cf (Ptr (PBlk b) o) v (Buffer (c1 ++ c2) cap a))
      = Ok (Ptr (PBlk b) o, with_mem w1 (upd (s_mem w1) b k')) /\
   shape k k' /\ buf_in cf k' o (Buffer (c1 ++ l ++ c2) cap a) /\
   (forall i, ~ (o <= i < o + hdr_size cf + cap + 1) -> b_get k' i = b_get k i).
Proof.
  intros cf w1 b o k c1 c2 cap a v l W Hn HI Hfit Byl Hs. pose proof (hdr_size_pos cf W) as Hp.
  pose proof HI as (L & O & Al & F & H & D & T & By & C & Dy). cbn [bf_data bf_cap bf_alloc hdr_of] in *.
  pose proof (buf_in_chars _ _ _ _ HI) as Ch. cbn [bf_data] in Ch. apply chars_app in Ch as [Ch _].
  pose proof Ch as Ch0. apply chars_app in Ch as [Ch1 Ch2].
  set (m := s_mem w1) in *. change (list block) with mem in m. set (hs := hdr_size cf) in *.
  assert (v_size v = Zlen l) as Hv.
  { destruct Hs; auto. now apply has_view_size with (m := m). }
  pose proof (Zlen_nonneg c1) as Z1. pose proof (Zlen_nonneg c2) as Z2. pose proof (Zlen_nonneg l) as Z3.
  assert (Forall is_byte c1 /\ Forall is_byte c2) as [By1 By2] by (now apply Forall_app).
  pose proof Hfit as Hfit'. rewrite Zlen_app in Hfit'.
  unfold insert_tail. fold m. rewrite !(char_at_in cf m b o k) by (auto; fold hs; lia). cbn [bind h_size]. rewrite Hv. fold hs.
  destruct (Zlen l =? 0) eqn:El; [apply Z.eqb_eq in El|apply Z.eqb_neq in El].
  { (* nothing to insert *)
    assert (l = []) as -> by (now apply Zlen_0). cbn [bind].
    destruct (finish_ok cf w1 m b k o c1 c2 [] [] INVALID v cap a) as (k' & E1 & E2 & E3 & E4); auto.
    - cbn [app]. lia.
    - lia.
    - cbn [app]. change (Zlen (@nil Z)) with 0. rewrite Z.add_0_r. exact Ch2.
    - congruence.
    - congruence.
    - exists k'. cbn [app] in *. auto. }
  pose proof H as Hhd. cbn [hdr_of bf_data bf_cap bf_alloc] in Hhd.
  destruct (memmove_sets cf m b k (o + hs + (Zlen c1 + Zlen l)) (o + hs + Zlen c1) (Zlen (c1 ++ c2) - Zlen c1) Hn L)
    as (k2 & E2 & Sh2 & G2); try (rewrite ?Zlen_app; unfold hs in *; lia).
  rewrite E2. cbn [bind]. pose proof Sh2 as (T1 & T2 & T3 & T4).
  assert (nth_error (upd m b k2) b = Some k2) as N2 by (eapply nth_upd; eauto).
  assert (hdr_at cf k2 o (Hdr (Zlen (c1 ++ c2)) cap a)) as Hdr2.
  { intros i Hi. rewrite G2. fold hs in Hi. rin. now apply Hhd. }
  assert (chars k2 (o + hs) c1) as C1'.
  { apply (chars_eq k _ (o + hs)); auto. intros i Hi. rewrite G2. rewrite Zlen_app. rin. reflexivity. }
  assert (chars k2 (o + hs + Zlen c1 + Zlen l) c2) as C2'.
  { apply (chars_eq k _ (o + hs + Zlen c1)); auto. intros i Hi. rewrite G2. rewrite Zlen_app. rin. f_equal. lia. }
  assert (l <> []) as Ln by (intros ->; apply El; reflexivity).
  assert (forall l1 l2 lv rv, l = l1 ++ l2 -> v_size lv = Zlen l1 -> v_size rv = Zlen l2 ->
    (l1 <> [] -> bytes_at (upd m b k2) (v_data lv) l1 /\ clear_of cf b o (o + hdr_size cf + Zlen c1) (Zlen (l1 ++ l2)) lv l1) ->
    (l2 <> [] -> bytes_at (upd m b k2) (v_data rv) l2 /\ clear_of cf b o (o + hdr_size cf + Zlen c1) (Zlen (l1 ++ l2)) rv l2) ->
    exists k',
   (let! m3 := set_size cf (upd m b k2) (Ptr (PBlk b) o) (Zlen (c1 ++ c2) + Zlen l) in
    let! m4 := if v_size lv =? 0 then Ok m3
               else memcpy cf m3 (Ptr (PBlk b) (o + hs + Zlen c1)) (v_data lv) (v_size lv) in
    let! move_src2 := padd cf m4 (Ptr (PBlk b) (o + hs + Zlen c1)) (v_size lv) in
    let! m5 := if v_size rv =? 0 then Ok m4 else memcpy cf m4 move_src2 (v_data rv) (v_size rv) in
    let! m6 := set_char cf m5 (Ptr (PBlk b) o) (Zlen (c1 ++ c2) + Zlen l) 0 in
    Ok (Ptr (PBlk b) o, with_mem w1 m6)) = Ok (Ptr (PBlk b) o, with_mem w1 (upd m b k')) /\
    shape k k' /\ buf_in cf k' o (Buffer (c1 ++ l ++ c2) cap a) /\
    (forall i, ~ (o <= i < o + hs + cap + 1) -> b_get k' i = b_get k i)) as Fin.
  { intros l1 l2 lv rv -> Hlv Hrv S1 S2.
    destruct (finish_ok cf w1 (upd m b k2) b k2 o c1 c2 l1 l2 lv rv cap a) as (k' & E3 & E4 & E5 & E6); auto.
    - congruence.
    - congruence.
    - rewrite T2. auto.
    - rewrite !Zlen_app in *. lia.
    - lia.
    - rewrite !Forall_app in *. tauto.
    - intros X. rewrite T4, T2. auto.
    - exists k'. rewrite upd_upd in E3. split; [exact E3|]. split; [eapply shape_trans; eauto|]. split.
      + rewrite <- !app_assoc in *. exact E5.
      + intros i Hi. rewrite E6 by auto. rewrite G2. rewrite !Zlen_app in *. fold hs in E6, F. rin. reflexivity. }
  inversion Hs as [|v0 l0 HV HO Ev Ell|x l0 y Hl Ev Ell|q Hq Ev Ell]; [| | |congruence].
  - subst. congruence.
  - (* text from elsewhere *)
    subst v0 l0.
    assert (within cf (Ptr (PBlk b) o) v (Buffer (c1 ++ c2) cap a) = false) as Wf.
    { unfold within. destruct HO as [_ HO]. cbn [p_obj p_ofs] in *. destruct (pobj_eqb (p_obj (v_data v)) (PBlk b)) eqn:Ee; auto.
      apply pobj_eqb_eq in Ee. destruct HO as [HO|[_ HO]]; [congruence|].
      unfold buf_end in HO. cbn [p_ofs bf_cap bf_data] in *. cbn [andb]. fold hs in HO |- *.
      destruct HO; [rewrite (proj2 (Z.leb_gt _ _)) by lia; reflexivity|rewrite (proj2 (Z.ltb_ge _ _)) by lia; apply andb_false_r]. }
    rewrite Wf. cbn [bind]. rewrite Hv. change (v_size INVALID) with 0.
    specialize (Fin [] l INVALID v eq_refl eq_refl Hv). rewrite Hv in Fin. change (v_size INVALID) with 0 in Fin.
    apply Fin; [congruence|]. intros _.
    destruct HV as (HV & _). destruct HO as [_ HO]. cbn [p_obj p_ofs] in HO. unfold buf_end in HO. cbn [p_ofs bf_cap] in HO. fold hs in HO.
    split.
    + apply (bytes_at_upd m b k k2); auto. destruct HO as [HO|[_ HO]]; auto. right. intros i Hi. rewrite G2. rewrite Zlen_app. rin. reflexivity.
    + cbn [app]. unfold clear_of. fold hs. destruct HO as [HO|[_ HO]]; [auto|]. right. lia.
  - (* a part of the buffer itself *)
    subst l0. cbn [bf_data] in Hl. pose proof (f_equal Zlen Hl) as Hll. rewrite !Zlen_app in Hll.
    pose proof (Zlen_nonneg x) as Zx. pose proof (Zlen_nonneg y) as Zy.
    assert (v = View (Ptr (PBlk b) (o + hs + Zlen x)) (Zlen l)) as Ev' by (rewrite <- Ev; reflexivity). clear Ev. subst v. clear Hv.
    assert (within cf (Ptr (PBlk b) o) (View (Ptr (PBlk b) (o + hs + Zlen x)) (Zlen l)) (Buffer (c1 ++ c2) cap a) = true) as Wt.
    { unfold within. cbn [v_data p_obj p_ofs pobj_eqb bf_data]. fold hs. rewrite Nat.eqb_refl, Zlen_app.
      rewrite (proj2 (Z.leb_le _ _)), (proj2 (Z.ltb_lt _ _)) by lia. reflexivity. }
    unfold chars_of, shift. cbn [v_data v_size p_obj p_ofs]. fold hs.
    rewrite Wt. cbn [v_data v_size]. rewrite !pdiff_same. cbn [bind].
    set (d := Z.max 0 (Zlen c1 - Zlen x)). set (nl := Z.min d (Zlen l)).
    assert (0 <= nl <= Zlen l) as Hnl by (unfold nl, d; lia).
    assert (exists l1 l2, l = l1 ++ l2 /\ Zlen l1 = nl) as (l1 & l2 & Ell & En).
    { exists (firstn (Z.to_nat nl) l), (skipn (Z.to_nat nl) l). split; [symmetry; apply firstn_skipn|].
      unfold Zlen in *. rewrite firstn_length. lia. }
    assert (Zlen l2 = Zlen l - nl) as En2 by (rewrite Ell, Zlen_app; lia).
    set (lv := if 0 <? o + hs + Zlen c1 - (o + hs + Zlen x) then View (Ptr (PBlk b) (o + hs + Zlen x)) nl else INVALID).
    assert ((if 0 <? o + hs + Zlen c1 - (o + hs + Zlen x)
      then
        let! (l0, r) := strview_split_index cf (upd m b k2) (Some (View (Ptr (PBlk b) (o + hs + Zlen x)) (Zlen l)))
               (to_int (o + hs + Zlen c1 - (o + hs + Zlen x))) in
        match r with Some r0 => Ok (l0, r0) | None => UB UB_null end
      else Ok (INVALID, View (Ptr (PBlk b) (o + hs + Zlen x)) (Zlen l)))
       = Ok (lv, View (Ptr (PBlk b) (o + hs + Zlen x + nl)) (Zlen l2))) as ->.
    { unfold lv. destruct (0 <? o + hs + Zlen c1 - (o + hs + Zlen x)) eqn:Ed; [apply Z.ltb_lt in Ed|apply Z.ltb_ge in Ed].
      - rewrite to_int_ok by (unfold INT_MIN, INT_MAX in *; lia). rewrite (split_index_in cf _ b _ k2) by (auto; try congruence; rewrite ?T2; unfold hs in *; lia). cbn [bind].
        unfold nl, d in *. repeat (f_equal; try lia).
      - unfold nl, d in *. repeat (f_equal; try lia). }
    cbn [bind v_data v_size]. rewrite (padd_in cf (upd m b k2) b _ k2) by (auto; try congruence; rewrite ?T2; unfold hs in *; lia). cbn [bind].
    match goal with |- context[View (Ptr (PBlk b) ?q) (Zlen l2)] => replace q with (o + hs + Zlen x + nl + Zlen l) by lia end.
    assert (v_size lv = Zlen l1) as Hlv.
    { unfold lv. destruct (0 <? o + hs + Zlen c1 - (o + hs + Zlen x)) eqn:Ed; cbn [v_size INVALID]; auto.
      apply Z.ltb_ge in Ed. unfold nl, d in En. lia. }
    assert (chars k (o + hs + Zlen x) l1 /\ chars k (o + hs + Zlen x + nl) l2) as [Cl1 Cl2].
    { rewrite Hl in Ch0. apply chars_app in Ch0 as [_ Q]. apply chars_app in Q as [Q _]. rewrite Ell in Q. apply chars_app in Q as [Q1 Q2].
      rewrite En in Q2. auto. }
    apply (Fin l1 l2 lv (View (Ptr (PBlk b) (o + hs + Zlen x + nl + Zlen l)) (Zlen l2)) Ell Hlv eq_refl).
    + intros X. assert (0 < Zlen l1) by (destruct l1; [congruence|rewrite Zlen_cons; pose proof (Zlen_nonneg l1); lia]).
      assert (0 < Zlen c1 - Zlen x) as Pos by (unfold nl, d in En; lia).
      unfold lv. rewrite (proj2 (Z.ltb_lt 0 _)) by lia. cbn [v_data]. split.
      * apply (chars_bytes _ _ k2); auto; try congruence; try lia.
        apply (chars_eq k _ (o + hs + Zlen x)); auto. intros i Hi. rewrite G2. rewrite Zlen_app. unfold nl, d in *. rin. reflexivity.
      * right. cbn [v_data p_ofs]. fold hs. unfold nl, d in *. lia.
    + intros X. assert (0 < Zlen l2) by (destruct l2; [congruence|rewrite Zlen_cons; pose proof (Zlen_nonneg l2); lia]).
      cbn [v_data]. assert (Zlen c1 <= Zlen x + nl) as Pos by (unfold nl, d in *; lia). split.
      * apply (chars_bytes _ _ k2); auto; try congruence; try lia.
        apply (chars_eq k _ (o + hs + Zlen x + nl)); auto. intros i Hi. rewrite G2. rewrite Zlen_app. rin. f_equal. lia.
      * right. cbn [v_data p_ofs]. fold hs. rewrite Zlen_app. lia.
Qed.

(** ** The source after the buffer has been resized *)
Lemma source_moved : forall cf m m1 p p1 B B1 v l, wf_cfg cf -> buf_at cf m p B -> buf_at cf m1 p1 B1 ->
  bf_data B1 = bf_data B -> bf_alloc B1 = bf_alloc B -> (dyn B = false -> bf_cap B1 = bf_cap B) -> bf_cap B <= bf_cap B1 ->
  touches cf m m1 p p1 B -> (p1 = p \/ peq m1 p1 p = false) -> (l = [] -> p1 = p) ->
  source cf m p B v l ->
  exists v1, (if within cf p v B && negb (peq m1 p1 p)
              then let! d := char_at cf m1 p1 (p_ofs (v_data v) - (p_ofs p + hdr_size cf)) in Ok (View d (v_size v))
              else Ok v) = Ok v1 /\ v_size v1 = v_size v /\ source cf m1 p1 B1 v1 l /\ within cf p1 v1 B1 = within cf p v B.
Proof.
  intros cf m m1 p p1 B B1 v l W HB HB1 Ed Ea Ec Ecap Ht Hm Hnil Hs.
  pose proof HB as (b & k & E1 & E2 & HI). pose proof HB1 as (b1 & k1 & F1 & F2 & HI1). pose proof (hdr_size_pos cf W) as Hp.
  pose proof Ht as (b0 & b1' & A1 & A2 & A3 & La & La' & A4 & A5 & A6 & A7 & A8).
  rewrite E1 in A1. injection A1 as <-. rewrite F1 in A2. injection A2 as <-.
  destruct p as [po o], p1 as [po1 o1]. cbn [p_obj p_ofs] in *. subst po po1 o1.
  inversion Hs as [|v0 l0 HV HO Ev Ell|x l0 y Hl Ev Ell|q Hq Ev Ell].
  - subst. exists INVALID. split; [reflexivity|]. split; auto. split; [constructor|]. reflexivity.
  - subst v0 l0.
    assert (forall q D, within cf q v D = true -> p_obj (v_data v) = p_obj q) as Wq.
    { intros q D X. unfold within in X. apply andb_true_iff in X as [X _]. apply andb_true_iff in X as [X _]. now apply pobj_eqb_eq in X. }
    destruct HO as [(c & Hb) HO]. destruct (has_view_block m v l c HV Hb) as (kc & N1 & N2 & N3 & N4 & _).
    pose proof (nth_error_lt _ _ _ N1) as Lc. cbn [p_obj p_ofs] in HO.
    assert (outside cf (Ptr (PBlk b1) o) B1 v l) as HO1.
    { split; [eauto|]. cbn [p_obj p_ofs]. unfold buf_end in *. cbn [p_ofs] in *. destruct HO as [HO|[Hd HO]].
      - left. destruct A7 as [->|(_ & A7 & _)]; auto. rewrite Hb. intro X. injection X as ->. lia.
      - right. unfold dyn in *. rewrite Ea, (Ec Hd). auto. }
    assert (forall q D m0, within cf q v D = true -> buf_at cf m0 q D -> outside cf q D v l -> False) as Wn.
    { intros q D m0 X HBq (_ & [Y|[_ Y]]).
      - apply Y. eapply Wq; eauto.
      - unfold within in X. apply andb_true_iff in X as [X X3]. apply andb_true_iff in X as [_ X2].
        apply Z.leb_le in X2. apply Z.ltb_lt in X3. destruct (buf_at_cap _ _ _ _ HBq) as [CC _]. unfold buf_end in Y. zl. }
    assert (within cf (Ptr (PBlk b) o) v B = false) as Wf.
    { destruct (within cf (Ptr (PBlk b) o) v B) eqn:Ew; auto. exfalso. eapply Wn; eauto. split; eauto. }
    assert (within cf (Ptr (PBlk b1) o) v B1 = false) as Wf1.
    { destruct (within cf (Ptr (PBlk b1) o) v B1) eqn:Ew; auto. exfalso. eapply Wn; eauto. }
    rewrite Wf. exists v. split; [reflexivity|]. split; auto. split; auto. apply src_outside; auto.
    destruct HV as (HV1 & HV2). split; auto. eapply touches_bytes; eauto.
  - subst l0.
    assert (v = View (Ptr (PBlk b) (o + hdr_size cf + Zlen x)) (Zlen l)) as Ev' by (rewrite <- Ev; reflexivity).
    assert (forall b D, bf_data D = bf_data B -> within cf (Ptr (PBlk b) o) (View (Ptr (PBlk b) (o + hdr_size cf + Zlen x)) (Zlen l)) D = (Zlen x <? Zlen (bf_data B))) as Wx.
    { intros b' D HD. unfold within. cbn [v_data p_obj p_ofs pobj_eqb]. rewrite Nat.eqb_refl. cbn [andb]. zl.
      rewrite (proj2 (Z.leb_le _ _)) by lia. cbn [andb]. rewrite HD.
      destruct (Zlen x <? Zlen (bf_data B)) eqn:E; [apply Z.ltb_lt in E|apply Z.ltb_ge in E].
      - apply Z.ltb_lt. lia.
      - apply Z.ltb_ge. lia. }
    exists (View (Ptr (PBlk b1) (o + hdr_size cf + Zlen x)) (Zlen l)).
    unfold chars_of, shift. cbn [p_obj p_ofs]. rewrite !Wx by auto. cbn [v_data p_ofs v_size].
    assert (source cf m1 (Ptr (PBlk b1) o) B1 (View (Ptr (PBlk b1) (o + hdr_size cf + Zlen x)) (Zlen l)) l) as S1.
    { refine (src_inside cf m1 (Ptr (PBlk b1) o) B1 x l y _). congruence. }
    split; [|auto]. destruct Hm as [Hm|Hm].
    + injection Hm as ->. rewrite peq_refl. cbn [negb]. rewrite andb_false_r. reflexivity.
    + rewrite Hm. cbn [negb]. rewrite andb_true_r. destruct (Zlen x <? Zlen (bf_data B)) eqn:Ex.
      * apply Z.ltb_lt in Ex. destruct HI1 as (L1 & O1 & _ & F1' & _). pose proof (buf_at_cap _ _ _ _ HB1) as [C1 _]. rewrite Ed in C1. pose proof (Zlen_nonneg x).
        rewrite (char_at_in cf m1 b1 o k1) by (auto; lia). cbn [bind]. do 3 f_equal. lia.
      * apply Z.ltb_ge in Ex. rewrite Hl in Ex. zl. assert (l = []) as -> by (apply Zlen_0; lia).
        specialize (Hnil eq_refl). injection Hnil as ->. reflexivity.
  - specialize (Hnil (eq_sym Ell)). injection Hnil as ->. rewrite peq_refl. cbn [negb]. rewrite andb_false_r.
    eexists. split; [reflexivity|]. split; auto. split.
    + apply src_empty. lia.
    + unfold within. now rewrite Ed.
Qed.

Lemma clamp_ok : forall cf c i, INT_MIN <= i <= INT_MAX -> Zlen c <= INT_MAX -> clamp_index cf i (Zlen c) = Ok (position c i).
Proof.
  intros cf c i Hi Hc. unfold clamp_index, position. pose proof (Zlen_nonneg c).
  destruct (Zlen c <? i) eqn:E1; [apply Z.ltb_lt in E1|apply Z.ltb_ge in E1].
  - rewrite (proj2 (Z.ltb_ge (Zlen c) 0)) by lia. cbn [bind]. rewrite (proj2 (Z.ltb_ge (Zlen c) 0)) by lia.
    rewrite (proj2 (Z.ltb_ge i 0)) by lia. f_equal. lia.
  - destruct (i <? 0) eqn:E2; [apply Z.ltb_lt in E2|apply Z.ltb_ge in E2].
    + rewrite iadd_ok by (unfold INT_MIN, INT_MAX in *; lia). cbn [bind]. f_equal. destruct (i + Zlen c <? 0) eqn:E3; [apply Z.ltb_lt in E3|apply Z.ltb_ge in E3]; lia.
    + cbn [bind]. rewrite (proj2 (Z.ltb_ge i 0)) by lia. f_equal. lia.
Qed.
Lemma position_bounds : forall c i, 0 <= position c i <= Zlen c.
Proof. intros c i. pose proof (Zlen_nonneg c). unfold position. destruct (i <? 0) eqn:E; [apply Z.ltb_lt in E|apply Z.ltb_ge in E]; lia. Qed.
Lemma insert_len : forall c i l, Zlen (insert c i l) = Zlen c + Zlen l.
Proof.
  intros c i l. unfold insert. rewrite !Zlen_app. pose proof (f_equal Zlen (firstn_skipn (Z.to_nat (position c i)) c)) as H.
  rewrite Zlen_app in H. lia.
Qed.
Lemma Zlen_firstn : forall {A} (c : list A) i, 0 <= i <= Zlen c -> Zlen (firstn (Z.to_nat i) c) = i.
Proof. intros A c i H. unfold Zlen in *. rewrite firstn_length. lia. Qed.

Lemma source_len : forall cf m p B v l, source cf m p B v l -> v_size v = Zlen l.
Proof. intros cf m p B v l H. destruct H; auto. eapply has_view_size; eauto. Qed.
Lemma source_ok : forall cf m p B v l, buf_at cf m p B -> source cf m p B v l -> Forall is_byte l /\ Zlen l <= INT_MAX.
Proof.
  intros cf m p B v l HB H. destruct H as [|v l HV _|x l y Hl|q Hq].
  - split; [constructor|cbn; unfold INT_MAX; lia].
  - destruct HV as (_ & _ & H1 & H2). auto.
  - destruct (buf_at_cap _ _ _ _ HB) as [C F]. rewrite Hl in *. rewrite !Forall_app in F. split; [tauto|zl].
  - split; [constructor|cbn; unfold INT_MAX; lia].
Qed.

Lemma grown_cap : forall cf B n, wf_cfg cf -> 0 <= n <= INT_MAX -> bf_cap B <= bf_cap (grown cf B n).
Proof.
  intros cf B n W Hn. unfold grown. cbn [bf_cap]. destruct (dyn B && (bf_cap B <? n)) eqn:E; [|lia].
  apply andb_true_iff in E as [_ E]. apply Z.ltb_lt in E. pose proof (rounded_bounds cf n W Hn). lia.
Qed.

Lemma insert_cmp : forall cf w p B i v l, wf_cfg cf -> comparable cf p v -> mem_wf (s_mem w) -> no_fail w ->
  buf_at cf (s_mem w) p B -> source cf (s_mem w) p B v l -> INT_MIN <= i <= INT_MAX ->
  sums_ok cf (Zlen (bf_data B) + Zlen l) ->
  exists p' w', insert_strview_into_buf cf w p i v = Ok (p', w') /\
    buf_at cf (s_mem w') p' (put cf B (insert (bf_data B) i l)) /\
    touches cf (s_mem w) (s_mem w') p p' B /\ mem_wf (s_mem w') /\ no_fail w' /\
    (Zlen (bf_data B) + Zlen l <= bf_cap B -> p' = p).
Proof.
  intros cf w p B i v l W Hc Wm Nf HB Hs Hi Hsum.
  destruct (buf_at_cap _ _ _ _ HB) as [C F]. destruct (source_ok _ _ _ _ _ _ HB Hs) as [Fl Ll].
  pose proof (source_len _ _ _ _ _ _ Hs) as Hv. pose proof (Zlen_nonneg (bf_data B)) as Z1. pose proof (Zlen_nonneg l) as Z2.
  unfold insert_strview_into_buf.
  destruct (contains_ok cf (s_mem w) p B v l W Hc Wm HB Hs) as (Ec & d & Ed & Hd). rewrite Ec, Ed. cbn [bind].
  rewrite (buf_at_load cf (s_mem w) p B W HB). cbn [bind hdr_of h_size]. rewrite clamp_ok by (auto; lia). cbn [bind]. rewrite Hv.
  unfold put, fits. rewrite insert_len.
  destruct (Z.le_gt_cases (Zlen (bf_data B) + Zlen l) INT_MAX) as [Hle|Hgt].
  - rewrite add_check_ok by lia. cbn [bind].
    destruct (ensure_ok cf w p B (Zlen (bf_data B) + Zlen l) W Wm Nf HB ltac:(lia) ltac:(auto)) as (p1 & w1 & En & HB1 & Ht & Wm1 & Nf1 & Hm & Hst).
    rewrite En. cbn [bind]. rewrite (buf_at_load cf (s_mem w1) p1 _ W HB1). cbn [bind hdr_of grown bf_data bf_cap bf_alloc].
    assert (if within cf p v B && negb (peq (s_mem w1) p1 p) then d = p_ofs (v_data v) - (p_ofs p + hdr_size cf) else True) as Hd'.
    { destruct (within cf p v B); cbn [andb]; auto. destruct (peq (s_mem w1) p1 p); cbn [negb]; auto. }
    destruct (source_moved cf (s_mem w) (s_mem w1) p p1 B (grown cf B (Zlen (bf_data B) + Zlen l)) v l W HB HB1) as (v1 & Ev1 & Sv1 & Src1 & Wi1); auto.
    { intros Hd0. unfold grown. cbn [bf_cap]. now rewrite Hd0. }
    { apply grown_cap; auto. lia. }
    { intros ->. apply Hst. right. change (Zlen (@nil Z)) with 0. lia. }
    assert ((if within cf p v B && negb (peq (s_mem w1) p1 p)
              then let! d0 := char_at cf (s_mem w1) p1 d in Ok (View d0 (Zlen l))
              else Ok v) = Ok v1) as Ev2.
    { rewrite Hv in Ev1. destruct (within cf p v B && negb (peq (s_mem w1) p1 p)); auto. now rewrite Hd'. }
    rewrite Ev2. cbn [bind h_cap h_size]. rewrite Sv1, Hv.
    destruct (buf_at_cap _ _ _ _ HB1) as [C1 _].
    set (cap1 := bf_cap (grown cf B (Zlen (bf_data B) + Zlen l))) in *.
    change (hdr_of (grown cf B (Zlen (bf_data B) + Zlen l))) with (Hdr (Zlen (bf_data B)) cap1 (bf_alloc B)). cbn [h_cap h_size].
    assert ((cap1 <? Zlen (bf_data B) + Zlen l) = negb (if dyn B then Zlen (bf_data B) + Zlen l <=? INT_MAX else Zlen (bf_data B) + Zlen l <=? bf_cap B)) as Ef.
    { unfold cap1, grown. cbn [bf_cap]. destruct (dyn B); cbn [andb].
      - rewrite (proj2 (Z.leb_le _ INT_MAX)) by lia. cbn [negb]. apply Z.ltb_ge.
        destruct (bf_cap B <? Zlen (bf_data B) + Zlen l) eqn:E; [apply rounded_bounds; auto; lia|]. apply Z.ltb_ge in E. lia.
      - symmetry. rewrite <- Z.ltb_antisym. reflexivity. }
    rewrite Ef. destruct (if dyn B then Zlen (bf_data B) + Zlen l <=? INT_MAX else Zlen (bf_data B) + Zlen l <=? bf_cap B) eqn:Ef2; cbn [negb].
    + (* fits *)
      apply Z.ltb_ge in Ef. pose proof HB1 as (b & k & E1 & E2 & HI). destruct p1 as [po o]. cbn [p_obj p_ofs] in *. subst po.
      pose proof (firstn_skipn (Z.to_nat (position (bf_data B) i)) (bf_data B)) as Hsplit.
      pose proof (position_bounds (bf_data B) i) as Hpos. pose proof (Zlen_firstn (bf_data B) _ Hpos) as Hfl.
      unfold insert. set (c1 := firstn (Z.to_nat (position (bf_data B) i)) (bf_data B)) in *.
      set (c2 := skipn (Z.to_nat (position (bf_data B) i)) (bf_data B)) in *.
      assert (grown cf B (Zlen (bf_data B) + Zlen l) = Buffer (c1 ++ c2) cap1 (bf_alloc B)) as Eg by (rewrite Hsplit; reflexivity).
      rewrite Eg in HI, Src1, Wi1.
      destruct (tail_ok cf w1 b o k c1 c2 cap1 (bf_alloc B) v1 l W E2 HI ltac:(rewrite Hsplit; lia) Fl Src1) as (k' & T1 & T2 & T3 & T4).
      rewrite Wi1, Hfl, Hsplit in T1. unfold insert_tail in T1. cbn [h_size] in T1. rewrite Sv1, Hv in T1.
      exists (Ptr (PBlk b) o). eexists. split; [exact T1|]. unfold with_mem. cbn [s_mem].
      split; [|split; [|split; [|split]]].
      * exists b, k'. split; auto. split; [eapply nth_upd; eauto|]. exact T3.
      * eapply touches_trans with (B2 := Buffer (c1 ++ c2) cap1 (bf_alloc B)); [| |exact Ht|].
        -- reflexivity.
        -- intros Hd0. cbn [bf_cap]. unfold cap1, grown. cbn [bf_cap]. now rewrite Hd0.
        -- apply (touches_upd cf (s_mem w1) b o k k'); auto.
      * eapply mem_wf_upd; eauto.
      * exact Nf1.
      * intros Hst'. apply Hst. auto.
    + (* too long for a fixed buffer *)
      destruct (empty_buf_ok cf (s_mem w1) p1 _ W Wm1 HB1) as (m2 & M1 & M2 & M3 & M4 & _).
      rewrite M1. cbn [bind]. exists p1. eexists. split; [reflexivity|]. unfold with_mem. cbn [s_mem].
      assert (dyn B = false) as Hdf. { destruct (dyn B); auto. apply Z.leb_gt in Ef2. lia. }
      assert (cap1 = bf_cap B) as Ecap. { unfold cap1, grown. cbn [bf_cap]. now rewrite Hdf. }
      split; [|split; [|split; [|split]]].
      * fold cap1 in M2. rewrite Ecap in M2. exact M2.
      * eapply touches_trans with (B2 := grown cf B (Zlen (bf_data B) + Zlen l)); eauto.
      * exact M4.
      * exact Nf1.
      * intros _. apply Hst. auto.
  - (* the size does not fit an int *)
    destruct Hsum as [Hw|Hsum]; [|destruct W as [W _]; lia].
    rewrite add_check_over by (auto; lia). cbn [bind].
    destruct (empty_buf_ok cf (s_mem w) p B W Wm HB) as (m2 & M1 & M2 & M3 & M4 & _).
    rewrite M1. cbn [bind]. exists p. eexists. split; [reflexivity|]. unfold with_mem. cbn [s_mem].
    assert ((if dyn B then Zlen (bf_data B) + Zlen l <=? INT_MAX else Zlen (bf_data B) + Zlen l <=? bf_cap B) = false) as ->.
    { destruct (dyn B); apply Z.leb_gt; lia. }
    auto.
Qed.

Lemma insert_ok : forall cf w p B i v l, wf_cfg cf -> c_ptr cf = true -> mem_wf (s_mem w) -> no_fail w ->
  buf_at cf (s_mem w) p B -> source cf (s_mem w) p B v l -> INT_MIN <= i <= INT_MAX ->
  sums_ok cf (Zlen (bf_data B) + Zlen l) ->
  exists p' w', insert_strview_into_buf cf w p i v = Ok (p', w') /\
    buf_at cf (s_mem w') p' (put cf B (insert (bf_data B) i l)) /\
    touches cf (s_mem w) (s_mem w') p p' B /\ mem_wf (s_mem w') /\ no_fail w' /\
    (Zlen (bf_data B) + Zlen l <= bf_cap B -> p' = p).
Proof. intros cf w p B i v l W Hc. apply insert_cmp; auto. now left. Qed.
