(** Concatenation. *)
From Verif Require Import Base Mem Libc StrviewModel Spec MemLemmas Alloc StrbufModel BufSpec StrbufProofs StrbufProofs2 StrbufProofs3 StrbufProofs4 StrbufProofs5 StrbufProofs6 StrbufProofs7.

Lemma Forall2_impl : forall {A B} (P Q : A -> B -> Prop), (forall a b, P a b -> Q a b) -> forall x y, Forall2 P x y -> Forall2 Q x y.
Proof. intros A B P Q H x y F. induction F; constructor; auto. Qed.

(** ** Inserting nothing *)
Lemma pdiff_any : forall cf m p q a b, c_ptr cf = true -> addr m p = Some a -> addr m q = Some b -> exists d, pdiff cf m p q = Ok d.
Proof.
  intros cf m p q a b Hc Ha Hb. unfold pdiff. destruct (pobj_eqb (p_obj p) (p_obj q)); [eauto|]. rewrite Hc, Ha, Hb. eauto.
Qed.
Lemma ple_any : forall cf m p q a b, c_ptr cf = true -> addr m p = Some a -> addr m q = Some b -> exists d, ple cf m p q = Ok d.
Proof. intros. unfold ple. destruct (pdiff_any cf m p q a b) as [d ->]; auto. cbn. eauto. Qed.
Lemma plt_any : forall cf m p q a b, c_ptr cf = true -> addr m p = Some a -> addr m q = Some b -> exists d, plt cf m p q = Ok d.
Proof. intros. unfold plt. destruct (pdiff_any cf m p q a b) as [d ->]; auto. cbn. eauto. Qed.

Lemma contains_any : forall cf m p B v a, wf_cfg cf -> c_ptr cf = true -> buf_at cf m p B -> addr m (v_data v) = Some a ->
  exists c, buf_contains_str cf m p v = Ok c.
Proof.
  intros cf m p B v a W Hc HB Ha. unfold buf_contains_str. pose proof HB as (b & k & E1 & E2 & HI). destruct p as [po o]. cbn [p_obj p_ofs] in *. subst po.
  destruct (ple_any cf m (cstr_of cf (Ptr (PBlk b) o)) (v_data v) (b_base k + (o + hdr_size cf)) a Hc) as [d ->]; auto.
  { unfold cstr_of, shift, addr. cbn [p_obj p_ofs]. now rewrite E2. }
  cbn [bind]. destruct d; [|eauto]. rewrite (buf_at_load cf m _ B W HB). cbn [bind].
  rewrite char_at_flat by auto. cbn [bind]. eapply plt_any; eauto. unfold addr. cbn [p_obj p_ofs]. now rewrite E2.
Qed.

(** Writing size and terminator again changes nothing. *)
Lemma insert_empty : forall cf w p B i v a, wf_cfg cf -> c_ptr cf = true -> mem_wf (s_mem w) -> no_fail w ->
  buf_at cf (s_mem w) p B -> v_size v = 0 -> addr (s_mem w) (v_data v) = Some a -> INT_MIN <= i <= INT_MAX ->
  exists w', insert_strview_into_buf cf w p i v = Ok (p, w') /\ buf_at cf (s_mem w') p B /\
    touches cf (s_mem w) (s_mem w') p p B /\ mem_wf (s_mem w') /\ no_fail w'.
Proof.
  intros cf w p B i v a W Hc Wm Nf HB Hv Ha Hi. destruct (buf_at_cap _ _ _ _ HB) as [C F]. pose proof (Zlen_nonneg (bf_data B)) as Z1.
  unfold insert_strview_into_buf. destruct (contains_any cf (s_mem w) p B v a W Hc HB Ha) as [c ->]. cbn [bind].
  destruct (pdiff_any cf (s_mem w) (v_data v) (cstr_of cf p) a (match addr (s_mem w) (cstr_of cf p) with Some z => z | None => 0 end) Hc Ha) as [d ->].
  { destruct HB as (b & k & E1 & E2 & HI). unfold cstr_of, shift, addr. cbn [p_obj p_ofs]. rewrite E1, E2. reflexivity. }
  cbn [bind]. rewrite (buf_at_load cf (s_mem w) p B W HB). cbn [bind hdr_of h_size].
  rewrite (clamp_ok cf (bf_data B) i Hi ltac:(lia)). cbn [bind]. rewrite Hv.
  rewrite add_check_ok by (unfold INT_MAX in *; lia). cbn [bind]. rewrite Z.add_0_r.
  unfold ensure. rewrite (buf_at_load cf (s_mem w) p B W HB). cbn [bind hdr_of h_alloc h_cap].
  rewrite (proj2 (Z.ltb_ge (bf_cap B) _)) by lia. rewrite andb_false_r. cbn [bind].
  rewrite (buf_at_load cf (s_mem w) p B W HB). cbn [bind hdr_of h_size h_cap].
  assert (peq (s_mem w) p p = true) as ->.
  { unfold peq. destruct HB as (b & k & E1 & _). rewrite E1. cbn [pobj_eqb]. now rewrite Nat.eqb_refl, Z.eqb_refl. }
  cbn [negb]. rewrite andb_false_r. cbn [bind]. rewrite Hv, Z.add_0_r. rewrite (proj2 (Z.ltb_ge (bf_cap B) _)) by lia.
  pose proof HB as (b & k & E1 & E2 & HI). destruct p as [po o]. cbn [p_obj p_ofs] in *. subst po.
  rewrite !char_at_flat by auto. cbn [bind]. cbn [Z.eqb bind].
  pose proof HI as (L & O & Al & Fi & H & D & T & By & C1 & Dy). pose proof (buf_in_chars _ _ _ _ HI) as Ch.
  destruct (close_ok cf (s_mem w) b o k (bf_data B) (Zlen (bf_data B)) (bf_cap B) (bf_alloc B) W E2) as (k3 & X3 & S3 & HI3 & G3); auto.
  change (v_size INVALID) with 0. cbn [Z.eqb].
  destruct (set_size cf (s_mem w) (Ptr (PBlk b) o) (Zlen (bf_data B))) as [m3| |]; cbn [bind] in X3 |- *; try discriminate.
  unfold padd. cbn [p_obj]. rewrite Hc. cbn [bind]. rewrite Hv. cbn [Z.eqb bind]. rewrite X3. cbn [bind]. eexists. split; [reflexivity|]. cbn [with_mem s_mem].
  replace (Buffer (bf_data B) (bf_cap B) (bf_alloc B)) with B in HI3 by (now destruct B).
  destruct (in_place cf (s_mem w) b o k k3 B _ Wm E2 S3 HI3) as (Q1 & Q2 & Q3).
  { pose proof (hdr_size_pos cf W). intros j Hj. apply G3; lia. }
  auto.
Qed.

(** ** Arguments *)
(** An argument that does not start inside the contents: nothing, or text elsewhere. *)
Definition inert (cf : cfg) (m : mem) (p : ptr) (B : buffer) (v : view) (l : list Z) : Prop :=
  (l = [] /\ v_size v = 0 /\ exists a, addr m (v_data v) = Some a) \/ (has_view m v l /\ outside cf p B v l).

Lemma addr_grow : forall m m' q a, (length m <= length m')%nat -> addr m q = Some a -> exists a', addr m' q = Some a'.
Proof.
  intros m m' [qo qf] a L H. unfold addr in *. cbn [p_obj p_ofs] in *. destruct qo as [|b|]; eauto.
  destruct (nth_error m b) as [k|] eqn:E; [|discriminate]. apply nth_error_lt in E.
  destruct (nth_error m' b) as [k'|] eqn:E'; eauto. apply nth_error_None in E'. lia.
Qed.
Lemma touches_len : forall cf m m' p p' B, touches cf m m' p p' B -> (length m <= length m')%nat.
Proof. intros cf m m' p p' B (b & b' & H). tauto. Qed.

Lemma source_addr : forall cf m p B v l, buf_at cf m p B -> source cf m p B v l -> exists a, addr m (v_data v) = Some a.
Proof.
  intros cf m p B v l (b & k & E1 & E2 & HI) Hs. inversion Hs as [X1 X2|v0 l0 HV HO X1 X2|x l0 y Hl X1 X2|q Hq X1 X2]; subst.
  - exists 0. reflexivity.
  - destruct HO as [(b0 & E) _]. destruct (has_view_block _ _ _ _ HV E) as (k0 & K & _). unfold addr. rewrite E, K. eauto.
  - unfold addr, chars_of, shift. cbn [v_data p_obj p_ofs]. rewrite E1, E2. eauto.
  - unfold addr, chars_of, shift. cbn [v_data p_obj p_ofs]. rewrite E1, E2. eauto.
Qed.

Lemma source_inert : forall cf m p B v l, buf_at cf m p B -> source cf m p B v l -> within cf p v B = false -> inert cf m p B v l.
Proof.
  intros cf m p B v l HB Hs Hw. destruct (source_addr _ _ _ _ _ _ HB Hs) as [a Ha].
  pose proof (source_len _ _ _ _ _ _ Hs) as Hlen.
  inversion Hs as [X1 X2|v0 l0 HV HO X1 X2|x l0 y Hl X1 X2|q Hq X1 X2]; subst.
  - left. eauto.
  - right. auto.
  - left. destruct l as [|c l]; [eauto|]. exfalso. destruct HB as (b & k & E1 & _).
    unfold within, chars_of, shift in Hw. cbn [v_data p_obj p_ofs] in Hw. rewrite E1 in Hw. cbn [pobj_eqb] in Hw. rewrite Nat.eqb_refl in Hw.
    pose proof (Zlen_nonneg x). pose proof (Zlen_nonneg l). pose proof (Zlen_nonneg y).
    rewrite Hl in Hw. rewrite !Zlen_app, Zlen_cons in Hw.
    rewrite (proj2 (Z.leb_le _ _)), (proj2 (Z.ltb_lt _ _)) in Hw by lia. discriminate.
  - left. eauto.
Qed.
Lemma within_starts : forall cf m p B v l, buf_at cf m p B -> source cf m p B v l -> within cf p v B = true ->
  exists b, p_obj p = PBlk b /\ p_obj (v_data v) = PBlk b.
Proof.
  intros cf m p B v l (b & k & E1 & _) _ Hw. exists b. split; auto. unfold within in Hw. apply andb_true_iff in Hw as [Hw _]. apply andb_true_iff in Hw as [Hw _].
  rewrite E1 in Hw. destruct (p_obj (v_data v)); cbn [pobj_eqb] in Hw; try discriminate. apply Nat.eqb_eq in Hw. now subst.
Qed.

(** ** Measuring *)
Definition total (ls : list (list Z)) : Z := Zlen (concat ls).
Lemma total_cons : forall l ls, total (l :: ls) = Zlen l + total ls.
Proof. intros. unfold total. cbn [concat]. apply Zlen_app. Qed.

Lemma measure_ok : forall cf m p B args ls, wf_cfg cf -> c_ptr cf = true -> mem_wf m -> buf_at cf m p B ->
  Forall2 (source cf m p B) args ls -> forall n tmp failed, 0 <= n -> n + total ls <= INT_MAX ->
  cat_measure cf m p args n tmp failed = Ok (n + total ls, tmp || existsb (fun v => within cf p v B) args, failed).
Proof.
  intros cf m p B args ls W Hc Wm HB Hf. induction Hf as [|v l args ls Hv Hf IH]; intros n tmp failed Hn Ht; cbn [cat_measure existsb].
  - unfold total. cbn [concat]. rewrite Zlen_nil, Z.add_0_r, orb_false_r. reflexivity.
  - rewrite total_cons in *. rewrite (source_len _ _ _ _ _ _ Hv). pose proof (Zlen_nonneg l). pose proof (Zlen_nonneg (concat ls)) as Z2. fold (total ls) in Z2.
    rewrite add_check_ok by lia. cbn [bind]. rewrite iadd_ok by (unfold INT_MIN; lia). cbn [bind].
    destruct (contains_ok cf m p B v l W (or_introl Hc) Wm HB Hv) as (-> & _). cbn [bind]. rewrite IH by lia.
    rewrite orb_false_r, <- orb_assoc, Z.add_assoc. reflexivity.
Qed.
Lemma iadd_wrap : forall cf a b, c_wrapv cf = true -> exists z, iadd cf a b = Ok z.
Proof. intros cf a b Hw. unfold iadd, int_res. destruct (in_int (a + b)); eauto. rewrite Hw. eauto. Qed.
Lemma check_wrap : forall cf a b, c_wrapv cf = true -> exists z, add_will_overflow_int cf a b = Ok z.
Proof. intros cf a b Hw. unfold add_will_overflow_int. destruct (iadd_wrap cf a b Hw) as [z ->]. cbn. eauto. Qed.
Lemma measure_failed : forall cf m p B args ls, wf_cfg cf -> c_ptr cf = true -> c_wrapv cf = true -> mem_wf m -> buf_at cf m p B ->
  Forall2 (source cf m p B) args ls -> forall n tmp,
  exists n' tmp', cat_measure cf m p args n tmp true = Ok (n', tmp', true).
Proof.
  intros cf m p B args ls W Hc Hw Wm HB Hf. induction Hf as [|v l args ls Hv Hf IH]; intros n tmp; cbn [cat_measure]; eauto.
  destruct (check_wrap cf n (v_size v) Hw) as [o ->]. cbn [bind]. destruct (iadd_wrap cf n (v_size v) Hw) as [z ->]. cbn [bind].
  destruct (contains_ok cf m p B v l W (or_introl Hc) Wm HB Hv) as (-> & _). cbn [bind]. cbn [orb]. apply IH.
Qed.
Lemma measure_over : forall cf m p B args ls, wf_cfg cf -> c_ptr cf = true -> c_wrapv cf = true -> mem_wf m -> buf_at cf m p B ->
  Forall2 (source cf m p B) args ls -> forall n tmp failed, 0 <= n <= INT_MAX -> INT_MAX < n + total ls ->
  exists n' tmp', cat_measure cf m p args n tmp failed = Ok (n', tmp', true).
Proof.
  intros cf m p B args ls W Hc Hw Wm HB Hf. induction Hf as [|v l args ls Hv Hf IH]; intros n tmp failed Hn Ht; cbn [cat_measure].
  - unfold total in Ht. cbn [concat] in Ht. rewrite Zlen_nil in Ht. lia.
  - rewrite total_cons in *. rewrite (source_len _ _ _ _ _ _ Hv). pose proof (Zlen_nonneg l). destruct (source_ok _ _ _ _ _ _ HB Hv) as [_ Hl].
    destruct (Z.le_gt_cases (n + Zlen l) INT_MAX).
    + rewrite add_check_ok by lia. cbn [bind]. rewrite iadd_ok by (unfold INT_MIN; lia). cbn [bind].
      destruct (contains_ok cf m p B v l W (or_introl Hc) Wm HB Hv) as (-> & _). cbn [bind]. apply IH; lia.
    + rewrite add_check_over by (auto; lia). cbn [bind]. destruct (iadd_wrap cf n (Zlen l) Hw) as [z ->]. cbn [bind].
      destruct (contains_ok cf m p B v l W (or_introl Hc) Wm HB Hv) as (-> & _). cbn [bind]. rewrite orb_true_r. eapply measure_failed; eauto.
Qed.

(** ** Appending all arguments *)
Lemma inert_touch : forall cf m m' p B d' v l, touches cf m m' p p B -> inert cf m p B v l ->
  inert cf m' p (Buffer d' (bf_cap B) (bf_alloc B)) v l.
Proof.
  intros cf m m' p B d' v l Ht [(-> & Hs & a & Ha)|(HV & HO)].
  - left. split; auto. split; auto. apply (addr_grow m m' _ a); auto. eapply touches_len; eauto.
  - right. split; [|exact HO]. eapply touches_view; eauto.
Qed.

Lemma append_all_ok : forall cf args ls w p B, wf_cfg cf -> c_ptr cf = true -> mem_wf (s_mem w) -> no_fail w ->
  buf_at cf (s_mem w) p B -> Forall2 (inert cf (s_mem w) p B) args ls ->
  Zlen (bf_data B) + total ls <= bf_cap B -> sums_ok cf (Zlen (bf_data B) + total ls) ->
  exists w', cat_append cf w p args = Ok (p, w') /\
    buf_at cf (s_mem w') p (Buffer (bf_data B ++ concat ls) (bf_cap B) (bf_alloc B)) /\
    touches cf (s_mem w) (s_mem w') p p B /\ mem_wf (s_mem w') /\ no_fail w'.
Proof.
  intros cf args. induction args as [|v args IH]; intros ls w p B W Hc Wm Nf HB Hf Ht Hs; inversion Hf as [|? l ? ls' Hv Hf']; subst; cbn [cat_append].
  - exists w. cbn [concat]. rewrite app_nil_r. split; auto. split; [now destruct B|]. split; auto. now apply touches_refl.
  - rewrite (buf_at_load cf (s_mem w) p B W HB). cbn [bind hdr_of h_size]. rewrite total_cons in *.
    destruct (buf_at_cap _ _ _ _ HB) as [C F]. pose proof (Zlen_nonneg (bf_data B)) as Z1. pose proof (Zlen_nonneg l) as Z2.
    pose proof (Zlen_nonneg (concat ls')) as Z3. fold (total ls') in Z3.
    assert (exists w1, insert_strview_into_buf cf w p (Zlen (bf_data B)) v = Ok (p, w1) /\
      buf_at cf (s_mem w1) p (Buffer (bf_data B ++ l) (bf_cap B) (bf_alloc B)) /\ touches cf (s_mem w) (s_mem w1) p p B /\ mem_wf (s_mem w1) /\ no_fail w1)
      as (w1 & -> & HB1 & Ht1 & Wm1 & Nf1).
    { destruct Hv as [(-> & Hz & a & Ha)|(HV & HO)].
      - destruct (insert_empty cf w p B (Zlen (bf_data B)) v a W Hc Wm Nf HB Hz Ha) as (w1 & E & H1 & H2 & H3 & H4); [unfold INT_MIN; lia|].
        exists w1. split; auto. split; auto. rewrite app_nil_r. now destruct B.
      - destruct (insert_ok cf w p B (Zlen (bf_data B)) v l W Hc Wm Nf HB) as (p1 & w1 & E & H1 & H2 & H3 & H4 & Hp).
        + constructor; auto.
        + unfold INT_MIN; lia.
        + eapply sums_ok_le; [|exact Hs]. lia.
        + rewrite Hp in * by lia. exists w1. split; auto. split; auto. rewrite insert_end in H1. unfold put, fits in H1. rewrite !Zlen_app in H1.
          rewrite grown_same in H1 by lia.
          assert ((if dyn B then Zlen (bf_data B) + Zlen l <=? INT_MAX else Zlen (bf_data B) + Zlen l <=? bf_cap B) = true) as Ef.
          { destruct (dyn B); apply Z.leb_le; lia. }
          rewrite Ef in H1. exact H1. }
    cbn [bind]. destruct (IH ls' w1 p (Buffer (bf_data B ++ l) (bf_cap B) (bf_alloc B)) W Hc Wm1 Nf1 HB1) as (w2 & E2 & HB2 & Ht2 & Wm2 & Nf2).
    { revert Hf'. apply Forall2_impl. intros v' l'. now apply inert_touch. }
    { cbn [bf_data bf_cap]. rewrite Zlen_app. lia. }
    { cbn [bf_data]. rewrite Zlen_app. replace (Zlen (bf_data B) + Zlen l + total ls') with (Zlen (bf_data B) + (Zlen l + total ls')) by lia. auto. }
    exists w2. split; auto. cbn [bf_data bf_cap bf_alloc] in HB2. rewrite <- app_assoc in HB2. cbn [concat]. split; auto. split; auto.
    eapply (touches_trans _ _ _ _ _ _ _ B); eauto; reflexivity.
Qed.

Lemma inert_move : forall cf m m' p p' B B' v l, touches cf m m' p p' B -> dyn B' = dyn B -> (dyn B = false -> bf_cap B' = bf_cap B) ->
  inert cf m p B v l -> inert cf m' p' B' v l.
Proof.
  intros cf m m' p p' B B' v l Ht HD HC [(-> & Hs & a & Ha)|(HV & HO)].
  - left. split; auto. split; auto. apply (addr_grow m m' _ a); auto. eapply touches_len; eauto.
  - right. split; [eapply touches_view; eauto|]. pose proof Ht as (b & b' & A1 & A2 & A3 & La & La' & A4 & A5 & A6 & A7 & A8).
    destruct HO as [(b0 & E0) HO]. split; eauto. destruct (has_view_block _ _ _ _ HV E0) as (k0 & K0 & _). apply nth_error_lt in K0.
    destruct HO as [HO|(Df & HO)].
    + left. rewrite A2, E0. rewrite A1, E0 in HO. destruct A7 as [->|(_ & Hge & _)]; auto. intros X. injection X as ->. lia.
    + right. rewrite HD. split; auto. rewrite A3. unfold buf_end in *. rewrite A3, HC by auto. exact HO.
Qed.

Lemma put_total : forall cf B ls, bf_cap B <= INT_MAX -> total ls <= INT_MAX ->
  put cf B (concat ls) = if (if dyn B then true else total ls <=? bf_cap B) then Buffer (concat ls) (bf_cap (grown cf B (total ls))) (bf_alloc B)
                         else Buffer [] (bf_cap B) (bf_alloc B).
Proof.
  intros cf B ls HC Ht. unfold put, fits. fold (total ls). destruct (dyn B); auto. now rewrite (proj2 (Z.leb_le (total ls) INT_MAX)) by lia.
Qed.

(** What the destination becomes: a fixed buffer is emptied if an argument starts inside it. *)
Lemma cat_ok : forall cf w p B args ls, wf_cfg cf -> c_ptr cf = true -> mem_wf (s_mem w) -> no_fail w ->
  buf_at cf (s_mem w) p B -> Forall2 (source cf (s_mem w) p B) args ls -> sums_ok cf (total ls) ->
  becomes cf w p B (strbuf_cat cf w (Some p) args)
    (if negb (dyn B) && existsb (fun v => within cf p v B) args then Buffer [] (bf_cap B) (bf_alloc B) else put cf B (concat ls)).
Proof.
  intros cf w p B args ls W Hc Wm Nf HB Hf Hs. destruct (buf_at_cap _ _ _ _ HB) as [C F]. pose proof (Zlen_nonneg (bf_data B)) as Z1.
  pose proof (Zlen_nonneg (concat ls)) as Z2. fold (total ls) in Z2.
  unfold strbuf_cat. rewrite (on_buf_ok cf (s_mem w) p B) by auto. unfold buffer_vcat.
  enough (exists r, yields cf w p B r (if negb (dyn B) && existsb (fun v => within cf p v B) args then Buffer [] (bf_cap B) (bf_alloc B) else put cf B (concat ls)) /\
    forall K, (let! (size_needed, tmp, failed) := cat_measure cf (s_mem w) p args 0 false false in
       let! (p', w') :=
        if (failed : bool) then
          let! m1 := empty_buf cf (s_mem w) p in Ok (p, with_mem w m1)
        else
          let! h := load_hdr cf (s_mem w) p in
          if (tmp : bool) && is_dyn (h_alloc h) then
            let! (bb, w1) := create_buf cf w size_needed (h_alloc h) in
            let! hb := load_hdr cf (s_mem w1) bb in
            let! (bb2, w2) := if h_cap hb <? size_needed then Ok (bb, w1) else cat_append cf w1 bb args in
            let! v := strview_of_buf cf (s_mem w2) bb2 in
            let! (p3, w3) := assign_strview_to_buf cf w2 p v in
            let! w4 := destroy_buf cf w3 bb2 in
            Ok (p3, w4)
          else
            let! (p1, w1) := ensure cf w p size_needed in
            let! m2 := empty_buf cf (s_mem w1) p1 in
            let w2 := with_mem w1 m2 in
            let! h2 := load_hdr cf m2 p1 in
            if (is_dyn (h_alloc h2) || negb tmp) && negb (h_cap h2 <? size_needed)
            then cat_append cf w2 p1 args
            else Ok (p1, w2) in K p' w') = (let! (p', w') := r in (K p' w' : outcome (view * ptr * st)))) as (r & (p' & w' & -> & H1 & H2 & H3 & H4) & HK).
  { rewrite HK. cbn [bind]. rewrite (view_ok cf (s_mem w') p' _ W H1). cbn [bind]. exists p', w'. auto. }
  destruct (Z.le_gt_cases (total ls) INT_MAX) as [Hle|Hgt].
  2:{ destruct Hs as [Hw|Hs]; [|destruct W as [W _]; lia].
      destruct (measure_over cf (s_mem w) p B args ls W Hc Hw Wm HB Hf 0 false false) as (n' & tmp' & ->); [unfold INT_MAX; lia|lia|]. cbn [bind].
      destruct (empty_buf_ok cf (s_mem w) p B W Wm HB) as (m2 & -> & M2 & M3 & M4 & _). cbn [bind].
      exists (Ok (p, with_mem w m2)). split; [|reflexivity]. eexists _, _. split; [reflexivity|]. cbn [with_mem s_mem].
      assert (put cf B (concat ls) = Buffer [] (bf_cap B) (bf_alloc B)) as ->.
      { unfold put, fits. fold (total ls). destruct (dyn B); rewrite (proj2 (Z.leb_gt (total ls) _)) by lia; reflexivity. }
      destruct (negb (dyn B) && existsb (fun v => within cf p v B) args); auto. }
  rewrite (measure_ok cf (s_mem w) p B args ls W Hc Wm HB Hf 0 false false) by lia. cbn [bind orb]. rewrite Z.add_0_l.
  rewrite (buf_at_load cf (s_mem w) p B W HB). cbn [bind hdr_of h_alloc h_size]. change (is_dyn (bf_alloc B)) with (dyn B).
  destruct (existsb (fun v => within cf p v B) args) eqn:Ew; cbn [andb].
  - destruct (dyn B) eqn:D; cbn [andb negb].
    + (* a temporary buffer *)
      destruct (create_buf_ok cf w (total ls) (bf_alloc B) W Wm Nf D ltac:(lia)) as (kb & w1 & -> & Em & HIb & Wm1 & Nf1 & _). cbn [bind].
      set (bb := length (s_mem w)) in *. set (pb := Ptr (PBlk bb) 0) in *. set (Bb := Buffer [] (total ls) (bf_alloc B)) in *.
      assert (nth_error (s_mem w1) bb = Some kb) as Hnb. { rewrite Em, nth_error_app2 by lia. unfold bb. now rewrite Nat.sub_diag. }
      assert (buf_at cf (s_mem w1) pb Bb) as HBb by (exists bb, kb; auto).
      assert (forall i, (i < bb)%nat -> nth_error (s_mem w1) i = nth_error (s_mem w) i) as Hold.
      { intros i Hi. rewrite Em. now rewrite nth_error_app1. }
      assert (length (s_mem w1) = S bb) as L1 by (rewrite Em, app_length; unfold bb; cbn; lia).
      rewrite (buf_at_load cf (s_mem w1) pb Bb W HBb). cbn [bind hdr_of h_cap Bb bf_cap]. rewrite Z.ltb_irrefl.
      destruct HB as (b & k & E1 & E2 & HI). pose proof (nth_error_lt _ _ _ E2) as Hlt. fold bb in Hlt.
      assert (buf_at cf (s_mem w1) p B) as HB1. { exists b, k. split; auto. split; auto. rewrite Hold; auto. }
      assert (Forall2 (inert cf (s_mem w1) pb Bb) args ls) as Hf1.
      { revert Hf. apply Forall2_impl. intros v l Hv.
        assert (buf_at cf (s_mem w) p B) as HB by (exists b, k; auto).
        destruct (source_addr _ _ _ _ _ _ HB Hv) as [a Ha].
        assert (exists a', addr (s_mem w1) (v_data v) = Some a') as Ha1. { apply (addr_grow (s_mem w) _ _ a); auto. rewrite L1. lia. }
        assert (forall b0 k0 l0, p_obj (v_data v) = PBlk b0 -> nth_error (s_mem w) b0 = Some k0 -> bytes_at (s_mem w) (v_data v) l0 ->
                 bytes_at (s_mem w1) (v_data v) l0 /\ outside cf pb Bb v l0) as Hmv.
        { intros b0 k0 l0 Eo K0 (k1 & A & A2). pose proof (nth_error_lt _ _ _ K0) as Lt0. fold bb in Lt0. rewrite Eo in A. cbn [access] in A. rewrite K0 in A. split.
          - exists k1. rewrite Eo. cbn [access]. rewrite Hold by auto. rewrite K0. auto.
          - split; eauto. left. rewrite Eo. cbn [pb p_obj]. intros X. injection X as ->. lia. }
        destruct (source_ok _ _ _ _ _ _ HB Hv) as [Fl Ll].
        inversion Hv as [X1 X2|v0 l0 HV HO X1 X2|x l0 y Hl X1 X2|q Hq X1 X2]; subst.
        - left. auto.
        - right. destruct HO as [(b0 & E0) _]. destruct (has_view_block _ _ _ _ HV E0) as (k0 & K0 & _). destruct HV as (HV & HV2).
          destruct (Hmv b0 k0 l E0 K0 HV). split; auto. split; auto.
        - right. pose proof (buf_at_bytes cf (s_mem w) p B W HB) as Hb. rewrite Hl in Hb. rewrite <- !app_assoc in Hb. apply bytes_at_sub in Hb.
          destruct (Hmv b k l ltac:(exact E1) E2 Hb). split; auto. split; auto.
        - left. auto. }
      destruct (append_all_ok cf args ls w1 pb Bb W Hc Wm1 Nf1 HBb Hf1) as (w2 & -> & HBb2 & Ht2 & Wm2 & Nf2).
      { cbn [Bb bf_data bf_cap]. rewrite Zlen_nil. lia. }
      { cbn [Bb bf_data]. rewrite Zlen_nil. exact Hs. }
      cbn [bind]. cbn [Bb bf_data bf_cap bf_alloc app] in HBb2. set (Bb2 := Buffer (concat ls) (total ls) (bf_alloc B)) in *.
      rewrite (view_ok cf (s_mem w2) pb Bb2 W HBb2). cbn [bind].
      pose proof Ht2 as (x1 & x2 & X1 & X2 & X3 & Lx & Lx' & X4 & X5 & X6 & X7 & X8). cbn [pb p_obj] in X1, X2. injection X1 as <-. injection X2 as <-.
      assert (buf_at cf (s_mem w2) p B) as HB2. { exists b, k. split; auto. split; auto. rewrite X5 by lia. now rewrite Hold. }
      unfold assign_strview_to_buf. destruct (empty_buf_ok cf (s_mem w2) p B W Wm2 HB2) as (m3 & -> & HB3 & Ht3 & Wm3 & _). cbn [bind].
      set (B0 := Buffer [] (bf_cap B) (bf_alloc B)) in *.
      assert (source cf m3 p B0 (buf_view cf pb Bb2) (concat ls)) as Hsrc.
      { apply src_outside.
        - eapply touches_view; [exact Ht3|exact (buf_at_view cf (s_mem w2) pb Bb2 W HBb2)|]. split; [exists bb; reflexivity|]. left.
          unfold buf_view, chars_of, shift. cbn [v_data p_obj pb]. rewrite E1. intros X. injection X as ->. lia.
        - split; [exists bb; reflexivity|]. left. unfold buf_view, chars_of, shift. cbn [v_data p_obj pb]. rewrite E1. intros X. injection X as ->. lia. }
      destruct (insert_ok cf (with_mem w2 m3) p B0 0 (buf_view cf pb Bb2) (concat ls) W Hc Wm3 Nf2 HB3 Hsrc) as (p4 & w4 & -> & HB4 & Ht4 & Wm4 & Nf4 & _).
      { unfold INT_MIN, INT_MAX. lia. }
      { cbn [B0 bf_data]. rewrite Zlen_nil. exact Hs. }
      cbn [bind]. cbn [B0 bf_data] in HB4. rewrite insert_start, app_nil_r in HB4. change (put cf B0 (concat ls)) with (put cf B (concat ls)) in HB4.
      cbn [with_mem s_mem] in Ht4.
      assert (touches cf (s_mem w2) (s_mem w4) p p4 B) as Ht24. { eapply (touches_trans _ _ _ _ _ _ _ B B0); eauto. }
      pose proof Ht24 as (y1 & b' & Y1 & Y2 & Y3 & Ly & Ly' & Y4 & Y5 & Y6 & Y7 & Y8). rewrite E1 in Y1. injection Y1 as <-.
      assert (bb <> b') as Nb. { destruct Y7 as [->|(_ & Y7 & _)]; lia. }
      assert (buf_at cf (s_mem w4) pb Bb2) as HBb4.
      { destruct HBb2 as (z1 & kz & Z1' & Z2' & Z3'). exists z1, kz. split; auto. split; auto. cbn [pb p_obj] in Z1'. injection Z1' as <-.
        rewrite Y5; auto; lia. }
      destruct (destroy_buf_ok cf w4 pb Bb2 W Wm4 Nf4 HBb4 D) as (z & Ez & ->). cbn [pb p_obj] in Ez. injection Ez as <-. cbn [bind].
      exists (Ok (p4, St (kill_at (s_mem w4) bb) (s_orc w4))). split; [|reflexivity]. eexists _, _. split; [reflexivity|]. cbn [s_mem].
      split; [|split; [|split; [now apply mem_wf_kill|exact Nf4]]].
      * destruct HB4 as (z1 & kz & Z1' & Z2' & Z3'). exists z1, kz. split; auto. split; auto. rewrite Y2 in Z1'. injection Z1' as <-.
        rewrite kill_at_neq; auto.
      * exists b, b'. rewrite kill_at_len. do 3 (split; auto). split; [lia|]. split; [auto|]. split; [fold bb; lia|]. split; [|split; [|split]].
        -- intros i Ne Hi. fold bb in Hi. rewrite kill_at_neq by lia. rewrite Y5 by lia. rewrite X5 by lia. now apply Hold.
        -- intros i k0 Hi Ne Hk. fold bb in Hi. destruct (Nat.eq_dec i bb) as [->|Nb2].
           ++ destruct (freed_kill (s_mem w4) bb) as (_ & _ & K). eapply K; eauto.
           ++ rewrite kill_at_neq in Hk by auto. destruct (Nat.lt_ge_cases i (length (s_mem w2))) as [Lt|Ge].
              ** rewrite Y5 in Hk by lia. apply (X6 i k0); auto. lia.
              ** apply (Y6 i k0); auto.
        -- destruct Y7 as [->|(Yd & Yl & Yk)]; auto. right. split; auto. split; [fold bb; lia|]. intros k0 Hk. rewrite kill_at_neq in Hk by lia. eauto.
        -- congruence.
    + (* fixed buffer and an argument inside it *)
      unfold ensure. rewrite (buf_at_load cf (s_mem w) p B W HB). cbn [bind hdr_of h_alloc h_cap]. change (is_dyn (bf_alloc B)) with (dyn B). rewrite D. cbn [andb bind].
      destruct (empty_buf_ok cf (s_mem w) p B W Wm HB) as (m2 & -> & M2 & M3 & M4 & _). cbn [bind].
      rewrite (buf_at_load cf m2 p _ W M2). cbn [bind hdr_of h_alloc bf_alloc]. change (is_dyn (bf_alloc B)) with (dyn B). rewrite D. cbn [orb andb].
      exists (Ok (p, with_mem w m2)). split; [|reflexivity]. eexists _, _. split; [reflexivity|]. auto.
  - rewrite andb_false_r. 
    destruct (ensure_ok cf w p B (total ls) W Wm Nf HB ltac:(lia) ltac:(auto)) as (p1 & w1 & -> & HB1 & Ht1 & Wm1 & Nf1 & _ & _). cbn [bind].
    destruct (empty_buf_ok cf (s_mem w1) p1 _ W Wm1 HB1) as (m2 & -> & HB2 & Ht2 & Wm2 & _). cbn [bind].
    rewrite (buf_at_load cf m2 p1 _ W HB2). cbn [bind hdr_of h_alloc h_cap bf_cap bf_alloc]. cbn [negb]. rewrite orb_true_r. cbn [andb].
    rewrite (grown_fits cf B (total ls) W) by lia. rewrite negb_involutive.
    set (B2 := Buffer [] (bf_cap (grown cf B (total ls))) (bf_alloc (grown cf B (total ls)))) in *.
    assert (touches cf (s_mem w) m2 p p1 B) as Ht12 by (eapply grown_touch; eauto).
    assert (dyn B = false -> bf_cap B2 = bf_cap B) as HC2. { intros D. unfold B2, grown. cbn [bf_cap]. now rewrite D. }
    rewrite put_total by lia. rewrite (proj2 (Z.leb_le (total ls) INT_MAX)) by lia.
    destruct (if dyn B then true else total ls <=? bf_cap B) eqn:Ef.
    + assert (Forall2 (inert cf m2 p1 B2) args ls) as Hf2.
      { assert (Forall (fun v => within cf p v B = false) args) as Hfa.
        { clear -Ew. induction args as [|v args IH]; constructor; cbn [existsb] in Ew; apply orb_false_iff in Ew as [E1 E2]; auto. }
        assert (dyn B2 = dyn B) as HD2 by reflexivity. clearbody B2.
        clear -Hf Hfa HB Ht12 HC2 HD2. induction Hf as [|v l args ls' Hv Hf IH]; constructor; inversion Hfa; subst.
        - refine (inert_move cf (s_mem w) m2 p p1 B B2 v l Ht12 HD2 HC2 _). apply source_inert; auto.
        - apply IH; auto. }
      destruct (append_all_ok cf args ls (with_mem w1 m2) p1 B2 W Hc Wm2 Nf1 HB2 Hf2) as (w3 & -> & HB3 & Ht3 & Wm3 & Nf3).
      { cbn [B2 bf_data bf_cap]. rewrite Zlen_nil, Z.add_0_l. pose proof (grown_fits cf B (total ls) W ltac:(lia)) as G.
        rewrite (proj2 (Z.leb_le (total ls) INT_MAX)) in G by lia. rewrite Ef in G. cbn [negb] in G. apply Z.ltb_ge in G. exact G. }
      { cbn [B2 bf_data]. rewrite Zlen_nil. exact Hs. }
      exists (Ok (p1, w3)). split; [|reflexivity]. eexists _, _. split; [reflexivity|]. split; [exact HB3|]. split; [|auto].
      cbn [with_mem s_mem] in Ht3. eapply (touches_trans _ _ _ _ _ _ _ B B2); eauto. 
    + exists (Ok (p1, with_mem w1 m2)). split; [|reflexivity]. eexists _, _. split; [reflexivity|]. cbn [with_mem s_mem].
      destruct (dyn B) eqn:D; [discriminate|]. split; [|auto]. rewrite <- HC2 by auto. exact HB2.
Qed.
