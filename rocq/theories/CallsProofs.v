(** Proofs about the number of allocator calls. *)
From Verif Require Import Base Mem Libc StrviewModel Spec MemLemmas Alloc StrbufModel BufSpec BufSpec2 HistSpec CallsSpec ReserveSpec
  StrbufProofs StrbufProofs2 StrbufProofs3 StrbufProofs4 StrbufProofs5 StrbufProofs6 StrbufProofs7 StrbufProofs8 StrbufProofs10 StrbufHistory ReserveProofs.
Local Open Scope Z_scope.

Definition adv (k : nat) (o : nat -> choice) : nat -> choice := Nat.iter k next_orc o.
Lemma adv_at : forall k o n, adv k o n = o (k + n)%nat.
Proof. induction k; intros o n; [reflexivity|]. change (adv (S k) o n) with (adv k o (S n)). rewrite IHk. f_equal. lia. Qed.
Lemma adv_add : forall j k o, adv k (adv j o) = adv (j + k) o.
Proof. intros j k o. rewrite Nat.add_comm. induction k; [reflexivity|]. change (next_orc (adv k (adv j o)) = next_orc (adv (k + j) o)). now rewrite IHk. Qed.

Definition counts {X : Type} (k : nat) (w : st) (r : outcome (X * st)) : Prop := forall x w', r = Ok (x, w') -> s_orc w' = adv k (s_orc w).

Lemma counts_bind : forall {X Y} k1 k2 w (r : outcome (X * st)) (f : X * st -> outcome (Y * st)),
  counts k1 w r -> (forall x w1, r = Ok (x, w1) -> counts k2 w1 (f (x, w1))) -> counts (k1 + k2) w (bind r f).
Proof.
  intros X Y k1 k2 w r f H1 H2 y w' E. destruct r as [[x w1]| |]; cbn [bind] in E; try discriminate.
  rewrite (H2 x w1 eq_refl y w' E), (H1 x w1 eq_refl). apply adv_add.
Qed.
Lemma counts_then : forall {X Y} k w (r : outcome (X * st)) (f : X * st -> outcome (Y * st)),
  counts k w r -> (forall x w1, counts 0 w1 (f (x, w1))) -> counts k w (bind r f).
Proof. intros X Y k w r f H1 H2. rewrite <- (Nat.add_0_r k). apply counts_bind; auto. Qed.
Lemma counts_mem : forall {X} k w m (r : outcome (X * st)), counts k (with_mem w m) r -> counts k w r.
Proof. intros X k w m r H x w' E. exact (H x w' E). Qed.

Lemma counts_at : forall {X} k w w1 (r : outcome (X * st)), s_orc w1 = adv k (s_orc w) -> counts 0 w1 r -> counts k w r.
Proof. intros X k w w1 r H K x w' E. rewrite (K x w' E). exact H. Qed.
Lemma counts_at_more : forall {X} j k w w1 (r : outcome (X * st)), s_orc w1 = adv j (s_orc w) -> counts k w1 r -> counts (j + k) w r.
Proof. intros X j k w w1 r H K x w' E. rewrite (K x w' E), H. apply adv_add. Qed.

Ltac cstep :=
  match goal with
  | |- counts _ _ (UB _) => intros ? ? ?; discriminate
  | |- counts _ _ Fuel => intros ? ? ?; discriminate
  | |- counts 0 _ (Ok _) => let H := fresh in intros ? ? H; injection H as <- <-; reflexivity
  | |- counts _ _ (bind ?x _) => let E := fresh "E" in destruct x eqn:E; cbn [bind]
  | |- counts _ _ (if ?b then _ else _) => destruct b
  | |- counts _ _ (let '(_, _) := ?x in _) => destruct x
  end.

Lemma ret_counts : forall cf w p, counts 0 w (ret_view cf (Some p) w).
Proof. intros. unfold ret_view. repeat cstep. Qed.
Lemma ret_mem : forall cf w m p, counts 0 w (ret_view cf (Some p) (with_mem w m)).
Proof. intros. apply (counts_mem 0 w m). apply ret_counts. Qed.

Lemma alloc_counts : forall cf w a p n, n <> 0 -> counts 1 w (alloc_call cf w a p n).
Proof.
  intros cf w a p n Hn. unfold alloc_call. rewrite (proj2 (Z.eqb_neq n 0) Hn).
  assert (forall (q : ptr) m, counts 1 w (Ok (q, St m (next_orc (s_orc w))))) as H. { intros q m x w' E. injection E as <- <-. reflexivity. }
  repeat (cstep || apply H).
Qed.
Lemma change_counts : forall cf w p B n, wf_cfg cf -> buf_at cf (s_mem w) p B -> n <= INT_MAX ->
  counts (one_if (dyn B && negb (Z.max n (Zlen (bf_data B)) =? bf_cap B))) w (change_buf_capacity cf w p n).
Proof.
  intros cf w p B n W HB Hn. destruct (buf_at_cap _ _ _ _ HB) as [C _]. pose proof (Zlen_nonneg (bf_data B)) as Z0.
  unfold change_buf_capacity. rewrite (buf_at_load cf (s_mem w) p B W HB). cbn [bind hdr_of h_alloc h_size h_cap]. change (is_dyn (bf_alloc B)) with (dyn B).
  destruct (dyn B); cbn [andb one_if]; [|cstep].
  assert ((if n <? Zlen (bf_data B) then Zlen (bf_data B) else n) = Z.max n (Zlen (bf_data B))) as -> by (destruct (Z.ltb_spec n (Zlen (bf_data B))); lia).
  destruct (Z.max n (Zlen (bf_data B)) =? bf_cap B); cbn [negb one_if]; [cstep|].
  apply counts_then. { apply alloc_counts. rewrite alloc_size_ok by (auto; lia). pose proof (hdr_size_pos cf W). lia. }
  intros q w1. repeat cstep.
Qed.
Lemma ensure_counts : forall cf w p B n, wf_cfg cf -> buf_at cf (s_mem w) p B -> 0 <= n <= INT_MAX -> (dyn B = true -> bf_cap B < n -> sums_ok cf n) ->
  counts (one_if (dyn B && (bf_cap B <? n))) w (ensure cf w p n).
Proof.
  intros cf w p B n W HB Hn Hs. destruct (buf_at_cap _ _ _ _ HB) as [C _].
  unfold ensure. rewrite (buf_at_load cf (s_mem w) p B W HB). cbn [bind hdr_of h_alloc h_cap]. change (is_dyn (bf_alloc B)) with (dyn B).
  destruct (dyn B) eqn:D; cbn [andb one_if]; [|cstep]. destruct (bf_cap B <? n) eqn:E; cbn [one_if]; [|cstep]. apply Z.ltb_lt in E.
  rewrite round_up_ok by auto. cbn [bind]. pose proof (rounded_bounds cf n W Hn) as R.
  pose proof (change_counts cf w p B (rounded cf n) W HB ltac:(lia)) as H. rewrite D in H.
  rewrite (proj2 (Z.eqb_neq _ _)) in H by lia. exact H.
Qed.

(** When a buffer that takes [n] characters is resized. *)
Definition needs (B : buffer) (n : Z) : bool := dyn B && (bf_cap B <? n) && (n <=? INT_MAX).
Lemma put_resized : forall cf B d, wf_cfg cf -> 0 <= bf_cap B <= INT_MAX -> resized B (put cf B d) = needs B (Zlen d).
Proof.
  intros cf B d W C. unfold resized, needs, put, fits. destruct (dyn B) eqn:D; cbn [andb].
  - destruct (Zlen d <=? INT_MAX) eqn:E; cbn [bf_cap]; [|rewrite Z.eqb_refl; now rewrite andb_false_r]. rewrite andb_true_r. apply Z.leb_le in E.
    unfold grown. cbn [bf_cap]. rewrite D. cbn [andb]. destruct (bf_cap B <? Zlen d) eqn:F; [|now rewrite Z.eqb_refl]. apply Z.ltb_lt in F.
    pose proof (rounded_bounds cf (Zlen d) W ltac:(lia)). rewrite (proj2 (Z.eqb_neq _ _)) by lia. reflexivity.
  - destruct (Zlen d <=? bf_cap B); cbn [bf_cap]; [|now rewrite Z.eqb_refl]. unfold grown. cbn [bf_cap]. rewrite D. cbn [andb]. now rewrite Z.eqb_refl.
Qed.

Lemma insert_counts : forall cf w p B i v n, wf_cfg cf -> buf_at cf (s_mem w) p B -> v_size v = n -> 0 <= n <= INT_MAX ->
  sums_ok cf (Zlen (bf_data B) + n) -> counts (one_if (needs B (Zlen (bf_data B) + n))) w (insert_strview_into_buf cf w p i v).
Proof.
  intros cf w p B i v n W HB Hv Hn Hs. destruct (buf_at_cap _ _ _ _ HB) as [C _]. pose proof (Zlen_nonneg (bf_data B)) as Z0.
  unfold insert_strview_into_buf. rewrite Hv. cstep; [|cstep|cstep]. cstep; [|cstep|cstep]. rewrite (buf_at_load cf (s_mem w) p B W HB). cbn [bind hdr_of h_size]. cstep; [|cstep|cstep].
  destruct (Z.le_gt_cases (Zlen (bf_data B) + n) INT_MAX) as [Hle|Hgt].
  - rewrite add_check_ok by lia. cbn [bind]. unfold needs. rewrite (proj2 (Z.leb_le _ INT_MAX)) by lia. rewrite andb_true_r.
    apply counts_then; [apply ensure_counts; auto; lia|]. intros q w1. repeat cstep.
  - assert (c_wrapv cf = true) as Hw by (destruct Hs as [Hw|Hs]; [exact Hw|destruct W as [W _]; lia]).
    rewrite add_check_over by (auto; lia). cbn [bind]. unfold needs. rewrite (proj2 (Z.leb_gt _ INT_MAX)) by lia. rewrite andb_false_r. cbn [one_if]. repeat cstep.
Qed.
Lemma char_counts : forall cf w p B c, wf_cfg cf -> buf_at cf (s_mem w) p B -> sums_ok cf (Zlen (bf_data B) + 1) ->
  counts (one_if (needs B (Zlen (bf_data B) + 1))) w (append_char_to_buf cf w p c).
Proof.
  intros cf w p B c W HB Hs. destruct (buf_at_cap _ _ _ _ HB) as [C _]. pose proof (Zlen_nonneg (bf_data B)) as Z0. assert (0 <= 1 <= INT_MAX) as H1 by (unfold INT_MAX; lia).
  unfold append_char_to_buf. rewrite (buf_at_load cf (s_mem w) p B W HB). cbn [bind hdr_of h_size].
  destruct (Z.le_gt_cases (Zlen (bf_data B) + 1) INT_MAX) as [Hle|Hgt].
  - rewrite add_check_ok by lia. cbn [bind]. unfold needs. rewrite (proj2 (Z.leb_le _ INT_MAX)) by lia. rewrite andb_true_r.
    apply counts_then; [apply ensure_counts; auto; lia|]. intros q w1. repeat cstep.
  - assert (c_wrapv cf = true) as Hw by (destruct Hs as [Hw|Hs]; [exact Hw|destruct W as [W _]; lia]).
    rewrite add_check_over by (auto; lia). cbn [bind]. unfold needs. rewrite (proj2 (Z.leb_gt _ INT_MAX)) by lia. rewrite andb_false_r. cbn [one_if]. repeat cstep.
Qed.
Lemma ins_then : forall cf k w r, counts k w r -> counts k w (let! (p', w') := r in ret_view cf (Some p') w').
Proof. intros cf k w r H. apply counts_then; auto. intros. apply ret_counts. Qed.
Lemma assign_counts : forall cf w p B v n, wf_cfg cf -> buf_at cf (s_mem w) p B -> v_size v = n -> 0 <= n <= INT_MAX -> (strview_is_valid v = false -> n = 0) ->
  sums_ok cf n -> counts (one_if (needs B n)) w (strbuf_assign cf w (Some p) v).
Proof.
  intros cf w p B v n W HB Hv Hn Hi Hs. destruct (buf_at_cap _ _ _ _ HB) as [C _]. pose proof (Zlen_nonneg (bf_data B)) as Z0.
  unfold strbuf_assign. rewrite (on_buf_ok cf (s_mem w) p B) by auto. rewrite Hv. unfold needs. rewrite (proj2 (Z.leb_le n INT_MAX)) by lia. rewrite andb_true_r.
  destruct (strview_is_valid v) eqn:E.
  - pose proof (ensure_counts cf w p B n W HB Hn ltac:(auto)) as H. destruct (ensure cf w p n) as [[q w1]| |]; cbn [bind]; [|cstep|cstep].
    apply (counts_at _ w w1); [now apply (H q w1)|]. destruct (load_hdr cf (s_mem w1) q) as [h1| |]; cbn [bind]; [|cstep|cstep]. repeat (cstep || apply ret_mem).
  - rewrite (Hi eq_refl). rewrite (proj2 (Z.ltb_ge _ _)) by lia. rewrite andb_false_r. cbn [one_if bind]. repeat (cstep || apply ret_mem).
Qed.

Lemma printf_counts : forall cf w p B l, wf_cfg cf -> buf_at cf (s_mem w) p B -> Zlen l <= INT_MAX -> sums_ok cf (Zlen (bf_data B) + Zlen l) ->
  counts (one_if (needs B (Zlen (bf_data B) + Zlen l))) w (strbuf_append_vprintf cf w (Some p) (FmtText l)).
Proof.
  intros cf w p B l W HB Hl Hs. destruct (buf_at_cap _ _ _ _ HB) as [C _]. pose proof (Zlen_nonneg (bf_data B)) as Z0. pose proof (Zlen_nonneg l) as Z1.
  unfold strbuf_append_vprintf. rewrite (on_buf_ok cf (s_mem w) p B) by auto. rewrite (buf_at_load cf (s_mem w) p B W HB). cbn [bind hdr_of h_size].
  change (vsnprintf (s_mem w) null 0 (FmtText l)) with (Ok (Zlen l, s_mem w)). cbn [bind].
  destruct (Z.le_gt_cases (Zlen (bf_data B) + Zlen l) INT_MAX) as [Hle|Hgt].
  - rewrite add_check_ok by lia. cbn [bind]. rewrite iadd_ok by (unfold INT_MIN; lia). cbn [bind].
    unfold needs. rewrite (proj2 (Z.leb_le _ INT_MAX)) by lia. rewrite andb_true_r.
    pose proof (ensure_counts cf w p B (Zlen (bf_data B) + Zlen l) W HB ltac:(lia) ltac:(auto)) as H.
    destruct (ensure cf w p (Zlen (bf_data B) + Zlen l)) as [[q w1]| |]; cbn [bind]; [|cstep|cstep].
    apply (counts_at _ w w1); [now apply (H q w1)|]. destruct (load_hdr cf (s_mem w1) q) as [h1| |]; cbn [bind]; [|cstep|cstep]. repeat (cstep || apply ret_mem).
  - assert (c_wrapv cf = true) as Hw by (destruct Hs as [Hw|Hs]; [exact Hw|destruct W as [W _]; lia]).
    rewrite add_check_over by (auto; lia). cbn [bind]. unfold needs. rewrite (proj2 (Z.leb_gt _ INT_MAX)) by lia. rewrite andb_false_r. cbn [one_if].
    repeat (cstep || apply ret_mem).
Qed.

(** Characters one by one. *)
Lemma one_step : forall cf n, wf_cfg cf -> 0 <= n < INT_MAX ->
  rounded cf (n + 1) = Z.min INT_MAX ((n / c_step cf + 1) * c_step cf).
Proof.
  intros cf n [W _] Hn. unfold rounded. f_equal. f_equal. replace (n + 1 + c_step cf - 1) with (n + 1 * c_step cf) by lia. rewrite Z.div_add by lia. reflexivity.
Qed.
Lemma steps_one : forall cf c, wf_cfg cf -> 0 <= c < INT_MAX -> steps (c_step cf) c (rounded cf (c + 1)) = 1%nat.
Proof.
  intros cf c W Hc. rewrite (one_step cf c W Hc). destruct W as [W _]. unfold steps. set (s := c_step cf) in *.
  pose proof (Z.div_mod c s ltac:(lia)) as D. pose proof (Z.mod_pos_bound c s ltac:(lia)) as M. set (q := c / s) in *. set (r := c mod s) in *.
  assert ((Z.min INT_MAX ((q + 1) * s) + s - 1) / s = q + 1) as ->; [|lia].
  symmetry. apply Z.div_unique with (r := Z.min INT_MAX ((q + 1) * s) + s - 1 - s * (q + 1)); nia.
Qed.
Lemma steps_more : forall cf c d, wf_cfg cf -> 0 <= c < INT_MAX -> rounded cf (c + 1) < d <= INT_MAX ->
  steps (c_step cf) c d = (1 + steps (c_step cf) (rounded cf (c + 1)) d)%nat.
Proof.
  intros cf c d W Hc Hd. rewrite (one_step cf c W Hc) in *. destruct W as [W _]. unfold steps. set (s := c_step cf) in *.
  pose proof (Z.div_mod c s ltac:(lia)) as D. pose proof (Z.mod_pos_bound c s ltac:(lia)) as M. set (q := c / s) in *. set (r := c mod s) in *.
  assert (Z.min INT_MAX ((q + 1) * s) = (q + 1) * s) as E by lia. rewrite E in *. rewrite Z.div_mul by lia.
  pose proof (Z.div_le_mono ((q + 1) * s) (d + s - 1) s ltac:(lia) ltac:(lia)) as K. rewrite Z.div_mul in K by lia. lia.
Qed.

Lemma put_cap_mono : forall cf B d, wf_cfg cf -> 0 <= bf_cap B <= INT_MAX -> bf_cap B <= bf_cap (put cf B d) <= INT_MAX.
Proof.
  intros cf B d W C. unfold put, fits. destruct (dyn B) eqn:D.
  - destruct (Zlen d <=? INT_MAX) eqn:E; cbn [bf_cap]; [|lia]. apply Z.leb_le in E. unfold grown. cbn [bf_cap]. rewrite D. cbn [andb].
    destruct (bf_cap B <? Zlen d) eqn:F; [|lia]. apply Z.ltb_lt in F. pose proof (rounded_bounds cf (Zlen d) W ltac:(lia)). lia.
  - destruct (Zlen d <=? bf_cap B); cbn [bf_cap]; [|lia]. unfold grown. cbn [bf_cap]. rewrite D. cbn [andb]. lia.
Qed.
Definition growth (cf : cfg) (B B' : buffer) : nat := if resized B B' then steps (c_step cf) (bf_cap B) (bf_cap B') else 0%nat.
Lemma emit_counts : forall cf l w p B, wf_cfg cf -> mem_wf (s_mem w) -> no_fail w -> buf_at cf (s_mem w) p B -> Forall is_byte l -> sums_ok cf (Zlen (bf_data B) + Zlen l) ->
  exists p' w' B', emit cf w p l = Ok (p', w') /\ buf_at cf (s_mem w') p' B' /\ bf_cap B <= bf_cap B' /\ s_orc w' = adv (growth cf B B') (s_orc w).
Proof.
  intros cf l. induction l as [|c l IH]; intros w p B W Wm Nf HB Fl Hs; cbn [emit].
  - exists p, w, B. split; auto. split; auto. split; [lia|]. unfold growth, resized. now rewrite Z.eqb_refl.
  - inversion Fl as [|? ? Hc Fl']; subst. rewrite Zlen_cons in Hs. pose proof (Zlen_nonneg l) as Zl. pose proof (Zlen_nonneg (bf_data B)) as Zb.
    assert (sums_ok cf (Zlen (bf_data B) + 1)) as Hs1 by (eapply sums_ok_le; [|exact Hs]; lia).
    destruct (append_char_yields cf w p B c W Wm Nf HB Hc Hs1) as (p1 & w1 & E & HB1 & Ht & Wm1 & Nf1).
    pose proof (char_counts cf w p B c W HB Hs1 p1 w1 E) as K. rewrite E. cbn [bind].
    destruct (buf_at_cap _ _ _ _ HB) as [C _]. set (B1 := put cf B (bf_data B ++ [c])) in *.
    destruct (IH w1 p1 B1 W Wm1 Nf1 HB1 Fl') as (p' & w' & B' & E' & HB' & Hm & K').
    { eapply sums_ok_le; [|exact Hs]. pose proof (put_data_len cf B (bf_data B ++ [c])) as P. rewrite Zlen_app in P. change (Zlen [c]) with 1 in P. fold B1 in P. lia. }
    exists p', w', B'. split; auto. split; auto. pose proof (put_cap_mono cf B (bf_data B ++ [c]) W ltac:(lia)) as Hm1. fold B1 in Hm1. split; [lia|].
    rewrite K', K, adv_add. f_equal. destruct (buf_at_cap _ _ _ _ HB') as [C' _]. pose proof (put_resized cf B (bf_data B ++ [c]) W ltac:(lia)) as R.
    rewrite Zlen_app in R. change (Zlen [c]) with 1 in R. fold B1 in R. rewrite <- R. unfold growth.
    destruct (resized B B1) eqn:R1; cbn [one_if].
    + (* resized *) symmetry in R. unfold needs in R. apply andb_true_iff in R as [R R3]. apply andb_true_iff in R as [R R2]. apply Z.ltb_lt in R2. apply Z.leb_le in R3.
      assert (Zlen (bf_data B) = bf_cap B) as Ec by lia.
      assert (bf_cap B1 = rounded cf (bf_cap B + 1)) as E1.
      { unfold B1, put, fits, grown. rewrite R, Zlen_app, Ec. change (Zlen [c]) with 1. rewrite (proj2 (Z.leb_le (bf_cap B + 1) INT_MAX)) by lia. cbn [bf_cap andb].
        now rewrite (proj2 (Z.ltb_lt (bf_cap B) (bf_cap B + 1))) by lia. }
      pose proof (rounded_bounds cf (bf_cap B + 1) W ltac:(lia)) as Rb.
      assert (resized B B' = true) as ->. { unfold resized. rewrite (proj2 (Z.eqb_neq _ _)) by lia. reflexivity. }
      unfold resized. destruct (bf_cap B' =? bf_cap B1) eqn:E2; cbn [negb].
      * apply Z.eqb_eq in E2. rewrite E2, E1. now rewrite steps_one by (auto; lia).
      * apply Z.eqb_neq in E2. rewrite E1 in *. rewrite (steps_more cf (bf_cap B)) by (auto; lia). reflexivity.
    + unfold resized in *. apply negb_false_iff, Z.eqb_eq in R1. now rewrite R1.
Qed.

Lemma cap_unique : forall cf m p B B', wf_cfg cf -> buf_at cf m p B -> buf_at cf m p B' -> bf_cap B = bf_cap B'.
Proof.
  intros cf m p B B' W H H'. pose proof (buf_at_load cf m p B W H) as E. rewrite (buf_at_load cf m p B' W H') in E. injection E. auto.
Qed.
Lemma growth_caps : forall cf B B' C C', bf_cap B = bf_cap C -> bf_cap B' = bf_cap C' -> growth cf B B' = growth cf C C'.
Proof. intros cf B B' C C' H H'. unfold growth, resized. now rewrite H, H'. Qed.

(** The end of prnf: the text is complete, or the buffer is emptied. *)
Lemma finish_counts : forall cf w w1 p1 B B1 (b : bool) k x w' B', wf_cfg cf -> mem_wf (s_mem w1) -> buf_at cf (s_mem w1) p1 B1 -> s_orc w1 = adv k (s_orc w) -> k = growth cf B B1 ->
  (let! m2 := if b then empty_buf cf (s_mem w1) p1 else Ok (s_mem w1) in ret_view cf (Some p1) (with_mem w1 m2)) = Ok (x, w') ->
  (forall q, snd x = Some q -> buf_at cf (s_mem w') q B') -> s_orc w' = adv (growth cf B B') (s_orc w).
Proof.
  intros cf w w1 p1 B B1 b k x w' B' W Wm HB1 Ho -> E HB'.
  assert (exists m2 B2, (if b then empty_buf cf (s_mem w1) p1 else Ok (s_mem w1)) = Ok m2 /\ buf_at cf m2 p1 B2 /\ bf_cap B2 = bf_cap B1) as (m2 & B2 & E2 & H2 & C2).
  { destruct b; [|exists (s_mem w1), B1; auto]. destruct (empty_buf_ok cf (s_mem w1) p1 B1 W Wm HB1) as (m2 & -> & M2 & _). eexists _, _. split; [reflexivity|]. split; [exact M2|reflexivity]. }
  rewrite E2 in E. cbn [bind] in E. unfold ret_view in E. cbn [with_mem s_mem] in E. rewrite (view_ok cf m2 p1 B2 W H2) in E. cbn [bind] in E. injection E as <- <-.
  cbn [with_mem s_orc s_mem snd] in *. specialize (HB' p1 eq_refl). rewrite Ho. f_equal. apply growth_caps; auto.
  rewrite <- C2. eapply cap_unique; eauto.
Qed.
Lemma prnf_counts : forall cf w p B l x w' B', wf_cfg cf -> mem_wf (s_mem w) -> no_fail w -> buf_at cf (s_mem w) p B -> Forall is_byte l -> sums_ok cf (Zlen l) ->
  strbuf_vprnf cf w (Some p) l = Ok (x, w') -> (forall q, snd x = Some q -> buf_at cf (s_mem w') q B') -> s_orc w' = adv (growth cf B B') (s_orc w).
Proof.
  intros cf w p B l x w' B' W Wm Nf HB Fl Hs E HB'. unfold strbuf_vprnf in E. rewrite (on_buf_ok cf (s_mem w) p B) in E by auto.
  destruct (empty_buf_ok cf (s_mem w) p B W Wm HB) as (m1 & E1 & M2 & M3 & M4 & _). rewrite E1 in E. cbn [bind] in E.
  destruct (emit_counts cf l (with_mem w m1) p _ W M4 Nf M2 Fl Hs) as (p1 & w1 & B1 & Ee & HB1 & _ & K).
  destruct (emit_ok cf l (with_mem w m1) p _ W M4 Nf M2 Fl Hs) as (B1' & (p1' & w1' & Ee' & HB1' & _ & Wm1 & _) & _). rewrite Ee in Ee'. injection Ee' as <- <-.
  rewrite Ee in E. cbn [bind] in E. rewrite (buf_at_load cf _ _ _ W HB1) in E. cbn [bind] in E.
  rewrite (growth_caps cf B B' (Buffer [] (bf_cap B) (bf_alloc B)) B' eq_refl eq_refl).
  change (s_orc w) with (s_orc (with_mem w m1)).
  eapply (finish_counts cf (with_mem w m1) w1 p1); [exact W|exact Wm1|exact HB1|exact K|reflexivity|exact E|exact HB'].
Qed.
Lemma append_prnf_counts : forall cf w p B l x w' B', wf_cfg cf -> mem_wf (s_mem w) -> no_fail w -> buf_at cf (s_mem w) p B -> Forall is_byte l -> sums_ok cf (Zlen (bf_data B) + Zlen l) ->
  strbuf_append_vprnf cf w (Some p) l = Ok (x, w') -> (forall q, snd x = Some q -> buf_at cf (s_mem w') q B') -> s_orc w' = adv (growth cf B B') (s_orc w).
Proof.
  intros cf w p B l x w' B' W Wm Nf HB Fl Hs E HB'. unfold strbuf_append_vprnf in E. rewrite (on_buf_ok cf (s_mem w) p B) in E by auto.
  rewrite (buf_at_load cf _ _ _ W HB) in E. cbn [bind] in E.
  destruct (emit_counts cf l w p _ W Wm Nf HB Fl Hs) as (p1 & w1 & B1 & Ee & HB1 & _ & K).
  destruct (emit_ok cf l w p _ W Wm Nf HB Fl Hs) as (B1' & (p1' & w1' & Ee' & HB1' & _ & Wm1 & _) & _). rewrite Ee in Ee'. injection Ee' as <- <-.
  rewrite Ee in E. cbn [bind] in E. destruct (iadd cf (h_size (hdr_of B)) (Zlen l)) as [n| |]; cbn [bind] in E; try discriminate.
  rewrite (buf_at_load cf _ _ _ W HB1) in E. cbn [bind] in E.
  eapply (finish_counts cf w w1 p1); [exact W|exact Wm1|exact HB1|exact K|reflexivity|exact E|exact HB'].
Qed.

(** Concatenation. *)
Lemma cat_append_counts : forall cf args ls w p B, wf_cfg cf -> c_ptr cf = true -> mem_wf (s_mem w) -> buf_at cf (s_mem w) p B -> Forall2 (inert cf (s_mem w) p B) args ls ->
  Zlen (bf_data B) + total ls <= bf_cap B -> sums_ok cf (Zlen (bf_data B) + total ls) -> counts 0 w (cat_append cf w p args).
Proof.
  intros cf args ls [m o] p B W Hc Wm HB Hf Ht Hs x w' E. cbn [s_mem s_orc] in *.
  pose proof (cat_append_twins cf args ls m p B o o W Hc Wm HB Hf Ht Hs) as HT. rewrite E in HT. cbn in HT. tauto.
Qed.
Lemma cat_counts : forall cf w p B args ls, wf_cfg cf -> c_ptr cf = true -> mem_wf (s_mem w) -> no_fail w ->
  buf_at cf (s_mem w) p B -> Forall2 (source cf (s_mem w) p B) args ls -> sums_ok cf (total ls) ->
  counts (one_if (dyn B && existsb (fun v => within cf p v B) args && fits B (concat ls)) + one_if (needs B (total ls))) w (strbuf_cat cf w (Some p) args).
Proof.
  intros cf w p B args ls W Hc Wm Nf HB Hf Hs. destruct (buf_at_cap _ _ _ _ HB) as [C F]. pose proof (Zlen_nonneg (bf_data B)) as Z1.
  pose proof (Zlen_nonneg (concat ls)) as Z2. fold (total ls) in Z2.
  unfold strbuf_cat. rewrite (on_buf_ok cf (s_mem w) p B) by auto. unfold buffer_vcat, fits. fold (total ls).
  destruct (Z.le_gt_cases (total ls) INT_MAX) as [Hle|Hgt].
  2:{ destruct Hs as [Hw|Hs]; [|destruct W as [W _]; lia].
      destruct (measure_over cf (s_mem w) p B args ls W Hc Hw Wm HB Hf 0 false false) as (n' & tmp' & ->); [unfold INT_MAX; lia|lia|]. cbn [bind].
      destruct (empty_buf_ok cf (s_mem w) p B W Wm HB) as (m2 & -> & M2 & M3 & M4 & _). cbn [bind with_mem s_mem]. rewrite (view_ok cf m2 p _ W M2). cbn [bind].
      unfold needs. rewrite (proj2 (Z.leb_gt (total ls) INT_MAX)) by lia. rewrite (proj2 (Z.leb_gt (total ls) (bf_cap B))) by lia.
      rewrite andb_false_r. destruct (dyn B); rewrite ?andb_false_r; cbn [andb one_if Nat.add]; repeat cstep. }
  rewrite (measure_ok cf (s_mem w) p B args ls W Hc Wm HB Hf 0 false false) by lia. cbn [bind orb]. rewrite Z.add_0_l.
  rewrite (buf_at_load cf (s_mem w) p B W HB). cbn [bind hdr_of h_alloc h_size]. change (is_dyn (bf_alloc B)) with (dyn B).
  unfold needs. rewrite (proj2 (Z.leb_le (total ls) INT_MAX)) by lia. rewrite andb_true_r.
  assert (forall k r, counts k w r -> counts k w (let! (v, p', w') := (let! (p', w') := r in let! v := strview_of_buf cf (s_mem w') p' in Ok (v, p', w')) in Ok (v, Some p', w'))) as Hend.
  { intros k r H. apply counts_then. { apply counts_then; [exact H|]. intros q w1. repeat cstep. } intros [v q] w1. repeat cstep. }
  apply Hend. clear Hend.
  destruct (existsb (fun v => within cf p v B) args) eqn:Ew; cbn [andb].
  - destruct (dyn B) eqn:D; cbn [andb negb one_if].
    + (* a temporary buffer *)
      destruct (create_buf_ok cf w (total ls) (bf_alloc B) W Wm Nf D ltac:(lia)) as (kb & w1 & Ec & Em & HIb & Wm1 & Nf1 & Ho1). rewrite Ec. cbn [bind].
      set (bb := length (s_mem w)) in *. set (pb := Ptr (PBlk bb) 0) in *. set (Bb := Buffer [] (total ls) (bf_alloc B)) in *.
      assert (nth_error (s_mem w1) bb = Some kb) as Hnb. { rewrite Em, nth_error_app2 by lia. unfold bb. now rewrite Nat.sub_diag. }
      assert (buf_at cf (s_mem w1) pb Bb) as HBb by (exists bb, kb; auto).
      assert (forall i, (i < bb)%nat -> nth_error (s_mem w1) i = nth_error (s_mem w) i) as Hold.
      { intros i Hi. rewrite Em. now rewrite nth_error_app1. }
      assert (length (s_mem w1) = S bb) as L1 by (rewrite Em, app_length; unfold bb; cbn; lia).
      rewrite (buf_at_load cf (s_mem w1) pb Bb W HBb). cbn [bind hdr_of h_cap Bb bf_cap]. rewrite Z.ltb_irrefl.
      destruct HB as (b & k & E1 & E2 & HI). pose proof (nth_error_lt _ _ _ E2) as Hlt. fold bb in Hlt.
      assert (buf_at cf (s_mem w1) p B) as HB1. { exists b, k. split; auto. split; auto. rewrite Hold; auto. }
      assert (Forall2 (inert cf (s_mem w1) pb Bb) args ls) as Hf1.
      { revert Hf. apply Forall2_impl. intros v l Hv.
        assert (buf_at cf (s_mem w) p B) as HB by (exists b, k; auto).
        destruct (source_addr _ _ _ _ _ _ HB Hv) as [a Ha].
        assert (exists a', addr (s_mem w1) (v_data v) = Some a') as Ha1. { apply (addr_grow (s_mem w) _ _ a); auto. rewrite L1. lia. }
        assert (forall b0 k0 l0, p_obj (v_data v) = PBlk b0 -> nth_error (s_mem w) b0 = Some k0 -> bytes_at (s_mem w) (v_data v) l0 ->
                 bytes_at (s_mem w1) (v_data v) l0 /\ outside cf pb Bb v l0) as Hmv.
        { intros b0 k0 l0 Eo K0 (k1 & A & A2). pose proof (nth_error_lt _ _ _ K0) as Lt0. fold bb in Lt0. rewrite Eo in A. cbn [access] in A. rewrite K0 in A. split.
          - exists k1. rewrite Eo. cbn [access]. rewrite Hold by auto. rewrite K0. auto.
          - split; eauto. left. rewrite Eo. cbn [pb p_obj]. intros X. injection X as ->. lia. }
        destruct (source_ok _ _ _ _ _ _ HB Hv) as [Fl Ll].
        inversion Hv as [X1 X2|v0 l0 HV HO X1 X2|x l0 y Hl X1 X2|q Hq X1 X2]; subst.
        - left. auto.
        - right. destruct HO as [(b0 & E0) _]. destruct (has_view_block _ _ _ _ HV E0) as (k0 & K0 & _). destruct HV as (HV & HV2).
          destruct (Hmv b0 k0 l E0 K0 HV). split; auto. split; auto.
        - right. pose proof (buf_at_bytes cf (s_mem w) p B W HB) as Hb. rewrite Hl in Hb. rewrite <- !app_assoc in Hb. apply bytes_at_sub in Hb.
          destruct (Hmv b k l ltac:(exact E1) E2 Hb). split; auto. split; auto.
        - left. auto. }
      assert (Zlen (bf_data Bb) + total ls <= bf_cap Bb) as Hr1. { cbn [Bb bf_data bf_cap]. rewrite Zlen_nil. lia. }
      assert (sums_ok cf (Zlen (bf_data Bb) + total ls)) as Hs1. { cbn [Bb bf_data]. rewrite Zlen_nil. exact Hs. }
      apply (counts_at_more 1 _ w w1); [exact Ho1|].
      pose proof (cat_append_counts cf args ls w1 pb Bb W Hc Wm1 HBb Hf1 Hr1 Hs1) as K2.
      destruct (append_all_ok cf args ls w1 pb Bb W Hc Wm1 Nf1 HBb Hf1 Hr1 Hs1) as (w2 & Ea & HBb2 & Ht2 & Wm2 & Nf2).
      specialize (K2 pb w2 Ea). rewrite Ea. cbn [bind]. apply (counts_at_more 0 _ w1 w2); [exact K2|].
      cbn [Bb bf_data bf_cap bf_alloc app] in HBb2. set (Bb2 := Buffer (concat ls) (total ls) (bf_alloc B)) in *.
      rewrite (view_ok cf (s_mem w2) pb Bb2 W HBb2). cbn [bind].
      pose proof Ht2 as (x1 & x2 & X1 & X2 & X3 & Lx & Lx' & X4 & X5 & X6 & X7 & X8). cbn [pb p_obj] in X1, X2. injection X1 as <-. injection X2 as <-.
      assert (buf_at cf (s_mem w2) p B) as HB2. { exists b, k. split; auto. split; auto. rewrite X5 by lia. now rewrite Hold. }
      apply counts_then.
      * unfold assign_strview_to_buf. destruct (empty_buf_ok cf (s_mem w2) p B W Wm2 HB2) as (m3 & -> & HB3 & Ht3 & Wm3 & _). cbn [bind].
        apply (counts_mem _ w2 m3).
        pose proof (insert_counts cf (with_mem w2 m3) p _ 0 (buf_view cf pb Bb2) (total ls) W HB3 eq_refl ltac:(lia)) as K.
        cbn [bf_data] in K. rewrite Zlen_nil, Z.add_0_l in K. specialize (K Hs). unfold needs in K. rewrite (proj2 (Z.leb_le (total ls) INT_MAX)) in K by lia.
        rewrite andb_true_r in K. cbn [bf_cap] in K. change (dyn (Buffer [] (bf_cap B) (bf_alloc B))) with (dyn B) in K. rewrite D in K. exact K.
      * intros p3 w3. destruct (destroy_buf cf w3 pb) as [w4| |] eqn:Ed; cbn [bind]; [|cstep|cstep].
        intros x w' E. injection E as <- <-. clear - Ed. unfold destroy_buf in Ed. destruct (load_hdr cf (s_mem w3) pb) as [h| |]; cbn [bind] in Ed; try discriminate.
        destruct (is_dyn (h_alloc h)); [|injection Ed as <-; reflexivity]. unfold alloc_call in Ed. cbn [Z.eqb] in Ed. destruct (is_null pb).
        -- cbn [bind] in Ed. injection Ed as <-. reflexivity.
        -- destruct (owned (s_mem w3) (h_alloc h) pb) as [[b0 k0]| |]; cbn [bind] in Ed; try discriminate. injection Ed as <-. reflexivity.
    + (* fixed buffer and an argument inside it *)
      unfold ensure. rewrite (buf_at_load cf (s_mem w) p B W HB). cbn [bind hdr_of h_alloc h_cap]. change (is_dyn (bf_alloc B)) with (dyn B). rewrite D. cbn [andb bind Nat.add].
      destruct (empty_buf_ok cf (s_mem w) p B W Wm HB) as (m2 & -> & M2 & M3 & M4 & _). cbn [bind].
      rewrite (buf_at_load cf m2 p _ W M2). cbn [bind hdr_of h_alloc bf_alloc]. change (is_dyn (bf_alloc B)) with (dyn B). rewrite D. cbn [orb andb negb]. cstep.
  - rewrite andb_false_r. cbn [andb one_if Nat.add].
    pose proof (ensure_counts cf w p B (total ls) W HB ltac:(lia) ltac:(auto)) as K.
    destruct (ensure_ok cf w p B (total ls) W Wm Nf HB ltac:(lia) ltac:(auto)) as (p1 & w1 & E & HB1 & Ht1 & Wm1 & Nf1 & _ & _).
    rewrite E. cbn [bind]. apply (counts_at _ w w1); [now apply (K p1 w1)|].
    destruct (empty_buf_ok cf (s_mem w1) p1 _ W Wm1 HB1) as (m2 & -> & HB2 & Ht2 & Wm2 & _). cbn [bind].
    rewrite (buf_at_load cf m2 p1 _ W HB2). cbn [bind hdr_of h_alloc h_cap bf_cap bf_alloc]. cbn [negb]. rewrite orb_true_r. cbn [andb].
    rewrite (grown_fits cf B (total ls) W) by lia. rewrite negb_involutive.
    set (B2 := Buffer [] (bf_cap (grown cf B (total ls))) (bf_alloc (grown cf B (total ls)))) in *.
    assert (touches cf (s_mem w) m2 p p1 B) as Ht12 by (eapply grown_touch; eauto).
    assert (dyn B = false -> bf_cap B2 = bf_cap B) as HC2. { intros D. unfold B2, grown. cbn [bf_cap]. now rewrite D. }
    rewrite (proj2 (Z.leb_le (total ls) INT_MAX)) by lia.
    destruct (if dyn B then true else total ls <=? bf_cap B) eqn:Ef; [|cstep].
    assert (Forall2 (inert cf m2 p1 B2) args ls) as Hf2.
    { assert (Forall (fun v => within cf p v B = false) args) as Hfa.
      { clear -Ew. induction args as [|v args IH]; constructor; cbn [existsb] in Ew; apply orb_false_iff in Ew as [E1 E2]; auto. }
      assert (dyn B2 = dyn B) as HD2 by reflexivity. clearbody B2.
      clear -Hf Hfa HB Ht12 HC2 HD2. induction Hf as [|v l args ls' Hv Hf IH]; constructor; inversion Hfa; subst.
      - refine (inert_move cf (s_mem w) m2 p p1 B B2 v l Ht12 HD2 HC2 _). apply source_inert; auto.
      - apply IH; auto. }
    apply (counts_mem 0 w1 m2). apply (cat_append_counts cf args ls (with_mem w1 m2) p1 B2 W Hc Wm2 HB2 Hf2).
    { cbn [B2 bf_data bf_cap]. rewrite Zlen_nil, Z.add_0_l. pose proof (grown_fits cf B (total ls) W ltac:(lia)) as G.
      rewrite (proj2 (Z.leb_le (total ls) INT_MAX)) in G by lia. rewrite Ef in G. cbn [negb] in G. apply Z.ltb_ge in G. exact G. }
    { cbn [B2 bf_data]. rewrite Zlen_nil. exact Hs. }
Qed.

(** Every API call. *)
Lemma call_counts : forall k w vars j r, counts k w r -> counts k w (call vars j r).
Proof. intros k w vars j r H. unfold call. apply counts_then; [exact H|]. intros [v [q|]] w1; cstep. Qed.
Lemma made_counts : forall k w vars j r, counts k w r -> counts k w (made vars j r).
Proof. intros k w vars j r H. unfold made. apply counts_then; [exact H|]. intros q w1. cstep. Qed.
Lemma free_counts : forall cf w a p, counts 0 w (alloc_call cf w a p 0).
Proof. intros. unfold alloc_call. cbn [Z.eqb]. repeat cstep. Qed.
Lemma create_counts : forall cf w c a, wf_cfg cf -> 0 <= c <= INT_MAX -> counts 1 w (create_buf cf w c a).
Proof.
  intros cf w c a W Hc. unfold create_buf. apply counts_then.
  - apply alloc_counts. rewrite alloc_size_ok by auto. pose proof (hdr_size_pos cf W). lia.
  - intros q w1. repeat cstep.
Qed.
Lemma resized_same : forall B d al, resized B (Buffer d (bf_cap B) al) = false.
Proof. intros. unfold resized. cbn [bf_cap]. now rewrite Z.eqb_refl. Qed.
Lemma insert_len : forall d i l, Zlen (insert d i l) = Zlen d + Zlen l.
Proof.
  intros d i l. unfold insert. set (n := Z.to_nat (position d i)). rewrite !Zlen_app. rewrite <- (firstn_skipn n d) at 3. rewrite Zlen_app. lia.
Qed.
Lemma splice_len : forall d i l, Zlen (splice d i l) = Zlen d + Zlen l.
Proof.
  intros d i l. unfold splice. set (n := Z.to_nat i). rewrite !Zlen_app. rewrite <- (firstn_skipn n d) at 3. rewrite Zlen_app. lia.
Qed.

Theorem step_counts : forall cf T a vars w o, wf_cfg cf -> c_ptr cf = true -> means cf T a vars w -> legal cf T a o ->
  counts (calls_of cf a o) w (exec cf vars w o).
Proof.
  intros cf T a vars w o W Hc M Hl. pose proof (mn_wf _ _ _ _ _ M) as Wm. pose proof (mn_fail _ _ _ _ _ M) as Nf.
  assert (forall j B, slot_of a j = ABuf B -> buf_at cf (s_mem w) (var vars j) B) as Hbuf.
  { intros j B Hj. pose proof (mn_slot _ _ _ _ _ M j (slot_in a j _ Hj ltac:(congruence))) as HB. rewrite Hj in HB. exact HB. }
  assert (forall j B s v, slot_of a j = ABuf B -> source cf (s_mem w) (var vars j) B v (text_of a s) -> sums_ok cf (Zlen (bf_data B) + Zlen (text_of a s)) ->
    forall i, counts (one_if (needs B (Zlen (bf_data B) + Zlen (text_of a s)))) w (let! (p', w') := insert_strview_into_buf cf w (var vars j) i v in ret_view cf (Some p') w')) as Hins.
  { intros j B s v Hj Hs Hsum i. apply ins_then. pose proof (source_ok _ _ _ _ _ _ (Hbuf j B Hj) Hs) as [_ Hx]. pose proof (Zlen_nonneg (text_of a s)).
    apply (insert_counts cf w (var vars j) B i v); auto; try lia. eapply source_len; eauto. }
  destruct o; cbn [legal] in Hl; try (destruct Hl as (B & Hj & HL); cbn [target] in Hj; pose proof (Hbuf _ _ Hj) as HB; destruct (buf_at_cap _ _ _ _ HB) as [C0 _];
    pose proof (Zlen_nonneg (bf_data B)) as Z0; assert (0 <= bf_cap B <= INT_MAX) as C by lia); cbn [calls_of target exec]; try rewrite Hj; cbn [buf_step buf_legal target] in *.
  - destruct HL as (L1 & L2). destruct (arg_ok cf T a vars w j B s W M Hj L1) as (v & -> & Ca). cbn [bind]. apply call_counts.
    rewrite put_resized, Zlen_app by auto. unfold strbuf_append_strview. rewrite (on_buf_ok cf (s_mem w) _ B), (buf_at_load cf _ _ _ W HB) by auto. cbn [bind].
    apply (Hins j B s v Hj); auto. eapply arg_source; eauto.
  - destruct HL as (L1 & L2). destruct (arg_ok cf T a vars w j B s W M Hj L1) as (v & -> & Ca). cbn [bind]. apply call_counts.
    rewrite put_resized, Zlen_app, Z.add_comm by auto. unfold strbuf_prepend_strview. rewrite (on_buf_ok cf (s_mem w) _ B) by auto.
    apply (Hins j B s v Hj); auto. eapply arg_source; eauto.
  - destruct HL as (L1 & L2 & L3). destruct (arg_ok cf T a vars w j B s W M Hj L1) as (v & -> & Ca). cbn [bind]. apply call_counts.
    rewrite put_resized, insert_len by auto. unfold strbuf_insert_at_index_strview. rewrite (on_buf_ok cf (s_mem w) _ B) by auto.
    apply (Hins j B s v Hj); auto. eapply arg_source; eauto.
  - (* before *) destruct HL as (L0 & L1 & L2). destruct (arg_ok cf T a vars w j B s W M Hj L1) as (v & -> & Ca).
    destruct (arg_ok cf T a vars w j B d W M Hj L0) as (dv & -> & Cd). cbn [bind]. apply call_counts. pose proof (arg_source _ _ _ _ _ _ _ _ W HB Ca) as Hs.
    destruct Cd as [(-> & _ & _ & ->)|[(V1 & V2 & _ & ->)|(_ & x & y & z & E1 & E2 & -> & _ & ->)]].
    + destruct (insert_before_out cf w (var vars j) B INVALID [] v W Hc Wm Nf HB ltac:(auto)) as [-> _]. unfold resized. rewrite Z.eqb_refl. cbn [negb one_if]. cstep.
    + destruct (insert_before_out cf w (var vars j) B dv _ v W Hc Wm Nf HB ltac:(eauto)) as [-> _]. unfold resized. rewrite Z.eqb_refl. cbn [negb one_if]. cstep.
    + rewrite put_resized, splice_len by auto. unfold strbuf_insert_before_strview. rewrite (on_buf_ok cf (s_mem w) _ B) by auto. cbn [v_data].
      rewrite (insert_at_ptr_in cf w (var vars j) B (Zlen x) v (text_of a s)) by (auto; rewrite E1; zl). now apply (Hins j B s v Hj).
  - (* after *) destruct HL as (L0 & L1 & L2). destruct (arg_ok cf T a vars w j B s W M Hj L1) as (v & -> & Ca).
    destruct (arg_ok cf T a vars w j B d W M Hj L0) as (dv & -> & Cd). cbn [bind]. apply call_counts. pose proof (arg_source _ _ _ _ _ _ _ _ W HB Ca) as Hs.
    destruct Cd as [(-> & _ & _ & ->)|[(V1 & V2 & _ & ->)|(_ & x & y & z & E1 & E2 & -> & _ & ->)]].
    + destruct (insert_before_out cf w (var vars j) B INVALID [] v W Hc Wm Nf HB ltac:(auto)) as [_ ->]. unfold resized. rewrite Z.eqb_refl. cbn [negb one_if]. cstep.
    + destruct (insert_before_out cf w (var vars j) B dv _ v W Hc Wm Nf HB ltac:(eauto)) as [_ ->]. unfold resized. rewrite Z.eqb_refl. cbn [negb one_if]. cstep.
    + rewrite put_resized, splice_len by auto. unfold strbuf_insert_after_strview. rewrite (on_buf_ok cf (s_mem w) _ B) by auto. cbn [v_data v_size].
      destruct (strview_is_valid _) eqn:Ev.
      2:{ exfalso. revert Ev. unfold strview_is_valid. cbn [v_data]. pose proof HB as (b & k & Eb & _). unfold is_null, chars_of. rewrite !shift_obj, Eb. discriminate. }
      assert (padd cf (s_mem w) (shift (chars_of cf (var vars j)) (Zlen x)) (Zlen y) = Ok (shift (chars_of cf (var vars j)) (Zlen x + Zlen y))) as ->.
      { clear Ev Hins Hbuf. pose proof HB as (b & k & F1 & F2 & HI). destruct (var vars j) as [po q]. cbn [p_obj p_ofs] in F1, HI. subst po. destruct HI as (L & O & _ & F & _).
        pose proof (hdr_size_pos cf W). unfold chars_of, shift. cbn [p_obj p_ofs]. rewrite (padd_in cf _ b _ k) by (auto; rewrite E1 in C0; zl). do 2 f_equal. lia. }
      cbn [bind]. rewrite (insert_at_ptr_in cf w (var vars j) B (Zlen x + Zlen y) v (text_of a s)) by (auto; rewrite E1; zl). now apply (Hins j B s v Hj).
  - (* assign *) destruct HL as (L1 & L2). destruct (arg_ok cf T a vars w j B s W M Hj L1) as (v & -> & Ca). cbn [bind]. apply call_counts. pose proof (arg_source _ _ _ _ _ _ _ _ W HB Ca) as Hs.
    rewrite put_resized by auto. pose proof (source_ok _ _ _ _ _ _ HB Hs) as [_ Hx]. pose proof (Zlen_nonneg (text_of a s)).
    apply (assign_counts cf w _ B v); auto; [eapply source_len; eauto|].
    intros Hv. destruct Ca as [(_ & -> & _)|[(V1 & _)|(_ & x & y & z & E1 & E2 & -> & _)]]; [reflexivity| |].
    + rewrite (has_view_valid _ _ _ V1) in Hv. discriminate.
    + exfalso. revert Hv. unfold strview_is_valid. cbn [v_data]. pose proof HB as (b & k & Eb & _). unfold is_null, chars_of. rewrite !shift_obj, Eb. discriminate.
  - (* cat *) destruct HL as (L1 & L2). destruct (args_ok cf T a vars w j B ss W M Hj L1) as (vs & -> & F & E). cbn [bind]. apply call_counts.
    pose proof (cat_counts cf w (var vars j) B vs (map (text_of a) ss) W Hc Wm Nf HB F L2) as K. rewrite E in K.
    assert (resized B (if negb (dyn B) && existsb (starts_in a j) ss then Buffer [] (bf_cap B) (bf_alloc B) else put cf B (concat (map (text_of a) ss))) = needs B (total (map (text_of a) ss))) as ->; [|exact K].
    destruct (negb (dyn B) && existsb (starts_in a j) ss) eqn:En; [|now apply put_resized]. rewrite resized_same. apply andb_true_iff in En as [En _]. apply negb_true_iff in En.
    unfold needs. now rewrite En.
  - destruct HL as (L1 & L2). apply call_counts. rewrite put_resized, Zlen_app by auto. unfold strbuf_append_char. rewrite (on_buf_ok cf (s_mem w) _ B) by auto. apply ins_then. now apply char_counts.
  - (* strip *) rewrite resized_same. cbn [one_if]. cstep; [|cstep|cstep]. apply call_counts. unfold strbuf_strip_strview. rewrite (on_buf_ok cf (s_mem w) _ B) by auto. repeat (cstep || apply ret_mem || apply ret_counts).
  - (* shrink *) apply call_counts. unfold strbuf_shrink. rewrite (on_buf_ok cf (s_mem w) _ B), (buf_at_load cf _ _ _ W HB) by auto. cbn [bind hdr_of h_alloc h_size]. change (is_dyn (bf_alloc B)) with (dyn B).
    apply ins_then. destruct (dyn B) eqn:D.
    + pose proof (change_counts cf w _ B (Zlen (bf_data B)) W HB ltac:(lia)) as K. rewrite D, Z.max_id in K. exact K.
    + unfold resized. rewrite Z.eqb_refl. cbn [negb one_if]. cstep.
  - (* grow *) apply call_counts. unfold strbuf_grow. rewrite (on_buf_ok cf (s_mem w) _ B), (buf_at_load cf _ _ _ W HB) by auto. cbn [bind hdr_of h_alloc h_size h_cap]. change (is_dyn (bf_alloc B)) with (dyn B).
    destruct (dyn B) eqn:D.
    + apply ins_then. unfold resized. cbn [bf_cap]. destruct (bf_cap B <? n) eqn:En.
      * apply Z.ltb_lt in En. pose proof (change_counts cf w _ B n W HB HL) as K. rewrite D in K. rewrite Z.max_l in K by lia. rewrite Z.max_r by lia. exact K.
      * apply Z.ltb_ge in En. rewrite Z.max_l, Z.eqb_refl by lia. cbn [negb one_if]. cstep.
    + unfold resized. rewrite Z.eqb_refl. cbn [negb one_if]. cstep.
  - (* printf *) destruct HL as (L1 & L2 & L3). apply call_counts. rewrite put_resized by auto. unfold strbuf_vprintf. rewrite (on_buf_ok cf (s_mem w) _ B) by auto.
    destruct (empty_buf_ok cf (s_mem w) _ B W Wm HB) as (m2 & -> & M2 & M3 & M4 & _). cbn [bind]. apply (counts_mem _ w m2).
    pose proof (printf_counts cf (with_mem w m2) _ _ l W M2 L2 L3) as K. cbn [bf_data] in K. rewrite Zlen_nil, Z.add_0_l in K. exact K.
  - destruct HL as (L1 & L2 & L3). apply call_counts. rewrite put_resized, Zlen_app by auto. now apply printf_counts.
  - (* prnf *) destruct HL as (L1 & L2 & L3). fold (growth cf B (put_all cf B l)). apply call_counts.
    destruct (prnf_ok cf w (var vars j) B l W Wm Nf HB L1 L2 L3) as (p' & w2 & E & HB' & _). intros x w' E'. assert (Some (x, w') = Some (buf_view cf p' (put_all cf B l), Some p', w2)) as X by congruence.
    injection X as -> ->. eapply (prnf_counts cf w (var vars j) B l); eauto. cbn [snd]. intros q Eq. injection Eq as <-. exact HB'.
  - destruct HL as (L1 & L2 & L3). fold (growth cf B (put_all cf B (bf_data B ++ l))). apply call_counts.
    destruct (append_prnf_ok cf w (var vars j) B l W Wm Nf HB L1 L2 L3) as (p' & w2 & E & HB' & _). intros x w' E'.
    assert (Some (x, w') = Some (buf_view cf p' (put_all cf B (bf_data B ++ l)), Some p', w2)) as X by congruence.
    injection X as -> ->. eapply (append_prnf_counts cf w (var vars j) B l); eauto. cbn [snd]. intros q Eq. injection Eq as <-. exact HB'.
  - (* using *) assert (resized B (if Zlen (bf_data B) + Zlen l <=? bf_cap B then Buffer (bf_data B ++ l) (bf_cap B) (bf_alloc B) else Buffer [] (bf_cap B) (bf_alloc B)) = false) as ->.
    { destruct (_ <=? _); apply resized_same. }
    cbn [one_if]. apply call_counts. unfold strbuf_append_using. rewrite (on_buf_ok cf (s_mem w) _ B) by auto. repeat (cstep || apply ret_mem).
  - (* view *) unfold resized. rewrite Z.eqb_refl. cbn [negb one_if]. repeat cstep.
  - (* create *) destruct Hl as (Hj & Lj & Da & Cc). apply made_counts. unfold strbuf_create_empty. rewrite Da, (proj2 (Z.leb_le cap INT_MAX)) by lia. cbn [andb]. now apply create_counts.
  - (* init *) destruct Hl as (Hj & Lj & Da & L1 & L2). destruct (arg_alone cf T a vars w s W M L1) as (v & -> & Ca). cbn [bind]. apply made_counts.
    unfold strbuf_create_init. rewrite Da. pose proof (Zlen_nonneg (text_of a s)) as Z1.
    assert (v_size v = Zlen (text_of a s) /\ Zlen (text_of a s) <= INT_MAX) as [Hsz Hmax].
    { destruct Ca as [[-> ->]|[(_ & E & E2 & _) _]]; auto. split; [reflexivity|]. now rewrite Zlen_nil. }
    rewrite Hsz. destruct (create_buf_ok cf w (Zlen (text_of a s)) a0 W Wm Nf Da ltac:(lia)) as (k & w' & E & Em & HI & Wm' & Nf' & Ho).
    rewrite E. cbn [bind]. apply (counts_at _ w w'); [exact Ho|].
    assert (buf_at cf (s_mem w') (Ptr (PBlk (length (s_mem w))) 0) (Buffer [] (Zlen (text_of a s)) a0)) as HB.
    { exists (length (s_mem w)), k. split; auto. split; auto. rewrite Em, nth_error_app2 by lia. now rewrite Nat.sub_diag. }
    pose proof (insert_counts cf w' _ _ 0 v (Zlen (text_of a s)) W HB Hsz ltac:(lia)) as K. cbn [bf_data] in K. rewrite Zlen_nil, Z.add_0_l in K. specialize (K L2).
    unfold needs in K. cbn [bf_cap] in K. rewrite Z.ltb_irrefl, andb_false_r in K. exact K.
  - (* destroy *) cbn [andb]. unfold strbuf_destroy. destruct (is_null (var vars j)); cbn [bind]; [cstep|].
    destruct (buf_is_dynamic cf (s_mem w) (var vars j)) as [[|]| |]; cbn [bind]; [|cstep|cstep|cstep].
    unfold destroy_buf. destruct (load_hdr cf (s_mem w) (var vars j)) as [h| |]; cbn [bind]; [|cstep|cstep]. destruct (is_dyn (h_alloc h)); cbn [bind]; [|cstep].
    pose proof (free_counts cf w (h_alloc h) (var vars j)) as K. destruct (alloc_call cf w (h_alloc h) (var vars j) 0) as [[q w1]| |]; cbn [bind]; [|cstep|cstep].
    apply (counts_at _ w w1); [now apply (K q w1)|]. cstep.
  - (* to_cstr *) unfold strbuf_to_cstr. rewrite (on_buf_ok cf (s_mem w) _ B), (buf_at_load cf _ _ _ W HB) by auto. cbn [bind hdr_of h_alloc h_size]. change (is_dyn (bf_alloc B)) with (dyn B). rewrite HL.
    destruct (memmove cf (s_mem w) (var vars j) (cstr_of cf (var vars j)) (Zlen (bf_data B))) as [m1| |]; cbn [bind]; [|cstep|cstep].
    assert ((Zlen (bf_data B) + 1) mod 2 ^ (8 * c_ptrbytes cf) <> 0) as Hn.
    { rewrite Z.mod_small; [lia|]. destruct W as [_ [E|E]]; rewrite E; unfold INT_MAX in *; [change (2 ^ (8 * 4)) with 4294967296|change (2 ^ (8 * 8)) with 18446744073709551616]; lia. }
    pose proof (alloc_counts cf (with_mem w m1) (bf_alloc B) (var vars j) _ Hn) as K.
    destruct (alloc_call cf (with_mem w m1) (bf_alloc B) (var vars j) _) as [[q w1]| |]; cbn [bind]; [|cstep|cstep].
    apply (counts_at _ w w1); [exact (K q w1 eq_refl)|]. destruct (padd cf (s_mem w1) q (Zlen (bf_data B))) as [q2| |]; cbn [bind]; [|cstep|cstep].
    destruct (store_byte (s_mem w1) q2 0) as [m2| |]; cbn [bind]; cstep.
  - (* free *) pose proof (free_counts cf w a0 (var vars j)) as K. apply counts_then; [exact K|]. intros q w1. cstep.
Qed.

Theorem run_counts : forall cf T prog a vars w, wf_cfg cf -> c_ptr cf = true -> means cf T a vars w -> all_legal cf T a prog ->
  exists vars' w', run cf vars w prog = Ok (fst (arun cf a prog), vars', w') /\ means cf T (snd (arun cf a prog)) vars' w' /\ asked w w' (all_calls cf a prog).
Proof.
  intros cf T prog a vars w W Hc M Hl.
  cut (exists vars' w', run cf vars w prog = Ok (fst (arun cf a prog), vars', w') /\ means cf T (snd (arun cf a prog)) vars' w' /\ s_orc w' = adv (all_calls cf a prog) (s_orc w)).
  { intros (vars' & w' & E & M' & H). exists vars', w'. split; auto. split; auto. intros n. rewrite H. apply adv_at. }
  revert a vars w M Hl. induction prog as [|o prog IH]; intros a vars w M Hl; cbn [run arun all_calls].
  - exists vars, w. auto.
  - destruct Hl as (L1 & L2). pose proof (step_counts cf T a vars w o W Hc M L1) as K.
    destruct (step_ok cf T a vars w o W Hc M L1) as (v & vars1 & w1 & E & R & M1 & _). specialize (K _ w1 E). rewrite E. cbn [bind]. rewrite R. cbn [bind].
    destruct (astep cf a o) as [x a1] eqn:Ea. cbn [fst snd] in *. destruct (IH a1 vars1 w1 M1 L2) as (vars2 & w2 & -> & M2 & K2). cbn [bind].
    destruct (arun cf a1 prog) as [xs a2]. cbn [fst snd] in *. exists vars2, w2. split; auto. split; auto. rewrite K2, K. apply adv_add.
Qed.

(** ** Bounds *)
Lemma in_steps_mono : forall s c d, 0 < s -> c <= d <= INT_MAX -> in_steps s c <= in_steps s d.
Proof.
  intros s c d Hs H. unfold in_steps. destruct (Z.eqb_spec c INT_MAX), (Z.eqb_spec d INT_MAX); subst; try lia; apply Z.div_le_mono; lia.
Qed.
Lemma rounded_in_steps : forall cf n c, wf_cfg cf -> 0 <= c < n -> n <= INT_MAX -> in_steps (c_step cf) (rounded cf n) - in_steps (c_step cf) c = Z.of_nat (steps (c_step cf) c (rounded cf n)) /\
  (1 <= steps (c_step cf) c (rounded cf n))%nat.
Proof.
  intros cf n c [W _] Hc Hn. unfold in_steps, steps, rounded. set (s := c_step cf) in *. rewrite (proj2 (Z.eqb_neq c INT_MAX)) by lia.
  pose proof (Z.div_mod (n + s - 1) s ltac:(lia)) as D. pose proof (Z.mod_pos_bound (n + s - 1) s ltac:(lia)) as M. set (q := (n + s - 1) / s) in *. set (r := (n + s - 1) mod s) in *.
  assert (c / s < q) as Hq. { apply Z.div_lt_upper_bound; nia. }
  assert ((Z.min INT_MAX (q * s) + s - 1) / s = q) as E.
  { symmetry. apply Z.div_unique with (r := Z.min INT_MAX (q * s) + s - 1 - s * q); nia. }
  destruct (Z.min INT_MAX (q * s) =? INT_MAX) eqn:Em.
  - apply Z.eqb_eq in Em. rewrite E. lia.
  - apply Z.eqb_neq in Em. rewrite E. assert (Z.min INT_MAX (q * s) = q * s) as -> by lia. rewrite Z.div_mul by lia. lia.
Qed.
Lemma needs_cap : forall cf B d, wf_cfg cf -> 0 <= bf_cap B <= INT_MAX -> Z.of_nat (one_if (resized B (put cf B d))) <= in_steps (c_step cf) (bf_cap (put cf B d)) - in_steps (c_step cf) (bf_cap B).
Proof.
  intros cf B d W C. rewrite put_resized by auto. pose proof (put_cap_mono cf B d W C) as Hm. destruct (needs B (Zlen d)) eqn:E; cbn [one_if].
  - unfold needs in E. apply andb_true_iff in E as [E E3]. apply andb_true_iff in E as [E1 E2]. apply Z.ltb_lt in E2. apply Z.leb_le in E3.
    unfold put, fits, grown. rewrite E1, (proj2 (Z.leb_le _ INT_MAX)) by lia. cbn [bf_cap andb]. rewrite (proj2 (Z.ltb_lt _ _)) by lia.
    destruct (rounded_in_steps cf (Zlen d) (bf_cap B) W ltac:(lia) E3) as [-> K]. lia.
  - pose proof (in_steps_mono (c_step cf) (bf_cap B) (bf_cap (put cf B d)) ltac:(destruct W; lia) Hm). lia.
Qed.
Lemma growth_cap : forall cf B d, wf_cfg cf -> 0 <= bf_cap B <= INT_MAX -> Z.of_nat (growth cf B (put_all cf B d)) = in_steps (c_step cf) (bf_cap (put_all cf B d)) - in_steps (c_step cf) (bf_cap B).
Proof.
  intros cf B d W C. unfold growth, resized. destruct (bf_cap (put_all cf B d) =? bf_cap B) eqn:E; cbn [negb].
  - apply Z.eqb_eq in E. rewrite E. lia.
  - apply Z.eqb_neq in E. unfold put_all in *. destruct (fits B d) eqn:F.
    + pose proof (put_resized cf B d W C) as R. unfold resized in R. rewrite (proj2 (Z.eqb_neq _ _) E) in R. cbn [negb] in R. symmetry in R. unfold needs in R.
      apply andb_true_iff in R as [R R3]. apply andb_true_iff in R as [R1 R2]. apply Z.ltb_lt in R2. apply Z.leb_le in R3.
      unfold put, grown. rewrite F, R1. cbn [bf_cap andb]. rewrite (proj2 (Z.ltb_lt _ _)) by lia.
      destruct (rounded_in_steps cf (Zlen d) (bf_cap B) W ltac:(lia) R3) as [-> _]. reflexivity.
    + cbn [bf_cap] in *. destruct (dyn B); [|congruence].
      assert (rounded cf INT_MAX = INT_MAX) as Hr. { pose proof (rounded_bounds cf INT_MAX W ltac:(unfold INT_MAX; lia)). lia. }
      destruct (rounded_in_steps cf INT_MAX (bf_cap B) W ltac:(lia) ltac:(lia)) as [K _]. rewrite Hr in K. lia.
Qed.

Lemma step_bound : forall cf a o B, wf_cfg cf -> keeps (target o) o -> slot_of a (target o) = ABuf B -> 0 <= bf_cap B <= INT_MAX ->
  (forall n, (exists j, o = OGrow j n) -> n <= INT_MAX) ->
  Z.of_nat (calls_of cf a o) <= in_steps (c_step cf) (bf_cap (buf_step cf a B o)) - in_steps (c_step cf) (bf_cap B) +
    (match o with OGrow _ _ => 1 | OCat j ss => if existsb (starts_in a j) ss then 1 else 0 | _ => 0 end).
Proof.
  intros cf a o B W [_ Hk] Hj C Hg. destruct o; cbn [target calls_of] in *; try contradiction; rewrite Hj; cbn [buf_step];
    try (rewrite Z.add_0_r; now apply needs_cap); try (rewrite resized_same; cbn [one_if bf_cap]; lia);
    try (match goal with |- context [steps _ _ (bf_cap (put_all cf B ?d))] => fold (growth cf B (put_all cf B d)) end; rewrite growth_cap by auto; lia).
  - destruct (place_of a j d) as [[x y]|]; [rewrite Z.add_0_r; now apply needs_cap|]. unfold resized. rewrite Z.eqb_refl. cbn. lia.
  - destruct (place_of a j d) as [[x y]|]; [rewrite Z.add_0_r; now apply needs_cap|]. unfold resized. rewrite Z.eqb_refl. cbn. lia.
  - set (t := concat (map (text_of a) ss)). destruct (existsb (starts_in a j) ss).
    + pose proof (needs_cap cf B t W C) as K. destruct (dyn B); cbn [andb negb].
      * destruct (fits B t); cbn [one_if]; lia.
      * rewrite resized_same. cbn [one_if bf_cap]. lia.
    + rewrite !andb_false_r. cbn [andb one_if Nat.add]. rewrite Z.add_0_r. now apply needs_cap.
  - pose proof (Hg n ltac:(eauto)). assert (bf_cap B <= bf_cap (if dyn B then Buffer (bf_data B) (Z.max (bf_cap B) n) (bf_alloc B) else B) <= INT_MAX) as Hm.
    { destruct (dyn B); cbn [bf_cap]; lia. }
    pose proof (in_steps_mono (c_step cf) _ _ ltac:(destruct W; lia) Hm). destruct (resized B _); cbn [one_if]; lia.
  - destruct (_ <=? _); rewrite resized_same; cbn [one_if bf_cap]; lia.
  - unfold resized. rewrite Z.eqb_refl. cbn. lia.
Qed.
Lemma keeps_slot : forall cf a o B j, keeps j o -> slot_of a j = ABuf B -> slot_of (snd (astep cf a o)) j = ABuf (buf_step cf a B o).
Proof.
  intros cf a o B j [<- Hk] Hj. rewrite (astep_buf cf a o B Hj) by (destruct o; tauto). cbn [snd]. unfold slot_of.
  apply nth_upd_eq. eapply slot_in; eauto. congruence.
Qed.
Theorem bounded_calls : forall cf T prog a vars w j B, wf_cfg cf -> c_ptr cf = true -> means cf T a vars w -> all_legal cf T a prog -> Forall (keeps j) prog -> slot_of a j = ABuf B ->
  exists B', slot_of (snd (arun cf a prog)) j = ABuf B' /\
    Z.of_nat (all_calls cf a prog) <= in_steps (c_step cf) (bf_cap B') - in_steps (c_step cf) (bf_cap B) + extras cf a prog.
Proof.
  intros cf T prog. induction prog as [|o prog IH]; intros a vars w j B W Hc M Hl Hk Hj; cbn [arun all_calls extras snd].
  - exists B. split; auto. lia.
  - destruct Hl as (L1 & L2). inversion Hk as [|? ? K1 K2]; subst.
    destruct (step_ok cf T a vars w o W Hc M L1) as (v & vars1 & w1 & E & R & M1 & _).
    pose proof (keeps_slot cf a o B j K1 Hj) as Hj1. destruct (IH _ _ _ j _ W Hc M1 L2 K2 Hj1) as (B' & H1 & H2).
    pose proof (mn_slot _ _ _ _ _ M j (slot_in a j _ Hj ltac:(congruence))) as HB. rewrite Hj in HB. cbn [slot_rel] in HB. destruct (buf_at_cap _ _ _ _ HB) as [C _]. pose proof (Zlen_nonneg (bf_data B)).
    destruct K1 as [<- K1]. pose proof (step_bound cf a o B W (conj eq_refl K1) Hj ltac:(lia)) as Hb.
    assert (forall n, (exists j, o = OGrow j n) -> n <= INT_MAX) as Hg. { intros n (j & ->). cbn [legal buf_legal] in L1. destruct L1 as (B0 & _ & X). exact X. }
    specialize (Hb Hg). exists B'. destruct (astep cf a o) as [x a1]. cbn [snd] in *. destruct (arun cf a1 prog) as [xs a2]. cbn [snd] in *. split; auto. lia.
Qed.

(** Characters one at a time. *)
Lemma chars_calls : forall cf j l a B, wf_cfg cf -> slot_of a j = ABuf B -> dyn B = true -> Zlen (bf_data B) <= bf_cap B <= INT_MAX -> Zlen (bf_data B) + Zlen l <= INT_MAX ->
  all_calls cf a (map (OChar j) l) = growth cf B (put cf B (bf_data B ++ l)).
Proof.
  intros cf j l. induction l as [|c l IH]; intros a B W Hj D C Hl; cbn [map all_calls].
  - rewrite app_nil_r. rewrite put_same by lia. unfold growth, resized. now rewrite Z.eqb_refl.
  - rewrite Zlen_cons in Hl. pose proof (Zlen_nonneg l) as Zl. pose proof (Zlen_nonneg (bf_data B)) as Zb. set (B1 := put cf B (bf_data B ++ [c])).
    assert (slot_of (snd (astep cf a (OChar j c))) j = ABuf B1) as Hj1. { apply (keeps_slot cf a (OChar j c) B j); auto. split; [reflexivity|exact I]. }
    assert (fits B (bf_data B ++ [c]) = true) as F1. { unfold fits. rewrite D, Zlen_app. change (Zlen [c]) with 1. apply Z.leb_le. lia. }
    assert (bf_data B1 = bf_data B ++ [c]) as Ed by (unfold B1, put; now rewrite F1).
    pose proof (put_cap_mono cf B (bf_data B ++ [c]) W ltac:(lia)) as Hm. fold B1 in Hm.
    assert (Zlen (bf_data B1) <= bf_cap B1) as C1.
    { rewrite Ed. unfold B1, put. rewrite F1. cbn [bf_cap]. rewrite Zlen_app. change (Zlen [c]) with 1. unfold grown. rewrite D. cbn [bf_cap andb].
      destruct (bf_cap B <? Zlen (bf_data B) + 1) eqn:E; [|apply Z.ltb_ge in E; lia]. apply rounded_bounds; auto. lia. }
    assert (dyn B1 = true) as D1 by (unfold B1; now rewrite StrbufProofs7.put_dyn).
    rewrite (IH _ B1 W Hj1 D1) by (rewrite ?Ed, ?Zlen_app; change (Zlen [c]) with 1; rewrite ?Ed, ?Zlen_app in C1; change (Zlen [c]) with 1 in C1; lia).
    assert (put cf B1 (bf_data B1 ++ l) = put cf B (bf_data B ++ c :: l)) as ->.
    { rewrite Ed, <- app_assoc. cbn [app]. unfold B1. pose proof (put_put cf B (bf_data B ++ [c]) (bf_data B ++ c :: l) W ltac:(lia) F1) as X.
      assert (Zlen (bf_data B ++ [c]) <= Zlen (bf_data B ++ c :: l)) as Y by (rewrite !Zlen_app, !Zlen_cons, Zlen_nil; lia).
      rewrite (X Y). unfold fits at 1. rewrite D, Zlen_app, Zlen_cons. now rewrite (proj2 (Z.leb_le _ _)) by lia. }
    cbn [calls_of target]. rewrite Hj. cbn [buf_step]. fold B1. set (B2 := put cf B (bf_data B ++ c :: l)).
    pose proof (put_cap_mono cf B (bf_data B ++ c :: l) W ltac:(lia)) as Hm2. fold B2 in Hm2.
    pose proof (put_resized cf B (bf_data B ++ [c]) W ltac:(lia)) as R. rewrite Zlen_app in R. change (Zlen [c]) with 1 in R. fold B1 in R.
    destruct (resized B B1) eqn:R1; cbn [one_if].
    + symmetry in R. unfold needs in R. apply andb_true_iff in R as [R R3]. apply andb_true_iff in R as [R R2]. apply Z.ltb_lt in R2. apply Z.leb_le in R3.
      assert (Zlen (bf_data B) = bf_cap B) as Ec by lia.
      assert (bf_cap B1 = rounded cf (bf_cap B + 1)) as E1.
      { unfold B1, put, fits, grown. rewrite R, Zlen_app, Ec. change (Zlen [c]) with 1. rewrite (proj2 (Z.leb_le (bf_cap B + 1) INT_MAX)) by lia. cbn [bf_cap andb].
        now rewrite (proj2 (Z.ltb_lt (bf_cap B) (bf_cap B + 1))) by lia. }
      assert (bf_cap B2 = rounded cf (bf_cap B + (Zlen l + 1))) as E2.
      { unfold B2, put, fits, grown. rewrite R, Zlen_app, Zlen_cons, Ec. rewrite (proj2 (Z.leb_le _ INT_MAX)) by lia. cbn [bf_cap andb].
        rewrite (proj2 (Z.ltb_lt (bf_cap B) _)) by lia. reflexivity. }
      assert (bf_cap B1 <= bf_cap B2) as H12. { rewrite E1, E2. unfold rounded. apply Z.min_le_compat_l. apply Z.mul_le_mono_nonneg_r; [destruct W; lia|]. apply Z.div_le_mono; [destruct W; lia|lia]. }
      pose proof (rounded_bounds cf (bf_cap B + 1) W ltac:(lia)) as Rb.
      unfold growth. assert (resized B B2 = true) as ->. { unfold resized. rewrite (proj2 (Z.eqb_neq _ _)) by lia. reflexivity. }
      unfold resized. destruct (bf_cap B2 =? bf_cap B1) eqn:E3; cbn [negb].
      * apply Z.eqb_eq in E3. rewrite E3, E1. now rewrite steps_one by (auto; lia).
      * apply Z.eqb_neq in E3. rewrite E1 in *. rewrite (steps_more cf (bf_cap B)) by (auto; lia). reflexivity.
    + unfold resized in R1. apply negb_false_iff, Z.eqb_eq in R1. cbn [Nat.add]. unfold growth, resized. now rewrite R1.
Qed.
Lemma chars_from_empty : forall cf j l a al, wf_cfg cf -> slot_of a j = ABuf (Buffer [] 0 al) -> is_dyn al = true -> Zlen l <= INT_MAX ->
  Z.of_nat (all_calls cf a (map (OChar j) l)) = (Zlen l + c_step cf - 1) / c_step cf.
Proof.
  intros cf j l a al W Hj D Hl. pose proof (Zlen_nonneg l) as Zl.
  rewrite (chars_calls cf j l a (Buffer [] 0 al) W Hj D); cbn [bf_data bf_cap]; rewrite ?Zlen_nil; try (unfold INT_MAX in *; lia).
  cbn [app]. set (B := Buffer [] 0 al). assert (put_all cf B l = put cf B l) as Hp. { unfold put_all, fits. change (dyn B) with (is_dyn al). rewrite D. now rewrite (proj2 (Z.leb_le _ _)) by lia. }
  rewrite <- Hp. rewrite growth_cap by (auto; cbn; unfold INT_MAX; lia). rewrite Hp. change (bf_cap B) with 0. change (in_steps (c_step cf) 0) with (0 / c_step cf). rewrite Z.div_0_l by (destruct W; lia).
  unfold put, fits, grown. change (dyn B) with (is_dyn al). rewrite D, (proj2 (Z.leb_le _ INT_MAX)) by lia. cbn [bf_cap andb]. change (bf_cap B) with 0.
  destruct (Z.eq_dec (Zlen l) 0) as [E|E].
  - rewrite E. cbn [Z.ltb Z.compare]. change (in_steps (c_step cf) 0) with (0 / c_step cf). destruct W as [W _]. rewrite Z.div_0_l by lia. symmetry. rewrite Z.div_small; lia.
  - rewrite (proj2 (Z.ltb_lt _ _)) by lia. destruct (rounded_in_steps cf (Zlen l) 0 W ltac:(lia) Hl) as [K1 K2]. change (in_steps (c_step cf) 0) with (0 / c_step cf) in K1.
    rewrite Z.div_0_l in K1 by (destruct W; lia). rewrite K1. unfold steps, rounded in *. destruct W as [W _]. set (s := c_step cf) in *.
    rewrite Z.div_0_l in * by lia. pose proof (Z.div_mod (Zlen l + s - 1) s ltac:(lia)) as Dm. pose proof (Z.mod_pos_bound (Zlen l + s - 1) s ltac:(lia)) as M. set (q := (Zlen l + s - 1) / s) in *.
    assert ((Z.min INT_MAX (q * s) + s - 1) / s = q) as Eq; [|lia].
    symmetry. apply Z.div_unique with (r := Z.min INT_MAX (q * s) + s - 1 - s * q); nia.
Qed.
Lemma chars_legal : forall cf T j l a B, slot_of a j = ABuf B -> Forall is_byte l -> sums_ok cf (Zlen (bf_data B) + Zlen l) -> all_legal cf T a (map (OChar j) l).
Proof.
  intros cf T j l. induction l as [|c l IH]; intros a B Hj Fb Hs; cbn [map all_legal]; [exact I|]. inversion Fb; subst. rewrite Zlen_cons in Hs. pose proof (Zlen_nonneg l). split.
  - exists B. cbn [target]. split; auto. split; auto. destruct Hs as [Hs|Hs]; [now left|right; lia].
  - assert (slot_of (snd (astep cf a (OChar j c))) j = ABuf (put cf B (bf_data B ++ [c]))) as Hj1. { apply (keeps_slot cf a (OChar j c) B j); auto. split; [reflexivity|exact I]. }
    apply (IH _ _ Hj1); auto. unfold put. pose proof (Zlen_nonneg (bf_data B)). destruct (fits B _); cbn [bf_data]; [rewrite Zlen_app; change (Zlen [c]) with 1|rewrite Zlen_nil];
      (destruct Hs as [Hs|Hs]; [now left|right; lia]).
Qed.
Lemma few_calls : forall cf a o, match o with OPrnf _ _ | OAppendPrnf _ _ => False | _ => True end -> (calls_of cf a o <= match o with OCat _ _ => 2 | _ => 1 end)%nat.
Proof.
  intros cf a o H. destruct o; try contradiction; cbn [calls_of]; try lia; destruct (slot_of a _); try lia; cbv zeta;
    repeat match goal with |- context[one_if ?b] => destruct b; cbn [one_if] end; lia.
Qed.
