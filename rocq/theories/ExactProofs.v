(** Proofs that the cases excluded by the partial theorems about views fail in every instance. *)
From Verif Require Import Base Mem Libc StrviewModel Spec MemLemmas StrviewProofs StrviewProofs2 StrviewProofs3.

Lemma padd_before : forall cf m p l i, bytes_at m p l -> c_ptr cf = false -> p_ofs p + i < 0 -> padd cf m p i = UB UB_ptr.
Proof.
  intros cf m p l i (blk & Ha & _) C Hi. unfold padd. rewrite C.
  destruct (p_obj p) eqn:E; [cbn in Ha; discriminate| |]; rewrite Ha; cbn [bind]; unfold in_block;
    rewrite (proj2 (Z.leb_gt _ _)) by lia; reflexivity.
Qed.

(** ** find_last *)
Lemma find_last_loop_ub : forall cf comp f m hay needle hl nl, c_ptr cf = false -> p_ofs (v_data hay) = 0 ->
  comp_ok f comp -> has_view m hay hl -> has_view m needle nl -> (forall j, ~ occurs (map f hl) (map f nl) j) ->
  forall k fuel, (Z.of_nat (S k) + Zlen nl <= Zlen hl + 1) -> (S k < fuel)%nat ->
  find_last_loop cf fuel m comp hay needle (shift (v_data hay) (Z.of_nat (S k) - 1)) false = UB UB_ptr.
Proof.
  intros cf comp f m hay needle hl nl Hcp H0 Hc Hh Hn Hno.
  pose proof Hh as (Hhb & Hhs & Hhm & Hhf). pose proof Hn as (Hnb & Hns & Hnm & Hnf).
  assert (forall q, Z.of_nat q + Zlen nl <= Zlen hl ->
    exists r, comp m (shift (v_data hay) (Z.of_nat q)) (v_data needle) (Zlen nl) = Ok r /\ r <> 0) as Step.
  { intros q Hq. set (a := firstn q hl). set (rest := skipn q hl).
    assert (hl = a ++ rest) as E by (symmetry; apply firstn_skipn).
    assert (length a = q) as Hla by (unfold a; rewrite firstn_length; unfold Zlen in Hq; lia).
    assert (length nl <= length rest)%nat as Hle by (unfold rest; rewrite skipn_length; unfold Zlen in Hq; lia).
    destruct (Hc m (shift (v_data hay) (Z.of_nat q)) (v_data needle) (firstn (length nl) rest) nl) as (r & Hr & Hr0); auto.
    { rewrite <- Hla. apply (bytes_at_sub m (v_data hay) a _ (skipn (length nl) rest)). rewrite firstn_skipn, <- E. exact Hhb. }
    { rewrite firstn_length. lia. }
    replace (Zlen (firstn (length nl) rest)) with (Zlen nl) in Hr by (unfold Zlen; rewrite firstn_length; lia).
    exists r. split; auto. intros X. apply (Hno q). rewrite E. rewrite <- Hla at 1. apply occurs_map_app. split; auto. now apply Hr0. }
  induction k as [|k IH]; intros fuel Hk Hfu; (destruct fuel as [|fuel]; [lia|]); cbn [find_last_loop]; rewrite ple_shift;
    rewrite (proj2 (Z.leb_le _ _)) by lia; cbn [andb negb bind].
  - destruct (Step 0%nat ltac:(lia)) as (r & Hr & Nr). replace (Z.of_nat 1 - 1) with (Z.of_nat 0) by lia. rewrite Hns, Hr. cbn [bind].
    rewrite (proj2 (Z.eqb_neq r 0)) by auto. change (Z.of_nat 0) with 0. rewrite shift_0. rewrite (padd_before cf m _ hl) by (auto; lia). reflexivity.
  - destruct (Step (S k) ltac:(lia)) as (r & Hr & Nr). replace (Z.of_nat (S (S k)) - 1) with (Z.of_nat (S k)) by lia. rewrite Hns, Hr. cbn [bind].
    rewrite (proj2 (Z.eqb_neq r 0)) by auto. rewrite (padd_ok_shift cf m _ hl) by (auto; unfold Zlen in *; lia). cbn [bind].
    replace (Z.of_nat (S k) + -1) with (Z.of_nat (S k) - 1) by lia. apply IH; lia.
Qed.

Lemma find_last_ub : forall cf comp f m hay needle hl nl, c_ptr cf = false -> comp_ok f comp -> has_view m hay hl -> has_view m needle nl ->
  (p_ofs (v_data hay) = 0 /\ forall j, ~ occurs (map f hl) (map f nl) j) \/ p_ofs (v_data hay) < Zlen nl - Zlen hl ->
  find_last cf m comp hay needle = UB UB_ptr.
Proof.
  intros cf comp f m hay needle hl nl Hcp Hc Hh Hn H. unfold find_last.
  pose proof Hh as (Hhb & Hhs & Hhm & Hhf). pose proof Hn as (Hnb & Hns & Hnm & Hnf). rewrite Hhs, Hns.
  destruct (Z_lt_ge_dec (p_ofs (v_data hay)) (Zlen nl - Zlen hl)) as [L|L].
  { rewrite (padd_before cf m _ hl) by (auto; lia). reflexivity. }
  destruct H as [[H0 Hno]|H]; [|lia].
  rewrite (padd_ok cf m _ hl) by (auto; pose proof (Zlen_nonneg nl); lia). cbn [bind].
  erewrite !has_view_nonnull by eauto. cbn [negb andb]. rewrite Zlen_to_nat.
  replace (Zlen hl - Zlen nl) with (Z.of_nat (S (length hl - length nl)) - 1) by (unfold Zlen in *; lia).
  rewrite (find_last_loop_ub cf comp f m hay needle hl nl); auto; unfold Zlen in *; lia.
Qed.

(** ** split_last_delim *)
Lemma split_last_ub : forall cf m s delims l dl exq, c_ptr cf = false -> has_view m s l -> has_view m delims dl -> l <> [] ->
  p_ofs (v_data s) = 0 -> split_last_delim cf m s delims exq = UB UB_ptr.
Proof.
  intros cf m s delims l dl exq C H Hd Hl H0. pose proof H as (HB & HS & HM & HF).
  unfold split_last_delim. erewrite !has_view_nonnull by eauto. cbn [negb andb]. rewrite HS.
  assert (0 < Zlen l) by (destruct l; [congruence|rewrite Zlen_cons; pose proof (Zlen_nonneg l); lia]).
  rewrite (proj2 (Z.eqb_neq _ _)) by lia. cbn [negb andb]. rewrite (padd_ok cf m _ l) by (auto; lia). cbn [bind split_last_loop].
  rewrite (padd_before cf m _ l) by (auto; lia). reflexivity.
Qed.

(** ** dequote *)
Lemma dequote_equal_ends : forall cf m v l, has_view m v l -> 1 < Zlen l -> hd 0 l = last l 0 ->
  exists k r, 0 < k /\ strview_dequote cf m v = Ok (subview v k (Zlen r)) /\ has_view m (subview v k (Zlen r)) r /\ Zlen r + 2 * k = Zlen l.
Proof.
  intros cf m v l Hv Hl Hh. destruct (dequote_ok cf m v l Hv) as (q & k & r & E & K0 & _ & D & V).
  exists (Z.of_nat k), r. assert (k <> O) as Nk by (intros ->; destruct (K0 eq_refl); [lia|auto]).
  split; [lia|]. split; auto. split; auto. rewrite E, !Zlen_app. unfold Zlen. rewrite !repeat_length. lia.
Qed.

(** ** split_line *)
Lemma split_line_pending : forall cf m s l e, has_view m s l -> pend_ok e -> e <> 0 -> hd 0 l = other_eol e -> next_line e l = None ->
  exists s', strview_split_line cf m (Some s) (Some e) = Ok (INVALID, Some s', Some e) /\ has_view m s' (tl l).
Proof.
  intros cf m s l e Hv Hp Ne Hh Hn. destruct l as [|x l]; [cbn in Hh; destruct Hp as [-> | [-> | ->]]; cbn in Hh; congruence|].
  pose proof (split_line_ok cf m s (x :: l) (Some e) e Hv ltac:(discriminate) eq_refl Hp) as K. rewrite Hn in K.
  destruct K as (s' & E & V & _). exists s'. split; auto. cbn [hd] in Hh. subst x. unfold drop_half in V.
  cbn [tl]. destruct Hp as [-> | [-> | ->]]; [congruence| |]; exact V.
Qed.

(** ** Views that end with their object *)
Lemma load_bytes_short : forall m b n l p, bytes_at m p l -> access m (p_obj p) = Ok b -> b_size b = p_ofs p + Zlen l ->
  (length l < n)%nat -> load_bytes m p n = UB UB_bounds.
Proof.
  intros m b. induction n as [|n IH]; intros l p Hl Ha Hs Hn; [lia|]. cbn [load_bytes]. destruct l as [|x l].
  - unfold load_byte, load_cell. rewrite Ha. cbn [bind]. unfold in_block. change (Zlen (@nil Z)) with 0 in Hs.
    replace (p_ofs p + 1 <=? b_size b) with false by (symmetry; apply Z.leb_gt; lia). rewrite andb_false_r. reflexivity.
  - apply bytes_at_cons in Hl as [H1 H2]. rewrite H1. cbn [bind]. rewrite (IH l (shift p 1)); auto.
    + rewrite Zlen_cons in Hs. cbn [shift p_ofs]. lia.
    + cbn [length] in Hn. lia.
Qed.
