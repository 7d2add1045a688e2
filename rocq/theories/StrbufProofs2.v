(** Allocation: creating, resizing and freeing buffers. *)
From Verif Require Import Base Mem Libc StrviewModel Spec MemLemmas Alloc StrbufModel BufSpec StrbufProofs.

(** ** mem_wf *)
Definition apart (k1 k2 : block) : Prop :=
  b_base k1 + b_size k1 <= b_base k2 \/ b_base k2 + b_size k2 <= b_base k1.

Lemma mem_wf_upd : forall m b k k', mem_wf m -> nth_error m b = Some k -> shape k k' -> mem_wf (upd m b k').
Proof.
  intros m b k k' [W1 W2] Hn (S1 & S2 & S3 & S4).
  assert (forall i ki, nth_error (upd m b k') i = Some ki -> exists kj, nth_error m i = Some kj /\ shape kj ki) as K.
  { intros i ki H. destruct (Nat.eq_dec i b) as [->|Ne].
    - rewrite (nth_upd m b k k' Hn) in H. injection H as <-. exists k. repeat split; auto.
    - rewrite nth_error_upd_neq in H by auto. exists ki. split; auto. apply shape_refl. }
  split.
  - intros i ki H L. destruct (K i ki H) as (kj & H1 & T1 & T2 & T3 & _). rewrite T1, T2. apply (W1 i kj); congruence.
  - intros i j ki kj H1 H2 L1 L2 Ne. destruct (K i ki H1) as (ki' & A1 & A2 & A3 & A4 & _).
    destruct (K j kj H2) as (kj' & B1 & B2 & B3 & B4 & _). rewrite A2, A3, B2, B3. apply (W2 i j); auto; congruence.
Qed.

Lemma nth_error_snoc : forall {A} (m : list A) x i y, nth_error (m ++ [x]) i = Some y ->
  nth_error m i = Some y \/ (i = length m /\ y = x).
Proof.
  intros A m x i y H. destruct (Nat.lt_ge_cases i (length m)) as [L|L].
  - rewrite nth_error_app1 in H by auto. auto.
  - rewrite nth_error_app2 in H by auto. destruct (i - length m)%nat as [|[|j]] eqn:E; cbn in H; try discriminate.
    right. split; [lia|congruence].
Qed.

Lemma upd_snoc : forall {A} (m : list A) x y, upd (m ++ [x]) (length m) y = m ++ [y].
Proof. induction m as [|z m IH]; intros x y; cbn [app length upd]; auto. now rewrite IH. Qed.

Lemma mem_wf_snoc : forall m k, mem_wf m -> 0 < b_base k -> 0 <= b_size k ->
  (forall i ki, nth_error m i = Some ki -> b_live ki = true -> apart ki k) -> mem_wf (m ++ [k]).
Proof.
  intros m k [W1 W2] Hb Hs Ha. split.
  - intros i ki H L. apply nth_error_snoc in H as [H|[_ ->]]; eauto.
  - intros i j ki kj H1 H2 L1 L2 Ne. apply nth_error_snoc in H1 as [H1|[-> ->]]; apply nth_error_snoc in H2 as [H2|[-> ->]].
    + eauto.
    + apply (Ha i); auto.
    + destruct (Ha j kj H2 L2); auto.
    + congruence.
Qed.

Lemma kill_at_some : forall m b k, nth_error m b = Some k -> kill_at m b = upd m b (kill k).
Proof. intros m b k H. unfold kill_at. now rewrite H. Qed.

Lemma mem_wf_kill : forall m b, mem_wf m -> mem_wf (kill_at m b).
Proof.
  intros m b [W1 W2]. unfold kill_at. destruct (nth_error m b) as [k|] eqn:Hn; [|split; auto].
  assert (forall i ki, nth_error (upd m b (kill k)) i = Some ki -> b_live ki = true -> nth_error m i = Some ki) as K.
  { intros i ki H L. destruct (Nat.eq_dec i b) as [->|Ne].
    - rewrite (nth_upd m b k _ Hn) in H. injection H as <-. discriminate L.
    - now rewrite nth_error_upd_neq in H by auto. }
  split; eauto.
Qed.

(** ** Placement *)
Lemma top_ge : forall m k, In k m -> b_base k + b_size k <= top m.
Proof.
  induction m as [|a m IH]; intros k H; [destruct H|]. cbn [top fold_right]. unfold top in IH. destruct H as [->|H]; [lia|].
  specialize (IH k H). lia.
Qed.
Lemma top_nonneg : forall m, 0 <= top m.
Proof. induction m as [|a m IH]; cbn; [lia|]. unfold top in IH. lia. Qed.

Lemma place_spec : forall cf m c n, wf_cfg cf ->
  0 < place cf m c n /\ place cf m c n mod c_ptrbytes cf = 0 /\
  forall k, In k m -> b_live k = true -> place cf m c n + n <= b_base k \/ b_base k + b_size k <= place cf m c n.
Proof.
  intros cf m c n W. assert (0 < c_ptrbytes cf) as Hp by (destruct W as [_ [E|E]]; lia).
  unfold place. destruct (place_ok cf m (ch_base c) n) eqn:E.
  - unfold place_ok in E. apply andb_true_iff in E as [E E3]. apply andb_true_iff in E as [E1 E2].
    apply Z.ltb_lt in E1. apply Z.eqb_eq in E2. split; auto. split; auto. intros k Hk L. rewrite forallb_forall in E3.
    specialize (E3 k Hk). rewrite L in E3. cbn in E3. apply orb_true_iff in E3 as [E3|E3]; apply Z.leb_le in E3; auto.
  - unfold fresh_base. pose proof (top_nonneg m) as Ht. pose proof (Z.div_mod (top m) (c_ptrbytes cf) ltac:(lia)).
    pose proof (Z.mod_pos_bound (top m) (c_ptrbytes cf) ltac:(lia)).
    assert (0 <= top m / c_ptrbytes cf) by (apply Z.div_pos; lia).
    split; [nia|]. split; [apply Z.mod_mul; lia|]. intros k Hk _. right. pose proof (top_ge m k Hk). nia.
Qed.

Lemma place_ok_spec : forall cf m base n, place_ok cf m base n = true ->
  0 < base /\ forall k, In k m -> b_live k = true -> base + n <= b_base k \/ b_base k + b_size k <= base.
Proof.
  intros cf m base n E. unfold place_ok in E. apply andb_true_iff in E as [E E3]. apply andb_true_iff in E as [E1 E2].
  apply Z.ltb_lt in E1. split; auto. intros k Hk L. rewrite forallb_forall in E3.
  specialize (E3 k Hk). rewrite L in E3. cbn in E3. apply orb_true_iff in E3 as [E3|E3]; apply Z.leb_le in E3; auto.
Qed.

Lemma alloc_size_ok : forall cf c, wf_cfg cf -> 0 <= c <= INT_MAX -> alloc_size cf c = hdr_size cf + c + 1.
Proof.
  intros cf c W Hc. pose proof (hdr_size_pos cf W). unfold alloc_size. apply Z.mod_small.
  destruct W as [_ [E|E]]; rewrite E; unfold INT_MAX in *; [change (2 ^ (8 * 4)) with 4294967296|change (2 ^ (8 * 8)) with 18446744073709551616]; lia.
Qed.

(** ** Buffers as blocks *)
Lemma buf_in_holder : forall cf m b k o B, wf_cfg cf -> nth_error m b = Some k -> buf_in cf k o B -> holder cf m b o k.
Proof.
  intros cf m b k o B W Hn (L & O & Al & F & _ & _ & _ & _ & C & _). pose proof (Zlen_nonneg (bf_data B)). constructor; auto; lia.
Qed.
Lemma buf_in_hdr : forall cf k o B, buf_in cf k o B -> hdr_at cf k o (hdr_of B).
Proof. intros cf k o B (L & O & Al & F & H & _). exact H. Qed.

Lemma buf_at_load : forall cf m p B, wf_cfg cf -> buf_at cf m p B -> load_hdr cf m p = Ok (hdr_of B).
Proof.
  intros cf m [po o] B W (b & k & E1 & E2 & E3). cbn [p_obj p_ofs] in *. subst po.
  eapply load_hdr_ok; eauto using buf_in_holder, buf_in_hdr.
Qed.
Lemma buf_at_nonnull : forall cf m p B, buf_at cf m p B -> is_null p = false.
Proof. intros cf m p B (b & k & E & _). unfold is_null. now rewrite E. Qed.
Lemma buf_at_cap : forall cf m p B, buf_at cf m p B -> Zlen (bf_data B) <= bf_cap B <= INT_MAX /\ Forall is_byte (bf_data B).
Proof. intros cf m p B (b & k & _ & _ & H). unfold buf_in in H. tauto. Qed.

(** The contents are readable as a view and as a C string. *)
Lemma buf_at_bytes : forall cf m p B, wf_cfg cf -> buf_at cf m p B -> bytes_at m (chars_of cf p) (bf_data B ++ [0]).
Proof.
  intros cf m p B W (b & k & E1 & E2 & L & O & Al & F & H & D & T & By & C & _). pose proof (hdr_size_pos cf W).
  exists k. unfold chars_of. rewrite shift_obj, shift_ofs, E1. split; [now apply access_ok|].
  rewrite Zlen_app. change (Zlen [0]) with 1. pose proof (Zlen_nonneg (bf_data B)). split; [lia|]. split; [lia|].
  intros i Hi. change (nth (Z.to_nat i) (bf_data B ++ [0]) 0) with (zn (bf_data B ++ [0]) i). rewrite zn_app by lia.
  destruct (i <? Zlen (bf_data B)) eqn:Ei; [apply Z.ltb_lt in Ei|apply Z.ltb_ge in Ei].
  - rewrite D by lia. reflexivity.
  - replace i with (Zlen (bf_data B)) by lia. rewrite T. rewrite Z.sub_diag. reflexivity.
Qed.
Lemma buf_at_view : forall cf m p B, wf_cfg cf -> buf_at cf m p B -> has_view m (buf_view cf p B) (bf_data B).
Proof.
  intros cf m p B W H. pose proof (buf_at_bytes cf m p B W H) as HB. destruct (buf_at_cap _ _ _ _ H) as [C F].
  apply bytes_at_app in HB as [HB _]. repeat split; auto. lia.
Qed.

(** ** touches *)
Lemma touches_refl : forall cf m p B, buf_at cf m p B -> touches cf m m p p B.
Proof.
  intros cf m p B (b & k & E & Hn & _). pose proof (nth_error_lt _ _ _ Hn). exists b, b. do 7 (split; auto). split.
  - intros i ki Hi _ H'. apply nth_error_lt in H'. lia.
  - split; auto. intros _. split; auto. split; auto. intros k0 H0. exists k0. auto 10.
Qed.

Lemma frame_trans : forall m1 m2 m3 b lo hi, frame m1 m2 b lo hi -> frame m2 m3 b lo hi -> frame m1 m3 b lo hi.
Proof.
  intros m1 m2 m3 b lo hi (A1 & A2 & A3) (B1 & B2 & B3). split; [congruence|]. split.
  - intros b' Hb. rewrite B2, A2; auto.
  - intros k Hk. destruct (A3 k Hk) as (k2 & K1 & K2 & K3 & K4 & K5 & K6).
    destruct (B3 k2 K1) as (k3 & L1 & L2 & L3 & L4 & L5 & L6). exists k3. split; auto.
    repeat (split; [congruence|]). intros i Hi. rewrite L6, K6; auto.
Qed.

Lemma touches_trans : forall cf m1 m2 m3 p1 p2 p3 B1 B2,
  dyn B2 = dyn B1 -> (dyn B1 = false -> bf_cap B2 = bf_cap B1) ->
  touches cf m1 m2 p1 p2 B1 -> touches cf m2 m3 p2 p3 B2 -> touches cf m1 m3 p1 p3 B1.
Proof.
  intros cf m1 m2 m3 p1 p2 p3 B1 B2 Hd Hc (b & b1 & A1 & A2 & A3 & La & La' & A4 & A5 & A6 & A7 & A8)
    (b1' & b2 & C1 & C2 & C3 & Lc & Lc' & C4 & C5 & C6 & C7 & C8).
  rewrite A2 in C1. injection C1 as <-. rewrite Hd in *.
  exists b, b2. split; auto. split; auto. split; [congruence|]. split; auto. split; auto. split; [lia|]. split; [|split; [|split]].
  - intros i Hi Hl. assert (i <> b1) by (destruct A7 as [A7|(_ & A7 & _)]; [congruence|lia]).
    rewrite C5, A5; auto. lia.
  - intros i k Hi Ne H. destruct (Nat.eq_dec i b1) as [->|Ne1].
    + destruct C7 as [C7|(_ & _ & C7)]; [congruence|eauto].
    + destruct (Nat.lt_ge_cases i (length m2)) as [L|L].
      * rewrite C5 in H by auto. eapply A6; eauto.
      * eapply C6; eauto.
  - destruct A7 as [->|(D & A7 & A7')].
    + destruct C7 as [->|(D & C7 & C7')]; auto. right. split; auto. split; [lia|auto].
    + right. split; auto. assert (b <> b1) by lia. split.
      * destruct C7 as [->|(_ & C7 & _)]; lia.
      * intros k H0. rewrite C5 in H0 by (auto; lia). eauto.
  - intros D. destruct A7 as [->|(D' & _)]; [|congruence].
    eapply frame_trans; [now apply A8|]. specialize (C8 D). unfold buf_end in *. rewrite A3, (Hc D) in C8. exact C8.
Qed.

(** Changing cells of the block of the buffer only. *)
Lemma touches_upd : forall cf m b o k k' B, nth_error m b = Some k -> shape k k' ->
  (dyn B = false -> forall i, ~ (o <= i < o + hdr_size cf + bf_cap B + 1) -> b_get k' i = b_get k i) ->
  touches cf m (upd m b k') (Ptr (PBlk b) o) (Ptr (PBlk b) o) B.
Proof.
  intros cf m b o k k' B Hn (S1 & S2 & S3 & S4) Hf. pose proof (nth_error_lt _ _ _ Hn).
  exists b, b. rewrite upd_len. do 6 (split; auto). split; [|split; [|split]].
  - intros i Ne _. now apply nth_error_upd_neq.
  - intros i ki Hi Ne H'. apply nth_error_lt in H'. rewrite upd_len in H'. lia.
  - auto.
  - intros D. split; [apply upd_len|]. split; [intros i Ne; now apply nth_error_upd_neq|].
    intros k0 H0. exists k'. rewrite H0 in Hn. injection Hn as <-. split; [eapply nth_upd; eauto|].
    do 4 (split; auto).
Qed.

(** Views outside of the buffer are unchanged. *)
Lemma touches_bytes : forall cf m m' p p' B q l, touches cf m m' p p' B -> bytes_at m q l ->
  (p_obj q <> p_obj p \/ (dyn B = false /\ (p_ofs q + Zlen l <= p_ofs p \/ buf_end cf p B <= p_ofs q))) -> bytes_at m' q l.
Proof.
  intros cf m m' p p' B q l (b & b' & A1 & A2 & A3 & La & La' & A4 & A5 & A6 & A7 & A8) (k & Ak & K1 & K2 & K3) Ho.
  destruct (p_obj q) as [|c|lit] eqn:Eq; cbn [access] in Ak.
  - discriminate.
  - destruct (nth_error m c) as [kc|] eqn:Ec; [|discriminate]. destruct (b_live kc) eqn:El; [|discriminate].
    injection Ak as ->. pose proof (nth_error_lt _ _ _ Ec). destruct (Nat.eq_dec c b) as [->|Ne].
    + destruct Ho as [Ho|[D Ho]]; [congruence|]. destruct (A8 D) as (_ & _ & F). destruct (F k Ec) as (k' & F1 & F2 & F3 & F4 & F5 & F6).
      exists k'. rewrite Eq. cbn [access]. rewrite F1, F4, El. split; auto. split; auto. split; [lia|].
      intros i Hi. rewrite F6; auto. lia.
    + exists k. rewrite Eq. cbn [access]. rewrite A5 by auto. rewrite Ec, El. auto.
  - exists k. rewrite Eq. auto.
Qed.

(** ** The cells of a new or copied buffer block *)
Lemma create_buf_ok : forall cf w cap a, wf_cfg cf -> mem_wf (s_mem w) -> no_fail w -> is_dyn a = true -> 0 <= cap <= INT_MAX ->
  exists k w', create_buf cf w cap a = Ok (Ptr (PBlk (length (s_mem w))) 0, w') /\
    s_mem w' = s_mem w ++ [k] /\ buf_in cf k 0 (Buffer [] cap a) /\ mem_wf (s_mem w') /\ no_fail w' /\ s_orc w' = next_orc (s_orc w).
Proof.
  intros cf w cap a W Wm Nf Hd Hc. pose proof (hdr_size_pos cf W) as Hp. unfold create_buf.
  rewrite alloc_size_ok by auto. unfold alloc_call. cbn [is_null null p_obj p_ofs Z.eqb].
  rewrite (proj2 (Z.eqb_neq (hdr_size cf + cap + 1) 0)) by lia. rewrite (Nf O). cbn [bind s_mem].
  destruct (place_spec cf (s_mem w) (s_orc w O) (hdr_size cf + cap + 1) W) as (P1 & P2 & P3).
  set (base := place cf (s_mem w) (s_orc w O) (hdr_size cf + cap + 1)) in *.
  set (m := s_mem w) in *. set (k0 := new_block a base (hdr_size cf + cap + 1) (fun _ => CUndef)).
  set (b := length m).
  assert (nth_error (m ++ [k0]) b = Some k0) as Hn.
  { unfold b. rewrite nth_error_app2 by lia. now rewrite Nat.sub_diag. }
  assert (holder cf (m ++ [k0]) b 0 k0) as Hh.
  { constructor; auto; cbn [k0 new_block b_live b_base b_size]; try lia. now rewrite Z.add_0_r. }
  destruct (store_hdr_sets cf (m ++ [k0]) b 0 k0 (Hdr 0 cap a) Hh) as (k1 & E1 & (S1 & S2 & S3 & S4) & G1).
  rewrite E1. cbn [bind].
  assert (nth_error (upd (m ++ [k0]) b k1) b = Some k1) as Hn1 by (eapply nth_upd; eauto).
  destruct (set_char_sets cf (upd (m ++ [k0]) b k1) b 0 k1 0 0 Hn1) as (k2 & E2 & (T1 & T2 & T3 & T4) & G2).
  { rewrite S3. reflexivity. }
  { rewrite S2. cbn [k0 new_block b_size]. lia. }
  rewrite E2. cbn [bind]. rewrite upd_upd.
  assert (upd (m ++ [k0]) b k2 = m ++ [k2]) as Eu by apply upd_snoc.
  exists k2. eexists. split; [reflexivity|]. unfold with_mem. cbn [s_mem s_orc]. rewrite Eu. split; [reflexivity|].
  split; [|split; [|split]].
  - cbn [buf_in]. unfold buf_in. cbn [bf_cap bf_data bf_alloc]. change (Zlen (@nil Z)) with 0.
    rewrite T1, T2, T3, T4, S1, S2, S3, S4. cbn [k0 new_block b_base b_size b_live b_owner].
    split; auto. split; [lia|]. split; [now rewrite Z.add_0_r|]. split; [lia|]. split; [|split; [|split; [|split; [|split]]]].
    + intros i Hi. rewrite G2. unfold inr. rewrite (proj2 (Z.leb_gt (0 + hdr_size cf + 0) (0 + i))) by lia. cbn [andb].
      rewrite G1. unfold inr. rewrite (proj2 (Z.leb_le 0 (0 + i))), (proj2 (Z.ltb_lt (0 + i) (0 + hdr_size cf))) by lia. cbn [andb].
      unfold hdr_of. cbn [bf_data bf_cap bf_alloc]. f_equal. lia.
    + intros i Hi. lia.
    + rewrite G2. unfold inr. rewrite (proj2 (Z.leb_le _ _)), (proj2 (Z.ltb_lt _ _)) by lia. reflexivity.
    + constructor.
    + lia.
    + intros _. split; auto.
  - apply mem_wf_snoc; auto.
    + rewrite T1, S1. exact P1.
    + rewrite T2, S2. cbn [k0 new_block b_size]. lia.
    + intros i ki Hi Li. unfold apart. rewrite T1, T2, S1, S2. cbn [k0 new_block b_size b_base].
      destruct (P3 ki (nth_error_In _ _ Hi) Li); auto.
  - intros n. apply (Nf (S n)).
  - reflexivity.
Qed.

(** A block holding a buffer with another capacity and the right size. *)
Lemma buf_recap : forall cf k k' B n, wf_cfg cf -> buf_in cf k 0 B -> dyn B = true -> Zlen (bf_data B) <= n <= INT_MAX ->
  b_live k' = true -> b_owner k' = Heap (bf_alloc B) -> b_size k' = hdr_size cf + n + 1 -> b_base k' mod c_ptrbytes cf = 0 ->
  (forall i, b_get k' i = if inr 0 (hdr_size cf) i then CHdr (Hdr (Zlen (bf_data B)) n (bf_alloc B)) i
                          else if i <? b_size k then b_get k i else CUndef) ->
  buf_in cf k' 0 (Buffer (bf_data B) n (bf_alloc B)).
Proof.
  intros cf k k' B n W (L & O & Al & F & H & D & T & By & C & Dy) Hd Hn L' O' S' A' G. pose proof (hdr_size_pos cf W) as Hp.
  pose proof (Zlen_nonneg (bf_data B)) as Hl. destruct (Dy Hd) as (_ & _ & Sz).
  unfold buf_in. cbn [bf_data bf_cap bf_alloc]. split; auto. split; [lia|]. split; [now rewrite Z.add_0_r|]. split; [lia|].
  split; [|split; [|split; [|split; [|split]]]]; auto.
  - intros i Hi. rewrite G. unfold inr. rewrite (proj2 (Z.leb_le 0 _)), (proj2 (Z.ltb_lt _ (0 + hdr_size cf))) by lia. cbn [andb].
    unfold hdr_of. cbn [bf_data bf_cap bf_alloc]. f_equal.
  - intros i Hi. rewrite G. unfold inr. rewrite (proj2 (Z.ltb_ge _ (0 + hdr_size cf))) by lia. rewrite andb_false_r.
    rewrite (proj2 (Z.ltb_lt _ (b_size k))) by lia. now rewrite D.
  - rewrite G. unfold inr. rewrite (proj2 (Z.ltb_ge _ (0 + hdr_size cf))) by lia. rewrite andb_false_r.
    rewrite (proj2 (Z.ltb_lt _ (b_size k))) by lia. exact T.
Qed.

Lemma kill_at_neq : forall m b i, i <> b -> nth_error (kill_at m b) i = nth_error m i.
Proof. intros m b i H. unfold kill_at. destruct (nth_error m b); auto. now apply nth_error_upd_neq. Qed.
Lemma kill_at_len : forall m b, length (kill_at m b) = length m.
Proof. intros m b. unfold kill_at. destruct (nth_error m b); auto. apply upd_len. Qed.

Lemma mem_wf_replace : forall m b k k', mem_wf m -> nth_error m b = Some k -> 0 < b_base k' -> 0 <= b_size k' ->
  (forall i ki, i <> b -> nth_error m i = Some ki -> b_live ki = true -> apart ki k') -> mem_wf (upd m b k').
Proof.
  intros m b k k' [W1 W2] Hn Hb Hs Ha. split.
  - intros i ki H L. destruct (Nat.eq_dec i b) as [->|Ne].
    + rewrite (nth_upd m b k k' Hn) in H. injection H as <-. auto.
    + rewrite nth_error_upd_neq in H by auto. eauto.
  - intros i j ki kj H1 H2 L1 L2 Ne.
    destruct (Nat.eq_dec i b) as [->|Ni]; destruct (Nat.eq_dec j b) as [->|Nj]; [congruence| | |].
    + rewrite (nth_upd m b k k' Hn) in H1. injection H1 as <-. rewrite nth_error_upd_neq in H2 by auto.
      destruct (Ha j kj Nj H2 L2); auto.
    + rewrite (nth_upd m b k k' Hn) in H2. injection H2 as <-. rewrite nth_error_upd_neq in H1 by auto.
      destruct (Ha i ki Ni H1 L1); auto.
    + rewrite nth_error_upd_neq in H1, H2 by auto. eauto.
Qed.

(** Resizing a dynamic buffer. *)
Lemma change_cap_ok : forall cf w p B n, wf_cfg cf -> mem_wf (s_mem w) -> no_fail w -> buf_at cf (s_mem w) p B ->
  dyn B = true -> n <= INT_MAX ->
  exists p' w', change_buf_capacity cf w p n = Ok (p', w') /\
    buf_at cf (s_mem w') p' (Buffer (bf_data B) (Z.max n (Zlen (bf_data B))) (bf_alloc B)) /\
    touches cf (s_mem w) (s_mem w') p p' B /\ mem_wf (s_mem w') /\ no_fail w' /\
    (p' = p \/ peq (s_mem w') p' p = false).
Proof.
  intros cf w p B n W Wm Nf HB Hd Hn. pose proof (hdr_size_pos cf W) as Hp. unfold change_buf_capacity.
  rewrite (buf_at_load cf (s_mem w) p B W HB). cbn [bind hdr_of h_alloc h_size h_cap].
  change (is_dyn (bf_alloc B)) with (dyn B). rewrite Hd.
  replace (if n <? Zlen (bf_data B) then Zlen (bf_data B) else n) with (Z.max n (Zlen (bf_data B)))
    by (destruct (n <? Zlen (bf_data B)) eqn:E; [apply Z.ltb_lt in E|apply Z.ltb_ge in E]; lia).
  destruct (buf_at_cap _ _ _ _ HB) as [C F]. pose proof (Zlen_nonneg (bf_data B)) as Hl.
  set (N := Z.max n (Zlen (bf_data B))). assert (Zlen (bf_data B) <= N <= INT_MAX) as HN by (unfold N; lia). clearbody N.
  destruct (N =? bf_cap B) eqn:EN.
  { apply Z.eqb_eq in EN. exists p, w. split; auto. split; [|split; [|auto]].
    - rewrite EN. destruct B; exact HB.
    - now apply touches_refl. }
  rewrite alloc_size_ok by (auto; lia).
  pose proof HB as HB'. destruct HB as (b & k & E1 & E2 & HI). pose proof HI as (L & Op & Al & Fi & H & D & T & By & _ & Dy).
  destruct (Dy Hd) as (O0 & Ow & Sz). destruct p as [po o]. cbn [p_obj p_ofs] in *. subst po o.
  unfold alloc_call. cbn [is_null p_obj]. unfold owned. cbn [p_obj p_ofs]. rewrite E2, L, Ow, alloc_eqb_refl. cbn [Z.eqb andb bind].
  rewrite (proj2 (Z.eqb_neq (hdr_size cf + N + 1) 0)) by lia. rewrite (Nf O).
  set (m := s_mem w) in *. pose proof (nth_error_lt _ _ _ E2) as Hlt.
  rewrite Z.add_0_r in Al.
  destruct (negb (ch_move (s_orc w 0)) && place_ok cf (kill_at m b) (b_base k) (hdr_size cf + N + 1)) eqn:Em.
  - (* in place *)
    apply andb_true_iff in Em as [_ Ep]. apply place_ok_spec in Ep as [Pb Pd]. cbn [bind s_mem].
    set (k1 := resize k (hdr_size cf + N + 1)).
    assert (nth_error (upd m b k1) b = Some k1) as Hn1 by (eapply nth_upd; eauto).
    assert (holder cf (upd m b k1) b 0 k1) as Hh.
    { constructor; auto; cbn [k1 resize b_base b_size]; try lia. now rewrite Z.add_0_r. }
    destruct (set_cap_sets cf (upd m b k1) b 0 k1 (Zlen (bf_data B)) (bf_cap B) (bf_alloc B) N W Hh) as (k2 & E3 & (S1 & S2 & S3 & S4) & G2).
    { intros i Hi. cbn [k1 resize b_get]. rewrite (proj2 (Z.ltb_lt (0 + i) (b_size k))) by lia. now apply H. }
    rewrite E3. cbn [bind]. rewrite upd_upd. exists (Ptr (PBlk b) 0). eexists. split; [reflexivity|].
    cbn [with_mem s_mem s_orc].
    assert (mem_wf (upd m b k2)) as Wm2.
    { apply (mem_wf_replace m b k); auto.
      - rewrite S1. exact Pb.
      - rewrite S2. cbn [k1 resize b_size]. lia.
      - intros i ki Ne Hi Li. unfold apart. rewrite S1, S2. cbn [k1 resize b_base b_size].
        rewrite <- (kill_at_neq m b i Ne) in Hi. destruct (Pd ki (nth_error_In _ _ Hi) Li); auto. }
    split; [|split; [|split; [|split]]]; auto.
    + exists b, k2. split; auto. split; [eapply nth_upd; eauto|]. refine (buf_recap cf k k2 B N W HI Hd HN _ _ _ _ _).
      * rewrite S3. exact L.
      * rewrite S4. exact Ow.
      * rewrite S2. reflexivity.
      * rewrite S1. exact Al.
      * intros i. rewrite G2. rewrite Z.sub_0_r. reflexivity.
    + exists b, b. rewrite upd_len. do 6 (split; auto). split; [|split; [|split]].
      * intros i Ne _. now apply nth_error_upd_neq.
      * intros i ki Hi Ne H'. apply nth_error_lt in H'. rewrite upd_len in H'. lia.
      * auto.
      * congruence.
    + intros j. apply (Nf (S j)).
  - (* moved *)
    clear Em. cbn [bind s_mem].
    destruct (place_spec cf m (s_orc w O) (hdr_size cf + N + 1) W) as (P1 & P2 & P3).
    set (base := place cf m (s_orc w O) (hdr_size cf + N + 1)) in *.
    set (k1 := new_block (bf_alloc B) base (hdr_size cf + N + 1) (fun i => if i <? b_size k then b_get k i else CUndef)).
    set (m1 := kill_at m b ++ [k1]).
    assert (length (kill_at m b) = length m) as Lk by apply kill_at_len.
    assert (nth_error m1 (length m) = Some k1) as Hn1.
    { unfold m1. rewrite nth_error_app2 by lia. now rewrite Lk, Nat.sub_diag. }
    assert (holder cf m1 (length m) 0 k1) as Hh.
    { constructor; auto; cbn [k1 new_block b_base b_size]; try lia. now rewrite Z.add_0_r. }
    destruct (set_cap_sets cf m1 (length m) 0 k1 (Zlen (bf_data B)) (bf_cap B) (bf_alloc B) N W Hh) as (k2 & E3 & (S1 & S2 & S3 & S4) & G2).
    { intros i Hi. cbn [k1 new_block b_get]. rewrite (proj2 (Z.ltb_lt (0 + i) (b_size k))) by lia. now apply H. }
    rewrite E3. cbn [bind]. eexists. eexists. split; [reflexivity|]. cbn [with_mem s_mem s_orc].
    assert (upd m1 (length m) k2 = kill_at m b ++ [k2]) as Eu.
    { unfold m1. rewrite <- Lk. apply upd_snoc. }
    rewrite Eu.
    assert (nth_error (kill_at m b ++ [k2]) (length m) = Some k2) as Hn2.
    { rewrite nth_error_app2 by lia. now rewrite Lk, Nat.sub_diag. }
    assert (nth_error (kill_at m b ++ [k2]) b = Some (kill k)) as Hnb.
    { rewrite nth_error_app1 by lia. rewrite (kill_at_some m b k E2). eapply nth_upd; eauto. }
    split; [|split; [|split; [|split]]]; auto.
    + exists (length m), k2. split; auto. split; auto. refine (buf_recap cf k k2 B N W HI Hd HN _ _ _ _ _).
      * rewrite S3. reflexivity.
      * rewrite S4. reflexivity.
      * rewrite S2. reflexivity.
      * rewrite S1. exact P2.
      * intros i. rewrite G2. rewrite Z.sub_0_r. reflexivity.
    + exists b, (length m). split; auto. split; auto. split; auto. split; auto. split; [rewrite app_length; cbn [length]; lia|].
      split; [rewrite app_length; lia|]. split; [|split; [|split]].
      * intros i Ne Hi. rewrite nth_error_app1 by lia. now apply kill_at_neq.
      * intros i ki Hi Ne H'. apply nth_error_lt in H'. rewrite app_length in H'. cbn [length] in H'. lia.
      * right. split; auto. split; [lia|]. intros k0 H0. rewrite Hnb in H0. injection H0 as <-. reflexivity.
      * congruence.
    + apply mem_wf_snoc.
      * now apply mem_wf_kill.
      * rewrite S1. exact P1.
      * rewrite S2. cbn [k1 new_block b_size]. lia.
      * intros i ki Hi Li. unfold apart. rewrite S1, S2. cbn [k1 new_block b_base b_size].
        destruct (Nat.eq_dec i b) as [->|Ne].
        -- rewrite (kill_at_some m b k E2) in Hi. rewrite (nth_upd m b k _ E2) in Hi. injection Hi as <-. discriminate Li.
        -- rewrite kill_at_neq in Hi by auto. destruct (P3 ki (nth_error_In _ _ Hi) Li); auto.
    + intros j. apply (Nf (S j)).
    + right. unfold peq. cbn [p_obj p_ofs pobj_eqb]. rewrite (proj2 (Nat.eqb_neq (length m) b)) by lia.
      cbn [addr p_obj p_ofs]. unfold addr. cbn [p_obj p_ofs]. rewrite Hn2, Hnb. cbn [kill b_base]. rewrite S1. cbn [k1 new_block b_base].
      apply Z.eqb_neq. destruct (P3 k (nth_error_In _ _ E2) L); lia.
Qed.

Lemma grown_dyn : forall cf B n, dyn (grown cf B n) = dyn B. Proof. reflexivity. Qed.

Lemma ensure_ok : forall cf w p B n, wf_cfg cf -> mem_wf (s_mem w) -> no_fail w -> buf_at cf (s_mem w) p B ->
  0 <= n <= INT_MAX -> (dyn B = true -> bf_cap B < n -> sums_ok cf n) ->
  exists p' w', ensure cf w p n = Ok (p', w') /\
    buf_at cf (s_mem w') p' (grown cf B n) /\
    touches cf (s_mem w) (s_mem w') p p' B /\ mem_wf (s_mem w') /\ no_fail w' /\
    (p' = p \/ peq (s_mem w') p' p = false) /\ (dyn B = false \/ n <= bf_cap B -> p' = p /\ w' = w).
Proof.
  intros cf w p B n W Wm Nf HB Hn Hs. unfold ensure. rewrite (buf_at_load cf (s_mem w) p B W HB). cbn [bind hdr_of h_alloc h_cap].
  change (is_dyn (bf_alloc B)) with (dyn B). destruct (buf_at_cap _ _ _ _ HB) as [C F]. unfold grown.
  destruct (dyn B && (bf_cap B <? n)) eqn:E.
  - apply andb_true_iff in E as [Hd E]. apply Z.ltb_lt in E. rewrite round_up_ok by auto. cbn [bind].
    pose proof (rounded_bounds cf n W Hn) as R.
    destruct (change_cap_ok cf w p B (rounded cf n) W Wm Nf HB Hd ltac:(lia)) as (p' & w' & A1 & A2 & A3 & A4 & A5 & A6).
    rewrite Z.max_l in A2 by lia. exists p', w'. do 6 (split; auto). intros [X|X]; [congruence|lia].
  - exists p, w. split; auto. split; [destruct B; exact HB|]. split; [now apply touches_refl|]. auto 10.
Qed.
