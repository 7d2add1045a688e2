(** Memory-level lemmas for buffers: block updates, headers, copies, allocation. *)
From Verif Require Import Base Mem Libc StrviewModel Spec MemLemmas Alloc StrbufModel BufSpec.

(** ** Lists *)
Definition zn (l : list Z) (i : Z) : Z := nth (Z.to_nat i) l 0.
Lemma zn_app : forall a b i, 0 <= i -> zn (a ++ b) i = if i <? Zlen a then zn a i else zn b (i - Zlen a).
Proof.
  intros a b i Hi. unfold zn, Zlen. destruct (i <? Z.of_nat (length a)) eqn:E.
  - apply Z.ltb_lt in E. apply app_nth1. lia.
  - apply Z.ltb_ge in E. rewrite app_nth2 by lia. f_equal. lia.
Qed.
Lemma nth_error_upd_eq : forall {A} (l : list A) n x, (n < length l)%nat -> nth_error (upd l n x) n = Some x.
Proof. induction l; intros [|n] x H; cbn in *; try lia; auto. apply IHl. lia. Qed.
Lemma nth_error_upd_neq : forall {A} (l : list A) n i x, i <> n -> nth_error (upd l n x) i = nth_error l i.
Proof. induction l; intros [|n] [|i] x H; cbn in *; auto; try lia. Qed.
Lemma upd_len : forall {A} (l : list A) n x, length (upd l n x) = length l.
Proof. induction l; intros [|n] x; cbn; auto. Qed.
Lemma upd_upd : forall {A} (l : list A) n x y, upd (upd l n x) n y = upd l n y.
Proof. induction l; intros [|n] x y; cbn; auto. f_equal. auto. Qed.
Lemma upd_same : forall {A} (l : list A) n x, nth_error l n = Some x -> upd l n x = l.
Proof. induction l; intros [|n] x H; cbn in *; try discriminate. - congruence. - f_equal. auto. Qed.
Lemma nth_error_lt : forall {A} (l : list A) n x, nth_error l n = Some x -> (n < length l)%nat.
Proof. intros. apply nth_error_Some. congruence. Qed.
Lemma nth_upd : forall (m : mem) b k k', nth_error m b = Some k -> nth_error (upd m b k') b = Some k'.
Proof. intros. apply nth_error_upd_eq. eapply nth_error_lt; eauto. Qed.

(** ** Blocks of the same shape *)
Definition shape (k k' : block) : Prop :=
  b_base k' = b_base k /\ b_size k' = b_size k /\ b_live k' = b_live k /\ b_owner k' = b_owner k.
Lemma shape_refl : forall k, shape k k. Proof. repeat split. Qed.
Lemma shape_trans : forall a b c, shape a b -> shape b c -> shape a c.
Proof. unfold shape; intuition congruence. Qed.

(** The result [r] is memory [m] with block [b] replaced by a block like [k] with cells [G]. *)
Definition sets (m : mem) (b : nat) (k : block) (G : Z -> cell) (r : outcome mem) : Prop :=
  exists k', r = @Ok mem (upd m b k') /\ shape k k' /\ forall i, b_get k' i = G i.

Definition inr (lo n i : Z) : bool := (lo <=? i) && (i <? lo + n).

Lemma access_ok : forall m b k, nth_error m b = Some k -> b_live k = true -> access m (PBlk b) = Ok k.
Proof. intros m b k H1 H2. cbn. now rewrite H1, H2. Qed.

Lemma store_cells_sets : forall m b k o n f, nth_error m b = Some k -> b_live k = true ->
  0 <= o -> o + n <= b_size k ->
  sets m b k (fun i => if inr o n i then f (i - o) else b_get k i) (store_cells m (Ptr (PBlk b) o) n f).
Proof.
  intros m b k o n f H1 H2 H3 H4. unfold store_cells. cbn [p_obj p_ofs]. rewrite (access_ok m b k H1 H2). cbn [bind].
  unfold in_block. rewrite (proj2 (Z.leb_le 0 o)), (proj2 (Z.leb_le (o + n) (b_size k))) by auto. cbn [andb].
  eexists. split; [reflexivity|]. split; [repeat split|]. reflexivity.
Qed.

(** ** Headers *)
Definition hdr_at (cf : cfg) (k : block) (o : Z) (h : hdr) : Prop :=
  forall i, 0 <= i < hdr_size cf -> b_get k (o + i) = CHdr h i.

Lemma alloc_eqb_refl : forall a, alloc_eqb a a = true.
Proof.
  intros [x f]. unfold alloc_eqb. cbn. rewrite Z.eqb_refl. destruct f; cbn; auto. apply Nat.eqb_refl.
Qed.
Lemma hdr_eqb_refl : forall h, hdr_eqb h h = true.
Proof. intros [s c a]. unfold hdr_eqb. cbn. now rewrite !Z.eqb_refl, alloc_eqb_refl. Qed.

Lemma hdr_size_pos : forall cf, wf_cfg cf -> 0 < hdr_size cf <= 24.
Proof. intros cf [_ [H|H]]; unfold hdr_size; rewrite H; lia. Qed.

Record holder (cf : cfg) (m : mem) (b : nat) (o : Z) (k : block) : Prop := Holder {
  ho_nth : nth_error m b = Some k; ho_live : b_live k = true; ho_nonneg : 0 <= o;
  ho_align : (b_base k + o) mod c_ptrbytes cf = 0; ho_fit : o + hdr_size cf <= b_size k }.

Lemma load_hdr_ok : forall cf m b o k h, wf_cfg cf -> holder cf m b o k -> hdr_at cf k o h ->
  load_hdr cf m (Ptr (PBlk b) o) = Ok h.
Proof.
  intros cf m b o k h W [H1 H2 H3 H4 H5] Hh. pose proof (hdr_size_pos cf W) as Hp. unfold load_hdr. cbn [p_obj p_ofs].
  rewrite (access_ok m b k H1 H2). cbn [bind]. rewrite H4. cbn [Z.eqb negb].
  unfold in_block. rewrite (proj2 (Z.leb_le 0 o)), (proj2 (Z.leb_le _ (b_size k))) by auto. cbn [andb negb].
  pose proof (Hh 0 ltac:(lia)) as E. rewrite Z.add_0_r in E. rewrite E.
  assert (hdr_cells cf k o h = true) as ->; [|reflexivity].
  unfold hdr_cells. apply forallb_forall. intros i Hi. apply in_seq in Hi.
  rewrite Hh by lia. now rewrite hdr_eqb_refl, Z.eqb_refl.
Qed.

Lemma store_hdr_sets : forall cf m b o k h, holder cf m b o k ->
  sets m b k (fun i => if inr o (hdr_size cf) i then CHdr h (i - o) else b_get k i) (store_hdr cf m (Ptr (PBlk b) o) h).
Proof.
  intros cf m b o k h [H1 H2 H3 H4 H5]. unfold store_hdr. cbn [p_obj p_ofs].
  rewrite (access_ok m b k H1 H2). cbn [bind]. rewrite H4. cbn [Z.eqb negb].
  apply (store_cells_sets m b k o (hdr_size cf) (fun i => CHdr h i)); auto.
Qed.

Lemma set_size_sets : forall cf m b o k s c a n, wf_cfg cf -> holder cf m b o k -> hdr_at cf k o (Hdr s c a) ->
  sets m b k (fun i => if inr o (hdr_size cf) i then CHdr (Hdr n c a) (i - o) else b_get k i)
       (set_size cf m (Ptr (PBlk b) o) n).
Proof.
  intros. unfold set_size. rewrite (load_hdr_ok cf m b o k (Hdr s c a)); auto. cbn [bind h_cap h_alloc].
  now apply store_hdr_sets.
Qed.
Lemma set_cap_sets : forall cf m b o k s c a n, wf_cfg cf -> holder cf m b o k -> hdr_at cf k o (Hdr s c a) ->
  sets m b k (fun i => if inr o (hdr_size cf) i then CHdr (Hdr s n a) (i - o) else b_get k i)
       (set_cap cf m (Ptr (PBlk b) o) n).
Proof.
  intros. unfold set_cap. rewrite (load_hdr_ok cf m b o k (Hdr s c a)); auto. cbn [bind h_size h_alloc].
  now apply store_hdr_sets.
Qed.

Lemma char_at_ok : forall cf m b o k i, nth_error m b = Some k -> b_live k = true ->
  0 <= o + hdr_size cf + i <= b_size k ->
  char_at cf m (Ptr (PBlk b) o) i = Ok (Ptr (PBlk b) (o + hdr_size cf + i)).
Proof.
  intros cf m b o k i H1 H2 H3. unfold char_at, padd, cstr_of, shift. cbn [p_obj p_ofs].
  rewrite (access_ok m b k H1 H2). cbn [bind]. unfold in_block.
  rewrite (proj2 (Z.leb_le 0 _)), (proj2 (Z.leb_le _ (b_size k))) by lia. destruct (c_ptr cf); reflexivity.
Qed.

Lemma set_char_sets : forall cf m b o k i c, nth_error m b = Some k -> b_live k = true ->
  0 <= o + hdr_size cf + i < b_size k ->
  sets m b k (fun j => if inr (o + hdr_size cf + i) 1 j then CByte (c mod 256) else b_get k j)
       (set_char cf m (Ptr (PBlk b) o) i c).
Proof.
  intros cf m b o k i c H1 H2 H3. unfold set_char. rewrite (char_at_ok cf m b o k) by (auto; lia). cbn [bind].
  unfold store_byte. destruct (store_cells_sets m b k (o + hdr_size cf + i) 1 (fun _ => CByte (c mod 256)) H1 H2 ltac:(lia) ltac:(lia)) as (k' & E & S & G).
  exists k'. auto.
Qed.

(** ** Copies *)
Lemma zero_ok_in : forall cf m b k o, nth_error m b = Some k -> b_live k = true -> 0 <= o <= b_size k ->
  zero_ok cf m (Ptr (PBlk b) o) = true.
Proof.
  intros cf m b k o H1 H2 H3. unfold zero_ok. cbn [p_obj p_ofs]. rewrite (access_ok m b k H1 H2). unfold in_block.
  rewrite (proj2 (Z.leb_le 0 _)), (proj2 (Z.leb_le _ (b_size k))) by lia. apply orb_true_r.
Qed.

Lemma memmove_sets : forall cf m b k d s n, nth_error m b = Some k -> b_live k = true ->
  0 <= d -> 0 <= s -> 0 <= n -> d + n <= b_size k -> s + n <= b_size k ->
  sets m b k (fun i => if inr d n i then b_get k (s + (i - d)) else b_get k i)
       (memmove cf m (Ptr (PBlk b) d) (Ptr (PBlk b) s) n).
Proof.
  intros cf m b k d s n H1 H2 Hd Hs Hn Hdn Hsn. unfold memmove. destruct (n <=? 0) eqn:E.
  - apply Z.leb_le in E. rewrite (proj2 (Z.ltb_ge n 0)) by lia. rewrite (zero_ok_in cf m b k d), (zero_ok_in cf m b k s) by (auto; lia). cbn [andb].
    exists k. rewrite (upd_same m b k) by auto. split; [reflexivity|]. split; [apply shape_refl|].
    intro i. unfold inr. destruct (d <=? i) eqn:E1; destruct (i <? d + n) eqn:E2; cbn; auto.
    apply Z.leb_le in E1. apply Z.ltb_lt in E2. lia.
  - cbn [p_obj p_ofs]. rewrite (access_ok m b k H1 H2). cbn [bind]. unfold in_block.
    rewrite (proj2 (Z.leb_le 0 s)), (proj2 (Z.leb_le (s + n) (b_size k))) by auto. cbn [andb].
    apply (store_cells_sets m b k d n (fun i => b_get k (s + i))); auto.
Qed.

(** Copy of known bytes from anywhere. *)
Lemma memmove_bytes : forall cf m b k d src l, nth_error m b = Some k -> b_live k = true ->
  0 <= d -> d + Zlen l <= b_size k -> bytes_at m src l ->
  sets m b k (fun i => if inr d (Zlen l) i then CByte (zn l (i - d)) else b_get k i)
       (memmove cf m (Ptr (PBlk b) d) src (Zlen l)).
Proof.
  intros cf m b k d src l H1 H2 Hd Hdn HB. unfold memmove. destruct (Zlen l <=? 0) eqn:E.
  - apply Z.leb_le in E. pose proof (Zlen_nonneg l). rewrite (proj2 (Z.ltb_ge (Zlen l) 0)) by lia. rewrite (zero_ok_in cf m b k d) by (auto; lia).
    rewrite (zero_ok_bytes cf m src l HB). cbn [andb].
    exists k. rewrite (upd_same m b k) by auto. split; [reflexivity|]. split; [apply shape_refl|].
    intro i. unfold inr. destruct (d <=? i) eqn:E1; destruct (i <? d + Zlen l) eqn:E2; cbn; auto.
    apply Z.leb_le in E1. apply Z.ltb_lt in E2. lia.
  - destruct HB as (ks & A & B1 & B2 & B3). rewrite A. cbn [bind]. unfold in_block.
    rewrite (proj2 (Z.leb_le 0 _)), (proj2 (Z.leb_le _ (b_size ks))) by auto. cbn [andb].
    destruct (store_cells_sets m b k d (Zlen l) (fun i => b_get ks (p_ofs src + i)) H1 H2 Hd Hdn) as (k' & E' & S & G).
    exists k'. split; auto. split; auto. intro i. rewrite G. destruct (inr d (Zlen l) i) eqn:Ei; auto.
    unfold inr in Ei. apply andb_true_iff in Ei as [E1 E2]. apply Z.leb_le in E1. apply Z.ltb_lt in E2.
    rewrite B3 by lia. reflexivity.
Qed.
Lemma memcpy_bytes : forall cf m b k d src l, nth_error m b = Some k -> b_live k = true ->
  0 <= d -> d + Zlen l <= b_size k -> bytes_at m src l ->
  (p_obj src <> PBlk b \/ p_ofs src + Zlen l <= d \/ d + Zlen l <= p_ofs src) ->
  sets m b k (fun i => if inr d (Zlen l) i then CByte (zn l (i - d)) else b_get k i)
       (memcpy cf m (Ptr (PBlk b) d) src (Zlen l)).
Proof.
  intros cf m b k d src l H1 H2 Hd Hdn HB Ho. unfold memcpy.
  assert (ranges_overlap (Ptr (PBlk b) d) src (Zlen l) = false) as ->.
  { unfold ranges_overlap. cbn [p_obj p_ofs]. destruct Ho as [Ho|[Ho|Ho]].
    - destruct (pobj_eqb (PBlk b) (p_obj src)) eqn:E; auto. apply pobj_eqb_eq in E. congruence.
    - rewrite (proj2 (Z.ltb_ge d _)) by lia. now rewrite andb_false_r.
    - rewrite (proj2 (Z.ltb_ge (p_ofs src) _)) by lia. now rewrite andb_false_r. }
  rewrite andb_false_r. now apply memmove_bytes.
Qed.

(** ** Views across a change of one block *)
Lemma bytes_at_upd : forall m b k k' p l, nth_error m b = Some k -> shape k k' -> bytes_at m p l ->
  (p_obj p <> PBlk b \/ forall i, 0 <= i < Zlen l -> b_get k' (p_ofs p + i) = b_get k (p_ofs p + i)) ->
  bytes_at (upd m b k') p l.
Proof.
  intros m b k k' p l Hn (S1 & S2 & S3 & S4) (ks & A & B1 & B2 & B3) H.
  destruct (p_obj p) as [|b'|lit] eqn:Ep; cbn [access] in A.
  - discriminate.
  - destruct (Nat.eq_dec b' b) as [->|Ne].
    + rewrite Hn in A. destruct (b_live k) eqn:El; [|discriminate]. injection A as <-.
      exists k'. unfold bytes_at. rewrite Ep. cbn [access]. rewrite (nth_upd m b k k' Hn). rewrite S3. split; auto.
      split; auto. split; [lia|]. intros i Hi. destruct H as [H|H]; [congruence|]. rewrite H, B3; auto.
    + exists ks. rewrite Ep. cbn [access]. rewrite nth_error_upd_neq by auto. auto.
  - exists ks. rewrite Ep. auto.
Qed.

(** ** Overflow checks and rounding *)
Lemma add_check_ok : forall cf a b, 0 <= a <= INT_MAX -> 0 <= b <= INT_MAX -> a + b <= INT_MAX ->
  add_will_overflow_int cf a b = Ok false.
Proof.
  intros cf a b Ha Hb H. unfold add_will_overflow_int. rewrite iadd_ok by (unfold INT_MIN; lia). cbn [bind].
  rewrite !(proj2 (Z.ltb_ge _ _)) by lia. reflexivity.
Qed.
Lemma add_check_over : forall cf a b, c_wrapv cf = true -> 0 <= a <= INT_MAX -> 0 <= b <= INT_MAX -> INT_MAX < a + b ->
  add_will_overflow_int cf a b = Ok true.
Proof.
  intros cf a b Hw Ha Hb H. unfold add_will_overflow_int, iadd, int_res, in_int.
  rewrite (proj2 (Z.leb_gt (a + b) INT_MAX)) by lia. rewrite andb_false_r, Hw. cbn [bind].
  assert (wrap32 (a + b) = a + b - 4294967296) as ->.
  { unfold wrap32, INT_MIN, INT_MAX in *. replace (a + b - -2147483648) with (a + b - 2147483648 + 1 * 4294967296) by lia.
    rewrite Z.mod_add by lia. rewrite Z.mod_small by lia. lia. }
  unfold INT_MAX in *. rewrite (proj2 (Z.ltb_ge a 0)), (proj2 (Z.ltb_ge b 0)) by lia.
  rewrite (proj2 (Z.ltb_lt _ 0)) by lia. reflexivity.
Qed.
Lemma rounded_bounds : forall cf n, wf_cfg cf -> 0 <= n <= INT_MAX -> n <= rounded cf n <= INT_MAX.
Proof.
  intros cf n [W _] Hn. unfold rounded. split; [|apply Z.le_min_l]. apply Z.min_glb; [lia|].
  pose proof (Z.div_mod (n + c_step cf - 1) (c_step cf) ltac:(lia)).
  pose proof (Z.mod_pos_bound (n + c_step cf - 1) (c_step cf) ltac:(lia)). nia.
Qed.
Lemma round_up_ok : forall cf n, wf_cfg cf -> 0 <= n <= INT_MAX -> sums_ok cf n ->
  round_up_capacity cf n = Ok (rounded cf n).
Proof.
  intros cf n [W _] Hn Hs. unfold round_up_capacity. rewrite Z.rem_mod_nonneg by lia.
  pose proof (Z.div_mod n (c_step cf) ltac:(lia)) as D. pose proof (Z.mod_pos_bound n (c_step cf) ltac:(lia)) as M.
  destruct (n mod c_step cf =? 0) eqn:E; [apply Z.eqb_eq in E|apply Z.eqb_neq in E].
  - f_equal. unfold rounded. rewrite E in D.
    assert ((n + c_step cf - 1) / c_step cf = n / c_step cf) as ->.
    { symmetry. apply Z.div_unique with (r := c_step cf - 1); lia. }
    rewrite (Z.mul_comm (n / c_step cf)), <- (Z.add_0_r (c_step cf * (n / c_step cf))), <- D. rewrite Z.min_r; lia.
  - assert ((n + c_step cf - 1) / c_step cf = n / c_step cf + 1) as Q.
    { symmetry. apply Z.div_unique with (r := n mod c_step cf - 1); lia. }
    assert ((n / c_step cf + 1) * c_step cf = n + (c_step cf - n mod c_step cf)) as Q2 by lia.
    unfold rounded. rewrite Q, Q2.
    destruct (Z.le_gt_cases (n + (c_step cf - n mod c_step cf)) INT_MAX) as [L|L].
    + rewrite add_check_ok by (unfold INT_MAX in *; lia). cbn [bind]. rewrite iadd_ok by (unfold INT_MIN; lia). now rewrite Z.min_r.
    + destruct Hs as [Hs|Hs]; [|lia]. rewrite add_check_over by (auto; unfold INT_MAX in *; lia). cbn [bind].
      now rewrite Z.min_l by lia.
Qed.
