(** Insertion of a view into a buffer, also of a part of the buffer itself. *)
From Verif Require Import Base Mem Libc StrviewModel Spec MemLemmas Alloc StrbufModel BufSpec StrbufProofs StrbufProofs2.

Lemma inr_in : forall lo n i, lo <= i < lo + n -> inr lo n i = true.
Proof. intros. unfold inr. rewrite (proj2 (Z.leb_le _ _)), (proj2 (Z.ltb_lt _ _)) by lia. reflexivity. Qed.
Lemma inr_out : forall lo n i, i < lo \/ lo + n <= i -> inr lo n i = false.
Proof. intros. unfold inr. destruct H; [rewrite (proj2 (Z.leb_gt _ _)) by lia|rewrite (proj2 (Z.ltb_ge _ _)) by lia]; auto using andb_false_r. Qed.
Ltac rin := repeat match goal with |- context[inr ?a ?b ?c] => first [rewrite (inr_in a b c) by lia | rewrite (inr_out a b c) by lia] end.

(** The bytes [c] at offset [o] of block [k]. *)
Definition chars (k : block) (o : Z) (c : list Z) : Prop := forall i, 0 <= i < Zlen c -> b_get k (o + i) = CByte (zn c i).
Lemma chars_app : forall k o a b, chars k o (a ++ b) <-> chars k o a /\ chars k (o + Zlen a) b.
Proof.
  intros k o a b. unfold chars. rewrite Zlen_app. pose proof (Zlen_nonneg a). pose proof (Zlen_nonneg b). split.
  - intros H1. split; intros i Hi.
    + rewrite H1 by lia. rewrite zn_app by lia. now rewrite (proj2 (Z.ltb_lt _ _)) by lia.
    + rewrite <- Z.add_assoc. rewrite H1 by lia. rewrite zn_app by lia. rewrite (proj2 (Z.ltb_ge _ _)) by lia. do 2 f_equal. lia.
  - intros [H1 H2] i Hi. rewrite zn_app by lia. destruct (i <? Zlen a) eqn:E; [apply Z.ltb_lt in E|apply Z.ltb_ge in E].
    + apply H1. lia.
    + replace (o + i) with (o + Zlen a + (i - Zlen a)) by lia. apply H2. lia.
Qed.
Lemma chars_bytes : forall m b k o c, nth_error m b = Some k -> b_live k = true -> 0 <= o -> o + Zlen c <= b_size k ->
  chars k o c -> bytes_at m (Ptr (PBlk b) o) c.
Proof. intros m b k o c H1 H2 H3 H4 H5. exists k. cbn [p_obj p_ofs]. split; [now apply access_ok|]. auto. Qed.
Lemma bytes_chars : forall m b k o c, nth_error m b = Some k -> bytes_at m (Ptr (PBlk b) o) c -> chars k o c /\ o + Zlen c <= b_size k.
Proof.
  intros m b k o c H1 (k' & A & H3 & H4 & H5). cbn [p_obj p_ofs access] in *. rewrite H1 in A. destruct (b_live k); [|discriminate].
  injection A as <-. auto.
Qed.
Lemma chars_eq : forall k k' o o' c, chars k o c -> (forall i, 0 <= i < Zlen c -> b_get k' (o' + i) = b_get k (o + i)) -> chars k' o' c.
Proof. intros k k' o o' c H E i Hi. rewrite E by auto. now apply H. Qed.
Lemma chars_nil : forall k o, chars k o []. Proof. intros k o i Hi. cbn in Hi. lia. Qed.

(** Introduction and elimination of buf_in in terms of chars. *)
Lemma buf_in_intro : forall cf k o c cap a,
  b_live k = true -> 0 <= o -> (b_base k + o) mod c_ptrbytes cf = 0 -> o + hdr_size cf + cap + 1 <= b_size k ->
  hdr_at cf k o (Hdr (Zlen c) cap a) -> chars k (o + hdr_size cf) (c ++ [0]) -> Forall is_byte c -> Zlen c <= cap <= INT_MAX ->
  (is_dyn a = true -> o = 0 /\ b_owner k = Heap a /\ b_size k = hdr_size cf + cap + 1) ->
  buf_in cf k o (Buffer c cap a).
Proof.
  intros cf k o c cap a H1 H2 H3 H4 H5 H6 H7 H8 H9. apply chars_app in H6 as [H6 H6'].
  unfold buf_in. cbn [bf_data bf_cap bf_alloc]. do 7 (split; auto).
  specialize (H6' 0 ltac:(cbn; lia)). rewrite Z.add_0_r in H6'. exact H6'.
Qed.
Lemma buf_in_chars : forall cf k o B, buf_in cf k o B -> chars k (o + hdr_size cf) (bf_data B ++ [0]).
Proof.
  intros cf k o B (L & O & Al & F & H & D & T & _). apply chars_app. split; [exact D|].
  intros i Hi. change (Zlen [0]) with 1 in Hi. replace i with 0 by lia. now rewrite Z.add_0_r.
Qed.

(** ** Emptying *)
Lemma empty_buf_ok : forall cf m p B, wf_cfg cf -> mem_wf m -> buf_at cf m p B ->
  exists m', empty_buf cf m p = Ok m' /\ buf_at cf m' p (Buffer [] (bf_cap B) (bf_alloc B)) /\
    touches cf m m' p p B /\ mem_wf m' /\
    exists b k k', p_obj p = PBlk b /\ nth_error m b = Some k /\ m' = upd m b k' /\ shape k k' /\
      (forall i, ~ (p_ofs p <= i < p_ofs p + hdr_size cf + 1) -> b_get k' i = b_get k i).
Proof.
  intros cf m [po o] B W Wm HB. pose proof HB as (b & k & E1 & E2 & HI). cbn [p_obj p_ofs] in *. subst po.
  pose proof (hdr_size_pos cf W) as Hp. pose proof (buf_in_holder cf m b k o B W E2 HI) as Hh.
  pose proof HI as (L & O & Al & F & H & D & T & By & C & Dy). pose proof (Zlen_nonneg (bf_data B)).
  unfold empty_buf.
  destruct (set_size_sets cf m b o k (Zlen (bf_data B)) (bf_cap B) (bf_alloc B) 0 W Hh H) as (k1 & E3 & S1 & G1).
  rewrite E3. cbn [bind]. pose proof S1 as (T1 & T2 & T3 & T4).
  assert (nth_error (upd m b k1) b = Some k1) as Hn1 by (eapply nth_upd; eauto).
  destruct (set_char_sets cf (upd m b k1) b o k1 0 0 Hn1) as (k2 & E4 & S2 & G2).
  { congruence. } { rewrite T2. lia. }
  rewrite E4. rewrite upd_upd. pose proof (shape_trans _ _ _ S1 S2) as S3. pose proof S3 as (U1 & U2 & U3 & U4).
  exists (upd m b k2). split; [reflexivity|].
  assert (forall i, ~ (o <= i < o + hdr_size cf + 1) -> b_get k2 i = b_get k i) as Gf.
  { intros i Hi. rewrite G2. rin. rewrite G1. rin. reflexivity. }
  split; [|split; [|split]].
  - exists b, k2. split; auto. split; [eapply nth_upd; eauto|]. cbn [p_ofs]. apply buf_in_intro; auto.
    + congruence.
    + congruence.
    + lia.
    + intros i Hi. rewrite G2. rin. rewrite G1. rin. f_equal. lia.
    + intros i Hi. cbn in Hi. rewrite G2. rin. replace i with 0 by lia. reflexivity.
    + change (Zlen (@nil Z)) with 0. lia.
    + intros X. rewrite U4, U2. now apply Dy.
  - apply (touches_upd cf m b o k); auto. intros _ i Hi. apply Gf. lia.
  - eapply mem_wf_upd; eauto.
  - exists b, k, k2. auto.
Qed.

(** ** Does the buffer contain the view? *)
Lemma pdiff_blk : forall cf m b1 o1 b2 o2 k1 k2, (c_ptr cf = true \/ b1 = b2) -> nth_error m b1 = Some k1 -> nth_error m b2 = Some k2 ->
  pdiff cf m (Ptr (PBlk b1) o1) (Ptr (PBlk b2) o2) = Ok (if (b1 =? b2)%nat then o1 - o2 else b_base k1 + o1 - (b_base k2 + o2)).
Proof.
  intros cf m b1 o1 b2 o2 k1 k2 Hc H1 H2. unfold pdiff. cbn [p_obj p_ofs pobj_eqb]. destruct (b1 =? b2)%nat eqn:E; auto.
  destruct Hc as [Hc|Hc]; [|apply Nat.eqb_neq in E; congruence]. rewrite Hc. unfold addr. cbn [p_obj p_ofs]. now rewrite H1, H2.
Qed.
Lemma pdiff_same : forall cf m b o1 o2, pdiff cf m (Ptr (PBlk b) o1) (Ptr (PBlk b) o2) = Ok (o1 - o2).
Proof. intros. unfold pdiff. cbn [p_obj p_ofs pobj_eqb]. now rewrite Nat.eqb_refl. Qed.

Lemma has_view_block : forall m v l b, has_view m v l -> p_obj (v_data v) = PBlk b ->
  exists k, nth_error m b = Some k /\ b_live k = true /\ 0 <= p_ofs (v_data v) /\ p_ofs (v_data v) + Zlen l <= b_size k /\
    chars k (p_ofs (v_data v)) l.
Proof.
  intros m v l b ((k & A & H1 & H2 & H3) & _) E. rewrite E in A. cbn [access] in A.
  destruct (nth_error m b) as [k'|] eqn:En; [|discriminate]. destruct (b_live k') eqn:El; [|discriminate]. injection A as ->.
  exists k. auto 10.
Qed.

(** Numeric position of anything outside relative to the characters. *)
Lemma outside_diff : forall cf m p B v l, wf_cfg cf -> comparable cf p v -> mem_wf m -> buf_at cf m p B ->
  has_view m v l -> outside cf p B v l ->
  exists d, pdiff cf m (v_data v) (cstr_of cf p) = Ok d /\ pdiff cf m (cstr_of cf p) (v_data v) = Ok (- d) /\
    (d + Zlen l <= - hdr_size cf \/ bf_cap B + 1 <= d) /\
    forall n, pdiff cf m (v_data v) (shift (cstr_of cf p) n) = Ok (d - n).
Proof.
  intros cf m [po o] B v l W Hc Wm (b & k & E1 & E2 & HI) Hv ((c & Hb) & Ho). cbn [p_obj p_ofs] in *. subst po.
  destruct (has_view_block m v l c Hv Hb) as (kc & N1 & N2 & N3 & N4 & _).
  destruct v as [[vo ofs] sz]. cbn [v_data p_obj p_ofs] in *. subst vo. unfold comparable in Hc. cbn [v_data p_obj] in Hc.
  assert (c_ptr cf = true \/ c = b) as Hc1 by (destruct Hc as [Hc|Hc]; [auto|injection Hc; auto]).
  assert (c_ptr cf = true \/ b = c) as Hc2 by (destruct Hc1; auto).
  pose proof HI as (L & O & Al & F & H & D & T & By & C & Dy). pose proof (hdr_size_pos cf W) as Hp.
  exists (if (c =? b)%nat then ofs - (o + hdr_size cf) else b_base kc + ofs - (b_base k + (o + hdr_size cf))).
  unfold cstr_of, shift. cbn [p_obj p_ofs]. split; [eapply pdiff_blk; eauto|]. split.
  - rewrite (pdiff_blk cf m b _ c _ k kc) by auto. f_equal. rewrite Nat.eqb_sym. destruct (c =? b)%nat; lia.
  - split.
    + destruct (c =? b)%nat eqn:Ec.
      * apply Nat.eqb_eq in Ec. subst c. destruct Ho as [Ho|[_ Ho]]; [congruence|]. unfold buf_end in Ho. cbn [p_ofs] in Ho. lia.
      * apply Nat.eqb_neq in Ec. destruct Wm as [_ W2]. destruct (W2 c b kc k N1 E2 N2 L Ec); lia.
    + intros n. rewrite (pdiff_blk cf m c _ b _ kc k) by auto. f_equal. destruct (c =? b)%nat; lia.
Qed.

Definition within (cf : cfg) (p : ptr) (v : view) (B : buffer) : bool :=
  pobj_eqb (p_obj (v_data v)) (p_obj p) && (p_ofs p + hdr_size cf <=? p_ofs (v_data v))
  && (p_ofs (v_data v) <? p_ofs p + hdr_size cf + Zlen (bf_data B)).

Lemma char_at_in : forall cf m b o k i, nth_error m b = Some k -> b_live k = true -> 0 <= o + hdr_size cf + i <= b_size k ->
  char_at cf m (Ptr (PBlk b) o) i = Ok (Ptr (PBlk b) (o + hdr_size cf + i)).
Proof.
  intros cf m b o k i Hn L Hi. unfold char_at, padd, cstr_of, shift. cbn [p_obj p_ofs]. destruct (c_ptr cf); auto.
  cbn [access]. rewrite Hn, L. cbn [bind]. unfold in_block. rewrite !(proj2 (Z.leb_le _ _)) by lia. reflexivity.
Qed.
Lemma padd_in : forall cf m b o k i, nth_error m b = Some k -> b_live k = true -> 0 <= o + i <= b_size k ->
  padd cf m (Ptr (PBlk b) o) i = Ok (Ptr (PBlk b) (o + i)).
Proof.
  intros cf m b o k i Hn L Hi. unfold padd, shift. cbn [p_obj p_ofs]. destruct (c_ptr cf); auto.
  cbn [access]. rewrite Hn, L. cbn [bind]. unfold in_block. rewrite !(proj2 (Z.leb_le _ _)) by lia. reflexivity.
Qed.
Lemma char_at_flat : forall cf m b o i, c_ptr cf = true -> char_at cf m (Ptr (PBlk b) o) i = Ok (Ptr (PBlk b) (o + hdr_size cf + i)).
Proof. intros. unfold char_at, padd, cstr_of, shift. cbn [p_obj p_ofs]. now rewrite H. Qed.

Lemma contains_ok : forall cf m p B v l, wf_cfg cf -> comparable cf p v -> mem_wf m -> buf_at cf m p B ->
  source cf m p B v l ->
  (buf_contains_str cf m p v = Ok (within cf p v B)) /\ exists d, pdiff cf m (v_data v) (cstr_of cf p) = Ok d /\
   (within cf p v B = true -> d = p_ofs (v_data v) - (p_ofs p + hdr_size cf)).
Proof.
  intros cf m p B v l W Hc Wm HB Hs. pose proof HB as (b & k & E1 & E2 & HI). destruct p as [po o]. cbn [p_obj p_ofs] in *. subst po.
  pose proof HI as (L & O & Al & F & H & D & T & By & C & Dy). pose proof (hdr_size_pos cf W) as Hp.
  unfold buf_contains_str, comparable in *. destruct Hs as [|v l Hv Ho|a l c Hl|q Hq].
  - destruct Hc as [Hc|Hc]; [|discriminate Hc]. pose proof (proj1 Wm b k E2 L) as [Hb Hz]. unfold within. cbn [INVALID v_data null p_obj p_ofs pobj_eqb andb].
    unfold ple, pdiff, INVALID, cstr_of, shift. cbn [v_data null p_obj p_ofs pobj_eqb]. rewrite Hc. unfold addr. cbn [null p_obj p_ofs].
    rewrite E2. cbn [bind]. rewrite (proj2 (Z.leb_gt _ 0)) by lia. split; auto. eexists. split; eauto. discriminate.
  - destruct (outside_diff cf m _ B v l W Hc Wm HB Hv Ho) as (d & D1 & D2 & D3 & D4). zl.
    assert (within cf (Ptr (PBlk b) o) v B = false) as Wf.
    { unfold within. destruct (pobj_eqb (p_obj (v_data v)) (PBlk b)) eqn:Ee; cbn [p_obj p_ofs]; [|now rewrite Ee].
      rewrite Ee. apply pobj_eqb_eq in Ee. destruct Ho as [_ [Ho|[_ Ho]]]; [cbn [p_obj] in Ho; congruence|].
      unfold buf_end in Ho. cbn [p_ofs] in Ho. cbn [andb].
      destruct Ho; [rewrite (proj2 (Z.leb_gt _ _)) by lia; reflexivity|rewrite (proj2 (Z.ltb_ge _ _)) by lia; apply andb_false_r]. }
    rewrite Wf. split; [|eexists; split; eauto; discriminate].
    unfold ple. rewrite D2. cbn [bind]. destruct (- d <=? 0) eqn:Ed; auto. apply Z.leb_le in Ed.
    rewrite (buf_at_load cf m _ B W HB). cbn [bind hdr_of h_size]. rewrite (char_at_in cf m b o k) by (auto; pose proof (Zlen_nonneg (bf_data B)); lia). cbn [bind].
    unfold plt. specialize (D4 (Zlen (bf_data B))). unfold cstr_of, shift in D4. cbn [p_obj p_ofs] in D4. rewrite D4. cbn [bind].
    f_equal. apply Z.ltb_ge. lia.
  - unfold chars_of, shift. cbn [v_data p_obj p_ofs]. unfold ple. unfold cstr_of at 1. unfold shift. cbn [p_obj p_ofs].
    rewrite pdiff_same. cbn [bind]. zl. rewrite (proj2 (Z.leb_le _ 0)) by lia.
    rewrite (buf_at_load cf m _ B W HB). cbn [bind hdr_of h_size]. rewrite (char_at_in cf m b o k) by (auto; pose proof (Zlen_nonneg (bf_data B)); lia). cbn [bind].
    unfold plt. rewrite pdiff_same. cbn [bind].
    unfold within. cbn [v_data p_obj p_ofs pobj_eqb]. rewrite Nat.eqb_refl. cbn [andb]. rewrite (proj2 (Z.leb_le _ (o + hdr_size cf + Zlen a))) by lia.
    cbn [andb]. split.
    + f_equal. destruct (Zlen a <? Zlen (bf_data B)) eqn:Ea; [apply Z.ltb_lt in Ea|apply Z.ltb_ge in Ea].
      * rewrite !(proj2 (Z.ltb_lt _ _)) by lia. reflexivity.
      * rewrite !(proj2 (Z.ltb_ge _ _)) by lia. reflexivity.
    + unfold cstr_of, shift. cbn [p_obj p_ofs]. rewrite pdiff_same. eexists. split; eauto.
  - unfold chars_of, shift. cbn [v_data p_obj p_ofs]. unfold ple. unfold cstr_of at 1. unfold shift. cbn [p_obj p_ofs].
    rewrite pdiff_same. cbn [bind]. pose proof (Zlen_nonneg (bf_data B)). rewrite (proj2 (Z.leb_le _ 0)) by lia.
    rewrite (buf_at_load cf m _ B W HB). cbn [bind hdr_of h_size]. rewrite (char_at_in cf m b o k) by (auto; pose proof (Zlen_nonneg (bf_data B)); lia). cbn [bind].
    unfold plt. rewrite pdiff_same. cbn [bind].
    unfold within. cbn [v_data p_obj p_ofs pobj_eqb]. rewrite Nat.eqb_refl. cbn [andb]. rewrite (proj2 (Z.leb_le _ (o + hdr_size cf + q))) by lia.
    cbn [andb]. split.
    + f_equal. destruct (q <? Zlen (bf_data B)) eqn:Ea; [apply Z.ltb_lt in Ea|apply Z.ltb_ge in Ea].
      * rewrite !(proj2 (Z.ltb_lt _ _)) by lia. reflexivity.
      * rewrite !(proj2 (Z.ltb_ge _ _)) by lia. reflexivity.
    + unfold cstr_of, shift. cbn [p_obj p_ofs]. rewrite pdiff_same. eexists. split; eauto.
Qed.

(** ** The copy part of an insertion *)
Lemma copy_part : forall cf (m : mem) b k d v l, nth_error m b = Some k -> b_live k = true -> 0 <= d -> d + Zlen l <= b_size k ->
  v_size v = Zlen l ->
  (l <> [] -> bytes_at m (v_data v) l /\
     (p_obj (v_data v) <> PBlk b \/ p_ofs (v_data v) + Zlen l <= d \/ d + Zlen l <= p_ofs (v_data v))) ->
  sets m b k (fun i => if inr d (Zlen l) i then CByte (zn l (i - d)) else b_get k i)
       (if v_size v =? 0 then Ok m else memcpy cf m (Ptr (PBlk b) d) (v_data v) (v_size v)).
Proof.
  intros cf m b k d v l H1 H2 H3 H4 H5 H6. rewrite H5. destruct (Zlen l =? 0) eqn:E; [apply Z.eqb_eq in E|apply Z.eqb_neq in E].
  - exists k. rewrite upd_same by auto. split; auto. split; [apply shape_refl|]. intros i. rewrite E. rin. reflexivity.
  - destruct H6 as [H6 H7]; [intros ->; apply E; reflexivity|]. now apply memcpy_bytes.
Qed.

Definition clear_of (cf : cfg) (b : nat) (o lo n : Z) (v : view) (l : list Z) : Prop :=
  p_obj (v_data v) <> PBlk b \/
  ((p_ofs (v_data v) + Zlen l <= o \/ o + hdr_size cf <= p_ofs (v_data v)) /\
   (p_ofs (v_data v) + Zlen l <= lo \/ lo + n <= p_ofs (v_data v))).

Lemma finish_ok : forall cf w1 (m : mem) b k o c1 c2 l1 l2 lv rv cap a, wf_cfg cf ->
  nth_error m b = Some k -> b_live k = true -> 0 <= o -> (b_base k + o) mod c_ptrbytes cf = 0 ->
  o + hdr_size cf + cap + 1 <= b_size k -> Zlen (c1 ++ l1 ++ l2 ++ c2) <= cap -> cap <= INT_MAX ->
  hdr_at cf k o (Hdr (Zlen (c1 ++ c2)) cap a) ->
  chars k (o + hdr_size cf) c1 -> chars k (o + hdr_size cf + Zlen c1 + Zlen (l1 ++ l2)) c2 ->
  Forall is_byte (c1 ++ l1 ++ l2 ++ c2) ->
  (is_dyn a = true -> o = 0 /\ b_owner k = Heap a /\ b_size k = hdr_size cf + cap + 1) ->
  v_size lv = Zlen l1 -> v_size rv = Zlen l2 ->
  (l1 <> [] -> bytes_at m (v_data lv) l1 /\ clear_of cf b o (o + hdr_size cf + Zlen c1) (Zlen (l1 ++ l2)) lv l1) ->
  (l2 <> [] -> bytes_at m (v_data rv) l2 /\ clear_of cf b o (o + hdr_size cf + Zlen c1) (Zlen (l1 ++ l2)) rv l2) ->
  exists k',
   (let! m3 := set_size cf m (Ptr (PBlk b) o) (Zlen (c1 ++ c2) + Zlen (l1 ++ l2)) in
    let! m4 := if v_size lv =? 0 then Ok m3
               else memcpy cf m3 (Ptr (PBlk b) (o + hdr_size cf + Zlen c1)) (v_data lv) (v_size lv) in
    let! move_src2 := padd cf m4 (Ptr (PBlk b) (o + hdr_size cf + Zlen c1)) (v_size lv) in
    let! m5 := if v_size rv =? 0 then Ok m4 else memcpy cf m4 move_src2 (v_data rv) (v_size rv) in
    let! m6 := set_char cf m5 (Ptr (PBlk b) o) (Zlen (c1 ++ c2) + Zlen (l1 ++ l2)) 0 in
    Ok (Ptr (PBlk b) o, with_mem w1 m6)) = Ok (Ptr (PBlk b) o, with_mem w1 (upd m b k')) /\
   shape k k' /\ buf_in cf k' o (Buffer (c1 ++ l1 ++ l2 ++ c2) cap a) /\
   (forall i, ~ (o <= i < o + hdr_size cf + cap + 1) -> b_get k' i = b_get k i).
Proof.
  intros cf w1 m b k o c1 c2 l1 l2 lv rv cap a W Hn L O Al F Hle Hcap H D1 D2 By Dy Hlv Hrv S1 S2.
  pose proof (hdr_size_pos cf W) as Hp.
  rewrite !Zlen_app in *. pose proof (Zlen_nonneg c1) as Z1. pose proof (Zlen_nonneg c2) as Z2.
  pose proof (Zlen_nonneg l1) as Z3. pose proof (Zlen_nonneg l2) as Z4.
  assert (holder cf m b o k) as Hh by (constructor; auto; lia).
  destruct (set_size_sets cf m b o k _ cap a (Zlen c1 + Zlen c2 + (Zlen l1 + Zlen l2)) W Hh H) as (k3 & E3 & Sh3 & G3).
  rewrite E3. cbn [bind]. pose proof Sh3 as (T1 & T2 & T3 & T4).
  assert (nth_error (upd m b k3) b = Some k3) as N3 by (eapply nth_upd; eauto).
  destruct (copy_part cf (upd m b k3) b k3 (o + hdr_size cf + Zlen c1) lv l1 N3) as (k4 & E4 & Sh4 & G4); auto.
  { congruence. } { lia. } { rewrite T2. lia. }
  { intros X. destruct (S1 X) as [SB SC]. split.
    - apply (bytes_at_upd m b k k3); auto. destruct SC as [SC|[SC _]]; auto. right. intros i Hi. rewrite G3. rin. reflexivity.
    - destruct SC as [SC|[_ SC]]; auto. right. lia. }
  rewrite E4. cbn [bind]. rewrite upd_upd. pose proof Sh4 as (U1 & U2 & U3 & U4).
  assert (nth_error (upd m b k4) b = Some k4) as N4 by (eapply nth_upd; eauto).
  rewrite Hlv. rewrite (padd_in cf _ b _ k4) by (try congruence; rewrite ?U2, ?T2; lia). cbn [bind].
  destruct (copy_part cf (upd m b k4) b k4 (o + hdr_size cf + Zlen c1 + Zlen l1) rv l2 N4) as (k5 & E5 & Sh5 & G5); auto.
  { congruence. } { lia. } { rewrite U2, T2. lia. }
  { intros X. destruct (S2 X) as [SB SC]. split.
    - apply (bytes_at_upd m b k k4); auto. { eapply shape_trans; eauto. }
      destruct SC as [SC|[SC SC']]; auto. right. intros i Hi. rewrite G4. rin. rewrite G3. rin. reflexivity.
    - destruct SC as [SC|[_ SC]]; auto. right. lia. }
  rewrite E5. cbn [bind]. rewrite upd_upd. pose proof Sh5 as (V1 & V2 & V3 & V4).
  assert (nth_error (upd m b k5) b = Some k5) as N5 by (eapply nth_upd; eauto).
  destruct (set_char_sets cf (upd m b k5) b o k5 (Zlen c1 + Zlen c2 + (Zlen l1 + Zlen l2)) 0 N5) as (k6 & E6 & Sh6 & G6).
  { congruence. } { rewrite V2, U2, T2. lia. }
  rewrite E6. cbn [bind]. rewrite upd_upd. exists k6. split; [reflexivity|].
  assert (shape k k6) as Sh by (eapply shape_trans; [|eassumption]; eapply shape_trans; [|eassumption]; eapply shape_trans; eassumption).
  split; auto. pose proof Sh as (X1 & X2 & X3 & X4). split.
  - apply buf_in_intro; auto; try congruence.
    + intros i Hi. rewrite G6. rin. rewrite G5. rin. rewrite G4. rin. rewrite G3. rin. rewrite !Zlen_app. f_equal; [|lia]. f_equal. lia.
    + apply chars_app. split; [apply chars_app; split; [|apply chars_app; split; [|apply chars_app; split]]|].
      * apply (chars_eq k _ (o + hdr_size cf)); auto. intros i Hi. rewrite G6. rin. rewrite G5. rin. rewrite G4. rin. rewrite G3. rin. reflexivity.
      * intros i Hi. rewrite G6. rin. rewrite G5. rin. rewrite G4. rin. do 2 f_equal. lia.
      * intros i Hi. rewrite G6. rin. rewrite G5. rin. do 2 f_equal. lia.
      * apply (chars_eq k _ (o + hdr_size cf + Zlen c1 + (Zlen l1 + Zlen l2))); auto. intros i Hi.
        rewrite G6. rin. rewrite G5. rin. rewrite G4. rin. rewrite G3. rin. f_equal. lia.
      * intros i Hi. change (Zlen [0]) with 1 in Hi. rewrite !Zlen_app. rewrite G6. rin. replace i with 0 by lia. reflexivity.
    + rewrite !Zlen_app. lia.
    + intros Y. rewrite X4, X2. auto.
  - intros i Hi. rewrite G6. rin. rewrite G5. rin. rewrite G4. rin. rewrite G3. rin. reflexivity.
Qed.
