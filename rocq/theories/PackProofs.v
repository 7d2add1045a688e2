(** Proofs about packing and unpacking. *)
From Verif Require Import Base Mem Libc StrviewModel Spec MemLemmas StrviewProofs StrviewProofs2 StrviewProofs3 StrviewProofs4
  Alloc StrbufModel BufSpec StrbufProofs StrbufProofs2 StrbufProofs3 StrbufProofs4 StrbufProofs5 PackModel PackSpec.

(** ** Representations *)
Lemma le_repr_len : forall n x, length (le_repr n x) = n.
Proof. induction n; intros x; cbn [le_repr length]; auto. Qed.
Lemma to_bytes_len : forall cf n x, length (to_bytes cf n x) = n.
Proof. intros. unfold to_bytes. destruct (c_big_endian cf); [rewrite rev_length|]; apply le_repr_len. Qed.
Lemma le_repr_byte : forall n x, Forall is_byte (le_repr n x).
Proof. induction n; intros x; cbn [le_repr]; constructor; auto. unfold is_byte. apply Z.mod_pos_bound. lia. Qed.
Lemma to_bytes_byte : forall cf n x, Forall is_byte (to_bytes cf n x).
Proof. intros. unfold to_bytes. destruct (c_big_endian cf); [apply Forall_rev|]; apply le_repr_byte. Qed.

Lemma pow256_S : forall n, 2 ^ (8 * Z.of_nat (S n)) = 256 * 2 ^ (8 * Z.of_nat n).
Proof. intros. replace (8 * Z.of_nat (S n)) with (8 + 8 * Z.of_nat n) by lia. rewrite Z.pow_add_r by lia. reflexivity. Qed.
Lemma pow_pos : forall n, 0 < 2 ^ (8 * Z.of_nat n).
Proof. intros. apply Z.pow_pos_nonneg; lia. Qed.

Lemma le_repr_mod : forall n x, le_repr n (x mod 2 ^ (8 * Z.of_nat n)) = le_repr n x.
Proof.
  induction n; intros x; cbn [le_repr]; auto. rewrite pow256_S. pose proof (pow_pos n).
  rewrite Z.rem_mul_r by lia. f_equal.
  - rewrite Z.mul_comm, Z.mod_add by lia. now rewrite Z.mod_mod by lia.
  - rewrite (Z.mul_comm 256), Z.div_add by lia. rewrite (Z.div_small (x mod 256)) by (apply Z.mod_pos_bound; lia). rewrite Z.add_0_l. apply IHn.
Qed.
Lemma le_repr_sub : forall n x y, (x - y) mod 2 ^ (8 * Z.of_nat n) = 0 -> le_repr n x = le_repr n y.
Proof.
  intros n x y H. pose proof (pow_pos n). rewrite <- (le_repr_mod n x), <- (le_repr_mod n y). f_equal.
  apply Z.mod_divide in H; [|lia]. destruct H as [k H]. replace x with (y + k * 2 ^ (8 * Z.of_nat n)) by lia. apply Z.mod_add. lia.
Qed.
Lemma conv_mod : forall t x, conv t x mod 2 ^ (8 * Z.of_nat (i_bytes t)) = x mod 2 ^ (8 * Z.of_nat (i_bytes t)).
Proof.
  intros t x. unfold conv. pose proof (pow_pos (i_bytes t)). set (n := 2 ^ _) in *. destruct (_ && _).
  - replace (x mod n - n) with (x mod n + (-1) * n) by lia. rewrite Z.mod_add, Z.mod_mod by lia. reflexivity.
  - apply Z.mod_mod. lia.
Qed.
Lemma to_bytes_conv : forall cf t x, to_bytes cf (i_bytes t) (conv t x) = to_bytes cf (i_bytes t) x.
Proof.
  intros. unfold to_bytes. assert (le_repr (i_bytes t) (conv t x) = le_repr (i_bytes t) x) as ->; auto.
  rewrite <- (le_repr_mod _ (conv t x)), conv_mod. apply le_repr_mod.
Qed.
Lemma le_repr_value : forall l, Forall is_byte l -> le_repr (length l) (le_value l) = l.
Proof.
  induction 1 as [|b l Hb _ IH]; cbn [length le_repr le_value]; auto. unfold is_byte in Hb. f_equal.
  - rewrite Z.mul_comm, Z.mod_add by lia. apply Z.mod_small. lia.
  - rewrite Z.mul_comm, Z.div_add, Z.div_small by lia. apply IH.
Qed.
Lemma to_of_bytes : forall cf t l, length l = i_bytes t -> Forall is_byte l -> to_bytes cf (i_bytes t) (of_bytes cf t l) = l.
Proof.
  intros cf t l Hl F. unfold of_bytes. rewrite to_bytes_conv. unfold to_bytes. destruct (c_big_endian cf).
  - rewrite <- Hl. rewrite <- (rev_length l). rewrite le_repr_value by (now apply Forall_rev). apply rev_involutive.
  - rewrite <- Hl. now apply le_repr_value.
Qed.
Lemma le_value_repr : forall n x, le_value (le_repr n x) = x mod 2 ^ (8 * Z.of_nat n).
Proof.
  induction n; intros x; cbn [le_repr le_value]; [cbn; now rewrite Z.mod_1_r|]. rewrite IHn, pow256_S. pose proof (pow_pos n).
  rewrite Z.rem_mul_r by lia. reflexivity.
Qed.
Lemma of_to_bytes : forall cf t x, of_bytes cf t (to_bytes cf (i_bytes t) x) = conv t x.
Proof.
  intros cf t x. unfold of_bytes, to_bytes. pose proof (pow_pos (i_bytes t)).
  assert (conv t (le_value (le_repr (i_bytes t) x)) = conv t x) as E by (unfold conv; rewrite le_value_repr, Z.mod_mod by lia; reflexivity).
  destruct (c_big_endian cf); [rewrite rev_involutive|]; exact E.
Qed.
Lemma bits_bytes : forall t, bits_of t = 8 * Z.of_nat (i_bytes t).
Proof. intros [s []]; reflexivity. Qed.
Lemma conv_id : forall t x, in_type t x -> conv t x = x.
Proof.
  intros t x. unfold in_type, conv. rewrite <- bits_bytes. intros H.
  assert (2 ^ bits_of t = 2 * 2 ^ (bits_of t - 1)) as E by (destruct t as [s []]; reflexivity).
  assert (0 < 2 ^ (bits_of t - 1)) as P by (destruct t as [s []]; cbn; lia). rewrite E in *. set (h := 2 ^ (bits_of t - 1)) in *.
  replace (2 * h / h) with 2 by (rewrite Z.div_mul; lia). replace (2 * h / 2) with h by (rewrite Z.mul_comm, Z.div_mul; lia).
  destruct (i_signed t); cbn [andb].
  - destruct (Z.lt_ge_cases x 0) as [L|L].
    + replace (x mod (2 * h)) with (x + 2 * h) by (apply Z.mod_unique with (q := -1); lia). destruct (Z.leb_spec h (x + 2 * h)); lia.
    + rewrite Z.mod_small by lia. destruct (Z.leb_spec h x); lia.
  - apply Z.mod_small. lia.
Qed.

(** ** Swapping *)
Lemma swap16_bytes : forall cf x, to_bytes cf 2 (xendian_swap16 cf x) = rev (to_bytes cf 2 x).
Proof.
  intros cf x. unfold xendian_swap16. pose proof (to_bytes_len cf 2 x) as L. pose proof (to_bytes_byte cf 2 x) as F.
  destruct (to_bytes cf 2 x) as [|a [|b [|]]]; try discriminate L. cbn [nth rev app].
  apply (to_of_bytes cf s16 [b; a]); auto. inversion F as [|? ? ? F1]; inversion F1; subst; auto.
Qed.
Lemma halves_bytes : forall cf t h x, i_bytes t = (h + h)%nat -> forall u, i_bytes u = h ->
  forall sw, (forall y, to_bytes cf h (sw y) = rev (to_bytes cf h y)) ->
  let inb := to_bytes cf (h + h) x in
  to_bytes cf (h + h) (of_bytes cf t (to_bytes cf h (sw (of_bytes cf u (skipn h inb))) ++ to_bytes cf h (sw (of_bytes cf u (firstn h inb))))) = rev inb.
Proof.
  intros cf t h x Ht u Hu sw Hs inb. pose proof (to_bytes_len cf (h + h) x) as L. pose proof (to_bytes_byte cf (h + h) x) as F. fold inb in L, F.
  rewrite !Hs. assert (Forall is_byte (firstn h inb)) as F1 by (rewrite <- (firstn_skipn h inb) in F; now apply Forall_app in F).
  assert (Forall is_byte (skipn h inb)) as F2 by (rewrite <- (firstn_skipn h inb) in F; now apply Forall_app in F).
  assert (length (firstn h inb) = h) as L1 by (rewrite firstn_length; lia).
  assert (length (skipn h inb) = h) as L2 by (rewrite skipn_length; lia).
  subst h. rewrite !to_of_bytes by auto. rewrite <- rev_app_distr, firstn_skipn. rewrite <- Ht.
  apply to_of_bytes; [rewrite rev_length; lia|now apply Forall_rev].
Qed.
Lemma swap32_bytes : forall cf x, to_bytes cf 4 (xendian_swap32 cf x) = rev (to_bytes cf 4 x).
Proof. intros cf x. exact (halves_bytes cf s32 2 x eq_refl s16 eq_refl _ (swap16_bytes cf)). Qed.
Lemma swap64_bytes : forall cf x, to_bytes cf 8 (xendian_swap64 cf x) = rev (to_bytes cf 8 x).
Proof. intros cf x. exact (halves_bytes cf s64 4 x eq_refl s32 eq_refl _ (swap32_bytes cf)). Qed.
Lemma SWAP_bytes : forall cf t x, to_bytes cf (i_bytes t) (xendian_SWAP cf t x) = rev (to_bytes cf (i_bytes t) x).
Proof.
  intros cf [s w] x. unfold xendian_SWAP. destruct w; cbn [i_width].
  - pose proof (to_bytes_len cf 1 x) as L. unfold i_bytes. cbn [i_width bytes_of]. destruct (to_bytes cf 1 x) as [|a [|]]; try discriminate L. reflexivity.
  - rewrite to_bytes_conv. unfold i_bytes. cbn [i_width bytes_of]. rewrite swap16_bytes. f_equal. exact (to_bytes_conv cf s16 x).
  - rewrite to_bytes_conv. unfold i_bytes. cbn [i_width bytes_of]. rewrite swap32_bytes. f_equal. exact (to_bytes_conv cf s32 x).
  - rewrite to_bytes_conv. unfold i_bytes. cbn [i_width bytes_of]. rewrite swap64_bytes. f_equal. exact (to_bytes_conv cf s64 x).
Qed.

(** ** The bytes on the wire *)
Lemma le_repr_digits : forall n x, le_repr n x = map (digit x) (seq 0 n).
Proof.
  induction n; intros x; cbn [le_repr seq map]; auto. f_equal; [unfold digit; cbn; now rewrite Z.div_1_r|].
  rewrite IHn, <- seq_shift, map_map. apply map_ext. intros i. unfold digit. f_equal.
  rewrite Z.div_div by (try lia; apply Z.pow_pos_nonneg; lia). f_equal. replace (Z.of_nat (S i)) with (1 + Z.of_nat i) by lia. rewrite Z.pow_add_r by lia. reflexivity.
Qed.
Lemma map_seq_rev : forall {A} (f : nat -> A) n, rev (map f (seq 0 n)) = map (fun i => f (n - 1 - i)%nat) (seq 0 n).
Proof.
  intros A f n. induction n; auto. rewrite seq_S at 1. cbn [Nat.add]. rewrite map_app, rev_app_distr. cbn [map rev app].
  rewrite IHn. cbn [seq map]. f_equal; [f_equal; lia|]. rewrite <- seq_shift, map_map. apply map_ext_in. intros i Hi. apply in_seq in Hi. f_equal. lia.
Qed.
Lemma wire_repr : forall o t x, wire o t x = match o with LE => le_repr (i_bytes t) x | BE => rev (le_repr (i_bytes t) x) end.
Proof.
  intros o t x. unfold wire. assert (Z.to_nat (bits_of t / 8) = i_bytes t) as -> by (destruct t as [s []]; reflexivity).
  destruct o; rewrite le_repr_digits; [reflexivity|]. now rewrite map_seq_rev.
Qed.
Lemma wire_len : forall o t x, length (wire o t x) = i_bytes t.
Proof. intros. rewrite wire_repr. destruct o; [|rewrite rev_length]; apply le_repr_len. Qed.
Lemma wire_byte : forall o t x, Forall is_byte (wire o t x).
Proof. intros. rewrite wire_repr. destruct o; [|apply Forall_rev]; apply le_repr_byte. Qed.

Lemma pack_bytes : forall cf o t x, to_bytes cf (i_bytes t) (conv t (xendian_pack cf o t x)) = wire o t x.
Proof.
  intros cf o t x. rewrite to_bytes_conv, wire_repr. unfold xendian_pack. destruct o, (c_big_endian cf) eqn:E.
  - rewrite SWAP_bytes. unfold to_bytes. rewrite E. apply rev_involutive.
  - unfold to_bytes. now rewrite E.
  - unfold to_bytes. now rewrite E.
  - rewrite SWAP_bytes. unfold to_bytes. now rewrite E.
Qed.
Lemma unpack_value : forall cf o t x, in_type t x -> conv t (xendian_unpack cf o t (of_bytes cf t (wire o t x))) = x.
Proof.
  intros cf o t x Hx. change (xendian_unpack cf o) with (xendian_pack cf o).
  assert (forall a b, to_bytes cf (i_bytes t) a = to_bytes cf (i_bytes t) b -> conv t a = conv t b) as Inj
    by (intros a b H; now rewrite <- (of_to_bytes cf t a), H, of_to_bytes).
  etransitivity; [|exact (conv_id t x Hx)]. apply Inj. rewrite <- (to_bytes_conv cf t (xendian_pack _ _ _ _)). rewrite pack_bytes.
  set (y := of_bytes cf t (wire o t x)). assert (to_bytes cf (i_bytes t) y = wire o t x) as Hy.
  { apply to_of_bytes; [apply wire_len|apply wire_byte]. }
  rewrite wire_repr in *. unfold to_bytes in *. destruct (c_big_endian cf), o; try exact Hy.
  - now rewrite <- Hy, rev_involutive.
  - now rewrite Hy, rev_involutive.
Qed.

(** ** Unpacking *)
Lemma unpack_ok : forall cf m v o t x rest, has_view m v (wire o t x ++ rest) -> in_type t x ->
  STRVIEW_UNPACK cf o m t v = Ok (x, if match rest with [] => true | _ => false end then INVALID
                                     else subview v (Z.of_nat (i_bytes t)) (Zlen rest)).
Proof.
  intros cf m v o t x rest H Hx. pose proof H as (HB & HS & HM & HF). unfold STRVIEW_UNPACK.
  assert (Zlen (wire o t x) = Z.of_nat (i_bytes t)) as Lw by (unfold Zlen; now rewrite wire_len).
  apply bytes_at_app in HB as [HB _]. pose proof (load_bytes_ok _ _ _ HB) as LB. rewrite wire_len in LB. rewrite LB. cbn [bind].
  rewrite unpack_value by auto. rewrite <- Lw. assert (0 < Zlen (wire o t x)) as Lp by (rewrite Lw; destruct t as [s []]; cbn; lia).
  destruct rest as [|c r].
  - rewrite (sub_out cf m v (wire o t x ++ [])); auto; try (unfold INT_MIN, INT_MAX in *; zl; lia).
    + destruct (wire o t x); [cbn in Lp; lia|discriminate].
    + unfold py_in, py_index. zl. rewrite (proj2 (Z.ltb_ge (Zlen (wire o t x)) 0)) by lia. change (Zlen (@nil Z)) with 0. lia.
  - rewrite (sub_from cf m v _ _ H) by discriminate. reflexivity.
Qed.

(** ** Packing *)
Lemma nth_error_firstn' : forall {A} (l : list A) n i, (i < n)%nat -> nth_error (firstn n l) i = nth_error l i.
Proof. intros A. induction l as [|x l IH]; intros [|n] [|i] H; cbn; auto; try lia. apply IH. lia. Qed.
Lemma mem_wf_firstn : forall m n, mem_wf m -> mem_wf (firstn n m).
Proof.
  intros m n [W1 W2].
  assert (forall i k, nth_error (firstn n m) i = Some k -> nth_error m i = Some k) as E.
  { intros i k H. pose proof (nth_error_lt _ _ _ H) as L. rewrite firstn_length in L. rewrite nth_error_firstn' in H by lia. exact H. }
  split; [intros i k H; apply (W1 i k); auto|]. intros i j ki kj Hi Hj. apply (W2 i j); auto.
Qed.

Lemma local_fresh : forall cf w base l, wf_cfg cf -> mem_wf (s_mem w) ->
  mem_wf (s_mem (snd (push_local cf w base l))).
Proof.
  intros cf w base l W Wm. cbn [push_local snd with_mem s_mem]. destruct (place_spec cf (s_mem w) (Choice false false base) (Zlen l) W) as (P1 & _ & P3).
  apply mem_wf_snoc; auto; cbn [b_base b_size]; [apply Zlen_nonneg|]. intros i ki Hi Hl. unfold apart. cbn [b_base b_size].
  destruct (P3 ki (nth_error_In _ _ Hi) Hl); auto.
Qed.

Lemma pop_local_ok : forall cf w base l p p' w2 B B', wf_cfg cf -> buf_at cf (s_mem w) p B ->
  let q := fst (push_local cf w base l) in
  let w1 := snd (push_local cf w base l) in
  touches cf (s_mem w1) (s_mem w2) p p' B -> mem_wf (s_mem w2) -> buf_at cf (s_mem w2) p' B' ->
  touches cf (s_mem w) (s_mem (pop_local w2 q)) p p' B /\ mem_wf (s_mem (pop_local w2 q)) /\ buf_at cf (s_mem (pop_local w2 q)) p' B'.
Proof.
  intros cf w base l p p' w2 B B' W HB q w1 T Wm HB'. subst q w1. cbn [push_local fst snd with_mem s_mem] in *.
  set (k0 := Block _ _ _ _ _) in *. set (m := s_mem w) in *. set (m2 := s_mem w2) in *.
  destruct T as (b & b' & T1 & T2 & T3 & T4 & T5 & T6 & T7 & T8 & T9 & T10).
  destruct HB as (b0 & k & Ep & En & Hin). assert (b0 = b) as -> by congruence. pose proof (nth_error_lt _ _ _ En) as Lb.
  assert (length (m ++ [k0]) = S (length m)) as Lm by (rewrite app_length; cbn; lia). rewrite Lm in T4, T6, T7, T8, T9.
  assert (nth_error m2 (length m) = Some k0) as E0.
  { rewrite T7 by lia. rewrite nth_error_app2, Nat.sub_diag by lia. reflexivity. }
  assert (b' <> length m) as Nb by (destruct T9 as [->|(_ & T9 & _)]; lia).
  assert (forall i, i <> b -> (i < length m)%nat -> nth_error m2 i = nth_error m i) as Same.
  { intros i Hi Hl. rewrite T7 by lia. now rewrite nth_error_app1 by auto. }
  unfold pop_local. cbn [p_obj with_mem s_mem]. change (s_mem w2) with m2. destruct (S (length m) =? length m2)%nat eqn:E.
  - apply Nat.eqb_eq in E. assert (b' = b) as -> by (destruct T9 as [->|(_ & T9 & _)]; lia).
    assert (length (firstn (length m) m2) = length m) as Lf by (rewrite firstn_length; lia).
    split; [|split].
    + exists b, b. split; auto. split; auto. split; auto. split; auto. rewrite Lf. split; auto. split; auto. split; [|split; [|split; [auto|]]].
      * intros i Hi Hl. rewrite nth_error_firstn' by auto. now apply Same.
      * intros i k1 Hi Hn H. apply nth_error_lt in H. lia.
      * intros D. specialize (T10 D) as (F1 & F2 & F3). split; [exact Lf|]. split.
        -- intros i Hi. destruct (Nat.lt_ge_cases i (length m)) as [Hl|Hl]; [rewrite nth_error_firstn' by auto; now apply Same|].
           rewrite (proj2 (nth_error_None m i)) by auto. apply nth_error_None. lia.
        -- intros k1 H1. rewrite nth_error_firstn' by auto. apply F3. now rewrite nth_error_app1.
    + now apply mem_wf_firstn.
    + destruct HB' as (b1 & k1 & E1 & E2 & E3). exists b1, k1. split; auto. split; auto.
      assert (b1 = b) as -> by congruence. rewrite nth_error_firstn'; auto.
  - apply Nat.eqb_neq in E. assert (dyn B = true) as D.
    { destruct (dyn B) eqn:D; auto. exfalso. specialize (T10 eq_refl) as (F1 & _). lia. }
    split; [|split; [now apply mem_wf_kill|]].
    + exists b, b'. split; auto. split; auto. split; auto. split; auto. rewrite kill_at_len. split; auto. split; [lia|]. split; [|split; [|split]].
      * intros i Hi Hl. rewrite kill_at_neq by lia. now apply Same.
      * intros i k1 Hi Hn H. destruct (Nat.eq_dec i (length m)) as [->|Ni].
        -- rewrite (kill_at_some _ _ _ E0) in H. rewrite (nth_upd _ _ _ _ E0) in H. injection H as <-. reflexivity.
        -- rewrite kill_at_neq in H by auto. apply (T8 i); auto. lia.
      * destruct T9 as [->|(T9a & T9b & T9c)]; [auto|right]. split; auto. split; [lia|]. intros k1 H. rewrite kill_at_neq in H by lia. eauto.
      * congruence.
    + destruct HB' as (b1 & k1 & E1 & E2 & E3). exists b1, k1. split; auto. split; auto.
      assert (b1 = b') as -> by congruence. rewrite kill_at_neq; auto.
Qed.

Lemma buf_at_snoc : forall cf m p B k, buf_at cf m p B -> buf_at cf (m ++ [k]) p B.
Proof. intros cf m p B k (b & k0 & E1 & E2 & E3). exists b, k0. split; auto. split; auto. rewrite nth_error_app1; auto. now apply nth_error_lt in E2. Qed.

Lemma pack_ok : forall cf o w p B base t x, wf_cfg cf -> c_ptr cf = true -> mem_wf (s_mem w) -> no_fail w -> buf_at cf (s_mem w) p B ->
  sums_ok cf (Zlen (bf_data B) + Z.of_nat (i_bytes t)) ->
  exists p' w', STRBUF_PACK cf o w (Some p) base t x = Ok (Some p', w') /\
    buf_at cf (s_mem w') p' (put cf B (bf_data B ++ wire o t x)) /\
    touches cf (s_mem w) (s_mem w') p p' B /\ mem_wf (s_mem w') /\ no_fail w'.
Proof.
  intros cf o w p B base t x W Hc Wm Nf HB Hs. unfold STRBUF_PACK. rewrite pack_bytes.
  destruct (push_local cf w base (wire o t x)) as [q w1] eqn:E.
  assert (Zlen (wire o t x) = Z.of_nat (i_bytes t)) as Lw by (unfold Zlen; now rewrite wire_len).
  pose proof (local_fresh cf w base (wire o t x) W Wm) as W1. rewrite E in W1. cbn [snd] in W1.
  pose proof E as E'. unfold push_local in E. injection E as Eq Ew.
  assert (buf_at cf (s_mem w1) p B) as HB1 by (rewrite <- Ew; cbn [with_mem s_mem]; now apply buf_at_snoc).
  assert (p_obj q <> p_obj p) as Ne.
  { destruct HB as (b & k & E1 & E2 & _). apply nth_error_lt in E2. rewrite E1, <- Eq. cbn. intros H. injection H as H. lia. }
  assert (has_view (s_mem w1) (View q (Z.of_nat (i_bytes t))) (wire o t x)) as HV.
  { unfold has_view. cbn [v_data v_size]. split; [|split; [auto|split; [rewrite Lw; destruct t as [s []]; cbn; unfold INT_MAX; lia|apply wire_byte]]].
    rewrite <- Ew, <- Eq. unfold bytes_at. cbn [p_obj p_ofs with_mem s_mem]. eexists. split.
    - apply access_ok; [rewrite nth_error_app2, Nat.sub_diag by lia; reflexivity|reflexivity].
    - cbn [b_size b_get]. split; [lia|]. split; [lia|]. intros i Hi. reflexivity. }
  assert (source cf (s_mem w1) p B (View q (Z.of_nat (i_bytes t))) (wire o t x)) as Src.
  { apply src_outside; auto. split; [|left; exact Ne]. cbn [v_data]. rewrite <- Eq. cbn. eauto. }
  assert (no_fail w1) as Nf1 by (rewrite <- Ew; exact Nf).
  destruct (append_ok cf w1 p B _ _ W (or_introl Hc) W1 Nf1 HB1 Src) as (p' & w2 & R & A1 & A2 & A3 & A4); [now rewrite Lw|].
  rewrite R. cbn [bind]. exists p', (pop_local w2 q). split; auto.
  destruct (pop_local_ok cf w base (wire o t x) p p' w2 B (put cf B (bf_data B ++ wire o t x)) W HB) as (P1 & P2 & P3); try (rewrite E'; cbn [snd]; eassumption); try eassumption.
  rewrite E' in P1, P2, P3. cbn [fst] in P1, P2, P3. split; auto. split; auto. split; auto.
  intros n. unfold pop_local. destruct (p_obj q); apply A4.
Qed.

(** ** Messages *)
Lemma encoded_cons : forall o t x M, encoded ((o, t, x) :: M) = wire o t x ++ encoded M.
Proof. reflexivity. Qed.

Lemma sums_le : forall cf a b, a <= b -> sums_ok cf b -> sums_ok cf a.
Proof. intros cf a b L [H|H]; [left; auto|right; lia]. Qed.

Lemma pack_all_ok : forall cf M w p B base, wf_cfg cf -> c_ptr cf = true -> mem_wf (s_mem w) -> no_fail w -> buf_at cf (s_mem w) p B ->
  fits B (bf_data B ++ encoded M) = true -> sums_ok cf (Zlen (bf_data B ++ encoded M)) ->
  exists p' w' cap', pack_all cf w (Some p) M base = Ok (Some p', w') /\
    buf_at cf (s_mem w') p' (Buffer (bf_data B ++ encoded M) cap' (bf_alloc B)) /\
    touches cf (s_mem w) (s_mem w') p p' B /\ mem_wf (s_mem w') /\ no_fail w'.
Proof.
  intros cf. induction M as [|[[o t] x] M IH]; intros w p B base W Hc Wm Nf HB Hf Hs.
  - cbn [pack_all encoded flat_map]. rewrite app_nil_r. exists p, w, (bf_cap B). split; auto. destruct B as [dd cc aa]. cbn [bf_data bf_cap bf_alloc]. split; auto. split; [now apply touches_refl|auto].
  - cbn [pack_all]. rewrite encoded_cons in *.
    assert (Zlen (wire o t x) = Z.of_nat (i_bytes t)) as Lw by (unfold Zlen; now rewrite wire_len).
    pose proof (Zlen_nonneg (encoded M)) as Le. rewrite !Zlen_app in Hs.
    destruct (pack_ok cf o w p B (base O) t x W Hc Wm Nf HB) as (p1 & w1 & R & A1 & A2 & A3 & A4).
    { rewrite <- Lw. eapply sums_le; [|exact Hs]. lia. }
    rewrite R. cbn [bind]. unfold put in A1.
    assert (fits B (bf_data B ++ wire o t x) = true) as Hf1.
    { unfold fits in *. rewrite !Zlen_app in *. destruct (dyn B); apply Z.leb_le in Hf; apply Z.leb_le; lia. }
    rewrite Hf1 in A1. set (B1 := Buffer _ _ _) in A1.
    destruct (IH w1 p1 B1 (fun n => base (S n)) W Hc A3 A4 A1) as (p2 & w2 & cap2 & R2 & C1 & C2 & C3 & C4).
    + subst B1. cbn [bf_data]. unfold fits in *. change (dyn (Buffer _ _ _)) with (dyn B). cbn [bf_cap]. rewrite <- app_assoc.
      destruct (dyn B) eqn:D; [exact Hf|]. unfold grown. rewrite D. exact Hf.
    + subst B1. cbn [bf_data]. rewrite !Zlen_app. rewrite <- Z.add_assoc. exact Hs.
    + subst B1. cbn [bf_data bf_alloc] in *. rewrite <- app_assoc in C1. exists p2, w2, cap2. split; auto. split; auto. split; auto.
      apply (touches_trans cf (s_mem w) (s_mem w1) (s_mem w2) p p1 p2 B (Buffer (bf_data B ++ wire o t x) (bf_cap (grown cf B (Zlen (bf_data B ++ wire o t x)))) (bf_alloc B))); auto.
      intros D. cbn [bf_cap]. unfold grown. now rewrite D.
Qed.

Lemma unpack_all_ok : forall cf m M v rest, has_view m v (encoded M ++ rest) -> message_ok M ->
  exists v', unpack_all cf m v (map fst M) = Ok (map snd M, v') /\
    (rest <> [] -> v' = subview v (Zlen (encoded M)) (Zlen rest)) /\ (rest = [] -> M <> [] -> v' = INVALID).
Proof.
  intros cf m. induction M as [|[[o t] x] M IH]; intros v rest H Ok.
  - cbn [encoded flat_map app] in *. exists v. split; [reflexivity|]. split; [|congruence]. intros _. destruct H as (_ & HS & _). rewrite <- HS. now rewrite subview_0.
  - inversion Ok as [|? ? Hx Ok']; subst. rewrite encoded_cons, <- app_assoc in H. cbn [map fst snd unpack_all].
    rewrite (unpack_ok cf m v o t x _ H Hx). cbn [bind].
    assert (Zlen (wire o t x) = Z.of_nat (i_bytes t)) as Lw by (unfold Zlen; now rewrite wire_len).
    destruct (encoded M ++ rest) as [|c r] eqn:E.
    + destruct M as [|[[o' t'] x'] M].
      * cbn [encoded flat_map app] in E. subst rest. cbn [map unpack_all bind]. exists INVALID. split; auto. split; [congruence|auto].
      * exfalso. rewrite encoded_cons in E. pose proof (wire_len o' t' x') as L. destruct (wire o' t' x'); [destruct t' as [s []]; discriminate L|discriminate E].
    + rewrite <- E in *. rewrite <- Lw. apply has_view_suffix in H.
      destruct (IH _ rest H Ok') as (v' & R & R1 & R2). rewrite R. cbn [bind]. exists v'. split; auto. split.
      * intros Hr. rewrite (R1 Hr), subview_subview. rewrite encoded_cons. now rewrite Zlen_app.
      * intros Hr _. apply R2; auto. intros ->. subst rest. discriminate E.
Qed.
Lemma strbuf_view_ok : forall cf w p B, wf_cfg cf -> buf_at cf (s_mem w) p B -> strbuf_view cf w (Some p) = Ok (buf_view cf p B).
Proof. intros cf w p B W H. unfold strbuf_view. rewrite (on_buf_ok cf (s_mem w) p B) by auto. now apply view_ok. Qed.
Lemma unpack_in_view : forall cf m1 m2 v o t l1 l2 a1 a2, has_view m1 v l1 -> has_view m2 v l2 -> Zlen l1 = Zlen l2 ->
  bits_of t <= 8 * Zlen l1 -> firstn (Z.to_nat (bits_of t / 8)) l1 = firstn (Z.to_nat (bits_of t / 8)) l2 ->
  STRVIEW_UNPACK cf o m1 t v = Ok a1 -> STRVIEW_UNPACK cf o m2 t v = Ok a2 -> fst a1 = fst a2.
Proof.
  intros cf m1 m2 v o t l1 l2 a1 a2 H1 H2 HL Hb E. assert (Z.to_nat (bits_of t / 8) = i_bytes t) as N by (destruct t as [s []]; reflexivity). rewrite N in E.
  rewrite bits_bytes in Hb. unfold Zlen in *.
  assert (forall m l, has_view m v l -> length l = length l1 -> load_bytes m (v_data v) (i_bytes t) = Ok (firstn (i_bytes t) l)) as LB.
  { intros m l (HB & _) Hl. rewrite <- (firstn_skipn (i_bytes t) l) in HB. apply bytes_at_app in HB as [HB _]. pose proof (load_bytes_ok _ _ _ HB) as L.
    rewrite firstn_length in L. replace (Nat.min (i_bytes t) (length l)) with (i_bytes t) in L by lia. exact L. }
  unfold STRVIEW_UNPACK. rewrite (LB m1 l1 H1), (LB m2 l2 H2) by lia. rewrite E. cbn [bind].
  destruct (strview_sub cf m1 v (Z.of_nat (i_bytes t)) INT_MAX); cbn [bind]; try discriminate.
  destruct (strview_sub cf m2 v (Z.of_nat (i_bytes t)) INT_MAX); cbn [bind]; try discriminate.
  intros A1 A2. injection A1 as <-. injection A2 as <-. reflexivity.
Qed.
