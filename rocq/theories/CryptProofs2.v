(** Proofs about CBC mode: texts and blocks, enc256cbc and dec256cbc. *)
From Verif Require Import Base Mem Libc StrviewModel Spec MemLemmas StrviewProofs StrviewProofs2 StrviewProofs3 Alloc StrbufModel BufSpec
  StrbufProofs StrbufProofs2 PackModel PackProofs AesModel AesSpec AesProofs AesProofs2 AesProofs3 CryptModel CryptSpec CryptProofs.

(** ** Blocks of a text *)
Lemma chunk_len : forall n l, length (chunk n l) = n.
Proof. induction n as [|n IH]; intros l; cbn [chunk length]; auto. Qed.
Lemma chunk_blocks : forall n l, Forall is_byte l -> (16 * n <= length l)%nat -> Forall block16 (chunk n l).
Proof.
  induction n as [|n IH]; intros l F L; cbn [chunk]; constructor.
  - split; [rewrite firstn_length; lia|]. rewrite <- (firstn_skipn 16 l) in F. now apply Forall_app in F.
  - apply IH; [|rewrite skipn_length; lia]. rewrite <- (firstn_skipn 16 l) in F. now apply Forall_app in F.
Qed.
Lemma concat_chunk : forall n l, (16 * n <= length l)%nat -> concat (chunk n l) = firstn (16 * n) l.
Proof.
  induction n as [|n IH]; intros l L; [reflexivity|]. cbn [chunk concat]. rewrite IH by (rewrite skipn_length; lia).
  replace (16 * S n)%nat with (16 + 16 * n)%nat by lia. rewrite <- (firstn_skipn 16 l) at 3. rewrite firstn_app, firstn_firstn, firstn_length.
  rewrite Nat.min_r by lia. rewrite Nat.min_l by lia. now replace (16 + 16 * n - 16)%nat with (16 * n)%nat by lia.
Qed.
Lemma chunk_concat : forall bs r, Forall block16 bs -> chunk (length bs) (concat bs ++ r) = bs.
Proof.
  induction bs as [|b bs IH]; intros r F; [reflexivity|]. apply Forall_cons_iff in F as [[L _] F]. cbn [length chunk concat].
  rewrite <- app_assoc, firstn_app, skipn_app, L, Nat.sub_diag, firstn_O, skipn_O, app_nil_r, firstn_all2, skipn_all2 by lia. cbn [app].
  now rewrite IH.
Qed.
Lemma concat_len : forall bs, Forall block16 bs -> length (concat bs) = (16 * length bs)%nat.
Proof. intros bs F. pose proof (concat_blocks_len bs F) as H. unfold Zlen in H. lia. Qed.
Lemma blocks_concat : forall bs, Forall block16 bs -> blocks_of (concat bs) = bs.
Proof.
  intros bs F. unfold blocks_of. rewrite concat_len by auto. replace (16 * length bs / 16)%nat with (length bs) by (rewrite Nat.mul_comm, Nat.div_mul; lia).
  rewrite <- (app_nil_r (concat bs)). now apply chunk_concat.
Qed.

Lemma pkcs7_len : forall l, length (pkcs7 l) = (16 * (length l / 16 + 1))%nat.
Proof.
  intros l. unfold pkcs7. rewrite app_length, repeat_length. pose proof (Nat.mod_upper_bound (length l) 16). pose proof (Nat.div_mod (length l) 16). lia.
Qed.
Lemma padded_len : forall n, padded_size (Z.of_nat n) = Z.of_nat (16 * (n / 16 + 1)).
Proof. intros n. unfold padded_size. rewrite Nat2Z.inj_mul, Nat2Z.inj_add, Nat2Z.inj_div. lia. Qed.
Lemma pkcs7_Zlen : forall l, Zlen (pkcs7 l) = padded_size (Zlen l).
Proof. intros l. unfold Zlen. now rewrite pkcs7_len, padded_len. Qed.
Lemma pkcs7_byte : forall l, Forall is_byte l -> Forall is_byte (pkcs7 l).
Proof.
  intros l F. unfold pkcs7. apply Forall_app. split; auto. apply Forall_forall. intros x Hx. apply repeat_spec in Hx. subst x.
  unfold is_byte. lia.
Qed.
Lemma pkcs7_blocks : forall l, Forall is_byte l -> Forall block16 (blocks_of (pkcs7 l)) /\ concat (blocks_of (pkcs7 l)) = pkcs7 l /\
  length (blocks_of (pkcs7 l)) = (length l / 16 + 1)%nat.
Proof.
  intros l F. unfold blocks_of. pose proof (pkcs7_len l) as L. rewrite L. replace (16 * (length l / 16 + 1) / 16)%nat with (length l / 16 + 1)%nat by (rewrite Nat.mul_comm, Nat.div_mul; lia).
  split; [apply chunk_blocks; [now apply pkcs7_byte|lia]|]. split; [|apply chunk_len]. rewrite concat_chunk by lia. apply firstn_all2. lia.
Qed.
Lemma unpad_pkcs7 : forall l, unpad (pkcs7 l) = l.
Proof.
  intros l. unfold unpad. assert (length l mod 16 < 16)%nat as Hm by (apply Nat.mod_upper_bound; lia).
  assert (last (pkcs7 l) 0 = Z.of_nat (16 - length l mod 16)) as ->.
  { unfold pkcs7. destruct (16 - length l mod 16)%nat as [|n] eqn:E; [lia|]. cbn [repeat].
    replace (Z.of_nat (S n) :: repeat (Z.of_nat (S n)) n) with (repeat (Z.of_nat (S n)) n ++ [Z.of_nat (S n)]) by (symmetry; apply repeat_cons).
    now rewrite app_assoc, last_last. }
  rewrite Nat2Z.id. unfold pkcs7. rewrite app_length, repeat_length. rewrite Nat.add_sub, firstn_app, Nat.sub_diag. cbn [firstn].
  rewrite app_nil_r. apply firstn_all2. lia.
Qed.

(** ** The two chaining loops are CBC *)
Lemma cbc_run_spec : forall E P p iv, block_fun E -> Forall block16 (p :: P) -> block16 iv -> cbc_run E (xor_bytes p iv) P = cbc_encrypt E iv (p :: P).
Proof.
  intros E. induction P as [|p1 P IH]; intros p iv HE F Hi; cbn [cbc_run cbc_encrypt]; apply Forall_cons_iff in F as [[Lp Bp] F];
    rewrite xor_word by (destruct Hi; congruence); [reflexivity|]. f_equal. apply IH; auto. apply HE. apply xor_block; auto. split; auto.
Qed.
Lemma cbc_unrun_spec : forall D C iv, block_fun D -> Forall block16 C -> block16 iv -> cbc_unrun D iv C = cbc_decrypt D iv C.
Proof.
  intros D. induction C as [|c C IH]; intros iv HD F Hi; cbn [cbc_unrun cbc_decrypt]; auto. apply Forall_cons_iff in F as [Fc F].
  pose proof (HD c Fc) as [Ld _]. destruct Hi as [Li _]. rewrite xor_word by congruence. f_equal. now apply IH.
Qed.
Lemma cbc_encrypt_blocks : forall E P iv, block_fun E -> Forall block16 P -> block16 iv -> Forall block16 (cbc_encrypt E iv P).
Proof.
  intros E. induction P as [|p P IH]; intros iv HE F Hi; cbn [cbc_encrypt]; auto. apply Forall_cons_iff in F as [[Lp Bp] F].
  rewrite xor_word by (destruct Hi; congruence). assert (block16 (xor_bytes p iv)) by (apply xor_block; auto; split; auto). constructor; auto.
Qed.
Lemma cbc_encrypt_len : forall E P iv, length (cbc_encrypt E iv P) = length P.
Proof. intros E. induction P as [|p P IH]; intros iv; cbn [cbc_encrypt length]; auto. Qed.
Lemma cbc_decrypt_blocks : forall D C iv, block_fun D -> Forall block16 C -> block16 iv -> Forall block16 (cbc_decrypt D iv C).
Proof. intros D C iv HD F Hi. rewrite <- cbc_unrun_spec by auto. now apply cbc_unrun_blocks. Qed.
Lemma cbc_inverse : forall E D P iv, block_fun E -> (forall s, block16 s -> D (E s) = s) -> Forall block16 P -> block16 iv ->
  cbc_decrypt D iv (cbc_encrypt E iv P) = P.
Proof.
  intros E D. induction P as [|p P IH]; intros iv HE HD F Hi; cbn [cbc_encrypt cbc_decrypt]; auto. apply Forall_cons_iff in F as [[Lp Bp] F].
  pose proof Hi as [Li Bi]. rewrite !(xor_word p iv) by congruence. assert (block16 (xor_bytes p iv)) as Hx by (apply xor_block; auto; split; auto).
  rewrite HD by auto. rewrite xor_word by (rewrite xor_bytes_len; congruence). rewrite xor_bytes_inv by congruence. f_equal. apply IH; auto.
Qed.
Lemma cbc_encrypt_ext : forall E E' P iv, block_fun E -> (forall s, block16 s -> E s = E' s) -> Forall block16 P -> block16 iv ->
  cbc_encrypt E iv P = cbc_encrypt E' iv P.
Proof.
  intros E E'. induction P as [|p P IH]; intros iv HE HX F Hi; cbn [cbc_encrypt]; auto. apply Forall_cons_iff in F as [[Lp Bp] F].
  pose proof Hi as [Li Bi]. rewrite !(xor_word p iv) by congruence. assert (block16 (xor_bytes p iv)) as Hx by (apply xor_block; auto; split; auto).
  rewrite <- HX by auto. f_equal. apply IH; auto.
Qed.

(** ** The expanded key *)
Notation key_of cf key := (aes256_init cf key (repeat 0 240)).
Definition good_key (key : list Z) : Prop := length key = 32%nat /\ Forall is_byte key.
Lemma key_of_sched : forall cf key, good_key key -> sched (key_of cf key).
Proof.
  intros cf key [L F]. destruct (init_schedule cf 8 key (repeat 0 240) ltac:(lia) L F (repeat_length _ _)) as [S1 S2]. split; [exact S2|exact S1].
Qed.

Lemma ctx_init_ok : forall cf m c kc key, good_key key -> nth_error m c = Some kc -> b_live kc = true -> 240 <= b_size kc ->
  exists m', ctx_init cf m key (Ptr (PBlk c) 0) = Ok m' /\ frame m m' c 0 240 /\ bytes_at m' (Ptr (PBlk c) 0) (key_of cf key).
Proof.
  intros cf m c kc key K Hn L S. pose proof (proj1 (key_of_sched cf key K)) as Lk. unfold ctx_init. revert Lk. generalize (aes256_init cf key (repeat 0 240)).
  intros ks Lk. assert (Zlen ks = 240) as Zk by (unfold Zlen; lia). destruct (store_list_ok m c 0 ks kc Hn L) as (m' & E & F & B); [lia|lia|].
  rewrite Zk in F. exists m'. auto.
Qed.

(** ** enc256cbc, dec256cbc *)
Lemma size_bounds : forall n, 0 <= n -> n < padded_size n /\ padded_size n <= n + 16 /\ padded_size n = (Z.quot n 16 + 1) * 16.
Proof. intros n H. unfold padded_size. rewrite Z.quot_div_nonneg by lia. lia. Qed.

Lemma enc256cbc_ok : forall cf m blk o l key iv c kc kb, good_key key -> block16 iv -> bytes_at m (Ptr (PBlk blk) o) l -> Forall is_byte l ->
  Zlen l < 2147483632 -> nth_error m blk = Some kb -> o + padded_size (Zlen l) <= b_size kb ->
  nth_error m c = Some kc -> b_live kc = true -> 240 <= b_size kc -> c <> blk ->
  exists m1 m', enc256cbc cf m (Ptr (PBlk blk) o) (Zlen l) key iv (Ptr (PBlk c) 0) = Ok (padded_size (Zlen l), m') /\
    frame m m1 c 0 240 /\ frame m1 m' blk o (o + padded_size (Zlen l)) /\
    bytes_at m' (Ptr (PBlk blk) o) (cbc_text (fun s => aes256_enc s (key_of cf key)) iv l).
Proof.
  intros cf m blk o l key iv c kc kb K Hi Hl Fl Hs Hb Hsz Hc Lc Sc Ne.
  pose proof (Zlen_nonneg l) as Zl. destruct (size_bounds (Zlen l) Zl) as (B1 & B2 & B3).
  pose proof (ctx_enc_ok (key_of cf key) (key_of_sched cf key K)) as HA. pose proof (enc_with_block (key_of cf key)) as HE.
  assert (block_fun (fun s => aes256_enc s (key_of cf key))) as HF by (intros s Bs; exact (HE s (key_of_sched cf key K) Bs)). clear HE.
  revert HA HF. generalize (fun s => aes256_enc s (key_of cf key)). intros E HA HF.
  unfold enc256cbc. unfold AES_BLOCK_SIZE.
  assert (padded_size (Zlen l) <= INT_MAX) as B4 by (unfold padded_size, INT_MAX; lia).
  rewrite iadd_ok by (unfold INT_MAX, INT_MIN in *; lia). cbn [bind]. unfold imul. rewrite <- B3. rewrite int_res_ok by (unfold INT_MIN; lia). cbn [bind].
  rewrite isub_ok by (unfold INT_MAX, INT_MIN; lia). cbn [bind].
  destruct (ctx_init_ok cf m c kc key K Hc Lc Sc) as (m1 & E1 & Fr1 & Bk). rewrite E1. cbn [bind].
  assert (bytes_at m1 (Ptr (PBlk blk) o) l) as Hl1 by (eapply bytes_at_frame; [exact Fr1|exact Hl|intros X; injection X as X; congruence]).
  rewrite (padd_ok cf m1 _ l) by (auto; lia). cbn [bind]. unfold shift. cbn [p_obj p_ofs].
  unfold memset. rewrite (proj2 (Z.leb_gt (padded_size (Zlen l) - Zlen l) 0)) by lia.
  assert (nth_error m1 blk = Some kb) as Hb1 by (destruct Fr1 as (_ & O1 & _); rewrite O1; auto).
  pose proof (bytes_at_block _ _ _ _ Hl1) as (kb' & Eb & Lb & O0 & _). assert (kb' = kb) as -> by congruence. clear Eb.
  set (pn := (16 - length l mod 16)%nat). set (pad := repeat (Z.of_nat pn) pn).
  assert (pkcs7 l = l ++ pad) as Ep by reflexivity.
  assert (Zlen pad = padded_size (Zlen l) - Zlen l) as Zp by (pose proof (pkcs7_Zlen l) as X; rewrite Ep, Zlen_app in X; lia).
  rewrite <- Zp. assert (Z.of_nat pn = Zlen pad) as Zpn by (unfold pad, Zlen; now rewrite repeat_length).
  rewrite (store_cells_ok m1 blk (o + Zlen l) (Zlen pad) _ kb Hb1 Lb) by lia. cbn [bind].
  set (m2 := upd m1 blk _).
  assert (frame m1 m2 blk (o + Zlen l) (o + padded_size (Zlen l))) as Fr2.
  { replace (o + padded_size (Zlen l)) with (o + Zlen l + Zlen pad) by lia. unfold m2. now apply frame_upd. }
  assert (bytes_at m2 (Ptr (PBlk blk) (o + Zlen l)) pad) as Hp.
  { apply bytes_stored; auto; try lia. intros i Hi'. f_equal. rewrite Z.mod_small by lia. unfold pad.
    rewrite (nth_indep _ 0 (Z.of_nat pn)) by (rewrite repeat_length; lia). now rewrite nth_repeat. }
  assert (bytes_at m2 (Ptr (PBlk blk) o) (pkcs7 l)) as H2.
  { rewrite Ep. apply bytes_join; auto. eapply bytes_at_frame; [exact Fr2|exact Hl1|cbn [p_ofs]; lia]. }
  destruct (pkcs7_blocks l Fl) as (Bb & Bc & Bl). rewrite <- Bc in H2. unfold cbc_text.
  destruct (blocks_of (pkcs7 l)) as [|p P] eqn:EP; [cbn [length] in Bl; lia|].
  assert (Zlen (concat (p :: P)) = padded_size (Zlen l)) as Zc by (rewrite Bc; apply pkcs7_Zlen).
  pose proof Bb as Bb'. apply Forall_cons_iff in Bb' as [Fp FP]. pose proof (block_len p Fp) as Lp.
  cbn [concat] in H2. apply bytes_at_app in H2 as [H3 H4]. rewrite Lp in H4. unfold shift in H4. cbn [p_obj p_ofs] in H4.
  destruct (memxor_ok m2 blk o p iv H3) as (m3 & E3 & Fr3 & B5); [destruct Fp, Hi; congruence|]. rewrite E3. cbn [bind]. rewrite Lp in Fr3.
  rewrite (proj2 (Z.ltb_ge (Z.quot (Zlen l) 16 + 1) 0)) by lia.
  replace (Z.to_nat (Z.quot (Zlen l) 16 + 1)) with (S (length P)).
  2:{ cbn [length] in Bl. rewrite Bl. unfold Zlen. rewrite Z.quot_div_nonneg by lia. rewrite Z2Nat.inj_add by lia. rewrite <- (Nat2Z.id (length l / 16)), Nat2Z.inj_div. reflexivity. }
  cbn [concat] in Zc. rewrite Zlen_app, Lp in Zc. pose proof (Zlen_nonneg (concat P)).
  assert (frame m1 m3 blk o (o + padded_size (Zlen l))) as Fr13 by (eapply StrviewProofs3.frame_trans; [exact Fr2|exact Fr3|..]; lia).
  assert (block16 (xor_bytes p iv)) as Bx by (now apply xor_block).
  destruct (enc_blocks_ok cf (key_of cf key) E c HA HF P (xor_bytes p iv) m3 blk o) as (m4 & E4 & Fr4 & B6); auto.
  { cbn [concat]. apply bytes_join; auto. rewrite (block_len _ Bx). eapply bytes_at_frame; [exact Fr3|exact H4|cbn [p_ofs]; lia]. }
  { eapply bytes_at_frame; [exact Fr13|exact Bk|intros X; injection X as X; congruence]. }
  rewrite E4. cbn [bind]. exists m1, m4. split; auto. split; auto.
  cbn [concat] in Fr4. rewrite Zlen_app, (block_len _ Bx), Zc in Fr4. split.
  - eapply StrviewProofs3.frame_trans; [exact Fr13|exact Fr4|..]; lia.
  - now rewrite cbc_run_spec in B6.
Qed.

Lemma dec256cbc_ok : forall cf m blk o l key iv c kc, good_key key -> block16 iv -> bytes_at m (Ptr (PBlk blk) o) l -> Forall is_byte l ->
  16 <= Zlen l <= INT_MAX ->
  nth_error m c = Some kc -> b_live kc = true -> 240 <= b_size kc -> c <> blk ->
  let P := cbc_plain (fun s => aes256_dec s (key_of cf key)) iv l in
  exists m1 m', dec256cbc cf m (Ptr (PBlk blk) o) (Zlen l) key iv (Ptr (PBlk c) 0) = Ok (Zlen l - last P 0, m') /\
    frame m m1 c 0 240 /\ frame m1 m' blk o (o + Zlen P) /\ Zlen P = 16 * (Zlen l / 16) /\
    bytes_at m' (Ptr (PBlk blk) o) P /\ Forall is_byte P.
Proof.
  intros cf m blk o l key iv c kc K Hi Hl Fl Hs Hc Lc Sc Ne.
  pose proof (ctx_dec_ok (key_of cf key) (key_of_sched cf key K)) as HA. pose proof (dec_with_block (key_of cf key)) as HE.
  assert (block_fun (fun s => aes256_dec s (key_of cf key))) as HF by (intros s Bs; exact (HE s (key_of_sched cf key K) Bs)). clear HE.
  revert HA HF. generalize (fun s => aes256_dec s (key_of cf key)). intros D HA HF P.
  set (n := (length l / 16)%nat). assert (16 * n <= length l)%nat as Hn by (unfold n; apply Nat.mul_div_le; lia).
  assert (1 <= n)%nat as Hn1 by (unfold n; apply Nat.div_le_lower_bound; unfold Zlen in *; lia).
  assert (Forall block16 (chunk n l)) as Fb by (apply chunk_blocks; auto).
  unfold dec256cbc, AES_BLOCK_SIZE. destruct (ctx_init_ok cf m c kc key K Hc Lc Sc) as (m1 & E1 & Fr1 & Bk). rewrite E1. cbn [bind].
  assert (bytes_at m1 (Ptr (PBlk blk) o) l) as Hl1 by (eapply bytes_at_frame; [exact Fr1|exact Hl|intros X; injection X as X; congruence]).
  rewrite Z.quot_div_nonneg by lia. assert (Zlen l / 16 = Z.of_nat n) as Eq by (unfold n, Zlen; now rewrite Nat2Z.inj_div).
  rewrite Eq. rewrite (proj2 (Z.ltb_ge (Z.of_nat n) 0)) by lia. rewrite Nat2Z.id.
  assert (bytes_at m1 (Ptr (PBlk blk) o) (concat (chunk n l))) as Hb.
  { rewrite concat_chunk by auto. rewrite <- (firstn_skipn (16 * n) l) in Hl1. now apply bytes_at_app in Hl1. }
  destruct (dec_blocks_ok cf (key_of cf key) D c HA HF (chunk n l) iv m1 blk o) as (m2 & E2 & Fr2 & B2); auto.
  rewrite chunk_len in E2. rewrite E2. cbn [bind].
  rewrite cbc_unrun_spec in B2 by auto. assert (concat (cbc_decrypt D iv (chunk n l)) = P) as EP by reflexivity. clearbody P. rewrite EP in B2.
  assert (Forall block16 (cbc_decrypt D iv (chunk n l))) as FP by (apply cbc_decrypt_blocks; auto).
  assert (length (cbc_decrypt D iv (chunk n l)) = n) as LP by (rewrite <- cbc_unrun_spec, cbc_unrun_len by auto; apply chunk_len).
  assert (Zlen P = 16 * Z.of_nat n) as ZP by (rewrite <- EP, concat_blocks_len by auto; unfold Zlen; now rewrite LP).
  assert (Zlen (concat (chunk n l)) = Zlen P) as ZC by (rewrite concat_blocks_len by auto; unfold Zlen at 1; now rewrite chunk_len).
  rewrite ZC in *.
  assert (Forall is_byte P) as HP by (rewrite <- EP; now apply concat_blocks_byte).
  destruct (exists_last (l := P)) as (P' & x & Ex). { intros X. rewrite X in ZP. change (Zlen (@nil Z)) with 0 in ZP. lia. }
  assert (last P 0 = x) as El by (rewrite Ex; apply last_last). rewrite El. assert (Zlen P' + 1 = Zlen P) as Z' by (rewrite Ex, Zlen_app; reflexivity).
    replace (Ptr (PBlk blk) (o + Zlen P)) with (shift (Ptr (PBlk blk) o) (Zlen P)) by reflexivity.
  rewrite (padd_ok_shift cf m2 _ _ (Zlen P) (-1) B2) by (pose proof (Zlen_nonneg P'); lia). cbn [bind].
  replace (Zlen P + -1) with (Zlen P') by lia. pose proof B2 as B2'. rewrite Ex in B2'. apply bytes_at_app in B2' as [_ Bx]. apply bytes_at_cons in Bx as [Lx _]. rewrite Lx. cbn [bind].
  assert (is_byte x) as Hx by (rewrite Ex in HP; apply Forall_app in HP as [_ HP]; now apply Forall_cons_iff in HP).
  rewrite isub_ok by (unfold is_byte, INT_MAX, INT_MIN in *; lia). cbn [bind].
  exists m1, m2. split; auto 10.
Qed.
