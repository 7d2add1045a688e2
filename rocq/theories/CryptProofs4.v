(** Proofs about strbuf_encrypt and strbuf_decrypt: encryption, decryption, round trip. *)
From Verif Require Import Base Mem Libc StrviewModel Spec MemLemmas StrviewProofs StrviewProofs2 StrviewProofs3 Alloc StrbufModel BufSpec
  StrbufProofs StrbufProofs2 StrbufProofs5 StrbufProofs6 PackModel PackProofs AesModel AesSpec AesProofs AesProofs2 AesProofs3 CryptModel CryptSpec
  CryptProofs CryptProofs2 CryptProofs3.

Lemma crypt_ok : forall cf f w p B base key iv l' cap, wf_cfg cf -> mem_wf (s_mem w) -> no_fail w -> buf_at cf (s_mem w) p B ->
  Zlen (bf_data B) < 2147483632 -> (dyn B = false -> padded_size (Zlen (bf_data B)) <= bf_cap B) ->
  cap <= crypt_cap B -> does f key iv (bf_data B) l' cap -> Zlen l' <= crypt_cap B -> Forall is_byte l' ->
  becomes_crypt cf w p B (strbuf_crypt cf f w (Some p) base key iv) l'.
Proof.
  intros cf f w p B base key iv l' cap W Wm Nf HB Hl Hr Hc Hf Hl' Fl'. unfold becomes_crypt, crypt_cap in *. destruct (dyn B) eqn:D.
  - destruct (crypt_dyn_ok cf f w p B base key iv l' cap W Wm Nf HB D Hl Hc Hf Hl' Fl') as (p' & w' & E & HB' & T & Wm' & Nf').
    exists p', w'. do 5 (split; auto). discriminate.
  - destruct (crypt_fixed_ok cf f w p B base key iv l' cap W Wm Nf HB D Hl (Hr eq_refl) Hc Hf Hl' Fl') as (w' & E & HB' & T & Wm' & Nf').
    exists p, w'. do 5 (split; auto).
Qed.

Lemma enc_text : forall cf key iv l, good_key key -> block16 iv -> Forall is_byte l ->
  Zlen (cbc_text (fun s => aes256_enc s (key_of cf key)) iv l) = padded_size (Zlen l) /\ Forall is_byte (cbc_text (fun s => aes256_enc s (key_of cf key)) iv l).
Proof.
  intros cf key iv l K Hi Fl. pose proof (enc_with_block (key_of cf key)) as HE.
  assert (block_fun (fun s => aes256_enc s (key_of cf key))) as HF by (intros s Bs; exact (HE s (key_of_sched cf key K) Bs)). clear HE.
  revert HF. generalize (fun s => aes256_enc s (key_of cf key)). intros E HF.
  destruct (pkcs7_blocks l Fl) as (Bb & Bc & Bl). unfold cbc_text. pose proof (cbc_encrypt_blocks E _ iv HF Bb Hi) as FB.
  split; [|now apply concat_blocks_byte]. rewrite concat_blocks_len by auto. unfold Zlen at 1. rewrite cbc_encrypt_len, Bl. unfold Zlen. rewrite padded_len. lia.
Qed.

Lemma enc_does : forall cf key iv l, good_key key -> block16 iv -> Forall is_byte l -> Zlen l < 2147483632 ->
  does (enc256cbc cf) key iv l (cbc_text (fun s => aes256_enc s (key_of cf key)) iv l) (padded_size (Zlen l)).
Proof.
  intros cf key iv l K Hi Fl Hl m blk o c kc kb Hb Hn Hs Hc Lc Sc Ne.
  destruct (enc256cbc_ok cf m blk o l key iv c kc kb K Hi Hb Fl Hl Hn Hs Hc Lc Sc Ne) as (m1 & m' & E & F1 & F2 & B').
  exists m1, m'. rewrite (proj1 (enc_text cf key iv l K Hi Fl)). auto.
Qed.

Lemma encrypt_ok : forall cf w p B base key iv, wf_cfg cf -> mem_wf (s_mem w) -> no_fail w -> buf_at cf (s_mem w) p B ->
  good_key key -> block16 iv -> Zlen (bf_data B) < 2147483632 -> (dyn B = false -> padded_size (Zlen (bf_data B)) <= bf_cap B) ->
  becomes_crypt cf w p B (strbuf_encrypt cf w (Some p) base key iv) (cbc_text (fun s => aes256_enc s (key_of cf key)) iv (bf_data B)).
Proof.
  intros cf w p B base key iv W Wm Nf HB K Hi Hl Hr. destruct (buf_at_cap _ _ _ _ HB) as [_ Fl].
  destruct (enc_text cf key iv (bf_data B) K Hi Fl) as [Lt Ft].
  assert (padded_size (Zlen (bf_data B)) <= crypt_cap B) as Hc by (unfold crypt_cap; destruct (dyn B); [lia|auto]).
  unfold strbuf_encrypt. apply crypt_ok with (padded_size (Zlen (bf_data B))); auto; [now apply enc_does|lia].
Qed.

(** ** Decryption *)
Lemma Zskip_len : forall n (l : list Z), 0 <= n <= Zlen l -> Zlen (skipn (Z.to_nat n) l) = Zlen l - n.
Proof. intros n l H. unfold Zlen in *. rewrite skipn_length. lia. Qed.

Lemma dec_does : forall cf key iv l, good_key key -> block16 iv -> Forall is_byte l -> 16 <= Zlen l <= INT_MAX ->
  let P := cbc_plain (fun s => aes256_dec s (key_of cf key)) iv l in last P 0 <= Zlen l ->
  does (dec256cbc cf) key iv l (unpad_with (last P 0) (P ++ skipn (length P) l)) (Zlen l).
Proof.
  intros cf key iv l K Hi Fl Hl P HP m blk o c kc kb Hb Hn Hs Hc Lc Sc Ne.
  destruct (dec256cbc_ok cf m blk o l key iv c kc K Hi Hb Fl Hl Hc Lc Sc Ne) as (m1 & m' & E & F1 & F2 & LP & BP & FP). fold P in E, F2, LP, BP, FP.
  clearbody P. assert (Zlen P <= Zlen l) as LP' by lia. pose proof (Zlen_nonneg P) as ZP.
  assert (Zlen (P ++ skipn (length P) l) = Zlen l) as La.
  { rewrite Zlen_app. replace (length P) with (Z.to_nat (Zlen P)) by (unfold Zlen; lia). rewrite Zskip_len by lia. lia. }
  assert (0 <= last P 0) as H0.
  { destruct (exists_last (l := P)) as (P' & x & ->); [intros X; rewrite X in LP; change (Zlen (@nil Z)) with 0 in LP; lia|].
    rewrite last_last. apply Forall_app in FP as [_ FP]. apply Forall_cons_iff in FP as [FP _]. unfold is_byte in FP. lia. }
  exists m1, m'. split; [|split; [exact F1|split]].
  - rewrite E. do 2 f_equal. unfold unpad_with. unfold Zlen in *. rewrite firstn_length. lia.
  - eapply StrviewProofs3.frame_weak; [exact F2|lia|lia].
  - assert (bytes_at m' (Ptr (PBlk blk) o) (P ++ skipn (length P) l)) as BB.
    { apply bytes_join; auto. assert (bytes_at m1 (Ptr (PBlk blk) o) l) as Hl1 by (eapply bytes_at_frame; [exact F1|exact Hb|intros X; injection X as X; congruence]).
      rewrite <- (firstn_skipn (length P) l) in Hl1. apply bytes_at_app in Hl1 as [_ Hl2].
      replace (Zlen (firstn (length P) l)) with (Zlen P) in Hl2 by (unfold Zlen in *; rewrite firstn_length; lia).
      eapply bytes_at_frame; [exact F2|exact Hl2|cbn [p_ofs shift]; lia]. }
    unfold unpad_with. rewrite <- (firstn_skipn (length (P ++ skipn (length P) l) - Z.to_nat (last P 0)) (P ++ skipn (length P) l)) in BB.
    now apply bytes_at_app in BB as [BB _].
Qed.

Lemma dec_text : forall cf key iv l, good_key key -> block16 iv -> Forall is_byte l -> 16 <= Zlen l <= INT_MAX ->
  let P := cbc_plain (fun s => aes256_dec s (key_of cf key)) iv l in
  Zlen P = 16 * (Zlen l / 16) /\ Forall is_byte P.
Proof.
  intros cf key iv l K Hi Fl Hl P. pose proof (dec_with_block (key_of cf key)) as HE.
  assert (block_fun (fun s => aes256_dec s (key_of cf key))) as HF by (intros s Bs; exact (HE s (key_of_sched cf key K) Bs)). clear HE.
  unfold P. revert HF. generalize (fun s => aes256_dec s (key_of cf key)). intros D HF. unfold cbc_plain, blocks_of.
  assert (Forall block16 (chunk (length l / 16) l)) as Fb by (apply chunk_blocks; auto; apply Nat.mul_div_le; lia).
  pose proof (cbc_decrypt_blocks D _ iv HF Fb Hi) as FB. split; [|now apply concat_blocks_byte]. rewrite concat_blocks_len by auto.
  rewrite <- cbc_unrun_spec by auto. unfold Zlen at 1. rewrite cbc_unrun_len, chunk_len. unfold Zlen. rewrite Nat2Z.inj_div. reflexivity.
Qed.

Lemma decrypt_ok : forall cf w p B base key iv, wf_cfg cf -> mem_wf (s_mem w) -> no_fail w -> buf_at cf (s_mem w) p B ->
  good_key key -> block16 iv -> 16 <= Zlen (bf_data B) < 2147483632 -> (dyn B = false -> padded_size (Zlen (bf_data B)) <= bf_cap B) ->
  let P := cbc_plain (fun s => aes256_dec s (key_of cf key)) iv (bf_data B) in last P 0 <= Zlen (bf_data B) ->
  becomes_crypt cf w p B (strbuf_decrypt cf w (Some p) base key iv) (unpad_with (last P 0) (P ++ skipn (length P) (bf_data B))).
Proof.
  intros cf w p B base key iv W Wm Nf HB K Hi Hl Hr P HP. destruct (buf_at_cap _ _ _ _ HB) as [C Fl].
  assert (16 <= Zlen (bf_data B) <= INT_MAX) as Hl2 by (unfold INT_MAX; lia).
  destruct (dec_text cf key iv (bf_data B) K Hi Fl Hl2) as [Lt Ft].
  assert (Zlen (bf_data B) <= crypt_cap B) as Hc by (unfold crypt_cap; destruct (dyn B); lia).
  pose proof (dec_does cf key iv (bf_data B) K Hi Fl Hl2 HP) as HD. fold P in Lt, Ft, HD.
  unfold strbuf_decrypt. apply crypt_ok with (Zlen (bf_data B)); auto; try lia.
  - clearbody P. unfold unpad_with. pose proof (Zlen_nonneg P).
    assert (Zlen (P ++ skipn (length P) (bf_data B)) = Zlen (bf_data B)) as La.
    { rewrite Zlen_app. replace (length P) with (Z.to_nat (Zlen P)) by (unfold Zlen; lia). rewrite Zskip_len by lia. lia. }
    unfold Zlen in *. rewrite firstn_length. lia.
  - clearbody P. unfold unpad_with. set (L := P ++ _). assert (Forall is_byte L) as FL.
    { unfold L. apply Forall_app. split; auto. rewrite <- (firstn_skipn (length P) (bf_data B)) in Fl. now apply Forall_app in Fl. }
    rewrite <- (firstn_skipn (length L - Z.to_nat (last P 0)) L) in FL. now apply Forall_app in FL.
Qed.

(** ** Round trip *)
Lemma plain_text : forall cf key iv l, good_key key -> block16 iv -> Forall is_byte l ->
  cbc_plain (fun s => aes256_dec s (key_of cf key)) iv (cbc_text (fun s => aes256_enc s (key_of cf key)) iv l) = pkcs7 l.
Proof.
  intros cf key iv l K Hi Fl. pose proof (enc_with_block (key_of cf key)) as HE.
  assert (block_fun (fun s => aes256_enc s (key_of cf key))) as HF by (intros s Bs; exact (HE s (key_of_sched cf key K) Bs)). clear HE.
  assert (forall s, block16 s -> (fun s => aes256_dec s (key_of cf key)) ((fun s => aes256_enc s (key_of cf key)) s) = s) as HI.
  { intros s Bs. exact (dec_enc_with (key_of cf key) s (key_of_sched cf key K) Bs). }
  revert HF HI. generalize (fun s => aes256_enc s (key_of cf key)), (fun s => aes256_dec s (key_of cf key)). intros E D HF HI.
  destruct (pkcs7_blocks l Fl) as (Bb & Bc & Bl). unfold cbc_plain, cbc_text. rewrite blocks_concat by (now apply cbc_encrypt_blocks).
  rewrite cbc_inverse by auto. exact Bc.
Qed.

Lemma pkcs7_last : forall l, last (pkcs7 l) 0 = Z.of_nat (16 - length l mod 16).
Proof.
  intros l. assert (length l mod 16 < 16)%nat as Hm by (apply Nat.mod_upper_bound; lia).
  unfold pkcs7. destruct (16 - length l mod 16)%nat as [|n] eqn:E; [lia|]. cbn [repeat].
  replace (Z.of_nat (S n) :: repeat (Z.of_nat (S n)) n) with (repeat (Z.of_nat (S n)) n ++ [Z.of_nat (S n)]) by (symmetry; apply repeat_cons).
  now rewrite app_assoc, last_last.
Qed.

(** A buffer that holds an encrypted text. *)
Lemma decrypt_text_ok : forall cf w p B base key iv l, wf_cfg cf -> mem_wf (s_mem w) -> no_fail w -> buf_at cf (s_mem w) p B ->
  good_key key -> block16 iv -> Forall is_byte l -> Zlen l < 2147483616 ->
  bf_data B = cbc_text (fun s => aes256_enc s (key_of cf key)) iv l -> (dyn B = false -> padded_size (Zlen l) + 16 <= bf_cap B) ->
  becomes_crypt cf w p B (strbuf_decrypt cf w (Some p) base key iv) l.
Proof.
  intros cf w p B base key iv l W Wm Nf HB K Hi Fl Hl HD Hr.
  destruct (enc_text cf key iv l K Hi Fl) as [Lt _]. rewrite <- HD in Lt. pose proof (Zlen_nonneg l) as Zl. destruct (size_bounds _ Zl) as (B1 & B2 & _).
  pose proof (plain_text cf key iv l K Hi Fl) as EP. rewrite <- HD in EP.
  assert (16 <= Zlen (bf_data B) < 2147483632) as Hs by (rewrite Lt; unfold padded_size; lia).
  assert (padded_size (padded_size (Zlen l)) = padded_size (Zlen l) + 16) as Ep by (unfold padded_size; lia).
  pose proof (decrypt_ok cf w p B base key iv W Wm Nf HB K Hi Hs) as H. rewrite Lt, Ep in H. specialize (H Hr). cbn zeta in H. rewrite EP in H.
  rewrite pkcs7_last in H. assert (length l mod 16 < 16)%nat as Hm by (apply Nat.mod_upper_bound; lia).
  specialize (H ltac:(unfold padded_size; lia)).
  assert (skipn (length (pkcs7 l)) (bf_data B) = []) as Es.
  { apply skipn_all2. pose proof (pkcs7_Zlen l) as X. rewrite <- Lt in X. unfold Zlen in X. lia. }
  rewrite Es, app_nil_r in H. replace (unpad_with (Z.of_nat (16 - length l mod 16)) (pkcs7 l)) with l in H; auto.
  rewrite <- (unpad_pkcs7 l) at 1. unfold unpad, unpad_with. now rewrite pkcs7_last.
Qed.

Lemma round_trip_ok : forall cf w p B base base' key iv, wf_cfg cf -> mem_wf (s_mem w) -> no_fail w -> buf_at cf (s_mem w) p B ->
  good_key key -> block16 iv -> Zlen (bf_data B) < 2147483616 -> (dyn B = false -> padded_size (Zlen (bf_data B)) + 16 <= bf_cap B) ->
  exists p1 w1 p2 w2, strbuf_encrypt cf w (Some p) base key iv = Ok (INVALID, Some p1, w1) /\
    strbuf_decrypt cf w1 (Some p1) base' key iv = Ok (INVALID, Some p2, w2) /\
    buf_at cf (s_mem w2) p2 (Buffer (bf_data B) (if dyn B then Z.max (bf_cap B) (padded_size (Zlen (bf_data B)) + 16) else bf_cap B) (bf_alloc B)) /\
    touches cf (s_mem w) (s_mem w2) p p2 B /\ mem_wf (s_mem w2) /\ no_fail w2 /\ (dyn B = false -> p2 = p).
Proof.
  intros cf w p B base base' key iv W Wm Nf HB K Hi Hl Hr. destruct (buf_at_cap _ _ _ _ HB) as [_ Fl].
  destruct (encrypt_ok cf w p B base key iv W Wm Nf HB K Hi ltac:(lia) ltac:(intros D; specialize (Hr D); lia)) as (p1 & w1 & E1 & HB1 & T1 & Wm1 & Nf1 & P1).
  destruct (enc_text cf key iv (bf_data B) K Hi Fl) as [Lt _].
  set (B1 := Buffer _ (crypt_cap B) _) in *. assert (dyn B1 = dyn B) as D1 by reflexivity.
  destruct (decrypt_text_ok cf w1 p1 B1 base' key iv (bf_data B) W Wm1 Nf1 HB1 K Hi Fl Hl eq_refl) as (p2 & w2 & E2 & HB2 & T2 & Wm2 & Nf2 & P2).
  { intros D. rewrite D1 in D. unfold B1, crypt_cap. cbn [bf_cap]. rewrite D. auto. }
  exists p1, w1, p2, w2. split; auto. split; auto. split.
  - replace (if dyn B then _ else _) with (crypt_cap B1); [exact HB2|]. unfold crypt_cap at 1. rewrite D1. unfold B1 at 1 2 3. cbn [bf_cap bf_data]. rewrite Lt.
    unfold crypt_cap. destruct (dyn B); auto. unfold padded_size. lia.
  - split; [|split; [auto|split; [auto|intros D; rewrite (P2 D); apply P1, D]]].
    apply touches_trans with (m2 := s_mem w1) (p2 := p1) (B2 := B1); auto. intros D. unfold B1, crypt_cap. cbn [bf_cap]. now rewrite D.
Qed.

(** ** A fixed buffer without room *)
Lemma crypt_no_room : forall cf f w p B base key iv, wf_cfg cf -> buf_at cf (s_mem w) p B -> dyn B = false ->
  Zlen (bf_data B) < 2147483632 -> bf_cap B < padded_size (Zlen (bf_data B)) ->
  strbuf_crypt cf f w (Some p) base key iv = Ok (INVALID, Some p, w).
Proof.
  intros cf f w p B base key iv W HB D Hl Hr. unfold strbuf_crypt. rewrite (on_buf_ok cf (s_mem w) p B) by auto. rewrite (buf_at_load cf (s_mem w) p B W HB).
  cbn [bind hdr_of h_alloc h_size h_cap]. change (is_dyn (bf_alloc B)) with (dyn B). rewrite D.
  pose proof (Zlen_nonneg (bf_data B)) as Zl. destruct (size_bounds _ Zl) as (B1 & B2 & B3).
  assert (padded_size (Zlen (bf_data B)) <= INT_MAX) as B4 by (unfold padded_size, INT_MAX; lia).
  unfold cypher_size, AES_BLOCK_SIZE. rewrite iadd_ok by (unfold INT_MIN; lia). cbn [bind]. unfold imul. rewrite <- B3. rewrite int_res_ok by (unfold INT_MIN; lia). cbn [bind].
  now rewrite (proj2 (Z.leb_gt _ _)).
Qed.
Lemma crypt_null : forall cf f w base key iv, strbuf_crypt cf f w None base key iv = Ok (INVALID, None, w).
Proof. reflexivity. Qed.

(** ** Too large *)
Lemma crypt_large : forall cf f w p B base key iv, wf_cfg cf -> c_wrapv cf = false -> buf_at cf (s_mem w) p B -> 2147483632 <= Zlen (bf_data B) ->
  strbuf_crypt cf f w (Some p) base key iv = UB UB_overflow.
Proof.
  intros cf f w p B base key iv W Hw HB Hl. unfold strbuf_crypt. rewrite (on_buf_ok cf (s_mem w) p B) by auto. rewrite (buf_at_load cf (s_mem w) p B W HB).
  cbn [bind hdr_of h_alloc h_size h_cap]. destruct (buf_at_cap _ _ _ _ HB) as [C _].
  unfold cypher_size, AES_BLOCK_SIZE. rewrite Z.quot_div_nonneg by lia.
  assert (Zlen (bf_data B) / 16 = 134217727) as -> by (unfold INT_MAX in C; lia).
  rewrite iadd_ok by (unfold INT_MAX, INT_MIN; lia). cbn [bind]. unfold imul, int_res, in_int. change (((INT_MIN <=? (134217727 + 1) * 16) && ((134217727 + 1) * 16 <=? INT_MAX))) with false.
  cbn iota. rewrite Hw. destruct (is_dyn (bf_alloc B)); reflexivity.
Qed.

(** ** AES *)
Lemma enc_is_aes : forall cf key iv l, c_big_endian cf = false -> good_key key -> block16 iv -> Forall is_byte l ->
  cbc_text (fun s => aes256_enc s (key_of cf key)) iv l = aes_cbc key iv l.
Proof.
  intros cf key iv l E K Hi Fl. unfold aes_cbc.
  pose proof (enc_with_block (key_of cf key)) as HE.
  assert (block_fun (fun s => aes256_enc s (key_of cf key))) as HF by (intros s Bs; exact (HE s (key_of_sched cf key K) Bs)). clear HE.
  assert (forall s, block16 s -> (fun s => aes256_enc s (key_of cf key)) s = AES key s) as HI.
  { intros s Bs. destruct K as [Lk Fk]. refine (proj1 (enc_spec cf 8 key (repeat 0 240) s E _ Lk Fk (repeat_length _ _) Bs)). unfold good_nk. auto. }
  revert HF HI. generalize (fun s => aes256_enc s (key_of cf key)), (AES key). intros F G HF HI.
  destruct (pkcs7_blocks l Fl) as (Bb & Bc & Bl). unfold cbc_text. f_equal. now apply cbc_encrypt_ext.
Qed.
Lemma cbc_decrypt_ext : forall D D' C iv, (forall s, block16 s -> D s = D' s) -> Forall block16 C -> cbc_decrypt D iv C = cbc_decrypt D' iv C.
Proof.
  intros D D'. induction C as [|c C IH]; intros iv HX F; cbn [cbc_decrypt]; auto. apply Forall_cons_iff in F as [Fc F]. rewrite HX by auto. f_equal. now apply IH.
Qed.
Lemma dec_is_aes : forall cf key iv l, c_big_endian cf = false -> good_key key -> Forall is_byte l ->
  cbc_plain (fun s => aes256_dec s (key_of cf key)) iv l = aes_cbc_plain key iv l.
Proof.
  intros cf key iv l E K Fl. unfold aes_cbc_plain.
  assert (forall s, block16 s -> (fun s => aes256_dec s (key_of cf key)) s = InvAES key s) as HI.
  { intros s Bs. destruct K as [Lk Fk]. refine (proj2 (enc_spec cf 8 key (repeat 0 240) s E _ Lk Fk (repeat_length _ _) Bs)). unfold good_nk. auto. }
  revert HI. generalize (fun s => aes256_dec s (key_of cf key)), (InvAES key). intros F G HI.
  unfold cbc_plain, blocks_of. f_equal. apply cbc_decrypt_ext; auto. apply chunk_blocks; auto. apply Nat.mul_div_le. lia.
Qed.

Lemma crypt_invalid : forall cf f w bp base key iv v bp' w', strbuf_crypt cf f w bp base key iv = Ok (v, bp', w') -> v = INVALID.
Proof.
  intros cf f w bp base key iv v bp' w' H. unfold strbuf_crypt, on_buf in H.
  repeat match type of H with
  | bind ?x _ = Ok _ => let E := fresh "E" in destruct x as [?|?|] eqn:E; cbn [bind] in H; try discriminate H
  | (match ?x with _ => _ end) = Ok _ => destruct x
  end; try discriminate H; injection H as <- <- <-; reflexivity.
Qed.

Lemma same_buffer : forall cf w p B base base' key iv, wf_cfg cf -> mem_wf (s_mem w) -> no_fail w -> buf_at cf (s_mem w) p B ->
  dyn B = false -> good_key key -> block16 iv -> Zlen (bf_data B) < 2147483616 ->
  padded_size (Zlen (bf_data B)) <= bf_cap B < padded_size (Zlen (bf_data B)) + 16 ->
  exists w1 l', strbuf_encrypt cf w (Some p) base key iv = Ok (INVALID, Some p, w1) /\
    buf_at cf (s_mem w1) p (Buffer l' (bf_cap B) (bf_alloc B)) /\ l' <> bf_data B /\
    strbuf_decrypt cf w1 (Some p) base' key iv = Ok (INVALID, Some p, w1).
Proof.
  intros cf w p B base base' key iv W Wm Nf HB D K Hi Hl Hr. destruct (buf_at_cap _ _ _ _ HB) as [_ Fl].
  destruct (encrypt_ok cf w p B base key iv W Wm Nf HB K Hi ltac:(lia) ltac:(lia)) as (p1 & w1 & E1 & HB1 & T1 & Wm1 & Nf1 & P1).
  destruct (enc_text cf key iv (bf_data B) K Hi Fl) as [Lt _]. rewrite (P1 D) in *. revert E1 HB1 Lt. generalize (cbc_text (fun s => aes256_enc s (key_of cf key)) iv (bf_data B)).
  intros l' E1 HB1 Lt. pose proof (Zlen_nonneg (bf_data B)) as Zl. destruct (size_bounds _ Zl) as (S1 & S2 & _).
  unfold crypt_cap in HB1. rewrite D in HB1. exists w1, l'. split; auto. split; auto. split; [intros ->; lia|].
  unfold strbuf_decrypt. eapply crypt_no_room; [auto|exact HB1|exact D|cbn [bf_data]; unfold padded_size in *; lia|cbn [bf_data bf_cap]; rewrite Lt; unfold padded_size in *; lia].
Qed.
