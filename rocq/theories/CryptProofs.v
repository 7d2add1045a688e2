(** Proofs about CBC mode on memory. *)
From Verif Require Import Base Mem Libc StrviewModel Spec MemLemmas StrviewProofs StrviewProofs2 StrviewProofs3 Alloc StrbufModel BufSpec
  StrbufProofs StrbufProofs2 PackModel PackProofs AesModel AesSpec AesProofs AesProofs2 AesProofs3 CryptModel CryptSpec.

(** ** Stores *)
Lemma store_list_ok : forall m b o l k, nth_error m b = Some k -> b_live k = true -> 0 <= o -> o + Zlen l <= b_size k ->
  exists m', store_list m (Ptr (PBlk b) o) l = Ok m' /\ frame m m' b o (o + Zlen l) /\ bytes_at m' (Ptr (PBlk b) o) l.
Proof.
  intros m b o l k Hn L H1 H2. pose proof (Zlen_nonneg l). unfold store_list. eexists. split; [apply (store_cells_ok m b o (Zlen l) _ k); auto|].
  split; [now apply frame_upd|]. now apply bytes_stored.
Qed.
Lemma bytes_at_block : forall m b o l, bytes_at m (Ptr (PBlk b) o) l -> exists k, nth_error m b = Some k /\ b_live k = true /\ 0 <= o /\ o + Zlen l <= b_size k.
Proof.
  intros m b o l (k & A & H0 & H1 & _). cbn [p_obj p_ofs access] in *. destruct (nth_error m b) as [k'|] eqn:E; [|discriminate].
  destruct (b_live k') eqn:L; [|discriminate]. injection A as ->. eauto 10.
Qed.
Lemma restore_ok : forall m b o l0 l, bytes_at m (Ptr (PBlk b) o) l0 -> length l = length l0 ->
  exists m', store_list m (Ptr (PBlk b) o) l = Ok m' /\ frame m m' b o (o + Zlen l) /\ bytes_at m' (Ptr (PBlk b) o) l.
Proof.
  intros m b o l0 l H L. apply bytes_at_block in H as (k & H1 & H2 & H3 & H4). apply store_list_ok with k; auto. unfold Zlen in *. lia.
Qed.
Lemma memxor_ok : forall m b o l s, bytes_at m (Ptr (PBlk b) o) l -> length s = length l ->
  exists m', memxor m (Ptr (PBlk b) o) s = Ok m' /\ frame m m' b o (o + Zlen l) /\ bytes_at m' (Ptr (PBlk b) o) (xor_bytes l s).
Proof.
  intros m b o l s H L. unfold memxor. rewrite L. rewrite (load_bytes_ok m l _ H). cbn [bind].
  destruct (restore_ok m b o l (xor_bytes l s) H) as (m' & E & F & B'); [apply xor_bytes_len|]. exists m'. split; auto. split; auto.
  unfold Zlen in *. now rewrite xor_bytes_len in F.
Qed.

(** ** Blocks *)
Definition sched (ks : list Z) : Prop := length ks = 240%nat /\ schedule_ok ks 14.
Lemma fourteen : (1 <= 14)%nat.
Proof. lia. Qed.
Lemma enc_with_block : forall ks s, sched ks -> block16 s -> block16 (aes256_enc s ks).
Proof. intros ks s [_ K] B. unfold aes256_enc. exact (encrypt_block s ks 14 fourteen B K). Qed.
Lemma dec_with_block : forall ks s, sched ks -> block16 s -> block16 (aes256_dec s ks).
Proof. intros ks s [_ K] B. unfold aes256_dec. exact (decrypt_block s ks 14 fourteen B K). Qed.
Lemma dec_enc_with : forall ks s, sched ks -> block16 s -> aes256_dec (aes256_enc s ks) ks = s.
Proof. intros ks s [_ K] B. unfold aes256_dec, aes256_enc. exact (decrypt_encrypt s ks 14 fourteen B K). Qed.

(** A block operation of the library acts as the function [f] under the expanded key [ks]. *)
Definition acts (op : mem -> ptr -> ptr -> outcome mem) (ks : list Z) (f : list Z -> list Z) : Prop :=
  forall m b o s ctx, bytes_at m (Ptr (PBlk b) o) s -> block16 s -> bytes_at m ctx ks ->
  exists m', op m (Ptr (PBlk b) o) ctx = Ok m' /\ frame m m' b o (o + 16) /\ bytes_at m' (Ptr (PBlk b) o) (f s).
Definition block_fun (f : list Z -> list Z) : Prop := forall s, block16 s -> block16 (f s).
Definition ctx_op (F : list Z -> list Z -> list Z) (m : mem) (buf ctx : ptr) : outcome mem :=
  let! s := load_bytes m buf 16 in let! ks := load_bytes m ctx 240 in store_list m buf (F s ks).
Lemma ctx_op_acts : forall F ks, length ks = 240%nat -> (forall s, block16 s -> block16 (F s ks)) -> acts (ctx_op F) ks (fun s => F s ks).
Proof.
  intros F ks Lk HF m b o s ctx Hs Bs Hk. unfold ctx_op. pose proof (load_bytes_ok m s _ Hs) as L1. pose proof (load_bytes_ok m ks _ Hk) as L2.
  pose proof Bs as [Ls _]. rewrite Ls in L1. rewrite Lk in L2. rewrite L1. cbn [bind]. rewrite L2. cbn [bind].
  pose proof (proj1 (HF s Bs)) as Le.
  destruct (restore_ok m b o s (F s ks) Hs) as (m' & E & Fr & B'); [now rewrite Le, Ls|]. exists m'. split; auto. split; auto.
  unfold Zlen in Fr. now rewrite Le in Fr.
Qed.
Lemma ctx_enc_ok : forall ks, sched ks -> acts ctx_enc ks (fun s => aes256_enc s ks).
Proof. intros ks K. unfold ctx_enc. exact (ctx_op_acts aes256_enc ks (proj1 K) (fun s B => enc_with_block ks s K B)). Qed.
Lemma ctx_dec_ok : forall ks, sched ks -> acts ctx_dec ks (fun s => aes256_dec s ks).
Proof. intros ks K. unfold ctx_dec. exact (ctx_op_acts aes256_dec ks (proj1 K) (fun s B => dec_with_block ks s K B)). Qed.

Lemma concat_blocks_len : forall bs, Forall block16 bs -> Zlen (concat bs) = 16 * Zlen bs.
Proof.
  induction bs as [|b bs IH]; intros F; [reflexivity|]. apply Forall_cons_iff in F as [[L _] F]. cbn [concat]. rewrite Zlen_app, Zlen_cons, IH by auto.
  unfold Zlen at 1. lia.
Qed.
Lemma concat_blocks_byte : forall bs, Forall block16 bs -> Forall is_byte (concat bs).
Proof. induction bs as [|b bs IH]; intros F; [constructor|]. apply Forall_cons_iff in F as [[_ Fb] F]. cbn [concat]. apply Forall_app; auto. Qed.
Lemma block_len : forall b, block16 b -> Zlen b = 16.
Proof. intros b [L _]. unfold Zlen. lia. Qed.

(** ** Encryption: the first block already contains the initialisation vector *)
Fixpoint cbc_run (E : list Z -> list Z) (b : list Z) (bs : list (list Z)) : list (list Z) :=
  E b :: match bs with [] => [] | b1 :: bs' => cbc_run E (xor_bytes b1 (E b)) bs' end.

Lemma cbc_run_blocks : forall E bs b, (forall s, block16 s -> block16 (E s)) -> Forall block16 (b :: bs) -> Forall block16 (cbc_run E b bs).
Proof.
  intros E. induction bs as [|b1 bs IH]; intros b HE F; cbn [cbc_run]; apply Forall_cons_iff in F as [Fb F]; constructor; auto.
  apply Forall_cons_iff in F as [F1 F]. apply IH; auto. constructor; auto using xor_block.
Qed.
Lemma cbc_run_len : forall E bs b, length (cbc_run E b bs) = S (length bs).
Proof. intros E. induction bs as [|b1 bs IH]; intros b; cbn [cbc_run length]; auto. Qed.

Lemma bytes_join : forall m b o x y, bytes_at m (Ptr (PBlk b) o) x -> bytes_at m (Ptr (PBlk b) (o + Zlen x)) y -> bytes_at m (Ptr (PBlk b) o) (x ++ y).
Proof. intros m b o x y H1 H2. apply bytes_at_app. split; auto. Qed.

Lemma enc_blocks_ok : forall cf ks f c, acts ctx_enc ks f -> block_fun f -> forall bs b m blk o, Forall block16 (b :: bs) ->
  bytes_at m (Ptr (PBlk blk) o) (concat (b :: bs)) -> bytes_at m (Ptr (PBlk c) 0) ks -> c <> blk ->
  exists m', enc_blocks cf (S (length bs)) m (Ptr (PBlk blk) o) (Ptr (PBlk c) 0) = Ok m' /\
    frame m m' blk o (o + Zlen (concat (b :: bs))) /\
    bytes_at m' (Ptr (PBlk blk) o) (concat (cbc_run f b bs)).
Proof.
  intros cf ks f c A K. induction bs as [|b1 bs IH]; intros b m blk o F H Hc Ne.
  - apply Forall_cons_iff in F as [Fb _]. cbn [concat] in *. rewrite app_nil_r in *. cbn [length enc_blocks].
    destruct (A m blk o b _ H Fb Hc) as (m1 & E1 & F1 & B1). rewrite E1. cbn [bind].
    pose proof (K b Fb) as Be. pose proof (block_len b Fb) as Lb.
    rewrite (padd_ok cf m1 _ _ AES_BLOCK_SIZE B1) by (rewrite (block_len _ Be); unfold AES_BLOCK_SIZE; lia). cbn [bind].
    exists m1. split; auto. split; [now rewrite Lb|]. cbn [cbc_run concat]. now rewrite app_nil_r.
  - apply Forall_cons_iff in F as [Fb F]. pose proof F as F'. apply Forall_cons_iff in F' as [F1 F2]. cbn [concat] in H. fold (concat (b1 :: bs)) in H.
    pose proof (block_len b Fb) as Lb. pose proof (block_len b1 F1) as Lb1.
    apply bytes_at_app in H as [H0 H1]. rewrite Lb in H1. unfold shift in H1. cbn [p_obj p_ofs] in H1.
    destruct (A m blk o b _ H0 Fb Hc) as (m1 & E1 & Fr1 & B1). pose proof (K b Fb) as Be.
    change (length (b1 :: bs)) with (S (length bs)). cbn [enc_blocks]. fold (enc_blocks cf). rewrite E1. cbn [bind].
    rewrite (padd_ok cf m1 _ _ AES_BLOCK_SIZE B1) by (rewrite (block_len _ Be); unfold AES_BLOCK_SIZE; lia). cbn [bind]. unfold shift, AES_BLOCK_SIZE. cbn [p_obj p_ofs].
    pose proof (load_bytes_ok m1 _ _ B1) as Lo. pose proof Be as [Le _]. rewrite Le in Lo. rewrite Lo. cbn [bind].
    assert (bytes_at m1 (Ptr (PBlk blk) (o + 16)) (concat (b1 :: bs))) as H2 by (eapply bytes_at_frame; [exact Fr1|exact H1|cbn [p_ofs]; lia]).
    pose proof H2 as H2'. cbn [concat] in H2'. apply bytes_at_app in H2' as [H3 H4].
    destruct (memxor_ok m1 blk (o + 16) b1 (f b) H3) as (m2 & E2 & Fr2 & B2); [destruct F1 as [-> _]; exact Le|].
    rewrite E2. cbn [bind].
    assert (bytes_at m2 (Ptr (PBlk blk) (o + 16)) (concat (xor_bytes b1 (f b) :: bs))) as H5.
    { cbn [concat]. apply bytes_join; auto. replace (Zlen (xor_bytes b1 (f b))) with (Zlen b1) by (unfold Zlen; now rewrite xor_bytes_len).
      eapply bytes_at_frame; [exact Fr2|exact H4|]. cbn [p_ofs]. rewrite Lb1. lia. }
    assert (bytes_at m2 (Ptr (PBlk c) 0) ks) as Hc2.
    { eapply bytes_at_frame; [exact Fr2| |intros X; injection X as X; contradiction]. eapply bytes_at_frame; [exact Fr1|exact Hc|intros X; injection X as X; contradiction]. }
    destruct (IH (xor_bytes b1 (f b)) m2 blk (o + 16)) as (m' & E3 & Fr3 & B3); auto.
    { constructor; auto using xor_block. }
    exists m'. split; [exact E3|].
    assert (Zlen (concat (xor_bytes b1 (f b) :: bs)) = Zlen (concat (b1 :: bs))) as Ll.
    { cbn [concat]. rewrite !Zlen_app. unfold Zlen at 1 3. now rewrite xor_bytes_len. }
    rewrite Ll in Fr3. pose proof (Zlen_nonneg (concat bs)) as Zb.
    cbn [concat] in *. rewrite !Zlen_app in *. rewrite Lb, Lb1 in *. split.
    + assert (frame m m2 blk o (o + 32)) as Fr12 by (eapply StrviewProofs3.frame_trans; [exact Fr1|exact Fr2|..]; lia).
      eapply StrviewProofs3.frame_trans; [exact Fr12|exact Fr3|..]; lia.
    + cbn [cbc_run concat]. apply bytes_join; [|now rewrite (block_len _ Be)].
      eapply bytes_at_frame; [exact Fr3| |cbn [p_ofs]; rewrite (block_len _ Be); lia].
      eapply bytes_at_frame; [exact Fr2|exact B1|cbn [p_ofs]; rewrite (block_len _ Be); lia].
Qed.

(** ** Decryption *)
Fixpoint cbc_unrun (D : list Z -> list Z) (iv : list Z) (bs : list (list Z)) : list (list Z) :=
  match bs with [] => [] | b :: bs' => xor_bytes (D b) iv :: cbc_unrun D b bs' end.
Lemma cbc_unrun_blocks : forall D bs iv, (forall s, block16 s -> block16 (D s)) -> block16 iv -> Forall block16 bs -> Forall block16 (cbc_unrun D iv bs).
Proof.
  intros D. induction bs as [|b bs IH]; intros iv HD Hi F; cbn [cbc_unrun]; auto. apply Forall_cons_iff in F as [Fb F]. constructor; auto using xor_block.
Qed.
Lemma cbc_unrun_len : forall D bs iv, length (cbc_unrun D iv bs) = length bs.
Proof. intros D. induction bs as [|b bs IH]; intros iv; cbn [cbc_unrun length]; auto. Qed.

Lemma dec_blocks_ok : forall cf ks f c, acts ctx_dec ks f -> block_fun f -> forall bs iv m blk o, Forall block16 bs -> block16 iv ->
  bytes_at m (Ptr (PBlk blk) o) (concat bs) -> bytes_at m (Ptr (PBlk c) 0) ks -> c <> blk ->
  exists m', dec_blocks cf (length bs) m (Ptr (PBlk blk) o) (Ptr (PBlk c) 0) iv = Ok (Ptr (PBlk blk) (o + Zlen (concat bs)), m') /\
    frame m m' blk o (o + Zlen (concat bs)) /\
    bytes_at m' (Ptr (PBlk blk) o) (concat (cbc_unrun f iv bs)).
Proof.
  intros cf ks f c A K. induction bs as [|b bs IH]; intros iv m blk o F Hi H Hc Ne.
  - exists m. cbn [length dec_blocks concat]. change (Zlen (@nil Z)) with 0. rewrite Z.add_0_r. split; auto. split; [apply frame_refl|exact H].
  - apply Forall_cons_iff in F as [Fb F]. cbn [concat] in H. pose proof (block_len b Fb) as Lb.
    apply bytes_at_app in H as [H0 H1]. rewrite Lb in H1. unfold shift in H1. cbn [p_obj p_ofs] in H1.
    cbn [length dec_blocks]. pose proof (load_bytes_ok m b _ H0) as Lo. pose proof Fb as [Lb' _]. rewrite Lb' in Lo. rewrite Lo. cbn [bind].
    destruct (A m blk o b _ H0 Fb Hc) as (m1 & E1 & Fr1 & B1). rewrite E1. cbn [bind].
    pose proof (K b Fb) as Bd.
    destruct (memxor_ok m1 blk o (f b) iv B1) as (m2 & E2 & Fr2 & B2); [destruct Bd as [-> _]; apply Hi|]. rewrite (block_len _ Bd) in Fr2.
    rewrite E2. cbn [bind]. pose proof (xor_block _ _ Bd Hi) as Bx.
    rewrite (padd_ok cf m2 _ _ AES_BLOCK_SIZE B2) by (rewrite (block_len _ Bx); unfold AES_BLOCK_SIZE; lia). cbn [bind]. unfold shift, AES_BLOCK_SIZE. cbn [p_obj p_ofs].
    assert (frame m m2 blk o (o + 16)) as Fr12 by (eapply StrviewProofs3.frame_trans; [exact Fr1|exact Fr2|..]; lia).
    destruct (IH b m2 blk (o + 16)) as (m' & E3 & Fr3 & B3); auto.
    { eapply bytes_at_frame; [exact Fr12|exact H1|cbn [p_ofs]; lia]. }
    { eapply bytes_at_frame; [exact Fr12|exact Hc|intros X; injection X as X; contradiction]. }
    exists m'. cbn [concat]. rewrite Zlen_app, Lb. pose proof (Zlen_nonneg (concat bs)). split; [rewrite E3; do 3 f_equal; lia|]. split.
    + eapply StrviewProofs3.frame_trans; [exact Fr12|exact Fr3|..]; lia.
    + cbn [cbc_unrun concat]. apply bytes_join; [|now rewrite (block_len _ Bx)].
      eapply bytes_at_frame; [exact Fr3|exact B2|cbn [p_ofs]; rewrite (block_len _ Bx); lia].
Qed.
