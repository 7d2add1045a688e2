(** The AES model is the cipher of FIPS-197. *)
From Coq Require Import ZifyNat.
From Verif Require Import Base Mem MemLemmas PackModel PackProofs AesModel AesSpec AesProofs.
Ltac Zify.zify_post_hook ::= Z.to_euclidean_division_equations.

(** ** States *)
Definition shows_state (s : state) (l : list Z) : Prop :=
  block16 l /\ forall r c, (r < 4)%nat -> (c < 4)%nat -> s r c = ix l (r + 4 * c).
Ltac four r := destruct r as [|[|[|[|r]]]]; [| | | |exfalso; lia].

Lemma load_shows : forall l, block16 l -> shows_state (load_state l) l.
Proof. intros l H. split; auto. Qed.
Lemma store_shows : forall s l, shows_state s l -> store_state s = l.
Proof.
  intros s l [[L F] H]. unfold store_state.
  transitivity (map (fun i => ix l i) (seq 0 16)).
  - apply map_ext_in. intros i Hi. apply in_seq in Hi. rewrite H by lia. f_equal. lia.
  - destr16 l. reflexivity.
Qed.
Lemma ix_map : forall f l i, (i < length l)%nat -> ix (map f l) i = f (ix l i).
Proof. intros f l i H. unfold ix. rewrite (nth_indep _ 0 (f 0)) by (rewrite map_length; lia). apply map_nth. Qed.
Lemma sub_shows : forall s l, shows_state s l -> shows_state (SubBytes s) (map sbox l).
Proof.
  intros s l [B H]. split; [auto with aes|]. intros r c Hr Hc. unfold SubBytes. rewrite H by auto. destruct B as [L F].
  rewrite sbox_spec by (now apply Forall_ix). symmetry. apply ix_map; lia.
Qed.
Lemma unsub_shows : forall s l, shows_state s l -> shows_state (InvSubBytes s) (map invsbox l).
Proof.
  intros s l [B H]. split; [auto with aes|]. intros r c Hr Hc. unfold InvSubBytes. rewrite H by auto. destruct B as [L F].
  rewrite invsbox_spec by (now apply Forall_ix). symmetry. apply ix_map; lia.
Qed.
Lemma shift_shows : forall s l, shows_state s l -> shows_state (ShiftRows s) (closed_shift l).
Proof.
  intros s l [B H]. split; [auto with aes|]. intros r c Hr Hc. unfold ShiftRows. rewrite H by lia. destruct B as [L F]. clear F H.
  destr16 l. four r; four c; reflexivity.
Qed.
Lemma unshift_shows : forall s l, shows_state s l -> shows_state (InvShiftRows s) (closed_unshift l).
Proof.
  intros s l [B H]. split; [auto with aes|]. intros r c Hr Hc. unfold InvShiftRows. rewrite H by lia. destruct B as [L F]. clear F H.
  destr16 l. four r; four c; reflexivity.
Qed.
Lemma by_cols_nth : forall f s r c, (forall a b c d, length (f a b c d) = 4%nat) -> (r < 4)%nat -> (c < 4)%nat ->
  ix (by_cols f s) (r + 4 * c) = ix (f (ix s (4 * c)) (ix s (4 * c + 1)) (ix s (4 * c + 2)) (ix s (4 * c + 3))) r.
Proof.
  intros f s r c Hf Hr Hc. unfold by_cols. cbn [seq flat_map]. pose proof (fun i => Hf (ix s (4 * i)) (ix s (4 * i + 1)) (ix s (4 * i + 2)) (ix s (4 * i + 3))) as L.
  pose proof (L 0%nat) as L0. pose proof (L 1%nat) as L1. pose proof (L 2%nat) as L2. pose proof (L 3%nat) as L3. clear L.
  set (x0 := f _ _ _ _) in *. set (x1 := f _ _ _ _) in L1 |- *. set (x2 := f _ _ _ _) in L2 |- *. set (x3 := f _ _ _ _) in L3 |- *.
  unfold ix. four c; repeat first [rewrite app_nth1 by lia; f_equal; lia | rewrite app_nth2 by lia]; f_equal; lia.
Qed.
Lemma mix_shows : forall s l, shows_state s l -> shows_state (MixColumns s) (by_cols mixcol l).
Proof.
  intros s l [B H]. split; [auto with aes|]. intros r c Hr Hc. rewrite by_cols_nth by auto. unfold MixColumns, mix. rewrite !H by lia. destruct B as [L F].
  rewrite !(Nat.add_comm _ (4 * c)), Nat.add_0_r.
  pose proof (Forall_ix l (4 * c) F). pose proof (Forall_ix l (4 * c + 1) F). pose proof (Forall_ix l (4 * c + 2) F). pose proof (Forall_ix l (4 * c + 3) F).
  four r; cbn [Nat.add Nat.sub Nat.modulo Nat.divmod fst snd nth mixcol ix]; rewrite ?gmul1, ?gmul2, ?gmul3 by assumption; unfold xor4, ix; xor_eq.
Qed.
Lemma unmix_shows : forall s l, shows_state s l -> shows_state (InvMixColumns s) (by_cols uncol l).
Proof.
  intros s l [B H]. split; [auto with aes|]. intros r c Hr Hc. rewrite by_cols_nth by auto. unfold InvMixColumns, mix. rewrite !H by lia. destruct B as [L F].
  rewrite !(Nat.add_comm _ (4 * c)), Nat.add_0_r.
  pose proof (Forall_ix l (4 * c) F). pose proof (Forall_ix l (4 * c + 1) F). pose proof (Forall_ix l (4 * c + 2) F). pose proof (Forall_ix l (4 * c + 3) F).
  four r; cbn [Nat.add Nat.sub Nat.modulo Nat.divmod fst snd nth uncol ix]; rewrite ?gmul9, ?gmul11, ?gmul13, ?gmul14 by assumption; unfold unrow, xor4, ix; xor_eq.
Qed.
(** The round keys of the schedule [ks] are the words [w]. *)
Definition same_keys (w : list (list Z)) (ks : list Z) (n : nat) : Prop :=
  schedule_ok ks n /\ forall i r c, (i <= n)%nat -> (r < 4)%nat -> (c < 4)%nat ->
    nth r (nth (4 * i + c) w []) 0 = ix (key_at ks i) (r + 4 * c).
Lemma xor_bytes_nth : forall a b i, length a = length b -> ix (xor_bytes a b) i = Z.lxor (ix a i) (ix b i).
Proof. unfold ix. induction a as [|x a IH]; intros [|y b] [|i] L; try discriminate; cbn [xor_bytes nth]; auto. Qed.
Lemma add_shows : forall s l w ks n i, shows_state s l -> same_keys w ks n -> (i <= n)%nat ->
  shows_state (AddRoundKey s w i) (xor_bytes l (key_at ks i)).
Proof.
  intros s l w ks n i [B H] [K E] Hi. pose proof (key_at_block ks n i K Hi) as Kb. split; [auto with aes|]. intros r c Hr Hc. unfold AddRoundKey.
  rewrite H by auto. rewrite (E i) by auto. rewrite xor_bytes_nth; auto. destruct B as [-> _], Kb as [-> _]. reflexivity.
Qed.

(** ** Cipher *)
Lemma fold_rel : forall (f : state -> nat -> state) (g : list Z -> nat -> list Z) (R : state -> list Z -> Prop) n,
  (forall s t j, (j <= n)%nat -> R s t -> R (f s j) (g t j)) ->
  forall js s t, Forall (fun j => (j <= n)%nat) js -> R s t -> R (fold_left f js s) (fold_left g js t).
Proof. intros f g R n H. induction js as [|j js IH]; intros s t F H0; [exact H0|]. inversion F; subst. cbn [fold_left]. apply IH; auto. Qed.
Lemma round_shows : forall w ks n s t j, same_keys w ks n -> (j <= n)%nat -> shows_state s t ->
  shows_state (AddRoundKey (MixColumns (ShiftRows (SubBytes s))) w j) (aes_enc_round t (key_at ks j)).
Proof.
  intros w ks n s t j K Hj H. pose proof K as [Ks _]. rewrite enc_round_eq by (first [apply H|apply key_at_block with n; auto]).
  apply add_shows with n; auto. now apply mix_shows, shift_shows, sub_shows.
Qed.
Lemma last_shows : forall w ks n s t, same_keys w ks n -> shows_state s t ->
  shows_state (AddRoundKey (ShiftRows (SubBytes s)) w n) (aes_enc_lastround t (key_at ks n)).
Proof.
  intros w ks n s t K H. pose proof K as [Ks _]. rewrite enc_lastround_eq by (first [apply H|apply key_at_block with n; auto]).
  apply add_shows with n; auto. now apply shift_shows, sub_shows.
Qed.
Lemma white_shows : forall w ks n s t, same_keys w ks n -> shows_state s t ->
  shows_state (AddRoundKey s w 0) (add_key (key_at ks 0) t).
Proof.
  intros w ks n s t K H. pose proof K as [Ks _]. pose proof (key_at_block ks n 0 Ks ltac:(lia)) as K0.
  rewrite add_key_eq by (first [apply H|apply K0]). apply add_shows with n; auto; lia.
Qed.
Lemma cipher_eq : forall l w ks n, block16 l -> same_keys w ks n -> aes_encrypt_core l ks n = Cipher l n w.
Proof.
  intros l w ks n B K. unfold Cipher. rewrite core_eq. symmetry. apply store_shows.
  apply last_shows; [exact K|].
  apply (fold_rel (fun s round => AddRoundKey (MixColumns (ShiftRows (SubBytes s))) w round)
    (fun s j => aes_enc_round s (key_at ks j)) shows_state n).
  - intros s t j Hj H. exact (round_shows w ks n s t j K Hj H).
  - exact (seq_le n n (le_n n)).
  - exact (white_shows w ks n _ _ K (load_shows l B)).
Qed.
Definition unshows (s : state) (t : list Z) : Prop := shows_state (InvSubBytes (InvShiftRows s)) t.
Lemma unround_shows : forall w ks n s t j, same_keys w ks n -> (j <= n)%nat -> unshows s t ->
  unshows (InvMixColumns (AddRoundKey (InvSubBytes (InvShiftRows s)) w j)) (aes_dec_round t (key_at ks j)).
Proof.
  unfold unshows. intros w ks n s t j K Hj H. pose proof K as [Ks _]. rewrite dec_round_eq by (first [apply H|apply key_at_block with n; auto]).
  apply unsub_shows, unshift_shows, unmix_shows. apply add_shows with n; auto.
Qed.
Lemma unfirst_shows : forall w ks n s t, same_keys w ks n -> shows_state s t ->
  unshows (AddRoundKey s w n) (aes_dec_firstround t (key_at ks n)).
Proof.
  unfold unshows. intros w ks n s t K H. pose proof K as [Ks _]. rewrite dec_firstround_eq by (first [apply H|apply key_at_block with n; auto]).
  apply unsub_shows, unshift_shows. apply add_shows with n; auto.
Qed.
Lemma inv_cipher_eq : forall l w ks n, block16 l -> same_keys w ks n -> aes_decrypt_core l ks n = InvCipher l n w.
Proof.
  intros l w ks n B K. unfold InvCipher. rewrite uncore_eq. symmetry. apply store_shows.
  apply white_shows with n; [exact K|].
  apply (fold_rel (fun s round => InvMixColumns (AddRoundKey (InvSubBytes (InvShiftRows s)) w round))
    (fun s j => aes_dec_round s (key_at ks j)) unshows n).
  - intros s t j Hj H. exact (unround_shows w ks n s t j K Hj H).
  - exact (Forall_rev (seq_le n n (le_n n))).
  - exact (unfirst_shows w ks n _ _ K (load_shows l B)).
Qed.
