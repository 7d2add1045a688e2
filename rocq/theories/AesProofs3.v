(** The key schedule of the AES model is the key expansion of FIPS-197. *)
From Coq Require Import ZifyNat.
From Verif Require Import Base Mem MemLemmas PackModel PackProofs AesModel AesSpec AesProofs AesProofs2.
Ltac Zify.zify_post_hook ::= Z.to_euclidean_division_equations.

(** ** Words *)
Ltac fbytes := repeat (apply Forall_cons; [first [assumption|apply lxor_byte; assumption]|]); apply Forall_nil.
Definition word4 (x : list Z) : Prop := length x = 4%nat /\ Forall is_byte x.
Lemma rot_word_le : forall cf a b c d, c_big_endian cf = false -> word4 [a; b; c; d] -> rot_word cf [a; b; c; d] = [b; c; d; a].
Proof.
  intros cf a b c d E [_ F]. inv_bytes. unfold is_byte in *. unfold rot_word, of_bytes, to_bytes. rewrite E.
  assert (le_value [a; b; c; d] = a + 256 * (b + 256 * (c + 256 * d))) as -> by (cbn [le_value]; lia).
  set (v := a + _). assert (conv u32 v = v) as -> by (unfold conv; cbn [i_signed u32 andb]; change (2 ^ _) with 4294967296; apply Z.mod_small; subst v; lia).
  assert (conv u32 (Z.shiftl v 24) = a * 16777216) as ->.
  { unfold conv; cbn [i_signed u32 andb]; change (2 ^ (8 * Z.of_nat (i_bytes u32))) with 4294967296. rewrite Z.shiftl_mul_pow2 by lia. change (2 ^ 24) with 16777216. subst v. lia. }
  assert (Z.shiftr v 8 = b + 256 * (c + 256 * d)) as -> by (rewrite Z.shiftr_div_pow2 by lia; change (2 ^ 8) with 256; subst v; lia).
  assert (Z.lor (b + 256 * (c + 256 * d)) (a * 16777216) = le_value [b; c; d; a]) as ->.
  { rewrite <- Z.lxor_lor, <- Z.add_nocarry_lxor; [cbn [le_value]; lia| |].
    all: set (u := b + 256 * (c + 256 * d)); assert (0 <= u < 2 ^ 24) as Hu by (subst u; change (2 ^ 24) with 16777216; lia);
      change 16777216 with (2 ^ 24); apply Z.bits_inj'; intros n Hn; rewrite Z.land_spec, Z.bits_0;
      (destruct (Z.lt_ge_cases n 24) as [Hl|Hl];
        [rewrite Z.mul_pow2_bits_low by lia; apply andb_false_r
        |rewrite <- (Z.mod_small u (2 ^ 24)) by exact Hu; rewrite Z.mod_pow2_bits_high by lia; reflexivity]). }
  apply (le_repr_value [b; c; d; a]). repeat constructor; unfold is_byte; lia.
Qed.
Lemma xor_word : forall a b, length a = length b -> XorWord a b = xor_bytes a b.
Proof. unfold XorWord. induction a as [|x a IH]; intros [|y b] L; try discriminate; auto. cbn [combine map fst snd xor_bytes]. f_equal. apply IH. cbn in L; lia. Qed.
Lemma xor_word_ok : forall a b, word4 a -> word4 b -> word4 (xor_bytes a b).
Proof. intros a b [La Fa] [Lb Fb]. split; [now rewrite xor_bytes_len|now apply xor_bytes_byte]. Qed.
Lemma sub_word : forall a, Forall is_byte a -> SubWord a = map sbox a.
Proof. intros a F. apply map_ext_in. intros x Hx. apply sbox_spec. rewrite Forall_forall in F. auto. Qed.
Lemma sub_word_ok : forall a, word4 a -> word4 (map sbox a).
Proof. intros a [L F]. split; [now rewrite map_length|]. apply Forall_map. eapply Forall_impl; [|exact F]. apply sbox_byte. Qed.

Lemma blit_len : forall a p x, (p + length x <= length a)%nat -> length (blit a p x) = length a.
Proof. intros a p x H. unfold blit. rewrite !app_length, firstn_length, skipn_length. lia. Qed.
Lemma blit_before : forall a p x n, (n <= p)%nat -> (p <= length a)%nat -> firstn n (blit a p x) = firstn n a.
Proof. intros a p x n H L. unfold blit. rewrite firstn_app, firstn_firstn, firstn_length. replace (n - Nat.min p (length a))%nat with 0%nat by lia. cbn [firstn]. rewrite app_nil_r. f_equal. lia. Qed.
Lemma blit_upto : forall a p x, (p <= length a)%nat -> firstn (p + length x) (blit a p x) = firstn p a ++ x.
Proof.
  intros a p x L. unfold blit. rewrite app_assoc. rewrite firstn_app. rewrite app_length, firstn_length.
  replace (p + length x - (Nat.min p (length a) + length x))%nat with 0%nat by lia. cbn [firstn]. rewrite app_nil_r. apply firstn_all2. rewrite app_length, firstn_length. lia.
Qed.
Lemma word_at_before : forall a n p, (p + 4 <= n)%nat -> word_at a p = word_at (firstn n a) p.
Proof. intros a n p H. unfold word_at. rewrite skipn_firstn_comm, firstn_firstn. f_equal. lia. Qed.
Lemma word_at_blit : forall a p x, length x = 4%nat -> (p <= length a)%nat -> word_at (blit a p x) p = x.
Proof.
  intros a p x L H. rewrite (word_at_before _ (p + length x)) by lia. rewrite blit_upto by auto. unfold word_at.
  rewrite skipn_app, skipn_all2 by (rewrite firstn_length; lia). rewrite firstn_length. replace (p - Nat.min p (length a))%nat with 0%nat by lia.
  cbn [app skipn]. apply firstn_all2. lia.
Qed.
Lemma word_at_concat : forall w j, Forall word4 w -> (j < length w)%nat -> word_at (concat w) (4 * j) = nth j w [].
Proof.
  induction w as [|x w IH]; intros j F Hj; [cbn in Hj; lia|]. apply Forall_cons_iff in F as [[Lx Fx] F]. destruct j as [|j].
  - unfold word_at. change (4 * 0)%nat with 0%nat. cbn [skipn concat nth]. rewrite firstn_app, Lx, firstn_all2 by lia. cbn [Nat.sub firstn]. apply app_nil_r.
  - cbn [concat nth]. rewrite <- IH by (auto; cbn [length] in Hj; lia). unfold word_at. f_equal. rewrite skipn_app, skipn_all2 by lia. cbn [app]. f_equal. lia.
Qed.
Lemma concat_len4 : forall w, Forall word4 w -> length (concat w) = (4 * length w)%nat.
Proof. induction w as [|x w IH]; intros F; [reflexivity|]. apply Forall_cons_iff in F as [[Lx _] F]. cbn [concat length]. rewrite app_length, IH by auto. lia. Qed.
Lemma concat_byte : forall w, Forall word4 w -> Forall is_byte (concat w).
Proof. induction w as [|x w IH]; intros F; [constructor|]. apply Forall_cons_iff in F as [[_ Fx] F]. cbn [concat]. apply Forall_app; auto. Qed.
Lemma rcon_eq : forall rc, (rc < 10)%nat -> Rcon (rc + 1) = [ix rc_tab rc; 0; 0; 0].
Proof. intros rc H. do 10 (destruct rc as [|rc]; [vm_compute; reflexivity|]). lia. Qed.
Lemma rcon_byte : forall rc, is_byte (ix rc_tab rc).
Proof. intros rc. apply Forall_ix. repeat constructor; unfold is_byte; lia. Qed.

(** ** The loop *)
Definition good_nk (nk : nat) : Prop := (nk = 4 \/ nk = 6 \/ nk = 8)%nat.
Definition expanded (nk i : nat) (w : list (list Z)) (s : nat * nat * list Z) : Prop :=
  let '(next_nk, rc, ctx) := s in
  length w = i /\ Forall word4 w /\ firstn (4 * i) ctx = concat w /\
  next_nk = (nk * ((i + nk - 1) / nk))%nat /\ rc = ((i - 1) / nk)%nat.

Lemma init_step_ok : forall cf nk i w s, c_big_endian cf = false -> good_nk nk -> (nk <= i)%nat -> (i < 4 * (nk + 7))%nat -> expanded nk i w s ->
  (4 * (nk + 7) * 4 <= length (snd s))%nat ->
  expanded nk (i + 1) (w ++ [next_word nk i w]) (init_step cf nk i s) /\ length (snd (init_step cf nk i s)) = length (snd s).
Proof.
  intros cf nk i w [[next_nk rc] ctx] E Hnk Hi Hi' (Lw & Fw & Fc & Hn & Hr) Hlen. cbn [snd] in Hlen.
  unfold init_step.
  assert (1 <= i)%nat as Hi1 by (destruct Hnk as [->|[->| ->]]; lia).
  set (hi := (4 * (nk + 7))%nat) in *.
  assert (word_at ctx ((i - 1) * 4) = nth (i - 1) w []) as ->.
  { rewrite (word_at_before ctx (4 * i)) by lia. rewrite Fc. rewrite <- word_at_concat by (auto; lia). f_equal. lia. }
  assert (word_at ctx ((i - nk) * 4) = nth (i - nk) w []) as Hold.
  { rewrite (word_at_before ctx (4 * i)) by (destruct Hnk as [->|[->| ->]]; lia). rewrite Fc. rewrite <- word_at_concat by (auto; destruct Hnk as [->|[->| ->]]; lia). f_equal. lia. }
  assert (word4 (nth (i - 1) w [])) as Wp by (rewrite Forall_forall in Fw; apply Fw, nth_In; lia).
  assert (word4 (nth (i - nk) w [])) as Wo by (rewrite Forall_forall in Fw; apply Fw, nth_In; destruct Hnk as [->|[->| ->]]; lia).
  set (old := nth (i - nk) w []) in *. set (prev := nth (i - 1) w []) in *.
  set (tmp3 := if negb (i =? next_nk)%nat then _ else _).
  assert (exists tmp, tmp3 = ((nk * ((i + 1 + nk - 1) / nk))%nat, ((i + 1 - 1) / nk)%nat, tmp) /\ word4 tmp /\ next_word nk i w = xor_bytes old tmp) as (tmp & -> & Wt & Hw).
  { unfold tmp3, next_word. fold prev old. clear tmp3.
    destruct (i =? next_nk)%nat eqn:En; cbn [negb].
    - apply Nat.eqb_eq in En. assert (i mod nk = 0)%nat as Hm by (destruct Hnk as [->|[->| ->]]; lia).
      rewrite Hm. cbn [Nat.eqb]. destruct prev as [|a [|b [|c [|d [|e prev0]]]]] eqn:Ep; try (exfalso; destruct Wp as [L _]; cbn in L; discriminate L).
      rewrite rot_word_le by auto. cbn [RotWord app].
      assert (word4 [b; c; d; a]) as Wr by (destruct Wp as [_ F]; inv_bytes; split; [reflexivity|fbytes]).
      assert (rc = i / nk - 1 /\ 1 <= i / nk < 11)%nat as [Hrc Hq] by (subst hi; destruct Hnk as [->|[->| ->]]; lia).
      exists (st_ (map sbox [b; c; d; a]) 0 (Z.lxor (sbox b) (ix rc_tab rc))). split; [|split].
      + apply (f_equal2 pair); [apply (f_equal2 pair)|reflexivity]; subst hi; destruct Hnk as [->|[->| ->]]; lia.
      + destruct (sub_word_ok _ Wr) as [L F]. cbn [map] in F. inv_bytes. split; [reflexivity|]. cbn [map st_ upd]. pose proof (rcon_byte rc). fbytes.
      + rewrite sub_word by apply Wr. replace (i / nk)%nat with (rc + 1)%nat by lia. rewrite rcon_eq by lia.
        rewrite (xor_word (map sbox _)) by reflexivity. rewrite xor_word by (rewrite xor_bytes_len; apply Wo).
        cbn [map st_ upd xor_bytes]. rewrite !Z.lxor_0_r. reflexivity.
    - apply Nat.eqb_neq in En. assert (i mod nk <> 0)%nat as Hm by (rewrite Hn in En; destruct Hnk as [->|[->| ->]]; lia).
      destruct (i mod nk =? 0)%nat eqn:Em; [apply Nat.eqb_eq in Em; lia|].
      assert ((6 <? nk) && (i mod nk =? 4) = (nk =? 8) && (i mod 8 =? 4))%nat as ->.
      { destruct Hnk as [->|[->| ->]]; reflexivity. }
      set (t' := if _ && _ then _ else _ ). exists t'. split; [|split].
      + apply (f_equal2 pair); [apply (f_equal2 pair)|reflexivity]; subst hi; destruct Hnk as [->|[->| ->]]; lia.
      + subst t'. destruct (_ && _); auto using sub_word_ok.
      + subst t'. destruct (_ && _); [rewrite sub_word by apply Wp|]; rewrite xor_word; auto; rewrite ?map_length; destruct Wo as [-> _], Wp as [-> _]; reflexivity. }
  rewrite Hold. rewrite Hw. assert (length old = 4)%nat as Lo by apply Wo.
  assert (word4 (xor_bytes old tmp)) as Wx by (now apply xor_word_ok).
  rewrite word_at_blit by (auto; lia). assert (length (xor_bytes old tmp) = 4)%nat as Lx by apply Wx.
  split; [split; [|split; [|split; [|split]]]; auto|].
  - rewrite app_length; cbn [length]. lia.
  - apply Forall_app. split; auto.
  - replace (4 * (i + 1))%nat with (4 * i + length (xor_bytes old tmp))%nat by lia.
    rewrite blit_upto by (rewrite blit_len; lia). rewrite blit_before by lia. rewrite Fc, concat_app. cbn [concat]. now rewrite app_nil_r.
  - cbn [snd]. rewrite blit_len; rewrite blit_len; lia.
Qed.

Lemma init_loop_ok : forall cf nk n i w s, c_big_endian cf = false -> good_nk nk -> (nk <= i)%nat -> (i + n <= 4 * (nk + 7))%nat -> expanded nk i w s ->
  (4 * (nk + 7) * 4 <= length (snd s))%nat ->
  let w' := fold_left (fun w i => w ++ [next_word nk i w]) (seq i n) w in
  let s' := fold_left (fun s i => init_step cf nk i s) (seq i n) s in
  expanded nk (i + n) w' s' /\ length (snd s') = length (snd s).
Proof.
  intros cf nk n. induction n as [|n IH]; intros i w s E Hnk Hi Hi' X L; cbn [seq fold_left].
  - rewrite Nat.add_0_r. auto.
  - destruct (init_step_ok cf nk i w s E Hnk Hi ltac:(lia) X L) as [X' L'].
    replace (i + S n)%nat with (i + 1 + n)%nat by lia. rewrite <- (Nat.add_1_r i).
    assert (4 * (nk + 7) * 4 <= length (snd (init_step cf nk i s)))%nat as L3 by (rewrite L'; exact L).
    assert (nk <= i + 1)%nat as Hi2 by lia. assert (i + 1 + n <= 4 * (nk + 7))%nat as Hi3 by lia.
    destruct (IH (i + 1)%nat _ _ E Hnk Hi2 Hi3 X' L3) as [X2 L2]. split; [exact X2|]. rewrite L2. exact L'.
Qed.
Lemma key_words_eq : forall nk key, length key = (4 * nk)%nat -> concat (key_words key nk) = key.
Proof.
  unfold key_words. intros nk key L.
  assert (forall m o, (m <= nk)%nat -> length o = (4 * (nk - m))%nat -> forall k, length k = (4 * m)%nat -> key = o ++ k ->
    concat (map (fun i => [nth (4 * i) key 0; nth (4 * i + 1) key 0; nth (4 * i + 2) key 0; nth (4 * i + 3) key 0]) (seq (nk - m) m)) = k) as G.
  { induction m as [|m IH]; intros o Hm Lo k Lk Ek; [destruct k; [reflexivity|discriminate]|].
    destruct k as [|k0 [|k1 [|k2 [|k3 k]]]]; try (cbn in Lk; lia). cbn [seq map concat].
    replace (S (nk - S m)) with (nk - m)%nat by lia.
    rewrite (IH (o ++ [k0; k1; k2; k3])) with (k := k); [|lia|rewrite app_length; cbn [length]; lia|cbn [length] in Lk; lia|now rewrite <- app_assoc].
    rewrite Ek. rewrite !app_nth2 by lia.
    replace (4 * (nk - S m) - length o)%nat with 0%nat by lia. replace (4 * (nk - S m) + 1 - length o)%nat with 1%nat by lia.
    replace (4 * (nk - S m) + 2 - length o)%nat with 2%nat by lia. replace (4 * (nk - S m) + 3 - length o)%nat with 3%nat by lia. reflexivity. }
  specialize (G nk [] (le_n _)). rewrite Nat.sub_diag in G. apply G; auto.
Qed.
Lemma key_words_ok : forall nk key, Forall is_byte key -> Forall word4 (key_words key nk).
Proof.
  intros nk key F. unfold key_words. apply Forall_map, Forall_forall. intros i _. split; [reflexivity|]. repeat constructor; apply (Forall_ix key); auto.
Qed.
(** The schedule, whatever the memory contained before. *)
Lemma init_expands : forall cf nk key ctx, c_big_endian cf = false -> good_nk nk -> length key = (4 * nk)%nat -> Forall is_byte key ->
  length ctx = (16 * (nk + 7))%nat ->
  aes_init cf key (4 * nk) ctx = concat (KeyExpansion key nk (nk + 6)) /\
  length (KeyExpansion key nk (nk + 6)) = (4 * (nk + 7))%nat /\ Forall word4 (KeyExpansion key nk (nk + 6)).
Proof.
  intros cf nk key ctx E Hnk Lk Fk Lc. unfold aes_init, KeyExpansion.
  replace (4 * nk / 4)%nat with nk by lia. rewrite (firstn_all2 key) by lia.
  replace (4 * (nk + 6 + 1) - nk)%nat with (4 * (nk + 7) - nk)%nat by lia. set (n := (4 * (nk + 7) - nk)%nat).
  assert (expanded nk nk (key_words key nk) (nk, 0%nat, blit ctx 0 key)) as X.
  { split; [unfold key_words; now rewrite map_length, seq_length|split; [now apply key_words_ok|split; [|split]]].
    - rewrite key_words_eq by auto. rewrite <- Lk. apply (blit_upto ctx 0 key). lia.
    - destruct Hnk as [->|[->| ->]]; reflexivity.
    - destruct Hnk as [->|[->| ->]]; reflexivity. }
  destruct (init_loop_ok cf nk n nk _ _ E Hnk (le_n _) ltac:(lia) X ltac:(cbn [snd]; rewrite blit_len; lia)) as [X' L'].
  destruct (fold_left (fun s i => init_step cf nk i s) _ _) as [[a b] c]. destruct X' as (Lw & Fw & Fc & _). cbn [snd] in L'.
  rewrite blit_len in L' by lia. split; [|split; auto; lia]. rewrite <- Fc. symmetry. apply firstn_all2. lia.
Qed.
Lemma nth_firstn_lt : forall (l : list Z) n i, (i < n)%nat -> nth i (firstn n l) 0 = nth i l 0.
Proof. induction l as [|x l IH]; intros [|n] [|i] H; cbn; auto; try lia. apply IH. lia. Qed.
Lemma nth_skipn_add : forall (l : list Z) n i, nth i (skipn n l) 0 = nth (n + i) l 0.
Proof. intros l n. revert l. induction n as [|n IH]; intros [|x l] i; cbn [skipn Nat.add nth]; auto. now destruct i. Qed.
Lemma concat_keys : forall w n, Forall word4 w -> length w = (4 * (n + 1))%nat -> same_keys w (concat w) n.
Proof.
  intros w n F L. split; [split; [rewrite concat_len4; auto; lia|now apply concat_byte]|]. intros i r c Hi Hr Hc.
  rewrite <- word_at_concat by (auto; lia). unfold key_at, word_at, ix. rewrite !nth_firstn_lt by lia. rewrite !nth_skipn_add. f_equal. lia.
Qed.

(** ** Any host: the schedule consists of bytes *)
Lemma init_step_bytes : forall cf nk i w s, (nk <= i)%nat -> (1 <= nk)%nat -> (i < 4 * (nk + 7))%nat ->
  length w = i -> Forall word4 w -> firstn (4 * i) (snd s) = concat w -> (4 * (nk + 7) * 4 <= length (snd s))%nat ->
  exists x, word4 x /\ firstn (4 * (i + 1)) (snd (init_step cf nk i s)) = concat (w ++ [x]) /\ length (snd (init_step cf nk i s)) = length (snd s).
Proof.
  intros cf nk i w [[next_nk rc] ctx] Hi Hn Hi' Lw Fw Fc Hlen. cbn [snd] in *. unfold init_step.
  assert (word_at ctx ((i - 1) * 4) = nth (i - 1) w []) as ->.
  { rewrite (word_at_before ctx (4 * i)) by lia. rewrite Fc. rewrite <- word_at_concat by (auto; lia). f_equal. lia. }
  assert (word_at ctx ((i - nk) * 4) = nth (i - nk) w []) as ->.
  { rewrite (word_at_before ctx (4 * i)) by lia. rewrite Fc. rewrite <- word_at_concat by (auto; lia). f_equal. lia. }
  assert (word4 (nth (i - 1) w [])) as Wp by (rewrite Forall_forall in Fw; apply Fw, nth_In; lia).
  assert (word4 (nth (i - nk) w [])) as Wo by (rewrite Forall_forall in Fw; apply Fw, nth_In; lia).
  set (old := nth (i - nk) w []) in *. set (prev := nth (i - 1) w []) in *.
  set (tmp3 := if negb (i =? next_nk)%nat then _ else _).
  assert (word4 (snd tmp3)) as Wt.
  { subst tmp3. destruct (negb _); cbn [snd]; [destruct (_ && _); auto using sub_word_ok|].
    assert (word4 (map sbox (rot_word cf prev))) as [L F] by (apply sub_word_ok; split; [apply to_bytes_len|apply to_bytes_byte]).
    set (y := map sbox _) in *. destruct y as [|y0 [|y1 [|y2 [|y3 [|y4 y]]]]]; try discriminate L. inv_bytes. pose proof (rcon_byte rc).
    cbn [st_ upd ix nth]. unfold ix in *. split; [reflexivity|]. unfold st_. cbn [upd]. fbytes. }
  destruct tmp3 as [[a b] tmp]. cbn [snd] in *. exists (xor_bytes old tmp).
  assert (length old = 4)%nat as Lo by apply Wo.
  assert (word4 (xor_bytes old tmp)) as Wx by (now apply xor_word_ok).
  rewrite word_at_blit by (auto; lia). assert (length (xor_bytes old tmp) = 4)%nat as Lx by apply Wx.
  split; auto. split.
  - replace (4 * (i + 1))%nat with (4 * i + length (xor_bytes old tmp))%nat by lia.
    rewrite blit_upto by (rewrite blit_len; lia). rewrite blit_before by lia. rewrite Fc, concat_app. cbn [concat]. now rewrite app_nil_r.
  - rewrite blit_len; rewrite blit_len; lia.
Qed.
Lemma init_loop_bytes : forall cf nk n i w s, (nk <= i)%nat -> (1 <= nk)%nat -> (i + n <= 4 * (nk + 7))%nat ->
  length w = i -> Forall word4 w -> firstn (4 * i) (snd s) = concat w -> (4 * (nk + 7) * 4 <= length (snd s))%nat ->
  exists w', length w' = (i + n)%nat /\ Forall word4 w' /\
    firstn (4 * (i + n)) (snd (fold_left (fun s i => init_step cf nk i s) (seq i n) s)) = concat w' /\
    length (snd (fold_left (fun s i => init_step cf nk i s) (seq i n) s)) = length (snd s).
Proof.
  intros cf nk n. induction n as [|n IH]; intros i w s Hi Hn Hi' Lw Fw Fc Hlen; cbn [seq fold_left].
  - rewrite Nat.add_0_r. eauto.
  - destruct (init_step_bytes cf nk i w s Hi Hn ltac:(lia) Lw Fw Fc Hlen) as (x & Wx & F' & L').
    destruct (IH (i + 1)%nat (w ++ [x]) (init_step cf nk i s)) as (w' & Lw' & Fw' & Fc' & Ll); try lia; auto.
    { rewrite app_length; cbn [length]; lia. } { apply Forall_app; auto. }
    exists w'. replace (i + S n)%nat with (i + 1 + n)%nat by lia. rewrite <- (Nat.add_1_r i). split; [lia|]. split; auto. split; auto. lia.
Qed.
Lemma init_schedule : forall cf nk key ctx, (1 <= nk)%nat -> length key = (4 * nk)%nat -> Forall is_byte key ->
  length ctx = (16 * (nk + 7))%nat -> schedule_ok (aes_init cf key (4 * nk) ctx) (nk + 6) /\ length (aes_init cf key (4 * nk) ctx) = (16 * (nk + 7))%nat.
Proof.
  intros cf nk key ctx Hnk Lk Fk Lc. unfold aes_init.
  replace (4 * nk / 4)%nat with nk by lia. rewrite (firstn_all2 key) by lia.
  replace (4 * (nk + 6 + 1) - nk)%nat with (4 * (nk + 7) - nk)%nat by lia. set (n := (4 * (nk + 7) - nk)%nat).
  destruct (init_loop_bytes cf nk n nk (key_words key nk) (nk, 0%nat, blit ctx 0 key)) as (w' & Lw' & Fw' & Fc' & Ll); try lia; cbn [snd].
  { unfold key_words; now rewrite map_length, seq_length. } { now apply key_words_ok. }
  { rewrite key_words_eq by auto. rewrite <- Lk. apply (blit_upto ctx 0 key). lia. } { rewrite blit_len; lia. }
  destruct (fold_left (fun s i => init_step cf nk i s) _ _) as [[a b] c]. cbn [snd] in *. rewrite blit_len in Ll by lia.
  rewrite firstn_all2 in Fc' by lia. split; [split; [lia|]|lia]. rewrite Fc'. now apply concat_byte.
Qed.

(** ** The properties *)
Lemma enc_spec : forall cf nk key ctx l, c_big_endian cf = false -> good_nk nk -> length key = (4 * nk)%nat -> Forall is_byte key ->
  length ctx = (16 * (nk + 7))%nat -> block16 l ->
  aes_encrypt_core l (aes_init cf key (4 * nk) ctx) (nk + 6) = AES key l /\ aes_decrypt_core l (aes_init cf key (4 * nk) ctx) (nk + 6) = InvAES key l.
Proof.
  intros cf nk key ctx l E Hnk Lk Fk Lc B. destruct (init_expands cf nk key ctx E Hnk Lk Fk Lc) as (Ei & Lw & Fw). rewrite Ei.
  pose proof (concat_keys _ (nk + 6)%nat Fw ltac:(lia)) as K. unfold AES, InvAES. rewrite Lk. replace (4 * nk / 4)%nat with nk by lia.
  split; [now apply cipher_eq|now apply inv_cipher_eq].
Qed.
(** The schedule does not depend on the previous contents of the context. *)
Definition same_prefix (i : nat) (s s' : nat * nat * list Z) : Prop :=
  fst s = fst s' /\ firstn (4 * i) (snd s) = firstn (4 * i) (snd s') /\ length (snd s) = length (snd s').
Lemma rot_word_cf : forall cf cf' x, c_big_endian cf = c_big_endian cf' -> rot_word cf x = rot_word cf' x.
Proof. intros cf cf' x E. unfold rot_word, of_bytes, to_bytes. now rewrite E. Qed.
Lemma init_step_indep : forall cf cf' nk i s s', c_big_endian cf = c_big_endian cf' -> (nk <= i)%nat -> (1 <= nk)%nat -> (4 * (i + 1) <= length (snd s))%nat ->
  same_prefix i s s' -> same_prefix (i + 1) (init_step cf nk i s) (init_step cf' nk i s') /\ length (snd (init_step cf nk i s)) = length (snd s).
Proof.
  intros cf cf' nk i [[nn rc] ctx] [[nn' rc'] ctx'] E Hi Hn Hl (E1 & E2 & E3). cbn [fst snd] in *. inversion E1; subst nn' rc'. unfold init_step.
  assert (word_at ctx ((i - 1) * 4) = word_at ctx' ((i - 1) * 4)) as ->.
  { rewrite (word_at_before ctx (4 * i)), (word_at_before ctx' (4 * i)) by lia. now rewrite E2. }
  assert (word_at ctx ((i - nk) * 4) = word_at ctx' ((i - nk) * 4)) as ->.
  { rewrite (word_at_before ctx (4 * i)), (word_at_before ctx' (4 * i)) by lia. now rewrite E2. }
  rewrite (rot_word_cf cf cf') by auto. set (tmp3 := if negb (i =? nn)%nat then _ else _). destruct tmp3 as [[a b] tmp]. cbn [fst snd].
  set (old := word_at ctx' ((i - nk) * 4)). assert (length old = 4)%nat as Lo by (subst old; unfold word_at; rewrite firstn_length, skipn_length; lia).
  rewrite !word_at_blit by (auto; lia). assert (length (xor_bytes old tmp) = 4)%nat as Lx by (now rewrite xor_bytes_len).
  split; [split; [reflexivity|split]|].
  - cbn [snd]. replace (4 * (i + 1))%nat with (4 * i + length (xor_bytes old tmp))%nat by lia.
    rewrite !blit_upto by (rewrite blit_len; lia). rewrite !blit_before by lia. now rewrite E2.
  - cbn [snd]. rewrite !blit_len; rewrite ?blit_len; lia.
  - rewrite !blit_len; rewrite ?blit_len; lia.
Qed.
Lemma init_loop_indep : forall cf cf' nk n i s s', c_big_endian cf = c_big_endian cf' -> (nk <= i)%nat -> (1 <= nk)%nat -> (4 * (i + n) <= length (snd s))%nat ->
  same_prefix i s s' -> same_prefix (i + n) (fold_left (fun s i => init_step cf nk i s) (seq i n) s) (fold_left (fun s i => init_step cf' nk i s) (seq i n) s') /\
  length (snd (fold_left (fun s i => init_step cf nk i s) (seq i n) s)) = length (snd s).
Proof.
  intros cf cf' nk n. induction n as [|n IH]; intros i s s' E Hi Hn Hl H; cbn [seq fold_left]; [rewrite Nat.add_0_r; auto|].
  assert (4 * (i + 1) <= length (snd s))%nat as Hl1 by lia.
  destruct (init_step_indep cf cf' nk i s s' E Hi Hn Hl1 H) as [H' L'].
  replace (i + S n)%nat with (i + 1 + n)%nat by lia. rewrite <- (Nat.add_1_r i).
  assert (nk <= i + 1)%nat as Hi2 by lia. assert (4 * (i + 1 + n) <= length (snd (init_step cf nk i s)))%nat as Hl2 by (rewrite L'; lia).
  destruct (IH (i + 1)%nat _ _ E Hi2 Hn Hl2 H') as [H2 L2]. split; [exact H2|]. rewrite L2. exact L'.
Qed.
Lemma init_indep : forall cf cf' nk key ctx ctx', c_big_endian cf = c_big_endian cf' -> (1 <= nk)%nat -> length key = (4 * nk)%nat -> Forall is_byte key ->
  length ctx = (16 * (nk + 7))%nat -> length ctx' = (16 * (nk + 7))%nat -> aes_init cf key (4 * nk) ctx = aes_init cf' key (4 * nk) ctx'.
Proof.
  intros cf cf' nk key ctx ctx' E Hnk Lk Fk Lc Lc'. unfold aes_init.
  replace (4 * nk / 4)%nat with nk by lia. rewrite (firstn_all2 key) by lia.
  replace (4 * (nk + 6 + 1) - nk)%nat with (4 * (nk + 7) - nk)%nat by lia. set (n := (4 * (nk + 7) - nk)%nat).
  assert (same_prefix nk (nk, 0%nat, blit ctx 0 key) (nk, 0%nat, blit ctx' 0 key)) as H.
  { split; [reflexivity|]. cbn [snd]. split; [|rewrite !blit_len; lia].
    rewrite <- Lk. change (length key) with (0 + length key)%nat. rewrite !blit_upto by lia. reflexivity. }
  assert (4 * (nk + n) <= length (snd (nk, 0%nat, blit ctx 0 key)))%nat as Hl by (cbn [snd]; rewrite blit_len; lia).
  destruct (init_loop_indep cf cf' nk n nk _ _ E (le_n _) Hnk Hl H) as [(_ & F & L) L'].
  destruct (fold_left (fun s i => init_step cf nk i s) _ _) as [[a b] c]. destruct (fold_left (fun s i => init_step cf' nk i s) _ _) as [[a' b'] c'].
  cbn [snd] in *. rewrite blit_len in L' by lia. rewrite !firstn_all2 in F by lia. exact F.
Qed.
Lemma init_dec_enc : forall cf nk key ctx ctx' l, (1 <= nk)%nat -> length key = (4 * nk)%nat -> Forall is_byte key ->
  length ctx = (16 * (nk + 7))%nat -> length ctx' = (16 * (nk + 7))%nat -> block16 l ->
  aes_decrypt_core (aes_encrypt_core l (aes_init cf key (4 * nk) ctx) (nk + 6)) (aes_init cf key (4 * nk) ctx') (nk + 6) = l.
Proof.
  intros cf nk key ctx ctx' l Hnk Lk Fk Lc Lc' B. rewrite (init_indep cf cf nk key ctx ctx') by auto.
  apply decrypt_encrypt; auto; [lia|]. now apply init_schedule.
Qed.
Lemma init_enc_dec : forall cf nk key ctx ctx' l, (1 <= nk)%nat -> length key = (4 * nk)%nat -> Forall is_byte key ->
  length ctx = (16 * (nk + 7))%nat -> length ctx' = (16 * (nk + 7))%nat -> block16 l ->
  aes_encrypt_core (aes_decrypt_core l (aes_init cf key (4 * nk) ctx) (nk + 6)) (aes_init cf key (4 * nk) ctx') (nk + 6) = l.
Proof.
  intros cf nk key ctx ctx' l Hnk Lk Fk Lc Lc' B. rewrite (init_indep cf cf nk key ctx ctx') by auto.
  apply encrypt_decrypt; auto; [lia|]. now apply init_schedule.
Qed.
Definition le_host : cfg := Cfg true true true true true true false 16 8.
Lemma aes_block : forall nk key l, good_nk nk -> length key = (4 * nk)%nat -> Forall is_byte key -> block16 l -> block16 (AES key l) /\ block16 (InvAES key l).
Proof.
  intros nk key l Hnk Lk Fk B. pose proof (repeat_length 0 (16 * (nk + 7))) as Lc.
  destruct (enc_spec le_host nk key _ l eq_refl Hnk Lk Fk Lc B) as [<- <-].
  destruct (init_schedule le_host nk key _ ltac:(destruct Hnk as [->|[->| ->]]; lia) Lk Fk Lc) as [K _].
  split; [apply encrypt_block|apply decrypt_block]; auto; lia.
Qed.
Lemma aes_inverse : forall nk key l, good_nk nk -> length key = (4 * nk)%nat -> Forall is_byte key -> block16 l ->
  InvAES key (AES key l) = l /\ AES key (InvAES key l) = l.
Proof.
  intros nk key l Hnk Lk Fk B. pose proof (repeat_length 0 (16 * (nk + 7))) as Lc.
  destruct (aes_block nk key l Hnk Lk Fk B) as [B1 B2].
  destruct (enc_spec le_host nk key _ _ eq_refl Hnk Lk Fk Lc B1) as [_ <-]. destruct (enc_spec le_host nk key _ _ eq_refl Hnk Lk Fk Lc B2) as [<- _].
  destruct (enc_spec le_host nk key _ l eq_refl Hnk Lk Fk Lc B) as [<- <-].
  assert (1 <= nk)%nat as H1 by (destruct Hnk as [->|[->| ->]]; lia).
  split; [now apply init_dec_enc|now apply init_enc_dec].
Qed.
