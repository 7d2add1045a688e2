(** Proofs about strbuf_encrypt and strbuf_decrypt. *)
From Verif Require Import Base Mem Libc StrviewModel Spec MemLemmas StrviewProofs StrviewProofs2 StrviewProofs3 Alloc StrbufModel BufSpec
  StrbufProofs StrbufProofs2 StrbufProofs5 StrbufProofs6 PackModel PackProofs AesModel AesSpec AesProofs AesProofs2 AesProofs3 CryptModel CryptSpec CryptProofs CryptProofs2.

Lemma mem_wf_frame : forall m m' b lo hi, frame m m' b lo hi -> mem_wf m -> mem_wf m'.
Proof.
  intros m m' b lo hi (L & O & K) [W1 W2].
  assert (forall i ki, nth_error m' i = Some ki -> exists kj, nth_error m i = Some kj /\ shape kj ki) as E.
  { intros i ki H. destruct (Nat.eq_dec i b) as [->|Ne].
    - destruct (nth_error m b) as [k|] eqn:Hk.
      + destruct (K k eq_refl) as (k' & H' & S1 & S2 & S3 & S4 & _). rewrite H' in H. injection H as <-. exists k. repeat split; auto.
      + exfalso. apply nth_error_lt in H. apply nth_error_None in Hk. lia.
    - rewrite O in H by auto. exists ki. split; auto. apply shape_refl. }
  split.
  - intros i ki H Lk. destruct (E i ki H) as (kj & Hj & S1 & S2 & S3 & S4). rewrite S1, S2. apply (W1 i); congruence.
  - intros i j ki kj Hi Hj Li Lj Ne. destruct (E i ki Hi) as (ki' & Hi' & S1 & S2 & S3 & S4). destruct (E j kj Hj) as (kj' & Hj' & T1 & T2 & T3 & T4).
    rewrite S1, S2, T1, T2. apply (W2 i j); congruence.
Qed.

(** What enc256cbc and dec256cbc have in common: contents [l] become [l'], at most [cap] bytes
    are touched. *)
Definition does (f : encdec) (key iv : list Z) (l l' : list Z) (cap : Z) : Prop :=
  forall m blk o c kc kb, bytes_at m (Ptr (PBlk blk) o) l -> nth_error m blk = Some kb -> o + cap <= b_size kb ->
  nth_error m c = Some kc -> b_live kc = true -> 240 <= b_size kc -> c <> blk ->
  exists m1 m', f m (Ptr (PBlk blk) o) (Zlen l) key iv (Ptr (PBlk c) 0) = Ok (Zlen l', m') /\
    frame m m1 c 0 240 /\ frame m1 m' blk o (o + cap) /\ bytes_at m' (Ptr (PBlk blk) o) l'.

Lemma finish_block : forall cf m b k0 k o B l', wf_cfg cf -> buf_in cf k0 o B -> shape k0 k ->
  (forall i, ~ (o + hdr_size cf <= i < o + hdr_size cf + bf_cap B) -> b_get k i = b_get k0 i) ->
  (forall i, 0 <= i < Zlen l' -> b_get k (o + hdr_size cf + i) = CByte (nth (Z.to_nat i) l' 0)) ->
  Zlen l' <= bf_cap B -> Forall is_byte l' -> nth_error m b = Some k ->
  exists k1, set_size cf m (Ptr (PBlk b) o) (Zlen l') = Ok (upd m b k1) /\ shape k k1 /\
    (forall m2, nth_error m2 b = Some k1 ->
       load_hdr cf m2 (Ptr (PBlk b) o) = Ok (Hdr (Zlen l') (bf_cap B) (bf_alloc B)) /\
       exists k2, set_char cf m2 (Ptr (PBlk b) o) (Zlen l') 0 = Ok (upd m2 b k2) /\ shape k0 k2 /\
         buf_in cf k2 o (Buffer l' (bf_cap B) (bf_alloc B)) /\
         (forall i, ~ (o <= i < o + hdr_size cf + bf_cap B + 1) -> b_get k2 i = b_get k0 i)).
Proof.
  intros cf m b k0 k o B l' W HB Sh Hout Hin Hcap Fb Hn.
  pose proof HB as (L & O0 & Al & Fi & Hh & Hd & Ht & By & C & Dy). pose proof (hdr_size_pos cf W) as Hs. pose proof (Zlen_nonneg l') as Zl.
  pose proof Sh as (S1 & S2 & S3 & S4).
  assert (holder cf m b o k) as Ho by (constructor; auto; try congruence; rewrite ?S1, ?S2, ?S3; auto; lia).
  assert (hdr_at cf k o (Hdr (Zlen (bf_data B)) (bf_cap B) (bf_alloc B))) as Hk by (intros i Hi; rewrite Hout by lia; now apply Hh).
  destruct (set_size_sets cf m b o k _ _ _ (Zlen l') W Ho Hk) as (k1 & E1 & Sh1 & G1).
  exists k1. split; auto. split; auto. intros m2 Hn2. pose proof Sh1 as (T1 & T2 & T3 & T4).
  assert (holder cf m2 b o k1) as Ho1 by (constructor; auto; try congruence; rewrite ?T1, ?T2, ?T3, ?S1, ?S2, ?S3; auto; lia).
  assert (hdr_at cf k1 o (Hdr (Zlen l') (bf_cap B) (bf_alloc B))) as Hk1.
  { intros i Hi. rewrite G1. unfold inr. rewrite (proj2 (Z.leb_le _ _)), (proj2 (Z.ltb_lt _ _)) by lia. cbn [andb]. f_equal. lia. }
  split; [eapply load_hdr_ok; eauto|].
  destruct (set_char_sets cf m2 b o k1 (Zlen l') 0 Hn2) as (k2 & E2 & Sh2 & G2). { congruence. } { rewrite T2, S2. lia. }
  exists k2. split; auto. assert (shape k0 k2) as Sh02 by (eapply shape_trans; [eapply shape_trans; [exact Sh|exact Sh1]|exact Sh2]).
  split; auto. pose proof Sh02 as (U1 & U2 & U3 & U4).
  assert (forall i, i <> o + hdr_size cf + Zlen l' -> b_get k2 i = b_get k1 i) as X1.
  { intros i Hi. rewrite G2. unfold inr. destruct (_ <=? i) eqn:E; cbn [andb]; auto. destruct (i <? _) eqn:E'; auto. lia. }
  assert (forall i, ~ (o <= i < o + hdr_size cf) -> b_get k1 i = b_get k i) as X2.
  { intros i Hi. rewrite G1. unfold inr. destruct (o <=? i) eqn:E; cbn [andb]; auto. destruct (i <? _) eqn:E'; auto. lia. }
  split.
  - unfold buf_in. cbn [bf_data bf_cap bf_alloc hdr_of]. rewrite U1, U2, U3, U4. split; auto. split; auto. split; auto. split; auto. split; [|split; [|split; [|split; [auto|split; [lia|exact Dy]]]]].
    + intros i Hi. rewrite X1 by lia. now apply Hk1.
    + intros i Hi. rewrite X1, X2 by lia. now apply Hin.
    + rewrite G2. unfold inr. rewrite (proj2 (Z.leb_le _ _)), (proj2 (Z.ltb_lt _ _)) by lia. reflexivity.
  - intros i Hi. rewrite X1, X2, Hout by lia. reflexivity.
Qed.

(** The contents of a buffer after a frame over its characters. *)
Lemma framed_block : forall cf m m' b o k0 B l' cap, wf_cfg cf -> nth_error m b = Some k0 -> buf_in cf k0 o B ->
  frame m m' b (o + hdr_size cf) (o + hdr_size cf + cap) -> cap <= bf_cap B -> bytes_at m' (Ptr (PBlk b) (o + hdr_size cf)) l' ->
  exists k, nth_error m' b = Some k /\ shape k0 k /\
    (forall i, ~ (o + hdr_size cf <= i < o + hdr_size cf + bf_cap B) -> b_get k i = b_get k0 i) /\
    (forall i, 0 <= i < Zlen l' -> b_get k (o + hdr_size cf + i) = CByte (nth (Z.to_nat i) l' 0)).
Proof.
  intros cf m m' b o k0 B l' cap W Hn HB (F1 & F2 & F3) Hcap Hb. destruct (F3 k0 Hn) as (k & Hk & S1 & S2 & S3 & S4 & G).
  exists k. split; auto. split; [repeat split; auto|]. split; [intros i Hi; apply G; lia|].
  destruct Hb as (k' & A & _ & _ & Hg). cbn [p_obj p_ofs access] in *. rewrite Hk in A. destruct (b_live k); [|discriminate]. injection A as <-. exact Hg.
Qed.

(** ** Fixed buffers *)
Lemma crypt_fixed_ok : forall cf f w p B base key iv l' cap, wf_cfg cf -> mem_wf (s_mem w) -> no_fail w -> buf_at cf (s_mem w) p B -> dyn B = false ->
  Zlen (bf_data B) < 2147483632 -> padded_size (Zlen (bf_data B)) <= bf_cap B -> cap <= bf_cap B ->
  does f key iv (bf_data B) l' cap -> Zlen l' <= bf_cap B -> Forall is_byte l' ->
  exists w', strbuf_crypt cf f w (Some p) base key iv = Ok (INVALID, Some p, w') /\ buf_at cf (s_mem w') p (Buffer l' (bf_cap B) (bf_alloc B)) /\
    touches cf (s_mem w) (s_mem w') p p B /\ mem_wf (s_mem w') /\ no_fail w'.
Proof.
  intros cf f w p B base key iv l' cap W Wm Nf HB D Hlen Hpad Hcap Hf Hl' Fl'. pose proof (hdr_size_pos cf W) as Hs.
  unfold strbuf_crypt. rewrite (on_buf_ok cf (s_mem w) p B) by auto. rewrite (buf_at_load cf (s_mem w) p B W HB). cbn [bind hdr_of h_alloc h_size h_cap].
  change (is_dyn (bf_alloc B)) with (dyn B). rewrite D.
  pose proof (Zlen_nonneg (bf_data B)) as Zl. destruct (size_bounds _ Zl) as (B1 & B2 & B3). destruct (buf_at_cap _ _ _ _ HB) as [C _].
  unfold cypher_size, AES_BLOCK_SIZE. rewrite iadd_ok by (unfold INT_MIN; lia). cbn [bind]. unfold imul. rewrite <- B3. rewrite int_res_ok by (unfold INT_MIN; lia). cbn [bind].
  rewrite (proj2 (Z.leb_le _ _)) by auto.
  pose proof (buf_at_bytes cf _ _ _ W HB) as Hb. apply bytes_at_app in Hb as [Hb _].
  destruct HB as (b & k0 & Ep & Hn & HB). destruct p as [po o]. cbn [p_obj p_ofs] in *. subst po. unfold chars_of, shift in Hb. cbn [p_obj p_ofs] in Hb.
  unfold encdec_with_ctx_on_stack, push_array. unfold cstr_of, shift. cbn [p_obj p_ofs with_mem s_mem].
  set (kc := Block _ _ _ _ _). pose proof (nth_error_lt _ _ _ Hn) as Lb. set (m := s_mem w) in *.
  assert (nth_error (m ++ [kc]) b = Some k0) as Hn0 by (now rewrite nth_error_app1).
  assert (nth_error (m ++ [kc]) (length m) = Some kc) as Hkc by (rewrite nth_error_app2, Nat.sub_diag by lia; reflexivity).
  assert (bytes_at (m ++ [kc]) (Ptr (PBlk b) (o + hdr_size cf)) (bf_data B)) as Hb0.
  { destruct Hb as (k & A & H1 & H2 & H3). exists k. cbn [p_obj p_ofs access] in *. rewrite nth_error_app1 by auto. auto. }
  pose proof HB as (L & O0 & Al & Fi & _).
  destruct (Hf (m ++ [kc]) b (o + hdr_size cf) (length m) kc k0 Hb0 Hn0) as (m1 & m2 & Ef & Fr1 & Fr2 & Hb2); auto; try lia.
  { cbn [b_size kc]. unfold ctx_size. lia. }
  rewrite Ef. cbn [bind]. unfold pop_local. cbn [p_obj with_mem s_mem].
  assert (length m2 = S (length m)) as Lm2 by (destruct Fr1 as (-> & _ & _) || idtac; destruct Fr2 as (X & _); destruct Fr1 as (Y & _); rewrite app_length in Y; cbn [length] in Y; lia).
  rewrite Lm2, Nat.eqb_refl. set (m3 := firstn (length m) m2).
  assert (length m3 = length m) as Lm3 by (unfold m3; rewrite firstn_length; lia).
  assert (frame m m3 b (o + hdr_size cf) (o + hdr_size cf + cap)) as Fr.
  { destruct Fr1 as (F1 & F2 & F3). destruct Fr2 as (G1 & G2 & G3). split; auto. split.
    - intros i Hi. destruct (Nat.lt_ge_cases i (length m)) as [Hl|Hl].
      + unfold m3. rewrite nth_error_firstn' by auto. rewrite G2, F2 by lia. now rewrite nth_error_app1.
      + rewrite (proj2 (nth_error_None m i)) by auto. apply nth_error_None. lia.
    - intros k Hk. unfold m3. rewrite nth_error_firstn' by auto. apply G3. rewrite F2 by lia. now rewrite nth_error_app1. }
  assert (bytes_at m3 (Ptr (PBlk b) (o + hdr_size cf)) l') as Hb3.
  { destruct Hb2 as (k & A & H1 & H2 & H3). exists k. cbn [p_obj p_ofs access] in *. unfold m3. rewrite nth_error_firstn' by auto. auto. }
  destruct (framed_block cf m m3 b o k0 B l' cap W Hn HB Fr Hcap Hb3) as (k3 & Hn3 & Sh3 & Out3 & In3).
  destruct (finish_block cf m3 b k0 k3 o B l' W HB Sh3 Out3 In3 Hl' Fl' Hn3) as (k4 & E4 & Sh4 & Fin). rewrite E4. cbn [bind].
  destruct (Fin (upd m3 b k4) (nth_upd _ _ _ _ Hn3)) as (E5 & k5 & E6 & Sh5 & HB5 & Out5). rewrite E5. cbn [bind h_size]. rewrite E6. cbn [bind].
  rewrite upd_upd. eexists. split; [reflexivity|]. cbn [s_mem s_orc with_mem]. pose proof (nth_error_lt _ _ _ Hn3) as Lb3.
  assert (frame m (upd m3 b k5) b o (o + hdr_size cf + bf_cap B + 1)) as FF.
  { destruct Fr as (F1 & F2 & F3). split; [now rewrite upd_len|]. split.
    - intros i Hi. rewrite nth_error_upd_neq by auto. now apply F2.
    - intros k Hk. assert (k = k0) as -> by congruence. exists k5. rewrite (nth_upd _ _ _ _ Hn3). destruct Sh5 as (U1 & U2 & U3 & U4). auto 10. }
  split; [|split; [|split]].
  - exists b, k5. cbn [p_obj p_ofs]. split; auto. split; auto. now apply nth_upd with k3.
  - exists b, b. cbn [p_obj p_ofs]. rewrite upd_len, Lm3. do 6 (split; auto). split; [|split; [|split; [now left|]]].
    + intros i Hi Hl. destruct FF as (_ & F2 & _). now apply F2.
    + intros i k Hi Hne H. apply nth_error_lt in H. rewrite upd_len in H. lia.
    + intros _. exact FF.
  - eapply mem_wf_frame; eauto.
  - exact Nf.
Qed.

(** ** Dynamic buffers *)
Lemma crypt_dyn_ok : forall cf f w p B base key iv l' cap, wf_cfg cf -> mem_wf (s_mem w) -> no_fail w -> buf_at cf (s_mem w) p B -> dyn B = true ->
  Zlen (bf_data B) < 2147483632 -> let cap' := Z.max (bf_cap B) (padded_size (Zlen (bf_data B))) in cap <= cap' ->
  does f key iv (bf_data B) l' cap -> Zlen l' <= cap' -> Forall is_byte l' ->
  exists p' w', strbuf_crypt cf f w (Some p) base key iv = Ok (INVALID, Some p', w') /\ buf_at cf (s_mem w') p' (Buffer l' cap' (bf_alloc B)) /\
    touches cf (s_mem w) (s_mem w') p p' B /\ mem_wf (s_mem w') /\ no_fail w'.
Proof.
  intros cf f w p B base key iv l' cap W Wm Nf HB D Hlen cap' Hcap Hf Hl' Fl'. pose proof (hdr_size_pos cf W) as Hs.
  unfold strbuf_crypt. rewrite (on_buf_ok cf (s_mem w) p B) by auto. rewrite (buf_at_load cf (s_mem w) p B W HB). cbn [bind hdr_of h_alloc h_size h_cap].
  change (is_dyn (bf_alloc B)) with (dyn B). rewrite D.
  pose proof (Zlen_nonneg (bf_data B)) as Zl. destruct (size_bounds _ Zl) as (B1 & B2 & B3). destruct (buf_at_cap _ _ _ _ HB) as [C _].
  assert (padded_size (Zlen (bf_data B)) <= INT_MAX) as B4 by (unfold padded_size, INT_MAX; lia).
  unfold cypher_size, AES_BLOCK_SIZE. rewrite iadd_ok by (unfold INT_MIN; lia). cbn [bind]. unfold imul. rewrite <- B3. rewrite int_res_ok by (unfold INT_MIN; lia). cbn [bind].
  destruct (grow_dyn_ok cf w p B _ W Wm Nf HB D B4) as (p1 & w1 & Eg & HB1 & Tg & Wm1 & Nf1). fold cap' in HB1. rewrite Eg. cbn [bind].
  rewrite (buf_at_load cf (s_mem w1) p1 _ W HB1). cbn [bind hdr_of h_alloc h_size h_cap bf_data bf_cap bf_alloc].
  set (B1' := Buffer (bf_data B) cap' (bf_alloc B)) in *.
  pose proof (buf_at_bytes cf _ _ _ W HB1) as Hb. apply bytes_at_app in Hb as [Hb _]. cbn [bf_data B1'] in Hb.
  assert (touches cf (s_mem w1) (s_mem w1) p1 p1 B1') as _ by (now apply touches_refl).
  destruct HB1 as (b & k0 & Ep & Hn & HB1). destruct p1 as [po o]. cbn [p_obj p_ofs] in *. subst po. unfold chars_of, shift in Hb. cbn [p_obj p_ofs] in Hb.
  unfold alloc_call at 1. change (is_null null) with true. unfold ctx_size. change (240 =? 0) with false. rewrite (Nf1 0%nat). cbn iota. cbn [bind s_mem].
  unfold cstr_of, shift. cbn [p_obj p_ofs].
  set (m := s_mem w1) in *. set (kc := new_block (bf_alloc B) _ 240 _). pose proof (nth_error_lt _ _ _ Hn) as Lb.
  assert (nth_error (m ++ [kc]) b = Some k0) as Hn0 by (now rewrite nth_error_app1).
  assert (nth_error (m ++ [kc]) (length m) = Some kc) as Hkc by (rewrite nth_error_app2, Nat.sub_diag by lia; reflexivity).
  assert (bytes_at (m ++ [kc]) (Ptr (PBlk b) (o + hdr_size cf)) (bf_data B)) as Hb0.
  { destruct Hb as (k & A & H1 & H2 & H3). exists k. cbn [p_obj p_ofs access] in *. rewrite nth_error_app1 by auto. auto. }
  pose proof HB1 as (L & O0 & Al & Fi & _). cbn [B1' bf_cap] in Fi.
  destruct (Hf (m ++ [kc]) b (o + hdr_size cf) (length m) kc k0 Hb0 Hn0) as (m1 & m2 & Ef & Fr1 & Fr2 & Hb2); auto; try lia.
  { cbn [b_size kc new_block]. lia. }
  rewrite Ef. cbn [bind].
  assert (length m2 = S (length m)) as Lm2 by (destruct Fr2 as (X & _); destruct Fr1 as (Y & _); rewrite app_length in Y; cbn [length] in Y; lia).
  assert (nth_error m1 b = Some k0) as Hn1 by (destruct Fr1 as (_ & F2 & _); rewrite F2 by lia; auto).
  destruct (framed_block cf m1 m2 b o k0 B1' l' cap W Hn1 HB1 Fr2 Hcap Hb2) as (k3 & Hn3 & Sh3 & Out3 & In3).
  destruct (finish_block cf m2 b k0 k3 o B1' l' W HB1 Sh3 Out3 In3 Hl' Fl' Hn3) as (k4 & E4 & Sh4 & Fin). rewrite E4. cbn [bind].
  destruct (Fin (upd m2 b k4) (nth_upd _ _ _ _ Hn3)) as (E5 & _). rewrite E5. cbn [bind h_alloc bf_alloc B1' with_mem].
  assert (exists kc', nth_error m2 (length m) = Some kc' /\ b_live kc' = true /\ b_owner kc' = Heap (bf_alloc B)) as (kc' & Hc' & Lc' & Oc').
  { destruct Fr1 as (_ & _ & F3). destruct Fr2 as (_ & G2 & _). destruct (F3 kc Hkc) as (kc' & Hc' & _ & _ & X1 & X2 & _). exists kc'. rewrite G2 by lia. auto. }
  rewrite (free_ok cf _ (length m) kc' (bf_alloc B)) by (cbn [s_mem with_mem]; first [assumption|rewrite nth_error_upd_neq by lia; assumption]). cbn [bind s_mem s_orc with_mem].
  set (m5 := kill_at (upd m2 b k4) (length m)).
  assert (nth_error m5 b = Some k4) as Hn5 by (unfold m5; rewrite kill_at_neq by lia; now apply nth_upd with k3).
  destruct (Fin m5 Hn5) as (E7 & k5 & E6 & Sh5 & HB5 & Out5). rewrite E7. cbn [bind h_size]. rewrite E6. cbn [bind].
  eexists _, _. split; [reflexivity|]. cbn [s_mem s_orc with_mem].
  assert (length m5 = S (length m)) as Lm5 by (unfold m5; rewrite kill_at_len, upd_len; auto).
  split; [|split; [|split]].
  - exists b, k5. cbn [p_obj p_ofs]. split; auto. split; auto. now apply nth_upd with k4.
  - eapply touches_trans with (B2 := B1'); [exact eq_refl|congruence|exact Tg|].
    exists b, b. cbn [p_obj p_ofs]. rewrite upd_len, Lm5. do 4 (split; auto). split; [lia|]. split; [lia|]. split; [|split; [|split; [now left|]]].
    + intros i Hi Hl. rewrite nth_error_upd_neq by auto. unfold m5. rewrite kill_at_neq by lia. rewrite nth_error_upd_neq by auto.
      destruct Fr1 as (_ & F2 & _). destruct Fr2 as (_ & G2 & _). rewrite G2, F2 by lia. now rewrite nth_error_app1.
    + intros i k Hi Hne H. rewrite nth_error_upd_neq in H by auto. pose proof (nth_error_lt _ _ _ H) as Li. assert (i = length m) as -> by lia.
      unfold m5 in H. assert (nth_error (upd m2 b k4) (length m) = Some kc') as Hc by (rewrite nth_error_upd_neq by lia; auto).
      rewrite (kill_at_some _ _ _ Hc) in H. rewrite (nth_upd _ _ _ _ Hc) in H. injection H as <-. reflexivity.
    + intros X. unfold dyn in X, D. cbn [bf_alloc B1'] in X. congruence.
  - apply mem_wf_upd with k4; auto; [|eapply shape_trans; [|exact Sh5]; destruct (shape_trans _ _ _ Sh3 Sh4) as (U1 & U2 & U3 & U4); repeat split; congruence].
    unfold m5. apply mem_wf_kill. apply mem_wf_upd with k3; auto. eapply mem_wf_frame; [exact Fr2|]. eapply mem_wf_frame; [exact Fr1|].
    apply mem_wf_snoc; auto; cbn [b_base b_size kc new_block]; [apply place_spec; auto|lia|].
    intros i ki Hi Li. unfold apart. cbn [b_base b_size kc new_block].
    destruct (place_spec cf m (s_orc w1 0%nat) 240 W) as (_ & _ & P3). destruct (P3 ki (nth_error_In _ _ Hi) Li); auto.
  - intros n. apply (Nf1 (S n)).
Qed.
