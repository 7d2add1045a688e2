(** Decryption of contents whose last plain byte exceeds their size. *)
From Verif Require Import Base Mem Libc StrviewModel Spec MemLemmas StrviewProofs StrviewProofs2 StrviewProofs3 Alloc StrbufModel BufSpec
  StrbufProofs StrbufProofs2 StrbufProofs5 StrbufProofs6 PackModel PackProofs AesModel AesSpec AesProofs AesProofs2 AesProofs3 CryptModel CryptSpec CryptProofs CryptProofs2 CryptProofs3.

(** A function that reports the size [n] and touches at most [cap] bytes. *)
Definition reports (f : encdec) (key iv : list Z) (l : list Z) (n cap : Z) : Prop :=
  forall m blk o c kc kb, bytes_at m (Ptr (PBlk blk) o) l -> nth_error m blk = Some kb -> o + cap <= b_size kb ->
  nth_error m c = Some kc -> b_live kc = true -> 240 <= b_size kc -> c <> blk ->
  exists m1 m', f m (Ptr (PBlk blk) o) (Zlen l) key iv (Ptr (PBlk c) 0) = Ok (n, m') /\
    frame m m1 c 0 240 /\ frame m1 m' blk o (o + cap).

Lemma set_char_ruins : forall cf m b k o n c a, nth_error m b = Some k -> b_live k = true -> b_get k o = CHdr (Hdr n c a) 0 -> n < 0 ->
  match set_char cf m (Ptr (PBlk b) o) n 0 with
  | UB _ => True | Fuel => False
  | Ok m' => forall B', wf_cfg cf -> ~ buf_at cf m' (Ptr (PBlk b) o) B' end.
Proof.
  intros cf m b k o n c a Hn Lk Hk Neg.
  assert (forall q, match store_byte m (Ptr (PBlk b) q) 0 with UB _ => True | Fuel => False | Ok m' => forall B', wf_cfg cf -> ~ buf_at cf m' (Ptr (PBlk b) o) B' end) as X.
  { intros q. unfold store_byte, store_cells. cbn [p_obj p_ofs]. rewrite (access_ok m b k Hn Lk). cbn [bind]. destruct (in_block k q 1); auto.
    intros B' W (b' & k' & Ep & Hk' & _ & _ & _ & _ & Hh & Hrest). cbn [p_obj p_ofs] in *. injection Ep as <-.
    rewrite (nth_upd _ _ _ _ Hn) in Hk'. injection Hk' as <-. specialize (Hh 0). pose proof (hdr_size_pos cf W) as Hs.
    rewrite Z.add_0_r in Hh. specialize (Hh ltac:(lia)). unfold with_cells in Hh. cbn [b_get] in Hh. 
    destruct ((q <=? o) && (o <? q + 1)); [discriminate Hh|]. rewrite Hk in Hh. injection Hh as E1 E2 E3.
    pose proof (Zlen_nonneg (bf_data B')). lia. }
  unfold set_char, char_at, padd, cstr_of, shift. cbn [p_obj p_ofs]. destruct (c_ptr cf); cbn [bind]; [apply X|].
  rewrite (access_ok m b k Hn Lk). cbn [bind]. destruct (in_block k _ 0); cbn [bind]; auto. apply X.
Qed.

Lemma set_size_neg : forall cf m b k0 k o B n, wf_cfg cf -> buf_in cf k0 o B -> shape k0 k ->
  (forall i, ~ (o + hdr_size cf <= i < o + hdr_size cf + bf_cap B) -> b_get k i = b_get k0 i) -> nth_error m b = Some k ->
  exists k1, set_size cf m (Ptr (PBlk b) o) n = Ok (upd m b k1) /\ shape k k1 /\ b_live k1 = true /\
    b_get k1 o = CHdr (Hdr n (bf_cap B) (bf_alloc B)) 0 /\
    (forall m2, nth_error m2 b = Some k1 -> load_hdr cf m2 (Ptr (PBlk b) o) = Ok (Hdr n (bf_cap B) (bf_alloc B))).
Proof.
  intros cf m b k0 k o B n W HB Sh Hout Hn.
  pose proof HB as (L & O0 & Al & Fi & Hh & Hd & Ht & By & C & Dy). pose proof (hdr_size_pos cf W) as Hs. pose proof Sh as (S1 & S2 & S3 & S4).
  pose proof (Zlen_nonneg (bf_data B)) as Zl.
  assert (holder cf m b o k) as Ho by (constructor; auto; try congruence; rewrite ?S1, ?S2, ?S3; auto; lia).
  assert (hdr_at cf k o (Hdr (Zlen (bf_data B)) (bf_cap B) (bf_alloc B))) as Hk by (intros i Hi; rewrite Hout by lia; now apply Hh).
  destruct (set_size_sets cf m b o k _ _ _ n W Ho Hk) as (k1 & E1 & Sh1 & G1).
  exists k1. split; auto. split; auto. pose proof Sh1 as (T1 & T2 & T3 & T4). split; [congruence|].
  assert (hdr_at cf k1 o (Hdr n (bf_cap B) (bf_alloc B))) as Hk1.
  { intros i Hi. rewrite G1. unfold inr. rewrite (proj2 (Z.leb_le _ _)), (proj2 (Z.ltb_lt _ _)) by lia. cbn [andb]. f_equal. lia. }
  split; [specialize (Hk1 0); rewrite Z.add_0_r in Hk1; apply Hk1; lia|].
  intros m2 Hn2. assert (holder cf m2 b o k1) as Ho1 by (constructor; auto; try congruence; rewrite ?T1, ?T2, ?T3, ?S1, ?S2, ?S3; auto; lia).
  eapply load_hdr_ok; eauto.
Qed.

(** The outcome: undefined, or the pointer no longer leads to a buffer. *)
Definition ruins (cf : cfg) (r : outcome (view * option ptr * st)) : Prop :=
  match r with
  | UB _ => True | Fuel => False
  | Ok (v, bp, w') => exists p', bp = Some p' /\ forall B', ~ buf_at cf (s_mem w') p' B' end.

Lemma framed_out : forall cf m m' b o k0 B cap, nth_error m b = Some k0 ->
  frame m m' b (o + hdr_size cf) (o + hdr_size cf + cap) -> cap <= bf_cap B ->
  exists k, nth_error m' b = Some k /\ shape k0 k /\
    (forall i, ~ (o + hdr_size cf <= i < o + hdr_size cf + bf_cap B) -> b_get k i = b_get k0 i).
Proof.
  intros cf m m' b o k0 B cap Hn (F1 & F2 & F3) Hcap. destruct (F3 k0 Hn) as (k & Hk & S1 & S2 & S3 & S4 & G).
  exists k. split; auto. split; [repeat split; auto|]. intros i Hi; apply G; lia.
Qed.

Lemma crypt_fixed_neg : forall cf f w p B base key iv n cap, wf_cfg cf -> buf_at cf (s_mem w) p B -> dyn B = false ->
  Zlen (bf_data B) < 2147483632 -> padded_size (Zlen (bf_data B)) <= bf_cap B -> cap <= bf_cap B ->
  reports f key iv (bf_data B) n cap -> n < 0 -> ruins cf (strbuf_crypt cf f w (Some p) base key iv).
Proof.
  intros cf f w p B base key iv n cap W HB D Hlen Hpad Hcap Hf Neg. pose proof (hdr_size_pos cf W) as Hs.
  unfold strbuf_crypt. rewrite (on_buf_ok cf (s_mem w) p B) by auto. rewrite (buf_at_load cf (s_mem w) p B W HB). cbn [bind hdr_of h_alloc h_size h_cap].
  change (is_dyn (bf_alloc B)) with (dyn B). rewrite D.
  pose proof (Zlen_nonneg (bf_data B)) as Zl. destruct (size_bounds _ Zl) as (B1 & B2 & B3). destruct (buf_at_cap _ _ _ _ HB) as [C _].
  unfold cypher_size, AES_BLOCK_SIZE. rewrite iadd_ok by (unfold INT_MIN; lia). cbn [bind]. unfold imul. rewrite <- B3. rewrite int_res_ok by (unfold INT_MIN; lia). cbn [bind].
  rewrite (proj2 (Z.leb_le _ _)) by auto.
  pose proof (buf_at_bytes cf _ _ _ W HB) as Hb. apply bytes_at_app in Hb as [Hb _].
  destruct HB as (b & k0 & Ep & Hn & HB). destruct p as [po o]. cbn [p_obj p_ofs] in *. subst po. unfold chars_of, shift in Hb. cbn [p_obj p_ofs] in Hb.
  unfold encdec_with_ctx_on_stack, push_array. unfold cstr_of, shift. cbn [p_obj p_ofs with_mem s_mem].
  set (kc := Block _ _ _ _ _). pose proof (nth_error_lt _ _ _ Hn) as Lb. set (m := s_mem w) in *.
  assert (nth_error (m ++ [kc]) b = Some k0) as Hn0 by (now rewrite nth_error_app1).
  assert (nth_error (m ++ [kc]) (length m) = Some kc) as Hkc by (rewrite nth_error_app2, Nat.sub_diag by lia; reflexivity).
  assert (bytes_at (m ++ [kc]) (Ptr (PBlk b) (o + hdr_size cf)) (bf_data B)) as Hb0.
  { destruct Hb as (k & A & H1 & H2 & H3). exists k. cbn [p_obj p_ofs access] in *. rewrite nth_error_app1 by auto. auto. }
  pose proof HB as (L & O0 & Al & Fi & _).
  destruct (Hf (m ++ [kc]) b (o + hdr_size cf) (length m) kc k0 Hb0 Hn0) as (m1 & m2 & Ef & Fr1 & Fr2); auto; try lia.
  { cbn [b_size kc]. unfold ctx_size. lia. }
  rewrite Ef. cbn [bind]. unfold pop_local. cbn [p_obj with_mem s_mem].
  assert (length m2 = S (length m)) as Lm2 by (destruct Fr2 as (X & _); destruct Fr1 as (Y & _); rewrite app_length in Y; cbn [length] in Y; lia).
  rewrite Lm2, Nat.eqb_refl. set (m3 := firstn (length m) m2).
  assert (length m3 = length m) as Lm3 by (unfold m3; rewrite firstn_length; lia).
  assert (frame m m3 b (o + hdr_size cf) (o + hdr_size cf + cap)) as Fr.
  { destruct Fr1 as (F1 & F2 & F3). destruct Fr2 as (G1 & G2 & G3). split; auto. split.
    - intros i Hi. destruct (Nat.lt_ge_cases i (length m)) as [Hl|Hl].
      + unfold m3. rewrite nth_error_firstn' by auto. rewrite G2, F2 by lia. now rewrite nth_error_app1.
      + rewrite (proj2 (nth_error_None m i)) by auto. apply nth_error_None. lia.
    - intros k Hk. unfold m3. rewrite nth_error_firstn' by auto. apply G3. rewrite F2 by lia. now rewrite nth_error_app1. }
  destruct (framed_out cf m m3 b o k0 B cap Hn Fr Hcap) as (k3 & Hn3 & Sh3 & Out3).
  destruct (set_size_neg cf m3 b k0 k3 o B n W HB Sh3 Out3 Hn3) as (k4 & E4 & Sh4 & L4 & G4 & Ld4). rewrite E4. cbn [bind].
  rewrite (Ld4 (upd m3 b k4) (nth_upd _ _ _ _ Hn3)). cbn [bind h_size].
  pose proof (set_char_ruins cf (upd m3 b k4) b k4 o n _ _ (nth_upd _ _ _ _ Hn3) L4 G4 Neg) as X.
  destruct (set_char cf (upd m3 b k4) (Ptr (PBlk b) o) n 0) as [m5|u|]; cbn [bind ruins]; auto.
  eexists. split; [reflexivity|]. cbn [s_mem with_mem]. intros B'. now apply X.
Qed.

Lemma crypt_dyn_neg : forall cf f w p B base key iv n cap, wf_cfg cf -> mem_wf (s_mem w) -> no_fail w -> buf_at cf (s_mem w) p B -> dyn B = true ->
  Zlen (bf_data B) < 2147483632 -> let cap' := Z.max (bf_cap B) (padded_size (Zlen (bf_data B))) in cap <= cap' ->
  reports f key iv (bf_data B) n cap -> n < 0 -> ruins cf (strbuf_crypt cf f w (Some p) base key iv).
Proof.
  intros cf f w p B base key iv n cap W Wm Nf HB D Hlen cap' Hcap Hf Neg. pose proof (hdr_size_pos cf W) as Hs.
  unfold strbuf_crypt. rewrite (on_buf_ok cf (s_mem w) p B) by auto. rewrite (buf_at_load cf (s_mem w) p B W HB). cbn [bind hdr_of h_alloc h_size h_cap].
  change (is_dyn (bf_alloc B)) with (dyn B). rewrite D.
  pose proof (Zlen_nonneg (bf_data B)) as Zl. destruct (size_bounds _ Zl) as (B1 & B2 & B3). destruct (buf_at_cap _ _ _ _ HB) as [C _].
  assert (padded_size (Zlen (bf_data B)) <= INT_MAX) as B4 by (unfold padded_size, INT_MAX; lia).
  unfold cypher_size, AES_BLOCK_SIZE. rewrite iadd_ok by (unfold INT_MIN; lia). cbn [bind]. unfold imul. rewrite <- B3. rewrite int_res_ok by (unfold INT_MIN; lia). cbn [bind].
  destruct (grow_dyn_ok cf w p B _ W Wm Nf HB D B4) as (p1 & w1 & Eg & HB1 & Tg & Wm1 & Nf1). fold cap' in HB1. rewrite Eg. cbn [bind].
  rewrite (buf_at_load cf (s_mem w1) p1 _ W HB1). cbn [bind hdr_of h_alloc h_size h_cap bf_data bf_cap bf_alloc].
  set (B1' := Buffer (bf_data B) cap' (bf_alloc B)) in *.
  pose proof (buf_at_bytes cf _ _ _ W HB1) as Hb. apply bytes_at_app in Hb as [Hb _]. cbn [bf_data B1'] in Hb.
  destruct HB1 as (b & k0 & Ep & Hn & HB1). destruct p1 as [po o]. cbn [p_obj p_ofs] in *. subst po. unfold chars_of, shift in Hb. cbn [p_obj p_ofs] in Hb.
  unfold alloc_call at 1. change (is_null null) with true. unfold ctx_size. change (240 =? 0) with false. rewrite (Nf1 0%nat). cbn iota. cbn [bind s_mem].
  unfold cstr_of, shift. cbn [p_obj p_ofs].
  set (m := s_mem w1) in *. set (kc := new_block (bf_alloc B) _ 240 _). pose proof (nth_error_lt _ _ _ Hn) as Lb.
  assert (nth_error (m ++ [kc]) b = Some k0) as Hn0 by (now rewrite nth_error_app1).
  assert (nth_error (m ++ [kc]) (length m) = Some kc) as Hkc by (rewrite nth_error_app2, Nat.sub_diag by lia; reflexivity).
  assert (bytes_at (m ++ [kc]) (Ptr (PBlk b) (o + hdr_size cf)) (bf_data B)) as Hb0.
  { destruct Hb as (k & A & H1 & H2 & H3). exists k. cbn [p_obj p_ofs access] in *. rewrite nth_error_app1 by auto. auto. }
  pose proof HB1 as (L & O0 & Al & Fi & _). cbn [B1' bf_cap] in Fi.
  destruct (Hf (m ++ [kc]) b (o + hdr_size cf) (length m) kc k0 Hb0 Hn0) as (m1 & m2 & Ef & Fr1 & Fr2); auto; try lia.
  { cbn [b_size kc new_block]. lia. }
  rewrite Ef. cbn [bind].
  assert (length m2 = S (length m)) as Lm2 by (destruct Fr2 as (X & _); destruct Fr1 as (Y & _); rewrite app_length in Y; cbn [length] in Y; lia).
  assert (nth_error m1 b = Some k0) as Hn1 by (destruct Fr1 as (_ & F2 & _); rewrite F2 by lia; auto).
  destruct (framed_out cf m1 m2 b o k0 B1' cap Hn1 Fr2 Hcap) as (k3 & Hn3 & Sh3 & Out3).
  destruct (set_size_neg cf m2 b k0 k3 o B1' n W HB1 Sh3 Out3 Hn3) as (k4 & E4 & Sh4 & L4 & G4 & Ld4). rewrite E4. cbn [bind].
  rewrite (Ld4 (upd m2 b k4) (nth_upd _ _ _ _ Hn3)). cbn [bind h_alloc bf_alloc B1' with_mem].
  assert (exists kc', nth_error m2 (length m) = Some kc' /\ b_live kc' = true /\ b_owner kc' = Heap (bf_alloc B)) as (kc' & Hc' & Lc' & Oc').
  { destruct Fr1 as (_ & _ & F3). destruct Fr2 as (_ & G2 & _). destruct (F3 kc Hkc) as (kc' & Hc' & _ & _ & X1 & X2 & _). exists kc'. rewrite G2 by lia. auto. }
  rewrite (free_ok cf _ (length m) kc' (bf_alloc B)) by (cbn [s_mem with_mem]; first [assumption|rewrite nth_error_upd_neq by lia; assumption]). cbn [bind s_mem s_orc with_mem].
  set (m5 := kill_at (upd m2 b k4) (length m)).
  assert (nth_error m5 b = Some k4) as Hn5 by (unfold m5; rewrite kill_at_neq by lia; now apply nth_upd with k3).
  rewrite (Ld4 m5 Hn5). cbn [bind h_size].
  pose proof (set_char_ruins cf m5 b k4 o n _ _ Hn5 L4 G4 Neg) as X.
  destruct (set_char cf m5 (Ptr (PBlk b) o) n 0) as [m6|u|]; cbn [bind ruins]; auto.
  eexists. split; [reflexivity|]. cbn [s_mem with_mem]. intros B'. now apply X.
Qed.

Lemma decrypt_neg : forall cf w p B base key iv, wf_cfg cf -> mem_wf (s_mem w) -> no_fail w -> buf_at cf (s_mem w) p B ->
  good_key key -> block16 iv -> 16 <= Zlen (bf_data B) < 2147483632 -> (dyn B = false -> padded_size (Zlen (bf_data B)) <= bf_cap B) ->
  Zlen (bf_data B) < last (cbc_plain (fun s => aes256_dec s (key_of cf key)) iv (bf_data B)) 0 ->
  ruins cf (strbuf_decrypt cf w (Some p) base key iv).
Proof.
  intros cf w p B base key iv W Wm Nf HB K Hi Hl Hr Neg. set (P := cbc_plain _ iv (bf_data B)) in *.
  destruct (buf_at_cap _ _ _ _ HB) as [C By].
  assert (16 * (Zlen (bf_data B) / 16) <= Zlen (bf_data B)) as Hq by (apply Z.mul_div_le; lia).
  assert (reports (dec256cbc cf) key iv (bf_data B) (Zlen (bf_data B) - last P 0) (16 * (Zlen (bf_data B) / 16))) as R.
  { intros m blk o c kc kb H1 H2 H3 H4 H5 H6 H7.
    destruct (dec256cbc_ok cf m blk o (bf_data B) key iv c kc K Hi H1 By ltac:(unfold INT_MAX; lia) H4 H5 H6 H7) as (m1 & m' & E & F1 & F2 & ZP & _).
    exists m1, m'. fold P in E, F2, ZP. rewrite <- ZP. auto. }
  unfold strbuf_decrypt. destruct (dyn B) eqn:D.
  - refine (crypt_dyn_neg cf _ w p B base key iv _ _ W Wm Nf HB D _ _ R _); lia.
  - specialize (Hr eq_refl). refine (crypt_fixed_neg cf _ w p B base key iv _ _ W HB D _ Hr _ R _); lia.
Qed.

(** ** Less than one block: the byte before the characters is read, which is the end of the
    header. *)
Definition stuck (f : encdec) (key iv : list Z) (n : Z) : Prop :=
  forall m blk o c kc kb h i, nth_error m blk = Some kb -> b_live kb = true -> 1 <= o <= b_size kb -> b_get kb (o - 1) = CHdr h i ->
  nth_error m c = Some kc -> b_live kc = true -> 240 <= b_size kc -> c <> blk ->
  f m (Ptr (PBlk blk) o) n key iv (Ptr (PBlk c) 0) = UB UB_uninit.

Lemma dec_stuck : forall cf key iv n, good_key key -> 0 <= n < 16 -> stuck (dec256cbc cf) key iv n.
Proof.
  intros cf key iv n K Hn m blk o c kc kb h i H1 H2 H3 H4 H5 H6 H7 Ne.
  unfold dec256cbc, AES_BLOCK_SIZE. destruct (ctx_init_ok cf m c kc key K H5 H6 H7) as (m1 & E1 & Fr1 & _). rewrite E1. cbn [bind].
  rewrite Z.quot_small by lia. change (0 <? 0) with false. cbn iota. change (Z.to_nat 0) with 0%nat. cbn [dec_blocks bind].
  assert (nth_error m1 blk = Some kb) as H1' by (destruct Fr1 as (_ & F2 & _); rewrite F2; auto).
  assert (padd cf m1 (Ptr (PBlk blk) o) (-1) = Ok (Ptr (PBlk blk) (o - 1))) as ->.
  { unfold padd, shift. cbn [p_obj p_ofs]. rewrite (access_ok m1 blk kb H1' H2). cbn [bind]. unfold in_block.
    rewrite (proj2 (Z.leb_le 0 _)), (proj2 (Z.leb_le _ (b_size kb))) by lia. destruct (c_ptr cf); reflexivity. }
  cbn [bind]. unfold load_byte, load_cell. cbn [p_obj p_ofs]. rewrite (access_ok m1 blk kb H1' H2). cbn [bind]. unfold in_block.
  rewrite (proj2 (Z.leb_le 0 _)), (proj2 (Z.leb_le _ (b_size kb))) by lia. cbn [andb bind]. rewrite H4. reflexivity.
Qed.

Lemma crypt_stuck : forall cf f w p B base key iv, wf_cfg cf -> mem_wf (s_mem w) -> no_fail w -> buf_at cf (s_mem w) p B ->
  Zlen (bf_data B) < 2147483632 -> (dyn B = false -> padded_size (Zlen (bf_data B)) <= bf_cap B) ->
  stuck f key iv (Zlen (bf_data B)) -> strbuf_crypt cf f w (Some p) base key iv = UB UB_uninit.
Proof.
  intros cf f w p B base key iv W Wm Nf HB Hlen Hr Hf. pose proof (hdr_size_pos cf W) as Hs.
  unfold strbuf_crypt. rewrite (on_buf_ok cf (s_mem w) p B) by auto. rewrite (buf_at_load cf (s_mem w) p B W HB). cbn [bind hdr_of h_alloc h_size h_cap].
  change (is_dyn (bf_alloc B)) with (dyn B).
  pose proof (Zlen_nonneg (bf_data B)) as Zl. destruct (size_bounds _ Zl) as (B1 & B2 & B3). destruct (buf_at_cap _ _ _ _ HB) as [C _].
  assert (padded_size (Zlen (bf_data B)) <= INT_MAX) as B4 by (unfold padded_size, INT_MAX; lia).
  unfold cypher_size, AES_BLOCK_SIZE. rewrite iadd_ok by (unfold INT_MIN; lia). cbn [bind]. unfold imul. rewrite <- B3. rewrite int_res_ok by (unfold INT_MIN; lia). cbn [bind].
  destruct (dyn B) eqn:D.
  - destruct (grow_dyn_ok cf w p B _ W Wm Nf HB D B4) as (p1 & w1 & Eg & HB1 & Tg & Wm1 & Nf1). rewrite Eg. cbn [bind].
    rewrite (buf_at_load cf (s_mem w1) p1 _ W HB1). cbn [bind hdr_of h_alloc h_size h_cap bf_data bf_cap bf_alloc].
    destruct HB1 as (b & k0 & Ep & Hn & L & O0 & Al & Fi & Hh & _). destruct p1 as [po o]. cbn [p_obj p_ofs bf_data bf_cap bf_alloc] in *. subst po.
    unfold alloc_call at 1. change (is_null null) with true. unfold ctx_size. change (240 =? 0) with false. rewrite (Nf1 0%nat). cbn iota. cbn [bind s_mem].
    unfold cstr_of, shift. cbn [p_obj p_ofs]. set (m := s_mem w1) in *. set (kc := new_block _ _ 240 _). pose proof (nth_error_lt _ _ _ Hn) as Lb.
    specialize (Hh (hdr_size cf - 1) ltac:(lia)).
    erewrite (Hf (m ++ [kc]) b (o + hdr_size cf) (length m) kc k0); [reflexivity|now rewrite nth_error_app1|auto|lia|..].
    + replace (o + hdr_size cf - 1) with (o + (hdr_size cf - 1)) by lia. exact Hh.
    + rewrite nth_error_app2, Nat.sub_diag by lia. reflexivity.
    + reflexivity.
    + cbn [b_size kc new_block]. lia.
    + lia.
  - specialize (Hr eq_refl). rewrite (proj2 (Z.leb_le _ _)) by auto.
    destruct HB as (b & k0 & Ep & Hn & L & O0 & Al & Fi & Hh & _). destruct p as [po o]. cbn [p_obj p_ofs] in *. subst po.
    unfold encdec_with_ctx_on_stack, push_array. unfold cstr_of, shift. cbn [p_obj p_ofs with_mem s_mem].
    set (kc := Block _ _ _ _ _). pose proof (nth_error_lt _ _ _ Hn) as Lb. set (m := s_mem w) in *.
    specialize (Hh (hdr_size cf - 1) ltac:(lia)).
    erewrite (Hf (m ++ [kc]) b (o + hdr_size cf) (length m) kc k0); [reflexivity|now rewrite nth_error_app1|auto|lia|..].
    + replace (o + hdr_size cf - 1) with (o + (hdr_size cf - 1)) by lia. exact Hh.
    + rewrite nth_error_app2, Nat.sub_diag by lia. reflexivity.
    + reflexivity.
    + cbn [b_size kc]. unfold ctx_size. lia.
    + lia.
Qed.

Lemma decrypt_short : forall cf w p B base key iv, wf_cfg cf -> mem_wf (s_mem w) -> no_fail w -> buf_at cf (s_mem w) p B ->
  good_key key -> Zlen (bf_data B) < 16 -> (dyn B = false -> padded_size (Zlen (bf_data B)) <= bf_cap B) ->
  strbuf_decrypt cf w (Some p) base key iv = UB UB_uninit.
Proof.
  intros cf w p B base key iv W Wm Nf HB K Hl Hr. unfold strbuf_decrypt. eapply crypt_stuck; eauto; try lia.
  apply dec_stuck; auto. pose proof (Zlen_nonneg (bf_data B)). lia.
Qed.
