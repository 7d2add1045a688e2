(** Proofs about the extension %n of prnf: output to a dynamic buffer. *)
From Verif Require Import Base Mem Libc StrviewModel Spec MemLemmas StrviewProofs NumSpec Alloc StrbufModel BufSpec
  StrbufProofs StrbufProofs2 StrbufProofs3 StrbufProofs4 StrbufProofs5 StrbufProofs6 StrbufProofs7
  PrnfModel PrnfSpec PrnfProofs PrnfProofs2 PrnfProofs3 PrnfProofs4 PrnfProofs5 PrnfProofs6 PrnfBufModel
  PrnfExtModel PrnfExtSpec PrnfExtProofs PrnfExtProofs2 PrnfExtProofs3 PrnfExtBufModel.

(** No string printed is stored in the buffer, and none handed over is in its block. *)
Definition piece_apart {D} (cf : cfg) (p : ptr) (B : buffer) (x : piece D) : Prop :=
  match x with Item i => item_apart cf p B i | Given _ q _ => q = null \/ p_obj q <> p_obj p end.

Lemma kill_touches : forall cf m m' p p' B c, touches cf m m' p p' B -> (c < length m)%nat -> p_obj p <> PBlk c ->
  touches cf (kill_at m c) (kill_at m' c) p p' B /\ p_obj p' <> PBlk c.
Proof.
  intros cf m m' p p' B c (b & b' & A1 & A2 & A3 & La & La' & A4 & A5 & A6 & A7 & A8) Hc Hp.
  assert (b <> c) as Nb by congruence. assert (b' <> c) as Nb' by (destruct A7 as [->|(_ & A7 & _)]; [exact Nb|lia]). split; [|congruence].
  exists b, b'. rewrite !kill_length. do 3 (split; auto). do 3 (split; [lia|]). split; [|split; [|split]].
  - intros i Ne Hi. destruct (Nat.eq_dec i c) as [->|Ni]; [|rewrite !kill_other by auto; now apply A5].
    destruct (nth_error m c) as [k|] eqn:E; [|apply nth_error_None in E; lia].
    rewrite (kill_same m' c k) by (rewrite A5; auto). now rewrite (kill_same m c k).
  - intros i k Hi Ne Hk. rewrite kill_other in Hk by lia. eapply A6; eauto.
  - destruct A7 as [A7|(D1 & D2 & D3)]; [now left|right]. split; auto. split; auto. intros k Hk. rewrite kill_other in Hk by auto. eauto.
  - intros D. now apply kill_frame; auto.
Qed.
Lemma kill_buf : forall cf m p B c, buf_at cf m p B -> p_obj p <> PBlk c -> buf_at cf (kill_at m c) p B.
Proof. intros cf m p B c (b & k & E & Hn & Hb) Hp. exists b, k. split; auto. split; auto. rewrite kill_other; auto. congruence. Qed.

Lemma fits_bound : forall cf B l B', emitted cf B l B' -> Zlen (bf_data B') <= Zlen (bf_data B) + Zlen l.
Proof.
  intros cf B l B' H. unfold emitted in H. destruct (fits B (bf_data B ++ l)) eqn:F; [|lia]. subst. unfold put. rewrite F. cbn [bf_data]. rewrite Zlen_app. lia.
Qed.
(** One more character. *)
Lemma emitted_step : forall cf B l B1 c, wf_cfg cf -> bf_cap B <= INT_MAX -> Zlen (bf_data B1) <= bf_cap B1 <= INT_MAX -> emitted cf B l B1 -> emitted cf B (l ++ [c]) (put cf B1 (bf_data B1 ++ [c])).
Proof.
  intros cf B l B1 c Wf C C1 H. destruct (emitted_dyn _ _ _ _ H) as (HD & HC & HA). unfold emitted in *. rewrite app_assoc.
  pose proof (Zlen_nonneg (bf_data B)) as Z1. pose proof (Zlen_nonneg l) as Z2.
  destruct (fits B (bf_data B ++ l)) eqn:F.
  - assert (bf_data B1 = bf_data B ++ l) as Ed by (subst B1; unfold put; rewrite F; reflexivity). rewrite Ed.
    assert (fits B1 ((bf_data B ++ l) ++ [c]) = fits B ((bf_data B ++ l) ++ [c])) as Ef.
    { unfold fits. rewrite HD. destruct (dyn B) eqn:D; auto. now rewrite HC. }
    destruct (fits B ((bf_data B ++ l) ++ [c])) eqn:F2.
    + subst B1. rewrite put_put; auto; [now rewrite F2|]. rewrite (Zlen_app _ [c]). change (Zlen [c]) with 1. lia.
    + unfold put. rewrite Ef. cbn [bf_data bf_alloc bf_cap]. change (Zlen (@nil Z)) with 0. rewrite Zlen_app. change (Zlen [c]) with 1. split; [lia|]. split; auto.
      destruct (dyn B) eqn:D; auto. unfold fits in F, F2. rewrite D in *. rewrite !Zlen_app in *. change (Zlen [c]) with 1 in *.
      apply Z.leb_le in F. apply Z.leb_gt in F2. rewrite Ed, Zlen_app in C1. lia.
  - destruct H as (L1 & L2 & L3). assert (fits B ((bf_data B ++ l) ++ [c]) = false) as ->.
    { unfold fits in *. rewrite !Zlen_app in *. change (Zlen [c]) with 1. destruct (dyn B); apply Z.leb_gt in F; apply Z.leb_gt; lia. }
    rewrite Zlen_app. change (Zlen [c]) with 1. pose proof (put_data_len cf B1 (bf_data B1 ++ [c])) as P. rewrite Zlen_app in P. change (Zlen [c]) with 1 in P.
    split; [lia|]. split; [now rewrite put_alloc|]. destruct (dyn B) eqn:D; [now apply put_full|]. rewrite put_fixed_cap; auto.
Qed.

Section Handler.
Variable cf : cfg.
Variable A : fops.
Variable heap : allocator.
Hypothesis wf : wf_cfg cf.
Notation handler := (Some (char_handler_for_prnf cf)).
(** The buffer [B] was at [p] in the caller's memory of [len] blocks and has been made [B0]. *)
Variable p : ptr.
Variable B B0 : buffer.
Variable len : nat.
Hypothesis B0_dyn : dyn B0 = dyn B.
Hypothesis B0_cap : bf_cap B0 = bf_cap B.
Hypothesis cap_max : bf_cap B <= INT_MAX.

Definition buf_J (m : mem) (o : out hst) : Prop :=
  o_buf hst o = null /\ o_fn hst o = handler /\ length m = len /\ 
  exists p1 w1 B1, o_st hst o = (p1, w1) /\ buf_at cf (s_mem w1) p1 B1 /\ touches cf m (s_mem w1) p p1 B /\
    mem_wf (s_mem w1) /\ no_fail w1 /\ dyn B1 = dyn B /\ (dyn B = false -> bf_cap B1 = bf_cap B) /\ Zlen (bf_data B1) <= Zlen (bf_data B0) + o_cnt hst o.
Definition buf_Q (l : list Z) (o : out hst) : Prop :=
  exists p1 w1 B1, o_st hst o = (p1, w1) /\ buf_at cf (s_mem w1) p1 B1 /\ emitted cf B0 l B1 /\ forall c, (c < len)%nat -> p_obj p <> PBlk c -> p_obj p1 <> PBlk c.
Definition buf_fixed (c : nat) : Prop := p_obj p = PBlk c \/ (len <= c)%nat.

Lemma buf_sink : forall M, M < INT_MAX -> sums_ok cf (Zlen (bf_data B0) + M) -> sink hst h_mem h_set cf buf_J buf_Q (apart cf p B) buf_fixed M.
Proof.
  intros M HM Hs. unfold sink. split; [|split; [|split; [|split]]].
  - intros m o c (I1 & I2 & I0 & p1 & w1 & B1 & E & HB1 & Tc & Wm1 & Nf1 & D1 & F1 & L1) Hc Hcol.
    unfold PrnfModel.out_char. rewrite I1, I2, E. cbn [is_null null p_obj p_ofs Z.eqb bind].
    unfold char_handler_for_prnf at 1. cbn [fst snd].
    destruct (append_char_yields cf w1 p1 B1 (c mod 256) wf Wm1 Nf1 HB1) as (p2 & w2 & E2 & HB2 & T2 & Wm2 & Nf2).
    { unfold is_byte. pose proof (Z.mod_pos_bound c 256). lia. } { eapply sums_ok_le; [|exact Hs]. lia. }
    rewrite append_mod in E2. rewrite E2. cbn [bind].
    set (col1 := if (c =? 13) || (c =? 10) then 0 else if 31 <? char_int cf c then o_col hst o + 1 else o_col hst o) in *.
    assert ((if (c =? 13) || (c =? 10) then Ok 0 else if 31 <? char_int cf c then iadd cf (o_col hst o) 1 else Ok (o_col hst o)) = Ok col1) as ->.
    { unfold col1. destruct ((c =? 13) || (c =? 10)); auto. destruct (31 <? char_int cf c); auto. apply iadd_ok. unfold INT_MIN. lia. }
    cbn [bind]. rewrite iadd_ok by (unfold INT_MIN; lia). cbn [bind]. eexists. split; [reflexivity|]. unfold buf_J, buf_Q. cbn [o_buf o_fn o_col o_cnt o_st].
    assert (touches cf m (s_mem w2) p p2 B) as T3 by (eapply touches_trans; eauto).
    split; [|split; [reflexivity|split]].
    + split; auto. split; auto. split; auto. exists p2, w2, (put cf B1 (bf_data B1 ++ [c mod 256])). split; auto. split; auto. split; auto. split; auto. split; auto. split; [now rewrite put_dyn|]. split.
      * intros D. rewrite put_fixed_cap by congruence. auto.
      * pose proof (put_data_len cf B1 (bf_data B1 ++ [c mod 256])) as P. rewrite Zlen_app in P. change (Zlen [c mod 256]) with 1 in P. lia.
    + unfold col1. destruct ((c =? 13) || (c =? 10)); [lia|destruct (31 <? char_int cf c); lia].
    + intros l Hl (p1' & w1' & Bq & Eq & HBq & Hq & Hne) Hbyte. rewrite E in Eq. injection Eq as <- <-.
      destruct (append_char_yields cf w1 p1 Bq c wf Wm1 Nf1 HBq) as (p3 & w3 & E3 & HB3 & _ & _ & _); auto.
      { eapply sums_ok_le; [|exact Hs]. pose proof (fits_bound _ _ _ _ Hq). lia. }
      rewrite E2 in E3. injection E3 as <- <-. exists p2, w2, (put cf Bq (bf_data Bq ++ [c])). split; auto. split; auto. split.
      * destruct (buf_at_cap _ _ _ _ HBq) as [Cq _]. apply emitted_step; auto; lia.
      * intros c' Hc' Hp'. destruct T3 as (b & b' & A1 & A2 & _ & _ & _ & _ & _ & _ & A7 & _). rewrite A2. intros K. injection K as ->.
        destruct A7 as [->|(_ & A7 & _)]; [congruence|lia].
  - intros m o q l (_ & _ & _ & p1 & w1 & B1 & E & _ & Tc & _) _ Hq Hc. rewrite E. unfold h_mem. cbn [snd]. eapply touches_bytes; eauto.
  - intros m o c (_ & _ & Hl & p1 & w1 & B1 & E & _ & (b & b' & A1 & _ & _ & _ & _ & _ & A5 & _) & _) Hc. rewrite E. unfold h_mem. cbn [snd].
    unfold buf_fixed in Hc. apply A5; [intros ->; tauto|lia].
  - intros m o c (I1 & I2 & Hl & p1 & w1 & B1 & E & HB1 & Tc & Wm1 & Nf1 & D1 & F1 & L1) Hc. unfold buf_fixed in Hc.
    unfold buf_J, put_st. cbn [o_buf o_fn o_cnt o_st]. split; auto. split; auto. rewrite kill_length. split; auto. rewrite E. unfold h_mem, h_set. cbn [fst snd].
    destruct (kill_touches cf m (s_mem w1) p p1 B c Tc) as [T2 T3]; [lia|tauto|]. exists p1, (with_mem w1 (kill_at (s_mem w1) c)), B1. cbn [with_mem s_mem].
    split; auto. split; [now apply kill_buf|]. split; auto. split; [now apply mem_wf_kill|]. auto.
  - intros l o c (p1 & w1 & B1 & E & HB1 & He & Hne) Hc. unfold buf_fixed in Hc. unfold buf_Q, put_st. cbn [o_st]. rewrite E. unfold h_mem, h_set. cbn [fst snd].
    exists p1, (with_mem w1 (kill_at (s_mem w1) c)), B1. cbn [with_mem s_mem]. split; auto. split; [apply kill_buf; auto; apply Hne; [lia|tauto]|]. auto.
Qed.
End Handler.

Lemma apart_safe : forall A cf m heap p B (l : list (piece (dbl A))), Forall (piece_mem heap m) l -> Forall (piece_apart cf p B) l ->
  Forall (piece_safe A (apart cf p B) (buf_fixed p (length m))) l.
Proof.
  intros A cf m heap p B l Hm H. rewrite Forall_forall in *. intros x Hx. specialize (H x Hx). specialize (Hm x Hx). destruct x as [i|c q t]; cbn [piece_apart piece_safe piece_mem] in *.
  - destruct i; auto.
  - destruct H as [H|H]; [now left|]. destruct Hm as [[Hm _]|(_ & b & k & -> & Hk & _)]; [now left|right]. split; [now left|]. intros b' Eb. cbn [p_obj] in *.
    injection Eb as <-. apply nth_error_lt in Hk. unfold buf_fixed. intros [K|K]; [congruence|lia].
Qed.
Lemma h_set_mem : forall s, h_set s (h_mem s) = s.
Proof. intros [p [m o]]. reflexivity. Qed.

(** The characters of a call, from a state whose buffer has been made [B0]. *)
Lemma fptr_n_ok : forall cf A heap w p B B0 m0 fmt l va, wf_cfg cf -> mem_wf (s_mem w) -> no_fail w -> buf_at cf (s_mem w) p B ->
  dyn B0 = dyn B -> bf_cap B0 = bf_cap B -> buf_at cf m0 p B0 -> touches cf (s_mem w) m0 p p B -> mem_wf m0 ->
  bytes_at (s_mem w) fmt (format_of l ++ [0]) -> apart cf p B fmt (Zlen (format_of l) + 1) ->
  pieces_ok cf (flt_fine A) l -> once l -> Forall (piece_mem heap (s_mem w)) l -> Forall (piece_apart cf p B) l ->
  (forall b, In b (given_away l) -> p_obj fmt <> PBlk b) ->
  let t := shown cf (flt A) 0 l in Zlen t < INT_MAX -> sums_ok cf (Zlen (bf_data B0) + Zlen t) ->
  exists m1 p1 w1 B1, vfptrprnf_n cf A hst h_mem h_set heap (Some (char_handler_for_prnf cf)) (p, with_mem w m0) fmt (args_of cf l ++ va) = Ok (Zlen t, (p1, w1)) /\
    released (s_mem w) m1 (given_away l) /\ buf_at cf (s_mem w1) p1 B1 /\ touches cf m1 (s_mem w1) p p1 B /\ mem_wf (s_mem w1) /\ no_fail w1 /\ emitted cf B0 t B1.
Proof.
  intros cf A heap w p B B0 m0 fmt l va Wf Wm Nf HB HD HC HB0 Ht0 Wm0 Hf Hfa Hok Ho Hm Ha Hff t Ht Hs.
  destruct (buf_at_cap _ _ _ _ HB) as [C _]. destruct (buf_at_cap _ _ _ _ HB0) as [C0 _]. pose proof (Zlen_nonneg t) as Zt.
  assert (forall B', buf_at cf m0 p B0 -> Zlen (bf_data B0) <= bf_cap B0 -> bf_cap B0 <= INT_MAX -> B' = B0 -> emitted cf B0 [] B') as E0.
  { intros B' _ L1 L2 ->. unfold emitted. rewrite app_nil_r. assert (fits B0 (bf_data B0) = true) as ->. { unfold fits. destruct (dyn B0); apply Z.leb_le; lia. }
    symmetry. now apply put_same. }
  pose proof (buf_sink cf Wf p B B0 (length (s_mem w)) HC ltac:(lia) (Zlen t) Ht Hs) as Hsink.
  destruct (whole_ok cf A heap hst h_mem h_set _ _ _ _ _ Wf h_set_mem Ht Hsink (s_mem w) (Out hst 0 0 0 null (Some (char_handler_for_prnf cf)) (p, with_mem w m0)) fmt l va)
    as (o' & m1 & E & R & (J1 & J2 & J3 & p1 & w1 & B1 & J4 & J5 & J6 & J7 & J8 & _) & Cn & (p2 & w2 & B2 & Q1 & Q2 & Q3 & _)); auto.
  - eapply apart_safe; eauto.
  - unfold buf_J. cbn [o_buf o_fn o_st o_cnt]. split; auto. split; auto. split; auto. exists p, (with_mem w m0), B0. cbn [with_mem s_mem].
    split; auto. split; auto. split; auto. split; auto. split; auto. split; auto. split; auto. lia.
  - unfold buf_Q. cbn [o_st]. exists p, (with_mem w m0), B0. cbn [with_mem s_mem]. split; auto. split; auto. split; auto. apply E0; auto; lia.
  - fold t. lia.
  - fold t in Cn, Q3. rewrite J4 in Q1. injection Q1 as <- <-. exists m1, p1, w1, B2. unfold vfptrprnf_n. rewrite E. unfold out_terminate. rewrite J1.
    cbn [is_null null p_obj p_ofs Z.eqb negb andb bind]. rewrite Cn, J4. repeat (split; [assumption || reflexivity|]). assumption.
Qed.

Lemma append_prnf_n_ok : forall cf A heap w p B fmt l va, wf_cfg cf -> mem_wf (s_mem w) -> no_fail w -> buf_at cf (s_mem w) p B ->
  bytes_at (s_mem w) fmt (format_of l ++ [0]) -> apart cf p B fmt (Zlen (format_of l) + 1) ->
  pieces_ok cf (flt_fine A) l -> once l -> Forall (piece_mem heap (s_mem w)) l -> Forall (piece_apart cf p B) l ->
  (forall b, In b (given_away l) -> p_obj fmt <> PBlk b) ->
  let t := shown cf (flt A) 0 l in Zlen t < INT_MAX -> sums_ok cf (Zlen (bf_data B) + Zlen t) ->
  exists m1, released (s_mem w) m1 (given_away l) /\
    becomes cf (with_mem w m1) p B (strbuf_append_prnf_n cf A heap w (Some p) fmt (args_of cf l ++ va)) (put_all cf B (bf_data B ++ t)).
Proof.
  intros cf A heap w p B fmt l va W Wm Nf HB Hf Hfa Hok Ho Hm Ha Hff t Hl Hs. unfold strbuf_append_prnf_n. rewrite (on_buf_ok cf (s_mem w) p B) by auto.
  rewrite (buf_at_load cf (s_mem w) p B W HB). cbn [bind hdr_of h_size].
  destruct (fptr_n_ok cf A heap w p B B (s_mem w) fmt l va) as (m1 & p1 & w1 & B1 & E & R & HB1 & Ht & Wm1 & Nf1 & He); auto; [now apply touches_refl|].
  exists m1. split; auto. replace (with_mem w (s_mem w)) with w in E by (destruct w; reflexivity). rewrite E. cbn [bind]. fold t in He. fold t.
  change m1 with (s_mem (with_mem w m1)) in Ht.
  destruct (emitted_dyn _ _ _ _ He) as (HD & HC & HA). destruct (buf_at_cap _ _ _ _ HB) as [C _]. destruct (buf_at_cap _ _ _ _ HB1) as [C1 _].
  pose proof (Zlen_nonneg (bf_data B)) as Z1. pose proof (Zlen_nonneg t) as Z2. pose proof (Zlen_nonneg (bf_data B1)) as Z3.
  unfold put_all, emitted in *.
  destruct (Z.le_gt_cases (Zlen (bf_data B) + Zlen t) INT_MAX) as [Hle|Hgt].
  - rewrite iadd_ok by (unfold INT_MIN; lia). cbn [bind]. rewrite (buf_at_load cf (s_mem w1) p1 B1 W HB1). cbn [bind hdr_of h_size].
    rewrite (proj2 (Z.ltb_ge (_ + _) 0)) by lia. rewrite orb_false_r. destruct (fits B (bf_data B ++ t)) eqn:F.
    + rewrite <- He. assert (bf_data B1 = bf_data B ++ t) as Ed by (subst B1; unfold put; rewrite F; reflexivity).
      rewrite (proj2 (Z.ltb_ge (Zlen (bf_data B1)) _)) by (rewrite Ed, Zlen_app; lia).
      apply (finish_prnf cf (with_mem w m1) p B p1 w1 B1 false); auto.
    + destruct He as (E1 & E2 & E3). rewrite (proj2 (Z.ltb_lt (Zlen (bf_data B1)) _)) by lia. rewrite <- E2, <- E3. apply (finish_prnf cf (with_mem w m1) p B p1 w1 B1 true); auto.
  - destruct Hs as [Hs|Hs]; [|destruct W; lia].
    assert (exists z, iadd cf (Zlen (bf_data B)) (Zlen t) = Ok z /\ z < 0) as (z & -> & Hz).
    { eexists. split; [apply iadd_over; auto; lia|]. unfold INT_MAX in *. lia. }
    cbn [bind]. rewrite (buf_at_load cf (s_mem w1) p1 B1 W HB1). cbn [bind hdr_of h_size]. rewrite (proj2 (Z.ltb_lt z 0)) by lia. rewrite orb_true_r.
    assert (fits B (bf_data B ++ t) = false) as F. { unfold fits. rewrite Zlen_app. destruct (dyn B); apply Z.leb_gt; lia. }
    rewrite F in *. destruct He as (E1 & E2 & E3). rewrite <- E2, <- E3. apply (finish_prnf cf (with_mem w m1) p B p1 w1 B1 true); auto.
Qed.

Lemma prnf_n_ok : forall cf A heap w p B fmt l va, wf_cfg cf -> mem_wf (s_mem w) -> no_fail w -> buf_at cf (s_mem w) p B ->
  bytes_at (s_mem w) fmt (format_of l ++ [0]) -> apart cf p B fmt (Zlen (format_of l) + 1) ->
  pieces_ok cf (flt_fine A) l -> once l -> Forall (piece_mem heap (s_mem w)) l -> Forall (piece_apart cf p B) l ->
  (forall b, In b (given_away l) -> p_obj fmt <> PBlk b) ->
  let t := shown cf (flt A) 0 l in Zlen t < INT_MAX -> sums_ok cf (Zlen t) ->
  exists m1, released (s_mem w) m1 (given_away l) /\
    becomes cf (with_mem w m1) p B (strbuf_prnf_n cf A heap w (Some p) fmt (args_of cf l ++ va)) (put_all cf B t).
Proof.
  intros cf A heap w p B fmt l va W Wm Nf HB Hf Hfa Hok Ho Hm Ha Hff t Hl Hs. unfold strbuf_prnf_n. rewrite (on_buf_ok cf (s_mem w) p B) by auto.
  destruct (empty_buf_ok cf (s_mem w) p B W Wm HB) as (m0 & -> & HB0 & Ht0 & Wm0 & _). cbn [bind].
  set (B0 := Buffer [] (bf_cap B) (bf_alloc B)) in *.
  destruct (fptr_n_ok cf A heap w p B B0 m0 fmt l va) as (m1 & p1 & w1 & B1 & E & R & HB1 & Ht & Wm1 & Nf1 & He); auto.
  exists m1. split; auto. rewrite E. cbn [bind]. fold t in He. fold t. change m1 with (s_mem (with_mem w m1)) in Ht.
  destruct (emitted_dyn _ _ _ _ He) as (HD & HC & HA). destruct (buf_at_cap _ _ _ _ HB) as [C _]. destruct (buf_at_cap _ _ _ _ HB1) as [C1 _].
  pose proof (Zlen_nonneg t) as Z2. pose proof (Zlen_nonneg (bf_data B1)) as Z3.
  change (dyn B0) with (dyn B) in HD, HC. change (bf_cap B0) with (bf_cap B) in HC. change (bf_alloc B0) with (bf_alloc B) in HA.
  unfold put_all, emitted in *. change (bf_data B0) with (@nil Z) in He. cbn [app] in He. change (fits B0 t) with (fits B t) in He.
  change (put cf B0 t) with (put cf B t) in He.
  rewrite (buf_at_load cf (s_mem w1) p1 B1 W HB1). cbn [bind hdr_of h_size]. destruct (fits B t) eqn:F.
  - rewrite <- He. assert (bf_data B1 = t) as Ed by (subst B1; unfold put; rewrite F; reflexivity).
    rewrite (proj2 (Z.ltb_ge (Zlen (bf_data B1)) _)) by (rewrite Ed; lia). apply (finish_prnf cf (with_mem w m1) p B p1 w1 B1 false); auto.
  - rewrite Zlen_nil in He. destruct He as (E1 & E2 & E3). rewrite (proj2 (Z.ltb_lt (Zlen (bf_data B1)) _)) by lia.
    change (dyn B0) with (dyn B) in E3. change (bf_cap B0) with (bf_cap B) in E3. rewrite <- HA, <- E3. apply (finish_prnf cf (with_mem w m1) p B p1 w1 B1 true); auto.
Qed.
