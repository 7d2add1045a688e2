(** Proofs about the default allocator and the allocating example programs. *)
From Verif Require Import Base Mem Libc StrviewModel Spec MemLemmas StrviewProofs Alloc StrbufModel BufSpec
  StrbufProofs StrbufProofs2 StrbufProofs3 StrbufProofs4 StrbufProofs5 StrbufProofs6 StrbufProofs7 StrbufProofs8 PackProofs
  ExamplesModel ExamplesSpec.

(** ** The heap *)
Lemma allocfunc_is_alloc_call : forall cf asserting w a p n old, held (s_mem w) a p old ->
  exists r w', alloc_call cf w a p n = Ok (r, w') /\
    allocfunc cf asserting w a p n = Ok (if asserting && negb (n =? 0) && is_null r then None else Some (r, w')).
Proof.
  intros cf asserting w a p n old H. unfold allocfunc, alloc_call, c_realloc, c_free, c_malloc.
  destruct old as [[b k]|]; cbn [held] in H.
  - destruct H as (-> & Hn & L & O). change (is_null (Ptr (PBlk b) 0)) with false. cbn iota.
    unfold owned, heap_block. cbn [p_obj p_ofs]. rewrite Hn, L, O, alloc_eqb_refl. cbn [andb Z.eqb bind].
    destruct (n =? 0) eqn:En; cbn [negb andb orb].
    + do 2 eexists. split; [reflexivity|]. now rewrite !andb_false_r.
    + destruct (ch_fail (s_orc w 0)).
      * do 2 eexists. split; [reflexivity|]. change (is_null null) with true. cbn [bind negb]. rewrite !andb_true_r. now destruct asserting.
      * destruct (negb (ch_move (s_orc w 0)) && place_ok cf (kill_at (s_mem w) b) (b_base k) n);
          (do 2 eexists; split; [reflexivity|]); cbn [bind is_null p_obj negb]; now rewrite !andb_false_r.
  - subst p. change (is_null null) with true. cbn iota. destruct (n =? 0) eqn:En; cbn [negb andb orb bind].
    + do 2 eexists. split; [reflexivity|]. now rewrite !andb_false_r.
    + destruct (ch_fail (s_orc w 0)); (do 2 eexists; split; [reflexivity|]); cbn [bind].
      * change (is_null null) with true. cbn [negb]. rewrite !andb_true_r. now destruct asserting.
      * cbn [is_null p_obj negb]. now rewrite !andb_false_r.
Qed.

Lemma alloc_call_granted : forall cf w a p n old, wf_cfg cf -> mem_wf (s_mem w) -> held (s_mem w) a p old -> 0 < n ->
  ch_fail (s_orc w O) = false ->
  exists p' w', alloc_call cf w a p n = Ok (p', w') /\ granted cf (s_mem w) (s_mem w') a old p' n.
Proof.
  intros cf w a p n old W Wm H Hn Hf. set (m := s_mem w) in *. unfold alloc_call. fold m. rewrite (proj2 (Z.eqb_neq n 0)) by lia. rewrite Hf.
  destruct (place_spec cf m (s_orc w O) n W) as (P1 & P2 & P3).
  destruct old as [[b k]|]; cbn [held] in H.
  - destruct H as (-> & E2 & L & Ow). change (is_null (Ptr (PBlk b) 0)) with false. cbn iota.
    unfold owned. cbn [p_obj p_ofs]. rewrite E2, L, Ow, alloc_eqb_refl. cbn [Z.eqb andb bind].
    destruct (negb (ch_move (s_orc w 0)) && place_ok cf (kill_at m b) (b_base k) n) eqn:Em.
    + apply andb_true_iff in Em as [_ Ep]. pose proof Ep as Ep'. apply place_ok_spec in Ep as [Pb Pd].
      unfold place_ok in Ep'. apply andb_true_iff in Ep' as [Ep' _]. apply andb_true_iff in Ep' as [_ Ep']. apply Z.eqb_eq in Ep'.
      do 2 eexists. split; [reflexivity|]. exists b, (resize k n). cbn [s_mem resize b_live b_owner b_size b_base b_get].
      split; auto. split; [eapply nth_upd; eauto|]. do 5 (split; auto). split; [|split; [|split; [auto|]]].
      * apply (mem_wf_replace m b k); auto.
        -- cbn [resize b_size]. lia.
        -- intros i ki Ne Hi Li. unfold apart. cbn [resize b_base b_size].
           rewrite <- (kill_at_neq m b i Ne) in Hi. destruct (Pd ki (nth_error_In _ _ Hi) Li); auto.
      * intros i Hi. now rewrite (proj2 (Z.ltb_lt i _)) by lia.
      * intros i Hi Ne. now apply nth_error_upd_neq.
    + assert (length (kill_at m b) = length m) as Lk by apply kill_at_len. pose proof (nth_error_lt _ _ _ E2) as Hlt.
      set (k' := new_block a (place cf m (s_orc w 0) n) n (fun i => if i <? b_size k then b_get k i else CUndef)).
      do 2 eexists. split; [reflexivity|]. exists (length m), k'. cbn [s_mem].
      split; auto. split. { rewrite nth_error_app2 by lia. now rewrite Lk, Nat.sub_diag. }
      cbn [k' new_block b_live b_owner b_size b_base b_get]. do 5 (split; auto). split; [|split; [|split; [right; split; [lia|]|]]].
      * apply mem_wf_snoc; [now apply mem_wf_kill|exact P1|cbn [k' new_block b_size]; lia|].
        intros i ki Hi Li. unfold apart. cbn [k' new_block b_base b_size].
        destruct (Nat.eq_dec i b) as [->|Ne].
        -- rewrite (kill_at_some m b k E2) in Hi. rewrite (nth_upd m b k _ E2) in Hi. injection Hi as <-. discriminate Li.
        -- rewrite kill_at_neq in Hi by auto. destruct (P3 ki (nth_error_In _ _ Hi) Li); auto.
      * intros i Hi. now rewrite (proj2 (Z.ltb_lt i _)) by lia.
      * intros k0 Hk0. rewrite nth_error_app1 in Hk0 by lia. rewrite (kill_at_some m b k E2) in Hk0. rewrite (nth_upd m b k _ E2) in Hk0.
        now injection Hk0 as <-.
      * intros i Hi Ne. rewrite nth_error_app1 by lia. now apply kill_at_neq.
  - subst p. change (is_null null) with true. cbn iota. do 2 eexists. split; [reflexivity|].
    exists (length m), (new_block a (place cf m (s_orc w 0) n) n (fun _ => CUndef)). cbn [s_mem new_block b_live b_owner b_size b_base b_get].
    split; auto. split. { rewrite nth_error_app2 by lia. now rewrite Nat.sub_diag. }
    do 5 (split; auto). split; [|split; [lia|]].
    + apply mem_wf_snoc; auto; [cbn [new_block b_size]; lia|]. intros i ki Hi Li. unfold apart. cbn [new_block b_base b_size].
      destruct (P3 ki (nth_error_In _ _ Hi) Li); auto.
    + intros i Hi. now rewrite nth_error_app1.
Qed.

(** The three answers of the allocator. *)
Lemma allocfunc_free : forall cf asserting w a p old, held (s_mem w) a p old ->
  exists w', allocfunc cf asserting w a p 0 = Ok (Some (null, w')) /\
    match old with Some (b, _) => freed (s_mem w) (s_mem w') b | None => s_mem w' = s_mem w end.
Proof.
  intros cf asserting w a p old H. destruct (allocfunc_is_alloc_call cf asserting w a p 0 old H) as (r & w' & E1 & E2).
  rewrite E2. cbn [Z.eqb negb]. rewrite andb_false_r. cbn [andb]. unfold alloc_call in E1. destruct old as [[b k]|]; cbn [held] in H.
  - destruct H as (-> & Hn & L & Ow). revert E1. change (is_null (Ptr (PBlk b) 0)) with false. cbn iota.
    unfold owned. cbn [p_obj p_ofs]. rewrite Hn, L, Ow, alloc_eqb_refl. cbn [Z.eqb andb bind]. intros E1. injection E1 as <- <-.
    eexists. split; [reflexivity|]. cbn [s_mem]. apply freed_kill.
  - subst p. revert E1. change (is_null null) with true. cbn [Z.eqb]. intros E1. injection E1 as <- <-. eauto.
Qed.
Lemma allocfunc_fails : forall cf asserting w a p n old, held (s_mem w) a p old -> 0 < n -> ch_fail (s_orc w O) = true ->
  allocfunc cf asserting w a p n = Ok (if asserting then None else Some (null, St (s_mem w) (next_orc (s_orc w)))).
Proof.
  intros cf asserting w a p n old H Hn Hf. destruct (allocfunc_is_alloc_call cf asserting w a p n old H) as (r & w' & E1 & E2).
  rewrite E2. unfold alloc_call in E1. rewrite Hf in E1. rewrite (proj2 (Z.eqb_neq n 0)) in * by lia. destruct old as [[b k]|]; cbn [held] in H.
  - destruct H as (-> & Hb & L & Ow). revert E1. change (is_null (Ptr (PBlk b) 0)) with false. cbn iota.
    unfold owned. cbn [p_obj p_ofs]. rewrite Hb, L, Ow, alloc_eqb_refl. cbn [Z.eqb andb bind]. intros E1. injection E1 as <- <-.
    change (is_null null) with true. cbn [negb]. now rewrite !andb_true_r.
  - subst p. revert E1. change (is_null null) with true. cbn iota. intros E1. injection E1 as <- <-.
    change (is_null null) with true. cbn [negb]. now rewrite !andb_true_r.
Qed.
Lemma allocfunc_grants : forall cf asserting w a p n old, wf_cfg cf -> mem_wf (s_mem w) -> held (s_mem w) a p old -> 0 < n ->
  ch_fail (s_orc w O) = false ->
  exists p' w', allocfunc cf asserting w a p n = Ok (Some (p', w')) /\ granted cf (s_mem w) (s_mem w') a old p' n.
Proof.
  intros cf asserting w a p n old W Wm H Hn Hf. destruct (allocfunc_is_alloc_call cf asserting w a p n old H) as (r & w' & E1 & E2).
  destruct (alloc_call_granted cf w a p n old W Wm H Hn Hf) as (p1 & w1 & E3 & G). rewrite E1 in E3. injection E3 as -> ->.
  exists p1, w1. split; auto. rewrite E2. destruct G as (b' & k' & -> & _). cbn [is_null p_obj]. now rewrite andb_false_r.
Qed.

(** ** Printing *)
Lemma upto_nul_spec : forall l, ~ In 0 (upto_nul l) /\ exists r, l ++ [0] = upto_nul l ++ [0] ++ r.
Proof.
  induction l as [|x l [N (r & E)]]; cbn [upto_nul]; [split; [auto|exists []; reflexivity]|].
  destruct (x =? 0) eqn:Ex; [apply Z.eqb_eq in Ex; subst; split; [auto|exists (l ++ [0]); reflexivity]|].
  apply Z.eqb_neq in Ex. split; [intros [H|H]; auto|]. exists r. cbn [app]. now rewrite E.
Qed.
Lemma upto_nul_id : forall l, ~ In 0 l -> upto_nul l = l.
Proof.
  induction l as [|x l IH]; intros H; cbn [upto_nul]; auto. rewrite (proj2 (Z.eqb_neq x 0)) by (intros ->; apply H; now left).
  rewrite IH; auto. intro; apply H; now right.
Qed.
Lemma show_cstr_ok : forall m p l, bytes_at m p (l ++ [0]) -> show_cstr m p = Ok (upto_nul l).
Proof.
  intros m p l H. destruct (upto_nul_spec l) as [N (r & E)]. set (u := upto_nul l) in *. rewrite E, app_assoc in H.
  apply bytes_at_app in H as [H _]. pose proof H as (k & A & O & S & G). unfold show_cstr, strlen. rewrite A. cbn [bind].
  rewrite (strlen_loop_ok m u p); auto.
  2:{ rewrite Zlen_app in S. unfold Zlen in S at 1. change (Zlen [0]) with 1 in S. lia. }
  cbn [bind]. rewrite Z.add_0_l, Zlen_to_nat. apply load_bytes_ok. now apply bytes_at_app in H as [H _].
Qed.
Lemma show_buf_ok : forall cf m p B, wf_cfg cf -> buf_at cf m p B -> show_cstr m (cstr_of cf p) = Ok (upto_nul (bf_data B)).
Proof. intros cf m p B W H. apply show_cstr_ok. now apply buf_at_bytes. Qed.

Lemma show_upto_ok : forall m l p, bytes_at m p l -> show_upto m p (length l) = Ok (upto_nul l).
Proof.
  intros m. induction l as [|x l IH]; intros p H; cbn [length show_upto upto_nul]; auto.
  apply bytes_at_cons in H as [H1 H2]. rewrite H1. cbn [bind]. destruct (x =? 0); auto. rewrite IH by auto. reflexivity.
Qed.
Lemma show_view_ok : forall cf m v l, has_view m v l -> show_view cf m v = Ok (upto_nul l).
Proof.
  intros cf m v l (H & S & _). unfold show_view. rewrite (bytes_at_nonnull _ _ _ H). cbn [andb]. rewrite S, Zlen_to_nat. now apply show_upto_ok.
Qed.

(** ** A program that owns one dynamic buffer *)
Definition own (cf : cfg) (m0 : mem) (w : st) (p : ptr) (B : buffer) : Prop :=
  buf_at cf (s_mem w) p B /\ dyn B = true /\ mem_wf (s_mem w) /\ no_fail w /\ (length m0 <= length (s_mem w))%nat /\
  exists b, p_obj p = PBlk b /\ (length m0 <= b)%nat /\
    (forall i, (i < length m0)%nat -> nth_error (s_mem w) i = nth_error m0 i) /\
    (forall i k, (length m0 <= i)%nat -> i <> b -> nth_error (s_mem w) i = Some k -> b_live k = false).

Lemma own_step : forall cf m0 w p B r B', own cf m0 w p B -> dyn B' = true -> becomes cf w p B r B' ->
  exists p' w', r = Ok (buf_view cf p' B', Some p', w') /\ own cf m0 w' p' B'.
Proof.
  intros cf m0 w p B r B' (HB & D & Wm & Nf & Ln & b & E & Hb & H1 & H2) D' (p' & w' & -> & HB' & T & Wm' & Nf').
  exists p', w'. split; auto. destruct T as (b0 & b1 & T1 & T2 & T3 & L1 & L2 & L3 & T4 & T5 & T6 & _).
  rewrite E in T1. injection T1 as <-. repeat (split; [auto; lia|]). exists b1. split; auto.
  assert (length m0 <= b1)%nat as Hb1 by (destruct T6 as [->|(_ & T6 & _)]; lia).
  split; auto. split.
  - intros i Hi. rewrite T4 by lia. auto.
  - intros i k Hi Ne Hk. destruct (Nat.lt_ge_cases i (length (s_mem w))) as [Li|Li]; [|eapply T5; eauto].
    destruct (Nat.eq_dec i b) as [->|Nb]; [destruct T6 as [->|(_ & _ & T6)]; [congruence|eauto]|].
    rewrite T4 in Hk by auto. eauto.
Qed.

(** Text that existed before the program is still there. *)
Lemma old_view : forall cf m0 w p B v l, own cf m0 w p B -> has_view m0 v l -> (exists b, p_obj (v_data v) = PBlk b) ->
  source cf (s_mem w) p B v l.
Proof.
  intros cf m0 w p B v l (HB & D & Wm & Nf & Ln & b & E & Hb & H1 & H2) Hv (c & Hc). pose proof Hv as ((k & A & Hr) & Hr2).
  rewrite Hc in A. cbn [access] in A. destruct (nth_error m0 c) as [kc|] eqn:En; [|discriminate]. pose proof (nth_error_lt _ _ _ En) as Lc.
  apply src_outside.
  - split; auto. exists k. split; auto. rewrite Hc. cbn [access]. rewrite H1 by auto. now rewrite En.
  - split; [eauto|]. left. rewrite Hc, E. intros X. injection X as ->. lia.
Qed.
Lemma old_string : forall cf m0 w p B s l, own cf m0 w p B -> c_string m0 s l -> (exists b, p_obj s = PBlk b) ->
  cstr (s_mem w) s = Ok (View s (Zlen l)) /\ source cf (s_mem w) p B (View s (Zlen l)) l.
Proof.
  intros cf m0 w p B s l O Hs Hp. destruct (cstr_ok m0 s l Hs) as [_ Hv]. split; [|eapply old_view; eauto].
  apply cstr_ok. destruct Hs as (Hb & Hr). split; auto. destruct Hp as (c & Hc).
  destruct O as (HB & D & Wm & Nf & Ln & b & E & Hbb & H1 & H2). destruct Hb as (k & A & Hk). exists k. split; auto.
  rewrite Hc in *. cbn [access] in *. destruct (nth_error m0 c) as [kc|] eqn:En; [|discriminate]. rewrite H1, En by (eapply nth_error_lt; eauto). auto.
Qed.

Lemma put_dyn : forall cf B c, dyn B = true -> Zlen c <= INT_MAX -> bf_data (put cf B c) = c /\ dyn (put cf B c) = true /\ bf_alloc (put cf B c) = bf_alloc B.
Proof. intros cf B c D H. unfold put, fits. rewrite D, (proj2 (Z.leb_le _ _)) by auto. auto. Qed.

Lemma append_all_ok : forall cf m0 words ls w p B, wf_cfg cf -> c_ptr cf = true -> own cf m0 w p B -> strings_at m0 words ls ->
  Zlen (bf_data B ++ concat ls) + c_step cf <= INT_MAX ->
  exists p' w' B', append_all cf w (Some p) words = Ok (Some p', w') /\ own cf m0 w' p' B' /\ bf_data B' = bf_data B ++ concat ls.
Proof.
  intros cf m0. induction words as [|s words IH]; intros ls w p B W Hc O H Hl; inversion H as [|? l ? ls' [Hs Hp] Hr]; subst; cbn [append_all concat] in *.
  - exists p, w, B. rewrite app_nil_r. auto.
  - destruct (old_string cf m0 w p B s l O Hs Hp) as [E Hsrc]. rewrite E. cbn [bind].
    pose proof W as [St _]. rewrite !Zlen_app in Hl. pose proof (Zlen_nonneg (concat ls')) as Z1.
    assert (Zlen (bf_data B ++ l) <= INT_MAX) as Hl1 by (rewrite Zlen_app; lia).
    pose proof O as (HB & D & Wm & Nf & _). destruct (put_dyn cf B (bf_data B ++ l) D Hl1) as (P1 & P2 & P3).
    destruct (own_step cf m0 w p B _ _ O P2 (append_ok cf w p B _ l W (or_introl Hc) Wm Nf HB Hsrc ltac:(right; lia))) as (p1 & w1 & E1 & O1).
    rewrite E1. cbn [bind]. destruct (IH ls' w1 p1 _ W Hc O1 Hr) as (p' & w' & B' & E2 & O2 & Hd); [rewrite P1, !Zlen_app; lia|].
    exists p', w', B'. rewrite E2, Hd, P1, <- app_assoc. auto.
Qed.

Lemma say_twice_ok : forall cf w dflt a words ls head hl tail tl, wf_cfg cf -> c_ptr cf = true -> mem_wf (s_mem w) -> no_fail w ->
  is_dyn (chosen dflt a) = true -> strings_at (s_mem w) words ls -> strings_at (s_mem w) [head; tail] [hl; tl] ->
  Zlen (hl ++ concat ls ++ concat ls ++ tl) + c_step cf <= INT_MAX ->
  exists w', say_twice cf w dflt a words head tail = Ok (hl ++ concat ls ++ concat ls ++ tl, Some null, w') /\
    no_trace (s_mem w) (s_mem w') /\ mem_wf (s_mem w') /\ no_fail w'.
Proof.
  intros cf w dflt a words ls head hl tail tl W Hc Wm Nf D Hw Hht Hl. unfold say_twice.
  inversion Hht as [|? ? ? ? [Hh Hh2] Hht']; subst. inversion Hht' as [|? ? ? ? [Ht Ht2] _]; subst. clear Hht Hht'.
  set (al := chosen dflt a) in *. set (x := concat ls) in *.
  destruct (create_empty_ok cf w dflt 16 a W Wm Nf D ltac:(unfold INT_MAX; lia)) as (b & w1 & E1 & Hb & HB1 & K1 & K2 & Wm1 & Nf1).
  fold al in HB1. rewrite E1. cbn [bind]. set (B0 := Buffer [] 16 al) in *.
  pose proof W as [Hst _]. rewrite !Zlen_app in Hl. pose proof (Zlen_nonneg x). pose proof (Zlen_nonneg hl). pose proof (Zlen_nonneg tl).
  assert (own cf (s_mem w) w1 (Ptr (PBlk b) 0) B0) as O1.
  { do 4 (split; [assumption|]). split.
    - destruct HB1 as (b0 & k0 & X1 & X2 & _). injection X1 as <-. pose proof (nth_error_lt _ _ _ X2). lia.
    - exists b. auto. }
  destruct (append_all_ok cf (s_mem w) words ls w1 _ B0 W Hc O1 Hw) as (p2 & w2 & B2 & E2 & O2 & Hd2).
  { cbn [B0 bf_data app]. fold x. lia. }
  rewrite E2. cbn [bind]. cbn [B0 bf_data app] in Hd2. fold x in Hd2.
  destruct (old_string cf _ w2 p2 B2 head hl O2 Hh Hh2) as [C1 S1]. destruct (old_string cf _ w2 p2 B2 tail tl O2 Ht Ht2) as [C2 S2].
  pose proof O2 as (HB2 & D2 & Wm2 & Nf2 & _). rewrite C1. cbn [bind]. rewrite (strbuf_view_ok cf w2 p2 B2 W HB2). cbn [bind]. rewrite C2. cbn [bind].
  assert (source cf (s_mem w2) p2 B2 (buf_view cf p2 B2) x) as S3.
  { pose proof (src_inside cf (s_mem w2) p2 B2 [] x []) as S3. rewrite app_nil_r in S3. specialize (S3 Hd2). change (Zlen (@nil Z)) with 0 in S3.
    unfold buf_view. rewrite Hd2. unfold shift in S3. rewrite Z.add_0_r in S3. now destruct (chars_of cf p2). }
  assert (concat [hl; x; x; tl] = hl ++ x ++ x ++ tl) as Ec by (cbn [concat]; now rewrite app_nil_r).
  assert (Zlen (hl ++ x ++ x ++ tl) <= INT_MAX) as Hl3 by (rewrite !Zlen_app; lia).
  destruct (put_dyn cf B2 (hl ++ x ++ x ++ tl) D2 Hl3) as (P1 & P2 & P3).
  assert (becomes cf w2 p2 B2 (strbuf_cat cf w2 (Some p2) [View head (Zlen hl); buf_view cf p2 B2; buf_view cf p2 B2; View tail (Zlen tl)])
    (put cf B2 (hl ++ x ++ x ++ tl))) as Bc.
  { pose proof (cat_ok cf w2 p2 B2 [View head (Zlen hl); buf_view cf p2 B2; buf_view cf p2 B2; View tail (Zlen tl)] [hl; x; x; tl] W Hc Wm2 Nf2 HB2) as K.
    rewrite D2, Ec in K. cbn [negb andb] in K. apply K; [auto|]. right. unfold total. rewrite Ec, !Zlen_app. lia. }
  destruct (own_step cf _ w2 p2 B2 _ _ O2 P2 Bc) as (p3 & w3 & E3 & O3). rewrite E3. cbn [bind].
  pose proof O3 as (HB3 & D3 & Wm3 & Nf3 & Ln3 & b3 & E4 & Hb3 & G1 & G2).
  rewrite (show_buf_ok cf (s_mem w3) p3 _ W HB3), P1. cbn [bind].
  destruct (destroy_dyn_ok cf w3 p3 _ W Wm3 Nf3 HB3 D3) as (b4 & w4 & E5 & -> & (F1 & F2 & F3) & Wm4 & Nf4). cbn [bind].
  rewrite E4 in E5. injection E5 as <-. exists w4. split.
  - rewrite upto_nul_id; auto. destruct Hh as (_ & _ & Nh & _). destruct Ht as (_ & _ & Nt & _).
    assert (~ In 0 x) as Nx.
    { clear - Hw. subst x. induction Hw as [|s l ss ls [(_ & _ & N & _) _] Hw IH]; cbn [concat]; auto. rewrite in_app_iff. tauto. }
    rewrite !in_app_iff. tauto.
  - split; [|auto]. split.
    + intros i Hi. rewrite F2 by lia. auto.
    + intros i k Hi Hk. destruct (Nat.eq_dec i b3) as [->|Ne]; [eauto|]. rewrite F2 in Hk by auto. eauto.
Qed.
