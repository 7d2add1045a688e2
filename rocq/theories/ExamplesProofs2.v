(** Proofs about the example programs with fixed buffers and about testnum. *)
From Verif Require Import Base Mem Libc StrviewModel Spec MemLemmas StrviewProofs StrviewProofs3 Alloc StrbufModel BufSpec
  StrbufProofs StrbufProofs2 StrbufProofs3 StrbufProofs4 StrbufProofs5 StrbufProofs6 StrbufProofs7 StrbufProofs8 PackProofs CryptProofs3
  ExamplesModel ExamplesSpec ExamplesProofs.

(** ** Automatic objects *)
Lemma push_wf : forall cf m c n o f, wf_cfg cf -> mem_wf m -> 0 <= n ->
  mem_wf (m ++ [Block (place cf m c n) n true o f]).
Proof.
  intros cf m c n o f W Wm Hn. destruct (place_spec cf m c n W) as (P1 & P2 & P3).
  apply mem_wf_snoc; auto. intros i ki Hi Li. unfold apart. cbn [b_base b_size]. destruct (P3 ki (nth_error_In _ _ Hi) Li); auto.
Qed.
(** What existed is still there. *)
Definition kept (m m' : mem) : Prop := forall i, (i < length m)%nat -> nth_error m' i = nth_error m i.
Lemma kept_push : forall m k, kept m (m ++ [k]).
Proof. intros m k i Hi. now rewrite nth_error_app1. Qed.
Lemma kept_bytes : forall m m' p l, kept m m' -> bytes_at m p l -> bytes_at m' p l.
Proof.
  intros m m' p l K (x & A & H). exists x. split; auto. destruct (p_obj p) as [|b|s]; auto. cbn [access] in *.
  destruct (nth_error m b) as [kb|] eqn:E; [|discriminate]. rewrite K by (eapply nth_error_lt; eauto). now rewrite E.
Qed.
Lemma kept_view : forall m m' v l, kept m m' -> has_view m v l -> has_view m' v l.
Proof. intros m m' v l K (H & R). split; auto. eapply kept_bytes; eauto. Qed.
Lemma kept_string : forall m m' p l, kept m m' -> c_string m p l -> c_string m' p l.
Proof. intros m m' p l K (H & R). split; auto. eapply kept_bytes; eauto. Qed.
Lemma old_block : forall m p l b, bytes_at m p l -> p_obj p = PBlk b -> (b < length m)%nat.
Proof.
  intros m p l b (x & A & _) E. rewrite E in A. cbn [access] in A. destruct (nth_error m b) eqn:En; [|discriminate]. eapply nth_error_lt; eauto.
Qed.
Lemma kept_source : forall cf m m' v l o B, kept m m' -> given m v l -> source cf m' (Ptr (PBlk (length m)) o) B v l.
Proof.
  intros cf m m' v l o B K [[-> ->]|[Hv (b & Hb)]]; [apply src_invalid|]. apply src_outside; [eapply kept_view; eauto|].
  split; [eauto|]. left. rewrite Hb. cbn [p_obj]. intros X. injection X as ->. destruct Hv as (Hv & _).
  pose proof (old_block _ _ _ _ Hv Hb). lia.
Qed.
Lemma given_size : forall m v l, given m v l -> v_size v = Zlen l /\ Zlen l <= INT_MAX.
Proof. intros m v l [[-> ->]|[(_ & S & L & _) _]]; auto. split; [reflexivity|unfold INT_MAX; cbn; lia]. Qed.

(** The automatic object has ended. *)
Lemma popped : forall m m', kept m m' -> length m' = S (length m) -> no_trace m (kill_at m' (length m)).
Proof.
  intros m m' K L. split.
  - intros i Hi. rewrite kill_at_neq by lia. auto.
  - intros i k Hi Hk. pose proof (nth_error_lt _ _ _ Hk) as Lk. rewrite kill_at_len in Lk. replace i with (length m) in * by lia.
    destruct (nth_error m' (length m)) as [k0|] eqn:E; [|unfold kill_at in Hk; rewrite E in Hk; congruence].
    rewrite (kill_at_some _ _ _ E), (nth_upd _ _ _ _ E) in Hk. now injection Hk as <-.
Qed.
Lemma touched_kept : forall cf m m1 m' o B, kept m m1 -> length m1 = S (length m) -> dyn B = false ->
  touches cf m1 m' (Ptr (PBlk (length m)) o) (Ptr (PBlk (length m)) o) B -> kept m m' /\ length m' = S (length m).
Proof.
  intros cf m m1 m' o B K L D (b & b' & E1 & _ & _ & _ & _ & _ & T & _ & _ & F). cbn [p_obj] in E1. injection E1 as <-.
  destruct (F D) as (F1 & _). split; [|congruence]. intros i Hi. rewrite T by lia. auto.
Qed.

(** ** Fixed buffers *)
Lemma fixed_stays : forall cf m m' p p' B, touches cf m m' p p' B -> dyn B = false -> p' = p.
Proof.
  intros cf m m' [po o] [po' o'] B (b & b' & E1 & E2 & E3 & _ & _ & _ & _ & _ & [E|(E & _)] & _) D; [|congruence].
  cbn [p_obj p_ofs] in *. congruence.
Qed.
Lemma put_fixed : forall cf B l, dyn B = false ->
  put cf B l = Buffer (if Zlen l <=? bf_cap B then l else []) (bf_cap B) (bf_alloc B).
Proof.
  intros cf B l D. unfold put, fits, grown. cbn [bf_cap]. rewrite D. cbn [andb]. now destruct (Zlen l <=? bf_cap B).
Qed.

Lemma assign_fixed : forall cf w p B v l, wf_cfg cf -> mem_wf (s_mem w) -> no_fail w -> buf_at cf (s_mem w) p B -> dyn B = false ->
  source cf (s_mem w) p B v l -> let B' := Buffer (if Zlen l <=? bf_cap B then l else []) (bf_cap B) (bf_alloc B) in
  exists w', strbuf_assign cf w (Some p) v = Ok (buf_view cf p B', Some p, w') /\ buf_at cf (s_mem w') p B' /\
    touches cf (s_mem w) (s_mem w') p p B /\ mem_wf (s_mem w') /\ no_fail w'.
Proof.
  intros cf w p B v l W Wm Nf HB D Hs B'. destruct (assign_ok cf w p B v l W Wm Nf HB Hs) as (p' & w' & E & HB' & T & Wm' & Nf'); [congruence|].
  rewrite (put_fixed cf B l D) in *. fold B' in E, HB'. pose proof (fixed_stays _ _ _ _ _ _ T D) as ->. exists w'. auto.
Qed.

Lemma assign_and_strip_ok : forall cf w p B v l dash set, wf_cfg cf -> mem_wf (s_mem w) -> no_fail w -> buf_at cf (s_mem w) p B -> dyn B = false ->
  source cf (s_mem w) p B v l -> c_string (s_mem w) dash set -> (exists b, p_obj dash = PBlk b) -> p_obj dash <> p_obj p ->
  let t := if Zlen l <=? bf_cap B then l else [] in
  exists w', assign_and_strip cf w p v dash = Ok (upto_nul t, upto_nul (without set t), w') /\
    touches cf (s_mem w) (s_mem w') p p B /\ mem_wf (s_mem w') /\ no_fail w'.
Proof.
  intros cf w p B v l dash set W Wm Nf HB D Hs Hd Hdb Hdp t.
  destruct (assign_fixed cf w p B v l W Wm Nf HB D Hs) as (w1 & E1 & HB1 & T1 & Wm1 & Nf1). fold t in E1, HB1. set (B1 := Buffer t (bf_cap B) (bf_alloc B)) in *.
  unfold assign_and_strip. rewrite E1. cbn [bind]. rewrite (show_buf_ok cf _ p B1 W HB1). cbn [bind].
  assert (c_string (s_mem w1) dash set) as Hd1.
  { destruct Hd as (Hb & R). split; auto. eapply touches_bytes; eauto. }
  destruct (cstr_ok (s_mem w1) dash set Hd1) as [E2 Hv2]. rewrite E2. cbn [bind].
  destruct (strip_ok cf w1 p B1 (View dash (Zlen set)) set W Wm1 Nf1 HB1 Hv2) as (w2 & E3 & HB2 & T2 & Wm2 & Nf2).
  { split; auto. }
  rewrite E3. cbn [bind]. rewrite (show_buf_ok cf _ p _ W HB2). cbn [bind B1 bf_data].
  exists w2. split; auto. split; [|auto]. eapply touches_trans; [| |exact T1|exact T2]; auto.
Qed.

(** ** stack-buf.c *)
Lemma stack_ex1_ok : forall cf w c v l dash set, wf_cfg cf -> mem_wf (s_mem w) -> no_fail w -> given (s_mem w) v l ->
  strings_at (s_mem w) [dash] [set] ->
  let t := if Zlen l <=? 200 then l else [] in
  exists w', stack_ex1 cf w c v dash = Ok (upto_nul t, upto_nul (without set t), w') /\
    no_trace (s_mem w) (s_mem w') /\ mem_wf (s_mem w') /\ no_fail w'.
Proof.
  intros cf w c v l dash set W Wm Nf Hv Hd t. inversion Hd as [|? ? ? ? [Hd1 (db & Hd2)] _]; subst. clear Hd. unfold stack_ex1.
  set (m := s_mem w) in *. set (n := hdr_size cf + 200 + 1). pose proof (hdr_size_pos cf W) as Hp.
  set (k := static_buf_block cf (place cf m c n) 200). set (m1 := m ++ [k]).
  destruct (place_spec cf m c n W) as (P1 & P2 & P3).
  assert (kept m m1) as K1 by apply kept_push. assert (length m1 = S (length m)) as L1 by (unfold m1; rewrite app_length; cbn; lia).
  assert (mem_wf m1) as Wm1 by (apply (push_wf cf m c n); auto; unfold n; lia).
  set (B := Buffer [] 200 (Alloc 0 None)).
  assert (buf_at cf m1 (Ptr (PBlk (length m)) 0) B) as HB.
  { exists (length m), k. cbn [p_obj p_ofs]. split; auto. split; [unfold m1; rewrite nth_error_app2, Nat.sub_diag by lia; reflexivity|].
    apply static_ok; auto. unfold INT_MAX. lia. }
  destruct (assign_and_strip_ok cf (with_mem w m1) (Ptr (PBlk (length m)) 0) B v l dash set W Wm1 Nf HB eq_refl) as (w2 & E & T & Wm2 & Nf2).
  - eapply kept_source; eauto.
  - eapply kept_string; eauto.
  - eauto.
  - rewrite Hd2. cbn [p_obj]. intros X. injection X as ->. pose proof (old_block _ _ _ _ (proj1 Hd1) Hd2). lia.
  - cbn [B bf_cap] in E. fold t in E. rewrite E. cbn [bind]. eexists. split; [reflexivity|]. cbn [with_mem s_mem].
    destruct (touched_kept cf m m1 (s_mem w2) 0 B K1 L1 eq_refl T) as [K2 L2]. split; [now apply popped|]. split; [now apply mem_wf_kill|exact Nf2].
Qed.

Lemma space_size_ge : forall cf cap, wf_cfg cf -> 0 <= cap -> hdr_size cf + cap + 1 <= space_size cf cap.
Proof.
  intros cf cap W Hc. unfold space_size. set (p := c_ptrbytes cf). set (x := hdr_size cf + cap + 1).
  assert (0 < p) as Hp by (unfold p; destruct W as [_ [E|E]]; lia).
  pose proof (Z.div_mod (x + p - 1) p ltac:(lia)). pose proof (Z.mod_pos_bound (x + p - 1) p Hp). nia.
Qed.

Lemma stack_ex2_ok : forall cf w c v l dash set, wf_cfg cf -> mem_wf (s_mem w) -> no_fail w -> given (s_mem w) v l ->
  strings_at (s_mem w) [dash] [set] ->
  exists w', stack_ex2 cf w c v dash = Ok (upto_nul l, upto_nul (without set l), w') /\
    no_trace (s_mem w) (s_mem w') /\ mem_wf (s_mem w') /\ no_fail w'.
Proof.
  intros cf w c v l dash set W Wm Nf Hv Hd. inversion Hd as [|? ? ? ? [Hd1 (db & Hd2)] _]; subst. clear Hd. unfold stack_ex2.
  set (m := s_mem w) in *. destruct (given_size _ _ _ Hv) as [Sv Lv]. rewrite Sv. pose proof (Zlen_nonneg l) as Z1.
  pose proof (space_size_ge cf (Zlen l) W Z1) as Hn. set (n := space_size cf (Zlen l)) in *. pose proof (hdr_size_pos cf W) as Hp.
  set (k := Block (place cf m c n) n true Static (fun _ => CUndef)). set (m1 := m ++ [k]).
  destruct (place_spec cf m c n W) as (P1 & P2 & P3).
  assert (kept m m1) as K1 by apply kept_push. assert (length m1 = S (length m)) as L1 by (unfold m1; rewrite app_length; cbn; lia).
  assert (mem_wf m1) as Wm1 by (apply (push_wf cf m c n); auto; lia).
  assert (nth_error m1 (length m) = Some k) as N1 by (unfold m1; rewrite nth_error_app2, Nat.sub_diag by lia; reflexivity).
  destruct (create_fixed_ok cf m1 (length m) k 0 n W Wm1 N1 eq_refl) as (m2 & E2 & HB & Fr & Wm2); cbn [k b_size b_base]; try lia.
  { now rewrite Z.add_0_r. }
  rewrite E2. cbn [bind]. set (B := Buffer [] (Z.min (n - hdr_size cf - 1) INT_MAX) (Alloc 0 None)) in *.
  destruct Fr as (F1 & F2 & _). assert (kept m m2) as K2 by (intros i Hi; rewrite F2 by lia; auto).
  destruct (assign_and_strip_ok cf (with_mem w m2) (Ptr (PBlk (length m)) 0) B v l dash set W Wm2 Nf HB eq_refl) as (w3 & E & T & Wm3 & Nf3).
  - eapply kept_source; eauto.
  - eapply kept_string; eauto.
  - eauto.
  - rewrite Hd2. cbn [p_obj]. intros X. injection X as ->. pose proof (old_block _ _ _ _ (proj1 Hd1) Hd2). lia.
  - cbn [B bf_cap] in E. rewrite (proj2 (Z.leb_le (Zlen l) _)) in E by lia. rewrite E. cbn [bind]. eexists. split; [reflexivity|]. cbn [with_mem s_mem].
    destruct (touched_kept cf m m2 (s_mem w3) 0 B K2 ltac:(congruence) eq_refl T) as [K3 L3]. split; [now apply popped|]. split; [now apply mem_wf_kill|exact Nf3].
Qed.

(** An invalid view: memcpy of no bytes from NULL must be allowed. *)
Lemma stack_ex3_ok : forall cf w c v l, wf_cfg cf -> mem_wf (s_mem w) -> no_fail w -> given (s_mem w) v l -> (v = INVALID -> c_mem0 cf = true) ->
  exists w', stack_ex3 cf w c v = Ok (upto_nul l, w') /\ no_trace (s_mem w) (s_mem w') /\ mem_wf (s_mem w') /\ no_fail w'.
Proof.
  intros cf w c v l W Wm Nf Hv Hi. unfold stack_ex3. set (m := s_mem w) in *. destruct (given_size _ _ _ Hv) as [Sv Lv]. rewrite Sv.
  pose proof (Zlen_nonneg l) as Z1. set (n := Zlen l + 1). set (k := Block (place cf m c n) n true Static (fun _ => CUndef)). set (m1 := m ++ [k]).
  assert (kept m m1) as K1 by apply kept_push. assert (length m1 = S (length m)) as L1 by (unfold m1; rewrite app_length; cbn; lia).
  assert (mem_wf m1) as Wm1 by (apply (push_wf cf m c n); auto; lia).
  assert (nth_error m1 (length m) = Some k) as N1 by (unfold m1; rewrite nth_error_app2, Nat.sub_diag by lia; reflexivity).
  assert (exists m2 hi, strview_to_cstr cf m1 (Ptr (PBlk (length m)) 0) n v = Ok (Ptr (PBlk (length m)) 0, m2) /\
    bytes_at m2 (Ptr (PBlk (length m)) 0) (l ++ [0]) /\ frame m1 m2 (length m) 0 hi) as (m2 & hi & E & By & Fr).
  { destruct Hv as [[-> ->]|[Hv (b & Hb)]].
    - destruct (to_cstr_invalid cf m1 (length m) 0 n k (Hi eq_refl) N1 eq_refl) as (m2 & X1 & X2 & X3); cbn [k b_size]; try lia. eauto 6.
    - destruct (to_cstr_ok cf m1 (length m) 0 n k v l N1 eq_refl) as (m2 & X1 & X2 & X3); cbn [k b_size]; try lia.
      + eapply kept_view; eauto.
      + intros X. rewrite Hb in X. injection X as ->. pose proof (old_block _ _ _ _ (proj1 Hv) Hb). lia.
      + exists m2. eexists. split; [exact X1|]. split; [|exact X3]. replace (firstn (Z.to_nat (n - 1)) l) with l in X2; auto.
        unfold n. replace (Zlen l + 1 - 1) with (Zlen l) by lia. rewrite Zlen_to_nat. symmetry. apply firstn_all. }
  rewrite E. cbn [bind]. rewrite (show_cstr_ok _ _ _ By). cbn [bind]. eexists. split; [reflexivity|]. cbn [with_mem s_mem].
  pose proof (mem_wf_frame _ _ _ _ _ Fr Wm1) as Wm2. destruct Fr as (F1 & F2 & _).
  assert (kept m m2) as K2 by (intros i Hj; rewrite F2 by lia; auto). split; [apply popped; [auto|congruence]|]. split; [now apply mem_wf_kill|exact Nf].
Qed.

(** ** static-buf.c *)
Lemma new_fixed_buf : forall cf m b cap, wf_cfg cf -> 0 <= cap <= INT_MAX -> new_fixed cf m b cap ->
  buf_at cf m (Ptr (PBlk b) 0) (Buffer [] cap (Alloc 0 None)).
Proof.
  intros cf m b cap W Hc (k & Hn & L & Al & Sz & H1 & H2). pose proof (hdr_size_pos cf W) as Hp. exists b, k. split; auto. split; auto.
  cbn [p_ofs]. unfold buf_in. cbn [bf_data bf_cap bf_alloc]. change (Zlen (@nil Z)) with 0. rewrite !Z.add_0_r.
  do 4 (split; [auto; lia|]). split. { intros i Hi. rewrite Z.add_0_l. now apply H1. }
  split; [intros; lia|]. split. { apply H2. lia. }
  split; [constructor|]. split; [lia|]. discriminate.
Qed.

Lemma given_source : forall cf m b o B v l, given m v l -> p_obj (v_data v) <> PBlk b -> source cf m (Ptr (PBlk b) o) B v l.
Proof. intros cf m b o B v l [[-> ->]|[Hv Hb]] Ne; [apply src_invalid|]. apply src_outside; auto. split; auto. Qed.
Lemma given_shown : forall cf m v l, given m v l -> (v = INVALID -> c_mem0 cf = true) -> show_view cf m v = Ok (upto_nul l).
Proof.
  intros cf m v l [[-> ->]|[Hv Hb]] Hi; [|now apply show_view_ok]. unfold show_view. cbn [INVALID v_data v_size]. rewrite (Hi eq_refl).
  now rewrite andb_false_r.
Qed.
Lemma touched_given : forall cf m m' b p B v l, touches cf m m' (Ptr (PBlk b) 0) p B -> given m v l -> p_obj (v_data v) <> PBlk b -> given m' v l.
Proof.
  intros cf m m' b p B v l T [[-> ->]|[Hv Hb]] Ne; [now left|]. right. split; auto. eapply touches_view; eauto. split; auto.
Qed.
Lemma touched_args : forall cf m m' b p B vs ls, touches cf m m' (Ptr (PBlk b) 0) p B -> shown_args cf m b vs ls -> shown_args cf m' b vs ls.
Proof.
  intros cf m m' b p B vs ls T H. induction H as [|v l vs ls (G1 & G2 & G3) Hr IH]; constructor; auto.
  split; [eapply touched_given; eauto|auto].
Qed.

Lemma last_cons : forall (l : list (list Z)) x d, last (x :: l) d = last l x.
Proof. induction l as [|y l IH]; intros x d; [reflexivity|]. change (last (x :: y :: l) d) with (last (y :: l) d). now rewrite !IH. Qed.

Lemma static_calls_ok : forall cf b cap a vs ls w t, wf_cfg cf -> mem_wf (s_mem w) -> no_fail w -> a_fn a = None ->
  buf_at cf (s_mem w) (Ptr (PBlk b) 0) (Buffer t cap a) -> shown_args cf (s_mem w) b vs ls ->
  exists w', static_calls cf w (Ptr (PBlk b) 0) vs = Ok (previous cap t ls, w') /\
    buf_at cf (s_mem w') (Ptr (PBlk b) 0) (Buffer (last (map (stored cap) ls) t) cap a) /\
    touches cf (s_mem w) (s_mem w') (Ptr (PBlk b) 0) (Ptr (PBlk b) 0) (Buffer t cap a) /\ mem_wf (s_mem w') /\ no_fail w'.
Proof.
  intros cf b cap a. induction vs as [|v vs IH]; intros ls w t W Wm Nf Ha HB H; inversion H as [|? l ? ls' (G1 & G2 & G3) Hr]; subst; cbn [static_calls previous map].
  - exists w. repeat (split; auto). now apply touches_refl.
  - assert (dyn (Buffer t cap a) = false) as D by (unfold dyn; cbn [bf_alloc]; now rewrite Ha).
    unfold static_ex1. rewrite (show_buf_ok cf _ _ _ W HB). cbn [bind bf_data]. rewrite (given_shown _ _ _ _ G1 G2). cbn [bind].
    destruct (assign_fixed cf w _ _ v l W Wm Nf HB D (given_source cf _ b 0 _ v l G1 G3)) as (w1 & E1 & HB1 & T1 & Wm1 & Nf1). cbn [bf_cap bf_alloc] in *.
    fold (stored cap l) in *. rewrite E1. cbn [bind].
    destruct (IH ls' w1 (stored cap l) W Wm1 Nf1 Ha HB1) as (w2 & E2 & HB2 & T2 & Wm2 & Nf2).
    { eapply touched_args; eauto. }
    rewrite E2. cbn [bind]. exists w2. split; auto. split.
    + now rewrite last_cons.
    + split; [|auto]. eapply touches_trans; [| |exact T1|exact T2]; auto.
Qed.

Lemma static_main_ok : forall cf b g cap cap2 vs ls last ll w, wf_cfg cf -> mem_wf (s_mem w) -> no_fail w -> 0 <= cap <= INT_MAX -> 0 <= cap2 <= INT_MAX ->
  b <> g -> new_fixed cf (s_mem w) b cap -> new_fixed cf (s_mem w) g cap2 ->
  shown_args cf (s_mem w) b vs ls -> given (s_mem w) last ll -> p_obj (v_data last) <> PBlk b -> p_obj (v_data last) <> PBlk g ->
  exists w', static_main cf w (Ptr (PBlk b) 0) (Ptr (PBlk g) 0) vs last = Ok (previous cap [] ls, upto_nul (stored cap2 ll), w') /\
    mem_wf (s_mem w') /\ no_fail w' /\ length (s_mem w') = length (s_mem w) /\
    forall i, i <> b -> i <> g -> nth_error (s_mem w') i = nth_error (s_mem w) i.
Proof.
  intros cf b g cap cap2 vs ls last ll w W Wm Nf Hc Hc2 Ne Hb Hg Hv G1 G3 Hl. unfold static_main.
  pose proof (new_fixed_buf cf _ b cap W Hc Hb) as HB. pose proof (new_fixed_buf cf _ g cap2 W Hc2 Hg) as HG.
  destruct (static_calls_ok cf b cap (Alloc 0 None) vs ls w [] W Wm Nf eq_refl HB Hv) as (w1 & E1 & HB1 & T1 & Wm1 & Nf1).
  rewrite E1. cbn [bind].
  assert (buf_at cf (s_mem w1) (Ptr (PBlk g) 0) (Buffer [] cap2 (Alloc 0 None))) as HG1.
  { destruct HG as (g' & k & X1 & X2 & X3). exists g', k. split; auto. split; auto. cbn [p_obj] in X1. injection X1 as <-.
    destruct T1 as (b0 & b1 & Y1 & _ & _ & _ & _ & _ & Y & _). cbn [p_obj] in Y1. injection Y1 as <-. rewrite Y; auto. eapply nth_error_lt; eauto. }
  destruct (assign_fixed cf w1 _ _ last ll W Wm1 Nf1 HG1 eq_refl) as (w2 & E2 & HB2 & T2 & Wm2 & Nf2).
  { apply given_source; auto. eapply touched_given; eauto. }
  cbn [bf_cap bf_alloc] in *. fold (stored cap2 ll) in *. rewrite E2. cbn [bind]. rewrite (show_buf_ok cf _ _ _ W HB2). cbn [bind bf_data].
  exists w2. split; auto. split; auto. split; auto.
  destruct T1 as (b0 & b1 & Y1 & _ & _ & _ & _ & _ & Y & _ & _ & Y2). destruct T2 as (b2 & b3 & V1 & _ & _ & _ & _ & _ & V & _ & _ & V2).
  cbn [p_obj] in *. injection Y1 as <-. injection V1 as <-. destruct (Y2 eq_refl) as (Y3 & Y4 & _). destruct (V2 eq_refl) as (V3 & V4 & _).
  split; [congruence|]. intros i N1 N2. rewrite V4, Y4; auto.
Qed.
