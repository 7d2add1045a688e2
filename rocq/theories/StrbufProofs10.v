(** Proofs about operations that do not need the allocator, and about failures. *)
From Verif Require Import Base Mem Libc StrviewModel Spec MemLemmas Alloc StrbufModel BufSpec BufSpec2
  StrbufProofs StrbufProofs2 StrbufProofs3 StrbufProofs4 StrbufProofs5 StrbufProofs6 StrbufProofs7 StrbufProofs8.
Local Open Scope Z_scope.

(** ** Two runs that differ in the allocator only and do not call it *)
Definition twins {T : Type} (keep : T -> Prop) (o1 o2 : nat -> choice) (r1 r2 : outcome (T * st)) : Prop :=
  match r1, r2 with
  | Ok (x1, w1), Ok (x2, w2) => x1 = x2 /\ keep x1 /\ s_mem w1 = s_mem w2 /\ s_orc w1 = o1 /\ s_orc w2 = o2
  | UB a, UB b => a = b
  | Fuel, Fuel => True
  | _, _ => False
  end.
Ltac twin_step :=
  match goal with
  | |- twins _ _ _ (bind ?x _) (bind ?x _) => let E := fresh "E" in destruct x eqn:E; cbn [bind]; try exact I; try reflexivity
  | |- twins _ _ _ (if ?b then _ else _) (if ?b then _ else _) => destruct b
  | |- twins _ _ _ (let '(_, _) := ?x in _) (let '(_, _) := ?x in _) => destruct x
  end.
Ltac twin_end := cbn [twins]; cbn [with_mem s_mem s_orc]; repeat split; reflexivity.

Lemma ensure_quiet : forall cf m o p n h, load_hdr cf m p = Ok h -> (is_dyn (h_alloc h) = false \/ n <= h_cap h) ->
  ensure cf (St m o) p n = Ok (p, St m o).
Proof.
  intros cf m o p n h E H. unfold ensure. cbn [s_mem]. rewrite E. cbn [bind]. destruct H as [-> | H]; [reflexivity|].
  rewrite (proj2 (Z.ltb_ge _ _)) by lia. now rewrite Bool.andb_false_r.
Qed.
Lemma insert_twins : forall cf m o1 o2 p i v h, load_hdr cf m p = Ok h -> (is_dyn (h_alloc h) = false \/ h_size h + v_size v <= h_cap h) ->
  twins (fun q => q = p) o1 o2 (insert_strview_into_buf cf (St m o1) p i v) (insert_strview_into_buf cf (St m o2) p i v).
Proof.
  intros cf m o1 o2 p i v h E H. unfold insert_strview_into_buf. cbn [s_mem]. rewrite E. cbn [bind].
  rewrite !(ensure_quiet cf m _ p _ h E H). cbn [bind].
  repeat (twin_step; cbn [s_mem]). all: try twin_end.
Qed.
Lemma ret_twins : forall cf p o1 o2 r1 r2, twins (fun q => q = p) o1 o2 r1 r2 ->
  twins (fun x => snd x = Some p) o1 o2 (let! (p', w') := r1 in ret_view cf (Some p') w') (let! (p', w') := r2 in ret_view cf (Some p') w').
Proof.
  intros cf p o1 o2 r1 r2 H. destruct r1 as [[p1 w1]| |], r2 as [[p2 w2]| |]; cbn in H; try contradiction; cbn [bind]; auto.
  destruct H as (<- & -> & Hm & H1 & H2). unfold ret_view. rewrite Hm. destruct (strview_of_buf cf (s_mem w2) p) as [v| |]; cbn [bind]; [|reflexivity|exact I].
  cbn. auto 10.
Qed.

Definition kind : nat -> choice := fun _ => Choice false false 0.
Lemma alone : forall cf w p B (f : st -> outcome (view * option ptr * st)) B',
  becomes cf (St (s_mem w) kind) p B (f (St (s_mem w) kind)) B' ->
  (forall o1 o2, twins (fun x => snd x = Some p) o1 o2 (f (St (s_mem w) o1)) (f (St (s_mem w) o2))) ->
  becomes_alone cf w p B (f w) B'.
Proof.
  intros cf w p B f B' (p' & w' & E & H1 & H2 & H3 & _) H. specialize (H kind (s_orc w)). rewrite E in H.
  replace (St (s_mem w) (s_orc w)) with w in H by now destruct w.
  destruct (f w) as [[x w2]| |]; cbn in H; try contradiction. destruct H as (<- & Hp & Hm & _ & Ho). cbn in Hp. injection Hp as ->.
  exists w2. rewrite <- Hm. auto.
Qed.

Section Quiet.
Variable cf : cfg.
Variables (w : st) (p : ptr) (B : buffer).
Hypothesis W : wf_cfg cf.
Hypothesis Wm : mem_wf (s_mem w).
Hypothesis HB : buf_at cf (s_mem w) p B.
Let HL : load_hdr cf (s_mem w) p = Ok (hdr_of B) := buf_at_load cf (s_mem w) p B W HB.
Lemma on_buf_p : forall {T} (x : outcome T) f, on_buf (Some p) x f = f p.
Proof. intros. now rewrite (on_buf_ok cf (s_mem w) p B). Qed.

(** The buffer is fixed, or has room for [n] characters. *)
Definition roomy (n : Z) : Prop := dyn B = false \/ n <= bf_cap B.
Lemma roomy_hdr : forall n, roomy n -> is_dyn (h_alloc (hdr_of B)) = false \/ n <= h_cap (hdr_of B).
Proof. intros n H. exact H. Qed.

Lemma append_alone : forall v l, comparable cf p v -> source cf (s_mem w) p B v l -> sums_ok cf (Zlen (bf_data B) + Zlen l) ->
  roomy (Zlen (bf_data B) + Zlen l) ->
  becomes_alone cf w p B (strbuf_append_strview cf w (Some p) v) (put cf B (bf_data B ++ l)).
Proof.
  intros v l Hc Hs Hsum Hr. apply (alone cf w p B (fun x => strbuf_append_strview cf x (Some p) v)); [now apply append_ok|].
  intros o1 o2. unfold strbuf_append_strview. rewrite !on_buf_p. cbn [s_mem]. rewrite HL. cbn [bind]. apply ret_twins.
  eapply insert_twins; [exact HL|]. apply roomy_hdr. cbn [hdr_of h_size]. now rewrite (source_len _ _ _ _ _ _ Hs).
Qed.
Lemma prepend_alone : forall v l, comparable cf p v -> source cf (s_mem w) p B v l -> sums_ok cf (Zlen (bf_data B) + Zlen l) ->
  roomy (Zlen (bf_data B) + Zlen l) ->
  becomes_alone cf w p B (strbuf_prepend_strview cf w (Some p) v) (put cf B (l ++ bf_data B)).
Proof.
  intros v l Hc Hs Hsum Hr. apply (alone cf w p B (fun x => strbuf_prepend_strview cf x (Some p) v)); [now apply prepend_ok|].
  intros o1 o2. unfold strbuf_prepend_strview. rewrite !on_buf_p. apply ret_twins.
  eapply insert_twins; [exact HL|]. apply roomy_hdr. cbn [hdr_of h_size]. now rewrite (source_len _ _ _ _ _ _ Hs).
Qed.
Lemma insert_alone : forall i v l, comparable cf p v -> source cf (s_mem w) p B v l -> INT_MIN <= i <= INT_MAX -> sums_ok cf (Zlen (bf_data B) + Zlen l) ->
  roomy (Zlen (bf_data B) + Zlen l) ->
  becomes_alone cf w p B (strbuf_insert_at_index_strview cf w (Some p) i v) (put cf B (insert (bf_data B) i l)).
Proof.
  intros i v l Hc Hs Hi Hsum Hr. apply (alone cf w p B (fun x => strbuf_insert_at_index_strview cf x (Some p) i v)); [now apply insert_at_index_ok|].
  intros o1 o2. unfold strbuf_insert_at_index_strview. rewrite !on_buf_p. apply ret_twins.
  eapply insert_twins; [exact HL|]. apply roomy_hdr. cbn [hdr_of h_size]. now rewrite (source_len _ _ _ _ _ _ Hs).
Qed.
Lemma append_char_alone : forall c, is_byte c -> sums_ok cf (Zlen (bf_data B) + 1) -> roomy (Zlen (bf_data B) + 1) ->
  becomes_alone cf w p B (strbuf_append_char cf w (Some p) c) (put cf B (bf_data B ++ [c])).
Proof.
  intros c Hc Hsum Hr. apply (alone cf w p B (fun x => strbuf_append_char cf x (Some p) c)); [now apply append_char_ok|].
  intros o1 o2. unfold strbuf_append_char. rewrite !on_buf_p. apply ret_twins. unfold append_char_to_buf. cbn [s_mem]. rewrite HL. cbn [bind].
  rewrite !(ensure_quiet cf (s_mem w) _ p _ _ HL (roomy_hdr _ Hr)). cbn [bind s_mem]. rewrite HL. cbn [bind].
  repeat (twin_step; cbn [s_mem]). all: try twin_end.
Qed.
Lemma assign_alone : forall v l, source cf (s_mem w) p B v l -> roomy (Zlen l) ->
  becomes_alone cf w p B (strbuf_assign cf w (Some p) v) (put cf B l).
Proof.
  intros v l Hs Hr. apply (alone cf w p B (fun x => strbuf_assign cf x (Some p) v)).
  { apply assign_ok; auto; [intros n; reflexivity|]. intros D Hlt. exfalso. destruct Hr as [Hr|Hr]; [rewrite D in Hr; discriminate|lia]. }
  intros o1 o2. unfold strbuf_assign. rewrite !on_buf_p. rewrite (source_len _ _ _ _ _ _ Hs).
  rewrite !(ensure_quiet cf (s_mem w) _ p _ _ HL (roomy_hdr _ Hr)). cbn [bind s_mem]. rewrite HL. cbn [bind].
  destruct (strview_is_valid v); cbn [bind s_mem with_mem]; unfold ret_view; cbn [s_mem with_mem];
  repeat (twin_step; cbn [s_mem with_mem]). all: try twin_end.
Qed.
Lemma append_printf_alone : forall l, Forall is_byte l -> Zlen l <= INT_MAX -> sums_ok cf (Zlen (bf_data B) + Zlen l) -> roomy (Zlen (bf_data B) + Zlen l) ->
  becomes_alone cf w p B (strbuf_append_vprintf cf w (Some p) (FmtText l)) (put cf B (bf_data B ++ l)).
Proof.
  intros l Hb Hl Hsum Hr. apply (alone cf w p B (fun x => strbuf_append_vprintf cf x (Some p) (FmtText l))); [now apply append_printf_yields|].
  pose proof (Zlen_nonneg (bf_data B)). pose proof (Zlen_nonneg l). destruct (buf_at_cap _ _ _ _ HB) as [C _].
  intros o1 o2. unfold strbuf_append_vprintf. rewrite !on_buf_p. cbn [s_mem]. rewrite HL. cbn [bind h_size hdr_of]. unfold vsnprintf at 1 3. cbn [Z.leb Z.compare bind].
  destruct (Z.le_gt_cases (Zlen (bf_data B) + Zlen l) INT_MAX) as [Hle|Hgt].
  - rewrite add_check_ok by (auto; lia). cbn [bind]. rewrite iadd_ok by (unfold INT_MIN; lia). cbn [bind].
    rewrite !(ensure_quiet cf (s_mem w) _ p _ _ HL (roomy_hdr _ Hr)). cbn [bind s_mem]. rewrite HL. cbn [bind s_mem with_mem]. unfold ret_view. cbn [s_mem with_mem].
    repeat (twin_step; cbn [s_mem with_mem]). all: try twin_end.
  - destruct Hsum as [Hw|Hs]; [|pose proof W as [W' _]; lia].
    rewrite add_check_over by (auto; lia). cbn [bind s_mem with_mem]. unfold ret_view. cbn [s_mem with_mem].
    repeat (twin_step; cbn [s_mem with_mem]). all: try twin_end.
Qed.

End Quiet.

(** ** A failing allocation *)
(** A dynamic buffer that needs more room, and the next allocation fails. *)
Lemma ensure_fails : forall cf w p B n, wf_cfg cf -> buf_at cf (s_mem w) p B -> dyn B = true -> bf_cap B < n <= INT_MAX -> sums_ok cf n -> ch_fail (s_orc w O) = true -> ensure cf w p n = UB UB_null.
Proof.
  intros cf w p B n W HB D Hn Hs Hf. pose proof (buf_at_load cf (s_mem w) p B W HB) as HL. pose proof HB as (b & k & E1 & E2 & HI). pose proof HI as (L & O & Al & Fi & H & Dt & T & By & C1 & Dy).
  destruct (Dy D) as (Y1 & Y2 & Y3). pose proof (Zlen_nonneg (bf_data B)) as Z1. pose proof (hdr_size_pos cf W) as Hp.
  unfold ensure. rewrite HL. cbn [bind]. change (h_alloc (hdr_of B)) with (bf_alloc B). change (h_cap (hdr_of B)) with (bf_cap B).
  change (is_dyn (bf_alloc B)) with (dyn B). rewrite D, (proj2 (Z.ltb_lt _ _)) by lia. cbn [andb].
  rewrite (round_up_ok cf n W) by (auto; lia). cbn [bind]. unfold change_buf_capacity. rewrite HL. cbn [bind].
  change (h_alloc (hdr_of B)) with (bf_alloc B). change (h_cap (hdr_of B)) with (bf_cap B). change (is_dyn (bf_alloc B)) with (dyn B). rewrite D.
  change (h_size (hdr_of B)) with (Zlen (bf_data B)).
  assert (n <= rounded cf n <= INT_MAX) as Hr by (apply rounded_bounds; auto; lia).
  rewrite (proj2 (Z.ltb_ge _ _)) by lia. rewrite (proj2 (Z.eqb_neq _ _)) by lia.
  assert (alloc_size cf (rounded cf n) = hdr_size cf + rounded cf n + 1) as ->.
  { apply alloc_size_ok; auto. lia. }
  unfold alloc_call. destruct p as [po o]. cbn [p_obj p_ofs] in *. subst po o. cbn [is_null p_obj].
  unfold owned. cbn [p_obj p_ofs]. rewrite E2, L, Y2. cbn [andb Z.eqb]. rewrite alloc_eqb_refl. cbn [bind].
  rewrite (proj2 (Z.eqb_neq _ _)) by lia. rewrite Hf. cbn [bind s_mem]. reflexivity.
Qed.
Lemma append_fails : forall cf w p B v l, wf_cfg cf -> comparable cf p v -> mem_wf (s_mem w) -> buf_at cf (s_mem w) p B ->
  source cf (s_mem w) p B v l -> dyn B = true -> bf_cap B < Zlen (bf_data B) + Zlen l <= INT_MAX -> sums_ok cf (Zlen (bf_data B) + Zlen l) ->
  ch_fail (s_orc w O) = true -> strbuf_append_strview cf w (Some p) v = UB UB_null.
Proof.
  intros cf w p B v l W Hc Wm HB Hs D Hn Hsum Hf. pose proof (buf_at_load cf (s_mem w) p B W HB) as HL.
  pose proof (Zlen_nonneg (bf_data B)). pose proof (Zlen_nonneg l). destruct (buf_at_cap _ _ _ _ HB) as [C _].
  assert (no_fail (St (s_mem w) kind)) as Nk by (intros n; reflexivity).
  destruct (append_ok cf (St (s_mem w) kind) p B v l W Hc Wm Nk HB Hs Hsum) as (p1 & w1 & G & _).
  unfold strbuf_append_strview in *. rewrite (on_buf_ok cf (s_mem w) p B) in * by auto. cbn [s_mem] in G. rewrite HL in *. cbn [bind] in *.
  unfold insert_strview_into_buf in *. cbn [s_mem] in G.
  destruct (buf_contains_str cf (s_mem w) p v) as [c| |]; cbn [bind] in *; try discriminate.
  destruct (pdiff cf (s_mem w) (v_data v) (cstr_of cf p)) as [d| |]; cbn [bind] in *; try discriminate.
  rewrite HL in *. cbn [bind hdr_of h_size] in *.
  destruct (clamp_index cf (Zlen (bf_data B)) (Zlen (bf_data B))) as [i| |]; cbn [bind] in *; try discriminate.
  rewrite (source_len _ _ _ _ _ _ Hs) in *. rewrite add_check_ok by (auto; lia). cbn [bind].
  rewrite (ensure_fails cf w p B) by (auto; lia). reflexivity.
Qed.
Lemma create_fails : forall cf w dflt cap a, wf_cfg cf -> is_dyn (match a with Some a => a | None => dflt end) = true -> 0 <= cap <= INT_MAX ->
  ch_fail (s_orc w O) = true -> strbuf_create_empty cf w dflt cap a = UB UB_null.
Proof.
  intros cf w dflt cap a W D Hc Hf. unfold strbuf_create_empty. rewrite D, (proj2 (Z.leb_le _ _)) by lia. cbn [andb].
  unfold create_buf. rewrite alloc_size_ok by auto. unfold alloc_call. change (is_null null) with true. cbv iota zeta. pose proof (hdr_size_pos cf W).
  rewrite (proj2 (Z.eqb_neq _ _)) by lia. rewrite Hf. reflexivity.
Qed.

(** ** Stripping characters that lie in the buffer itself *)
Lemma view_in_bytes : forall m q u x l y, bytes_at m q u -> Forall is_byte u -> Zlen u <= INT_MAX + 1 -> 0 < Zlen y -> u = x ++ l ++ y ->
  has_view m (View (shift q (Zlen x)) (Zlen l)) l.
Proof.
  intros m q u x l y Hb Hf Hn Hy ->. rewrite !Zlen_app in Hn. pose proof (Zlen_nonneg x). split; [|split; [reflexivity|split; [lia|]]].
  - cbn [v_data]. apply bytes_at_app in Hb as [_ Hb]. now apply bytes_at_app in Hb as [Hb _].
  - apply Forall_app in Hf as [_ Hf]. now apply Forall_app in Hf as [Hf _].
Qed.
Lemma strip_loop_window : forall cf p cap a n0 i k, 0 <= i -> 0 <= k -> i + k <= n0 -> n0 <= INT_MAX -> forall rest kept t m, wf_cfg cf -> mem_wf m ->
  buf_at cf m p (Buffer (kept ++ rest) cap a) -> bytes_at m (chars_of cf p) (kept ++ rest ++ 0 :: t) -> Forall is_byte t ->
  Zlen (kept ++ rest ++ 0 :: t) = n0 + 1 ->
  exists m' r, strip_loop cf m p (shift (chars_of cf p) (Zlen kept)) (length rest) (View (shift (chars_of cf p) i) k) = Ok m' /\
    buf_at cf m' p (Buffer (kept ++ r) cap a) /\ r = strip_window (Z.to_nat i) (Z.to_nat k) kept rest t /\
    touches cf m m' p p (Buffer (kept ++ rest) cap a) /\ mem_wf m'.
Proof.
  intros cf p cap a n0 i k Hi Hk Hik Hn0 rest. induction rest as [|c rest IH]; intros kept t m W Wm HB Hu Ft Hl.
  - exists m, []. cbn [length strip_loop]. split; auto. split; auto. split; [reflexivity|]. split; auto. now apply touches_refl.
  - pose proof (hdr_size_pos cf W) as Hp. pose proof (Zlen_nonneg kept) as Z1. pose proof (Zlen_nonneg rest) as Z2. pose proof (Zlen_nonneg t) as Z3.
    cbn [length strip_loop strip_window].
    destruct (buf_at_cap _ _ _ _ HB) as [Hcap By0]. cbn [bf_data bf_cap] in Hcap, By0.
    set (u := kept ++ (c :: rest) ++ 0 :: t) in *.
    assert (Forall is_byte u) as Fu.
    { apply Forall_app in By0 as [By1 By2]. apply Forall_app. split; auto. apply Forall_app. split; auto. constructor; auto. unfold is_byte. lia. }
    set (set := firstn (Z.to_nat k) (skipn (Z.to_nat i) u)).
    assert (has_view m (View (shift (chars_of cf p) i) k) set) as Hv.
    { unfold set. set (x := firstn (Z.to_nat i) u). set (y := skipn (Z.to_nat k) (skipn (Z.to_nat i) u)).
      assert (Zlen x = i) as Ex by (unfold x, Zlen in *; rewrite firstn_length; lia).
      assert (Zlen (firstn (Z.to_nat k) (skipn (Z.to_nat i) u)) = k) as Ek by (unfold Zlen in *; rewrite firstn_length, skipn_length; lia).
      rewrite <- Ex at 1. rewrite <- Ek at 1. apply (view_in_bytes m _ u x _ y); auto; try lia.
      - unfold y, Zlen in *. rewrite !skipn_length. lia.
      - unfold x, y. now rewrite !firstn_skipn. }
    pose proof (buf_at_bytes cf m p _ W HB) as Hb. cbn [bf_data] in Hb. rewrite <- app_assoc in Hb. cbn [app] in Hb.
    apply bytes_at_app in Hb as [_ Hb]. pose proof (bytes_at_cons _ _ _ _ Hb) as [L1 Hb2]. rewrite L1. cbn [bind].
    rewrite (view_contains_char_ok cf m _ set c Hv). cbn [bind].
    assert (padd cf m (shift (chars_of cf p) (Zlen kept)) 1 = Ok (shift (chars_of cf p) (Zlen kept + 1))) as Hpa.
    { erewrite padd_ok; eauto; [|zl]. now rewrite shift_shift. }
    destruct (existsb (Z.eqb c) set) eqn:Ec; cbn [negb]; rewrite Hpa; cbn [bind].
    + pose proof HB as (b & kk & E1 & E2 & HI). destruct p as [po o]. cbn [p_obj p_ofs] in *. subst po.
      pose proof (buf_in_chars _ _ _ _ HI) as Ch. cbn [bf_data] in Ch.
      pose proof HI as (L & O & Al & Fi & H & D & T & By & C1 & Dy). cbn [bf_data bf_cap bf_alloc] in *.
      unfold chars_of, shift. cbn [p_obj p_ofs].
      assert (Zlen (kept ++ c :: rest) = Zlen kept + (1 + Zlen rest)) as El by (rewrite Zlen_app, Zlen_cons; lia).
      destruct (memmove_sets cf m b kk (o + hdr_size cf + Zlen kept) (o + hdr_size cf + (Zlen kept + 1)) (Z.of_nat (S (length rest))) E2 L)
        as (k1 & X1 & S1 & G1); try (rewrite Nat2Z.inj_succ; fold (Zlen rest); lia); try lia.
      rewrite X1. cbn [bind]. replace (Z.of_nat (S (length rest))) with (1 + Zlen rest) in G1 by (unfold Zlen; lia).
      pose proof S1 as (U1 & U2 & U3 & U4).
      assert (nth_error (upd m b k1) b = Some k1) as N1 by (eapply nth_upd; eauto).
      assert (holder cf (upd m b k1) b o k1) as Hh by (constructor; auto; try congruence; lia).
      assert (hdr_at cf k1 o (Hdr (Zlen (kept ++ c :: rest)) cap a)) as H1.
      { intros z Hz. rewrite G1. rin. now apply H. }
      rewrite (load_hdr_ok cf (upd m b k1) b o k1 _ W Hh H1). cbn [bind h_size].
      unfold isub. rewrite int_res_ok by (unfold INT_MIN; lia). cbn [bind].
      destruct (set_size_sets cf (upd m b k1) b o k1 _ _ _ (Zlen (kept ++ c :: rest) - 1) W Hh H1) as (k2 & X2 & S2 & G2).
      rewrite X2. cbn [bind]. rewrite upd_upd. pose proof (shape_trans _ _ _ S1 S2) as S12. pose proof S12 as (V1 & V2 & V3 & V4).
      assert (buf_in cf k2 o (Buffer (kept ++ rest) cap a)) as HI2.
      { rewrite <- app_assoc in Ch. cbn [app] in Ch. apply chars_app in Ch as [Ch1 Ch2].
        change (c :: rest ++ [0]) with ([c] ++ (rest ++ [0])) in Ch2. apply chars_app in Ch2 as [_ Ch2]. change (Zlen [c]) with 1 in Ch2.
        apply Forall_app in By as [By1 By2]. inversion By2; subst.
        apply buf_in_intro; auto; try congruence.
        - intros z Hz. rewrite G2. rin. rewrite El, Zlen_app. f_equal; [f_equal|]; lia.
        - rewrite <- app_assoc. apply chars_app. split.
          + apply (chars_eq kk _ (o + hdr_size cf)); auto. intros z Hz. rewrite G2. rin. rewrite G1. rin. reflexivity.
          + apply (chars_eq kk _ (o + hdr_size cf + Zlen kept + 1)); auto. intros z Hz. rewrite Zlen_app in Hz. change (Zlen [0]) with 1 in Hz.
            rewrite G2. rin. rewrite G1. rin. f_equal. lia.
        - apply Forall_app. auto.
        - rewrite Zlen_app. lia.
        - intros X. rewrite V4, V2. now apply Dy. }
      destruct (in_place cf m b o kk k2 (Buffer (kept ++ c :: rest) cap a) _ Wm E2 S12 HI2) as (Q1 & Q2 & Q3).
      { intros z Hz. cbn [bf_cap] in Hz. rewrite G2. rin. rewrite G1. rin. reflexivity. }
      destruct (IH kept (0 :: t) (upd m b k2) W Q3 Q1) as (m' & r & I1 & I2 & Is & I3 & I4).
      { assert (chars kk (o + hdr_size cf) (kept ++ [c] ++ (rest ++ [0]) ++ t) /\ o + hdr_size cf + Zlen u <= b_size kk) as [Cu Fu2].
        { destruct Hu as (kk' & A1 & A2 & A3 & A4). unfold chars_of, shift in *. cbn [p_obj p_ofs] in *. cbn [access] in A1. rewrite E2, L in A1. injection A1 as <-.
          split; [|exact A3]. replace (kept ++ [c] ++ (rest ++ [0]) ++ t) with u by (unfold u; rewrite <- app_assoc; reflexivity). exact A4. }
        apply chars_app in Cu as [Cu1 Cu]. apply chars_app in Cu as [_ Cu]. change (Zlen [c]) with 1 in Cu. apply chars_app in Cu as [Cu2 Cu3].
        pose proof Cu2 as Cu4. apply chars_app in Cu4 as [_ Cu4]. rewrite Zlen_app in Cu3. change (Zlen [0]) with 1 in Cu3.
        exists k2. unfold chars_of, shift. cbn [p_obj p_ofs access]. erewrite nth_upd by eauto. rewrite V3, L. split; [reflexivity|]. split; [lia|].
        split; [rewrite V2; unfold u in Fu2; rewrite !Zlen_app, !Zlen_cons in *; lia|].
        change (chars k2 (o + hdr_size cf) (kept ++ rest ++ 0 :: 0 :: t)). replace (kept ++ rest ++ 0 :: 0 :: t) with (kept ++ (rest ++ [0]) ++ [0] ++ t) by (rewrite <- app_assoc; reflexivity).
        assert (Zlen t + Zlen kept + Zlen rest + 1 <= INT_MAX) as Hsm by (unfold u in Hl; rewrite !Zlen_app, !Zlen_cons in Hl; lia).
        apply chars_app. split; [|apply chars_app; split; [|apply chars_app; split]].
        - apply (chars_eq kk _ (o + hdr_size cf)); auto. intros z Hz. rewrite G2. rin. rewrite G1. rin. reflexivity.
        - apply (chars_eq kk _ (o + hdr_size cf + Zlen kept + 1)); auto. intros z Hz. rewrite Zlen_app in Hz. change (Zlen [0]) with 1 in Hz.
          rewrite G2. rin. rewrite G1. rin. f_equal. lia.
        - apply (chars_eq kk _ (o + hdr_size cf + Zlen kept + 1 + Zlen rest)); auto. intros z Hz. change (Zlen [0]) with 1 in Hz. rewrite Zlen_app. change (Zlen [0]) with 1.
          rewrite G2. rin. rewrite G1. rin. f_equal. lia.
        - apply (chars_eq kk _ (o + hdr_size cf + Zlen kept + 1 + (Zlen rest + 1))); auto. intros z Hz. rewrite Zlen_app. change (Zlen [0]) with 1.
          rewrite G2. rin. rewrite G1. rin. f_equal. lia. }
      { constructor; auto. unfold is_byte. lia. }
      { rewrite <- Hl. unfold u. rewrite !Zlen_app, !Zlen_cons. lia. }
      exists m', r. split; [exact I1|]. split; auto. split; [exact Is|]. split; auto. eapply (touches_trans _ _ _ _ _ _ _ _ (Buffer (kept ++ rest) cap a)); eauto.
    + replace (Zlen kept + 1) with (Zlen (kept ++ [c])) by (rewrite Zlen_app; reflexivity).
      replace (kept ++ c :: rest) with ((kept ++ [c]) ++ rest) in * by (now rewrite <- app_assoc).
      destruct (IH (kept ++ [c]) t m W Wm HB) as (m' & r & I1 & I2 & Is & I3 & I4); auto.
      { unfold u in Hu. rewrite <- app_assoc. exact Hu. }
      { rewrite <- Hl. unfold u. rewrite <- app_assoc. reflexivity. }
      exists m', (c :: r). split; auto. rewrite <- app_assoc in I2. split; [exact I2|]. split; [now f_equal|]. auto.
Qed.

(** The characters to strip are a part of the contents. *)
Lemma strip_own_ok : forall cf w p B x l y, wf_cfg cf -> mem_wf (s_mem w) -> no_fail w -> buf_at cf (s_mem w) p B -> bf_data B = x ++ l ++ y ->
  exists r, becomes_at cf w p B (strbuf_strip_strview cf w (Some p) (View (shift (chars_of cf p) (Zlen x)) (Zlen l))) (Buffer r (bf_cap B) (bf_alloc B)) /\
    r = strip_window (length x) (length l) [] (bf_data B) [].
Proof.
  intros cf w p B x l y W Wm Nf HB E. unfold strbuf_strip_strview. rewrite (on_buf_ok cf (s_mem w) p B) by auto.
  destruct (buf_at_cap _ _ _ _ HB) as [Hcap Hbytes]. pose proof (buf_at_bytes cf _ p _ W HB) as Hb.
  pose proof (Zlen_nonneg x). pose proof (Zlen_nonneg l). pose proof (Zlen_nonneg y).
  assert (strview_is_valid (View (shift (chars_of cf p) (Zlen x)) (Zlen l)) = true) as ->.
  { unfold strview_is_valid. cbn [v_data]. destruct HB as (b & k & E1 & _). destruct p as [po o]. cbn [p_obj] in E1. subst po. reflexivity. }
  rewrite (buf_at_load cf (s_mem w) p B W HB). cbn [bind hdr_of h_size]. rewrite Zlen_to_nat. destruct B as [d cap a]. cbn [bf_data bf_cap bf_alloc] in *.
  destruct (strip_loop_window cf p cap a (Zlen d) (Zlen x) (Zlen l) ltac:(lia) ltac:(lia) ltac:(rewrite E, !Zlen_app; lia) ltac:(lia) d [] [] (s_mem w) W Wm HB Hb ltac:(constructor)) as (m' & r & I1 & I2 & Is & I3 & I4).
  { cbn [app]. rewrite Zlen_app. reflexivity. }
  change (Zlen (@nil Z)) with 0 in I1. replace (shift (chars_of cf p) 0) with (cstr_of cf p) in I1 by (unfold chars_of, cstr_of, shift; cbn [p_obj p_ofs]; f_equal; lia).
  rewrite !Zlen_to_nat in Is. exists r. split; auto. rewrite I1. cbn [bind]. exists (with_mem w m'). rewrite (ret_view_ok cf (with_mem w m') p _ W I2). auto.
Qed.

Lemma strip_window_subseq : forall i k rest kept z, subseq (strip_window i k kept rest z) rest.
Proof.
  intros i k rest. induction rest as [|c rest IH]; intros kept z; cbn [strip_window]; [constructor|].
  destruct (existsb _ _); constructor; apply IH.
Qed.
(** The character at the place of the window is in the window. *)
Lemma strip_window_all : forall k rest kept z, (1 <= k)%nat -> strip_window (length kept) k kept rest z = [].
Proof.
  intros k rest. induction rest as [|c rest IH]; intros kept z Hk; cbn [strip_window]; [reflexivity|].
  rewrite skipn_app, skipn_all, Nat.sub_diag. cbn [skipn app]. destruct k as [|k]; [lia|]. cbn [firstn existsb]. rewrite Z.eqb_refl. cbn [orb]. apply IH. lia.
Qed.
Lemma strip_window_short : forall i k rest kept z, (1 <= k)%nat -> (length kept <= i)%nat ->
  (length kept + length (strip_window i k kept rest z) <= i)%nat.
Proof.
  intros i k rest. induction rest as [|c rest IH]; intros kept z Hk Hi; [cbn [strip_window length]; lia|].
  destruct (Nat.eq_dec (length kept) i) as [<-|N]; [rewrite strip_window_all by exact Hk; cbn [length]; lia|].
  cbn [strip_window]. destruct (existsb _ _); [apply IH; lia|].
  specialize (IH (kept ++ [c]) z Hk). rewrite app_length in IH. cbn [length] in *. lia.
Qed.
Lemma strip_window_prefix : forall l y x2 x1 z, l <> [] -> (forall c, In c x2 -> ~ In c l) ->
  strip_window (length x1 + length x2) (length l) x1 (x2 ++ l ++ y) z = x2.
Proof.
  intros l y x2. induction x2 as [|c x2 IH]; intros x1 z Hl Hx.
  - cbn [length app]. rewrite Nat.add_0_r. apply strip_window_all. destruct l; [congruence|cbn; lia].
  - change ((c :: x2) ++ l ++ y) with (c :: (x2 ++ l ++ y)). cbn [strip_window].
    assert (firstn (length l) (skipn (length x1 + length (c :: x2)) (x1 ++ (c :: x2 ++ l ++ y) ++ 0 :: z)) = l) as ->.
    { replace (x1 ++ (c :: x2 ++ l ++ y) ++ 0 :: z) with ((x1 ++ c :: x2) ++ l ++ y ++ 0 :: z) by (rewrite <- !app_assoc; cbn [app]; rewrite <- !app_assoc; reflexivity).
      rewrite <- app_length, skipn_app, skipn_all, Nat.sub_diag. cbn [skipn app]. rewrite firstn_app, firstn_all, Nat.sub_diag. cbn [firstn]. apply app_nil_r. }
    destruct (existsb (Z.eqb c) l) eqn:E.
    + exfalso. apply existsb_exists in E as (d & D1 & D2). apply Z.eqb_eq in D2. subst d. apply (Hx c); [now left|exact D1].
    + f_equal. replace (length x1 + length (c :: x2))%nat with (length (x1 ++ [c]) + length x2)%nat by (rewrite app_length; cbn [length]; lia).
      apply IH; auto. intros d Hd. apply Hx. now right.
Qed.
Lemma strip_window_empty : forall i rest kept z, strip_window i 0 kept rest z = rest.
Proof. intros i rest. induction rest as [|c rest IH]; intros kept z; cbn [strip_window firstn existsb]; [reflexivity|]. now rewrite IH. Qed.

(** ** The formatter fails *)
Lemma printf_error : forall cf w p B, wf_cfg cf -> mem_wf (s_mem w) -> buf_at cf (s_mem w) p B ->
  exists b k w', p_obj p = PBlk b /\ nth_error (s_mem w) b = Some k /\
    strbuf_append_vprintf cf w (Some p) FmtError = Ok (View (chars_of cf p) (Zlen (bf_data B) - 1), Some p, w') /\
    load_hdr cf (s_mem w') p = Ok (Hdr (Zlen (bf_data B) - 1) (bf_cap B) (bf_alloc B)) /\
    frame (s_mem w) (s_mem w') b (p_ofs p) (p_ofs p + hdr_size cf) /\ s_orc w' = s_orc w.
Proof.
  intros cf w p B W Wm HB. pose proof (hdr_size_pos cf W) as Hp. pose proof HB as (b & k & E1 & E2 & HI). exists b, k.
  pose proof (buf_at_load cf (s_mem w) p B W HB) as HL. destruct (buf_at_cap _ _ _ _ HB) as [C F]. pose proof (Zlen_nonneg (bf_data B)) as Z1.
  unfold strbuf_append_vprintf. rewrite (on_buf_ok cf (s_mem w) p B) by auto. rewrite HL. cbn [bind hdr_of h_size vsnprintf].
  assert (iadd cf (Zlen (bf_data B)) (-1) = Ok (Zlen (bf_data B) - 1)) as Hadd by (rewrite iadd_ok by (unfold INT_MIN; lia); f_equal; lia).
  unfold add_will_overflow_int. rewrite Hadd. cbn [bind]. rewrite (proj2 (Z.ltb_ge (Zlen (bf_data B)) 0)) by lia. cbn [Z.ltb Z.compare Bool.eqb andb bind].
  assert (ensure cf w p (Zlen (bf_data B) - 1) = Ok (p, w)) as ->.
  { pose proof (ensure_quiet cf (s_mem w) (s_orc w) p (Zlen (bf_data B) - 1) (hdr_of B) HL ltac:(right; cbn; lia)) as Q. destruct w. exact Q. }
  cbn [bind s_mem]. rewrite HL. cbn [bind hdr_of h_cap]. rewrite (proj2 (Z.ltb_ge (bf_cap B) _)) by lia. cbn [bind].
  rewrite HL. cbn [bind hdr_of h_size h_cap].
  destruct p as [po o]. cbn [p_obj p_ofs] in *. subst po. pose proof HI as (L & O & Al & Fi & H & D & T & By & C1 & Dy).
  rewrite (char_at_ok cf (s_mem w) b o k) by (auto; lia). cbn [bind vsnprintf]. rewrite Hadd. cbn [bind].
  assert (holder cf (s_mem w) b o k) as Hh by (constructor; auto; lia).
  destruct (set_size_sets cf (s_mem w) b o k _ _ _ (Zlen (bf_data B) - 1) W Hh H) as (k2 & X2 & S2 & G2).
  rewrite X2. cbn [bind]. pose proof S2 as (V1 & V2 & V3 & V4).
  assert (holder cf (upd (s_mem w) b k2) b o k2) as Hh2 by (constructor; auto; try congruence; try lia; eapply nth_upd; eauto).
  assert (load_hdr cf (upd (s_mem w) b k2) (Ptr (PBlk b) o) = Ok (Hdr (Zlen (bf_data B) - 1) (bf_cap B) (bf_alloc B))) as L2.
  { apply (load_hdr_ok cf _ b o k2); auto. intros i Hi. rewrite G2. rin. f_equal. lia. }
  unfold ret_view, strview_of_buf. cbn [with_mem s_mem s_orc]. cbn [is_null p_obj]. rewrite L2. cbn [bind h_size].
  eexists. split; [reflexivity|]. split; [exact E2|]. split; [reflexivity|]. cbn [with_mem s_mem s_orc]. split; [exact L2|]. split; [|reflexivity].
  split; [apply upd_len|]. split; [intros b' Hb'; now rewrite nth_error_upd_neq|]. intros k0 Hk. assert (k0 = k) as -> by congruence.
  exists k2. split; [eapply nth_upd; eauto|]. do 4 (split; [congruence|]). intros i Hi. rewrite G2. rin. reflexivity.
Qed.
