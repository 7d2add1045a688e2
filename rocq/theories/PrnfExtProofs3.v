(** Proofs about the extension %n of prnf: whole calls. *)
From Verif Require Import Base Mem Libc Alloc StrviewModel Spec MemLemmas StrviewProofs StrviewProofs3 NumSpec StrnumProofs StrnumProofs2 StrnumProofs3
  PrnfModel PrnfSpec PrnfSpec2 PrnfProofs PrnfProofs2 PrnfProofs3 PrnfProofs4 PrnfProofs5 PrnfExtModel PrnfExtSpec PrnfExtProofs PrnfExtProofs2.

(** ** Where the characters go *)
Definition sink (W : Type) (rd : W -> mem) (wr : W -> mem -> W) (cf : cfg) (J : mem -> out W -> Prop) (Q : list Z -> out W -> Prop) (safe : ptr -> Z -> Prop) (fixed_block : nat -> Prop) (M : Z) : Prop :=
  (forall m o c, J m o -> o_cnt W o < M -> 0 <= o_col W o <= o_cnt W o ->
    exists o', out_char cf W rd wr o c = Ok o' /\ J m o' /\ o_cnt W o' = o_cnt W o + 1 /\ 0 <= o_col W o' <= o_cnt W o' /\
      forall l, Zlen l = o_cnt W o -> Q l o -> is_byte c -> Q (l ++ [c]) o') /\
  (forall m o q l, J m o -> o_cnt W o <= M -> bytes_at m q l -> safe q (Zlen l) -> bytes_at (rd (o_st W o)) q l) /\
  (forall m o c, J m o -> ~ fixed_block c -> nth_error (rd (o_st W o)) c = nth_error m c) /\
  (forall m o c, J m o -> ~ fixed_block c -> J (kill_at m c) (put_st wr o (kill_at (rd (o_st W o)) c))) /\
  (forall l o c, Q l o -> ~ fixed_block c -> Q l (put_st wr o (kill_at (rd (o_st W o)) c))).

Definition arr_J (b : nat) (k : block) (d n : Z) (m : mem) (o : out mem) : Prop := nth_error m b = Some k /\ inv m b d n o.
Definition arr_Q (b : nat) (d n : Z) (l : list Z) (o : out mem) : Prop := bytes_at (o_st mem o) (Ptr (PBlk b) d) (firstn (Z.to_nat (n - 1)) l).
Lemma arr_sink : forall cf b k d n M, b_live k = true -> 0 <= d -> 0 <= n <= INT_MAX -> M < INT_MAX -> d + Z.min n (M + 1) <= b_size k ->
  sink mem mid mwr cf (arr_J b k d n) (arr_Q b d n) (clear_of (Ptr (PBlk b) d) (Z.min n (M + 1))) (fun c => c = b) M.
Proof.
  intros cf b k d n M Hl Hd Hn HM Hfit. unfold sink, arr_J, arr_Q. split; [|split; [|split; [|split]]].
  - intros m o c (Hk & Ho) Hc Hcol. destruct (step cf m b k d n Hk Hl Hd Hn M HM Hfit o c Ho Hc Hcol) as (o' & E & I1 & C1 & R1 & B1). exists o'. split; auto.
  - intros m o q l (Hk & (I1 & I2 & I3 & I4 & I5)) Hc Hq Hs. eapply frame_bytes; [exact I5|exact Hq|].
    destruct Hs as [Hs|Hs]; cbn [p_obj p_ofs] in *; [left; exact Hs|right]. lia.
  - intros m o c (Hk & (_ & _ & _ & _ & (_ & O & _))) Hc. now apply O.
  - intros m o c (Hk & (I1 & I2 & I3 & I4 & I5)) Hc. split; [rewrite kill_other; auto|]. unfold inv, put_st. cbn [o_cnt o_limit o_fn o_buf o_st]. repeat (split; [assumption|]).
    now apply kill_frame.
  - intros l o c H Hc. cbn [put_st o_st]. apply kill_bytes; auto. cbn [p_obj]. congruence.
Qed.

Definition nul_J (m : mem) (o : out mem) : Prop := o_buf mem o = null /\ o_fn mem o = None /\ o_st mem o = m.
Lemma nul_sink : forall cf M, M < INT_MAX -> sink mem mid mwr cf nul_J (fun _ _ => True) (fun _ _ => True) (fun _ => False) M.
Proof.
  intros cf M HM. unfold sink, nul_J. split; [|split; [|split; [|split]]]; auto.
  - intros m o c (I1 & I2 & I3) Hc Hcol. unfold out_char. rewrite I1, I2. cbn [is_null null p_obj p_ofs Z.eqb bind].
    assert ((if (c =? 13) || (c =? 10) then Ok 0 else if 31 <? char_int cf c then iadd cf (o_col mem o) 1 else Ok (o_col mem o))
       = Ok (if (c =? 13) || (c =? 10) then 0 else if 31 <? char_int cf c then o_col mem o + 1 else o_col mem o)) as ->.
    { destruct ((c =? 13) || (c =? 10)); auto. destruct (31 <? char_int cf c); auto. apply iadd_ok. unfold INT_MIN. lia. }
    cbn [bind]. rewrite iadd_ok by (unfold INT_MIN; lia). cbn [bind]. eexists. split; [reflexivity|]. cbn [o_cnt o_col o_st o_limit o_fn o_buf].
    split; [auto|]. split; [reflexivity|]. split; [destruct ((c =? 13) || (c =? 10)); try lia; destruct (31 <? char_int cf c); lia|auto].
  - intros m o q l (_ & _ & ->) _ H _. exact H.
  - intros m o c (_ & _ & ->) _. reflexivity.
  - intros m o c (I1 & I2 & ->) _. cbn [put_st o_buf o_fn o_st]. auto.
Qed.

(** ** Formats *)
Lemma format_app : forall D (a b : list (piece D)), format_of (a ++ b) = format_of a ++ format_of b.
Proof. intros. unfold format_of. now rewrite map_app, concat_app. Qed.
Lemma args_app : forall D cf (a b : list (piece D)), args_of cf (a ++ b) = args_of cf a ++ args_of cf b.
Proof. intros. unfold args_of. now rewrite map_app, concat_app. Qed.
Lemma away_app : forall D (a b : list (piece D)), given_away (a ++ b) = given_away a ++ given_away b.
Proof. intros. unfold given_away. now rewrite map_app, concat_app. Qed.
Lemma clear_safe : forall A dst w b (l : list (piece (dbl A))), p_obj dst = PBlk b -> Forall (piece_clear dst w) l -> Forall (piece_safe A (clear_of dst w) (fun c => c = b)) l.
Proof.
  intros A dst w b l Eb H. rewrite Forall_forall in *. intros x Hx. specialize (H x Hx). destruct x as [i|c p t]; cbn [piece_clear piece_safe] in *.
  - destruct i; auto.
  - destruct H as [H|H]; [now left|right]. split; [now left|]. intros b' Eb' ->. congruence.
Qed.
Lemma nul_safe : forall A (l : list (piece (dbl A))), Forall (piece_safe A (fun _ _ => True) (fun _ => False)) l.
Proof. intros A l. rewrite Forall_forall. intros x _. destruct x as [i|c p t]; cbn [piece_safe]; [destruct i; auto|auto]. Qed.

(** The call as far as the pieces [l]. *)
Lemma run_ok : forall cf A heap W rd wr J Q safe fixed_block M, wf_cfg cf -> (forall s, wr s (rd s) = s) -> M < INT_MAX -> sink W rd wr cf J Q safe fixed_block M ->
  forall m o fmt l x rest va, let full := format_of l ++ x :: rest in safe fmt (Zlen full) -> bytes_at m fmt full ->
  pieces_then cf A (flt_fine A) x l -> once l -> Forall (piece_mem heap m) l -> Forall (piece_safe A safe fixed_block) l ->
  (forall b, In b (given_away l) -> p_obj fmt <> PBlk b) -> J m o -> o_cnt W o = 0 -> o_col W o = 0 -> Q [] o -> Zlen (shown cf (flt A) 0 l) <= M ->
  exists limit fuel' o' m', access (rd (o_st W o)) (p_obj fmt) = Ok limit /\ let lim := S (Z.to_nat (b_size limit)) in (length full <= lim)%nat /\
    core_loop_n cf A W rd wr heap lim lim o fmt (args_of cf l ++ va) =
      core_loop_n cf A W rd wr heap (S fuel') lim o' (shift fmt (Zlen (format_of l))) va /\
    released m m' (given_away l) /\ I W J M m' o' /\ bytes_at m' fmt full /\ o_cnt W o' = Zlen (shown cf (flt A) 0 l) /\ Q (shown cf (flt A) 0 l) o' /\
    (length (x :: rest) <= S fuel')%nat.
Proof.
  intros cf A heap W rd wr J Q safe fixed_block M Wf Hwr HM (S1 & S2 & S3 & S4 & S5) m o fmt l x rest va full Hs Hf Hok Ho Hm Hsafe Hff HJ Hc Hcol HQ Ht.
  assert (bytes_at (rd (o_st W o)) fmt full) as (k & Ak & K1 & K2 & _). { apply (S2 m o); auto. pose proof (Zlen_nonneg (shown cf (flt A) 0 l)). lia. }
  assert (length full <= S (Z.to_nat (b_size k)))%nat as Hlim by (unfold Zlen in K2; lia).
  destruct (pieces_run cf A heap Wf W rd wr Hwr J Q safe fixed_block M HM S1 S2 S3 S4 S5 fmt full Hs (S (Z.to_nat (b_size k))) Hlim l m [] x rest (S (Z.to_nat (b_size k))) o [] va)
    as (f & o' & m' & F & E & R & I1 & B & C & Q'); auto.
  { split; auto. rewrite Hc, Hcol. pose proof (Zlen_nonneg (shown cf (flt A) 0 l)). lia. }
  { rewrite Hcol. exact Ht. }
  { unfold full in Hlim. rewrite app_length in Hlim. cbn [length] in Hlim. lia. }
  rewrite Hcol in *. cbn [app] in *. change (Zlen (@nil Z)) with 0 in E. rewrite shift_0 in E.
  assert (exists f', f = S f') as [f' ->]. { destruct f as [|f']; [|eauto]. exfalso. unfold full in Hlim. rewrite app_length in Hlim. cbn [length] in Hlim. lia. }
  exists k, f', o', m'. split; [exact Ak|]. cbn zeta. split; [exact Hlim|]. split; [exact E|]. repeat (split; [assumption|]). unfold full in Hlim. rewrite app_length in Hlim. cbn [length] in *.
  lia.
Qed.

(** The whole call. *)
Lemma whole_ok : forall cf A heap W rd wr J Q safe fixed_block M, wf_cfg cf -> (forall s, wr s (rd s) = s) -> M < INT_MAX -> sink W rd wr cf J Q safe fixed_block M ->
  forall m o fmt l va, safe fmt (Zlen (format_of l) + 1) -> bytes_at m fmt (format_of l ++ [0]) ->
  pieces_ok cf (flt_fine A) l -> once l -> Forall (piece_mem heap m) l -> Forall (piece_safe A safe fixed_block) l ->
  (forall b, In b (given_away l) -> p_obj fmt <> PBlk b) -> J m o -> o_cnt W o = 0 -> o_col W o = 0 -> Q [] o -> Zlen (shown cf (flt A) 0 l) <= M ->
  exists o' m', core_prnf_n cf A W rd wr heap o fmt (args_of cf l ++ va) = (let! o := out_terminate W rd wr o' in Ok (o_cnt W o, o)) /\
    released m m' (given_away l) /\ J m' o' /\ o_cnt W o' = Zlen (shown cf (flt A) 0 l) /\ Q (shown cf (flt A) 0 l) o'.
Proof.
  intros cf A heap W rd wr J Q safe fixed_block M Wf Hwr HM Hsink m o fmt l va Hs Hf Hok Ho Hm Hsafe Hff HJ Hc Hcol HQ Ht.
  destruct (run_ok cf A heap W rd wr J Q safe fixed_block M Wf Hwr HM Hsink m o fmt l 0 [] va) as (k & f & o' & m' & Ak & Hlim & E & R & (I1 & I2 & I3) & B & C & Q' & _); auto.
  { rewrite Zlen_app. exact Hs. } { pose proof (pieces_ok_then cf A (flt_fine A) l []) as K. rewrite app_nil_r in K. exact (K Hok). }
  exists o', m'. split; auto. unfold core_prnf_n. rewrite Ak. cbn [bind]. rewrite E. cbn [core_loop_n].
  assert (load_byte (rd (o_st W o')) (shift fmt (Zlen (format_of l))) = Ok 0) as ->; [|reflexivity].
  destruct Hsink as (_ & S2 & _). assert (bytes_at (rd (o_st W o')) fmt (format_of l ++ [0])) as K. { apply (S2 m' o'); auto. rewrite Zlen_app. exact Hs. }
  now apply bytes_at_mid in K.
Qed.

Lemma sn_n_ok : forall cf A heap m dst n fmt l va, wf_cfg cf -> 0 <= n <= INT_MAX ->
  let t := shown cf (flt A) 0 l in let w := Z.min n (Zlen t + 1) in Zlen t < INT_MAX ->
  writable m dst w -> bytes_at m fmt (format_of l ++ [0]) -> clear_of dst w fmt (Zlen (format_of l) + 1) ->
  pieces_ok cf (flt_fine A) l -> once l -> Forall (piece_mem heap m) l -> Forall (piece_clear dst w) l ->
  (forall b, In b (given_away l) -> p_obj fmt <> PBlk b) ->
  exists m1 m', vsnprnf_n cf A mem mid mwr heap m dst n fmt (args_of cf l ++ va) = Ok (Zlen t, m') /\
    released m m1 (given_away l) /\ only_wrote m1 m' dst w /\ (0 < n -> bytes_at m' dst (firstn (Z.to_nat (n - 1)) t ++ [0])).
Proof.
  intros cf A heap m dst n fmt l va Wf Hn t w Ht (b & k & Eo & Hk & Hlive & Hd & Hfit) Hf Hfc Hok Ho Hm Hcl Hff.
  destruct dst as [o d]. cbn [p_obj p_ofs] in *. subst o. pose proof (Zlen_nonneg t) as Zt.
  pose proof (arr_sink cf b k d n (Zlen t) Hlive Hd Hn Ht Hfit) as Hs. fold w in Hs.
  destruct (whole_ok cf A heap mem mid mwr _ _ _ _ _ Wf (fun _ => eq_refl) Ht Hs m (Out mem 0 0 n (Ptr (PBlk b) d) None m) fmt l va) as (o' & m1 & E & R & (J1 & J2) & C & Q'); auto.
  - now apply clear_safe.
  - split; auto. unfold inv. cbn [o_cnt o_limit o_fn o_buf o_st]. replace (Z.min 0 (Z.max 0 (n - 1))) with 0 by lia. rewrite Z.add_0_r.
    split; [lia|]. split; auto. split; auto. split; auto. apply frame_refl.
  - unfold arr_Q. rewrite firstn_nil. exists k. cbn [p_obj p_ofs o_st access]. rewrite Hk, Hlive. change (Zlen (@nil Z)) with 0. unfold w in *. repeat split; auto; lia.
  - fold t. lia.
  - fold t in C, Q'. destruct (terminate_ok m1 b k d n J1 Hlive Hd Hn (Zlen t) Hfit o' t) as (o2 & E2 & C2 & F2 & B2); auto; [lia|].
    exists m1, (o_st mem o2). unfold vsnprnf_n. assert (to_int n = n) as -> by (apply to_int_ok; unfold INT_MIN; lia). rewrite E, E2. cbn [bind]. rewrite C2, C.
    split; [reflexivity|]. split; auto. split; auto. intros b' Eb. cbn [p_obj p_ofs] in *. injection Eb as <-. exact F2.
Qed.
Lemma null_n_ok : forall cf A heap m n fmt l va, wf_cfg cf ->
  let t := shown cf (flt A) 0 l in Zlen t < INT_MAX -> bytes_at m fmt (format_of l ++ [0]) ->
  pieces_ok cf (flt_fine A) l -> once l -> Forall (piece_mem heap m) l -> (forall b, In b (given_away l) -> p_obj fmt <> PBlk b) ->
  exists m', vsnprnf_n cf A mem mid mwr heap m null n fmt (args_of cf l ++ va) = Ok (Zlen t, m') /\ released m m' (given_away l).
Proof.
  intros cf A heap m n fmt l va Wf t Ht Hf Hok Ho Hm Hff. pose proof (Zlen_nonneg t) as Zt.
  destruct (whole_ok cf A heap mem mid mwr _ _ _ _ _ Wf (fun _ => eq_refl) Ht (nul_sink cf (Zlen t) Ht) m (Out mem 0 0 (to_int n) null None m) fmt l va) as (o' & m1 & E & R & (J1 & J2 & J3) & C & _); auto.
  - apply nul_safe.
  - split; auto.
  - fold t. lia.
  - exists m1. unfold vsnprnf_n. rewrite E. unfold out_terminate. rewrite J1. cbn [is_null null p_obj p_ofs Z.eqb negb andb bind]. rewrite C, J3. auto.
Qed.

(** ** Formats without floating point *)
Lemma pieces_plain : forall cf A (l : list (piece (dbl A))) col, pieces_ok cf (fun _ _ _ => False) l ->
  pieces_ok cf (flt_fine A) l /\ shown cf (flt A) col l = shown cf (fun _ _ _ => []) col l.
Proof.
  intros cf A. induction l as [|x l IH]; intros col H; [split; [exact Logic.I|reflexivity]|]. destruct H as (Hx & Hl & Hv). cbn [shown].
  assert (piece_out cf (flt A) col x = piece_out cf (fun _ _ _ => []) col x) as E.
  { destruct x as [i|]; auto. destruct i; auto; cbn [piece_ok item_ok] in Hx; tauto. }
  rewrite E. destruct (IH (after cf col (piece_out cf (fun _ _ _ => []) col x)) Hl) as [I1 I2]. rewrite I2. split; [|reflexivity]. split; auto.
  destruct x as [i|]; auto. destruct i; cbn [piece_ok item_ok] in *; tauto.
Qed.

(** ** Strings that are used after they were handed over, or do not come from the allocator *)
(** Where the call may print, as far as the text [t] goes. *)
Definition dest (m : mem) (dst : ptr) (n : Z) (t : list Z) : Prop := dst = null \/ 0 <= n <= INT_MAX /\ writable m dst (Z.min n (Zlen t + 1)).


Lemma start_ok : forall cf A m dst n fmt M (l : list (piece (dbl A))) len, 0 <= M < INT_MAX -> (dst = null \/ 0 <= n <= INT_MAX /\ writable m dst (Z.min n (M + 1))) ->
  clear_of dst (Z.min n (M + 1)) fmt len -> Forall (piece_clear dst (Z.min n (M + 1))) l ->
  exists J Q safe fixed_block, sink mem mid mwr cf J Q safe fixed_block M /\ J m (Out mem 0 0 (to_int n) dst None m) /\ Q [] (Out mem 0 0 (to_int n) dst None m) /\
    safe fmt len /\ Forall (piece_safe A safe fixed_block) l /\ forall c, fixed_block c -> p_obj dst = PBlk c.
Proof.
  intros cf A m dst n fmt M l len HM [->|[Hn (b & k & Eo & Hk & Hlive & Hd & Hfit)]] Hf Hcl.
  - exists nul_J, (fun _ _ => True), (fun _ _ => True), (fun _ => False). split; [apply nul_sink; lia|]. split; [repeat split|]. split; [exact Logic.I|]. split; [exact Logic.I|].
    split; [apply nul_safe|intros c []].
  - destruct dst as [o d]. cbn [p_obj p_ofs] in *. subst o.
    exists (arr_J b k d n), (arr_Q b d n), (clear_of (Ptr (PBlk b) d) (Z.min n (M + 1))), (fun c => c = b). split; [apply arr_sink; auto; lia|].
    assert (to_int n = n) as -> by (apply to_int_ok; unfold INT_MIN; lia). split; [|split; [|split; [exact Hf|split]]].
    + split; auto. unfold inv. cbn [o_cnt o_limit o_fn o_buf o_st]. replace (Z.min 0 (Z.max 0 (n - 1))) with 0 by lia. rewrite Z.add_0_r.
      split; [lia|]. split; auto. split; auto. split; auto. apply frame_refl.
    + unfold arr_Q. rewrite firstn_nil. exists k. cbn [p_obj p_ofs o_st access]. rewrite Hk, Hlive. change (Zlen (@nil Z)) with 0. repeat split; auto; lia.
    + now apply clear_safe.
    + intros c ->. reflexivity.
Qed.

Lemma dead_strlen : forall cf W rd wr o ph b ofs k, nth_error (rd (o_st W o)) b = Some k -> b_live k = false ->
  print_str cf W rd wr o ph (Ptr (PBlk b) ofs) = UB UB_dead.
Proof. intros cf W rd wr o ph b ofs k H1 H2. unfold print_str, prnf_strlen. cbn [is_null p_obj]. unfold strlen. cbn [p_obj access]. rewrite H1, H2. reflexivity. Qed.

Lemma uses_given : forall D b (y : piece D), uses b y -> (exists c ofs s, y = Given c (Ptr (PBlk b) ofs) s) \/ exists u c ofs s, y = Item (Str u c (Ptr (PBlk b) ofs) s).
Proof.
  intros D b y H. destruct y as [i|c [o ofs] s]; cbn [uses] in H.
  - right. destruct i; try tauto. destruct p as [o ofs]. cbn [p_obj] in H. subst o. eauto.
  - left. cbn [p_obj] in H. subst o. eauto.
Qed.
Lemma pieces_mid : forall cf A f (l : list (piece (dbl A))) y post, pieces_ok cf f (l ++ y :: post) -> piece_ok cf f y.
Proof. intros cf A f. induction l as [|x l IH]; intros y post H; [apply H|]. apply (IH y post). apply H. Qed.

Lemma again_ok : forall cf A heap m dst n fmt l y post b va, wf_cfg cf ->
  let t := shown cf (flt A) 0 l in let w := Z.min n (Zlen t + 1) in Zlen t < INT_MAX -> dest m dst n t ->
  let full := format_of (l ++ y :: post) ++ [0] in bytes_at m fmt full -> clear_of dst w fmt (Zlen full) ->
  pieces_ok cf (flt_fine A) (l ++ y :: post) -> once l -> Forall (piece_mem heap m) l -> Forall (piece_clear dst w) l ->
  (forall b, In b (given_away l) -> p_obj fmt <> PBlk b) -> In b (given_away l) -> uses b y ->
  vsnprnf_n cf A mem mid mwr heap m dst n fmt (args_of cf (l ++ y :: post) ++ va) = UB UB_dead.
Proof.
  intros cf A heap m dst n fmt l y post b va Wf t w Ht Hd full Hf Hfc Hok Ho Hm Hcl Hff Hb Hu.
  pose proof (Zlen_nonneg t) as Zt. destruct (start_ok cf A m dst n fmt (Zlen t) l (Zlen full)) as (J & Q & safe & fixed & Hs & HJ & HQ & Hsf & Hsl & Hfx); auto.
  assert (exists x rest, format_of (y :: post) ++ [0] = x :: rest) as (x & rest & Ex). { destruct (format_of (y :: post)); [exists 0, []|eexists _, _]; reflexivity. }
  assert (full = format_of l ++ x :: rest) as Ef. { unfold full. rewrite format_app, <- app_assoc, Ex. reflexivity. }
  pose proof (pieces_ok_then cf A (flt_fine A) l (y :: post) Hok) as Hth.
  assert (hd 0 (format_of (y :: post)) = x) as Hx by (destruct (format_of (y :: post)); cbn [app hd] in *; congruence). rewrite Hx in Hth.
  rewrite args_app, <- app_assoc. unfold vsnprnf_n, core_prnf_n.
  destruct (run_ok cf A heap mem mid mwr J Q safe fixed (Zlen t) Wf (fun _ => eq_refl) Ht Hs m (Out mem 0 0 (to_int n) dst None m) fmt l x rest (args_of cf (y :: post) ++ va))
    as (k & f & o' & m' & Ak & Hlim & E & R & I1 & B & C & Q' & _); auto; try (rewrite <- Ef; auto); [fold t; lia|].
  rewrite Ak. cbn [bind]. rewrite E. rewrite <- Ef in *.
  assert (~ fixed b) as Nf.
  { intros K. apply Hfx in K. unfold given_away in Hb. apply in_concat in Hb as (g & G1 & G2). apply in_map_iff in G1 as (z & <- & Hz).
    rewrite Forall_forall in Hcl, Hm. specialize (Hcl z Hz). specialize (Hm z Hz). destruct z as [i|c [[|b'|li] ofs] s]; cbn in G2; try tauto. destruct G2 as [->|[]].
    cbn [piece_clear p_obj] in Hcl. destruct Hcl as [Hcl|Hcl]; [discriminate|congruence]. }
  destruct R as (_ & R & _). destruct (R b Hb) as (k1 & k2 & _ & _ & K3 & K4).
  pose proof Hs as (_ & S2 & S3 & _). rewrite <- (S3 m' o' b (proj1 I1) Nf) in K3.
  assert (forall o, I mem J (Zlen t) m' o -> bytes_at (o_st mem o) fmt full) as Fat by (intros o1 (J1 & _ & J2); apply (S2 m' o1); auto).
  apply pieces_mid in Hok. unfold args_of. cbn [map concat]. rewrite <- app_assoc.
  destruct (uses_given _ b y Hu) as [(c & ofs & s & ->)|(u & c & ofs & s & ->)]; cbn [piece_args piece_ok item_ok] in *.
  - assert (exists z r, full = format_of l ++ conv_text c 110 ++ z :: r) as (z & r & Ez).
    { unfold full. rewrite format_app. change (format_of (Given c (Ptr (PBlk b) ofs) s :: post)) with (conv_text c 110 ++ format_of post). rewrite <- !app_assoc.
      destruct (format_of post); eexists _, _; reflexivity. }
    rewrite (given_step cf A mem mid mwr heap (I mem J (Zlen t) m') fmt full Fat (S (Z.to_nat (b_size k))) c (Ptr (PBlk b) ofs) (format_of l) z r f o' _ Hlim Ez) by tauto.
    unfold print_nstr. rewrite (dead_strlen cf mem mid mwr o' _ b ofs k2 K3 K4). reflexivity.
  - assert (exists z r, full = format_of l ++ conv_text c (if u then 83 else 115) ++ z :: r) as (z & r & Ez).
    { unfold full. rewrite format_app. change (format_of (Item (Str u c (Ptr (PBlk b) ofs) s) :: post)) with (conv_text c (if u then 83 else 115) ++ format_of post).
      rewrite <- !app_assoc. destruct (format_of post); eexists _, _; reflexivity. }
    change (item_args cf (Str u c (Ptr (PBlk b) ofs) s)) with (conv_args c ++ [AP (D := dbl A) (Ptr (PBlk b) ofs)]).
    rewrite (str_step cf A mem mid mwr heap (I mem J (Zlen t) m') fmt full Fat (S (Z.to_nat (b_size k))) c u (Ptr (PBlk b) ofs) (format_of l) z r f o' _ Hlim Ez) by tauto.
    rewrite (dead_strlen cf mem mid mwr o' _ b ofs k2 K3 K4). reflexivity.
Qed.

(** Neither NULL nor the start of a live block of the allocator. *)
Definition not_from (heap : allocator) (m : mem) (p : ptr) : Prop :=
  p <> null /\ forall b k, p = Ptr (PBlk b) 0 -> nth_error m b = Some k -> b_owner k <> Heap heap.
Lemma alloc_eqb_ok : forall a b, alloc_eqb a b = true -> a = b.
Proof.
  intros [x f] [y g] H. unfold alloc_eqb in H. cbn [a_app a_fn] in H. apply andb_true_iff in H as [H1 H2]. apply Z.eqb_eq in H1. f_equal; auto.
  destruct f, g; cbn [opt_eqb] in H2; try discriminate; auto. apply Nat.eqb_eq in H2. congruence.
Qed.
Lemma not_owned : forall heap m m' p, not_from heap m p -> p_obj p <> PNull -> (forall b, p_obj p = PBlk b -> nth_error m' b = nth_error m b) -> prnf_free heap m' p = UB UB_alloc.
Proof.
  intros heap m m' [o ofs] [Hn H] Ho Hs. cbn [p_obj] in *. unfold prnf_free. destruct o as [|b|li]; cbn [is_null p_obj]; [congruence| |reflexivity].
  unfold owned. cbn [p_obj p_ofs]. rewrite (Hs b eq_refl). destruct (nth_error m b) as [k|] eqn:E; [|reflexivity].
  destruct (b_live k); [|reflexivity]. destruct (Z.eqb_spec ofs 0) as [->|N]; [|reflexivity]. specialize (H b k eq_refl E). cbn [andb].
  destruct (b_owner k) as [|a]; [reflexivity|]. destruct (alloc_eqb heap a) eqn:Ea; [|reflexivity]. apply alloc_eqb_ok in Ea. congruence.
Qed.

Lemma foreign_ok : forall cf A heap m dst n fmt l c p s post va, wf_cfg cf -> let y := Given c p s in
  let t := shown cf (flt A) 0 (l ++ [y]) in let w := Z.min n (Zlen t + 1) in Zlen t < INT_MAX -> dest m dst n t ->
  let full := format_of (l ++ y :: post) ++ [0] in bytes_at m fmt full -> clear_of dst w fmt (Zlen full) ->
  pieces_ok cf (flt_fine A) (l ++ y :: post) -> once (l ++ [y]) -> Forall (piece_mem heap m) l -> Forall (piece_clear dst w) (l ++ [y]) ->
  (forall b, In b (given_away l) -> p_obj fmt <> PBlk b) -> c_string m p s -> not_from heap m p ->
  vsnprnf_n cf A mem mid mwr heap m dst n fmt (args_of cf (l ++ y :: post) ++ va) = UB UB_alloc.
Proof.
  intros cf A heap m dst n fmt l c p s post va Wf y t w Ht Hd full Hf Hfc Hok Ho Hm Hcl Hff Hcs Hnf.
  pose proof (Zlen_nonneg t) as Zt. destruct (start_ok cf A m dst n fmt (Zlen t) (l ++ [y]) (Zlen full)) as (J & Q & safe & fixed & Hs & HJ & HQ & Hsf & Hsl & Hfx); auto.
  assert (exists x rest, format_of (y :: post) ++ [0] = x :: rest) as (x & rest & Ex). { destruct (format_of (y :: post)); [exists 0, []|eexists _, _]; reflexivity. }
  assert (full = format_of l ++ x :: rest) as Ef. { unfold full. rewrite format_app, <- app_assoc, Ex. reflexivity. }
  pose proof (pieces_ok_then cf A (flt_fine A) l (y :: post) Hok) as Hth.
  assert (hd 0 (format_of (y :: post)) = x) as Hx by (destruct (format_of (y :: post)); cbn [app hd] in *; congruence). rewrite Hx in Hth.
  assert (t = shown cf (flt A) 0 l ++ given_text c s) as Et.
  { unfold t, y. rewrite shown_app. cbn [shown piece_out]. now rewrite app_nil_r. }
  pose proof (Zlen_nonneg (given_text c s)) as Zg. pose proof (Zlen_nonneg (shown cf (flt A) 0 l)) as Zl.
  assert (Zlen t = Zlen (shown cf (flt A) 0 l) + Zlen (given_text c s)) as El by (rewrite Et; apply Zlen_app).
  rewrite args_app, <- app_assoc. unfold vsnprnf_n, core_prnf_n.
  apply Forall_app in Hsl as [Hsl Hsy]. apply Forall_inv in Hsy.
  assert (once l /\ forall b, In b (given_away l) -> ~ uses b y) as [Hol Huy].
  { clear - Ho. induction l as [|z l IH]; cbn [app once] in Ho; [split; [exact Logic.I|intros b []]|]. destruct Ho as [H1 H2]. destruct (IH H2) as [I1 I2]. split.
    - split; auto. rewrite Forall_forall in *. intros b Hb. specialize (H1 b Hb). apply Forall_app in H1. apply H1.
    - intros b Hb. unfold given_away in Hb. cbn [map concat] in Hb. apply in_app_or in Hb as [Hb|Hb]; [|now apply I2].
      rewrite Forall_forall in H1. specialize (H1 b Hb). apply Forall_app in H1 as [_ H1]. now apply Forall_inv in H1. }
  destruct (run_ok cf A heap mem mid mwr J Q safe fixed (Zlen t) Wf (fun _ => eq_refl) Ht Hs m (Out mem 0 0 (to_int n) dst None m) fmt l x rest (args_of cf (y :: post) ++ va))
    as (k & f & o' & m' & Ak & Hlim & E & R & I1 & B & C & Q' & _); auto; try (rewrite <- Ef; auto); [lia|].
  rewrite Ak. cbn [bind]. rewrite E. rewrite <- Ef in *.
  pose proof Hs as (S1 & S2 & S3 & S4 & S5).
  assert (forall o, I mem J (Zlen t) m' o -> bytes_at (o_st mem o) fmt full) as Fat by (intros o1 (J1 & _ & J2); apply (S2 m' o1); auto).
  apply pieces_mid in Hok. unfold args_of. cbn [map concat]. rewrite <- app_assoc.
  cbn [y piece_args piece_ok item_ok] in *. destruct Hok as [Hcv Hpr].
  assert (exists z r, full = format_of l ++ conv_text c 110 ++ z :: r) as (z & r & Ez).
  { unfold full. rewrite format_app. change (format_of (y :: post)) with (conv_text c 110 ++ format_of post). rewrite <- !app_assoc.
    destruct (format_of post); eexists _, _; reflexivity. }
  rewrite (given_step cf A mem mid mwr heap (I mem J (Zlen t) m') fmt full Fat (S (Z.to_nat (b_size k))) c p (format_of l) z r f o' _ Hlim Ez) by auto.
  destruct R as (_ & R1 & R2).
  assert (forall b, p_obj p = PBlk b -> nth_error m' b = nth_error m b) as Same. { intros b Eb. apply R2. intros K. now apply (Huy b K). }
  assert (bytes_at m' p (s ++ [0])) as Bp.
  { destruct Hcs as ((k0 & A1 & A2) & _). exists k0. split; auto. destruct (p_obj p) as [|b|li]; auto. cbn [access] in *. now rewrite Same. }
  assert (string_arg m' p s) as Sa by (right; destruct Hcs as (_ & Hcs); split; auto).
  assert (p <> null) as Np by apply Hnf.
  assert (safe p (Zlen s + 1) /\ forall b, p_obj p = PBlk b -> ~ fixed b) as [Sp Nfx] by (cbn [piece_safe y] in Hsy; tauto).
  assert (forall o, I mem J (Zlen t) m' o -> string_arg (o_st mem o) p s) as Sk by (intros o1 Ho1; apply (string_keep mem mid J safe (Zlen t) S2 m' o1 p s Ho1 Sa); auto).
  unfold print_nstr. rewrite !bind_bind.
  rewrite (nstr_item cf mem mid mwr (I mem J (Zlen t) m') (Zlen t) Ht (I_step cf mem mid mwr J Q (Zlen t) S1 m') o' c p s Hcv Hpr I1); auto; try lia.
  2:{ intros o1 Ho1. apply (item_mem_still A (o_st mem o1) (Str false c p s)). exact (Sk o1 Ho1). }
  destruct (sink_chars cf mem mid mwr J Q (Zlen t) Ht S1 m' (given_text c s) (shown cf (flt A) 0 l) o' I1 C ltac:(lia)) as (o1 & E2 & I2 & _); auto.
  { apply bytes_pad; [unfold is_byte; lia|]. destruct Hcs as (_ & Hcs & _). unfold str_body. destruct (prec_of c); auto. now apply Forall_firstn'. }
  rewrite E2. cbn [bind]. rewrite (not_owned heap m (o_st mem o1) p Hnf); auto.
  - destruct Bp as (k0 & A1 & _). intros K. rewrite K in A1. discriminate.
  - intros b Eb. rewrite (S3 m' o1 b (proj1 I2) (Nfx b Eb)). now apply Same.
Qed.
