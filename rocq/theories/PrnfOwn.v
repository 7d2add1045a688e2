(** Proofs about formatted text that contains the text of the buffer it is written to. *)
From Verif Require Import Base Mem Libc StrviewModel Spec MemLemmas StrviewProofs NumSpec Alloc StrbufModel BufSpec BufSpec2
  StrbufProofs StrbufProofs2 StrbufProofs3 StrbufProofs4 StrbufProofs5 StrbufProofs6 StrbufProofs7 StrbufProofs10
  PrnfModel PrnfSpec PrnfProofs PrnfProofs2 PrnfProofs3 PrnfProofs4 PrnfProofs5 PrnfBufModel PrnfProofs6 PrnfOwnSpec.

Lemma to_nul_split : forall l, exists r, l ++ [0] = to_nul l ++ 0 :: r.
Proof.
  induction l as [|x l [r E]]; [now exists []|]. cbn [to_nul]. destruct (Z.eqb_spec x 0) as [->|N]; [now exists (l ++ [0])|].
  exists r. cbn [app]. now rewrite E.
Qed.
Lemma to_nul_not : forall l, ~ In 0 (to_nul l).
Proof. induction l as [|x l IH]; cbn [to_nul]; auto. destruct (Z.eqb_spec x 0); auto. intros [H|H]; auto. Qed.
Lemma to_nul_prefix : forall l, exists r, l = to_nul l ++ r.
Proof.
  induction l as [|x l [r E]]; [now exists []|]. cbn [to_nul]. destruct (x =? 0); [now exists (x :: l)|]. exists r. cbn [app]. now rewrite <- E.
Qed.
Lemma to_nul_all : forall l, ~ In 0 l -> to_nul l = l.
Proof. induction l as [|x l IH]; intros H; auto. cbn [to_nul]. destruct (Z.eqb_spec x 0) as [->|N]; [exfalso; apply H; now left|]. f_equal. apply IH. intros K. apply H. now right. Qed.

Section Own.
Variable cf : cfg.
Variable A : fops.
Notation D := (dbl A).
Notation out := (out hst).
Notation out_char := (out_char cf hst h_mem h_set).
Notation out_chars := (out_chars cf hst h_mem h_set).
Notation core_loop := (core_loop cf A hst h_mem h_set).
Notation handler := (Some (char_handler_for_prnf cf)).
Hypothesis Wf : wf_cfg cf.

(** A character for which there is room. *)
Lemma append_char_room : forall w p B c, mem_wf (s_mem w) -> buf_at cf (s_mem w) p B -> is_byte c ->
  sums_ok cf (Zlen (bf_data B) + 1) -> Zlen (bf_data B) + 1 <= bf_cap B ->
  exists w', append_char_to_buf cf w p c = Ok (p, w') /\ buf_at cf (s_mem w') p (Buffer (bf_data B ++ [c]) (bf_cap B) (bf_alloc B)) /\
    touches cf (s_mem w) (s_mem w') p p B /\ mem_wf (s_mem w') /\ s_orc w' = s_orc w.
Proof.
  intros w p B c Wm HB Hc Hs Hr. destruct (buf_at_cap _ _ _ _ HB) as [C _].
  destruct (append_char_alone cf w p B Wf Wm HB c Hc Hs) as (w' & E & H1 & H2 & H3 & H4); [now right|].
  assert (put cf B (bf_data B ++ [c]) = Buffer (bf_data B ++ [c]) (bf_cap B) (bf_alloc B)) as P.
  { unfold put, fits, grown. rewrite Zlen_app. change (Zlen [c]) with 1. cbn [bf_cap].
    rewrite (proj2 (Z.ltb_ge (bf_cap B) (Zlen (bf_data B) + 1))) by lia. rewrite andb_false_r.
    destruct (dyn B); rewrite (proj2 (Z.leb_le _ _)) by lia; reflexivity. }
  rewrite P in *. unfold strbuf_append_char in E. rewrite (on_buf_ok cf (s_mem w) p B) in E by auto.
  destruct (append_char_to_buf cf w p c) as [[p1 w1]| |]; cbn [bind] in E; try discriminate.
  unfold ret_view in E. destruct (strview_of_buf cf (s_mem w1) p1); cbn [bind] in E; try discriminate. injection E as _ -> ->. exists w'. auto.
Qed.

Variables (w0 : st) (p : ptr) (B0 : buffer).
Let cap := bf_cap B0.
Let al := bf_alloc B0.

(** The output [o] has been written behind what was there; the buffer now contains [l]. *)
Definition holds (l : list Z) (o : out) : Prop :=
  o_buf hst o = null /\ o_fn hst o = handler /\ 0 <= o_col hst o <= o_cnt hst o /\
  exists w, o_st hst o = (p, w) /\ buf_at cf (s_mem w) p (Buffer l cap al) /\ touches cf (s_mem w0) (s_mem w) p p B0 /\
    mem_wf (s_mem w) /\ s_orc w = s_orc w0.

Lemma one_more : forall l o c, holds l o -> o_cnt hst o < INT_MAX -> sums_ok cf (Zlen l + 1) -> Zlen l + 1 <= cap ->
  exists o', out_char o c = Ok o' /\ holds (l ++ [c mod 256]) o' /\ o_cnt hst o' = o_cnt hst o + 1.
Proof.
  intros l o c (I1 & I2 & I3 & w & E & HB & Tc & Wm & Or) Hm Hs Hr.
  destruct (append_char_room w p _ (c mod 256) Wm HB) as (w' & E2 & HB2 & T2 & Wm2 & Or2); auto.
  { unfold is_byte. pose proof (Z.mod_pos_bound c 256). lia. }
  rewrite append_mod in E2. unfold PrnfModel.out_char. rewrite I1, I2, E. cbn [is_null null p_obj p_ofs Z.eqb bind].
  unfold char_handler_for_prnf at 1. cbn [fst snd]. rewrite E2. cbn [bind].
  set (col1 := if (c =? 13) || (c =? 10) then 0 else if 31 <? char_int cf c then o_col hst o + 1 else o_col hst o).
  assert ((if (c =? 13) || (c =? 10) then Ok 0 else if 31 <? char_int cf c then iadd cf (o_col hst o) 1 else Ok (o_col hst o)) = Ok col1) as ->.
  { unfold col1. destruct ((c =? 13) || (c =? 10)); auto. destruct (31 <? char_int cf c); auto. apply iadd_ok. unfold INT_MIN. lia. }
  cbn [bind]. rewrite iadd_ok by (unfold INT_MIN; lia). cbn [bind]. eexists. split; [reflexivity|]. split; [|reflexivity].
  unfold holds. cbn [o_buf o_fn o_col o_cnt o_st]. split; auto. split; auto.
  split; [unfold col1; destruct ((c =? 13) || (c =? 10)); [lia|destruct (31 <? char_int cf c); lia]|].
  exists w'. split; auto. split; auto. split; [|split; auto; congruence].
  eapply (touches_trans _ _ _ _ _ _ _ B0 (Buffer l cap al)); eauto.
Qed.

Lemma more : forall s l o, holds l o -> Forall is_byte s -> o_cnt hst o + Zlen s <= INT_MAX -> sums_ok cf (Zlen l + Zlen s) -> Zlen l + Zlen s <= cap ->
  exists o', out_chars o s = Ok o' /\ holds (l ++ s) o' /\ o_cnt hst o' = o_cnt hst o + Zlen s.
Proof.
  induction s as [|c s IH]; intros l o Ho F Hm Hs Hr.
  - exists o. cbn [PrnfModel.out_chars]. rewrite app_nil_r. change (Zlen (@nil Z)) with 0. rewrite Z.add_0_r. auto.
  - inversion F as [|? ? Hc F']; subst. rewrite Zlen_cons in *. pose proof (Zlen_nonneg s).
    destruct (one_more l o c Ho) as (o1 & E1 & Ho1 & C1); try lia. { eapply sums_ok_le; [|exact Hs]. lia. }
    rewrite Z.mod_small in Ho1 by exact Hc. cbn [PrnfModel.out_chars]. rewrite E1. cbn [bind].
    destruct (IH (l ++ [c]) o1 Ho1 F') as (o2 & E2 & Ho2 & C2); rewrite ?Zlen_app; change (Zlen [c]) with 1; try lia.
    { eapply sums_ok_le; [|exact Hs]. lia. }
    exists o2. rewrite <- app_assoc in Ho2. split; auto. split; auto. lia.
Qed.

Variables (fmt : ptr) (full : list Z).
Hypothesis Hfmt : bytes_at (s_mem w0) fmt full.
Hypothesis Hfa : apart cf p B0 fmt (Zlen full).

Lemma keeps_bytes : forall l o, holds l o -> forall q t, bytes_at (s_mem w0) q t -> apart cf p B0 q (Zlen t) -> bytes_at (h_mem (o_st hst o)) q t.
Proof. intros l o (_ & _ & _ & w & E & _ & Tc & _) q t Hq Hc. rewrite E. unfold h_mem. cbn [snd]. eapply touches_bytes; eauto. Qed.

(** The strings of the arguments. *)
Definition piece_given (x : piece D) : Prop := match x with Given i => item_mem (s_mem w0) i /\ item_apart cf p B0 i | Own _ _ _ => True end.

Lemma own_string : forall l o k, holds l o -> (k <= length l)%nat ->
  c_string (h_mem (o_st hst o)) (shift (chars_of cf p) (Z.of_nat k)) (to_nul (skipn k l)).
Proof.
  intros l o k (_ & _ & _ & w & E & HB & _) Hk. rewrite E. unfold h_mem. cbn [snd].
  pose proof (buf_at_bytes cf _ _ _ Wf HB) as Hb. destruct (buf_at_cap _ _ _ _ HB) as [C F]. cbn [bf_data bf_cap] in *.
  destruct (to_nul_split (skipn k l)) as [r Er]. destruct (to_nul_prefix (skipn k l)) as [r2 Er2].
  assert (l ++ [0] = firstn k l ++ (to_nul (skipn k l) ++ [0]) ++ r) as El.
  { rewrite <- (firstn_skipn k l) at 1. rewrite <- !app_assoc. f_equal. exact Er. }
  rewrite El in Hb. apply bytes_at_app in Hb as [_ Hb]. apply bytes_at_app in Hb as [Hb _].
  unfold Zlen in Hb at 1. rewrite firstn_length_le in Hb by auto. split; auto.
  rewrite <- (firstn_skipn k l) in F, C. rewrite Er2 in F, C. apply Forall_app in F as [_ F]. apply Forall_app in F as [F _].
  split; auto. split; [apply to_nul_not|]. rewrite !Zlen_app in C.
  pose proof (Zlen_nonneg (firstn k l)). pose proof (Zlen_nonneg r2). lia.
Qed.

Lemma piece_mem : forall l o x, holds l o -> piece_given x -> points_into l x -> item_mem (h_mem (o_st hst o)) (now cf p l x).
Proof.
  intros l o x Ho Hg Hp. destruct x as [i|b c k]; cbn [now item_mem points_into piece_given] in *; [|right; now apply own_string].
  destruct Hg as [Hm Ha]. destruct i; cbn [item_mem item_apart] in *; auto. destruct Hm as [Hm|(Hb & H1)]; [left; exact Hm|right]. split; auto. destruct Ha as [->|Ha].
  - destruct Hb as (kk & Ak & _). discriminate.
  - apply (keeps_bytes l o Ho); auto. rewrite Zlen_app. exact Ha.
Qed.
Lemma piece_still : forall l e o x, holds (l ++ e) o -> piece_given x -> points_into l x -> item_still A (h_mem (o_st hst o)) (now cf p l x).
Proof.
  intros l e o x Ho Hg Hp. destruct x as [i|b c k].
  - apply item_mem_still. apply (piece_mem (l ++ e) o (Given i)); auto.
  - cbn [now item_still points_into] in *. right. destruct Ho as (_ & _ & _ & w & E & HB & _). rewrite E. unfold h_mem. cbn [snd].
    pose proof (buf_at_bytes cf _ _ _ Wf HB) as Hb. cbn [bf_data] in Hb. destruct (to_nul_prefix (skipn k l)) as [r Er].
    rewrite <- (firstn_skipn k l) in Hb. rewrite Er in Hb. rewrite <- !app_assoc in Hb. apply bytes_at_app in Hb as [_ Hb]. apply bytes_at_app in Hb as [Hb _].
    unfold Zlen in Hb at 1. rewrite firstn_length_le in Hb by auto. exact Hb.
Qed.

Lemma now_text : forall l l' (x : piece D), item_text (now cf p l x) = item_text (now cf p l' x).
Proof. intros l l' [i|b c k]; reflexivity. Qed.
Lemma now_args : forall l l' (x : piece D), item_args cf (now cf p l x) = item_args cf (now cf p l' x).
Proof. intros l l' [i|b c k]; reflexivity. Qed.
Lemma now_ok : forall F l l' (x : piece D), item_ok cf F (now cf p l x) -> item_ok cf F (now cf p l' x).
Proof. intros F l l' [i|b c k] H; exact H. Qed.
Lemma now_format : forall l l' (xs : list (piece D)), format (map (now cf p l) xs) = format (map (now cf p l') xs).
Proof. intros. unfold format. rewrite !map_map. f_equal. apply map_ext. intros. apply now_text. Qed.
Lemma now_arguments : forall l l' (xs : list (piece D)), arguments cf (map (now cf p l) xs) = arguments cf (map (now cf p l') xs).
Proof. intros. unfold arguments. rewrite !map_map. f_equal. apply map_ext. intros. apply now_args. Qed.
Lemma now_items_ok : forall F l l' (xs : list (piece D)), items_ok cf F (map (now cf p l) xs) -> items_ok cf F (map (now cf p l') xs).
Proof.
  intros F l l' xs. induction xs as [|x xs IH]; auto. cbn [map items_ok]. intros (H1 & H2 & H3). split; [eapply now_ok; eauto|]. split; auto.
  rewrite (now_format l' l). destruct x as [i|b c k]; cbn [now] in *; auto.
Qed.

Lemma now_items_then : forall x l l' (xs : list (piece D)), items_then cf A (flt_fine A) x (map (now cf p l) xs) -> items_then cf A (flt_fine A) x (map (now cf p l') xs).
Proof.
  intros x l l' xs. induction xs as [|y xs IH]; auto. cbn [map items_then]. intros (H1 & H2 & H3). split; [eapply now_ok; eauto|]. split; auto.
  rewrite (now_format l' l). destruct y as [i|b c k]; cbn [now] in *; auto.
Qed.

(** Some parts, then the rest. *)
Lemma unrolled_items : forall limit, (length full <= limit)%nat -> forall xs pre z rest fuel o l va,
  full = pre ++ format (map (now cf p l) xs) ++ z :: rest -> items_then cf A (flt_fine A) z (map (now cf p l) xs) -> holds l o ->
  Forall piece_given xs -> Forall (points_into l) xs ->
  let t := unrolled cf (flt A) p (o_col hst o) l xs in
  o_cnt hst o + Zlen t < INT_MAX -> sums_ok cf (Zlen l + Zlen t) -> Zlen l + Zlen t <= cap -> (length (format (map (now cf p l) xs)) < fuel)%nat ->
  exists fuel' o', (fuel <= fuel' + length (format (map (now cf p l) xs)))%nat /\
    core_loop fuel limit o (shift fmt (Zlen pre)) (arguments cf (map (now cf p l) xs) ++ va) =
    core_loop fuel' limit o' (shift fmt (Zlen (pre ++ format (map (now cf p l) xs)))) va /\
    holds (l ++ t) o' /\ o_cnt hst o' = o_cnt hst o + Zlen t.
Proof.
  intros limit Hlim. induction xs as [|x xs IH]; intros pre z rest fuel o l va Efull Hok Ho Hg Hp t Hc Hs Hr Hf; subst t.
  - cbn [map unrolled arguments concat app] in *. change (Zlen (@nil Z)) with 0. rewrite app_nil_r, Z.add_0_r. exists fuel, o.
    change (format (@nil (item D))) with (@nil Z) in *. rewrite app_nil_r. cbn [length]. split; [lia|]. auto.
  - cbn [map unrolled] in *. set (i := now cf p l x) in *. set (its := map (now cf p l) xs) in *.
    change (format (i :: its)) with (item_text i ++ format its) in *.
    change (arguments cf (i :: its)) with (item_args cf i ++ arguments cf its). rewrite <- app_assoc.
    set (s := item_out cf (flt A) (o_col hst o) i) in *. set (t := unrolled cf (flt A) p (after cf (o_col hst o) s) (l ++ s) xs) in *.
    rewrite Zlen_app in *. pose proof (Zlen_nonneg s) as Zs. pose proof (Zlen_nonneg t) as Zt. rewrite app_length in Hf.
    apply Forall_cons_iff in Hg as [Hg1 Hg2]. apply Forall_cons_iff in Hp as [Hp1 Hp2].
    destruct Hok as (Hi & Hok & Hn).
    assert (item_mem (h_mem (o_st hst o)) i) as Hm by (now apply piece_mem).
    assert (Forall is_byte s) as Bs by (eapply (item_bytes cf A (flt A) (flt_fine A) (flt_bytes A)); eauto).
    set (M := o_cnt hst o + Zlen s).
    set (I := fun o1 : out => exists e, holds (l ++ e) o1 /\ o_cnt hst o1 = o_cnt hst o + Zlen e).
    assert (I o) as Io. { exists []. rewrite app_nil_r. change (Zlen (@nil Z)) with 0. split; auto. lia. }
    assert (forall o1 c o', I o1 -> 0 <= o_cnt hst o1 < M -> out_char o1 c = Ok o' -> I o') as Is.
    { intros o1 c o' (e & He & Ce) Hc1 E. unfold M in Hc1.
      destruct (one_more (l ++ e) o1 c He) as (o2 & E2 & Ho2 & C2); rewrite ?Zlen_app; try lia. { eapply sums_ok_le; [|exact Hs]. lia. }
      rewrite E2 in E. injection E as <-. exists (e ++ [c mod 256]). rewrite app_assoc, Zlen_app. change (Zlen [c mod 256]) with 1. split; auto. lia. }
    assert (forall o1, I o1 -> bytes_at (h_mem (o_st hst o1)) fmt full) as If.
    { intros o1 (e & He & _). now apply (keeps_bytes (l ++ e) o1 He). }
    assert (exists y r, format its ++ z :: rest = y :: r /\ hd z (format its) = y) as (y & r & Ey & Hy).
    { destruct (format its) as [|y r]; [exists z, rest|exists y, (r ++ z :: rest)]; auto. }
    destruct (item_step cf A hst h_mem h_set (flt A) (flt_fine A) (flt_bytes A) (flt_f cf A hst h_mem h_set) (flt_e cf A hst h_mem h_set) I M ltac:(unfold M; lia) Is Wf
      fmt full If limit Hlim i pre y r fuel o (arguments cf its ++ va)) as (f1 & F1 & E1); auto; try lia.
    { rewrite Efull, <- app_assoc, Ey. reflexivity. } { now rewrite <- Hy. }
    { intros o1 (e & He & _). now apply (piece_still l e). } { destruct Ho as (_ & _ & H & _). exact H. } { fold s. unfold M. lia. }
    rewrite E1. fold s.
    destruct (more s l o Ho Bs) as (o1 & E2 & Ho1 & C1); try lia. { eapply sums_ok_le; [|exact Hs]. lia. }
    rewrite E2. cbn [bind].
    destruct (out_chars_col cf hst h_mem h_set s o o1) as (C2 & _); auto; try lia. { destruct Ho as (_ & _ & H & _). exact H. }
    unfold its in *. rewrite (now_format l (l ++ s)) in *. rewrite (now_arguments l (l ++ s)).
    destruct (IH (pre ++ item_text i) z rest f1 o1 (l ++ s) va) as (f2 & o2 & F2 & E3 & Ho2 & C3); auto; rewrite ?C2; fold t; try lia.
    + rewrite Efull, <- !app_assoc. reflexivity.
    + eapply now_items_then; eauto.
    + eapply Forall_impl; [|exact Hp2]. intros z0. unfold points_into. destruct z0; auto. rewrite app_length. lia.
    + rewrite Zlen_app. eapply sums_ok_le; [|exact Hs]. lia.
    + rewrite Zlen_app. lia.
    + exists f2, o2. rewrite C2 in *. fold t in Ho2, C3. rewrite <- app_assoc in Ho2. rewrite E3, app_length, <- app_assoc, (Zlen_app pre). split; [lia|]. split; auto. split; auto. rewrite Zlen_app. lia.
Qed.

Lemma unrolled_core : forall limit, (length full <= limit)%nat -> forall xs pre fuel o l va,
  full = pre ++ format (map (now cf p l) xs) ++ [0] -> items_ok cf (flt_fine A) (map (now cf p l) xs) -> holds l o ->
  Forall piece_given xs -> Forall (points_into l) xs ->
  let t := unrolled cf (flt A) p (o_col hst o) l xs in
  o_cnt hst o + Zlen t < INT_MAX -> sums_ok cf (Zlen l + Zlen t) -> Zlen l + Zlen t <= cap -> (length (format (map (now cf p l) xs)) < fuel)%nat ->
  exists o', core_loop fuel limit o (shift fmt (Zlen pre)) (arguments cf (map (now cf p l) xs) ++ va) = Ok o' /\
    holds (l ++ t) o' /\ o_cnt hst o' = o_cnt hst o + Zlen t.
Proof.
  intros limit Hlim xs pre fuel o l va Efull Hok Ho Hg Hp t Hc Hs Hr Hf.
  assert (items_then cf A (flt_fine A) 0 (map (now cf p l) xs)) as Ht by (apply (items_ok_then cf A (flt_fine A) _ []); now rewrite app_nil_r).
  destruct (unrolled_items limit Hlim xs pre 0 [] fuel o l va) as (f1 & o1 & F1 & E1 & H1 & C1); auto.
  exists o1. split; [|split; auto]. rewrite E1. destruct f1 as [|f1]; [lia|]. cbn [PrnfModel.core_loop].
  pose proof (keeps_bytes _ o1 H1 fmt full Hfmt Hfa) as Hb. rewrite Efull, app_assoc in Hb. apply bytes_at_app in Hb as [_ Hb].
  destruct (at_step cf _ _ _ _ Hb) as (L1 & _). rewrite L1. reflexivity.
Qed.

(** ** A buffer that moves *)
Lemma grow_moves : forall w B c p' w', no_fail w -> buf_at cf (s_mem w) p B -> is_byte c -> dyn B = true ->
  ch_move (s_orc w 0%nat) = true -> Zlen (bf_data B) = bf_cap B -> bf_cap B < INT_MAX -> sums_ok cf (bf_cap B + 1) ->
  append_char_to_buf cf w p c = Ok (p', w') -> p_obj p' <> p_obj p.
Proof.
  intros w B c p' w' Nf HB Hc Dy Mv Full Lt Hs E. destruct (buf_at_cap _ _ _ _ HB) as [C _]. pose proof (Zlen_nonneg (bf_data B)) as Z0.
  unfold append_char_to_buf in E. rewrite (buf_at_load cf (s_mem w) p B Wf HB) in E. cbn [bind hdr_of h_size] in E.
  rewrite add_check_ok in E by (unfold INT_MAX in *; lia). cbn [bind] in E. rewrite Full in E.
  unfold ensure in E. rewrite (buf_at_load cf (s_mem w) p B Wf HB) in E. cbn [bind hdr_of h_alloc h_cap] in E.
  change (is_dyn (bf_alloc B)) with (dyn B) in E. rewrite Dy in E. rewrite (proj2 (Z.ltb_lt (bf_cap B) (bf_cap B + 1))) in E by lia. cbn [andb] in E.
  rewrite round_up_ok in E by (auto; lia). cbn [bind] in E.
  pose proof (rounded_bounds cf (bf_cap B + 1) Wf ltac:(lia)) as Rg.
  unfold change_buf_capacity in E. rewrite (buf_at_load cf (s_mem w) p B Wf HB) in E. cbn [bind hdr_of h_alloc h_cap h_size] in E.
  change (is_dyn (bf_alloc B)) with (dyn B) in E. rewrite Dy in E. rewrite Full in E.
  rewrite (proj2 (Z.ltb_ge (rounded cf (bf_cap B + 1)) (bf_cap B))) in E by lia.
  rewrite (proj2 (Z.eqb_neq (rounded cf (bf_cap B + 1)) (bf_cap B))) in E by lia.
  unfold alloc_call in E. rewrite (buf_at_nonnull _ _ _ _ HB) in E.
  destruct HB as (b & k & Eb & Ek & HI). pose proof (nth_error_lt _ _ _ Ek) as Lb.
  destruct (owned (s_mem w) (bf_alloc B) p) as [[b1 k1]| |]; cbn [bind] in E; try discriminate.
  assert (alloc_size cf (rounded cf (bf_cap B + 1)) =? 0 = false) as Ez.
  { unfold alloc_size. apply Z.eqb_neq. pose proof (hdr_size_pos cf Wf). 
    rewrite Z.mod_small; [lia|]. fold (alloc_size cf (rounded cf (bf_cap B + 1))). pose proof (alloc_size_ok cf (rounded cf (bf_cap B + 1)) Wf ltac:(lia)) as Ea. unfold alloc_size in Ea. rewrite <- Ea. apply Z.mod_pos_bound. apply Z.pow_pos_nonneg; [lia|]. destruct Wf as (_ & Wp). lia. }
  rewrite Ez in E. rewrite (Nf 0%nat), Mv in E. cbn [negb andb bind] in E.
  assert (forall x, p_obj p' = PBlk x -> x = length (s_mem w)) as Hx.
  { intros x Ex. 
    match type of E with bind (bind ?X _) _ = _ => destruct X as [m2| |] end; cbn [bind] in E; try discriminate.
    match type of E with bind ?X _ = _ => destruct X as [h1| |] end; cbn [bind] in E; try discriminate.
    destruct (h_cap h1 <? h_size h1 + 1); repeat (match type of E with bind ?X _ = _ => destruct X as [?| |] end; cbn [bind] in E; try discriminate);
      injection E as <- _; cbn [p_obj] in Ex; now injection Ex. }
  rewrite Eb. intros Ex. specialize (Hx b Ex). lia.
Qed.

Lemma moved_char : forall l o c, no_fail w0 -> ch_move (s_orc w0 0%nat) = true -> dyn B0 = true -> holds l o -> is_byte c -> o_cnt hst o < INT_MAX ->
  Zlen l = cap -> cap < INT_MAX -> sums_ok cf (cap + 1) ->
  exists o', out_char o c = Ok o' /\ access (h_mem (o_st hst o')) (p_obj p) = UB UB_dead.
Proof.
  intros l o c Nf Mv Dy (I1 & I2 & I3 & w & E & HB & Tc & Wm & Or) Hc Hm Hl Lt Hs.
  assert (no_fail w) as Nf' by (intros n; rewrite Or; apply Nf).
  destruct (append_char_yields cf w p _ c Wf Wm Nf' HB Hc) as (p2 & w2 & E2 & HB2 & T2 & _). { cbn [bf_data]. now rewrite Hl. }
  assert (p_obj p2 <> p_obj p) as Np.
  { eapply (grow_moves w (Buffer l cap al) c p2 w2); eauto. now rewrite Or. }
  assert (access (s_mem w2) (p_obj p) = UB UB_dead) as Ad.
  { destruct T2 as (b & b' & A1 & A2 & _ & _ & _ & _ & _ & _ & [->|(_ & _ & Hd)] & _); [exfalso; apply Np; congruence|].
    rewrite A1. cbn [access]. destruct (nth_error (s_mem w2) b) as [k|] eqn:Ek; auto. now rewrite (Hd k eq_refl). }
  unfold PrnfModel.out_char. rewrite I1, I2, E. cbn [is_null null p_obj p_ofs Z.eqb bind].
  unfold char_handler_for_prnf at 1. cbn [fst snd]. rewrite E2. cbn [bind].
  set (col1 := if (c =? 13) || (c =? 10) then 0 else if 31 <? char_int cf c then o_col hst o + 1 else o_col hst o).
  assert ((if (c =? 13) || (c =? 10) then Ok 0 else if 31 <? char_int cf c then iadd cf (o_col hst o) 1 else Ok (o_col hst o)) = Ok col1) as ->.
  { unfold col1. destruct ((c =? 13) || (c =? 10)); auto. destruct (31 <? char_int cf c); auto. apply iadd_ok. unfold INT_MIN. lia. }
  cbn [bind]. rewrite iadd_ok by (unfold INT_MIN; lia). cbn [bind]. eexists. split; [reflexivity|]. exact Ad.
Qed.

Lemma dead_load : forall m q, access m (p_obj q) = UB UB_dead -> load_byte m q = UB UB_dead.
Proof. intros m q H. unfold load_byte, load_cell. now rewrite H. Qed.

Lemma moved_loop : forall k l1 c1 c2 r, no_fail w0 -> ch_move (s_orc w0 0%nat) = true -> dyn B0 = true -> (k <= length l1)%nat ->
  cap < INT_MAX -> sums_ok cf (cap + 1) ->
  forall a b o, to_nul (skipn k l1) = b ++ a ++ c1 :: c2 :: r -> holds (l1 ++ b) o -> Zlen l1 + Zlen b + Zlen a = cap -> o_cnt hst o + Zlen a < INT_MAX ->
  str_loop cf hst h_mem h_set (length (a ++ c1 :: c2 :: r)) o (shift (shift (chars_of cf p) (Z.of_nat k)) (Zlen b)) = UB UB_dead.
Proof.
  intros k l1 c1 c2 r Nf Mv Dy Hk Lt Hs. set (q := shift (chars_of cf p) (Z.of_nat k)).
  assert (forall b x t o, to_nul (skipn k l1) = b ++ x :: t -> holds (l1 ++ b) o -> is_byte x /\
    load_byte (h_mem (o_st hst o)) (shift q (Zlen b)) = Ok x) as Ld.
  { intros b x t o E (_ & _ & _ & w & Eo & HB & _). rewrite Eo. unfold h_mem. cbn [snd].
    pose proof (buf_at_bytes cf _ _ _ Wf HB) as Hb. destruct (buf_at_cap _ _ _ _ HB) as [_ F]. cbn [bf_data] in *.
    destruct (to_nul_prefix (skipn k l1)) as [r2 Er]. rewrite E in Er.
    rewrite <- (firstn_skipn k l1) in Hb, F. rewrite Er in Hb, F. rewrite <- !app_assoc in Hb, F. cbn [app] in Hb, F.
    apply bytes_at_app in Hb as [_ Hb]. apply bytes_at_app in Hb as [Hb _]. apply bytes_at_app in Hb as [_ Hb]. assert (Zlen (firstn k l1) = Z.of_nat k) as Lk by (unfold Zlen; now rewrite firstn_length_le). rewrite Lk in Hb.
    apply Forall_app in F as [_ F]. apply Forall_app in F as [_ F]. split; [now inversion F|].
    now apply bytes_at_cons in Hb. }
  induction a as [|x a IH]; intros b o E Ho Hl Hc.
  - cbn [app length str_loop] in *. change (Zlen (@nil Z)) with 0 in *. destruct (Ld b c1 (c2 :: r) o E Ho) as [B1 ->]. cbn [bind].
    destruct (moved_char (l1 ++ b) o c1) as (o1 & -> & Ad); auto; [lia|rewrite Zlen_app; lia|]. cbn [bind].
    unfold padd. change (p_obj (shift q (Zlen b))) with (p_obj p). 
    destruct Ho as (_ & _ & _ & w & _ & (bb & kk & Eb & _) & _). rewrite Eb in *. destruct (c_ptr cf); cbn [bind].
    + rewrite dead_load; auto. cbn [shift p_obj q chars_of]. now rewrite Eb.
    + now rewrite Ad.
  - cbn [app length str_loop] in *. rewrite Zlen_cons in *. pose proof (Zlen_nonneg a). destruct (Ld b x _ o E Ho) as [B1 ->]. cbn [bind].
    destruct (one_more (l1 ++ b) o x Ho) as (o1 & E1 & Ho1 & C1); rewrite ?Zlen_app; try lia. { eapply sums_ok_le; [|exact Hs]. lia. }
    rewrite Z.mod_small in Ho1 by exact B1. rewrite E1. cbn [bind].
    rewrite <- app_assoc in Ho1.
    assert (exists y t, a ++ c1 :: c2 :: r = y :: t) as (y & t & Ey) by (destruct a; cbn [app]; eauto).
    assert (to_nul (skipn k l1) = (b ++ [x]) ++ a ++ c1 :: c2 :: r) as E' by (rewrite <- app_assoc; exact E).
    assert (padd cf (h_mem (o_st hst o1)) (shift q (Zlen b)) 1 = Ok (shift q (Zlen (b ++ [x])))) as ->.
    { rewrite Zlen_app. change (Zlen [x]) with 1. rewrite <- shift_shift. rewrite Ey in E'. destruct (Ld (b ++ [x]) y t o1 E' Ho1) as [_ Lx].
      destruct Ho1 as (_ & _ & _ & w & Eo & HB & _). rewrite Eo in *. unfold h_mem in *. cbn [snd] in *.
      unfold padd. change (p_obj (shift q (Zlen b))) with (p_obj p). pose proof HB as (bb & kk & Eb & _). rewrite Eb.
      destruct (c_ptr cf); auto. unfold load_byte, load_cell in Lx. change (p_obj (shift q (Zlen (b ++ [x])))) with (p_obj p) in Lx. rewrite Eb in Lx.
      destruct (access (s_mem w) (PBlk bb)) as [k1| |] eqn:Ea; cbn [bind] in *; try discriminate.
      change (p_ofs (shift q (Zlen (b ++ [x])))) with (p_ofs q + Zlen (b ++ [x])) in Lx. change (p_ofs (shift q (Zlen b)) + 1) with (p_ofs q + Zlen b + 1).
      rewrite Zlen_app in Lx. change (Zlen [x]) with 1 in Lx. rewrite Z.add_assoc in Lx.
      destruct (in_block k1 (p_ofs q + Zlen b + 1) 1) eqn:Ei; [|discriminate]. unfold in_block in *. 
      apply andb_true_iff in Ei as [Ei1 Ei2]. apply Z.leb_le in Ei1, Ei2. rewrite (proj2 (Z.leb_le _ _)) by lia. cbn [andb]. rewrite (proj2 (Z.leb_le _ _)) by lia. reflexivity. }
    cbn [bind]. apply IH; auto.
    + rewrite Zlen_app. change (Zlen [x]) with 1. lia.
    + rewrite C1. lia.
Qed.
End Own.

Lemma piece_given_mem : forall cf A w w' p B (x : piece (dbl A)), touches cf (s_mem w) (s_mem w') p p B ->
  piece_given cf A w p B x -> forall B', dyn B' = dyn B -> bf_cap B' = bf_cap B -> piece_given cf A w' p B' x.
Proof.
  intros cf A w w' p B [i|b c k] Tc Hg B' Dy Cp; cbn [piece_given] in *; auto. destruct Hg as [Hm Ha].
  assert (item_apart cf p B' i) as Ha'. { destruct i; cbn [item_apart] in *; auto. unfold apart, buf_end in *. now rewrite Dy, Cp. }
  split; auto. destruct i; cbn [item_mem item_apart] in *; auto. destruct Hm as [Hm|(Hb & H1)]; [left; exact Hm|right]. split; auto. destruct Ha as [->|Ha].
  - destruct Hb as (kk & Ak & _). discriminate.
  - eapply touches_bytes; eauto. rewrite Zlen_app. exact Ha.
Qed.

Section Calls.
Variable cf : cfg.
Variable A : fops.
Hypothesis Wf : wf_cfg cf.
Notation handler := (Some (char_handler_for_prnf cf)).

Lemma own_fptr : forall w p B fmt (xs : list (piece (dbl A))) va, mem_wf (s_mem w) -> buf_at cf (s_mem w) p B ->
  let its := map (now cf p (bf_data B)) xs in
  bytes_at (s_mem w) fmt (format its ++ [0]) -> apart cf p B fmt (Zlen (format its) + 1) ->
  items_ok cf (flt_fine A) its -> Forall (piece_given cf A w p B) xs -> Forall (points_into (bf_data B)) xs ->
  let t := unrolled cf (flt A) p 0 (bf_data B) xs in Zlen t < INT_MAX -> sums_ok cf (Zlen (bf_data B) + Zlen t) -> Zlen (bf_data B) + Zlen t <= bf_cap B ->
  exists w', vfptrprnf cf A hst h_mem h_set handler (p, w) fmt (arguments cf its ++ va) = Ok (Zlen t, (p, w')) /\
    buf_at cf (s_mem w') p (Buffer (bf_data B ++ t) (bf_cap B) (bf_alloc B)) /\ touches cf (s_mem w) (s_mem w') p p B /\ mem_wf (s_mem w') /\ s_orc w' = s_orc w.
Proof.
  intros w p B fmt xs va Wm HB its Hf Ha Hok Hg Hp t Ht Hs Hr.
  assert (holds cf w p B (bf_data B) (Out hst 0 0 0 null handler (p, w))) as H0.
  { unfold holds. cbn [o_buf o_fn o_col o_cnt o_st]. split; auto. split; auto. split; [lia|]. exists w. split; auto.
    split; [destruct B; exact HB|]. split; [now apply touches_refl|]. auto. }
  pose proof Hf as (k & Ak & K1 & K2 & _). rewrite Zlen_app in K2. change (Zlen [0]) with 1 in K2.
  unfold vfptrprnf, core_prnf. cbn [o_st]. change (h_mem (p, w)) with (s_mem w). rewrite Ak. cbn [bind].
  assert (length (format its) < S (Z.to_nat (b_size k)))%nat as Hlen by (unfold Zlen in K2; lia).
  assert (length (format its ++ [0%Z]) <= S (Z.to_nat (b_size k)))%nat as Hlim by (rewrite app_length; cbn [length]; lia).
  destruct (unrolled_core cf A Wf w p B fmt (format its ++ [0]) Hf ltac:(rewrite Zlen_app; exact Ha) (S (Z.to_nat (b_size k))) Hlim xs [] (S (Z.to_nat (b_size k)))
    (Out hst 0 0 0 null handler (p, w)) (bf_data B) va eq_refl Hok H0 Hg Hp) as (o' & E & Ho & Co); auto.
  fold its in E. change (Zlen (@nil Z)) with 0 in E. rewrite shift_0 in E. rewrite E. cbn [bind].
  destruct Ho as (I1 & _ & _ & w' & Eo & HB' & Tc & Wm' & Or). unfold out_terminate. rewrite I1. cbn [is_null null p_obj p_ofs Z.eqb negb andb bind].
  exists w'. rewrite Co, Eo. cbn [o_cnt o_col]. fold t. auto.
Qed.

Lemma append_own_ok : forall w p B fmt (xs : list (piece (dbl A))) va, mem_wf (s_mem w) -> buf_at cf (s_mem w) p B ->
  let its := map (now cf p (bf_data B)) xs in
  bytes_at (s_mem w) fmt (format its ++ [0]) -> apart cf p B fmt (Zlen (format its) + 1) ->
  items_ok cf (flt_fine A) its -> Forall (piece_given cf A w p B) xs -> Forall (points_into (bf_data B)) xs ->
  let t := unrolled cf (flt A) p 0 (bf_data B) xs in Zlen t < INT_MAX -> sums_ok cf (Zlen (bf_data B) + Zlen t) -> Zlen (bf_data B) + Zlen t <= bf_cap B ->
  becomes_alone cf w p B (strbuf_append_prnf cf A w (Some p) fmt (arguments cf its ++ va)) (Buffer (bf_data B ++ t) (bf_cap B) (bf_alloc B)).
Proof.
  intros w p B fmt xs va Wm HB its Hf Ha Hok Hg Hp t Ht Hs Hr.
  destruct (own_fptr w p B fmt xs va Wm HB Hf Ha Hok Hg Hp Ht Hs Hr) as (w' & E & HB' & Tc & Wm' & Or). destruct (buf_at_cap _ _ _ _ HB) as [C _].
  unfold strbuf_append_prnf. rewrite (on_buf_ok cf (s_mem w) p B) by auto. rewrite (buf_at_load cf (s_mem w) p B Wf HB). cbn [bind].
  fold its in E. fold t in E, HB'. rewrite E. cbn [bind hdr_of h_size]. pose proof (Zlen_nonneg t). pose proof (Zlen_nonneg (bf_data B)). rewrite iadd_ok by (unfold INT_MIN; lia). cbn [bind].
  rewrite (buf_at_load cf (s_mem w') p _ Wf HB'). cbn [bind hdr_of h_size bf_data]. rewrite Zlen_app.
  rewrite (proj2 (Z.ltb_ge _ _)) by lia. rewrite (proj2 (Z.ltb_ge _ 0)) by lia. cbn [orb bind].
  exists w'. rewrite (ret_view_ok cf (with_mem w' (s_mem w')) p _ Wf HB'). destruct w' as [m' or']. cbn [with_mem s_mem s_orc] in *. auto.
Qed.

Lemma prnf_own_ok : forall w p B fmt (xs : list (piece (dbl A))) va, mem_wf (s_mem w) -> buf_at cf (s_mem w) p B ->
  let its := map (now cf p []) xs in
  bytes_at (s_mem w) fmt (format its ++ [0]) -> apart cf p B fmt (Zlen (format its) + 1) ->
  items_ok cf (flt_fine A) its -> Forall (piece_given cf A w p B) xs -> Forall (points_into []) xs ->
  let t := unrolled cf (flt A) p 0 [] xs in Zlen t < INT_MAX -> sums_ok cf (Zlen t) -> Zlen t <= bf_cap B ->
  becomes_alone cf w p B (strbuf_prnf cf A w (Some p) fmt (arguments cf its ++ va)) (Buffer t (bf_cap B) (bf_alloc B)).
Proof.
  intros w p B fmt xs va Wm HB its Hf Ha Hok Hg Hp t Ht Hs Hr.
  unfold strbuf_prnf. rewrite (on_buf_ok cf (s_mem w) p B) by auto.
  destruct (empty_buf_ok cf (s_mem w) p B Wf Wm HB) as (m1 & -> & HB1 & Ht1 & Wm1 & _). cbn [bind].
  set (B1 := Buffer [] (bf_cap B) (bf_alloc B)) in *.
  assert (forall x, piece_given cf A w p B x -> piece_given cf A (with_mem w m1) p B1 x) as Hgx.
  { intros x Hx. eapply (piece_given_mem cf A w (with_mem w m1)); eauto. }
  destruct (own_fptr (with_mem w m1) p B1 fmt xs va Wm1 HB1) as (w' & E & HB' & Tc & Wm' & Or); auto.
  { cbn [with_mem s_mem]. eapply touches_bytes; eauto. rewrite Zlen_app. exact Ha. }
  { eapply Forall_impl; [|exact Hg]. exact Hgx. }
  change (bf_data B1) with (@nil Z) in *. fold its in E. rewrite E. cbn [bind]. fold t. cbn [app] in HB'. fold t in HB'.
  rewrite (buf_at_load cf (s_mem w') p _ Wf HB'). cbn [bind hdr_of h_size bf_data]. rewrite Z.ltb_irrefl. cbn [bind].
  exists w'. rewrite (ret_view_ok cf (with_mem w' (s_mem w')) p _ Wf HB'). destruct w' as [m' or']. cbn [with_mem s_mem s_orc] in *.
  split; auto. split; auto. split; [|split; auto]. eapply (touches_trans _ _ _ _ _ _ _ B B1); eauto.
Qed.

(** The buffer moves while its own text is printed. *)
Lemma append_own_moved : forall w p B fmt (xs : list (piece (dbl A))) c t k rest va, mem_wf (s_mem w) -> buf_at cf (s_mem w) p B ->
  no_fail w -> ch_move (s_orc w 0%nat) = true -> dyn B = true -> conv_ok c -> cv_width c = WNone -> cv_prec c = PNone -> t = 115 \/ t = 83 -> (k <= length (bf_data B))%nat ->
  let its := map (now cf p (bf_data B)) xs in let f := format its ++ conv_text c t ++ rest in
  bytes_at (s_mem w) fmt f -> apart cf p B fmt (Zlen f) ->
  items_then cf A (flt_fine A) 37 its -> Forall (piece_given cf A w p B) xs -> Forall (points_into (bf_data B)) xs ->
  let l := bf_data B ++ unrolled cf (flt A) p 0 (bf_data B) xs in let own := to_nul (skipn k l) in
  Zlen l <= bf_cap B -> bf_cap B + 1 < Zlen l + Zlen own -> bf_cap B < INT_MAX -> sums_ok cf (bf_cap B + 1) ->
  strbuf_append_prnf cf A w (Some p) fmt (arguments cf its ++ conv_args c ++ AP (shift (chars_of cf p) (Z.of_nat k)) :: va) = UB UB_dead.
Proof.
  intros w p B fmt xs c t k rest va Wm HB Nf Mv Dy Hc Ew Ep Ht Hk its f Hf Ha Hok Hg Hp l own Hl Hown Lt Hs.
  set (u := unrolled cf (flt A) p 0 (bf_data B) xs) in *. pose proof (Zlen_nonneg u) as Zu. pose proof (Zlen_nonneg (bf_data B)) as Zb.
  assert (Zlen l = Zlen (bf_data B) + Zlen u) as Ll by (unfold l; now rewrite Zlen_app).
  unfold strbuf_append_prnf. rewrite (on_buf_ok cf (s_mem w) p B) by auto. rewrite (buf_at_load cf (s_mem w) p B Wf HB). cbn [bind].
  assert (holds cf w p B (bf_data B) (Out hst 0 0 0 null handler (p, w))) as H0.
  { unfold holds. cbn [o_buf o_fn o_col o_cnt o_st]. split; auto. split; auto. split; [lia|]. exists w. split; auto.
    split; [destruct B; exact HB|]. split; [now apply touches_refl|]. auto. }
  set (body := map flg_char (cv_flags c) ++ wid_text (cv_width c) ++ prc_text (cv_prec c) ++ len_text (cv_len c)).
  assert (conv_text c t ++ rest = 37 :: body ++ t :: rest) as Eb by (unfold conv_text, body; cbn [app]; rewrite <- !app_assoc; reflexivity).
  assert (longer c t = false) as Hlo by (apply type_past; unfold type_char; cbn [In]; destruct Ht as [E|E]; rewrite E; tauto).
  pose proof Hf as (kb & Ak & K1 & K2 & _).
  unfold vfptrprnf, core_prnf. cbn [o_st]. change (h_mem (p, w)) with (s_mem w). rewrite Ak. cbn [bind].
  assert (length f <= S (Z.to_nat (b_size kb)))%nat as Hlim by (unfold Zlen in K2; lia).
  assert (length (format its) < S (Z.to_nat (b_size kb)))%nat as Hlen by (unfold Zlen in K2; unfold f in K2; rewrite app_length in K2; lia).
  assert (f = [] ++ format its ++ 37 :: body ++ t :: rest) as Ef by (unfold f; now rewrite Eb).
  destruct (unrolled_items cf A Wf w p B fmt f Hf Ha (S (Z.to_nat (b_size kb))) Hlim xs [] 37 (body ++ t :: rest) (S (Z.to_nat (b_size kb)))
    (Out hst 0 0 0 null handler (p, w)) (bf_data B) (conv_args c ++ AP (shift (chars_of cf p) (Z.of_nat k)) :: va) Ef Hok H0 Hg Hp) as (f1 & o1 & F1 & E1 & Ho & Co).
  { cbn [o_cnt o_col]. fold u. lia. } { cbn [o_col]. fold u. eapply sums_ok_le; [|exact Hs]. lia. } { cbn [o_col]. fold u. lia. } { exact Hlen. }
  fold its in E1. change (Zlen (@nil Z)) with 0 in E1. rewrite shift_0 in E1. rewrite E1. cbn [o_col o_cnt] in Ho, Co. fold u in Ho, Co. fold l in Ho.
  destruct f1 as [|f1]; [fold its in F1; lia|]. cbn [core_loop app].
  pose proof (keeps_bytes cf w p B l o1 Ho fmt f Hf Ha) as Hg1. rewrite Ef in Hg1. cbn [app] in Hg1. apply bytes_at_app in Hg1 as [_ Hg1].
  destruct (at_step cf _ _ _ _ Hg1) as (H1 & H2 & H3). rewrite H1. cbn [bind Z.eqb Pos.eqb]. rewrite H2. cbn [bind].
  destruct (first_char c t rest Hc Hlo) as (y & s & Ey & Ny). unfold body in H3. rewrite <- !app_assoc in H3.
  assert (load_byte (h_mem (o_st hst o1)) (shift (shift fmt (Zlen (format its))) 1) = Ok y) as -> by (rewrite Ey in H3; now apply bytes_at_cons in H3). cbn [bind]. rewrite (proj2 (Z.eqb_neq y 37)) by auto.
  rewrite (parse_placeholder_ok cf c t rest _ _ _ Hc Hlo H3).
  2:{ fold body. rewrite Ef in Hlim. cbn [app] in Hlim. rewrite app_length in Hlim. cbn [length] in Hlim. rewrite app_length in Hlim. lia. }
  cbn [bind]. rewrite read_varg_conv by auto. assert (type_of t = TYPE_STR) as -> by (destruct Ht as [E|E]; rewrite E; reflexivity).
  unfold read_value. change (ph_type (ph_of cf c TYPE_STR)) with TYPE_STR. cbv iota beta. cbn [bind].
  unfold print_placeholder. change (ph_type (ph_of cf c TYPE_STR)) with TYPE_STR. cbv iota beta.
  assert (k <= length l)%nat as Hkl by (unfold l; rewrite app_length; lia).
  pose proof (own_string cf Wf w p B l o1 k Ho Hkl) as Hstr. fold own in Hstr.
  unfold print_str. rewrite (prnf_strlen_ok cf _ _ own) by (now right). cbn [bind].
  assert (centred c = false) as Ce by (unfold centred; now rewrite Ep).
  assert (ph_pspec (ph_of cf c TYPE_STR) = false) as Eps by (cbn [ph_of ph_pspec]; unfold prec_of; now rewrite Ep). rewrite Eps. cbn [andb]. cbv iota zeta.
  pose proof (Zlen_nonneg own) as Zo. assert (Zlen own <= INT_MAX) as Lo by apply Hstr.
  rewrite prepad_eq; [|rewrite centred_eq; auto|apply width_ok; auto|cbn [ph_of ph_width]; unfold width_of; rewrite Ew; unfold INT_MAX; lia].
  assert ((if ph_minus (ph_of cf c TYPE_STR) then [] else copies (fillc (ph_of cf c TYPE_STR)) (ph_width (ph_of cf c TYPE_STR) - Zlen own)) = []) as ->.
  { destruct (ph_minus (ph_of cf c TYPE_STR)); auto. apply copies_none. cbn [ph_of ph_width]. unfold width_of. rewrite Ew. lia. }
  cbn [out_chars bind]. rewrite (loops_ok cf (Zlen own)) by exact Zo. cbn [bind].
  set (g := Z.to_nat (bf_cap B - Zlen l)).
  assert (exists a c1 c2 r, own = a ++ c1 :: c2 :: r /\ length a = g) as (a & c1 & c2 & r & Eo & La).
  { assert (g + 2 <= length own)%nat as G by (unfold g, Zlen in *; lia).
    exists (firstn g own). destruct (skipn g own) as [|c1 [|c2 r]] eqn:Es.
    - apply (f_equal (@length Z)) in Es. rewrite skipn_length in Es. cbn [length] in Es. lia.
    - apply (f_equal (@length Z)) in Es. rewrite skipn_length in Es. cbn [length] in Es. lia.
    - exists c1, c2, r. rewrite <- Es, firstn_skipn. split; auto. apply firstn_length_le. lia. }
  replace (Z.to_nat (Zlen own)) with (length (a ++ c1 :: c2 :: r)) by (rewrite <- Eo; unfold Zlen; lia).
  pose proof (moved_loop cf Wf w p B k l c1 c2 r Nf Mv Dy Hkl Lt Hs a [] o1) as Ml. change (Zlen (@nil Z)) with 0 in Ml. rewrite shift_0, app_nil_r in Ml.
  rewrite Ml; auto.
  - unfold Zlen in *. unfold g in La. lia.
  - rewrite Co. unfold Zlen in *. unfold g in La. lia.
Qed.
End Calls.
