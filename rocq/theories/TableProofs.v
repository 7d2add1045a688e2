From Verif Require Import Base Mem Libc MemLemmas StrviewModel StrnumModel Spec NumSpec StrviewProofs StrviewProofs2 StrviewProofs3 StrnumProofs3 Alloc StrbufModel BufSpec
  StrbufProofs StrbufProofs2 HistSpec StrbufHistory PrnfModel PrnfSpec PrnfSpec2 PrnfProofs2 PrnfProofs4 PrnfProofs9 PrnfBufModel HistSpec2 StrbufHistory2 PackProofs UriModel UriProofs DocsProofs ChannelProofs PropsNum TableSpec.
Local Open Scope Z_scope.

(** ** Characters of the cells *)
Lemma show_facts : forall n, 0 <= n < two64 -> Forall (fun x => 48 <= x <= 57) (show 10 n) /\ show 10 n <> [].
Proof.
  intros n H. destruct (show_ok 10 (or_intror (or_introl eq_refl)) 64 n) as (S1 & _ & S3 & _); [|lia|].
  - unfold two64 in H. split; [lia|]. eapply Z.lt_trans; [apply H|]. reflexivity.
  - split; auto. eapply Forall_impl; [|exact S1]. intros x Hx. exact (proj1 (dig10 x Hx)).
Qed.
Definition show_chars n H := proj1 (show_facts n H).
Definition show_nonempty n H := proj2 (show_facts n H).
Lemma signed_chars : forall x, LLONG_MIN <= x <= LLONG_MAX -> Forall (fun c => c = 45 \/ 48 <= c <= 57) (show_signed 10 x).
Proof.
  intros x H. unfold LLONG_MIN, LLONG_MAX in H. unfold show_signed. destruct (Z.ltb_spec x 0).
  - constructor; [auto|]. eapply Forall_impl; [|apply show_chars; unfold two64; lia]. intros c Hc. cbn in Hc. lia.
  - eapply Forall_impl; [|apply show_chars; unfold two64; lia]. intros c Hc. cbn in Hc. lia.
Qed.
Lemma show_short : forall n, 0 <= n < two64 -> Zlen (show 10 n) <= 20.
Proof.
  intros n H. destruct (Z.eq_dec n 0) as [->|N]; [cbn; lia|]. destruct (show_len_bounds n ltac:(unfold two64', two64 in *; lia)) as [L _].
  destruct (Z.le_gt_cases (Zlen (show 10 n)) 20) as [K|K]; auto. exfalso.
  assert (10 ^ 20 <= 10 ^ (Zlen (show 10 n) - 1)) as P by (apply Z.pow_le_mono_r; lia). change (10 ^ 20) with 100000000000000000000 in P. unfold two64 in H. lia.
Qed.
Lemma signed_short : forall x, LLONG_MIN <= x <= LLONG_MAX -> Zlen (show_signed 10 x) <= 21.
Proof.
  intros x H. unfold LLONG_MIN, LLONG_MAX in H. unfold show_signed. destruct (Z.ltb_spec x 0).
  - pose proof (show_short (- x) ltac:(unfold two64; lia)). rewrite Zlen_cons. lia.
  - pose proof (show_short x ltac:(unfold two64; lia)). lia.
Qed.

(** ** Writing *)
Section Write.
Variable cf : cfg.
Variable A : fops.
Variable T : texts.
Hypothesis W : wf_cfg cf.

Definition like (B B' : buffer) : Prop := bf_alloc B' = bf_alloc B /\ (dyn B = false -> bf_cap B' = bf_cap B).
Definition writes (j : nat) (prog : list (xop (dbl A))) (t : list Z) : Prop :=
  forall a B, slot_of a j = ABuf B -> fits B (bf_data B ++ t) = true -> sums_ok cf (Zlen (bf_data B ++ t)) ->
  exists xs B', phase cf A T a j prog xs B' /\ bf_data B' = bf_data B ++ t /\ like B B'.

Lemma fits_less : forall B c c', fits B c' = true -> Zlen c <= Zlen c' -> fits B c = true.
Proof. intros B c c' H L. unfold fits in *. destruct (dyn B); apply Z.leb_le in H; apply Z.leb_le; lia. Qed.
Lemma sums_less : forall n n', sums_ok cf n' -> n <= n' -> sums_ok cf n.
Proof. intros n n' [H|H] L; [left|right]; auto. lia. Qed.
Lemma like_dyn : forall B B', like B B' -> dyn B' = dyn B.
Proof. intros B B' [E _]. unfold dyn. now rewrite E. Qed.
Lemma like_fits : forall B B' c, like B B' -> fits B' c = fits B c.
Proof. intros B B' c H. unfold fits. rewrite (like_dyn _ _ H). destruct (dyn B) eqn:E; auto. now rewrite (proj2 H E). Qed.
Lemma put_like : forall B c, fits B c = true -> bf_data (put cf B c) = c /\ like B (put cf B c).
Proof.
  intros B c H. unfold put. rewrite H. cbn [bf_data]. split; auto. split; cbn [bf_alloc bf_cap]; auto. intro D. unfold grown. rewrite D. reflexivity.
Qed.

Lemma writes_nil : forall j, writes j [] [].
Proof. intros j a B Hj Hf Hs. exists [], B. split; [now apply phase_nil|]. rewrite app_nil_r. repeat split; auto. Qed.
Lemma writes_app : forall j p q t u, writes j p t -> writes j q u -> writes j (p ++ q) (t ++ u).
Proof.
  intros j p q t u Hp Hq a B Hj Hf Hs. pose proof (slot_in a j _ Hj ltac:(congruence)) as Lj. pose proof (Zlen_nonneg u) as Zu.
  destruct (Hp a B Hj) as (xs & B1 & P1 & D1 & L1).
  { eapply fits_less; [exact Hf|]. rewrite !Zlen_app. lia. }
  { eapply sums_less; [exact Hs|]. rewrite !Zlen_app. lia. }
  destruct (Hq (upd a j (ABuf B1)) B1) as (ys & B2 & P2 & D2 & L2).
  { now apply ChannelProofs.slot_upd. }
  { rewrite D1, <- app_assoc, (like_fits B) by auto. exact Hf. }
  { rewrite D1, <- app_assoc. exact Hs. }
  exists (xs ++ ys), B2. split; [now apply phase_app with B1|]. split; [now rewrite D2, D1, app_assoc|].
  split; [now rewrite (proj1 L2), (proj1 L1)|]. intro D. rewrite (proj2 L2), (proj2 L1); auto. now rewrite (like_dyn _ _ L1).
Qed.

Lemma op_phase : forall a j o B, slot_of a j = ABuf B -> target o = j -> astep cf a o = (if refused B o then None else Some (bf_data (buf_step cf a B o)), upd a j (ABuf (buf_step cf a B o))) ->
  legal cf T a o -> exists xs, phase cf A T a j [XOp o] xs (buf_step cf a B o).
Proof.
  intros a j o B Hj Ht E L. eexists. split; [cbn [all_xlegal xlegal]; auto|]. cbn [xarun xstep]. rewrite E. reflexivity.
Qed.
Lemma writes_char : forall j c, is_byte c -> writes j [XOp (OChar j c)] [c].
Proof.
  intros j c Hc a B Hj Hf Hs. destruct (put_like B _ Hf) as [D L]. destruct (op_phase a j (OChar j c) B Hj eq_refl) as (xs & P).
  - cbn [astep target refused]. now rewrite Hj.
  - cbn [legal target]. exists B. split; auto. cbn [buf_legal]. split; auto. eapply sums_less; [exact Hs|]. rewrite Zlen_app. unfold Zlen. cbn [length]. lia.
  - exists xs, (put cf B (bf_data B ++ [c])). auto.
Qed.
Lemma writes_text : forall j v t, T v t -> writes j [XOp (OAppend j (SText v t))] t.
Proof.
  intros j v t Ht a B Hj Hf Hs. destruct (put_like B _ Hf) as [D L]. destruct (op_phase a j (OAppend j (SText v t)) B Hj eq_refl) as (xs & P).
  - cbn [astep target refused]. now rewrite Hj.
  - cbn [legal target]. exists B. split; auto. cbn [buf_legal src_legal text_of]. split; auto. eapply sums_less; [exact Hs|]. rewrite Zlen_app. lia.
  - exists xs, (put cf B (bf_data B ++ t)). auto.
Qed.
Lemma writes_num : forall j x, LLONG_MIN <= x <= LLONG_MAX -> (c_wrapv cf = true \/ x <> LLONG_MIN) ->
  writes j [XAppendPrnf j lld_fmt [PItem (Dec false lld x)]] (show_signed 10 x).
Proof.
  intros j x Hx Hm a B Hj Hf Hs. assert (wanted cf A a [PItem (Dec false lld x)] = show_signed 10 x) as Ew by apply plain_dec.
  pose proof (signed_short x Hx) as Ls. destruct (put_like B _ Hf) as [D L].
  eexists. exists (xbuf_step cf A a B (XAppendPrnf j lld_fmt [PItem (Dec false lld x)])). split; [apply phase_cons with (B := B); auto; [|apply phase_nil; apply ChannelProofs.slot_upd; now apply (slot_in a j _ Hj); congruence]|].
  - cbn [xbuf_legal]. rewrite Ew. split; [|eapply sums_less; [exact Hs|]; rewrite Zlen_app; lia]. split; [left; split; [reflexivity|vm_compute; reflexivity]|].
    split; [constructor; [exact I|constructor]|]. split; [|rewrite Ew; unfold INT_MAX; lia].
    cbn. unfold signed_ok. cbn [arg_bits cv_len lld]. repeat split; auto; unfold LLONG_MIN, LLONG_MAX in Hx; cbn; lia.
  - cbn [xbuf_step]. rewrite Ew. unfold put_all. rewrite Hf. auto.
Qed.

Lemma writes_cell : forall j c, cell_ok cf T c -> writes j (put_cell j c) (cell_text c).
Proof.
  intros j [x|v t] H.
  - destruct H. now apply writes_num.
  - destruct H as (Ht & _). cbn [put_cell cell_text]. assert (is_byte 34) as Hq by (unfold is_byte; lia).
    apply (writes_app j [_] [_; _] [34]); [now apply writes_char|]. apply (writes_app j [_] [_]); [now apply writes_text|now apply writes_char].
Qed.
Lemma writes_row : forall j d r, is_byte d -> Forall (cell_ok cf T) r -> writes j (put_row j d r) (row_text d r ++ [10]).
Proof.
  intros j d r Hd H. assert (is_byte 10) as Hn by (unfold is_byte; lia). induction H as [|c r Hc H IH].
  - cbn. now apply writes_char.
  - destruct r as [|c' r].
    + cbn [put_row row_text]. apply writes_app; [now apply writes_cell|now apply writes_char].
    + change (put_row j d (c :: c' :: r)) with (put_cell j c ++ [XOp (OChar j d)] ++ @put_row (dbl A) j d (c' :: r)).
      change (row_text d (c :: c' :: r)) with (cell_text c ++ [d] ++ row_text d (c' :: r)). rewrite <- !app_assoc.
      apply writes_app; [now apply writes_cell|]. apply writes_app; [now apply writes_char|exact IH].
Qed.
Lemma writes_rows : forall j d rows, is_byte d -> Forall (Forall (cell_ok cf T)) rows -> writes j (concat (map (put_row j d) rows)) (table_text d rows).
Proof.
  intros j d rows Hd H. induction H as [|r rows Hr H IH]; [apply writes_nil|]. cbn [map concat]. unfold table_text. cbn [map concat].
  apply writes_app; [now apply writes_row|exact IH].
Qed.

Lemma table_written : forall j d rows a vars w B, c_ptr cf = true -> is_byte d -> Forall (Forall (cell_ok cf T)) rows ->
  means cf T a vars w -> slot_of a j = ABuf B -> fits B (table_text d rows) = true -> sums_ok cf (Zlen (table_text d rows)) ->
  exists xs vars' w' a' B', xrun cf A vars w (put_table j d rows) = Ok (xs, vars', w') /\ means cf T a' vars' w' /\
    slot_of a' j = ABuf B' /\ bf_data B' = table_text d rows /\ like B B' /\ (forall i, i <> j -> slot_of a' i = slot_of a i).
Proof.
  intros j d rows a vars w B Hc Hd Hr M Hj Hf Hs. pose proof (slot_in a j _ Hj ltac:(congruence)) as Lj.
  assert (fits B [] = true) as F0. { apply fits_less with (table_text d rows); auto. apply Zlen_nonneg. }
  destruct (put_like B [] F0) as [D0 L0].
  destruct (op_phase a j (OAssign j SNone) B Hj eq_refl) as (xs0 & P0).
  { cbn [astep target refused]. now rewrite Hj. }
  { cbn [legal target]. exists B. split; auto. cbn [buf_legal src_legal text_of]. split; [exact I|]. eapply sums_less; [exact Hs|]. apply Zlen_nonneg. }
  cbn [buf_step text_of] in P0.
  destruct (writes_rows j d rows Hd Hr (upd a j (ABuf (put cf B []))) (put cf B [])) as (xs & B' & P & D & L).
  { now apply ChannelProofs.slot_upd. }
  { rewrite D0. cbn [app]. now rewrite (like_fits B). }
  { rewrite D0. exact Hs. }
  pose proof (phase_app cf A T a j _ _ _ _ _ _ P0 P) as [Lg E]. change ([XOp (OAssign j SNone)] ++ concat (map (put_row j d) rows)) with (@put_table (dbl A) j d rows) in *.
  destruct (xrun_ok cf A T _ a vars w W Hc M Lg) as (vars' & w' & R & M'). rewrite E in R, M'. cbn [fst snd] in R, M'.
  do 5 eexists. split; [exact R|]. split; [exact M'|]. split; [now apply ChannelProofs.slot_upd|]. rewrite D0 in D. split; [exact D|]. split.
  - split; [now rewrite (proj1 L), (proj1 L0)|]. intro X. rewrite (proj2 L), (proj2 L0); auto. now rewrite (like_dyn _ _ L0).
  - intros i Hi. unfold slot_of. now apply nth_upd_neq.
Qed.
End Write.

(** ** Reading *)
Section Read.
Variable cf : cfg.
Variable T : texts.
Variable d : Z.
Hypothesis Hd : delim_ok d.

Lemma skip_plain : forall l r, Forall (fun c => c <> 34 /\ c <> d) l -> fdelim true [d] false (l ++ r) = option_map (Nat.add (length l)) (fdelim true [d] false r).
Proof.
  intros l r H. induction H as [|c l [H1 H2] H IH]; cbn [app length Nat.add]; [now destruct (fdelim true [d] false r)|].
  cbn [fdelim existsb]. rewrite (proj2 (Z.eqb_neq c 34) H1), (proj2 (Z.eqb_neq c d) H2). cbn [andb xorb negb orb]. rewrite IH.
  now destruct (fdelim true [d] false r).
Qed.
Lemma skip_quoted : forall t r, ~ In 34 t -> fdelim true [d] true (t ++ r) = option_map (Nat.add (length t)) (fdelim true [d] true r).
Proof.
  intros t r H. induction t as [|c t IH]; cbn [app length Nat.add]; [now destruct (fdelim true [d] true r)|].
  cbn [fdelim existsb]. rewrite (proj2 (Z.eqb_neq c 34)) by (intros ->; apply H; now left). cbn [andb xorb negb orb].
  rewrite IH by (intro K; apply H; now right). now destruct (fdelim true [d] true r).
Qed.
Lemma skip_cell : forall c r, cell_ok cf T c -> fdelim true [d] false (cell_text c ++ r) = option_map (Nat.add (length (cell_text c))) (fdelim true [d] false r).
Proof.
  intros [x|v t] r H.
  - apply skip_plain. eapply Forall_impl; [|apply signed_chars, H]. intros c Hc. cbn in Hc. destruct Hd as (_ & _ & _ & _ & H5 & H6 & H7). lia.
  - destruct H as (_ & H & _). destruct Hd as (_ & _ & _ & _ & H5 & _). cbn [cell_text]. change ((34 :: t ++ [34]) ++ r) with (34 :: ((t ++ [34]) ++ r)). rewrite <- app_assoc. cbn [app fdelim]. rewrite (Z.eqb_refl 34). cbn [andb xorb negb].
    rewrite skip_quoted by assumption. cbn [app fdelim existsb]. rewrite (Z.eqb_refl 34). cbn [andb xorb negb].
    rewrite (proj2 (Z.eqb_neq 34 d)) by congruence. cbn [andb orb negb]. cbn [length]. rewrite app_length. cbn [length].
    destruct (fdelim true [d] false r); cbn [option_map]; auto. f_equal. lia.
Qed.
Lemma delim_after : forall c r, cell_ok cf T c -> is_least (delim_at true [d] (cell_text c ++ d :: r)) (length (cell_text c)).
Proof.
  intros c r H. pose proof (fdelim_spec true [d] (cell_text c ++ d :: r) false) as S. rewrite skip_cell in S by assumption.
  cbn [fdelim existsb] in S. rewrite (proj2 (Z.eqb_neq d 34)) in S by apply Hd. rewrite Z.eqb_refl in S. cbn [andb orb xorb negb option_map] in S. rewrite Nat.add_0_r in S.
  eapply is_least_iff; [|exact S]. intro. apply gen_delim_at.
Qed.
Lemma delim_none : forall c, cell_ok cf T c -> forall k, ~ delim_at true [d] (cell_text c) k.
Proof.
  intros c H k K. pose proof (fdelim_spec true [d] (cell_text c) false) as S. pose proof (skip_cell c [] H) as E. rewrite app_nil_r in E. rewrite E in S. cbn [fdelim option_map] in S.
  apply (S k). now apply gen_delim_at.
Qed.

Lemma read_view_ok : forall m v t, has_view m v t -> read_view m v = Ok (Some t).
Proof.
  intros m v t H. unfold read_view. rewrite (has_view_valid _ _ _ H). destruct H as (HB & HS & _). rewrite HS, Zlen_to_nat, (load_bytes_ok _ _ _ HB). reflexivity.
Qed.
Lemma dequote_word : forall m v t, ~ In 34 t -> has_view m v (34 :: t ++ [34]) -> exists r, strview_dequote cf m v = Ok r /\ has_view m r t.
Proof.
  intros m v t Hn H. destruct (dequote_ok cf m v _ H) as (q & k & r & E & K0 & K1 & D & V). rewrite D. eexists. split; [reflexivity|].
  destruct k as [|k].
  { exfalso. destruct (K0 eq_refl) as [K|K].
    - rewrite Zlen_cons, Zlen_app in K. pose proof (Zlen_nonneg t). cbn in K. lia.
    - apply K. cbn [hd]. change (34 :: t ++ [34]) with ((34 :: t) ++ [34]). now rewrite last_last. }
  cbn [repeat app] in E. injection E as <- E. destruct k as [|k].
  { cbn [repeat app] in E. apply app_inj_tail in E as [-> _]. exact V. }
  exfalso. change (34 :: 34 :: repeat 34 k) with (34 :: repeat 34 (S k)) in E. change (34 :: repeat 34 k) with (repeat 34 (S k)) in E.
  rewrite ?(repeat_cons (S k) 34), !app_assoc in E. apply app_inj_tail in E as [E _]. apply Hn. rewrite E. apply in_or_app. left. apply in_or_app. left. now left.
Qed.
Lemma get_cell_ok : forall m c v, mem_wf m -> cell_ok cf T c -> has_view m v (cell_text c) -> get_cell cf m (kind_of c) v = Ok (value_of c).
Proof.
  intros m [x|v' t] v Wm H V; cbn [kind_of get_cell value_of cell_text] in *.
  - destruct H as [H _]. destruct (C27_decimal_round_trip cf TLlong _ m v x eq_refl) as (s' & -> & _); auto.
  - destruct H as (_ & H & _). destruct (dequote_word m v t H V) as (r & -> & Vr). cbn [bind]. now rewrite (read_view_ok _ _ _ Vr).
Qed.

Lemma get_row_ok : forall m p r v, mem_wf m -> c_string m p [d] -> Forall (cell_ok cf T) r -> r <> [] -> has_view m v (row_text d r) ->
  get_row cf m p (map kind_of r) v = Ok (map value_of r, INVALID).
Proof.
  intros m p r v Wm Hp H. revert v. destruct (cstr_ok m p _ Hp) as [Ep Vp]. induction H as [|c r Hc H IH]; intros v Hn V; [congruence|]. cbn [map get_row].
  unfold strview_split_first_delim. rewrite Ep. cbn [bind]. destruct (split_first_ok cf m v _ _ _ true V Vp) as [(a & e & b & E1 & E2 & E3 & E4 & E5)|(E1 & E2)].
  - rewrite E3. cbn [bind]. destruct r as [|c' r].
    + cbn [row_text] in E2. destruct (delim_none c Hc (length a)). apply E2.
    + change (row_text d (c :: c' :: r)) with (cell_text c ++ d :: row_text d (c' :: r)) in *. pose proof (delim_after c (row_text d (c' :: r)) Hc) as L.
      assert (length (cell_text c) = length a) as La.
      { destruct (Nat.lt_trichotomy (length (cell_text c)) (length a)) as [X|[X|X]]; auto; [destruct (proj2 E2 _ X)|destruct (proj2 L _ X)]; [exact (proj1 L)|exact (proj1 E2)]. }
      destruct (DocsProofs.app_inv_length_l _ _ _ _ La E1) as [<- E7]. injection E7 as <- <-.
      rewrite (get_cell_ok m c _ Wm Hc E4). cbn [bind]. rewrite (IH _ ltac:(congruence) E5). reflexivity.
  - rewrite E2. cbn [bind]. destruct r as [|c' r].
    + cbn [row_text] in V. rewrite (get_cell_ok m c _ Wm Hc V). reflexivity.
    + destruct (E1 (length (cell_text c))). apply (delim_after c (row_text d (c' :: r)) Hc).
Qed.

Lemma cell_chars : forall c, cell_ok cf T c -> Forall (fun x => is_eol x = false) (cell_text c).
Proof.
  intros [x|v t] H.
  - eapply Forall_impl; [|apply signed_chars, H]. intros c Hc. cbn in Hc. unfold is_eol. apply orb_false_iff. rewrite !Z.eqb_neq. lia.
  - destruct H as (_ & _ & H1 & H2). cbn [cell_text]. constructor; [reflexivity|]. apply Forall_app. split; [|repeat constructor].
    apply Forall_forall. intros c Hc. unfold is_eol. apply orb_false_iff. rewrite !Z.eqb_neq. split; intros ->; auto.
Qed.
Lemma row_chars : forall r, Forall (cell_ok cf T) r -> Forall (fun x => is_eol x = false) (row_text d r).
Proof.
  intros r H. induction H as [|c r Hc H IH]; [constructor|]. destruct r as [|c' r]; [now apply cell_chars|].
  change (row_text d (c :: c' :: r)) with (cell_text c ++ d :: row_text d (c' :: r)). apply Forall_app. split; [now apply cell_chars|]. constructor; auto.
  destruct Hd as (_ & _ & H3 & H4 & _). unfold is_eol. apply orb_false_iff. rewrite !Z.eqb_neq. auto.
Qed.
Lemma until_nl : forall a b, Forall (fun x => is_eol x = false) a -> until_eol (a ++ 10 :: b) = Some (a, 10, b).
Proof. intros a b H. induction H as [|x a Hx H IH]; [reflexivity|]. cbn [app until_eol]. now rewrite Hx, IH. Qed.
Lemma table_head : forall rows x l, Forall (Forall (cell_ok cf T)) rows -> table_text d rows = x :: l -> x <> 13.
Proof.
  intros rows x l H E. destruct H as [|r rows Hr H]; [discriminate|]. unfold table_text in E. cbn [map concat] in E. pose proof (row_chars r Hr) as F.
  destruct (row_text d r) as [|y t]; cbn [app] in E; injection E as <- _; [lia|]. inversion F as [|? ? K ?]; subst. intros ->. discriminate K.
Qed.
Lemma table_line : forall r rows e, e = 0 \/ e = 10 -> Forall (cell_ok cf T) r -> Forall (Forall (cell_ok cf T)) rows ->
  next_line e (table_text d (r :: rows)) = Some (row_text d r, 10, table_text d rows).
Proof.
  intros r rows e He Hr H. unfold next_line. assert (drop_half e (table_text d (r :: rows)) = table_text d (r :: rows)) as ->.
  { destruct (table_text d (r :: rows)) as [|x l] eqn:E; [reflexivity|]. apply table_head in E; [|now constructor]. cbn [drop_half].
    destruct He as [-> | ->]; cbn [is_eol Z.eqb Pos.eqb orb andb other_eol]; auto. now rewrite (proj2 (Z.eqb_neq x 13)). }
  change (table_text d (r :: rows)) with ((row_text d r ++ [10]) ++ table_text d rows). rewrite <- app_assoc. cbn [app]. rewrite until_nl by now apply row_chars.
  destruct (table_text d rows) as [|x l] eqn:E; [reflexivity|]. apply table_head in E; [|assumption]. cbn [other_eol Z.eqb]. change (other_eol 10) with 13. now rewrite (proj2 (Z.eqb_neq x 13)).
Qed.
Lemma get_rows_ok : forall m p rows v e, mem_wf m -> c_string m p [d] -> Forall (Forall (cell_ok cf T)) rows -> Forall (fun r => r <> []) rows -> e = 0 \/ e = 10 ->
  has_view m v (table_text d rows) ->
  exists last, get_rows cf m p (map (map kind_of) rows) v e = Ok (map (fun r => (map value_of r, true)) rows, last) /\ has_view m last [].
Proof.
  intros m p rows v e Wm Hp H. revert v e. induction H as [|r rows Hr H IH]; intros v e Hn He V.
  - exists v. split; [reflexivity|exact V].
  - inversion Hn as [|? ? N1 N2]; subst. cbn [map get_rows].
    assert (table_text d (r :: rows) <> []) as Ne. { unfold table_text. cbn [map concat]. destruct (row_text d r); discriminate. }
    pose proof (split_line_ok cf m v _ (Some e) e V Ne eq_refl ltac:(unfold pend_ok; tauto)) as S.
    rewrite (table_line r rows e He Hr H) in S. destruct S as (line & v' & -> & V1 & V2 & _). cbn [bind].
    rewrite (get_row_ok m p r line Wm Hp Hr N1 V1). cbn [bind]. destruct (IH v' 10 N2 (or_intror eq_refl) V2) as (last & -> & Vl).
    cbn [bind]. exists last. split; [reflexivity|exact Vl].
Qed.
End Read.

(** ** The text determines the table *)
Lemma show_signed_inj : forall x y, LLONG_MIN <= x <= LLONG_MAX -> LLONG_MIN <= y <= LLONG_MAX -> show_signed 10 x = show_signed 10 y -> x = y.
Proof.
  assert (forall x y, 0 <= x < two64 -> 0 <= y < two64 -> show 10 x = show 10 y -> x = y) as K.
  { intros x y Hx Hy E. assert (forall n, 0 <= n < two64 -> num_val 10 (show 10 n) = n) as V.
    { intros n H. destruct (show_ok 10 (or_intror (or_introl eq_refl)) 64 n) as (_ & S2 & _); [|lia|exact S2].
      unfold two64 in H. split; [lia|]. eapply Z.lt_trans; [apply H|]. reflexivity. }
    rewrite <- (V x Hx), <- (V y Hy). now rewrite E. }
  intros x y Hx Hy E. unfold LLONG_MIN, LLONG_MAX in *. unfold show_signed in E.
  assert (forall n t, 0 <= n < two64 -> show 10 n <> 45 :: t) as N.
  { intros n t H E'. pose proof (show_chars n H) as F. rewrite E' in F. inversion F; lia. }
  destruct (Z.ltb_spec x 0), (Z.ltb_spec y 0).
  - injection E as E. apply K in E; unfold two64; lia.
  - symmetry in E. apply N in E; [contradiction|unfold two64; lia].
  - apply N in E; [contradiction|unfold two64; lia].
  - apply K; auto; unfold two64; lia.
Qed.
Lemma cell_inj : forall cf T T' c c', cell_ok cf T c -> cell_ok cf T' c' -> cell_text c = cell_text c' -> value_of c = value_of c'.
Proof.
  assert (forall x t, LLONG_MIN <= x <= LLONG_MAX -> show_signed 10 x <> 34 :: t) as N.
  { intros x t H E. pose proof (signed_chars x H) as F. rewrite E in F. inversion F; lia. }
  intros cf T T' [x|v t] [y|v' t'] H H' E; cbn [cell_text value_of] in *.
  - do 2 f_equal. destruct H, H'. now apply show_signed_inj.
  - destruct (N _ _ (proj1 H) E).
  - symmetry in E. destruct (N _ _ (proj1 H') E).
  - injection E as E. apply app_inj_tail in E as [-> _]. reflexivity.
Qed.
Lemma row_inj : forall cf T T' d, delim_ok d -> forall r r', r <> [] -> r' <> [] -> Forall (cell_ok cf T) r -> Forall (cell_ok cf T') r' -> row_text d r = row_text d r' ->
  map value_of r = map value_of r'.
Proof.
  intros cf T T' d Hd. induction r as [|c r IH]; intros [|c' r'] N N' H H' E; try congruence.
  inversion H as [|? ? Hc Hr]; inversion H' as [|? ? Hc' Hr']; subst. destruct r as [|c1 r], r' as [|c1' r'].
  - cbn [row_text] in E. cbn [map]. f_equal. eapply cell_inj; eauto.
  - exfalso. change (row_text d [c]) with (cell_text c) in E. change (row_text d (c' :: c1' :: r')) with (cell_text c' ++ d :: row_text d (c1' :: r')) in E.
    pose proof (delim_after cf T' d Hd c' (row_text d (c1' :: r')) Hc') as [K _]. rewrite <- E in K. exact (delim_none cf T d Hd c Hc _ K).
  - exfalso. change (row_text d [c']) with (cell_text c') in E. change (row_text d (c :: c1 :: r)) with (cell_text c ++ d :: row_text d (c1 :: r)) in E.
    pose proof (delim_after cf T d Hd c (row_text d (c1 :: r)) Hc) as [K _]. rewrite E in K. exact (delim_none cf T' d Hd c' Hc' _ K).
  - change (row_text d (c :: c1 :: r)) with (cell_text c ++ d :: row_text d (c1 :: r)) in E. change (row_text d (c' :: c1' :: r')) with (cell_text c' ++ d :: row_text d (c1' :: r')) in E.
    pose proof (delim_after cf T d Hd c (row_text d (c1 :: r)) Hc) as L. pose proof (delim_after cf T' d Hd c' (row_text d (c1' :: r')) Hc') as L'. rewrite <- E in L'.
    assert (length (cell_text c) = length (cell_text c')) as La.
    { destruct (Nat.lt_trichotomy (length (cell_text c)) (length (cell_text c'))) as [X|[X|X]]; auto; [destruct (proj2 L' _ X)|destruct (proj2 L _ X)]; [exact (proj1 L)|exact (proj1 L')]. }
    destruct (DocsProofs.app_inv_length_l _ _ _ _ La E) as [E1 E2]. assert (row_text d (c1 :: r) = row_text d (c1' :: r')) as E3 by (injection E2 as E2; exact E2). pose proof (IH (c1' :: r') ltac:(discriminate) ltac:(discriminate) Hr Hr' E3) as R.
    change (value_of c :: map value_of (c1 :: r) = value_of c' :: map value_of (c1' :: r')). rewrite R. f_equal. eapply cell_inj; eauto.
Qed.
Lemma table_inj : forall cf T T' d, delim_ok d -> forall rows rows', Forall (fun r => r <> [] /\ Forall (cell_ok cf T) r) rows -> Forall (fun r => r <> [] /\ Forall (cell_ok cf T') r) rows' ->
  table_text d rows = table_text d rows' -> map (map value_of) rows = map (map value_of) rows'.
Proof.
  intros cf T T' d Hd. induction rows as [|r rows IH]; intros [|r' rows'] H H' E.
  - reflexivity.
  - exfalso. unfold table_text in E. cbn [map concat] in E. destruct (row_text d r'); discriminate.
  - exfalso. unfold table_text in E. cbn [map concat] in E. destruct (row_text d r); discriminate.
  - inversion H as [|? ? [N Hr] Hrs]; inversion H' as [|? ? [N' Hr'] Hrs']; subst.
    change (table_text d (r :: rows)) with ((row_text d r ++ [10]) ++ table_text d rows) in E. change (table_text d (r' :: rows')) with ((row_text d r' ++ [10]) ++ table_text d rows') in E.
    rewrite <- !app_assoc in E. cbn [app] in E. pose proof (until_nl (row_text d r) (table_text d rows) (row_chars cf T d Hd r Hr)) as U.
    rewrite E, (until_nl _ _ (row_chars cf T' d Hd r' Hr')) in U. injection U as U1 U2. cbn [map]. f_equal; [eapply row_inj; eauto|]. apply IH; auto.
Qed.

Lemma table_round : forall cf A T d j rows a vars w B, wf_cfg cf -> c_ptr cf = true -> delim_ok d ->
  Forall (fun r => r <> [] /\ Forall (cell_ok cf T) r) rows -> means cf T a vars w -> slot_of a j = ABuf B ->
  fits B (table_text d rows) = true -> sums_ok cf (Zlen (table_text d rows)) ->
  exists xs vars' w' a' B' last, xrun cf A vars w (put_table j d rows) = Ok (xs, vars', w') /\ means cf T a' vars' w' /\
    slot_of a' j = ABuf B' /\ bf_data B' = table_text d rows /\ (forall i, i <> j -> slot_of a' i = slot_of a i) /\
    get_table cf w' (var vars' j) (lit [d]) (map (map kind_of) rows) = Ok (map (fun r => (map value_of r, true)) rows, last) /\
    has_view (s_mem w') last [].
Proof.
  intros cf A T d j rows a vars w B W Hc Hd H M Hj Hf Hs.
  assert (Forall (Forall (cell_ok cf T)) rows) as H1 by (eapply Forall_impl; [|exact H]; intros r [_ K]; exact K).
  assert (Forall (fun r : list cell => r <> []) rows) as H2 by (eapply Forall_impl; [|exact H]; intros r [K _]; exact K).
  destruct (table_written cf A T W j d rows a vars w B Hc (proj1 Hd) H1 M Hj Hf Hs) as (xs & vars' & w' & a' & B' & R & M' & S' & D & _ & O).
  pose proof (slot_in a' j _ S' ltac:(congruence)) as Lj. pose proof (mn_slot _ _ _ _ _ M' j Lj) as Sl. rewrite S' in Sl. cbn [slot_rel] in Sl.
  pose proof (buf_at_view _ _ _ _ W Sl) as V. rewrite D in V.
  assert (c_string (s_mem w') (lit [d]) [d]) as Hp.
  { apply lit_cstring; [constructor; [apply Hd|constructor]|intros [K|[]]; now apply (proj1 (proj2 Hd))|cbn; unfold INT_MAX; lia]. }
  destruct (get_rows_ok cf T d Hd (s_mem w') (lit [d]) rows _ 0 (mn_wf _ _ _ _ _ M') Hp H1 H2 (or_introl eq_refl) V) as (last & E & Vl).
  exists xs, vars', w', a', B', last. do 5 (split; [assumption|]). split; [|exact Vl]. unfold get_table. rewrite (strbuf_view_ok cf w' _ B' W Sl). exact E.
Qed.
