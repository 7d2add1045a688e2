(** Proofs about prnf: strings, the format string and the arguments. *)
From Verif Require Import Base Mem Libc StrviewModel Spec MemLemmas StrviewProofs NumSpec StrnumProofs StrnumProofs2 StrnumProofs3 PrnfModel PrnfSpec PrnfProofs.

(** ** The placeholder of a conversion *)
Definition ph_of (cf : cfg) (c : conv) (t : ptype) : placeholder :=
  Ph (left_aligned c) (has_flag FZero c) (hd 0 (plus_sign (cv_flags c))) (match prec_of c with Some _ => true | None => false end)
     (width_of c) (match prec_of c with Some p => p | None => 0 end)
     (match cv_prec c with PStar _ => true | _ => false end) (match cv_width c with WStar _ => true | _ => false end)
     (len_bytes cf (cv_len c)) t.
Definition ph_raw (cf : cfg) (c : conv) (t : ptype) : placeholder :=
  Ph (has_flag FMinus c) (has_flag FZero c) (hd 0 (plus_sign (cv_flags c))) (match prec_of c with Some _ => true | None => false end)
     (match cv_width c with WNum n => n | _ => 0 end) (match cv_prec c with PNumZ _ p => p | _ => 0 end)
     (match cv_prec c with PStar _ => true | _ => false end) (match cv_width c with WStar _ => true | _ => false end)
     (len_bytes cf (cv_len c)) t.

Lemma s32_mod : forall n, INT_MIN <= n <= INT_MAX -> s32 (n mod 2 ^ 32) = n.
Proof.
  intros n H. unfold s32, two32', INT_MIN, INT_MAX in *. change (2 ^ 32) with 4294967296. destruct (Z.lt_ge_cases n 0).
  - replace (n mod 4294967296) with (n + 4294967296).
    + rewrite (proj2 (Z.ltb_ge _ _)) by lia. lia.
    + apply (Z.mod_unique_pos n 4294967296 (-1)); lia.
  - rewrite Z.mod_small by lia. rewrite (proj2 (Z.ltb_lt _ _)) by lia. reflexivity.
Qed.
Lemma s64_mod : forall n, LLONG_MIN <= n <= LLONG_MAX -> s64 (n mod 2 ^ 64) = n.
Proof.
  intros n H. unfold s64, two64', LLONG_MIN, LLONG_MAX in *. change (2 ^ 64) with 18446744073709551616. destruct (Z.lt_ge_cases n 0).
  - replace (n mod 18446744073709551616) with (n + 18446744073709551616).
    + rewrite (proj2 (Z.ltb_ge _ _)) by lia. lia.
    + apply (Z.mod_unique_pos n 18446744073709551616 (-1)); lia.
  - rewrite Z.mod_small by lia. rewrite (proj2 (Z.ltb_lt _ _)) by lia. reflexivity.
Qed.

Section R.
Variable cf : cfg.
Variable A : fops.

(** READ_VARG after the width and the precision. *)
Definition read_value (ph : placeholder) (va : list (arg (dbl A))) : outcome (placeholder * varg A * list (arg (dbl A))) :=
  match ph_type ph with
  | TYPE_NONE => Ok (ph, VNone A, va)
  | TYPE_UINT | TYPE_HEX | TYPE_BIN | TYPE_INT =>
      if ph_size ph =? 8
      then match va with A64 b :: t => Ok (ph, VInt A b, t) | _ => UB UB_varg end
      else match va with
           | A32 b :: t => Ok (ph, VInt A (if is_type_unsigned (ph_type ph) then b else s32 b mod two64'), t)
           | _ => UB UB_varg
           end
  | TYPE_FLOAT | TYPE_ENG => match va with AD d :: t => Ok (ph, VFlt A (f_of_dbl A d), t) | _ => UB UB_varg end
  | TYPE_CHAR => match va with A32 b :: t => Ok (ph, VChar A (b mod 256), t) | _ => UB UB_varg end
  | TYPE_STR => match va with AP p :: t => Ok (ph, VStr A p, t) | _ => UB UB_varg end
  end.

Lemma read_varg_conv : forall c t va, conv_ok c -> read_varg cf A (ph_raw cf c t) (conv_args c ++ va) = read_value (ph_of cf c t) va.
Proof.
  intros c t va (Hw & Hp). unfold read_varg. cbn [ph_raw ph_wdyn].
  match goal with |- bind (bind ?X _) _ = _ => idtac | |- bind ?X ?K = _ =>
    assert (X = Ok (Ph (left_aligned c) (has_flag FZero c) (hd 0 (plus_sign (cv_flags c))) (match prec_of c with Some _ => true | None => false end)
     (width_of c) (match cv_prec c with PNumZ _ p => p | _ => 0 end)
     (match cv_prec c with PStar _ => true | _ => false end) (match cv_width c with WStar _ => true | _ => false end)
     (len_bytes cf (cv_len c)) t, match cv_prec c with PStar n => [A32 (n mod 2 ^ 32)] | _ => [] end ++ va)) as -> end.
  { unfold ph_raw, conv_args, left_aligned, width_of. destruct (cv_width c) as [|n|n]; cbn [app]; try (rewrite orb_false_r; reflexivity).
    cbn [next_int app bind]. rewrite s32_mod by (unfold INT_MIN, INT_MAX in *; lia). cbn [bind].
    destruct (n <? 0) eqn:E; [apply Z.ltb_lt in E|apply Z.ltb_ge in E].
    - rewrite isub_ok by (unfold INT_MIN, INT_MAX in *; lia). cbn [bind ph_zero ph_sign ph_pspec ph_prec ph_pdyn ph_wdyn ph_size ph_type].
      rewrite orb_true_r. repeat f_equal. lia.
    - cbn [ph_minus ph_zero ph_sign ph_pspec ph_prec ph_pdyn ph_wdyn ph_size ph_type]. rewrite orb_false_r. repeat f_equal. lia. }
  cbn [bind ph_pdyn]. unfold ph_of, prec_of. destruct (cv_prec c) as [| |n|n]; cbn [app bind]; try reflexivity.
  cbn [next_int]. rewrite s32_mod by (unfold INT_MIN, INT_MAX in *; lia). cbn [bind ph_minus ph_zero ph_sign ph_pspec ph_width ph_pdyn ph_wdyn ph_size ph_type].
  reflexivity.
Qed.

(** ** Reading the format string *)
Lemma at_step : forall m p x l, bytes_at m p (x :: l) ->
  load_byte m p = Ok x /\ padd cf m p 1 = Ok (shift p 1) /\ bytes_at m (shift p 1) l.
Proof.
  intros m p x l H. destruct (bytes_at_cons _ _ _ _ H) as [H1 H2]. split; auto. split; auto.
  apply (padd_ok cf m p (x :: l)); auto. rewrite Zlen_cons. pose proof (Zlen_nonneg l). lia.
Qed.

Lemma parse_flags_ok : forall fl fuel m p x l mi ze s, bytes_at m p (map flg_char fl ++ x :: l) -> flag_char x = false ->
  (length fl < fuel)%nat ->
  parse_flags cf fuel m p mi ze s =
  Ok (mi || has_flag FMinus (Conv fl WNone PNone Lint), ze || has_flag FZero (Conv fl WNone PNone Lint),
      match plus_sign fl with [] => s | y :: _ => y end, shift p (Zlen fl)).
Proof.
  induction fl as [|f fl IH]; intros fuel m p x l mi ze s H Hx Hf; (destruct fuel as [|fuel]; [lia|]); cbn [map app] in H;
    destruct (at_step _ _ _ _ H) as (H1 & H2 & H3); cbn [parse_flags]; rewrite H1; cbn [bind].
  - unfold flag_char in Hx. rewrite Hx. cbn [bind]. repeat (apply orb_false_iff in Hx; destruct Hx as [Hx ?]). repeat match goal with K : (x =? _) = false |- _ => rewrite K; clear K end.
    cbn [orb plus_sign has_flag cv_flags existsb]. rewrite !orb_false_r, shift_0. reflexivity.
  - assert (forall mi' ze' s', parse_flags cf fuel m (shift p 1) mi' ze' s' =
      Ok (mi' || has_flag FMinus (Conv fl WNone PNone Lint), ze' || has_flag FZero (Conv fl WNone PNone Lint),
      match plus_sign fl with [] => s' | y :: _ => y end, shift p (Zlen (f :: fl)))) as K.
    { intros. rewrite (IH fuel m (shift p 1) x l) by (auto; cbn [length] in Hf; lia). rewrite shift_shift, Zlen_cons, (Z.add_comm 1). reflexivity. }
    clear IH. destruct f; cbn [flg_char Z.eqb Pos.eqb orb]; rewrite H2; cbn [bind]; rewrite K;
      unfold has_flag; cbn [cv_flags existsb orb plus_sign];
      rewrite ?orb_true_r, ?orb_true_l; cbn [orb]; destruct (plus_sign fl); rewrite ?orb_true_r; reflexivity.
Qed.

Definition accum (v : Z) (ds : list Z) : Z := fold_left (fun acc x => acc * 10 + dval x) ds v.
Lemma dig10 : forall x, isdig 10 x = true -> 48 <= x <= 57 /\ dval x = x - 48.
Proof.
  intros x H. unfold isdig, dval in *. apply andb_true_iff in H as [H H2]. apply Z.ltb_lt in H2.
  repeat (apply orb_true_iff in H; destruct H as [H|H]); apply andb_true_iff in H as [Ha Hb]; apply Z.leb_le in Ha, Hb;
    destruct (x <=? 57) eqn:E1; try apply Z.leb_le in E1; try apply Z.leb_gt in E1; try lia;
    destruct (x <=? 70) eqn:E2; try apply Z.leb_le in E2; try apply Z.leb_gt in E2; lia.
Qed.
Lemma accum_ge : forall ds v, 0 <= v -> Forall (fun x => isdig 10 x = true) ds -> v <= accum v ds.
Proof.
  induction ds as [|x ds IH]; intros v Hv F; cbn; [lia|]. inversion F as [|? ? Hx F']; subst. destruct (dig10 x Hx).
  specialize (IH (v * 10 + dval x)). unfold accum in *. assert (0 <= v * 10 + dval x) as K by lia. specialize (IH K F'). lia.
Qed.

Lemma atoi_ok : forall ds fuel m p v x l, bytes_at m p (ds ++ x :: l) -> prnf_is_digit x = false -> 0 <= v ->
  Forall (fun x => isdig 10 x = true) ds -> accum v ds <= INT_MAX -> (length ds < fuel)%nat ->
  prnf_atoi cf fuel m p v = Ok (accum v ds, shift p (Zlen ds)).
Proof.
  induction ds as [|d ds IH]; intros fuel m p v x l H Hx Hv F Hm Hf; (destruct fuel as [|fuel]; [lia|]); cbn [app] in H;
    destruct (at_step _ _ _ _ H) as (H1 & H2 & H3); cbn [prnf_atoi]; rewrite H1; cbn [bind].
  - rewrite Hx. rewrite shift_0. reflexivity.
  - inversion F as [|? ? Hd F']; subst. destruct (dig10 d Hd) as [R D].
    unfold prnf_is_digit. rewrite (proj2 (Z.leb_le 48 d)), (proj2 (Z.leb_le d 57)) by lia. cbn [andb].
    assert (Z.land d 15 = dval d) as ->.
    { rewrite D. change 15 with (Z.ones 4). rewrite Z.land_ones by lia. change (2 ^ 4) with 16.
      replace d with (d - 48 + 3 * 16) at 1 by lia. rewrite Z.mod_add by lia. apply Z.mod_small. lia. }
    assert (v * 10 + dval d <= INT_MAX) as Hb.
    { unfold accum in Hm. cbn [fold_left] in Hm. pose proof (accum_ge ds (v * 10 + dval d)) as G. unfold accum in G. assert (0 <= v * 10 + dval d) as K by lia. specialize (G K F'). lia. }
    rewrite int_res_ok by (unfold INT_MIN; lia). cbn [bind]. rewrite iadd_ok by (unfold INT_MIN; lia). cbn [bind]. rewrite H2. cbn [bind].
    rewrite (IH fuel m (shift p 1) (v * 10 + dval d) x l) by (first [exact H3|exact Hx|exact F'|exact Hm|lia|cbn [length] in Hf; lia]).
    rewrite shift_shift, Zlen_cons. unfold accum. cbn [fold_left]. now rewrite (Z.add_comm 1).
Qed.

Lemma show_small : forall n, 0 <= n <= INT_MAX -> Forall (fun x => isdig 10 x = true) (show 10 n) /\ accum 0 (show 10 n) = n /\ show 10 n <> [].
Proof. intros n H. destruct (show10_facts n) as (H1 & H2 & H3 & _); [unfold two64', INT_MAX in *; lia|]. auto. Qed.

Lemma atoi_show : forall n fuel m p x l, bytes_at m p (show 10 n ++ x :: l) -> prnf_is_digit x = false ->
  0 <= n <= INT_MAX -> (length (show 10 n) < fuel)%nat ->
  prnf_atoi cf fuel m p 0 = Ok (n, shift p (Zlen (show 10 n))).
Proof.
  intros n fuel m p x l H Hx Hn Hf. destruct (show_small n Hn) as (S1 & S2 & _).
  rewrite (atoi_ok (show 10 n) fuel m p 0 x l) by (auto; lia). now rewrite S2.
Qed.

(** Numbers with leading zeros. *)
Lemma num_small : forall z n, 0 <= n <= INT_MAX -> Forall (fun x => isdig 10 x = true) (num_text z n) /\ accum 0 (num_text z n) = n /\ num_text z n <> [].
Proof.
  intros z n H. destruct (show_small n H) as (S1 & S2 & S3). unfold num_text. split; [|split].
  - apply Forall_app. split; auto. apply Forall_forall. intros x Hx. apply repeat_spec in Hx as ->. reflexivity.
  - induction z as [|z IH]; [exact S2|]. unfold accum in *. cbn [repeat app fold_left]. exact IH.
  - destruct z; [exact S3|discriminate].
Qed.
Lemma atoi_num : forall z n fuel m p x l, bytes_at m p (num_text z n ++ x :: l) -> prnf_is_digit x = false ->
  0 <= n <= INT_MAX -> (length (num_text z n) < fuel)%nat ->
  prnf_atoi cf fuel m p 0 = Ok (n, shift p (Zlen (num_text z n))).
Proof.
  intros z n fuel m p x l H Hx Hn Hf. destruct (num_small z n Hn) as (S1 & S2 & _).
  rewrite (atoi_ok (num_text z n) fuel m p 0 x l) by (auto; lia). now rewrite S2.
Qed.

Definition type_char (t : Z) : Prop := In t [100; 105; 117; 120; 88; 111; 99; 115; 83; 102; 70; 101; 69].

(** Ends a placeholder. *)
Lemma type_past : forall c t, type_char t -> longer c t = false.
Proof.
  intros c t H. unfold type_char in H. cbn [In] in H. unfold longer, longer_prec, longer_width.
  repeat destruct H as [<-|H]; try contradiction; destruct (cv_len c); auto; destruct (cv_prec c); auto; destruct (cv_width c); reflexivity.
Qed.
Lemma nul_past : forall c, longer c 0 = false.
Proof. intros c. unfold longer, longer_prec, longer_width. destruct (cv_len c); auto; destruct (cv_prec c); auto; destruct (cv_width c); reflexivity. Qed.
Lemma other_type : forall t, meaningless t -> type_of t = TYPE_NONE.
Proof.
  intros t (H & N). cbn [In] in N. assert (forall x, x <> t -> (t =? x) = false) as E by (intros; apply Z.eqb_neq; auto).
  unfold type_of. rewrite !E by (intros <-; tauto). reflexivity.
Qed.

Lemma parse_size_ok : forall c m p t r, bytes_at m p (len_text (cv_len c) ++ t :: r) -> longer c t = false ->
  parse_size cf m p = Ok (len_bytes cf (cv_len c), shift p (Zlen (len_text (cv_len c)))).
Proof.
  intros c m p t r H Ht. unfold parse_size, longer in *.
  destruct (cv_len c); cbn [len_text app] in H; destruct (at_step _ _ _ _ H) as (H1 & H2 & H3); rewrite H1; cbn [bind].
  - repeat (apply orb_false_iff in Ht; destruct Ht as [Ht ?]). rewrite Ht. repeat match goal with K : (t =? _) = false |- _ => rewrite K; clear K end.
    cbn [orb len_text]. rewrite Zlen_nil, shift_0. reflexivity.
  - cbn [Z.eqb Pos.eqb]. rewrite H2. cbn [bind]. destruct (at_step _ _ _ _ H3) as (K1 & K2 & _). rewrite K1. cbn [bind Z.eqb Pos.eqb]. rewrite K2. cbn [bind]. rewrite shift_shift. reflexivity.
  - cbn [Z.eqb Pos.eqb]. rewrite H2. cbn [bind]. destruct (at_step _ _ _ _ H3) as (K1 & K2 & _). rewrite K1. cbn [bind]. rewrite Ht. reflexivity.
  - cbn [Z.eqb Pos.eqb]. rewrite H2. cbn [bind]. destruct (at_step _ _ _ _ H3) as (K1 & K2 & _). rewrite K1. cbn [bind]. rewrite Ht. reflexivity.
  - cbn [Z.eqb Pos.eqb]. rewrite H2. cbn [bind]. destruct (at_step _ _ _ _ H3) as (K1 & K2 & _). rewrite K1. cbn [bind Z.eqb Pos.eqb]. rewrite K2. cbn [bind]. rewrite shift_shift. reflexivity.
  - cbn [Z.eqb Pos.eqb orb]. rewrite H2. reflexivity.
  - cbn [Z.eqb Pos.eqb orb]. rewrite H2. reflexivity.
Qed.

(** First character of a list that is not empty. *)
Lemma head_cons : forall (l : list Z) x r, exists y s, l ++ x :: r = y :: s /\ (l = [] /\ y = x \/ exists t, l = y :: t).
Proof. intros [|y l] x r; [exists x, r|exists y, (l ++ x :: r)]; split; auto. right. eauto. Qed.

Lemma type_char_range : forall t, type_char t -> 69 <= t <= 120.
Proof. intros t H. unfold type_char in H. cbn [In] in H. repeat destruct H as [<-|H]; try contradiction; lia. Qed.

(** What follows the flags, the width and the precision. *)
Lemma after_prec : forall c t r, longer c t = false -> exists y s, len_text (cv_len c) ++ t :: r = y :: s /\ longer_prec c y = false.
Proof.
  intros c t r H. unfold longer in H. destruct (cv_len c); cbn [len_text app]; eexists; eexists; (split; [reflexivity|]);
    try (apply orb_false_iff in H as [_ H]; exact H); unfold longer_prec, longer_width; destruct (cv_prec c); auto; destruct (cv_width c); reflexivity.
Qed.
Lemma after_width : forall c t r, longer c t = false ->
  exists y s, prc_text (cv_prec c) ++ len_text (cv_len c) ++ t :: r = y :: s /\ longer_width c y = false.
Proof.
  intros c t r Ht. destruct (after_prec c t r Ht) as (y & s & -> & R). unfold longer_prec in R. destruct (cv_prec c); cbn [prc_text app]; eexists; eexists; (split; [reflexivity|]);
    try (apply orb_false_iff in R as [_ R]; exact R); unfold longer_width; destruct (cv_width c); reflexivity.
Qed.
Lemma show_head : forall n, 0 < n <= INT_MAX -> exists y s, show 10 n = y :: s /\ 49 <= y <= 57.
Proof.
  intros n Hn. destruct (show10_facts n) as (F & _ & N & _); [unfold two64', INT_MAX in *; lia|].
  destruct (show_ok 10 (or_intror (or_introl eq_refl)) 64 n) as (_ & _ & _ & S4 & _); [|lia|].
  { split; [lia|]. apply Z.le_lt_trans with INT_MAX; [lia|reflexivity]. }
  fold (show 10 n) in *. destruct (show 10 n) as [|y s]; [congruence|]. exists y, s. split; auto. inversion F as [|? ? Hy _]; subst.
  destruct (dig10 y Hy) as [R _]. specialize (S4 ltac:(lia)). cbn in S4. destruct (Z.eq_dec y 48) as [->|]; [discriminate|lia].
Qed.
Lemma after_flags : forall c t r, conv_ok c -> longer c t = false ->
  exists y s, wid_text (cv_width c) ++ prc_text (cv_prec c) ++ len_text (cv_len c) ++ t :: r = y :: s /\
    (match cv_width c with WNone => longer_width c y = false | WNum _ => 49 <= y <= 57 | WStar _ => y = 42 end).
Proof.
  intros c t r (Hw & Hp) Ht. destruct (after_width c t r Ht) as (y & s & E & R). rewrite E. destruct (cv_width c) as [|n|n] eqn:Ew; cbn [wid_text app].
  - exists y, s. split; auto.
  - destruct (show_head n Hw) as (y' & s' & -> & R'). cbn [app]. eauto.
  - eauto.
Qed.
(** The character behind the percent sign is no other one. *)
Lemma first_char : forall c t r, conv_ok c -> longer c t = false ->
  exists y s, map flg_char (cv_flags c) ++ wid_text (cv_width c) ++ prc_text (cv_prec c) ++ len_text (cv_len c) ++ t :: r = y :: s /\ y <> 37.
Proof.
  intros c t r Hc Ht. destruct (after_flags c t r Hc Ht) as (y & s & -> & R). destruct (cv_flags c) as [|f fl] eqn:Ef; cbn [map app].
  - exists y, s. split; auto. unfold longer_width in R. rewrite Ef in R. destruct (cv_width c); [|lia|lia]. apply orb_false_iff in R as [_ R]. rewrite andb_true_r in R. now apply Z.eqb_neq.
  - eexists; eexists; split; [reflexivity|]. destruct f; cbn; lia.
Qed.

Lemma parse_placeholder_ok : forall c t r fuel m p, conv_ok c -> longer c t = false ->
  bytes_at m p (map flg_char (cv_flags c) ++ wid_text (cv_width c) ++ prc_text (cv_prec c) ++ len_text (cv_len c) ++ t :: r) ->
  (length (map flg_char (cv_flags c) ++ wid_text (cv_width c) ++ prc_text (cv_prec c) ++ len_text (cv_len c)) < fuel)%nat ->
  parse_placeholder cf fuel m p = Ok (ph_raw cf c (type_of t), shift p (Zlen (conv_text c t) - 1)).
Proof.
  intros c t r fuel m p Hc Ht H Hf. unfold parse_placeholder.
  rewrite !app_length, map_length in Hf.
  destruct (after_flags c t r Hc Ht) as (y0 & s0 & E0 & R0). destruct Hc as (Hw & Hp).
  rewrite (parse_flags_ok (cv_flags c) fuel m p y0 s0).
  2:{ rewrite <- E0. exact H. }
  2:{ unfold longer_width in R0. destruct (cv_width c); [repeat (apply orb_false_iff in R0; destruct R0 as [R0 ?]); auto|unfold flag_char; rewrite !orb_false_iff; repeat split; apply Z.eqb_neq; lia|now subst y0]. }
  2:{ lia. }
  cbn [bind orb].
  assert (Zlen (map flg_char (cv_flags c)) = Zlen (cv_flags c)) as Lf by apply Zlen_map.
  apply bytes_at_app in H as [_ H]. rewrite Lf in H. set (p1 := shift p (Zlen (cv_flags c))) in *.
  assert (load_byte m p1 = Ok y0) as L0. { rewrite E0 in H. now apply bytes_at_cons in H. }
  rewrite L0. cbn [bind].
  destruct (after_width c t r Ht) as (y1 & s1 & E1 & R1).
  match goal with |- bind ?X _ = _ => assert (X = Ok (match cv_width c with WStar _ => true | _ => false end, match cv_width c with WNum n => n | _ => 0 end,
     shift p1 (Zlen (wid_text (cv_width c))))) as -> end.
  { unfold longer_width in R1. destruct (cv_width c) as [|n|n] eqn:Ew; cbn [wid_text] in *.
    - assert ((y0 =? 42) = false) as -> by (unfold longer_width in R0; rewrite Ew in R0; repeat (apply orb_false_iff in R0; destruct R0 as [R0 ?]); auto).
      rewrite (atoi_ok [] fuel m p1 0 y1 s1); auto; try lia; try (cbn; unfold INT_MAX; lia).
      + rewrite E1 in H. exact H.
      + repeat (apply orb_false_iff in R1; destruct R1 as [R1 ?]); auto.
    - rewrite (proj2 (Z.eqb_neq y0 42)) by lia.
      rewrite (atoi_show n fuel m p1 y1 s1); auto; try lia.
      + rewrite E1 in H. exact H.
    - rewrite (proj2 (Z.eqb_eq y0 42)) by lia. destruct (at_step m p1 _ _ H) as (_ & -> & _). reflexivity. }
  cbn [bind]. apply bytes_at_app in H as [_ H]. set (p2 := shift p1 (Zlen (wid_text (cv_width c)))) in *.
  assert (load_byte m p2 = Ok y1) as L1. { rewrite E1 in H. now apply bytes_at_cons in H. }
  rewrite L1. cbn [bind]. destruct (after_prec c t r Ht) as (y2 & s2 & E2 & R2).
  match goal with |- bind ?X _ = _ => assert (X = Ok (match prec_of c with Some _ => true | None => false end,
     match cv_prec c with PStar _ => true | _ => false end, match cv_prec c with PNumZ _ n => n | _ => 0 end,
     shift p2 (Zlen (prc_text (cv_prec c))))) as -> end.
  { unfold prec_of. unfold longer_prec in R2. destruct (cv_prec c) as [| |z n|n] eqn:Ec; cbn [prc_text] in *.
    - assert ((y1 =? 46) = false) as ->. { rewrite E2 in E1. cbn [app] in E1. injection E1 as <- <-. now apply orb_false_iff in R2 as [R2 _]. }
      change (Zlen (@nil Z)) with 0. rewrite shift_0. reflexivity.
    - assert (y1 = 46) as -> by (rewrite E2 in E1; cbn [app] in E1; now injection E1 as <- <-).
      cbn [Z.eqb Pos.eqb]. rewrite E2 in H. cbn [app] in H. destruct (at_step m p2 _ _ H) as (_ & -> & H'). cbn [bind].
      destruct (at_step m _ _ _ H') as (-> & _ & _). cbn [bind]. apply orb_false_iff in R2 as [D2 R2]. rewrite R2.
      rewrite (atoi_ok [] fuel m (shift p2 1) 0 y2 s2); auto; try lia; try (cbn; unfold INT_MAX; lia).
      cbn [bind]. change (Zlen (@nil Z)) with 0. rewrite shift_0. reflexivity.
    - assert (y1 = 46) as -> by (cbn [app] in E1; now injection E1 as <- <-).
      cbn [Z.eqb Pos.eqb]. cbn [app] in H. destruct (at_step m p2 _ _ H) as (_ & -> & H'). cbn [bind].
      destruct (num_small z n Hp) as (S1 & _ & S3). rewrite E2 in H'.
      assert (exists y s, load_byte m (shift p2 1) = Ok y /\ num_text z n = y :: s /\ 48 <= y <= 57) as (y & s & -> & Es & Ry).
      { destruct (num_text z n) as [|y s] eqn:Es; [congruence|]. exists y, s. cbn [app] in H'. destruct (at_step m _ _ _ H') as (-> & _ & _). split; auto. split; auto.
        inversion S1; subst. now apply dig10. }
      cbn [bind]. rewrite (proj2 (Z.eqb_neq y 42)) by lia.
      rewrite (atoi_num z n fuel m (shift p2 1) y2 s2); auto; [|cbn [length] in Hf; lia].
      cbn [bind]. rewrite shift_shift, Zlen_cons, (Z.add_comm 1). reflexivity.
    - assert (y1 = 46) as -> by (cbn [app] in E1; now injection E1 as <- <-).
      cbn [Z.eqb Pos.eqb]. cbn [app] in H. destruct (at_step m p2 _ _ H) as (_ & -> & H'). cbn [bind].
      destruct (at_step m _ _ _ H') as (-> & -> & _). cbn [bind Z.eqb Pos.eqb]. rewrite shift_shift. reflexivity. }
  cbn [bind]. apply bytes_at_app in H as [_ H]. set (p3 := shift p2 (Zlen (prc_text (cv_prec c)))) in *.
  rewrite (parse_size_ok c m p3 t r H Ht). cbn [bind]. apply bytes_at_app in H as [_ H].
  destruct (at_step m _ _ _ H) as (-> & -> & _). cbn [bind]. unfold p3, p2, p1. rewrite !shift_shift.
  unfold ph_raw, conv_text. rewrite Zlen_cons, !Zlen_app, Lf, Zlen_cons. change (Zlen (@nil Z)) with 0.
  match goal with |- Ok (_, shift p ?a) = Ok (_, shift p ?b) => replace b with a by lia end.
  replace (match plus_sign (cv_flags c) with [] => 0 | y :: _ => y end) with (hd 0 (plus_sign (cv_flags c))) by (destruct (plus_sign (cv_flags c)); reflexivity).
  reflexivity.
Qed.
End R.
