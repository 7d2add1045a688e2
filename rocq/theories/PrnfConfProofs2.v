(** Proofs about the configurations of prnf: what a format string means to a build. *)
From Verif Require Import Base Mem Libc StrviewModel Spec MemLemmas StrviewProofs StrviewProofs3 NumSpec StrnumProofs StrnumProofs2 StrnumProofs3
  PrnfModel PrnfSpec PrnfSpec2 PrnfProofs PrnfProofs2 PrnfProofs3 PrnfProofs4 PrnfProofs5 PrnfConfModel PrnfConfSpec PrnfConfProofs.

Section R.
Variable cf : cfg.
Variable bd : build.

Lemma parse_size_b_ok : forall c m p t r, b_ll bd = true \/ is_ll c = false -> bytes_at m p (len_text (cv_len c) ++ t :: r) -> longer c t = false ->
  parse_size_b cf bd m p = Ok (len_bytes cf (cv_len c), shift p (Zlen (len_text (cv_len c)))).
Proof.
  intros c m p t r B H Ht. rewrite <- (parse_size_ok cf c m p t r H Ht). unfold parse_size_b, parse_size. unfold is_ll in B. unfold longer in Ht.
  destruct (b_ll bd); [reflexivity|]. destruct B as [B|B]; [discriminate|].
  destruct (cv_len c); try discriminate; cbn [len_text app] in H; destruct (at_step cf _ _ _ _ H) as (H1 & H2 & H3); rewrite H1; cbn [bind]; auto.
  - repeat (apply orb_false_iff in Ht; destruct Ht as [Ht ?]). rewrite Ht. repeat match goal with K : (t =? _) = false |- _ => rewrite K; clear K end. reflexivity.
  - cbn [Z.eqb Pos.eqb]. rewrite H2. cbn [bind]. destruct (at_step cf _ _ _ _ H3) as (-> & _ & _). cbn [bind]. rewrite Ht. reflexivity.
Qed.
Lemma parse_size_b_ll : forall c m p r, b_ll bd = false -> is_ll c = true -> bytes_at m p (len_text (cv_len c) ++ r) ->
  parse_size_b cf bd m p = Ok (len_bytes cf Ll, shift p 1) /\ bytes_at m (shift p 1) (108 :: r).
Proof.
  intros c m p r B L H. unfold is_ll in L. destruct (cv_len c); try discriminate. cbn [len_text app] in H. destruct (at_step cf _ _ _ _ H) as (H1 & H2 & H3).
  unfold parse_size_b. rewrite H1. cbn [bind Z.eqb Pos.eqb]. rewrite H2, B. cbn [bind]. split; auto.
Qed.
Lemma parse_b_ok : forall c t r fuel m p, b_ll bd = true \/ is_ll c = false -> conv_ok c -> longer c t = false ->
  bytes_at m p (map flg_char (cv_flags c) ++ wid_text (cv_width c) ++ prc_text (cv_prec c) ++ len_text (cv_len c) ++ t :: r) ->
  (length (map flg_char (cv_flags c) ++ wid_text (cv_width c) ++ prc_text (cv_prec c) ++ len_text (cv_len c)) < fuel)%nat ->
  parse_placeholder_b cf bd fuel m p = Ok (ph_raw cf c (type_of_b bd t), shift p (Zlen (conv_text c t) - 1)).
Proof.
  intros c t r fuel m p B Hc Ht H Hf. unfold parse_placeholder_b.
  rewrite !app_length, map_length in Hf.
  destruct (after_flags c t r Hc Ht) as (y0 & s0 & E0 & R0). destruct Hc as (Hw & Hp).
  rewrite (parse_flags_ok cf (cv_flags c) fuel m p y0 s0).
  2:{ rewrite <- E0. exact H. }
  2:{ unfold longer_width in R0. destruct (cv_width c); [repeat (apply orb_false_iff in R0; destruct R0 as [R0 ?]); auto|unfold flag_char; rewrite !orb_false_iff; repeat split; apply Z.eqb_neq; lia|now subst y0]. }
  2:{ lia. }
  cbn [bind orb].
  assert (Zlen (map flg_char (cv_flags c)) = Zlen (cv_flags c)) as Lf by apply Zlen_map.
  apply bytes_at_app in H as [_ H]. rewrite Lf in H. set (p1 := shift p (Zlen (cv_flags c))) in *.
  assert (load_byte m p1 = Ok y0) as L0. { rewrite E0 in H. now apply bytes_at_cons in H. }
  rewrite L0. cbn [bind].
  destruct (after_width c t r Ht) as (y1 & s1 & E1 & R1).
  match goal with |- bind ?X _ = _ => assert (X = Ok (match cv_width c with WStar _ => true | _ => false end, match cv_width c with WNum n => n | _ => 0 end,
     shift p1 (Zlen (wid_text (cv_width c))))) as -> end.
  { unfold longer_width in R1. destruct (cv_width c) as [|n|n] eqn:Ew; cbn [wid_text] in *.
    - assert ((y0 =? 42) = false) as -> by (unfold longer_width in R0; rewrite Ew in R0; repeat (apply orb_false_iff in R0; destruct R0 as [R0 ?]); auto).
      rewrite (atoi_ok cf [] fuel m p1 0 y1 s1); auto; try lia; try (cbn; unfold INT_MAX; lia).
      + rewrite E1 in H. exact H.
      + repeat (apply orb_false_iff in R1; destruct R1 as [R1 ?]); auto.
    - rewrite (proj2 (Z.eqb_neq y0 42)) by lia.
      rewrite (atoi_show cf n fuel m p1 y1 s1); auto; try lia.
      + rewrite E1 in H. exact H.
    - rewrite (proj2 (Z.eqb_eq y0 42)) by lia. destruct (at_step cf m p1 _ _ H) as (_ & -> & _). reflexivity. }
  cbn [bind]. apply bytes_at_app in H as [_ H]. set (p2 := shift p1 (Zlen (wid_text (cv_width c)))) in *.
  assert (load_byte m p2 = Ok y1) as L1. { rewrite E1 in H. now apply bytes_at_cons in H. }
  rewrite L1. cbn [bind]. destruct (after_prec c t r Ht) as (y2 & s2 & E2 & R2).
  match goal with |- bind ?X _ = _ => assert (X = Ok (match prec_of c with Some _ => true | None => false end,
     match cv_prec c with PStar _ => true | _ => false end, match cv_prec c with PNumZ _ n => n | _ => 0 end,
     shift p2 (Zlen (prc_text (cv_prec c))))) as -> end.
  { unfold prec_of. unfold longer_prec in R2. destruct (cv_prec c) as [| |z n|n] eqn:Ec; cbn [prc_text] in *.
    - assert ((y1 =? 46) = false) as ->. { rewrite E2 in E1. cbn [app] in E1. injection E1 as <- <-. now apply orb_false_iff in R2 as [R2 _]. }
      change (Zlen (@nil Z)) with 0. rewrite shift_0. reflexivity.
    - assert (y1 = 46) as -> by (rewrite E2 in E1; cbn [app] in E1; now injection E1 as <- <-).
      cbn [Z.eqb Pos.eqb]. rewrite E2 in H. cbn [app] in H. destruct (at_step cf m p2 _ _ H) as (_ & -> & H'). cbn [bind].
      destruct (at_step cf m _ _ _ H') as (-> & _ & _). cbn [bind]. apply orb_false_iff in R2 as [D2 R2]. rewrite R2.
      rewrite (atoi_ok cf [] fuel m (shift p2 1) 0 y2 s2); auto; try lia; try (cbn; unfold INT_MAX; lia).
      cbn [bind]. change (Zlen (@nil Z)) with 0. rewrite shift_0. reflexivity.
    - assert (y1 = 46) as -> by (cbn [app] in E1; now injection E1 as <- <-).
      cbn [Z.eqb Pos.eqb]. cbn [app] in H. destruct (at_step cf m p2 _ _ H) as (_ & -> & H'). cbn [bind].
      destruct (num_small z n Hp) as (S1 & _ & S3). rewrite E2 in H'.
      assert (exists y s, load_byte m (shift p2 1) = Ok y /\ num_text z n = y :: s /\ 48 <= y <= 57) as (y & s & -> & Es & Ry).
      { destruct (num_text z n) as [|y s] eqn:Es; [congruence|]. exists y, s. cbn [app] in H'. destruct (at_step cf m _ _ _ H') as (-> & _ & _). split; auto. split; auto.
        inversion S1; subst. now apply dig10. }
      cbn [bind]. rewrite (proj2 (Z.eqb_neq y 42)) by lia.
      rewrite (atoi_num cf z n fuel m (shift p2 1) y2 s2); auto; [|cbn [length] in Hf; lia].
      cbn [bind]. rewrite shift_shift, Zlen_cons, (Z.add_comm 1). reflexivity.
    - assert (y1 = 46) as -> by (cbn [app] in E1; now injection E1 as <- <-).
      cbn [Z.eqb Pos.eqb]. cbn [app] in H. destruct (at_step cf m p2 _ _ H) as (_ & -> & H'). cbn [bind].
      destruct (at_step cf m _ _ _ H') as (-> & -> & _). cbn [bind Z.eqb Pos.eqb]. rewrite shift_shift. reflexivity. }
  cbn [bind]. apply bytes_at_app in H as [_ H]. set (p3 := shift p2 (Zlen (prc_text (cv_prec c)))) in *.
  rewrite (parse_size_b_ok c m p3 t r B H Ht). cbn [bind]. apply bytes_at_app in H as [_ H].
  destruct (at_step cf m _ _ _ H) as (-> & -> & _). cbn [bind]. unfold p3, p2, p1. rewrite !shift_shift.
  unfold ph_raw, conv_text. rewrite Zlen_cons, !Zlen_app, Lf, Zlen_cons. change (Zlen (@nil Z)) with 0.
  match goal with |- Ok (_, shift p ?a) = Ok (_, shift p ?b) => replace b with a by lia end.
  replace (match plus_sign (cv_flags c) with [] => 0 | y :: _ => y end) with (hd 0 (plus_sign (cv_flags c))) by (destruct (plus_sign (cv_flags c)); reflexivity).
  reflexivity.
Qed.
Lemma parse_b_ll : forall c t r fuel m p, b_ll bd = false -> is_ll c = true -> conv_ok c -> longer c t = false ->
  bytes_at m p (map flg_char (cv_flags c) ++ wid_text (cv_width c) ++ prc_text (cv_prec c) ++ len_text (cv_len c) ++ t :: r) ->
  (length (map flg_char (cv_flags c) ++ wid_text (cv_width c) ++ prc_text (cv_prec c) ++ len_text (cv_len c)) < fuel)%nat ->
  parse_placeholder_b cf bd fuel m p = Ok (ph_raw cf (one_l c) TYPE_NONE, shift p (Zlen (conv_text c t) - 2)).
Proof.
  intros c t r fuel m p B Ll Hc Ht H Hf. unfold parse_placeholder_b.
  rewrite !app_length, map_length in Hf.
  destruct (after_flags c t r Hc Ht) as (y0 & s0 & E0 & R0). destruct Hc as (Hw & Hp).
  rewrite (parse_flags_ok cf (cv_flags c) fuel m p y0 s0).
  2:{ rewrite <- E0. exact H. }
  2:{ unfold longer_width in R0. destruct (cv_width c); [repeat (apply orb_false_iff in R0; destruct R0 as [R0 ?]); auto|unfold flag_char; rewrite !orb_false_iff; repeat split; apply Z.eqb_neq; lia|now subst y0]. }
  2:{ lia. }
  cbn [bind orb].
  assert (Zlen (map flg_char (cv_flags c)) = Zlen (cv_flags c)) as Lf by apply Zlen_map.
  apply bytes_at_app in H as [_ H]. rewrite Lf in H. set (p1 := shift p (Zlen (cv_flags c))) in *.
  assert (load_byte m p1 = Ok y0) as L0. { rewrite E0 in H. now apply bytes_at_cons in H. }
  rewrite L0. cbn [bind].
  destruct (after_width c t r Ht) as (y1 & s1 & E1 & R1).
  match goal with |- bind ?X _ = _ => assert (X = Ok (match cv_width c with WStar _ => true | _ => false end, match cv_width c with WNum n => n | _ => 0 end,
     shift p1 (Zlen (wid_text (cv_width c))))) as -> end.
  { unfold longer_width in R1. destruct (cv_width c) as [|n|n] eqn:Ew; cbn [wid_text] in *.
    - assert ((y0 =? 42) = false) as -> by (unfold longer_width in R0; rewrite Ew in R0; repeat (apply orb_false_iff in R0; destruct R0 as [R0 ?]); auto).
      rewrite (atoi_ok cf [] fuel m p1 0 y1 s1); auto; try lia; try (cbn; unfold INT_MAX; lia).
      + rewrite E1 in H. exact H.
      + repeat (apply orb_false_iff in R1; destruct R1 as [R1 ?]); auto.
    - rewrite (proj2 (Z.eqb_neq y0 42)) by lia.
      rewrite (atoi_show cf n fuel m p1 y1 s1); auto; try lia.
      + rewrite E1 in H. exact H.
    - rewrite (proj2 (Z.eqb_eq y0 42)) by lia. destruct (at_step cf m p1 _ _ H) as (_ & -> & _). reflexivity. }
  cbn [bind]. apply bytes_at_app in H as [_ H]. set (p2 := shift p1 (Zlen (wid_text (cv_width c)))) in *.
  assert (load_byte m p2 = Ok y1) as L1. { rewrite E1 in H. now apply bytes_at_cons in H. }
  rewrite L1. cbn [bind]. destruct (after_prec c t r Ht) as (y2 & s2 & E2 & R2).
  match goal with |- bind ?X _ = _ => assert (X = Ok (match prec_of c with Some _ => true | None => false end,
     match cv_prec c with PStar _ => true | _ => false end, match cv_prec c with PNumZ _ n => n | _ => 0 end,
     shift p2 (Zlen (prc_text (cv_prec c))))) as -> end.
  { unfold prec_of. unfold longer_prec in R2. destruct (cv_prec c) as [| |z n|n] eqn:Ec; cbn [prc_text] in *.
    - assert ((y1 =? 46) = false) as ->. { rewrite E2 in E1. cbn [app] in E1. injection E1 as <- <-. now apply orb_false_iff in R2 as [R2 _]. }
      change (Zlen (@nil Z)) with 0. rewrite shift_0. reflexivity.
    - assert (y1 = 46) as -> by (rewrite E2 in E1; cbn [app] in E1; now injection E1 as <- <-).
      cbn [Z.eqb Pos.eqb]. rewrite E2 in H. cbn [app] in H. destruct (at_step cf m p2 _ _ H) as (_ & -> & H'). cbn [bind].
      destruct (at_step cf m _ _ _ H') as (-> & _ & _). cbn [bind]. apply orb_false_iff in R2 as [D2 R2]. rewrite R2.
      rewrite (atoi_ok cf [] fuel m (shift p2 1) 0 y2 s2); auto; try lia; try (cbn; unfold INT_MAX; lia).
      cbn [bind]. change (Zlen (@nil Z)) with 0. rewrite shift_0. reflexivity.
    - assert (y1 = 46) as -> by (cbn [app] in E1; now injection E1 as <- <-).
      cbn [Z.eqb Pos.eqb]. cbn [app] in H. destruct (at_step cf m p2 _ _ H) as (_ & -> & H'). cbn [bind].
      destruct (num_small z n Hp) as (S1 & _ & S3). rewrite E2 in H'.
      assert (exists y s, load_byte m (shift p2 1) = Ok y /\ num_text z n = y :: s /\ 48 <= y <= 57) as (y & s & -> & Es & Ry).
      { destruct (num_text z n) as [|y s] eqn:Es; [congruence|]. exists y, s. cbn [app] in H'. destruct (at_step cf m _ _ _ H') as (-> & _ & _). split; auto. split; auto.
        inversion S1; subst. now apply dig10. }
      cbn [bind]. rewrite (proj2 (Z.eqb_neq y 42)) by lia.
      rewrite (atoi_num cf z n fuel m (shift p2 1) y2 s2); auto; [|cbn [length] in Hf; lia].
      cbn [bind]. rewrite shift_shift, Zlen_cons, (Z.add_comm 1). reflexivity.
    - assert (y1 = 46) as -> by (cbn [app] in E1; now injection E1 as <- <-).
      cbn [Z.eqb Pos.eqb]. cbn [app] in H. destruct (at_step cf m p2 _ _ H) as (_ & -> & H'). cbn [bind].
      destruct (at_step cf m _ _ _ H') as (-> & -> & _). cbn [bind Z.eqb Pos.eqb]. rewrite shift_shift. reflexivity. }
  cbn [bind]. apply bytes_at_app in H as [_ H]. set (p3 := shift p2 (Zlen (prc_text (cv_prec c)))) in *.
  destruct (parse_size_b_ll c m p3 _ B Ll H) as [-> H4]. cbn [bind]. apply bytes_at_app in H as [_ H].
  destruct (at_step cf m _ _ _ H4) as (-> & -> & _). cbn [bind]. unfold p3, p2, p1. rewrite !shift_shift.
  assert (Zlen (len_text (cv_len c)) = 2) as L2 by (unfold is_ll in Ll; destruct (cv_len c); try discriminate; reflexivity).
  unfold ph_raw, conv_text. rewrite Zlen_cons, !Zlen_app, Lf, Zlen_cons, L2. change (Zlen (@nil Z)) with 0.
  match goal with |- Ok (_, shift p ?a) = Ok (_, shift p ?b) => replace b with a by lia end.
  replace (match plus_sign (cv_flags c) with [] => 0 | y :: _ => y end) with (hd 0 (plus_sign (cv_flags c))) by (destruct (plus_sign (cv_flags c)); reflexivity).
  assert (type_of_b bd 108 = TYPE_NONE) as -> by (unfold type_of_b; cbn [Z.eqb Pos.eqb orb]; rewrite !andb_false_r; reflexivity).
  reflexivity.
Qed.
End R.

Lemma printed_app : forall {D} cf (flt : bool -> conv -> D -> list Z) a b col,
  printed cf flt col (a ++ b) = printed cf flt col a ++ printed cf flt (after cf col (printed cf flt col a)) b.
Proof.
  intros D cf flt. induction a as [|i a IH]; intros b col; cbn [app printed]; [reflexivity|]. rewrite IH, after_app, app_assoc. reflexivity.
Qed.
Lemma read_bytes : forall cf A bd (flt : bool -> conv -> dbl A -> list Z) (flt_ok : bool -> conv -> dbl A -> Prop), (forall b c d, conv_ok c -> flt_ok b c d -> Forall is_byte (flt b c d)) ->
  forall m col (i : item (dbl A)), item_ok cf (fun e c d => b_float bd = true -> flt_ok e c d) i -> item_mem m i -> Forall is_byte (printed cf flt col (read_by bd i)).
Proof.
  intros cf A bd flt flt_ok Hb m col i Hi Hm. unfold read_by. destruct (holder i) as [[c t]|] eqn:Eh.
  - destruct (_ && _).
    + cbn [printed item_out app]. repeat constructor; destruct i; cbn [holder] in Eh; try discriminate; injection Eh as <- <-; try destruct b; unfold is_byte; try lia; cbn [item_ok] in Hi; destruct Hi as (_ & (Hi & _) & _); lia.
    + destruct (negb (b_float bd) && is_float i) eqn:B; [constructor|]. cbn [printed]. rewrite app_nil_r.
      apply (item_bytes cf A flt flt_ok Hb m); auto. destruct i; cbn [item_ok is_float] in *; auto; destruct (b_float bd); try discriminate; tauto.
  - assert (Forall is_byte (printed cf flt col [i])) as K.
    { cbn [printed]. rewrite app_nil_r. apply (item_bytes cf A flt flt_ok Hb m); auto. destruct i; cbn [item_ok holder] in *; auto; discriminate. }
    assert (Forall is_byte (printed cf flt col [Text (item_text i)])) as K2.
    { cbn [printed item_out]. rewrite app_nil_r. assert (is_byte 11) as B11 by (unfold is_byte; lia). destruct i; cbn [holder item_text item_ok printed item_out] in *; try discriminate; auto.
      - rewrite app_nil_r in K. exact K.
      - constructor; auto. apply Forall_app. split; [apply num_bytes; lia|]. repeat constructor; unfold is_byte; lia.
      - constructor; auto. now apply num_bytes. }
    destruct i; cbn [holder] in Eh; try discriminate; auto; destruct (b_col bd); auto.
Qed.

Section Core.
Variable cf : cfg.
Variable A : fops.
Variable W : Type.
Variable rd : W -> mem.
Variable wr : W -> mem -> W.
Variable bd : build.
Notation D := (dbl A).
Notation out := (out W).
Notation out_char := (out_char cf W rd wr).
Notation out_chars := (out_chars cf W rd wr).
Notation print_placeholder := (print_placeholder cf A W rd wr).
Notation core_loop := (core_loop_b cf A W rd wr bd).
Notation memof o := (rd (o_st W o)).

Variable flt : bool -> conv -> D -> list Z.
Variable flt_ok : bool -> conv -> D -> Prop.
Hypothesis flt_bytes : forall b c d, conv_ok c -> flt_ok b c d -> Forall is_byte (flt b c d).
Hypothesis flt_f : forall o c d, conv_ok c -> flt_ok false c d -> Zlen (flt false c d) < INT_MAX ->
  print_placeholder o (VFlt A (f_of_dbl A d)) (ph_of cf c TYPE_FLOAT) = out_chars o (flt false c d).
Hypothesis flt_e : forall o c d, conv_ok c -> flt_ok true c d -> Zlen (flt true c d) < INT_MAX ->
  print_placeholder o (VFlt A (f_of_dbl A d)) (ph_of cf c TYPE_ENG) = out_chars o (flt true c d).
(** Floating point arguments that are not printed may be anything. *)
Definition flt_need (e : bool) (c : conv) (d : D) : Prop := b_float bd = true -> flt_ok e c d.

Variable I : out -> Prop.
Variable M : Z.
Hypothesis M_max : M < INT_MAX.
Hypothesis I_step : forall o c o', I o -> 0 <= o_cnt W o < M -> out_char o c = Ok o' -> I o'.
Hypothesis wf : wf_cfg cf.
Variable fmt : ptr.
Variable full : list Z.
Hypothesis fmt_at : forall o, I o -> bytes_at (memof o) fmt full.
Notation fmt_tail := (fmt_tail cf W rd I fmt full fmt_at).

(** Text, which is what the build prints as it is. *)
Definition verbatim (y : Z) : Prop := 0 < y < 256 /\ y <> 37 /\ (b_col bd = true -> y <> 11).
Lemma text_step : forall limit l pre x rest fuel o va,
  full = pre ++ l ++ x :: rest -> Forall verbatim l -> I o ->
  0 <= o_cnt W o -> o_cnt W o + Zlen l <= M -> (length l < fuel)%nat ->
  core_loop fuel limit o (shift fmt (Zlen pre)) va =
  let! o1 := out_chars o l in core_loop (fuel - length l) limit o1 (shift fmt (Zlen (pre ++ l))) va.
Proof.
  intros limit l pre x rest fuel o va Efull Hi Ho Hr Hc Hf.
      assert (forall b a o1 fuel, l = a ++ b -> out_chars o a = Ok o1 -> (length b <= fuel)%nat ->
        core_loop fuel limit o1 (shift fmt (Zlen (pre ++ a))) va =
        bind (out_chars o1 b) (fun o2 => core_loop (fuel - length b) limit o2 (shift fmt (Zlen (pre ++ l))) va)) as K.
      { induction b as [|y b IHb]; intros a o1 f El E1 Hf1; cbn [PrnfModel.out_chars bind].
        - rewrite app_nil_r in El. subst a. rewrite Nat.sub_0_r. reflexivity.
        - destruct f as [|f]; [cbn in Hf1; lia|]. cbn [core_loop_b].
          assert (Zlen l = Zlen a + Zlen b + 1) as Ls by (rewrite El, Zlen_app, Zlen_cons; lia).
          pose proof (Zlen_nonneg a). pose proof (Zlen_nonneg b).
          destruct (I_chars cf W rd wr I M (Z.lt_le_incl _ _ M_max) I_step a o o1) as [Ho1 Co1]; auto; try lia.
          assert (verbatim y) as (X1 & X2 & X3). { rewrite El in Hi. apply Forall_app in Hi as [_ Hi]. now inversion Hi. }
          destruct (fmt_tail o1 (pre ++ a) y (b ++ x :: rest)) as (L1 & _); auto.
          { rewrite Efull, El, <- !app_assoc. reflexivity. }
          rewrite L1. cbn [bind]. rewrite (proj2 (Z.eqb_neq y 0)), (proj2 (Z.eqb_neq y 37)) by lia.
          assert (b_col bd && (y =? 11) = false) as ->. { destruct (b_col bd); auto. cbn [andb]. apply Z.eqb_neq. auto. }
          rewrite bind_bind. destruct (out_char o1 y) as [o2| |] eqn:E2; cbn [bind]; auto.
          assert (I o2) as Ho2 by (eapply I_step; eauto; lia).
          destruct (fmt_tail o2 (pre ++ a) y (b ++ x :: rest)) as (_ & L2 & _); auto.
          { rewrite Efull, El, <- !app_assoc. reflexivity. }
          rewrite L2. cbn [bind]. rewrite <- app_assoc. cbn [length Nat.sub]. apply IHb.
          + rewrite El, <- app_assoc. reflexivity.
          + rewrite out_chars_app, E1. cbn [bind PrnfModel.out_chars]. now rewrite E2.
          + cbn [length] in Hf1. lia. }
      specialize (K l [] o fuel eq_refl eq_refl ltac:(lia)). rewrite app_nil_r in K. exact K.
Qed.

(** A placeholder. *)
Lemma holder_step : forall limit c t c' ty k pre x rest fuel o va,
  (length full <= limit)%nat -> full = pre ++ conv_text c t ++ x :: rest -> conv_ok c -> longer c t = false -> conv_ok c' -> I o ->
  (forall p, bytes_at (memof o) p (map flg_char (cv_flags c) ++ wid_text (cv_width c) ++ prc_text (cv_prec c) ++ len_text (cv_len c) ++ t :: x :: rest) ->
    (length (map flg_char (cv_flags c) ++ wid_text (cv_width c) ++ prc_text (cv_prec c) ++ len_text (cv_len c)) < limit)%nat ->
    parse_placeholder_b cf bd limit (memof o) p = Ok (ph_raw cf c' ty, shift p k)) ->
  core_loop (S fuel) limit o (shift fmt (Zlen pre)) (conv_args c' ++ va) =
  let! (ph, v, va) := read_value A (ph_of cf c' ty) va in
  let! o1 := print_placeholder o v ph in core_loop fuel limit o1 (shift fmt (Zlen pre + 1 + k)) va.
Proof.
  intros limit c t c' ty k pre x rest fuel o va Hlim Efull Hcv Ht Hcv' Ho Hp. cbn [core_loop_b].
    set (body := map flg_char (cv_flags c) ++ wid_text (cv_width c) ++ prc_text (cv_prec c) ++ len_text (cv_len c)) in *.
    assert (full = pre ++ 37 :: body ++ t :: x :: rest) as E37.
    { rewrite Efull. unfold conv_text, body. cbn [app]. rewrite <- !app_assoc. reflexivity. }
    destruct (fmt_tail o pre 37 (body ++ t :: x :: rest)) as (L1 & L2 & L3); auto.
    rewrite L1. cbn [bind Z.eqb Pos.eqb]. rewrite L2. cbn [bind].
    assert (full = (pre ++ [37]) ++ body ++ t :: x :: rest) as Eb by (rewrite <- app_assoc; exact E37).
    assert (exists y r, body ++ t :: x :: rest = y :: r /\ y <> 37) as (y & r & Ey & Ny).
    { destruct (first_char c t (x :: rest) Hcv Ht) as (y & r & Ey & Ny). exists y, r. split; auto. unfold body. rewrite <- !app_assoc. exact Ey. }
    destruct (fmt_tail o (pre ++ [37]) y r) as (M1 & M2 & M3); auto. { rewrite Eb, Ey. reflexivity. }
    rewrite M1. cbn [bind]. rewrite (proj2 (Z.eqb_neq y 37)) by auto.
    rewrite <- Ey in M3. unfold body in M3. rewrite <- !app_assoc in M3. rewrite (Hp _ M3).
    2:{ rewrite E37 in Hlim. rewrite app_length in Hlim. cbn [length] in Hlim. rewrite app_length in Hlim. lia. }
    cbn [bind]. rewrite read_varg_conv by auto.
    destruct (read_value A (ph_of cf c' ty) va) as [[[ph v] va1]| |]; cbn [bind]; auto.
    destruct (print_placeholder o v ph) as [o1| |]; cbn [bind]; auto.
    rewrite shift_shift, Zlen_app. change (Zlen [37]) with 1. reflexivity.
Qed.

Lemma item_ok_need : forall i, item_ok cf flt_need i -> b_float bd = true \/ is_float i = false -> item_ok cf flt_ok i.
Proof. intros i H B. destruct i; cbn [item_ok is_float] in *; auto; destruct B as [B|B]; try discriminate; destruct H as [H1 H2]; split; auto; now apply H2. Qed.
Lemma read_type : forall i c t a, item_conv cf A i = Some (c, t, a) -> item_ok cf flt_need i -> b_float bd = true \/ is_float i = false -> type_of_b bd t = type_of t.
Proof.
  intros i c t a E H B. apply type_same. intros Bf. destruct B as [B|B]; [congruence|].
  destruct i; cbn [item_conv is_float item_ok] in *; try discriminate; injection E as <- <- <-; try destruct b; cbn [In]; try lia.
  destruct H as (_ & (_ & H) & _). cbn [In] in H. tauto.
Qed.
Lemma holder_conv : forall i c t a, item_conv cf A i = Some (c, t, a) -> holder i = Some (c, t).
Proof. intros i c t a H. destruct i; cbn [item_conv holder] in *; try discriminate; congruence. Qed.
Lemma unknown_type : forall c t va, type_of_b bd t = TYPE_NONE -> forall o,
  (let! (ph, v, va) := read_value A (ph_of cf c (type_of_b bd t)) va in let! o1 := print_placeholder o v ph in Ok (o1, va)) = Ok (o, va).
Proof. intros c t va E o. rewrite E. reflexivity. Qed.
Lemma read_char_ok : forall t, 0 < t < 256 -> t <> 37 -> t <> 11 -> Forall verbatim [t].
Proof. intros t H1 H2 H3. repeat constructor; auto; lia. Qed.

(** One item, then the rest. *)
Lemma item_step_b : forall limit, (length full <= limit)%nat -> forall i pre x rest fuel o va,
  full = pre ++ item_text i ++ x :: rest -> item_ok cf flt_need i -> fit bd i -> next_ok cf A i x -> I o -> item_mem (memof o) i -> (forall o, I o -> item_still A (memof o) i) ->
  0 <= o_col W o <= o_cnt W o -> o_cnt W o + Zlen (printed cf flt (o_col W o) (read_by bd i)) <= M -> (length (item_text i) < fuel)%nat ->
  exists fuel', (fuel <= fuel' + length (item_text i))%nat /\
    core_loop fuel limit o (shift fmt (Zlen pre)) (arguments cf (read_by bd i) ++ va) =
    let! o1 := out_chars o (printed cf flt (o_col W o) (read_by bd i)) in core_loop fuel' limit o1 (shift fmt (Zlen (pre ++ item_text i))) va.
Proof.
  intros limit Hlim i pre x rest fuel o va Efull Hi (Hfit1 & Hfit2) Hx Ho Hmi Hms Hr Hc Hf.
  destruct (item_conv cf A i) as [[[c t] a]|] eqn:Ec.
  + (* conversions *)
    destruct (item_conv_text cf A flt_need _ _ _ _ Ec Hi) as (Et & Ht & Ea). pose proof (item_conv_ok cf A flt_need _ _ _ _ Ec Hi) as Hcv.
    pose proof (holder_conv _ _ _ _ Ec) as Eh. unfold read_by in *. rewrite Eh in *. rewrite Et in *. destruct fuel as [|fuel]; [lia|].
    pose proof (conv_text_len c t) as Lt. destruct (negb (b_ll bd) && is_ll c) eqn:B1.
    { (* ll without long long *)
      apply andb_true_iff in B1 as [B1 B2]. apply negb_true_iff in B1. destruct fuel as [|fuel]; [unfold Zlen in Lt; lia|].
      assert (4 <= length (conv_text c t))%nat as L4.
      { clear - B2 Lt. unfold is_ll in B2. destruct (cv_len c); try discriminate. rewrite !app_assoc, Zlen_app in Lt. change (Zlen (len_text Lll)) with 2 in Lt.
        match type of Lt with _ = Zlen ?a + 2 + 2 => pose proof (Zlen_nonneg a) end. unfold Zlen in *. lia. } exists fuel. split; [unfold Zlen in Lt; lia|].
      assert (0 < t < 256 /\ t <> 37 /\ t <> 11) as (T1 & T2 & T3).
      { destruct i; cbn [item_conv] in Ec; try discriminate; injection Ec as <- <- <-; try destruct b; try lia. destruct (Hfit2 B1 B2) as (? & ? & ?). destruct Hi as (_ & (? & _) & _). lia. }
      unfold arguments. cbn [map concat item_args app]. rewrite !app_nil_r.
      assert (conv_ok (one_l c)) as Hcv' by exact Hcv.
      rewrite (holder_step limit c t (one_l c) TYPE_NONE (Zlen (conv_text c t) - 2) pre x rest (S fuel) o va Hlim Efull Hcv Ht Hcv' Ho).
      2:{ intros p Hb Hl. now apply (parse_b_ll cf bd c t (x :: rest)). }
      change (read_value A (ph_of cf (one_l c) TYPE_NONE) va) with (Ok (ph_of cf (one_l c) TYPE_NONE, VNone A, va)). cbn [bind].
      change (print_placeholder o (VNone A) (ph_of cf (one_l c) TYPE_NONE)) with (Ok o). cbn [bind printed item_out app] in *.
      set (u := removelast (conv_text c t)).
      assert (conv_text c t = u ++ [t]) as Eu.
      { unfold u. change [t] with ([last (37 :: [t]) 0]). assert (last (conv_text c t) 0 = t) as El.
        { unfold conv_text. rewrite !app_assoc. change (37 :: ?l ++ [t]) with ((37 :: l) ++ [t]). rewrite app_comm_cons. apply last_last. }
        cbn [last]. rewrite <- El at 3. apply app_removelast_last. unfold conv_text. discriminate. }
      assert (Zlen (conv_text c t) = Zlen u + 1) as Lu by (rewrite Eu, Zlen_app; reflexivity).
      replace (Zlen pre + 1 + (Zlen (conv_text c t) - 2)) with (Zlen (pre ++ u)) by (rewrite Zlen_app; lia).
      rewrite (text_step limit [t] (pre ++ u) x rest (S fuel) o va); auto; try lia.
      - rewrite Eu, <- app_assoc. cbn [length]. rewrite Nat.sub_succ, Nat.sub_0_r. reflexivity.
      - rewrite Efull, Eu, <- !app_assoc. reflexivity.
      - apply read_char_ok; auto.
      - cbn [length]. lia. }
    assert (b_ll bd = true \/ is_ll c = false) as Bll by (destruct (b_ll bd), (is_ll c); auto; discriminate).
    exists fuel. split; [unfold Zlen in Lt; lia|]. destruct (negb (b_float bd) && is_float i) eqn:B2.
    { (* a float without floating point *)
      apply andb_true_iff in B2 as [B2 B3]. apply negb_true_iff in B2.
      unfold arguments. cbn [map concat item_args]. rewrite !app_nil_r.
      rewrite (holder_step limit c t c (type_of_b bd t) (Zlen (conv_text c t) - 1) pre x rest fuel o va Hlim Efull Hcv Ht Hcv Ho).
      2:{ intros p Hb Hl. now apply (parse_b_ok cf bd c t (x :: rest)). }
      assert (type_of_b bd t = TYPE_NONE) as ->.
      { destruct i; cbn [is_float item_conv] in *; try discriminate; injection Ec as <- <- <-; destruct b; unfold type_of_b; rewrite B2; reflexivity. }
      change (read_value A (ph_of cf c TYPE_NONE) va) with (Ok (ph_of cf c TYPE_NONE, VNone A, va)). cbn [bind].
      change (print_placeholder o (VNone A) (ph_of cf c TYPE_NONE)) with (Ok o). cbn [bind printed item_out app PrnfModel.out_chars] in *.
      rewrite Zlen_app. replace (Zlen pre + 1 + (Zlen (conv_text c t) - 1)) with (Zlen pre + Zlen (conv_text c t)) by lia. reflexivity. }
    assert (b_float bd = true \/ is_float i = false) as Bf by (destruct (b_float bd), (is_float i); auto; discriminate).
    unfold arguments. cbn [map concat printed] in *. rewrite !app_nil_r in *. rewrite Ea, <- app_assoc.
    rewrite (holder_step limit c t c (type_of_b bd t) (Zlen (conv_text c t) - 1) pre x rest fuel o (a ++ va) Hlim Efull Hcv Ht Hcv Ho).
    2:{ intros p Hb Hl. now apply (parse_b_ok cf bd c t (x :: rest)). }
    rewrite (read_type _ _ _ _ Ec Hi Bf).
    destruct (conv_item cf A W rd wr flt flt_ok flt_f flt_e I M M_max I_step wf i c t a va o Ec (item_ok_need i Hi Bf) Ho Hmi Hms) as (v & V1 & V2); [lia|lia|].
    rewrite V1. cbn [bind]. rewrite V2. destruct (out_chars o _) as [o1| |] eqn:E1; cbn [bind]; auto.
    rewrite Zlen_app. replace (Zlen pre + 1 + (Zlen (conv_text c t) - 1)) with (Zlen pre + Zlen (conv_text c t)) by lia. reflexivity.
  + assert (forall l, item_text i = l -> Forall verbatim l -> read_by bd i = [Text l] -> exists fuel', (fuel <= fuel' + length (item_text i))%nat /\
      core_loop fuel limit o (shift fmt (Zlen pre)) (arguments cf (read_by bd i) ++ va) =
      let! o1 := out_chars o (printed cf flt (o_col W o) (read_by bd i)) in core_loop fuel' limit o1 (shift fmt (Zlen (pre ++ item_text i))) va) as Txt.
    { intros l El Hl Er. rewrite Er in *. rewrite El in *. exists (fuel - length l)%nat. split; [lia|].
      unfold arguments. cbn [map concat item_args app printed item_out] in *. rewrite app_nil_r in *. apply (text_step limit l pre x rest); auto; lia. }
    assert (read_by bd i = [i] \/ b_col bd = false) as Br.
    { unfold read_by. destruct i; cbn [item_conv holder] in *; try discriminate; auto; destruct (b_col bd); auto. }
    assert (forall n z, 0 <= n <= INT_MAX -> b_col bd = false -> Forall verbatim (num_text z n)) as Vn.
    { intros n z Hn Bc. destruct (num_small z n Hn) as (F & _). eapply Forall_impl; [|exact F]. intros y Hy. destruct (dig10 y Hy). repeat split; try lia; try congruence. }
    assert (b_col bd = false -> verbatim 11) as V11 by (intros Bc; repeat split; try lia; try congruence).
    destruct i; cbn [item_conv] in Ec; try discriminate; clear Ec.
    * (* text *)
      apply (Txt l eq_refl); auto. cbn [item_ok] in Hi. eapply Forall_impl; [|exact Hi]. cbn. intros y Hy. repeat split; try lia.
    * (* %% *)
      unfold read_by, arguments in *. cbn [holder map concat item_text item_args app item_ok printed item_out next_ok] in *.
      destruct fuel as [|fuel]; [lia|]. exists fuel. split; [cbn [length]; lia|]. cbn [core_loop_b].
      destruct (fmt_tail o pre 37 (37 :: x :: rest)) as (L1 & L2 & _); auto.
      rewrite L1. cbn [bind Z.eqb Pos.eqb]. rewrite L2. cbn [bind].
      destruct (fmt_tail o (pre ++ [37]) 37 (x :: rest)) as (M1 & _); auto. { rewrite Efull, <- !app_assoc. reflexivity. }
      rewrite M1. cbn [bind Z.eqb Pos.eqb]. cbn [PrnfModel.out_chars] in *. rewrite bind_bind.
      destruct (out_char o 37) as [o1| |] eqn:E1; cbn [bind] in *; auto.
      destruct (fmt_tail o1 (pre ++ [37]) 37 (x :: rest)) as (_ & M2 & _). { eapply I_step; eauto. rewrite Zlen_cons in *. change (Zlen (@nil Z)) with 0 in *. lia. } { rewrite Efull, <- !app_assoc. reflexivity. }
      rewrite M2. cbn [bind]. rewrite <- app_assoc. reflexivity.
    * (* \v *)
      destruct (b_col bd) eqn:Bc.
      2:{ apply (Txt [11] eq_refl); auto. unfold read_by. cbn [holder]. rewrite Bc. reflexivity. }
      unfold read_by, arguments in *. cbn [holder] in *. rewrite Bc in *. cbn [map concat item_text item_args app item_ok printed item_out next_ok] in *.
      destruct fuel as [|fuel]; [lia|]. exists fuel. split; [cbn [length]; lia|]. cbn [core_loop_b].
      destruct (fmt_tail o pre 11 (x :: rest)) as (L1 & L2 & _); auto.
      rewrite L1. cbn [bind Z.eqb Pos.eqb]. rewrite Bc. cbn [andb]. rewrite L2. cbn [bind]. unfold print_col_alignment.
      destruct (fmt_tail o (pre ++ [11]) x rest) as (M1 & _ & M3); auto. { rewrite Efull, <- !app_assoc. reflexivity. }
      rewrite M1. cbn [bind]. change (prnf_is_digit x) with (digit x); rewrite Hx.
      rewrite (atoi_ok cf [] limit (memof o) _ 0 x rest); auto; try (cbn; unfold INT_MAX; lia).
      2:{ rewrite Efull in Hlim. rewrite app_length in Hlim. cbn [length app] in *. lia. }
      cbn [bind]. change (Zlen (@nil Z)) with 0. rewrite shift_0, M1. cbn [bind negb]. cbn [PrnfModel.out_chars] in *. rewrite !bind_bind.
      destruct (out_char o 11) as [o1| |] eqn:E1; cbn [bind] in *; auto.
    * (* column *)
      destruct (b_col bd) eqn:Bc.
      2:{ apply (Txt (item_text (@ColumnZ D z n pad)) eq_refl); auto.
          - cbn [item_text item_ok] in *. destruct Hi as (Hn & Hb & Hv & _). pose proof (counts_ge _ _ Hv). constructor; auto. apply Forall_app. split; [auto|]. constructor; [|constructor].
            specialize (Hfit1 eq_refl). repeat split; try lia; try congruence.
          - unfold read_by. cbn [holder]. rewrite Bc. reflexivity. }
      unfold read_by, arguments in *. cbn [holder] in *. rewrite Bc in *. cbn [map concat printed] in *. rewrite !app_nil_r in *. cbn [item_text item_args app item_ok item_out next_ok] in *.
      set (s := copies pad (n - o_col W o)) in *. pose proof (Zlen_nonneg s) as Zs.
      destruct Hi as (Hn & Hb & Hv & Dx). pose proof (counts_ge _ _ Hv) as Hge. destruct fuel as [|fuel]; [lia|]. exists fuel. split; [cbn [length]; lia|]. cbn [core_loop_b].
      destruct (num_small z n Hn) as (S1 & _ & S3).
      assert (full = (pre ++ [11]) ++ num_text z n ++ pad :: x :: rest) as E1.
      { rewrite Efull. cbn [app]. rewrite <- !app_assoc. reflexivity. }
      destruct (fmt_tail o pre 11 (num_text z n ++ pad :: x :: rest)) as (L1 & L2 & _); auto. { rewrite E1, <- !app_assoc. reflexivity. }
      rewrite L1. cbn [bind Z.eqb Pos.eqb]. rewrite Bc. cbn [andb]. rewrite L2. cbn [bind]. unfold print_col_alignment.
      assert (exists y r, num_text z n = y :: r /\ prnf_is_digit y = true) as (y & r & Ey & Dy).
      { destruct (num_text z n) as [|y r]; [congruence|]. exists y, r. split; auto. inversion S1 as [|? ? Hy _]; subst. destruct (dig10 y Hy).
        unfold prnf_is_digit. rewrite (proj2 (Z.leb_le 48 y)), (proj2 (Z.leb_le y 57)) by lia. reflexivity. }
      destruct (fmt_tail o (pre ++ [11]) y (r ++ pad :: x :: rest)) as (M1 & _ & M3); auto. { rewrite E1, Ey. reflexivity. }
      rewrite M1. cbn [bind]. rewrite Dy. cbn [negb].
      assert (length (num_text z n) < limit)%nat as Lf.
      { rewrite E1 in Hlim. rewrite !app_length in Hlim. cbn [length] in Hlim. lia. }
      rewrite (atoi_num cf z n limit (memof o) _ pad (x :: rest)); auto; [|rewrite Ey; exact M3].
      cbn [bind]. rewrite shift_shift, <- Zlen_app.
      destruct (fmt_tail o ((pre ++ [11]) ++ num_text z n) pad (x :: rest)) as (N1 & _); auto. { rewrite E1, <- !app_assoc. reflexivity. }
      rewrite N1. cbn [bind]. rewrite char_counts, Hv by exact Hb. cbn [negb]. rewrite (proj2 (Z.eqb_neq pad 0)) by lia. cbn [negb].
      rewrite (col_loop_eq cf W rd wr (Z.to_nat (n - o_col W o))); auto; try lia.
      2:{ assert (Zlen s = Z.max 0 (n - o_col W o)) as Ls by apply Zlen_copies. lia. }
      change (repeat pad (Z.to_nat (n - o_col W o))) with (copies pad (n - o_col W o)). fold s.
      destruct (out_chars o s) as [o1| |] eqn:Eo; cbn [bind]; auto.
      destruct (fmt_tail o1 ((pre ++ [11]) ++ num_text z n) pad (x :: rest)) as (_ & N2 & _); auto. { eapply (I_chars cf W rd wr I M (Z.lt_le_incl _ _ M_max) I_step s o o1); eauto; lia. } { rewrite E1, <- !app_assoc. reflexivity. }
      rewrite N2. cbn [bind]. rewrite <- !app_assoc. reflexivity.
    * (* column without a character to fill it with *)
      destruct (b_col bd) eqn:Bc.
      2:{ apply (Txt (item_text (@BareZ D z n)) eq_refl); auto.
          - cbn [item_text item_ok] in *. constructor; auto.
          - unfold read_by. cbn [holder]. rewrite Bc. reflexivity. }
      unfold read_by, arguments in *. cbn [holder] in *. rewrite Bc in *. cbn [map concat printed] in *. rewrite !app_nil_r in *. cbn [item_text item_args app item_ok item_out next_ok] in *.
      destruct Hx as [Cx Bx]. destruct fuel as [|fuel]; [lia|]. exists fuel. split; [cbn [length]; lia|]. cbn [core_loop_b].
      destruct (num_small z n Hi) as (S1 & _ & S3).
      assert (full = (pre ++ [11]) ++ num_text z n ++ x :: rest) as E1 by (rewrite Efull, <- !app_assoc; reflexivity).
      destruct (fmt_tail o pre 11 (num_text z n ++ x :: rest)) as (L1 & L2 & _); auto.
      rewrite L1. cbn [bind Z.eqb Pos.eqb]. rewrite Bc. cbn [andb]. rewrite L2. cbn [bind]. unfold print_col_alignment.
      assert (exists y r, num_text z n = y :: r /\ prnf_is_digit y = true) as (y & r & Ey & Dy).
      { destruct (num_text z n) as [|y r]; [congruence|]. exists y, r. split; auto. inversion S1 as [|? ? Hy _]; subst. destruct (dig10 y Hy).
        unfold prnf_is_digit. rewrite (proj2 (Z.leb_le 48 y)), (proj2 (Z.leb_le y 57)) by lia. reflexivity. }
      destruct (fmt_tail o (pre ++ [11]) y (r ++ x :: rest)) as (M1 & _ & M3); auto. { rewrite E1, Ey. reflexivity. }
      rewrite M1. cbn [bind]. rewrite Dy. cbn [negb].
      assert (length (num_text z n) < limit)%nat as Lf.
      { rewrite E1 in Hlim. rewrite !app_length in Hlim. cbn [length] in Hlim. lia. }
      assert (prnf_is_digit x = false) as Dx.
      { unfold prnf_is_digit. destruct (Z.leb_spec 48 x); auto. apply Z.leb_gt. unfold counts in Cx.
        rewrite (proj2 (Z.leb_le 32 x)) in Cx by lia. destruct (Z.ltb_spec x 128); cbn in Cx; [discriminate|lia]. }
      rewrite (atoi_num cf z n limit (memof o) _ x rest); auto; [|rewrite Ey; exact M3].
      cbn [bind]. rewrite shift_shift, <- Zlen_app.
      destruct (fmt_tail o ((pre ++ [11]) ++ num_text z n) x rest) as (N1 & _); auto. { rewrite E1, <- !app_assoc. reflexivity. }
      rewrite N1. cbn [bind]. rewrite char_counts, Cx by exact Bx. cbn [negb Z.eqb]. rewrite <- !app_assoc. reflexivity.
Qed.

(** Several items; [x] is the character after them. *)
Lemma core_items_b : forall limit, (length full <= limit)%nat -> forall items pre x rest fuel o va,
  full = pre ++ format items ++ x :: rest -> items_then cf A flt_need x items -> Forall (fit bd) items -> I o -> (forall o, I o -> Forall (item_mem (memof o)) items) ->
  0 <= o_col W o <= o_cnt W o -> o_cnt W o + Zlen (printed cf flt (o_col W o) (built bd items)) <= M -> (length (format items) < fuel)%nat ->
  exists fuel', (fuel <= fuel' + length (format items))%nat /\
    core_loop fuel limit o (shift fmt (Zlen pre)) (arguments cf (built bd items) ++ va) =
    let! o1 := out_chars o (printed cf flt (o_col W o) (built bd items)) in core_loop fuel' limit o1 (shift fmt (Zlen (pre ++ format items))) va.
Proof.
  intros limit Hlim. induction items as [|i items IH]; intros pre x rest fuel o va Efull Hok Hfits Ho Hm Hr Hc Hf.
  - exists fuel. cbn [built printed PrnfModel.out_chars bind length format map concat arguments app]. rewrite app_nil_r. split; [lia|reflexivity].
  - change (format (i :: items)) with (item_text i ++ format items) in *.
    change (built bd (i :: items)) with (read_by bd i ++ built bd items) in *.
    assert (arguments cf (read_by bd i ++ built bd items) = arguments cf (read_by bd i) ++ arguments cf (built bd items)) as -> by (unfold arguments; rewrite map_app, concat_app; reflexivity).
    rewrite printed_app in *. rewrite <- app_assoc.
    destruct Hok as (Hi & Hok & Hx). pose proof (Forall_inv Hfits) as Hfi. pose proof (Forall_inv_tail Hfits) as Hfit. set (s := printed cf flt (o_col W o) (read_by bd i)) in *.
    assert (forall o, I o -> item_mem (memof o) i) as Hmi by (intros o1 Ho1; specialize (Hm o1 Ho1); now inversion Hm).
    assert (forall o, I o -> Forall (item_mem (memof o)) items) as Hmt by (intros o1 Ho1; specialize (Hm o1 Ho1); now inversion Hm).
    assert (Forall is_byte s) as Bs by (eapply read_bytes; eauto).
    rewrite Zlen_app in Hc. rewrite app_length in Hf.
    pose proof (Zlen_nonneg s) as Zs. pose proof (Zlen_nonneg (printed cf flt (after cf (o_col W o) s) (built bd items))) as Zp.
    assert (exists y r, format items ++ x :: rest = y :: r /\ hd x (format items) = y) as (y & r & Ey & Hy).
    { destruct (format items) as [|y r]; [exists x, rest|exists y, (r ++ x :: rest)]; auto. }
    destruct (item_step_b limit Hlim i pre y r fuel o (arguments cf (built bd items) ++ va)) as (f1 & F1 & E1); auto using item_mem_still; try lia.
    { rewrite Efull, <- app_assoc, Ey. reflexivity. } { now rewrite <- Hy. } { fold s. lia. }
    rewrite E1. fold s. rewrite out_chars_app.
    destruct (out_chars o s) as [o1|u|] eqn:Es; cbn [bind].
    + destruct (out_chars_col cf W rd wr s o o1) as (C1 & C2 & C3); auto; [lia|].
      destruct (IH (pre ++ item_text i) x rest f1 o1 va) as (f2 & F2 & E2); auto.
      * rewrite Efull, <- !app_assoc. reflexivity.
      * eapply (I_chars cf W rd wr I M (Z.lt_le_incl _ _ M_max) I_step s o o1); eauto; lia.
      * rewrite C1, C2. lia.
      * lia.
      * exists f2. rewrite app_length. split; [lia|]. rewrite E2, C1, <- app_assoc. reflexivity.
    + exists fuel. split; [lia|reflexivity].
    + exists fuel. split; [lia|reflexivity].
Qed.

(** A whole format string. *)
Lemma core_ok_b : forall limit, (length full <= limit)%nat -> forall items pre fuel o va,
  full = pre ++ format items ++ [0] -> items_ok cf flt_need items -> Forall (fit bd) items -> I o -> (forall o, I o -> Forall (item_mem (memof o)) items) ->
  0 <= o_col W o <= o_cnt W o -> o_cnt W o + Zlen (printed cf flt (o_col W o) (built bd items)) <= M -> (length (format items) < fuel)%nat ->
  core_loop fuel limit o (shift fmt (Zlen pre)) (arguments cf (built bd items) ++ va) = out_chars o (printed cf flt (o_col W o) (built bd items)).
Proof.
  intros limit Hlim items pre fuel o va Efull Hok Hfits Ho Hm Hr Hc Hf.
  assert (items_then cf A flt_need 0 items) as Ht by (apply (items_ok_then cf A flt_need items []); now rewrite app_nil_r).
  destruct (core_items_b limit Hlim items pre 0 [] fuel o va) as (f1 & F1 & E1); auto. rewrite E1.
  set (s := printed cf flt (o_col W o) (built bd items)) in *. pose proof (Zlen_nonneg s).
  destruct (out_chars o s) as [o1| |] eqn:Es; cbn [bind]; auto. destruct f1 as [|f1]; [lia|]. cbn [core_loop_b].
  destruct (I_chars cf W rd wr I M (Z.lt_le_incl _ _ M_max) I_step s o o1) as [Ho1 _]; auto; try lia.
  destruct (fmt_tail o1 (pre ++ format items) 0 []) as (L1 & _); auto. { now rewrite <- app_assoc. }
  rewrite L1. reflexivity.
Qed.

(** A placeholder that does not find its argument after some items. *)
Lemma core_left : forall limit, (length full <= limit)%nat -> forall items c t x rest fuel o o1 a va,
  full = format items ++ conv_text c t ++ x :: rest -> items_then cf A flt_need 37 items -> Forall (fit bd) items -> I o -> (forall o, I o -> Forall (item_mem (memof o)) items) ->
  0 <= o_col W o <= o_cnt W o -> o_cnt W o + Zlen (printed cf flt (o_col W o) (built bd items)) <= M -> (length (format items) < fuel)%nat ->
  b_ll bd = true \/ is_ll c = false -> conv_ok c -> longer c t = false ->
  read_varg cf A (ph_raw cf c (type_of_b bd t)) (a :: va) = UB UB_varg ->
  out_chars o (printed cf flt (o_col W o) (built bd items)) = Ok o1 ->
  core_loop fuel limit o (shift fmt 0) (arguments cf (built bd items) ++ a :: va) = UB UB_varg.
Proof.
  intros limit Hlim items c t x rest fuel o o1 a va Efull Ht Hfits Ho Hm Hr Hc Hf Hll Hcv Hlo Hu Es.
  set (body := map flg_char (cv_flags c) ++ wid_text (cv_width c) ++ prc_text (cv_prec c) ++ len_text (cv_len c)) in *.
  assert (full = format items ++ 37 :: body ++ t :: x :: rest) as E37.
  { rewrite Efull. unfold conv_text, body. cbn [app]. rewrite <- !app_assoc. reflexivity. }
  destruct (core_items_b limit Hlim items [] 37 (body ++ t :: x :: rest) fuel o (a :: va)) as (f1 & F1 & E1); auto.
  change (Zlen (@nil Z)) with 0 in E1. rewrite E1.
  set (s := printed cf flt (o_col W o) (built bd items)) in *. pose proof (Zlen_nonneg s).
  rewrite Es. cbn [bind]. destruct f1 as [|f1]; [lia|]. cbn [core_loop_b app].
  destruct (I_chars cf W rd wr I M (Z.lt_le_incl _ _ M_max) I_step s o o1) as [Ho1 _]; auto; try lia.
  destruct (fmt_tail o1 (format items) 37 (body ++ t :: x :: rest)) as (L1 & L2 & L3); auto.
  rewrite L1. cbn [bind Z.eqb Pos.eqb]. rewrite L2. cbn [bind].
  assert (full = (format items ++ [37]) ++ body ++ t :: x :: rest) as Eb by (rewrite <- app_assoc; exact E37).
  assert (exists y r, body ++ t :: x :: rest = y :: r /\ y <> 37) as (y & r & Ey & Ny).
  { destruct (first_char c t (x :: rest) Hcv Hlo) as (y & r & Ey & Ny). exists y, r. split; auto. unfold body. rewrite <- !app_assoc. exact Ey. }
  destruct (fmt_tail o1 (format items ++ [37]) y r) as (M1 & M2 & M3); auto. { rewrite Eb, Ey. reflexivity. }
  rewrite M1. cbn [bind]. rewrite (proj2 (Z.eqb_neq y 37)) by auto.
  rewrite <- Ey in M3. unfold body in M3. rewrite <- !app_assoc in M3. rewrite (parse_b_ok cf bd c t (x :: rest) limit _ _ Hll Hcv Hlo M3).
  2:{ fold body. rewrite E37 in Hlim. rewrite app_length in Hlim. cbn [length] in Hlim. rewrite app_length in Hlim. lia. }
  cbn [bind]. rewrite Hu. reflexivity.
Qed.
End Core.
