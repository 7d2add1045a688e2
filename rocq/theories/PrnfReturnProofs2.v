(** Proofs about prnf with an assertion handler that returns: how often it is called. *)
From Verif Require Import Base Mem Libc StrviewModel Spec MemLemmas StrviewProofs StrviewProofs3 NumSpec StrnumProofs StrnumProofs2 StrnumProofs3
  PrnfModel PrnfSpec PrnfSpec2 PrnfProofs PrnfProofs2 PrnfProofs3 PrnfProofs4 PrnfProofs5 PrnfProofs9 PrnfAssertModel PrnfAssertSpec PrnfAssertProofs
  PrnfReturnModel PrnfReturnSpec PrnfReturnProofs.

(** Calls while a placeholder is parsed. *)
Definition text_calls (c : conv) (t : Z) : Z := match cv_len c with Lint => size_calls t | _ => 0 end + type_calls t.
Section Parse.
Variable cf : cfg.
Lemma parse_placeholder_r_ok : forall c t r fuel m p, conv_ok c -> longer c t = false ->
  bytes_at m p (map flg_char (cv_flags c) ++ wid_text (cv_width c) ++ prc_text (cv_prec c) ++ len_text (cv_len c) ++ t :: r) ->
  (length (map flg_char (cv_flags c) ++ wid_text (cv_width c) ++ prc_text (cv_prec c) ++ len_text (cv_len c)) < fuel)%nat ->
  parse_placeholder_r cf fuel m p = Ok (ph_raw cf c (type_of t), shift p (Zlen (conv_text c t) - 1), text_calls c t).
Proof.
  intros c t r fuel m p Hc Ht H Hf. unfold parse_placeholder_r.
  rewrite !app_length, map_length in Hf.
  destruct (after_flags c t r Hc Ht) as (y0 & s0 & E0 & R0). destruct Hc as (Hw & Hp).
  rewrite (parse_flags_ok cf (cv_flags c) fuel m p y0 s0).
  2:{ rewrite <- E0. exact H. }
  2:{ unfold longer_width in R0. destruct (cv_width c); [repeat (apply orb_false_iff in R0; destruct R0 as [R0 ?]); auto|unfold flag_char; rewrite !orb_false_iff; repeat split; apply Z.eqb_neq; lia|now subst y0]. }
  2:{ lia. }
  cbn [bind orb].
  assert (Zlen (map flg_char (cv_flags c)) = Zlen (cv_flags c)) as Lf by apply Zlen_map.
  apply bytes_at_app in H as [_ H]. rewrite Lf in H. set (p1 := shift p (Zlen (cv_flags c))) in *.
  assert (load_byte m p1 = Ok y0) as L0. { rewrite E0 in H. now apply bytes_at_cons in H. }
  rewrite L0. cbn [bind].
  destruct (after_width c t r Ht) as (y1 & s1 & E1 & R1).
  match goal with |- bind ?X _ = _ => assert (X = Ok (match cv_width c with WStar _ => true | _ => false end, match cv_width c with WNum n => n | _ => 0 end,
     shift p1 (Zlen (wid_text (cv_width c))))) as -> end.
  { unfold longer_width in R1. destruct (cv_width c) as [|n|n] eqn:Ew; cbn [wid_text] in *.
    - assert ((y0 =? 42) = false) as -> by (unfold longer_width in R0; rewrite Ew in R0; repeat (apply orb_false_iff in R0; destruct R0 as [R0 ?]); auto).
      rewrite (atoi_ok cf [] fuel m p1 0 y1 s1); auto; try lia; try (cbn; unfold INT_MAX; lia).
      + rewrite E1 in H. exact H.
      + repeat (apply orb_false_iff in R1; destruct R1 as [R1 ?]); auto.
    - rewrite (proj2 (Z.eqb_neq y0 42)) by lia.
      rewrite (atoi_show cf n fuel m p1 y1 s1); auto; try lia.
      + rewrite E1 in H. exact H.
    - rewrite (proj2 (Z.eqb_eq y0 42)) by lia. destruct (at_step cf m p1 _ _ H) as (_ & -> & _). reflexivity. }
  cbn [bind]. apply bytes_at_app in H as [_ H]. set (p2 := shift p1 (Zlen (wid_text (cv_width c)))) in *.
  assert (load_byte m p2 = Ok y1) as L1. { rewrite E1 in H. now apply bytes_at_cons in H. }
  rewrite L1. cbn [bind]. destruct (after_prec c t r Ht) as (y2 & s2 & E2 & R2).
  match goal with |- bind ?X _ = _ => assert (X = Ok (match prec_of c with Some _ => true | None => false end,
     match cv_prec c with PStar _ => true | _ => false end, match cv_prec c with PNumZ _ n => n | _ => 0 end,
     shift p2 (Zlen (prc_text (cv_prec c))))) as -> end.
  { unfold prec_of. unfold longer_prec in R2. destruct (cv_prec c) as [| |z n|n] eqn:Ec; cbn [prc_text] in *.
    - assert ((y1 =? 46) = false) as ->. { rewrite E2 in E1. cbn [app] in E1. injection E1 as <- <-. now apply orb_false_iff in R2 as [R2 _]. }
      change (Zlen (@nil Z)) with 0. rewrite shift_0. reflexivity.
    - assert (y1 = 46) as -> by (rewrite E2 in E1; cbn [app] in E1; now injection E1 as <- <-).
      cbn [Z.eqb Pos.eqb]. rewrite E2 in H. cbn [app] in H. destruct (at_step cf m p2 _ _ H) as (_ & -> & H'). cbn [bind].
      destruct (at_step cf m _ _ _ H') as (-> & _ & _). cbn [bind]. apply orb_false_iff in R2 as [D2 R2]. rewrite R2.
      rewrite (atoi_ok cf [] fuel m (shift p2 1) 0 y2 s2); auto; try lia; try (cbn; unfold INT_MAX; lia).
      cbn [bind]. change (Zlen (@nil Z)) with 0. rewrite shift_0. reflexivity.
    - assert (y1 = 46) as -> by (cbn [app] in E1; now injection E1 as <- <-).
      cbn [Z.eqb Pos.eqb]. cbn [app] in H. destruct (at_step cf m p2 _ _ H) as (_ & -> & H'). cbn [bind].
      destruct (num_small z n Hp) as (S1 & _ & S3). rewrite E2 in H'.
      assert (exists y s, load_byte m (shift p2 1) = Ok y /\ num_text z n = y :: s /\ 48 <= y <= 57) as (y & s & -> & Es & Ry).
      { destruct (num_text z n) as [|y s] eqn:Es; [congruence|]. exists y, s. cbn [app] in H'. destruct (at_step cf m _ _ _ H') as (-> & _ & _). split; auto. split; auto.
        inversion S1; subst. now apply dig10. }
      cbn [bind]. rewrite (proj2 (Z.eqb_neq y 42)) by lia.
      rewrite (atoi_num cf z n fuel m (shift p2 1) y2 s2); auto; [|cbn [length] in Hf; lia].
      cbn [bind]. rewrite shift_shift, Zlen_cons, (Z.add_comm 1). reflexivity.
    - assert (y1 = 46) as -> by (cbn [app] in E1; now injection E1 as <- <-).
      cbn [Z.eqb Pos.eqb]. cbn [app] in H. destruct (at_step cf m p2 _ _ H) as (_ & -> & H'). cbn [bind].
      destruct (at_step cf m _ _ _ H') as (-> & -> & _). cbn [bind Z.eqb Pos.eqb]. rewrite shift_shift. reflexivity. }
  cbn [bind]. apply bytes_at_app in H as [_ H]. set (p3 := shift p2 (Zlen (prc_text (cv_prec c)))) in *.
  assert (load_byte m p3 = Ok y2) as L2 by (rewrite E2 in H; now apply bytes_at_cons in H).
  assert (size_calls y2 = match cv_len c with Lint => size_calls t | _ => 0 end) as K2.
  { destruct (cv_len c); cbn [len_text app] in E2; injection E2 as <- _; reflexivity. }
  rewrite L2. cbn [bind]. rewrite K2.
  rewrite (parse_size_ok cf c m p3 t r H Ht). cbn [bind]. apply bytes_at_app in H as [_ H].
  destruct (at_step cf m _ _ _ H) as (-> & -> & _). cbn [bind]. unfold p3, p2, p1. rewrite !shift_shift.
  unfold ph_raw, conv_text. rewrite Zlen_cons, !Zlen_app, Lf, Zlen_cons. change (Zlen (@nil Z)) with 0.
  match goal with |- Ok (_, shift p ?a, _) = Ok (_, shift p ?b, _) => replace b with a by lia end.
  replace (match plus_sign (cv_flags c) with [] => 0 | y :: _ => y end) with (hd 0 (plus_sign (cv_flags c))) by (destruct (plus_sign (cv_flags c)); reflexivity).
  reflexivity.
Qed.
End Parse.

Section Core.
Variable cf : cfg.
Variable A : fops.
Variable W : Type.
Variable rd : W -> mem.
Variable wr : W -> mem -> W.
Notation D := (dbl A).
Notation out := (out W).
Notation out_char := (out_char cf W rd wr).
Notation out_chars := (out_chars cf W rd wr).
Notation print_placeholder := (print_placeholder cf A W rd wr).
Notation core_loop := (core_loop_r cf A W rd wr).
Notation memof o := (rd (o_st W o)).
Notation flt := (flt A).
Notation flt_ok := (flt_fine A).
Notation flt_bytes := (flt_bytes A).
Notation flt_f := (flt_f cf A W rd wr).
Notation flt_e := (flt_e cf A W rd wr).

Variable I : out -> Prop.
Variable M : Z.
Hypothesis M_max : M < INT_MAX.
Hypothesis I_step : forall o c o', I o -> 0 <= o_cnt W o < M -> out_char o c = Ok o' -> I o'.
Hypothesis wf : wf_cfg cf.
Variable fmt : ptr.
Variable full : list Z.
Hypothesis fmt_at : forall o, I o -> bytes_at (memof o) fmt full.
Notation fmt_tail := (fmt_tail cf W rd I fmt full fmt_at).

Lemma prec_calls_ok : forall c t d, conv_ok c -> value_fine A (flt_prec (match t with TYPE_ENG => true | _ => false end) c) d ->
  prec_calls A (ph_of cf c t) d = decimals_calls A c d.
Proof.
  intros c t d Hc Hv. unfold prec_calls, decimals_calls. rewrite (prec_trips cf A c t d Hc Hv).
  destruct (finite A d && many_decimals c) eqn:E; [|reflexivity]. apply andb_true_iff in E as [E1 E2]. unfold finite in E1. apply andb_true_iff in E1 as [F1 F2].
  destruct Hv as (V1 & _). unfold determine_float_msg, oversize. fold (absv A d) in *. rewrite V1, F1. cbn [negb]. apply negb_true_iff in F2. rewrite F2.
  assert (get_prec (ph_of cf c t) = 19) as ->.
  { unfold get_prec, many_decimals in *. cbn [ph_of ph_pspec ph_prec]. destruct (prec_of c) as [p|]; [|discriminate]. now rewrite E2. }
  destruct (_ || _); reflexivity.
Qed.
Lemma conv_calls : forall i c t a va v, item_conv cf A i = Some (c, t, a) -> item_ok cf flt_ok i ->
  read_value A (ph_of cf c (type_of t)) (a ++ va) = Ok (ph_of cf c (type_of t), v, va) ->
  text_calls c t + print_calls A v (ph_of cf c (type_of t)) = calls A i.
Proof.
  assert (forall c t, type_of t <> TYPE_NONE -> text_calls c t = 0) as T0.
  { intros c t H. unfold text_calls. destruct (type_cases t) as [[-> _] | [_ T]]; [|contradiction].
    assert (size_calls t = 0) as -> by (destruct (size_cases t) as [|S1]; auto; now apply size_none in S1). destruct (cv_len c); reflexivity. }
  intros i c t a va v H Hi E. destruct i; cbn [item_conv] in H; try discriminate; injection H as <- <- <-; cbn [item_ok calls] in *.
  - rewrite T0 by (destruct b; discriminate). replace (type_of (if b then 105 else 100)) with TYPE_INT by (destruct b; reflexivity). reflexivity.
  - rewrite T0 by discriminate. reflexivity.
  - rewrite T0 by (destruct b; discriminate). replace (type_of (if b then 88 else 120)) with TYPE_HEX by (destruct b; reflexivity). reflexivity.
  - rewrite T0 by discriminate. reflexivity.
  - rewrite T0 by discriminate. reflexivity.
  - rewrite T0 by (destruct b; discriminate). replace (type_of (if b then 83 else 115)) with TYPE_STR by (destruct b; reflexivity). reflexivity.
  - rewrite T0 by (destruct b; discriminate). replace (type_of (if b then 70 else 102)) with TYPE_FLOAT in * by (destruct b; reflexivity). cbn [app] in E. unfold read_value in E. cbn [ph_of ph_type] in E.
    injection E as <-. destruct Hi as [Hc Hv]. unfold print_calls. cbn [ph_of ph_type]. change (PrnfModel.Ph _ _ _ _ _ _ _ _ _ _) with (ph_of cf c0 TYPE_FLOAT). now apply prec_calls_ok.
  - rewrite T0 by (destruct b; discriminate). replace (type_of (if b then 69 else 101)) with TYPE_ENG in * by (destruct b; reflexivity). cbn [app] in E. unfold read_value in E. cbn [ph_of ph_type] in E.
    injection E as <-. destruct Hi as [Hc Hv]. unfold print_calls. cbn [ph_of ph_type]. change (PrnfModel.Ph _ _ _ _ _ _ _ _ _ _) with (ph_of cf c0 TYPE_ENG). now apply prec_calls_ok.
  - destruct Hi as (_ & Ht & _). unfold text_calls, type_calls, print_calls. cbn [ph_of ph_type]. rewrite (other_type _ Ht). unfold size_calls.
    destruct (cv_len c0); try reflexivity. destruct ((t0 =? 76) || (t0 =? 106)); reflexivity.
Qed.

(** One item, then the rest. *)
Lemma item_step_r : forall limit, (length full <= limit)%nat -> forall i pre x rest fuel n0 o va,
  full = pre ++ item_text i ++ x :: rest -> item_ok cf flt_ok i -> next_ok cf A i x -> I o -> item_mem (memof o) i -> (forall o, I o -> item_still A (memof o) i) ->
  0 <= o_col W o <= o_cnt W o -> o_cnt W o + Zlen (item_out cf flt (o_col W o) i) <= M -> (length (item_text i) < fuel)%nat ->
  exists fuel', (fuel <= fuel' + length (item_text i))%nat /\
    core_loop fuel limit n0 o (shift fmt (Zlen pre)) (item_args cf i ++ va) =
    let! o1 := out_chars o (item_out cf flt (o_col W o) i) in core_loop fuel' limit (n0 + calls A i) o1 (shift fmt (Zlen (pre ++ item_text i))) va.
Proof.
  intros limit Hlim i pre x rest fuel n0 o va Efull Hi Hx Ho Hmi Hms Hr Hc Hf.
  set (s := item_out cf flt (o_col W o) i) in *. pose proof (Zlen_nonneg s) as Zs.
  assert (Forall is_byte s) as Bs by (eapply item_bytes; eauto using PrnfProofs4.flt_bytes).
  destruct (item_conv cf A i) as [[[c t] a]|] eqn:Ec.
  + (* conversions *)
    destruct (item_conv_text cf A flt_ok _ _ _ _ Ec Hi) as (Et & Ht & Ea). pose proof (item_conv_ok cf A flt_ok _ _ _ _ Ec Hi) as Hcv.
    rewrite Ea, <- app_assoc. rewrite Et in *. destruct fuel as [|fuel]; [lia|]. exists fuel. cbn [core_loop_r].
    pose proof (conv_text_len c t) as Lt. split; [unfold Zlen in Lt; lia|].
    set (body := map flg_char (cv_flags c) ++ wid_text (cv_width c) ++ prc_text (cv_prec c) ++ len_text (cv_len c)) in *.
    assert (full = pre ++ 37 :: body ++ t :: x :: rest) as E37.
    { rewrite Efull. unfold conv_text, body. cbn [app]. rewrite <- !app_assoc. reflexivity. }
    destruct (fmt_tail o pre 37 (body ++ t :: x :: rest)) as (L1 & L2 & L3); auto.
    rewrite L1. cbn [bind Z.eqb Pos.eqb]. rewrite L2. cbn [bind].
    assert (full = (pre ++ [37]) ++ body ++ t :: x :: rest) as Eb by (rewrite <- app_assoc; exact E37).
    assert (exists y r, body ++ t :: x :: rest = y :: r /\ y <> 37) as (y & r & Ey & Ny).
    { destruct (first_char c t (x :: rest) Hcv Ht) as (y & r & Ey & Ny). exists y, r. split; auto. unfold body. rewrite <- !app_assoc. exact Ey. }
    destruct (fmt_tail o (pre ++ [37]) y r) as (M1 & M2 & M3); auto. { rewrite Eb, Ey. reflexivity. }
    rewrite M1. cbn [bind]. rewrite (proj2 (Z.eqb_neq y 37)) by auto.
    rewrite <- Ey in M3. unfold body in M3. rewrite <- !app_assoc in M3.
    rewrite (parse_placeholder_r_ok cf c t (x :: rest) limit (memof o) _ Hcv Ht M3).
    2:{ fold body. rewrite E37 in Hlim. rewrite app_length in Hlim. cbn [length] in Hlim. rewrite app_length in Hlim. lia. }
    cbn [bind]. rewrite read_varg_conv by auto. cbn [app].
    destruct (conv_item cf A W rd wr flt flt_ok flt_f flt_e I M M_max I_step wf i c t a va o Ec Hi Ho Hmi Hms) as (v & V1 & V2); [lia|fold s; lia|].
    rewrite V1. cbn [bind]. rewrite V2. fold s. rewrite <- Z.add_assoc, (conv_calls _ _ _ _ _ _ Ec Hi V1). destruct (out_chars o s) as [o1| |] eqn:E1; cbn [bind]; auto.
    rewrite shift_shift. replace (Zlen (pre ++ [37]) + (Zlen (conv_text c t) - 1)) with (Zlen (pre ++ conv_text c t)); [reflexivity|].
    rewrite !Zlen_app, Zlen_cons. change (Zlen (@nil Z)) with 0. lia.
  + assert (calls A i = 0) as -> by (destruct i; cbn [item_conv] in Ec; try discriminate; reflexivity). rewrite Z.add_0_r. destruct i; cbn [item_conv] in Ec; try discriminate; clear Ec; cbn [item_text item_args app item_ok item_out next_ok] in *.
    * (* text *)
      exists (fuel - length l)%nat. split; [lia|].
      assert (forall b a o1 fuel, l = a ++ b -> out_chars o a = Ok o1 -> (length b <= fuel)%nat ->
        core_loop fuel limit n0 o1 (shift fmt (Zlen (pre ++ a))) va =
        bind (out_chars o1 b) (fun o2 => core_loop (fuel - length b) limit n0 o2 (shift fmt (Zlen (pre ++ l))) va)) as K.
      { induction b as [|y b IHb]; intros a o1 f El E1 Hf1; cbn [PrnfModel.out_chars bind].
        - rewrite app_nil_r in El. subst a. rewrite Nat.sub_0_r. reflexivity.
        - destruct f as [|f]; [cbn in Hf1; lia|]. cbn [core_loop_r].
          assert (Zlen s = Zlen a + Zlen b + 1) as Ls by (unfold s; rewrite El, Zlen_app, Zlen_cons; lia).
          pose proof (Zlen_nonneg a). pose proof (Zlen_nonneg b).
          destruct (I_chars cf W rd wr I M (Z.lt_le_incl _ _ M_max) I_step a o o1) as [Ho1 Co1]; auto; try lia.
          assert (0 < y < 256 /\ y <> 37 /\ y <> 11) as (X1 & X2 & X3). { rewrite El in Hi. apply Forall_app in Hi as [_ Hi]. now inversion Hi. }
          destruct (fmt_tail o1 (pre ++ a) y (b ++ x :: rest)) as (L1 & _); auto.
          { rewrite Efull, El, <- !app_assoc. reflexivity. }
          rewrite L1. cbn [bind]. rewrite (proj2 (Z.eqb_neq y 0)), (proj2 (Z.eqb_neq y 37)), (proj2 (Z.eqb_neq y 11)) by lia.
          rewrite bind_bind. destruct (out_char o1 y) as [o2| |] eqn:E2; cbn [bind]; auto.
          assert (I o2) as Ho2 by (eapply I_step; eauto; lia).
          destruct (fmt_tail o2 (pre ++ a) y (b ++ x :: rest)) as (_ & L2 & _); auto.
          { rewrite Efull, El, <- !app_assoc. reflexivity. }
          rewrite L2. cbn [bind]. rewrite <- app_assoc. cbn [length Nat.sub]. apply IHb.
          + rewrite El, <- app_assoc. reflexivity.
          + rewrite out_chars_app, E1. cbn [bind PrnfModel.out_chars]. now rewrite E2.
          + cbn [length] in Hf1. lia. }
      specialize (K l [] o fuel eq_refl eq_refl ltac:(lia)). rewrite app_nil_r in K. exact K.
    * (* %% *)
      destruct fuel as [|fuel]; [lia|]. exists fuel. split; [cbn [length]; lia|]. cbn [core_loop_r].
      destruct (fmt_tail o pre 37 (37 :: x :: rest)) as (L1 & L2 & _); auto.
      rewrite L1. cbn [bind Z.eqb Pos.eqb]. rewrite L2. cbn [bind].
      destruct (fmt_tail o (pre ++ [37]) 37 (x :: rest)) as (M1 & _); auto. { rewrite Efull, <- !app_assoc. reflexivity. }
      rewrite M1. cbn [bind Z.eqb Pos.eqb]. subst s. cbn [PrnfModel.out_chars] in *. rewrite bind_bind.
      destruct (out_char o 37) as [o1| |] eqn:E1; cbn [bind] in *; auto.
      destruct (fmt_tail o1 (pre ++ [37]) 37 (x :: rest)) as (_ & M2 & _). { eapply I_step; eauto. rewrite Zlen_cons in *. change (Zlen (@nil Z)) with 0 in *. lia. } { rewrite Efull, <- !app_assoc. reflexivity. }
      rewrite M2. cbn [bind]. rewrite <- app_assoc. reflexivity.
    * (* \v *)
      destruct fuel as [|fuel]; [lia|]. exists fuel. split; [cbn [length]; lia|]. cbn [core_loop_r].
      destruct (fmt_tail o pre 11 (x :: rest)) as (L1 & L2 & _); auto.
      rewrite L1. cbn [bind Z.eqb Pos.eqb]. rewrite L2. cbn [bind]. unfold print_col_alignment.
      destruct (fmt_tail o (pre ++ [11]) x rest) as (M1 & _ & M3); auto. { rewrite Efull, <- !app_assoc. reflexivity. }
      rewrite M1. cbn [bind]. rewrite digit_eq, Hx.
      rewrite (atoi_ok cf [] limit (memof o) _ 0 x rest); auto; try (cbn; unfold INT_MAX; lia).
      2:{ rewrite Efull in Hlim. rewrite app_length in Hlim. cbn [length app] in *. lia. }
      cbn [bind]. change (Zlen (@nil Z)) with 0. rewrite shift_0, M1. cbn [bind negb]. subst s. cbn [PrnfModel.out_chars] in *. rewrite !bind_bind.
      destruct (out_char o 11) as [o1| |] eqn:E1; cbn [bind] in *; auto.
    * (* column *)
      destruct Hi as (Hn & Hb & Hv & Dx). pose proof (counts_ge _ _ Hv) as Hge. destruct fuel as [|fuel]; [lia|]. exists fuel. split; [cbn [length]; lia|]. cbn [core_loop_r].
      destruct (num_small z n Hn) as (S1 & _ & S3).
      assert (full = (pre ++ [11]) ++ num_text z n ++ pad :: x :: rest) as E1.
      { rewrite Efull. cbn [app]. rewrite <- !app_assoc. reflexivity. }
      destruct (fmt_tail o pre 11 (num_text z n ++ pad :: x :: rest)) as (L1 & L2 & _); auto. { rewrite E1, <- !app_assoc. reflexivity. }
      rewrite L1. cbn [bind Z.eqb Pos.eqb]. rewrite L2. cbn [bind]. unfold print_col_alignment.
      assert (exists y r, num_text z n = y :: r /\ prnf_is_digit y = true) as (y & r & Ey & Dy).
      { destruct (num_text z n) as [|y r]; [congruence|]. exists y, r. split; auto. inversion S1 as [|? ? Hy _]; subst. destruct (dig10 y Hy).
        unfold prnf_is_digit. rewrite (proj2 (Z.leb_le 48 y)), (proj2 (Z.leb_le y 57)) by lia. reflexivity. }
      destruct (fmt_tail o (pre ++ [11]) y (r ++ pad :: x :: rest)) as (M1 & _ & M3); auto. { rewrite E1, Ey. reflexivity. }
      rewrite M1. cbn [bind]. rewrite Dy. cbn [negb].
      assert (length (num_text z n) < limit)%nat as Lf.
      { rewrite E1 in Hlim. rewrite !app_length in Hlim. cbn [length] in Hlim. lia. }
      rewrite (atoi_num cf z n limit (memof o) _ pad (x :: rest)); auto; [|rewrite Ey; exact M3].
      cbn [bind]. rewrite shift_shift, <- Zlen_app.
      destruct (fmt_tail o ((pre ++ [11]) ++ num_text z n) pad (x :: rest)) as (N1 & _); auto. { rewrite E1, <- !app_assoc. reflexivity. }
      rewrite N1. cbn [bind]. rewrite char_counts, Hv by exact Hb. cbn [negb]. rewrite (proj2 (Z.eqb_neq pad 0)) by lia. cbn [negb].
      rewrite (col_loop_eq cf W rd wr (Z.to_nat (n - o_col W o))); auto; try lia.
      2:{ assert (Zlen s = Z.max 0 (n - o_col W o)) as Ls by apply Zlen_copies. lia. }
      change (repeat pad (Z.to_nat (n - o_col W o))) with (copies pad (n - o_col W o)). fold s.
      destruct (out_chars o s) as [o1| |] eqn:Eo; cbn [bind]; auto.
      destruct (fmt_tail o1 ((pre ++ [11]) ++ num_text z n) pad (x :: rest)) as (_ & N2 & _); auto. { eapply (I_chars cf W rd wr I M (Z.lt_le_incl _ _ M_max) I_step s o o1); eauto; lia. } { rewrite E1, <- !app_assoc. reflexivity. }
      rewrite N2. cbn [bind]. rewrite <- !app_assoc. reflexivity.
    * (* column without a character to fill it with *)
      destruct Hx as [Cx Bx]. destruct fuel as [|fuel]; [lia|]. exists fuel. split; [cbn [length]; lia|]. cbn [core_loop_r].
      destruct (num_small z n Hi) as (S1 & _ & S3).
      assert (full = (pre ++ [11]) ++ num_text z n ++ x :: rest) as E1 by (rewrite Efull, <- !app_assoc; reflexivity).
      destruct (fmt_tail o pre 11 (num_text z n ++ x :: rest)) as (L1 & L2 & _); auto.
      rewrite L1. cbn [bind Z.eqb Pos.eqb]. rewrite L2. cbn [bind]. unfold print_col_alignment.
      assert (exists y r, num_text z n = y :: r /\ prnf_is_digit y = true) as (y & r & Ey & Dy).
      { destruct (num_text z n) as [|y r]; [congruence|]. exists y, r. split; auto. inversion S1 as [|? ? Hy _]; subst. destruct (dig10 y Hy).
        unfold prnf_is_digit. rewrite (proj2 (Z.leb_le 48 y)), (proj2 (Z.leb_le y 57)) by lia. reflexivity. }
      destruct (fmt_tail o (pre ++ [11]) y (r ++ x :: rest)) as (M1 & _ & M3); auto. { rewrite E1, Ey. reflexivity. }
      rewrite M1. cbn [bind]. rewrite Dy. cbn [negb].
      assert (length (num_text z n) < limit)%nat as Lf.
      { rewrite E1 in Hlim. rewrite !app_length in Hlim. cbn [length] in Hlim. lia. }
      assert (prnf_is_digit x = false) as Dx.
      { unfold prnf_is_digit. destruct (Z.leb_spec 48 x); auto. apply Z.leb_gt. unfold counts in Cx.
        rewrite (proj2 (Z.leb_le 32 x)) in Cx by lia. destruct (Z.ltb_spec x 128); cbn in Cx; [discriminate|lia]. }
      rewrite (atoi_num cf z n limit (memof o) _ x rest); auto; [|rewrite Ey; exact M3].
      cbn [bind]. rewrite shift_shift, <- Zlen_app.
      destruct (fmt_tail o ((pre ++ [11]) ++ num_text z n) x rest) as (N1 & _); auto. { rewrite E1, <- !app_assoc. reflexivity. }
      rewrite N1. cbn [bind]. rewrite char_counts, Cx by exact Bx. cbn [negb Z.eqb]. rewrite <- !app_assoc. reflexivity.
Qed.


(** Several items; [x] is the character after them. *)
Lemma core_items_r : forall limit, (length full <= limit)%nat -> forall items pre x rest fuel n0 o va,
  full = pre ++ format items ++ x :: rest -> items_then cf A flt_ok x items -> I o -> (forall o, I o -> Forall (item_mem (memof o)) items) ->
  0 <= o_col W o <= o_cnt W o -> o_cnt W o + Zlen (printed cf flt (o_col W o) items) <= M -> (length (format items) < fuel)%nat ->
  exists fuel', (fuel <= fuel' + length (format items))%nat /\
    core_loop fuel limit n0 o (shift fmt (Zlen pre)) (arguments cf items ++ va) =
    let! o1 := out_chars o (printed cf flt (o_col W o) items) in core_loop fuel' limit (n0 + total_calls A items) o1 (shift fmt (Zlen (pre ++ format items))) va.
Proof.
  intros limit Hlim. induction items as [|i items IH]; intros pre x rest fuel n0 o va Efull Hok Ho Hm Hr Hc Hf.
  - exists fuel. cbn [printed PrnfModel.out_chars bind length format map concat arguments app total_calls]. rewrite app_nil_r, Z.add_0_r. split; [lia|reflexivity].
  - cbn [printed] in *. change (format (i :: items)) with (item_text i ++ format items) in *.
    change (arguments cf (i :: items)) with (item_args cf i ++ arguments cf items). rewrite <- app_assoc.
    destruct Hok as (Hi & Hok & Hx). set (s := item_out cf flt (o_col W o) i) in *.
    assert (forall o, I o -> item_mem (memof o) i) as Hmi by (intros o1 Ho1; specialize (Hm o1 Ho1); now inversion Hm).
    assert (forall o, I o -> Forall (item_mem (memof o)) items) as Hmt by (intros o1 Ho1; specialize (Hm o1 Ho1); now inversion Hm).
    assert (Forall is_byte s) as Bs by (eapply item_bytes; eauto using PrnfProofs4.flt_bytes).
    rewrite Zlen_app in Hc. rewrite app_length in Hf.
    pose proof (Zlen_nonneg s) as Zs. pose proof (Zlen_nonneg (printed cf flt (after cf (o_col W o) s) items)) as Zp.
    assert (exists y r, format items ++ x :: rest = y :: r /\ hd x (format items) = y) as (y & r & Ey & Hy).
    { destruct (format items) as [|y r]; [exists x, rest|exists y, (r ++ x :: rest)]; auto. }
    destruct (item_step_r limit Hlim i pre y r fuel n0 o (arguments cf items ++ va)) as (f1 & F1 & E1); auto using item_mem_still; try lia.
    { rewrite Efull, <- app_assoc, Ey. reflexivity. } { now rewrite <- Hy. } { fold s. lia. }
    rewrite E1. fold s. rewrite out_chars_app.
    destruct (out_chars o s) as [o1|u|] eqn:Es; cbn [bind].
    + destruct (out_chars_col cf W rd wr s o o1) as (C1 & C2 & C3); auto; [lia|].
      destruct (IH (pre ++ item_text i) x rest f1 (n0 + calls A i) o1 va) as (f2 & F2 & E2); auto.
      * rewrite Efull, <- !app_assoc. reflexivity.
      * eapply (I_chars cf W rd wr I M (Z.lt_le_incl _ _ M_max) I_step s o o1); eauto; lia.
      * rewrite C1, C2. lia.
      * lia.
      * exists f2. rewrite app_length. split; [lia|]. rewrite E2, C1, <- app_assoc. cbn [total_calls]. rewrite Z.add_assoc. reflexivity.
    + exists fuel. split; [lia|reflexivity].
    + exists fuel. split; [lia|reflexivity].
Qed.

End Core.

(** ** Whole calls *)
Section Call.
Variable cf : cfg.
Variable A : fops.
Variable W : Type.
Variable rd : W -> mem.
Variable wr : W -> mem -> W.
Notation out := (out W).
Notation out_char := (out_char cf W rd wr).
Notation out_chars := (out_chars cf W rd wr).
Notation memof o := (rd (o_st W o)).
Notation text := (printed cf (flt A)).

Lemma finish_r : forall (I : out -> Prop) M fmt items o va, wf_cfg cf -> M < INT_MAX ->
  (forall o c o', I o -> 0 <= o_cnt W o < M -> out_char o c = Ok o' -> I o') ->
  (forall o, I o -> bytes_at (memof o) fmt (format items ++ [0])) -> (forall o, I o -> Forall (item_mem (memof o)) items) ->
  items_ok cf (flt_fine A) items -> I o -> 0 <= o_col W o <= o_cnt W o -> o_cnt W o + Zlen (text (o_col W o) items) <= M ->
  core_prnf_r cf A W rd wr o fmt (arguments cf items ++ va) =
    let! o := out_chars o (text (o_col W o) items) in let! o := out_terminate W rd wr o in Ok (o_cnt W o, total_calls A items, o).
Proof.
  intros I M fmt items o va Wf HM Is If Ia Hok Ho Hr Hc. unfold core_prnf_r.
  pose proof (If o Ho) as (k & Ak & K1 & K2 & _). rewrite Ak. cbn [bind].
  rewrite Zlen_app in K2. change (Zlen [0]) with 1 in K2.
  assert (length (format items) < S (Z.to_nat (b_size k)))%nat as Hlen by (unfold Zlen in K2; lia).
  assert (length (format items ++ [0%Z]) <= S (Z.to_nat (b_size k)))%nat as Hlim by (rewrite app_length; cbn [length]; lia).
  assert (items_then cf A (flt_fine A) 0 items) as Ht by (apply (items_ok_then cf A (flt_fine A) items []); now rewrite app_nil_r).
  destruct (core_items_r cf A W rd wr I M HM Is Wf fmt (format items ++ [0]) If _ Hlim items [] 0 [] _ 0 o va eq_refl Ht Ho Ia Hr Hc Hlen) as (f1 & F1 & E1).
  change (Zlen (@nil Z)) with 0 in E1. rewrite shift_0 in E1. rewrite E1.
  set (s := text (o_col W o) items) in *. pose proof (Zlen_nonneg s).
  destruct (out_chars o s) as [o1| |] eqn:Es; cbn [bind]; auto. destruct f1 as [|f1]; [lia|]. cbn [core_loop_r].
  destruct (I_chars cf W rd wr I M (Z.lt_le_incl _ _ HM) Is s o o1) as [Ho1 _]; auto; try lia.
  destruct (PrnfProofs3.fmt_tail cf W rd I fmt (format items ++ [0]) If o1 (format items) 0 []) as (L1 & _); auto.
  cbn [app]. rewrite L1. reflexivity.
Qed.

End Call.

Lemma vsnprnf_r_ok : forall cf A m dst n fmt items va, wf_cfg cf -> 0 <= n <= INT_MAX ->
  let t := printed cf (flt A) 0 items in let w := Z.min n (Zlen t + 1) in Zlen t < INT_MAX ->
  writable m dst w -> bytes_at m fmt (format items ++ [0]) -> clear_of dst w fmt (Zlen (format items) + 1) ->
  items_ok cf (flt_fine A) items -> Forall (item_mem m) items -> Forall (item_clear dst w) items ->
  exists m', vsnprnf_r cf A mem mid mwr m dst n fmt (arguments cf items ++ va) = Ok (Zlen t, total_calls A items, m') /\
    only_wrote m m' dst w /\ (0 < n -> bytes_at m' dst (firstn (Z.to_nat (n - 1)) t ++ [0])).
Proof.
  intros cf A m dst n fmt items va Wf Hn t w Ht Hw Hf Hfc Hok Hm Hcl. unfold vsnprnf_r. assert (to_int n = n) as -> by (apply to_int_ok; unfold INT_MIN; lia).
  pose proof (Zlen_nonneg t) as Zt.
  destruct (array_setting cf m dst n t Hn Ht ltac:(eapply text_bytes; eauto) Hw) as (I & Is & Keep & I0 & o1 & E1 & _ & _ & o2 & E2 & C2 & F2 & B2).
  rewrite (finish_r cf A mem mid mwr I (Zlen t) fmt items); auto.
  - cbn [o_col]. fold t. rewrite E1. cbn [bind]. rewrite E2. cbn [bind]. rewrite C2. exists (o_st mem o2). split; [reflexivity|]. split; [exact F2|exact B2].
  - intros o Ho. apply (Keep o Ho); auto. rewrite Zlen_app. exact Hfc.
  - intros o Ho. exact (strings_keep _ dst w m _ items (Keep o Ho) Hm Hcl).
  - cbn. lia.
  - cbn [o_cnt o_col]. fold t. lia.
Qed.

Lemma vfptrprnf_r_ok : forall cf A W (rd : W -> mem) wr fn (J : W -> Prop), (forall s c s', J s -> fn s c = Ok s' -> J s') ->
  forall s fmt items va, wf_cfg cf -> let t := printed cf (flt A) 0 items in Zlen t < INT_MAX ->
  (forall s, J s -> bytes_at (rd s) fmt (format items ++ [0]) /\ Forall (item_mem (rd s)) items) -> J s -> items_ok cf (flt_fine A) items ->
  vfptrprnf_r cf A W rd wr (Some fn) s fmt (arguments cf items ++ va) = let! s := feed fn s t in Ok (Zlen t, total_calls A items, s).
Proof.
  intros cf A W rd wr fn J Hj s fmt items va Wf t Ht Hm Hs Hok. unfold vfptrprnf_r. pose proof (Zlen_nonneg t) as Zt.
  rewrite (finish_r cf A W rd wr (feeding W fn J) (Zlen t) fmt items); auto.
  - cbn [o_col]. fold t. pose proof (chars_feed cf W rd wr fn t 0 0 s ltac:(lia) ltac:(lia)) as Ce.
    assert (forall o1, out_chars cf W rd wr (Out W 0 0 0 null (Some fn) s) t = Ok o1 -> o_buf W o1 = null) as Hb.
    { intros o1 E. destruct (I_chars cf W rd wr (feeding W fn J) (Zlen t) ltac:(lia) (feeding_step cf W rd wr fn J Hj (Zlen t) Ht) t (Out W 0 0 0 null (Some fn) s) o1) as [K _]; auto; try (cbn; lia).
      { unfold feeding. cbn. repeat split; auto; lia. } apply K. }
    destruct (out_chars cf W rd wr (Out W 0 0 0 null (Some fn) s) t) as [o1| |]; cbn [bind] in *; destruct (feed fn s t) as [s1| |]; cbn [bind] in *; try discriminate.
    + injection Ce as C1 C2 C3. unfold out_terminate. rewrite (Hb o1 eq_refl). cbn. rewrite C1, C3. reflexivity.
    + injection Ce as ->. reflexivity.
    + reflexivity.
  - now apply feeding_step.
  - intros o (_ & _ & _ & Hj1). now apply Hm.
  - intros o (_ & _ & _ & Hj1). now apply Hm.
  - unfold feeding. cbn. repeat split; auto; lia.
  - cbn. lia.
  - cbn [o_cnt o_col]. fold t. lia.
Qed.
