(** Proofs about prnf with other default precisions. *)
From Verif Require Import Base Mem Libc StrviewModel Spec MemLemmas StrviewProofs StrviewProofs3 NumSpec StrnumProofs StrnumProofs2 StrnumProofs3
  PrnfModel PrnfSpec PrnfSpec2 PrnfProofs PrnfProofs2 PrnfProofs3 PrnfProofs4 PrnfProofs5 PrnfProofs9 PrnfDefModel PrnfDefSpec PrnfAssertProofs.

(** ** The build as shipped *)
Section Same.
Variable cf : cfg.
Variable A : fops.
Variable W : Type.
Variable rd : W -> mem.
Variable wr : W -> mem -> W.

Lemma prec_same : forall ph, get_prec_d as_shipped ph = get_prec ph.
Proof. intros ph. unfold get_prec_d, get_prec. destruct (ph_pspec ph); [reflexivity|]. destruct (ph_type ph); reflexivity. Qed.
Lemma float_same : forall o ph v p, print_float_d cf A W rd wr as_shipped o ph v p = print_float cf A W rd wr o ph v p.
Proof.
  intros o ph v p. unfold print_float_d, print_float, determine_float_msg_d, determine_float_msg, print_float_normal_d, print_float_normal. rewrite prec_same. reflexivity.
Qed.
Lemma place_same : forall o v ph, print_placeholder_d cf A W rd wr as_shipped o v ph = print_placeholder cf A W rd wr o v ph.
Proof.
  intros o v ph. unfold print_placeholder_d, print_placeholder. destruct (ph_type ph), v; try reflexivity; [apply float_same|].
  destruct (get_eng A v). apply float_same.
Qed.
Lemma loop_same : forall fuel limit o fmt va, core_loop_d cf A W rd wr as_shipped fuel limit o fmt va = core_loop cf A W rd wr fuel limit o fmt va.
Proof.
  induction fuel as [|f IH]; intros limit o fmt va; cbn [PrnfDefModel.core_loop_d PrnfModel.core_loop]; [reflexivity|].
  destruct (load_byte _ _) as [c| |]; cbn [bind]; auto. destruct (c =? 0); [reflexivity|]. destruct (c =? 37).
  - destruct (padd _ _ _ _) as [p1| |]; cbn [bind]; auto. destruct (load_byte _ _) as [c1| |]; cbn [bind]; auto. destruct (c1 =? 37).
    + destruct (PrnfModel.out_char _ _ _ _ _ _) as [o1| |]; cbn [bind]; auto. destruct (padd _ _ _ _) as [p2| |]; cbn [bind]; auto.
    + destruct (parse_placeholder _ _ _ _) as [[ph p2]| |]; cbn [bind]; auto.
      destruct (read_varg _ _ _ _) as [[[ph1 v] va1]| |]; cbn [bind]; auto. rewrite place_same.
      destruct (PrnfModel.print_placeholder _ _ _ _ _ _ _ _) as [o1| |]; cbn [bind]; auto.
  - destruct (c =? 11).
    + destruct (padd _ _ _ _) as [p1| |]; cbn [bind]; auto. destruct (print_col_alignment _ _ _ _ _ _ _) as [[o1 p2]| |]; cbn [bind]; auto.
    + destruct (PrnfModel.out_char _ _ _ _ _ _) as [o1| |]; cbn [bind]; auto. destruct (padd _ _ _ _) as [p2| |]; cbn [bind]; auto.
Qed.
Lemma core_same : forall o fmt va, core_prnf_d cf A W rd wr as_shipped o fmt va = core_prnf cf A W rd wr o fmt va.
Proof. intros o fmt va. unfold core_prnf_d, core_prnf. destruct (access _ _) as [k| |]; cbn [bind]; auto. rewrite loop_same. reflexivity. Qed.
End Same.

(** ** The precision written out *)
Section Fill.
Variable cf : cfg.
Variable A : fops.
Variable W : Type.
Variable rd : W -> mem.
Variable wr : W -> mem -> W.
Variable df : defaults.

Definition put_prec (ph : placeholder) (p : Z) : placeholder :=
  Ph (ph_minus ph) (ph_zero ph) (ph_sign ph) true (ph_width ph) p (ph_pdyn ph) (ph_wdyn ph) (ph_size ph) (ph_type ph).
Definition fill (ph : placeholder) : placeholder :=
  if ph_pspec ph then ph else match ph_type ph with TYPE_FLOAT => put_prec ph (d_flt df) | TYPE_ENG => put_prec ph (d_eng df) | _ => ph end.

Lemma prec_fill : forall ph, ph_type ph = TYPE_FLOAT \/ ph_type ph = TYPE_ENG -> get_prec (fill ph) = get_prec_d df ph.
Proof.
  intros ph H. unfold get_prec, get_prec_d, fill. destruct (ph_pspec ph) eqn:E; [rewrite E; reflexivity|]. destruct H as [-> | ->]; reflexivity.
Qed.
Lemma float_fill : forall o ph v p, ph_type ph = TYPE_FLOAT \/ ph_type ph = TYPE_ENG ->
  print_float_d cf A W rd wr df o ph v p = print_float cf A W rd wr o (fill ph) v p.
Proof.
  intros o ph v p H. unfold print_float_d, print_float, determine_float_msg_d, determine_float_msg, print_float_normal_d, print_float_normal.
  rewrite (prec_fill ph H).
  assert (forall q, determine_sign_char_of_float A (put_prec ph q) v = determine_sign_char_of_float A ph v) as S by reflexivity.
  unfold fill. destruct (ph_pspec ph) eqn:E; [reflexivity|].
  assert (forall q msg, print_float_special cf A W rd wr o (put_prec ph q) msg v = print_float_special cf A W rd wr o ph msg v) as K.
  { intros q msg. unfold print_float_special. rewrite S. unfold prepad, postpad, is_centered_string. cbn [put_prec ph_minus ph_zero ph_sign ph_pspec ph_width ph_prec ph_pdyn ph_wdyn ph_size ph_type].
    change (1 =? 0) with false. rewrite !andb_false_r. reflexivity. }
  assert (forall q n o, prepad cf W rd wr o (put_prec ph q) n = prepad cf W rd wr o ph n) as K1.
  { intros q n o1. unfold prepad, is_centered_string. cbn [put_prec ph_minus ph_zero ph_sign ph_pspec ph_width ph_prec ph_pdyn ph_wdyn ph_size ph_type]. destruct H as [-> | ->]; cbn [andb is_type_int is_type_numeric negb]; rewrite ?andb_false_r; reflexivity. }
  assert (forall q n o, postpad cf W rd wr o (put_prec ph q) n = postpad cf W rd wr o ph n) as K2.
  { intros q n o1. unfold postpad, is_centered_string. cbn [put_prec ph_minus ph_zero ph_sign ph_pspec ph_width ph_prec ph_pdyn ph_wdyn ph_size ph_type]. destruct H as [-> | ->]; reflexivity. }
  destruct H as [Ht|Ht]; rewrite Ht; rewrite S; destruct (negb _); rewrite ?K; auto; destruct (f_lt A (f_max A) _); rewrite ?K; auto;
    destruct (_ || _); rewrite ?K; auto;
    destruct (round_float_to_ulong _ _) as [u| |]; cbn [bind]; auto; destruct (ulong2asc_rev _) as [x| |]; cbn [bind]; auto;
    destruct (zero_fill _ _ _) as [x1| |]; cbn [bind]; auto; destruct (get_prec_d df ph =? 0); rewrite K1;
    (destruct (prepad _ _ _ _ _ _ _) as [o1| |]; cbn [bind]; auto);
    (destruct (if _ : bool then Ok o1 else _) as [o2| |]; cbn [bind]; auto);
    (destruct (float_loop _ _ _ _ _ _ _) as [o3| |]; cbn [bind]; auto);
    (destruct (if _ : bool then _ else Ok o3) as [o4| |]; cbn [bind]; auto).
Qed.
Lemma place_fill : forall o v ph, print_placeholder_d cf A W rd wr df o v ph = print_placeholder cf A W rd wr o v (fill ph).
Proof.
  intros o v ph. unfold print_placeholder_d, print_placeholder.
  assert (ph_type (fill ph) = ph_type ph) as T by (unfold fill; destruct (ph_pspec ph); auto; destruct (ph_type ph) eqn:E; auto; exact E). rewrite T.
  destruct (ph_type ph) eqn:E, v; try reflexivity; try (unfold fill; rewrite E; destruct (ph_pspec ph); reflexivity); try (apply float_fill; auto).
  destruct (get_eng A v). apply float_fill. auto.
Qed.
End Fill.

Definition any_flt {D} (e : bool) (c : conv) (d : D) : Prop := True.

Section Core.
Variable cf : cfg.
Variable A : fops.
Variable W : Type.
Variable rd : W -> mem.
Variable wr : W -> mem -> W.
Variable df : defaults.
Notation D := (dbl A).
Notation out := (out W).
Notation out_char := (out_char cf W rd wr).
Notation out_chars := (out_chars cf W rd wr).
Notation print_placeholder := (print_placeholder cf A W rd wr).
Notation core_loop := (core_loop_d cf A W rd wr df).
Notation memof o := (rd (o_st W o)).
Notation flt := (flt A).
Notation flt_ok := (flt_fine A).
Notation flt_bytes := (flt_bytes A).
Notation flt_f := (flt_f cf A W rd wr).
Notation flt_e := (flt_e cf A W rd wr).
Notation wo := (written_out (d_eng df) (d_flt df)).

Variable I : out -> Prop.
Variable M : Z.
Hypothesis M_max : M < INT_MAX.
Hypothesis I_step : forall o c o', I o -> 0 <= o_cnt W o < M -> out_char o c = Ok o' -> I o'.
Hypothesis wf : wf_cfg cf.
Variable fmt : ptr.
Variable full : list Z.
Hypothesis fmt_at : forall o, I o -> bytes_at (memof o) fmt full.
Notation fmt_tail := (fmt_tail cf W rd I fmt full fmt_at).

Lemma wo_mem : forall m (i : item D), item_mem m (wo i) = item_mem m i.
Proof. intros m i. destruct i; reflexivity. Qed.
Lemma wo_still : forall m (i : item D), item_still A m (wo i) = item_still A m i.
Proof. intros m i. destruct i; reflexivity. Qed.
Lemma fill_default : forall c e, fill df (ph_of cf c (if e : bool then TYPE_ENG else TYPE_FLOAT)) = ph_of cf (with_default (if e then d_eng df else d_flt df) c) (if e then TYPE_ENG else TYPE_FLOAT).
Proof.
  intros c e. unfold fill, ph_of, with_default, prec_of, put_prec. destruct c as [fl wd [| |z p|p] ln]; cbn [cv_prec cv_flags cv_width cv_len ph_pspec ph_type]; try reflexivity. destruct e; reflexivity.
Qed.
Lemma wo_conv : forall (i : item D) c t a, item_conv cf A i = Some (c, t, a) -> item_ok cf any_flt i ->
  exists c1, item_conv cf A (wo i) = Some (c1, t, a) /\ fill df (ph_of cf c (type_of t)) = ph_of cf c1 (type_of t).
Proof.
  intros i c t a H Hi. destruct i; cbn [item_conv] in H; try discriminate; injection H as <- <- <-; cbn [written_out item_conv item_ok] in *; eexists; (split; [reflexivity|]).
  - replace (type_of (if b then 105 else 100)) with TYPE_INT by (destruct b; reflexivity). unfold fill. destruct (ph_pspec _); reflexivity.
  - change (type_of 117) with TYPE_UINT. unfold fill. destruct (ph_pspec _); reflexivity.
  - replace (type_of (if b then 88 else 120)) with TYPE_HEX by (destruct b; reflexivity). unfold fill. destruct (ph_pspec _); reflexivity.
  - change (type_of 111) with TYPE_BIN. unfold fill. destruct (ph_pspec _); reflexivity.
  - change (type_of 99) with TYPE_CHAR. unfold fill. destruct (ph_pspec _); reflexivity.
  - replace (type_of (if b then 83 else 115)) with TYPE_STR by (destruct b; reflexivity). unfold fill. destruct (ph_pspec _); reflexivity.
  - replace (type_of (if b then 70 else 102)) with TYPE_FLOAT by (destruct b; reflexivity). apply (fill_default _ false).
  - replace (type_of (if b then 69 else 101)) with TYPE_ENG by (destruct b; reflexivity). apply (fill_default _ true).
  - destruct Hi as (_ & Ht & _). rewrite (other_type _ Ht). unfold fill. destruct (ph_pspec _); reflexivity.
Qed.
Lemma wo_read : forall (i : item D) c c1 t a a1 va v, item_conv cf A i = Some (c, t, a) -> item_conv cf A (wo i) = Some (c1, t, a1) ->
  read_value A (ph_of cf c1 (type_of t)) (a ++ va) = Ok (ph_of cf c1 (type_of t), v, va) ->
  read_value A (ph_of cf c (type_of t)) (a ++ va) = Ok (ph_of cf c (type_of t), v, va).
Proof.
  intros i c c1 t a a1 va v H H1 E. assert (ph_size (ph_of cf c1 (type_of t)) = ph_size (ph_of cf c (type_of t))) as Es.
  { destruct i; cbn [written_out item_conv] in *; try discriminate; injection H as <- <- <-; injection H1 as <- _; cbn [ph_of ph_size]; try reflexivity;
      unfold with_default; destruct (cv_prec _); reflexivity. }
  unfold read_value in *. cbn [ph_of ph_type] in *. change (PrnfModel.Ph _ _ _ _ _ _ _ _ _ _) with (ph_of cf c1 (type_of t)) in E.
  rewrite Es in E. destruct (type_of t); repeat (match type of E with
    | context [if ?b then _ else _] => destruct b
    | context [match ?x with [] => _ | _ :: _ => _ end] => destruct x as [|[]]
    end); try discriminate; injection E; intros; subst; try reflexivity.
  congruence.
Qed.

(** One item, then the rest. *)
Lemma item_step_d : forall limit, (length full <= limit)%nat -> forall i pre x rest fuel o va,
  full = pre ++ item_text i ++ x :: rest -> item_ok cf any_flt i -> item_ok cf flt_ok (wo i) -> next_ok cf A i x -> I o -> item_mem (memof o) i -> (forall o, I o -> item_still A (memof o) i) ->
  0 <= o_col W o <= o_cnt W o -> o_cnt W o + Zlen (item_out cf flt (o_col W o) (wo i)) <= M -> (length (item_text i) < fuel)%nat ->
  exists fuel', (fuel <= fuel' + length (item_text i))%nat /\
    core_loop fuel limit o (shift fmt (Zlen pre)) (item_args cf i ++ va) =
    let! o1 := out_chars o (item_out cf flt (o_col W o) (wo i)) in core_loop fuel' limit o1 (shift fmt (Zlen (pre ++ item_text i))) va.
Proof.
  intros limit Hlim i pre x rest fuel o va Efull Hi Hiw Hx Ho Hmi Hms Hr Hc Hf.
  set (s := item_out cf flt (o_col W o) (wo i)) in *. pose proof (Zlen_nonneg s) as Zs.
  assert (Forall is_byte s) as Bs by (eapply item_bytes; eauto using PrnfProofs4.flt_bytes; rewrite wo_mem; eauto).
  destruct (item_conv cf A i) as [[[c t] a]|] eqn:Ec.
  + (* conversions *)
    destruct (item_conv_text cf A any_flt _ _ _ _ Ec Hi) as (Et & Ht & Ea). pose proof (item_conv_ok cf A any_flt _ _ _ _ Ec Hi) as Hcv.
    rewrite Ea, <- app_assoc. rewrite Et in *. destruct fuel as [|fuel]; [lia|]. exists fuel. cbn [core_loop_d].
    pose proof (conv_text_len c t) as Lt. split; [unfold Zlen in Lt; lia|].
    set (body := map flg_char (cv_flags c) ++ wid_text (cv_width c) ++ prc_text (cv_prec c) ++ len_text (cv_len c)) in *.
    assert (full = pre ++ 37 :: body ++ t :: x :: rest) as E37.
    { rewrite Efull. unfold conv_text, body. cbn [app]. rewrite <- !app_assoc. reflexivity. }
    destruct (fmt_tail o pre 37 (body ++ t :: x :: rest)) as (L1 & L2 & L3); auto.
    rewrite L1. cbn [bind Z.eqb Pos.eqb]. rewrite L2. cbn [bind].
    assert (full = (pre ++ [37]) ++ body ++ t :: x :: rest) as Eb by (rewrite <- app_assoc; exact E37).
    assert (exists y r, body ++ t :: x :: rest = y :: r /\ y <> 37) as (y & r & Ey & Ny).
    { destruct (first_char c t (x :: rest) Hcv Ht) as (y & r & Ey & Ny). exists y, r. split; auto. unfold body. rewrite <- !app_assoc. exact Ey. }
    destruct (fmt_tail o (pre ++ [37]) y r) as (M1 & M2 & M3); auto. { rewrite Eb, Ey. reflexivity. }
    rewrite M1. cbn [bind]. rewrite (proj2 (Z.eqb_neq y 37)) by auto.
    rewrite <- Ey in M3. unfold body in M3. rewrite <- !app_assoc in M3.
    rewrite (parse_placeholder_ok cf c t (x :: rest) limit (memof o) _ Hcv Ht M3).
    2:{ fold body. rewrite E37 in Hlim. rewrite app_length in Hlim. cbn [length] in Hlim. rewrite app_length in Hlim. lia. }
    cbn [bind]. rewrite read_varg_conv by auto. cbn [app].
    destruct (wo_conv _ _ _ _ Ec Hi) as (c1 & Ec1 & P1).
    destruct (conv_item cf A W rd wr flt flt_ok flt_f flt_e I M M_max I_step wf (wo i) c1 t a va o Ec1 Hiw Ho) as (v & V1 & V2); [now rewrite wo_mem|intros o1 Ho1; rewrite wo_still; auto|lia|fold s; lia|].
    rewrite (wo_read _ _ _ _ _ _ va v Ec Ec1 V1). cbn [bind]. rewrite place_fill, P1, V2. fold s. destruct (out_chars o s) as [o1| |] eqn:E1; cbn [bind]; auto.
    rewrite shift_shift. replace (Zlen (pre ++ [37]) + (Zlen (conv_text c t) - 1)) with (Zlen (pre ++ conv_text c t)); [reflexivity|].
    rewrite !Zlen_app, Zlen_cons. change (Zlen (@nil Z)) with 0. lia.
  + destruct i; cbn [item_conv] in Ec; try discriminate; clear Ec; cbn [item_text item_args app item_ok item_out next_ok written_out] in *.
    * (* text *)
      exists (fuel - length l)%nat. split; [lia|].
      assert (forall b a o1 fuel, l = a ++ b -> out_chars o a = Ok o1 -> (length b <= fuel)%nat ->
        core_loop fuel limit o1 (shift fmt (Zlen (pre ++ a))) va =
        bind (out_chars o1 b) (fun o2 => core_loop (fuel - length b) limit o2 (shift fmt (Zlen (pre ++ l))) va)) as K.
      { induction b as [|y b IHb]; intros a o1 f El E1 Hf1; cbn [PrnfModel.out_chars bind].
        - rewrite app_nil_r in El. subst a. rewrite Nat.sub_0_r. reflexivity.
        - destruct f as [|f]; [cbn in Hf1; lia|]. cbn [core_loop_d].
          assert (Zlen s = Zlen a + Zlen b + 1) as Ls by (unfold s; rewrite El, Zlen_app, Zlen_cons; lia).
          pose proof (Zlen_nonneg a). pose proof (Zlen_nonneg b).
          destruct (I_chars cf W rd wr I M (Z.lt_le_incl _ _ M_max) I_step a o o1) as [Ho1 Co1]; auto; try lia.
          assert (0 < y < 256 /\ y <> 37 /\ y <> 11) as (X1 & X2 & X3). { rewrite El in Hi. apply Forall_app in Hi as [_ Hi]. now inversion Hi. }
          destruct (fmt_tail o1 (pre ++ a) y (b ++ x :: rest)) as (L1 & _); auto.
          { rewrite Efull, El, <- !app_assoc. reflexivity. }
          rewrite L1. cbn [bind]. rewrite (proj2 (Z.eqb_neq y 0)), (proj2 (Z.eqb_neq y 37)), (proj2 (Z.eqb_neq y 11)) by lia.
          rewrite bind_bind. destruct (out_char o1 y) as [o2| |] eqn:E2; cbn [bind]; auto.
          assert (I o2) as Ho2 by (eapply I_step; eauto; lia).
          destruct (fmt_tail o2 (pre ++ a) y (b ++ x :: rest)) as (_ & L2 & _); auto.
          { rewrite Efull, El, <- !app_assoc. reflexivity. }
          rewrite L2. cbn [bind]. rewrite <- app_assoc. cbn [length Nat.sub]. apply IHb.
          + rewrite El, <- app_assoc. reflexivity.
          + rewrite out_chars_app, E1. cbn [bind PrnfModel.out_chars]. now rewrite E2.
          + cbn [length] in Hf1. lia. }
      specialize (K l [] o fuel eq_refl eq_refl ltac:(lia)). rewrite app_nil_r in K. exact K.
    * (* %% *)
      destruct fuel as [|fuel]; [lia|]. exists fuel. split; [cbn [length]; lia|]. cbn [core_loop_d].
      destruct (fmt_tail o pre 37 (37 :: x :: rest)) as (L1 & L2 & _); auto.
      rewrite L1. cbn [bind Z.eqb Pos.eqb]. rewrite L2. cbn [bind].
      destruct (fmt_tail o (pre ++ [37]) 37 (x :: rest)) as (M1 & _); auto. { rewrite Efull, <- !app_assoc. reflexivity. }
      rewrite M1. cbn [bind Z.eqb Pos.eqb]. subst s. cbn [PrnfModel.out_chars] in *. rewrite bind_bind.
      destruct (out_char o 37) as [o1| |] eqn:E1; cbn [bind] in *; auto.
      destruct (fmt_tail o1 (pre ++ [37]) 37 (x :: rest)) as (_ & M2 & _). { eapply I_step; eauto. rewrite Zlen_cons in *. change (Zlen (@nil Z)) with 0 in *. lia. } { rewrite Efull, <- !app_assoc. reflexivity. }
      rewrite M2. cbn [bind]. rewrite <- app_assoc. reflexivity.
    * (* \v *)
      destruct fuel as [|fuel]; [lia|]. exists fuel. split; [cbn [length]; lia|]. cbn [core_loop_d].
      destruct (fmt_tail o pre 11 (x :: rest)) as (L1 & L2 & _); auto.
      rewrite L1. cbn [bind Z.eqb Pos.eqb]. rewrite L2. cbn [bind]. unfold print_col_alignment.
      destruct (fmt_tail o (pre ++ [11]) x rest) as (M1 & _ & M3); auto. { rewrite Efull, <- !app_assoc. reflexivity. }
      rewrite M1. cbn [bind]. rewrite digit_eq, Hx.
      rewrite (atoi_ok cf [] limit (memof o) _ 0 x rest); auto; try (cbn; unfold INT_MAX; lia).
      2:{ rewrite Efull in Hlim. rewrite app_length in Hlim. cbn [length app] in *. lia. }
      cbn [bind]. change (Zlen (@nil Z)) with 0. rewrite shift_0, M1. cbn [bind negb]. subst s. cbn [PrnfModel.out_chars] in *. rewrite !bind_bind.
      destruct (out_char o 11) as [o1| |] eqn:E1; cbn [bind] in *; auto.
    * (* column *)
      destruct Hi as (Hn & Hb & Hv & Dx). pose proof (counts_ge _ _ Hv) as Hge. destruct fuel as [|fuel]; [lia|]. exists fuel. split; [cbn [length]; lia|]. cbn [core_loop_d].
      destruct (num_small z n Hn) as (S1 & _ & S3).
      assert (full = (pre ++ [11]) ++ num_text z n ++ pad :: x :: rest) as E1.
      { rewrite Efull. cbn [app]. rewrite <- !app_assoc. reflexivity. }
      destruct (fmt_tail o pre 11 (num_text z n ++ pad :: x :: rest)) as (L1 & L2 & _); auto. { rewrite E1, <- !app_assoc. reflexivity. }
      rewrite L1. cbn [bind Z.eqb Pos.eqb]. rewrite L2. cbn [bind]. unfold print_col_alignment.
      assert (exists y r, num_text z n = y :: r /\ prnf_is_digit y = true) as (y & r & Ey & Dy).
      { destruct (num_text z n) as [|y r]; [congruence|]. exists y, r. split; auto. inversion S1 as [|? ? Hy _]; subst. destruct (dig10 y Hy).
        unfold prnf_is_digit. rewrite (proj2 (Z.leb_le 48 y)), (proj2 (Z.leb_le y 57)) by lia. reflexivity. }
      destruct (fmt_tail o (pre ++ [11]) y (r ++ pad :: x :: rest)) as (M1 & _ & M3); auto. { rewrite E1, Ey. reflexivity. }
      rewrite M1. cbn [bind]. rewrite Dy. cbn [negb].
      assert (length (num_text z n) < limit)%nat as Lf.
      { rewrite E1 in Hlim. rewrite !app_length in Hlim. cbn [length] in Hlim. lia. }
      rewrite (atoi_num cf z n limit (memof o) _ pad (x :: rest)); auto; [|rewrite Ey; exact M3].
      cbn [bind]. rewrite shift_shift, <- Zlen_app.
      destruct (fmt_tail o ((pre ++ [11]) ++ num_text z n) pad (x :: rest)) as (N1 & _); auto. { rewrite E1, <- !app_assoc. reflexivity. }
      rewrite N1. cbn [bind]. rewrite char_counts, Hv by exact Hb. cbn [negb]. rewrite (proj2 (Z.eqb_neq pad 0)) by lia. cbn [negb].
      rewrite (col_loop_eq cf W rd wr (Z.to_nat (n - o_col W o))); auto; try lia.
      2:{ assert (Zlen s = Z.max 0 (n - o_col W o)) as Ls by apply Zlen_copies. lia. }
      change (repeat pad (Z.to_nat (n - o_col W o))) with (copies pad (n - o_col W o)). fold s.
      destruct (out_chars o s) as [o1| |] eqn:Eo; cbn [bind]; auto.
      destruct (fmt_tail o1 ((pre ++ [11]) ++ num_text z n) pad (x :: rest)) as (_ & N2 & _); auto. { eapply (I_chars cf W rd wr I M (Z.lt_le_incl _ _ M_max) I_step s o o1); eauto; lia. } { rewrite E1, <- !app_assoc. reflexivity. }
      rewrite N2. cbn [bind]. rewrite <- !app_assoc. reflexivity.
    * (* column without a character to fill it with *)
      destruct Hx as [Cx Bx]. destruct fuel as [|fuel]; [lia|]. exists fuel. split; [cbn [length]; lia|]. cbn [core_loop_d].
      destruct (num_small z n Hi) as (S1 & _ & S3).
      assert (full = (pre ++ [11]) ++ num_text z n ++ x :: rest) as E1 by (rewrite Efull, <- !app_assoc; reflexivity).
      destruct (fmt_tail o pre 11 (num_text z n ++ x :: rest)) as (L1 & L2 & _); auto.
      rewrite L1. cbn [bind Z.eqb Pos.eqb]. rewrite L2. cbn [bind]. unfold print_col_alignment.
      assert (exists y r, num_text z n = y :: r /\ prnf_is_digit y = true) as (y & r & Ey & Dy).
      { destruct (num_text z n) as [|y r]; [congruence|]. exists y, r. split; auto. inversion S1 as [|? ? Hy _]; subst. destruct (dig10 y Hy).
        unfold prnf_is_digit. rewrite (proj2 (Z.leb_le 48 y)), (proj2 (Z.leb_le y 57)) by lia. reflexivity. }
      destruct (fmt_tail o (pre ++ [11]) y (r ++ x :: rest)) as (M1 & _ & M3); auto. { rewrite E1, Ey. reflexivity. }
      rewrite M1. cbn [bind]. rewrite Dy. cbn [negb].
      assert (length (num_text z n) < limit)%nat as Lf.
      { rewrite E1 in Hlim. rewrite !app_length in Hlim. cbn [length] in Hlim. lia. }
      assert (prnf_is_digit x = false) as Dx.
      { unfold prnf_is_digit. destruct (Z.leb_spec 48 x); auto. apply Z.leb_gt. unfold counts in Cx.
        rewrite (proj2 (Z.leb_le 32 x)) in Cx by lia. destruct (Z.ltb_spec x 128); cbn in Cx; [discriminate|lia]. }
      rewrite (atoi_num cf z n limit (memof o) _ x rest); auto; [|rewrite Ey; exact M3].
      cbn [bind]. rewrite shift_shift, <- Zlen_app.
      destruct (fmt_tail o ((pre ++ [11]) ++ num_text z n) x rest) as (N1 & _); auto. { rewrite E1, <- !app_assoc. reflexivity. }
      rewrite N1. cbn [bind]. rewrite char_counts, Cx by exact Bx. cbn [negb Z.eqb]. rewrite <- !app_assoc. reflexivity.
Qed.


(** Several items; [x] is the character after them. *)
Lemma core_items_d : forall limit, (length full <= limit)%nat -> forall items pre x rest fuel o va,
  full = pre ++ format items ++ x :: rest -> items_then cf A any_flt x items -> Forall (fun i => item_ok cf flt_ok (wo i)) items -> I o -> (forall o, I o -> Forall (item_mem (memof o)) items) ->
  0 <= o_col W o <= o_cnt W o -> o_cnt W o + Zlen (printed cf flt (o_col W o) (map wo items)) <= M -> (length (format items) < fuel)%nat ->
  exists fuel', (fuel <= fuel' + length (format items))%nat /\
    core_loop fuel limit o (shift fmt (Zlen pre)) (arguments cf items ++ va) =
    let! o1 := out_chars o (printed cf flt (o_col W o) (map wo items)) in core_loop fuel' limit o1 (shift fmt (Zlen (pre ++ format items))) va.
Proof.
  intros limit Hlim. induction items as [|i items IH]; intros pre x rest fuel o va Efull Hok Hnt Ho Hm Hr Hc Hf.
  - exists fuel. cbn [map printed PrnfModel.out_chars bind length format concat arguments app]. rewrite app_nil_r. split; [lia|reflexivity].
  - cbn [printed map] in *. change (format (i :: items)) with (item_text i ++ format items) in *.
    change (arguments cf (i :: items)) with (item_args cf i ++ arguments cf items). rewrite <- app_assoc.
    destruct Hok as (Hi & Hok & Hx). set (s := item_out cf flt (o_col W o) (wo i)) in *.
    assert (forall o, I o -> item_mem (memof o) i) as Hmi by (intros o1 Ho1; specialize (Hm o1 Ho1); now inversion Hm).
    assert (forall o, I o -> Forall (item_mem (memof o)) items) as Hmt by (intros o1 Ho1; specialize (Hm o1 Ho1); now inversion Hm).
    pose proof (Forall_inv Hnt) as Hti. cbv beta in Hti. pose proof (Forall_inv_tail Hnt) as Htt.
    assert (Forall is_byte s) as Bs by (eapply item_bytes; eauto using PrnfProofs4.flt_bytes; rewrite wo_mem; eauto).
    rewrite Zlen_app in Hc. rewrite app_length in Hf.
    pose proof (Zlen_nonneg s) as Zs. pose proof (Zlen_nonneg (printed cf flt (after cf (o_col W o) s) (map wo items))) as Zp.
    assert (exists y r, format items ++ x :: rest = y :: r /\ hd x (format items) = y) as (y & r & Ey & Hy).
    { destruct (format items) as [|y r]; [exists x, rest|exists y, (r ++ x :: rest)]; auto. }
    destruct (item_step_d limit Hlim i pre y r fuel o (arguments cf items ++ va)) as (f1 & F1 & E1); auto using item_mem_still; try lia.
    { rewrite Efull, <- app_assoc, Ey. reflexivity. } { now rewrite <- Hy. } { fold s. lia. }
    rewrite E1. fold s. rewrite out_chars_app.
    destruct (out_chars o s) as [o1|u|] eqn:Es; cbn [bind].
    + destruct (out_chars_col cf W rd wr s o o1) as (C1 & C2 & C3); auto; [lia|].
      destruct (IH (pre ++ item_text i) x rest f1 o1 va) as (f2 & F2 & E2); auto.
      * rewrite Efull, <- !app_assoc. reflexivity.
      * eapply (I_chars cf W rd wr I M (Z.lt_le_incl _ _ M_max) I_step s o o1); eauto; lia.
      * rewrite C1, C2. lia.
      * lia.
      * exists f2. rewrite app_length. split; [lia|]. rewrite E2, C1, <- app_assoc. reflexivity.
    + exists fuel. split; [lia|reflexivity].
    + exists fuel. split; [lia|reflexivity].
Qed.

End Core.

(** ** Whole calls *)
Section Call.
Variable cf : cfg.
Variable A : fops.
Variable W : Type.
Variable rd : W -> mem.
Variable wr : W -> mem -> W.
Variable df : defaults.
Notation out := (out W).
Notation out_char := (out_char cf W rd wr).
Notation out_chars := (out_chars cf W rd wr).
Notation memof o := (rd (o_st W o)).
Notation wo := (written_out (d_eng df) (d_flt df)).
Notation text col items := (printed cf (flt A) col (map wo items)).

Lemma finish_d : forall (I : out -> Prop) M fmt items o va, wf_cfg cf -> M < INT_MAX ->
  (forall o c o', I o -> 0 <= o_cnt W o < M -> out_char o c = Ok o' -> I o') ->
  (forall o, I o -> bytes_at (memof o) fmt (format items ++ [0])) -> (forall o, I o -> Forall (item_mem (memof o)) items) ->
  items_ok cf any_flt items -> Forall (fun i => item_ok cf (flt_fine A) (wo i)) items -> I o -> 0 <= o_col W o <= o_cnt W o -> o_cnt W o + Zlen (text (o_col W o) items) <= M ->
  core_prnf_d cf A W rd wr df o fmt (arguments cf items ++ va) =
    let! o := out_chars o (text (o_col W o) items) in let! o := out_terminate W rd wr o in Ok (o_cnt W o, o).
Proof.
  intros I M fmt items o va Wf HM Is If Ia Hok Hnt Ho Hr Hc. unfold core_prnf_d.
  pose proof (If o Ho) as (k & Ak & K1 & K2 & _). rewrite Ak. cbn [bind].
  rewrite Zlen_app in K2. change (Zlen [0]) with 1 in K2.
  assert (length (format items) < S (Z.to_nat (b_size k)))%nat as Hlen by (unfold Zlen in K2; lia).
  assert (length (format items ++ [0%Z]) <= S (Z.to_nat (b_size k)))%nat as Hlim by (rewrite app_length; cbn [length]; lia).
  assert (items_then cf A any_flt 0 items) as Ht by (apply (items_ok_then cf A any_flt items []); now rewrite app_nil_r).
  destruct (core_items_d cf A W rd wr df I M HM Is Wf fmt (format items ++ [0]) If _ Hlim items [] 0 [] _ o va eq_refl Ht Hnt Ho Ia Hr Hc Hlen) as (f1 & F1 & E1).
  change (Zlen (@nil Z)) with 0 in E1. rewrite shift_0 in E1. rewrite E1.
  set (s := text (o_col W o) items) in *. pose proof (Zlen_nonneg s).
  destruct (out_chars o s) as [o1| |] eqn:Es; cbn [bind]; auto. destruct f1 as [|f1]; [lia|]. cbn [core_loop_d].
  destruct (I_chars cf W rd wr I M (Z.lt_le_incl _ _ HM) Is s o o1) as [Ho1 _]; auto; try lia.
  destruct (PrnfProofs3.fmt_tail cf W rd I fmt (format items ++ [0]) If o1 (format items) 0 []) as (L1 & _); auto.
  cbn [app]. rewrite L1. reflexivity.
Qed.

End Call.

Lemma wo_bytes : forall cf A df, wf_cfg cf -> forall items m col, Forall (fun i => item_ok cf (flt_fine A) (written_out (d_eng df) (d_flt df) i)) items -> Forall (item_mem m) items ->
  Forall is_byte (printed cf (flt A) col (map (written_out (d_eng df) (d_flt df)) items)).
Proof.
  intros cf A df Wf. induction items as [|i items IH]; intros m col Hok Hm; cbn [map printed]; [constructor|].
  pose proof (Forall_inv Hm). pose proof (Forall_inv Hok). apply Forall_app. split.
  - eapply (item_bytes cf A (flt A) (flt_fine A)) with (m := m); eauto using flt_bytes. destruct i; assumption.
  - eapply IH; [exact (Forall_inv_tail Hok)|exact (Forall_inv_tail Hm)].
Qed.
Lemma vsnprnf_d_ok : forall cf A df m dst n fmt items va, wf_cfg cf -> 0 <= n <= INT_MAX ->
  let t := printed cf (flt A) 0 (map (written_out (d_eng df) (d_flt df)) items) in let w := Z.min n (Zlen t + 1) in Zlen t < INT_MAX ->
  writable m dst w -> bytes_at m fmt (format items ++ [0]) -> clear_of dst w fmt (Zlen (format items) + 1) ->
  items_ok cf any_flt items -> Forall (fun i => item_ok cf (flt_fine A) (written_out (d_eng df) (d_flt df) i)) items -> Forall (item_mem m) items -> Forall (item_clear dst w) items ->
  exists m', vsnprnf_d cf A mem mid mwr df m dst n fmt (arguments cf items ++ va) = Ok (Zlen t, m') /\
    only_wrote m m' dst w /\ (0 < n -> bytes_at m' dst (firstn (Z.to_nat (n - 1)) t ++ [0])).
Proof.
  intros cf A df m dst n fmt items va Wf Hn t w Ht Hw Hf Hfc Hok Hnt Hm Hcl. unfold vsnprnf_d. assert (to_int n = n) as -> by (apply to_int_ok; unfold INT_MIN; lia).
  pose proof (Zlen_nonneg t) as Zt.
  destruct (array_setting cf m dst n t Hn Ht ltac:(eapply wo_bytes; eauto) Hw) as (I & Is & Keep & I0 & o1 & E1 & _ & _ & o2 & E2 & C2 & F2 & B2).
  rewrite (finish_d cf A mem mid mwr df I (Zlen t) fmt items); auto.
  - cbn [o_col]. fold t. rewrite E1. cbn [bind]. rewrite E2. cbn [bind]. rewrite C2. exists (o_st mem o2). split; [reflexivity|]. split; [exact F2|exact B2].
  - intros o Ho. apply (Keep o Ho); auto. rewrite Zlen_app. exact Hfc.
  - intros o Ho. exact (strings_keep _ dst w m _ items (Keep o Ho) Hm Hcl).
  - cbn. lia.
  - cbn [o_cnt o_col]. fold t. lia.
Qed.


(** ** A handler of single characters *)
Lemma vfptrprnf_d_ok : forall cf A df W (rd : W -> mem) wr fn (J : W -> Prop) s fmt items va, wf_cfg cf -> (forall s c s', J s -> fn s c = Ok s' -> J s') ->
  let t := printed cf (flt A) 0 (map (written_out (d_eng df) (d_flt df)) items) in Zlen t < INT_MAX ->
  (forall s, J s -> bytes_at (rd s) fmt (format items ++ [0]) /\ Forall (item_mem (rd s)) items) -> J s ->
  items_ok cf any_flt items -> Forall (fun i => item_ok cf (flt_fine A) (written_out (d_eng df) (d_flt df) i)) items ->
  vfptrprnf_d cf A W rd wr df (Some fn) s fmt (arguments cf items ++ va) = let! s := feed fn s t in Ok (Zlen t, s).
Proof.
  intros cf A df W rd wr fn J s fmt items va Wf Hj t Ht Hm Hs Hok Hnt. unfold vfptrprnf_d. pose proof (Zlen_nonneg t) as Zt.
  rewrite (finish_d cf A W rd wr df (feeding W fn J) (Zlen t) fmt items); auto.
  - cbn [o_col]. fold t. pose proof (chars_feed cf W rd wr fn t 0 0 s ltac:(lia) ltac:(lia)) as Ce.
    destruct (out_chars cf W rd wr (Out W 0 0 0 null (Some fn) s) t) as [o1| |] eqn:E1; cbn [bind] in *; destruct (feed fn s t) as [s1| |]; cbn [bind] in *; try discriminate.
    + injection Ce as C1 C2 C3. unfold out_terminate. rewrite C2. change (is_null null) with true. cbn [negb andb bind]. rewrite ?andb_false_r. cbn [bind]. rewrite C1, C3. reflexivity.
    + injection Ce as ->. reflexivity.
    + reflexivity.
  - intros o c o' Ho Hc E. eapply feeding_step; eauto.
  - intros o (_ & _ & _ & Hj1). now apply Hm.
  - intros o (_ & _ & _ & Hj1). now apply Hm.
  - unfold feeding. cbn. repeat split; auto; lia.
  - cbn. lia.
  - cbn [o_cnt o_col]. fold t. lia.
Qed.

(** ** The written out format *)
Lemma wo_args : forall D cf pe pf (items : list (item D)), arguments cf (map (written_out pe pf) items) = arguments cf items.
Proof.
  intros D cf pe pf. unfold arguments. induction items as [|i items IH]; [reflexivity|]. cbn [map concat]. rewrite IH. f_equal.
  destruct i; try reflexivity; cbn [written_out item_args]; unfold with_default, conv_args; destruct c as [f w [| |z p|p] l]; reflexivity.
Qed.
Lemma wo_head : forall D pe pf (items : list (item D)), hd 0 (format (map (written_out pe pf) items)) = hd 0 (format items).
Proof.
  intros D pe pf. unfold format. induction items as [|i items IH]; [reflexivity|]. cbn [map concat].
  destruct i; try reflexivity. cbn [written_out item_text]. destruct l; [exact IH|reflexivity].
Qed.
Lemma default_ok : forall p c, 0 <= p <= INT_MAX -> conv_ok c -> conv_ok (with_default p c).
Proof. intros p c Hp [H1 H2]. unfold with_default. destruct (cv_prec c) eqn:E; split; auto; rewrite ?E; auto. Qed.
Lemma wo_item_ok : forall D cf (F G : bool -> conv -> D -> Prop) pe pf i, 0 <= pe <= INT_MAX -> 0 <= pf <= INT_MAX -> (forall e c d, conv_ok c -> G e c d) ->
  item_ok cf F i -> item_ok cf G (written_out pe pf i).
Proof.
  intros D cf F G pe pf i He Hf HG H. destruct i; cbn [written_out item_ok] in *; auto; destruct H as [H _]; split; auto using default_ok.
Qed.
Lemma wo_items_ok : forall D cf (F G : bool -> conv -> D -> Prop) pe pf l, 0 <= pe <= INT_MAX -> 0 <= pf <= INT_MAX -> (forall e c d, conv_ok c -> G e c d) ->
  items_ok cf F l -> items_ok cf G (map (written_out pe pf) l) /\ items_ok cf any_flt l.
Proof.
  intros D cf F G pe pf l He Hf HG. induction l as [|i l IH]; intros H; [split; exact Logic.I|]. destruct H as (H1 & H2 & H3). destruct (IH H2) as [K1 K2].
  cbn [map items_ok]. split.
  - split; [eapply wo_item_ok; eauto|]. split; auto. rewrite wo_head. destruct i; auto.
  - split; [destruct i; cbn [item_ok] in *; auto; destruct H1; split; auto; exact Logic.I|]. split; auto.
Qed.
