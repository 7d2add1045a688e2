(** Proofs about prnf with an assertion handler. *)
From Verif Require Import Base Mem Libc StrviewModel Spec MemLemmas StrviewProofs StrviewProofs3 NumSpec StrnumProofs StrnumProofs2 StrnumProofs3
  PrnfModel PrnfSpec PrnfSpec2 PrnfProofs PrnfProofs2 PrnfProofs3 PrnfProofs4 PrnfProofs5 PrnfProofs9 PrnfAssertModel PrnfAssertSpec.

(** ** The build as shipped *)
Section Same.
Variable cf : cfg.
Variable A : fops.
Variable W : Type.
Variable rd : W -> mem.
Variable wr : W -> mem -> W.
Notation core_loop_a := (core_loop_a cf A W rd wr).
Notation core_loop := (core_loop cf A W rd wr).

Lemma loop_same : forall fuel limit o fmt va,
  match core_loop_a fuel limit o fmt va with
  | Ok (true, o1) => core_loop fuel limit o fmt va = Ok o1
  | Ok (false, _) => True
  | UB u => core_loop fuel limit o fmt va = UB u
  | Fuel => core_loop fuel limit o fmt va = Fuel
  end.
Proof.
  induction fuel as [|f IH]; intros limit o fmt va; cbn [PrnfAssertModel.core_loop_a PrnfModel.core_loop]; [reflexivity|].
  destruct (load_byte _ _) as [c| |]; cbn [bind]; auto. destruct (c =? 0); [reflexivity|]. destruct (c =? 37).
  - destruct (padd _ _ _ _) as [p1| |]; cbn [bind]; auto. destruct (load_byte _ _) as [c1| |]; cbn [bind]; auto. destruct (c1 =? 37).
    + destruct (PrnfModel.out_char _ _ _ _ _ _) as [o1| |]; cbn [bind]; auto. destruct (padd _ _ _ _) as [p2| |]; cbn [bind]; auto. apply IH.
    + destruct (parse_placeholder _ _ _ _) as [[ph p2]| |]; cbn [bind]; auto. destruct (no_type ph); [exact Logic.I|].
      destruct (read_varg _ _ _ _) as [[[ph1 v] va1]| |]; cbn [bind]; auto. destruct (asserts A v ph1); [exact Logic.I|].
      destruct (PrnfModel.print_placeholder _ _ _ _ _ _ _ _) as [o1| |]; cbn [bind]; auto. apply IH.
  - destruct (c =? 11).
    + destruct (padd _ _ _ _) as [p1| |]; cbn [bind]; auto. destruct (print_col_alignment _ _ _ _ _ _ _) as [[o1 p2]| |]; cbn [bind]; auto. apply IH.
    + destruct (PrnfModel.out_char _ _ _ _ _ _) as [o1| |]; cbn [bind]; auto. destruct (padd _ _ _ _) as [p2| |]; cbn [bind]; auto. apply IH.
Qed.
Lemma core_same : forall o fmt va,
  match core_prnf_a cf A W rd wr o fmt va with
  | Ok (Some n, o1) => core_prnf cf A W rd wr o fmt va = Ok (n, o1)
  | Ok (None, _) => True
  | UB u => core_prnf cf A W rd wr o fmt va = UB u
  | Fuel => core_prnf cf A W rd wr o fmt va = Fuel
  end.
Proof.
  intros o fmt va. unfold core_prnf_a, core_prnf. destruct (access _ _) as [k| |]; cbn [bind]; auto.
  pose proof (loop_same (S (Z.to_nat (b_size k))) (S (Z.to_nat (b_size k))) o fmt va) as H.
  destruct (core_loop_a _ _ _ _ _) as [[[|] o1]| |]; cbn [bind]; try (rewrite H; cbn [bind]); auto.
  destruct (out_terminate _ _ _ _) as [o2| |]; cbn [bind]; auto.
Qed.
End Same.

Section Core.
Variable cf : cfg.
Variable A : fops.
Variable W : Type.
Variable rd : W -> mem.
Variable wr : W -> mem -> W.
Notation D := (dbl A).
Notation out := (out W).
Notation out_char := (out_char cf W rd wr).
Notation out_chars := (out_chars cf W rd wr).
Notation print_placeholder := (print_placeholder cf A W rd wr).
Notation core_loop := (core_loop_a cf A W rd wr).
Notation memof o := (rd (o_st W o)).
Notation flt := (flt A).
Notation flt_ok := (flt_fine A).
Notation flt_bytes := (flt_bytes A).
Notation flt_f := (flt_f cf A W rd wr).
Notation flt_e := (flt_e cf A W rd wr).

Variable I : out -> Prop.
Variable M : Z.
Hypothesis M_max : M < INT_MAX.
Hypothesis I_step : forall o c o', I o -> 0 <= o_cnt W o < M -> out_char o c = Ok o' -> I o'.
Hypothesis wf : wf_cfg cf.
Variable fmt : ptr.
Variable full : list Z.
Hypothesis fmt_at : forall o, I o -> bytes_at (memof o) fmt full.
Notation fmt_tail := (fmt_tail cf W rd I fmt full fmt_at).

Lemma conv_typed : forall i c t a, item_conv cf A i = Some (c, t, a) -> item_ok cf flt_ok i -> trips A i = false -> no_type (ph_of cf c (type_of t)) = false.
Proof.
  intros i c t a H Hi Ht. destruct i; cbn [item_conv trips] in *; try discriminate; injection H as <- <- <-; try destruct b; reflexivity.
Qed.
Lemma prec_trips : forall c t d, conv_ok c -> value_fine A (flt_prec (match t with TYPE_ENG => true | _ => false end) c) d ->
  prec_asserts A (ph_of cf c t) d = finite A d && many_decimals c.
Proof.
  intros c t d Hc (V1 & _). unfold prec_asserts, finite, many_decimals. fold (absv A d). rewrite V1. cbn [ph_of ph_pspec ph_prec ph_type].
  destruct (prec_of c) as [p|]; [reflexivity|]. destruct t; reflexivity.
Qed.
Lemma conv_asserts : forall i c t a va v, item_conv cf A i = Some (c, t, a) -> item_ok cf flt_ok i ->
  read_value A (ph_of cf c (type_of t)) (a ++ va) = Ok (ph_of cf c (type_of t), v, va) -> no_type (ph_of cf c (type_of t)) = false ->
  asserts A v (ph_of cf c (type_of t)) = trips A i.
Proof.
  intros i c t a va v H Hi E Nt. destruct i; cbn [item_conv] in H; try discriminate; injection H as <- <- <-; cbn [item_ok trips] in *.
  - replace (type_of (if b then 105 else 100)) with TYPE_INT by (destruct b; reflexivity). reflexivity.
  - reflexivity.
  - replace (type_of (if b then 88 else 120)) with TYPE_HEX by (destruct b; reflexivity). reflexivity.
  - reflexivity.
  - reflexivity.
  - replace (type_of (if b then 83 else 115)) with TYPE_STR by (destruct b; reflexivity). reflexivity.
  - replace (type_of (if b then 70 else 102)) with TYPE_FLOAT in * by (destruct b; reflexivity). cbn [app] in E. unfold read_value in E. cbn [ph_of ph_type] in E.
    injection E as <-. destruct Hi as [Hc Hv]. unfold asserts. cbn [ph_of ph_type]. change (PrnfModel.Ph _ _ _ _ _ _ _ _ _ _) with (ph_of cf c0 TYPE_FLOAT). now apply prec_trips.
  - replace (type_of (if b then 69 else 101)) with TYPE_ENG in * by (destruct b; reflexivity). cbn [app] in E. unfold read_value in E. cbn [ph_of ph_type] in E.
    injection E as <-. destruct Hi as [Hc Hv]. unfold asserts. cbn [ph_of ph_type]. change (PrnfModel.Ph _ _ _ _ _ _ _ _ _ _) with (ph_of cf c0 TYPE_ENG). now apply prec_trips.
  - destruct Hi as (_ & Ht & _). rewrite (other_type _ Ht) in Nt. discriminate.
Qed.

(** One item, then the rest. *)
Lemma item_step_a : forall limit, (length full <= limit)%nat -> forall i pre x rest fuel o va,
  full = pre ++ item_text i ++ x :: rest -> item_ok cf flt_ok i -> trips A i = false -> next_ok cf A i x -> I o -> item_mem (memof o) i -> (forall o, I o -> item_still A (memof o) i) ->
  0 <= o_col W o <= o_cnt W o -> o_cnt W o + Zlen (item_out cf flt (o_col W o) i) <= M -> (length (item_text i) < fuel)%nat ->
  exists fuel', (fuel <= fuel' + length (item_text i))%nat /\
    core_loop fuel limit o (shift fmt (Zlen pre)) (item_args cf i ++ va) =
    let! o1 := out_chars o (item_out cf flt (o_col W o) i) in core_loop fuel' limit o1 (shift fmt (Zlen (pre ++ item_text i))) va.
Proof.
  intros limit Hlim i pre x rest fuel o va Efull Hi Hnn Hx Ho Hmi Hms Hr Hc Hf.
  set (s := item_out cf flt (o_col W o) i) in *. pose proof (Zlen_nonneg s) as Zs.
  assert (Forall is_byte s) as Bs by (eapply item_bytes; eauto using PrnfProofs4.flt_bytes).
  destruct (item_conv cf A i) as [[[c t] a]|] eqn:Ec.
  + (* conversions *)
    destruct (item_conv_text cf A flt_ok _ _ _ _ Ec Hi) as (Et & Ht & Ea). pose proof (item_conv_ok cf A flt_ok _ _ _ _ Ec Hi) as Hcv.
    rewrite Ea, <- app_assoc. rewrite Et in *. destruct fuel as [|fuel]; [lia|]. exists fuel. cbn [core_loop_a].
    pose proof (conv_text_len c t) as Lt. split; [unfold Zlen in Lt; lia|].
    set (body := map flg_char (cv_flags c) ++ wid_text (cv_width c) ++ prc_text (cv_prec c) ++ len_text (cv_len c)) in *.
    assert (full = pre ++ 37 :: body ++ t :: x :: rest) as E37.
    { rewrite Efull. unfold conv_text, body. cbn [app]. rewrite <- !app_assoc. reflexivity. }
    destruct (fmt_tail o pre 37 (body ++ t :: x :: rest)) as (L1 & L2 & L3); auto.
    rewrite L1. cbn [bind Z.eqb Pos.eqb]. rewrite L2. cbn [bind].
    assert (full = (pre ++ [37]) ++ body ++ t :: x :: rest) as Eb by (rewrite <- app_assoc; exact E37).
    assert (exists y r, body ++ t :: x :: rest = y :: r /\ y <> 37) as (y & r & Ey & Ny).
    { destruct (first_char c t (x :: rest) Hcv Ht) as (y & r & Ey & Ny). exists y, r. split; auto. unfold body. rewrite <- !app_assoc. exact Ey. }
    destruct (fmt_tail o (pre ++ [37]) y r) as (M1 & M2 & M3); auto. { rewrite Eb, Ey. reflexivity. }
    rewrite M1. cbn [bind]. rewrite (proj2 (Z.eqb_neq y 37)) by auto.
    rewrite <- Ey in M3. unfold body in M3. rewrite <- !app_assoc in M3.
    rewrite (parse_placeholder_ok cf c t (x :: rest) limit (memof o) _ Hcv Ht M3).
    2:{ fold body. rewrite E37 in Hlim. rewrite app_length in Hlim. cbn [length] in Hlim. rewrite app_length in Hlim. lia. }
    cbn [bind]. change (no_type (ph_raw cf c (type_of t))) with (no_type (ph_of cf c (type_of t))). rewrite (conv_typed _ _ _ _ Ec Hi Hnn). rewrite read_varg_conv by auto. cbn [app].
    destruct (conv_item cf A W rd wr flt flt_ok flt_f flt_e I M M_max I_step wf i c t a va o Ec Hi Ho Hmi Hms) as (v & V1 & V2); [lia|fold s; lia|].
    rewrite V1. cbn [bind]. rewrite (conv_asserts _ _ _ _ _ _ Ec Hi V1 (conv_typed _ _ _ _ Ec Hi Hnn)), Hnn, V2. fold s. destruct (out_chars o s) as [o1| |] eqn:E1; cbn [bind]; auto.
    rewrite shift_shift. replace (Zlen (pre ++ [37]) + (Zlen (conv_text c t) - 1)) with (Zlen (pre ++ conv_text c t)); [reflexivity|].
    rewrite !Zlen_app, Zlen_cons. change (Zlen (@nil Z)) with 0. lia.
  + destruct i; cbn [item_conv] in Ec; try discriminate; clear Ec; cbn [item_text item_args app item_ok item_out next_ok] in *.
    * (* text *)
      exists (fuel - length l)%nat. split; [lia|].
      assert (forall b a o1 fuel, l = a ++ b -> out_chars o a = Ok o1 -> (length b <= fuel)%nat ->
        core_loop fuel limit o1 (shift fmt (Zlen (pre ++ a))) va =
        bind (out_chars o1 b) (fun o2 => core_loop (fuel - length b) limit o2 (shift fmt (Zlen (pre ++ l))) va)) as K.
      { induction b as [|y b IHb]; intros a o1 f El E1 Hf1; cbn [PrnfModel.out_chars bind].
        - rewrite app_nil_r in El. subst a. rewrite Nat.sub_0_r. reflexivity.
        - destruct f as [|f]; [cbn in Hf1; lia|]. cbn [core_loop_a].
          assert (Zlen s = Zlen a + Zlen b + 1) as Ls by (unfold s; rewrite El, Zlen_app, Zlen_cons; lia).
          pose proof (Zlen_nonneg a). pose proof (Zlen_nonneg b).
          destruct (I_chars cf W rd wr I M (Z.lt_le_incl _ _ M_max) I_step a o o1) as [Ho1 Co1]; auto; try lia.
          assert (0 < y < 256 /\ y <> 37 /\ y <> 11) as (X1 & X2 & X3). { rewrite El in Hi. apply Forall_app in Hi as [_ Hi]. now inversion Hi. }
          destruct (fmt_tail o1 (pre ++ a) y (b ++ x :: rest)) as (L1 & _); auto.
          { rewrite Efull, El, <- !app_assoc. reflexivity. }
          rewrite L1. cbn [bind]. rewrite (proj2 (Z.eqb_neq y 0)), (proj2 (Z.eqb_neq y 37)), (proj2 (Z.eqb_neq y 11)) by lia.
          rewrite bind_bind. destruct (out_char o1 y) as [o2| |] eqn:E2; cbn [bind]; auto.
          assert (I o2) as Ho2 by (eapply I_step; eauto; lia).
          destruct (fmt_tail o2 (pre ++ a) y (b ++ x :: rest)) as (_ & L2 & _); auto.
          { rewrite Efull, El, <- !app_assoc. reflexivity. }
          rewrite L2. cbn [bind]. rewrite <- app_assoc. cbn [length Nat.sub]. apply IHb.
          + rewrite El, <- app_assoc. reflexivity.
          + rewrite out_chars_app, E1. cbn [bind PrnfModel.out_chars]. now rewrite E2.
          + cbn [length] in Hf1. lia. }
      specialize (K l [] o fuel eq_refl eq_refl ltac:(lia)). rewrite app_nil_r in K. exact K.
    * (* %% *)
      destruct fuel as [|fuel]; [lia|]. exists fuel. split; [cbn [length]; lia|]. cbn [core_loop_a].
      destruct (fmt_tail o pre 37 (37 :: x :: rest)) as (L1 & L2 & _); auto.
      rewrite L1. cbn [bind Z.eqb Pos.eqb]. rewrite L2. cbn [bind].
      destruct (fmt_tail o (pre ++ [37]) 37 (x :: rest)) as (M1 & _); auto. { rewrite Efull, <- !app_assoc. reflexivity. }
      rewrite M1. cbn [bind Z.eqb Pos.eqb]. subst s. cbn [PrnfModel.out_chars] in *. rewrite bind_bind.
      destruct (out_char o 37) as [o1| |] eqn:E1; cbn [bind] in *; auto.
      destruct (fmt_tail o1 (pre ++ [37]) 37 (x :: rest)) as (_ & M2 & _). { eapply I_step; eauto. rewrite Zlen_cons in *. change (Zlen (@nil Z)) with 0 in *. lia. } { rewrite Efull, <- !app_assoc. reflexivity. }
      rewrite M2. cbn [bind]. rewrite <- app_assoc. reflexivity.
    * (* \v *)
      destruct fuel as [|fuel]; [lia|]. exists fuel. split; [cbn [length]; lia|]. cbn [core_loop_a].
      destruct (fmt_tail o pre 11 (x :: rest)) as (L1 & L2 & _); auto.
      rewrite L1. cbn [bind Z.eqb Pos.eqb]. rewrite L2. cbn [bind]. unfold print_col_alignment.
      destruct (fmt_tail o (pre ++ [11]) x rest) as (M1 & _ & M3); auto. { rewrite Efull, <- !app_assoc. reflexivity. }
      rewrite M1. cbn [bind]. rewrite digit_eq, Hx.
      rewrite (atoi_ok cf [] limit (memof o) _ 0 x rest); auto; try (cbn; unfold INT_MAX; lia).
      2:{ rewrite Efull in Hlim. rewrite app_length in Hlim. cbn [length app] in *. lia. }
      cbn [bind]. change (Zlen (@nil Z)) with 0. rewrite shift_0, M1. cbn [bind negb]. subst s. cbn [PrnfModel.out_chars] in *. rewrite !bind_bind.
      destruct (out_char o 11) as [o1| |] eqn:E1; cbn [bind] in *; auto.
    * (* column *)
      destruct Hi as (Hn & Hb & Hv & Dx). pose proof (counts_ge _ _ Hv) as Hge. destruct fuel as [|fuel]; [lia|]. exists fuel. split; [cbn [length]; lia|]. cbn [core_loop_a].
      destruct (num_small z n Hn) as (S1 & _ & S3).
      assert (full = (pre ++ [11]) ++ num_text z n ++ pad :: x :: rest) as E1.
      { rewrite Efull. cbn [app]. rewrite <- !app_assoc. reflexivity. }
      destruct (fmt_tail o pre 11 (num_text z n ++ pad :: x :: rest)) as (L1 & L2 & _); auto. { rewrite E1, <- !app_assoc. reflexivity. }
      rewrite L1. cbn [bind Z.eqb Pos.eqb]. rewrite L2. cbn [bind]. unfold print_col_alignment.
      assert (exists y r, num_text z n = y :: r /\ prnf_is_digit y = true) as (y & r & Ey & Dy).
      { destruct (num_text z n) as [|y r]; [congruence|]. exists y, r. split; auto. inversion S1 as [|? ? Hy _]; subst. destruct (dig10 y Hy).
        unfold prnf_is_digit. rewrite (proj2 (Z.leb_le 48 y)), (proj2 (Z.leb_le y 57)) by lia. reflexivity. }
      destruct (fmt_tail o (pre ++ [11]) y (r ++ pad :: x :: rest)) as (M1 & _ & M3); auto. { rewrite E1, Ey. reflexivity. }
      rewrite M1. cbn [bind]. rewrite Dy. cbn [negb].
      assert (length (num_text z n) < limit)%nat as Lf.
      { rewrite E1 in Hlim. rewrite !app_length in Hlim. cbn [length] in Hlim. lia. }
      rewrite (atoi_num cf z n limit (memof o) _ pad (x :: rest)); auto; [|rewrite Ey; exact M3].
      cbn [bind]. rewrite shift_shift, <- Zlen_app.
      destruct (fmt_tail o ((pre ++ [11]) ++ num_text z n) pad (x :: rest)) as (N1 & _); auto. { rewrite E1, <- !app_assoc. reflexivity. }
      rewrite N1. cbn [bind]. rewrite char_counts, Hv by exact Hb. cbn [negb]. rewrite (proj2 (Z.eqb_neq pad 0)) by lia. cbn [negb].
      rewrite (col_loop_eq cf W rd wr (Z.to_nat (n - o_col W o))); auto; try lia.
      2:{ assert (Zlen s = Z.max 0 (n - o_col W o)) as Ls by apply Zlen_copies. lia. }
      change (repeat pad (Z.to_nat (n - o_col W o))) with (copies pad (n - o_col W o)). fold s.
      destruct (out_chars o s) as [o1| |] eqn:Eo; cbn [bind]; auto.
      destruct (fmt_tail o1 ((pre ++ [11]) ++ num_text z n) pad (x :: rest)) as (_ & N2 & _); auto. { eapply (I_chars cf W rd wr I M (Z.lt_le_incl _ _ M_max) I_step s o o1); eauto; lia. } { rewrite E1, <- !app_assoc. reflexivity. }
      rewrite N2. cbn [bind]. rewrite <- !app_assoc. reflexivity.
    * (* column without a character to fill it with *)
      destruct Hx as [Cx Bx]. destruct fuel as [|fuel]; [lia|]. exists fuel. split; [cbn [length]; lia|]. cbn [core_loop_a].
      destruct (num_small z n Hi) as (S1 & _ & S3).
      assert (full = (pre ++ [11]) ++ num_text z n ++ x :: rest) as E1 by (rewrite Efull, <- !app_assoc; reflexivity).
      destruct (fmt_tail o pre 11 (num_text z n ++ x :: rest)) as (L1 & L2 & _); auto.
      rewrite L1. cbn [bind Z.eqb Pos.eqb]. rewrite L2. cbn [bind]. unfold print_col_alignment.
      assert (exists y r, num_text z n = y :: r /\ prnf_is_digit y = true) as (y & r & Ey & Dy).
      { destruct (num_text z n) as [|y r]; [congruence|]. exists y, r. split; auto. inversion S1 as [|? ? Hy _]; subst. destruct (dig10 y Hy).
        unfold prnf_is_digit. rewrite (proj2 (Z.leb_le 48 y)), (proj2 (Z.leb_le y 57)) by lia. reflexivity. }
      destruct (fmt_tail o (pre ++ [11]) y (r ++ x :: rest)) as (M1 & _ & M3); auto. { rewrite E1, Ey. reflexivity. }
      rewrite M1. cbn [bind]. rewrite Dy. cbn [negb].
      assert (length (num_text z n) < limit)%nat as Lf.
      { rewrite E1 in Hlim. rewrite !app_length in Hlim. cbn [length] in Hlim. lia. }
      assert (prnf_is_digit x = false) as Dx.
      { unfold prnf_is_digit. destruct (Z.leb_spec 48 x); auto. apply Z.leb_gt. unfold counts in Cx.
        rewrite (proj2 (Z.leb_le 32 x)) in Cx by lia. destruct (Z.ltb_spec x 128); cbn in Cx; [discriminate|lia]. }
      rewrite (atoi_num cf z n limit (memof o) _ x rest); auto; [|rewrite Ey; exact M3].
      cbn [bind]. rewrite shift_shift, <- Zlen_app.
      destruct (fmt_tail o ((pre ++ [11]) ++ num_text z n) x rest) as (N1 & _); auto. { rewrite E1, <- !app_assoc. reflexivity. }
      rewrite N1. cbn [bind]. rewrite char_counts, Cx by exact Bx. cbn [negb Z.eqb]. rewrite <- !app_assoc. reflexivity.
Qed.


(** Several items; [x] is the character after them. *)
Lemma core_items_a : forall limit, (length full <= limit)%nat -> forall items pre x rest fuel o va,
  full = pre ++ format items ++ x :: rest -> items_then cf A flt_ok x items -> Forall (fun i => trips A i = false) items -> I o -> (forall o, I o -> Forall (item_mem (memof o)) items) ->
  0 <= o_col W o <= o_cnt W o -> o_cnt W o + Zlen (printed cf flt (o_col W o) items) <= M -> (length (format items) < fuel)%nat ->
  exists fuel', (fuel <= fuel' + length (format items))%nat /\
    core_loop fuel limit o (shift fmt (Zlen pre)) (arguments cf items ++ va) =
    let! o1 := out_chars o (printed cf flt (o_col W o) items) in core_loop fuel' limit o1 (shift fmt (Zlen (pre ++ format items))) va.
Proof.
  intros limit Hlim. induction items as [|i items IH]; intros pre x rest fuel o va Efull Hok Hnt Ho Hm Hr Hc Hf.
  - exists fuel. cbn [printed PrnfModel.out_chars bind length format map concat arguments app]. rewrite app_nil_r. split; [lia|reflexivity].
  - cbn [printed] in *. change (format (i :: items)) with (item_text i ++ format items) in *.
    change (arguments cf (i :: items)) with (item_args cf i ++ arguments cf items). rewrite <- app_assoc.
    destruct Hok as (Hi & Hok & Hx). set (s := item_out cf flt (o_col W o) i) in *.
    assert (forall o, I o -> item_mem (memof o) i) as Hmi by (intros o1 Ho1; specialize (Hm o1 Ho1); now inversion Hm).
    assert (forall o, I o -> Forall (item_mem (memof o)) items) as Hmt by (intros o1 Ho1; specialize (Hm o1 Ho1); now inversion Hm).
    pose proof (Forall_inv Hnt) as Hti. pose proof (Forall_inv_tail Hnt) as Htt.
    assert (Forall is_byte s) as Bs by (eapply item_bytes; eauto using PrnfProofs4.flt_bytes).
    rewrite Zlen_app in Hc. rewrite app_length in Hf.
    pose proof (Zlen_nonneg s) as Zs. pose proof (Zlen_nonneg (printed cf flt (after cf (o_col W o) s) items)) as Zp.
    assert (exists y r, format items ++ x :: rest = y :: r /\ hd x (format items) = y) as (y & r & Ey & Hy).
    { destruct (format items) as [|y r]; [exists x, rest|exists y, (r ++ x :: rest)]; auto. }
    destruct (item_step_a limit Hlim i pre y r fuel o (arguments cf items ++ va)) as (f1 & F1 & E1); auto using item_mem_still; try lia.
    { rewrite Efull, <- app_assoc, Ey. reflexivity. } { now rewrite <- Hy. } { fold s. lia. }
    rewrite E1. fold s. rewrite out_chars_app.
    destruct (out_chars o s) as [o1|u|] eqn:Es; cbn [bind].
    + destruct (out_chars_col cf W rd wr s o o1) as (C1 & C2 & C3); auto; [lia|].
      destruct (IH (pre ++ item_text i) x rest f1 o1 va) as (f2 & F2 & E2); auto.
      * rewrite Efull, <- !app_assoc. reflexivity.
      * eapply (I_chars cf W rd wr I M (Z.lt_le_incl _ _ M_max) I_step s o o1); eauto; lia.
      * rewrite C1, C2. lia.
      * lia.
      * exists f2. rewrite app_length. split; [lia|]. rewrite E2, C1, <- app_assoc. reflexivity.
    + exists fuel. split; [lia|reflexivity].
    + exists fuel. split; [lia|reflexivity].
Qed.

(** A placeholder up to its type. *)
Lemma conv_step_a : forall limit c t pre rest fuel o va, (length full <= limit)%nat ->
  full = pre ++ conv_text c t ++ rest -> conv_ok c -> longer c t = false -> I o ->
  exists p, core_loop (S fuel) limit o (shift fmt (Zlen pre)) va =
  if no_type (ph_of cf c (type_of t)) then Ok (false, o) else
  let! (ph, v, va) := read_varg cf A (ph_raw cf c (type_of t)) va in
  if asserts A v ph then Ok (false, o) else let! o1 := print_placeholder o v ph in core_loop fuel limit o1 p va.
Proof.
  intros limit c t pre rest fuel o va Hlim Efull Hcv Ht Ho. cbn [core_loop_a].
    set (body := map flg_char (cv_flags c) ++ wid_text (cv_width c) ++ prc_text (cv_prec c) ++ len_text (cv_len c)) in *.
    assert (full = pre ++ 37 :: body ++ t :: rest) as E37.
    { rewrite Efull. unfold conv_text, body. cbn [app]. rewrite <- !app_assoc. reflexivity. }
    destruct (fmt_tail o pre 37 (body ++ t :: rest)) as (L1 & L2 & L3); auto.
    rewrite L1. cbn [bind Z.eqb Pos.eqb]. rewrite L2. cbn [bind].
    assert (full = (pre ++ [37]) ++ body ++ t :: rest) as Eb by (rewrite <- app_assoc; exact E37).
    assert (exists y r, body ++ t :: rest = y :: r /\ y <> 37) as (y & r & Ey & Ny).
    { destruct (first_char c t rest Hcv Ht) as (y & r & Ey & Ny). exists y, r. split; auto. unfold body. rewrite <- !app_assoc. exact Ey. }
    destruct (fmt_tail o (pre ++ [37]) y r) as (M1 & M2 & M3); auto. { rewrite Eb, Ey. reflexivity. }
    rewrite M1. cbn [bind]. rewrite (proj2 (Z.eqb_neq y 37)) by auto.
    rewrite <- Ey in M3. unfold body in M3. rewrite <- !app_assoc in M3.
    rewrite (parse_placeholder_ok cf c t rest limit (memof o) _ Hcv Ht M3).
    2:{ fold body. rewrite E37 in Hlim. rewrite app_length in Hlim. cbn [length] in Hlim. rewrite app_length in Hlim. lia. }
    cbn [bind]. eexists. reflexivity.
Qed.

(** The first placeholder that trips. *)
Lemma trip_step : forall limit i pre rest fuel o va, (length full <= limit)%nat ->
  full = pre ++ item_text i ++ rest -> item_ok cf flt_ok i -> trips A i = true -> I o ->
  core_loop (S fuel) limit o (shift fmt (Zlen pre)) (match i with Other _ _ => va | _ => item_args cf i ++ va end) = Ok (false, o).
Proof.
  intros limit i pre rest fuel o va Hlim Efull Hi Ht Ho.
  destruct i; cbn [trips item_text item_args item_ok] in *; try discriminate.
  - destruct Hi as [Hc Hv]. destruct (conv_step_a limit c (if b then 70 else 102) pre rest fuel o ((conv_args c ++ [AD d]) ++ va)) as (p & ->); auto.
    { apply type_past; unfold type_char; destruct b; cbn [In]; tauto. }
    replace (type_of (if b then 70 else 102)) with TYPE_FLOAT in * by (destruct b; reflexivity).
    rewrite <- app_assoc, read_varg_conv by auto. unfold read_value. cbn [app no_type ph_of ph_type bind]. unfold asserts. cbn [ph_type].
    change (PrnfModel.Ph _ _ _ _ _ _ _ _ _ _) with (ph_of cf c TYPE_FLOAT). rewrite (prec_trips c TYPE_FLOAT _ Hc Hv). rewrite Ht. reflexivity.
  - destruct Hi as [Hc Hv]. destruct (conv_step_a limit c (if b then 69 else 101) pre rest fuel o ((conv_args c ++ [AD d]) ++ va)) as (p & ->); auto.
    { apply type_past; unfold type_char; destruct b; cbn [In]; tauto. }
    replace (type_of (if b then 69 else 101)) with TYPE_ENG in * by (destruct b; reflexivity).
    rewrite <- app_assoc, read_varg_conv by auto. unfold read_value. cbn [app no_type ph_of ph_type bind]. unfold asserts. cbn [ph_type].
    change (PrnfModel.Ph _ _ _ _ _ _ _ _ _ _) with (ph_of cf c TYPE_ENG). rewrite (prec_trips c TYPE_ENG _ Hc Hv). rewrite Ht. reflexivity.
  - destruct Hi as (Hc & Hm & Hl). destruct (conv_step_a limit c t pre rest fuel o va) as (p & ->); auto.
    rewrite (other_type _ Hm). reflexivity.
Qed.
End Core.

(** ** Whole calls *)
Section Call.
Variable cf : cfg.
Variable A : fops.
Variable W : Type.
Variable rd : W -> mem.
Variable wr : W -> mem -> W.
Notation out := (out W).
Notation out_char := (out_char cf W rd wr).
Notation out_chars := (out_chars cf W rd wr).
Notation memof o := (rd (o_st W o)).
Notation text := (printed cf (flt A)).

Lemma finish_a : forall (I : out -> Prop) M fmt items o va, wf_cfg cf -> M < INT_MAX ->
  (forall o c o', I o -> 0 <= o_cnt W o < M -> out_char o c = Ok o' -> I o') ->
  (forall o, I o -> bytes_at (memof o) fmt (format items ++ [0])) -> (forall o, I o -> Forall (item_mem (memof o)) items) ->
  items_ok cf (flt_fine A) items -> Forall (fun i => trips A i = false) items -> I o -> 0 <= o_col W o <= o_cnt W o -> o_cnt W o + Zlen (text (o_col W o) items) <= M ->
  core_prnf_a cf A W rd wr o fmt (arguments cf items ++ va) =
    let! o := out_chars o (text (o_col W o) items) in let! o := out_terminate W rd wr o in Ok (Some (o_cnt W o), o).
Proof.
  intros I M fmt items o va Wf HM Is If Ia Hok Hnt Ho Hr Hc. unfold core_prnf_a.
  pose proof (If o Ho) as (k & Ak & K1 & K2 & _). rewrite Ak. cbn [bind].
  rewrite Zlen_app in K2. change (Zlen [0]) with 1 in K2.
  assert (length (format items) < S (Z.to_nat (b_size k)))%nat as Hlen by (unfold Zlen in K2; lia).
  assert (length (format items ++ [0%Z]) <= S (Z.to_nat (b_size k)))%nat as Hlim by (rewrite app_length; cbn [length]; lia).
  assert (items_then cf A (flt_fine A) 0 items) as Ht by (apply (items_ok_then cf A (flt_fine A) items []); now rewrite app_nil_r).
  destruct (core_items_a cf A W rd wr I M HM Is Wf fmt (format items ++ [0]) If _ Hlim items [] 0 [] _ o va eq_refl Ht Hnt Ho Ia Hr Hc Hlen) as (f1 & F1 & E1).
  change (Zlen (@nil Z)) with 0 in E1. rewrite shift_0 in E1. rewrite E1.
  set (s := text (o_col W o) items) in *. pose proof (Zlen_nonneg s).
  destruct (out_chars o s) as [o1| |] eqn:Es; cbn [bind]; auto. destruct f1 as [|f1]; [lia|]. cbn [core_loop_a].
  destruct (I_chars cf W rd wr I M (Z.lt_le_incl _ _ HM) Is s o o1) as [Ho1 _]; auto; try lia.
  destruct (PrnfProofs3.fmt_tail cf W rd I fmt (format items ++ [0]) If o1 (format items) 0 []) as (L1 & _); auto.
  cbn [app]. rewrite L1. reflexivity.
Qed.

Lemma stop_a : forall (I : out -> Prop) M fmt items i rest o va, wf_cfg cf -> M < INT_MAX ->
  (forall o c o', I o -> 0 <= o_cnt W o < M -> out_char o c = Ok o' -> I o') ->
  (forall o, I o -> bytes_at (memof o) fmt (format items ++ item_text i ++ rest)) -> (forall o, I o -> Forall (item_mem (memof o)) items) ->
  items_then cf A (flt_fine A) 37 items -> Forall (fun i => trips A i = false) items -> item_ok cf (flt_fine A) i -> trips A i = true ->
  I o -> 0 <= o_col W o <= o_cnt W o -> o_cnt W o + Zlen (text (o_col W o) items) <= M ->
  core_prnf_a cf A W rd wr o fmt (arguments cf items ++ match i with Other _ _ => va | _ => item_args cf i ++ va end) =
    let! o := out_chars o (text (o_col W o) items) in Ok (None, o).
Proof.
  intros I M fmt items i rest o va Wf HM Is If Ia Hok Hnt Hi Hti Ho Hr Hc. unfold core_prnf_a.
  pose proof (If o Ho) as (k & Ak & K1 & K2 & _). rewrite Ak. cbn [bind].
  set (full := format items ++ item_text i ++ rest) in *.
  assert (exists r, item_text i ++ rest = 37 :: r) as (r & Er).
  { destruct i; cbn [trips] in Hti; try discriminate; cbn [item_text]; unfold conv_text; cbn [app]; eexists; reflexivity. }
  assert (length full <= S (Z.to_nat (b_size k)))%nat as Hlim by (unfold Zlen in K2; lia).
  assert (length (format items) < S (Z.to_nat (b_size k)))%nat as Hlen by (unfold full, Zlen in K2; rewrite app_length in K2; lia).
  destruct (core_items_a cf A W rd wr I M HM Is Wf fmt full If _ Hlim items [] 37 r (S (Z.to_nat (b_size k))) o (match i with Other _ _ => va | _ => item_args cf i ++ va end)) as (f1 & F1 & E1); auto.
  { unfold full. now rewrite Er. }
  change (Zlen (@nil Z)) with 0 in E1. rewrite shift_0 in E1. rewrite E1.
  set (s := text (o_col W o) items) in *. pose proof (Zlen_nonneg s).
  destruct (out_chars o s) as [o1| |] eqn:Es; cbn [bind]; auto. destruct f1 as [|f1]; [lia|].
  destruct (I_chars cf W rd wr I M (Z.lt_le_incl _ _ HM) Is s o o1) as [Ho1 _]; auto; try lia.
  rewrite (trip_step cf A W rd wr I fmt full If (S (Z.to_nat (b_size k))) i ([] ++ format items) rest f1 o1 va); auto.
Qed.
End Call.

(** ** Printing to an array *)
Lemma array_setting : forall cf m dst n t, 0 <= n <= INT_MAX -> Zlen t < INT_MAX -> Forall is_byte t ->
  let w := Z.min n (Zlen t + 1) in writable m dst w ->
  let o0 := Out mem 0 0 n dst None m in
  exists I : out mem -> Prop,
    (forall o c o', I o -> 0 <= o_cnt mem o < Zlen t -> out_char cf mem mid mwr o c = Ok o' -> I o') /\
    (forall o, I o -> forall q l, bytes_at m q l -> clear_of dst w q (Zlen l) -> bytes_at (o_st mem o) q l) /\ I o0 /\
    exists o1, out_chars cf mem mid mwr o0 t = Ok o1 /\ only_wrote m (o_st mem o1) dst (Z.min (Z.max 0 (n - 1)) (Zlen t)) /\
      bytes_at (o_st mem o1) dst (firstn (Z.to_nat (n - 1)) t) /\
      exists o2, out_terminate mem mid mwr o1 = Ok o2 /\ o_cnt mem o2 = Zlen t /\ only_wrote m (o_st mem o2) dst w /\
        (0 < n -> bytes_at (o_st mem o2) dst (firstn (Z.to_nat (n - 1)) t ++ [0])).
Proof.
  intros cf m dst n t Hsz Ht Hb w (b & k & Eo & Hn & Hlive & Hd & Hfit) o0.
  destruct dst as [o d]. cbn [p_obj p_ofs] in *. subst o.
  exists (fun o => inv m b d n o /\ 0 <= o_col mem o <= o_cnt mem o /\ o_cnt mem o <= Zlen t).
  pose proof (Zlen_nonneg t) as Zt.
  assert (inv m b d n o0) as I0.
  { unfold inv, o0. cbn [o_cnt o_col o_st o_limit o_fn o_buf]. replace (Z.min 0 (Z.max 0 (n - 1))) with 0 by lia. rewrite Z.add_0_r.
    split; [lia|]. split; auto. split; auto. split; auto. apply frame_refl. }
  split; [|split; [|split]].
  - intros o c o' (Ho & Hcol & HcM) Hc E. destruct (step cf m b k d n Hn Hlive Hd Hsz (Zlen t) Ht Hfit o c Ho ltac:(lia) Hcol) as (o1 & E1 & I1 & C1 & R1 & _).
    rewrite E1 in E. injection E as <-. split; auto. split; auto. lia.
  - intros o ((I1 & I2 & I3 & I4 & I5) & R1 & R2) q l Hq Hc. eapply frame_bytes; [exact I5|exact Hq|].
    destruct Hc as [Hc|Hc]; cbn [p_obj p_ofs] in *; [left; exact Hc|right]. unfold w in *. lia.
  - split; [exact I0|]. cbn. lia.
  - destruct (chars_ok cf m b k d n Hn Hlive Hd Hsz (Zlen t) Ht Hfit t [] o0) as (o1 & E1 & I1 & C1 & B1).
    + exact I0.
    + cbn. lia.
    + reflexivity.
    + change (Zlen (@nil Z)) with 0. lia.
    + exact Hb.
    + rewrite firstn_nil. exists k. cbn [p_obj p_ofs o0 o_st access]. rewrite Hn, Hlive. change (Zlen (@nil Z)) with 0. unfold w in *. repeat split; auto; lia.
    + cbn [app] in *. change (Zlen (@nil Z)) with 0 in C1. rewrite Z.add_0_l in C1. exists o1. split; auto. split.
      { intros b' Eb. cbn [p_obj p_ofs] in *. injection Eb as <-. destruct I1 as (_ & _ & _ & _ & F). rewrite C1 in F. rewrite Z.min_comm. exact F. }
      split; [exact B1|].
      destruct (terminate_ok m b k d n Hn Hlive Hd Hsz (Zlen t) Hfit o1 t) as (o2 & E2 & C2 & F2 & B2); auto; [lia|].
      exists o2. split; auto. split; [lia|]. split; auto. intros b' Eb. cbn [p_obj p_ofs] in *. injection Eb as <-. exact F2.
Qed.

Lemma strings_keep : forall D dst w m m' (items : list (item D)), (forall q l, bytes_at m q l -> clear_of dst w q (Zlen l) -> bytes_at m' q l) ->
  Forall (item_mem m) items -> Forall (item_clear dst w) items -> Forall (item_mem m') items.
Proof.
  intros D dst w m m' items Keep Hm Hcl. rewrite Forall_forall in *. intros i Hi. specialize (Hm i Hi). specialize (Hcl i Hi). destruct i; cbn [item_mem item_clear] in *; auto.
  destruct Hm as [Hm|(Hb & H1 & H2 & H3)]; [left; exact Hm|right]. split; auto. destruct Hcl as [->|Hcl].
  - destruct Hb as (kk & Ak & _). discriminate.
  - apply Keep; auto. rewrite Zlen_app. exact Hcl.
Qed.

Lemma vsnprnf_a_ok : forall cf A m dst n fmt items va, wf_cfg cf -> 0 <= n <= INT_MAX ->
  let t := printed cf (flt A) 0 items in let w := Z.min n (Zlen t + 1) in Zlen t < INT_MAX ->
  writable m dst w -> bytes_at m fmt (format items ++ [0]) -> clear_of dst w fmt (Zlen (format items) + 1) ->
  items_ok cf (flt_fine A) items -> Forall (fun i => trips A i = false) items -> Forall (item_mem m) items -> Forall (item_clear dst w) items ->
  exists m', vsnprnf_a cf A mem mid mwr m dst n fmt (arguments cf items ++ va) = Ok (Some (Zlen t), m') /\
    only_wrote m m' dst w /\ (0 < n -> bytes_at m' dst (firstn (Z.to_nat (n - 1)) t ++ [0])).
Proof.
  intros cf A m dst n fmt items va Wf Hn t w Ht Hw Hf Hfc Hok Hnt Hm Hcl. unfold vsnprnf_a. assert (to_int n = n) as -> by (apply to_int_ok; unfold INT_MIN; lia).
  pose proof (Zlen_nonneg t) as Zt.
  destruct (array_setting cf m dst n t Hn Ht ltac:(eapply text_bytes; eauto) Hw) as (I & Is & Keep & I0 & o1 & E1 & _ & _ & o2 & E2 & C2 & F2 & B2).
  rewrite (finish_a cf A mem mid mwr I (Zlen t) fmt items); auto.
  - cbn [o_col]. fold t. rewrite E1. cbn [bind]. rewrite E2. cbn [bind]. rewrite C2. exists (o_st mem o2). split; [reflexivity|]. split; [exact F2|exact B2].
  - intros o Ho. apply (Keep o Ho); auto. rewrite Zlen_app. exact Hfc.
  - intros o Ho. exact (strings_keep _ dst w m _ items (Keep o Ho) Hm Hcl).
  - cbn. lia.
  - cbn [o_cnt o_col]. fold t. lia.
Qed.

Lemma then_bytes : forall cf A, wf_cfg cf -> forall x items m col, items_then cf A (flt_fine A) x items -> Forall (item_mem m) items ->
  Forall is_byte (printed cf (flt A) col items).
Proof.
  intros cf A Wf x. induction items as [|i items IH]; intros m col Hok Hm; cbn [printed]; [constructor|].
  destruct Hok as (Hi & Hok & _). pose proof (Forall_inv Hm). apply Forall_app. split.
  - eapply item_bytes; eauto. apply flt_bytes.
  - eapply IH; eauto. exact (Forall_inv_tail Hm).
Qed.
Lemma vsnprnf_a_stop : forall cf A m dst n fmt items i rest va, wf_cfg cf -> 0 <= n <= INT_MAX ->
  let t := printed cf (flt A) 0 items in let w := Z.min n (Zlen t + 1) in let f := format items ++ item_text i ++ rest in Zlen t < INT_MAX ->
  writable m dst w -> bytes_at m fmt f -> clear_of dst w fmt (Zlen f) ->
  items_then cf A (flt_fine A) 37 items -> Forall (fun i => trips A i = false) items -> item_ok cf (flt_fine A) i -> trips A i = true ->
  Forall (item_mem m) items -> Forall (item_clear dst w) items ->
  exists m', vsnprnf_a cf A mem mid mwr m dst n fmt (arguments cf items ++ match i with Other _ _ => va | _ => item_args cf i ++ va end) = Ok (None, m') /\
    only_wrote m m' dst (Z.min (Z.max 0 (n - 1)) (Zlen t)) /\ bytes_at m' dst (firstn (Z.to_nat (n - 1)) t).
Proof.
  intros cf A m dst n fmt items i rest va Wf Hn t w f Ht Hw Hf Hfc Hok Hnt Hi Hti Hm Hcl. unfold vsnprnf_a. assert (to_int n = n) as -> by (apply to_int_ok; unfold INT_MIN; lia).
  pose proof (Zlen_nonneg t) as Zt.
  destruct (array_setting cf m dst n t Hn Ht ltac:(eapply then_bytes; eauto) Hw) as (I & Is & Keep & I0 & o1 & E1 & F1 & B1 & _).
  rewrite (stop_a cf A mem mid mwr I (Zlen t) fmt items i rest); auto.
  - cbn [o_col]. fold t. rewrite E1. cbn [bind]. exists (o_st mem o1). split; [reflexivity|]. split; auto.
  - intros o Ho. exact (strings_keep _ dst w m _ items (Keep o Ho) Hm Hcl).
  - cbn. lia.
  - cbn [o_cnt o_col]. fold t. lia.
Qed.

(** ** A handler of single characters *)
Section Feed.
Variable cf : cfg.
Variable A : fops.
Variable W : Type.
Variable rd : W -> mem.
Variable wr : W -> mem -> W.
Variable fn : W -> Z -> outcome W.
Variable J : W -> Prop.
Hypothesis J_step : forall s c s', J s -> fn s c = Ok s' -> J s'.
Definition feeding (o : out W) : Prop := o_buf W o = null /\ o_fn W o = Some fn /\ 0 <= o_col W o <= o_cnt W o /\ J (o_st W o).
Lemma feeding_step : forall M, M < INT_MAX -> forall o c o', feeding o -> 0 <= o_cnt W o < M -> out_char cf W rd wr o c = Ok o' -> feeding o'.
Proof.
  intros M HM o c o' (I1 & I2 & I3 & I4) Hc Ho.
  unfold PrnfModel.out_char in Ho. rewrite I1, I2 in Ho. cbn [is_null null p_obj p_ofs Z.eqb bind] in Ho.
  destruct (fn (o_st W o) c) as [s1| |] eqn:E; try discriminate. cbn [bind] in Ho.
  set (col1 := if (c =? 13) || (c =? 10) then 0 else if 31 <? char_int cf c then o_col W o + 1 else o_col W o) in *.
  assert ((if (c =? 13) || (c =? 10) then Ok 0 else if 31 <? char_int cf c then iadd cf (o_col W o) 1 else Ok (o_col W o)) = Ok col1) as Ecol.
  { unfold col1. destruct ((c =? 13) || (c =? 10)); auto. destruct (31 <? char_int cf c); auto. apply iadd_ok. unfold INT_MIN. lia. }
  rewrite Ecol in Ho. cbn [bind] in Ho. rewrite iadd_ok in Ho by (unfold INT_MIN; lia). cbn [bind] in Ho. injection Ho as <-.
  unfold feeding. cbn [o_buf o_fn o_col o_cnt o_st]. split; auto. split; auto.
  split; [unfold col1; destruct ((c =? 13) || (c =? 10)); [lia|destruct (31 <? char_int cf c); lia]|]. eauto.
Qed.
Lemma vfptrprnf_a_stop : forall s fmt items i rest va, wf_cfg cf ->
  let t := printed cf (flt A) 0 items in let f := format items ++ item_text i ++ rest in Zlen t < INT_MAX ->
  (forall s, J s -> bytes_at (rd s) fmt f /\ Forall (item_mem (rd s)) items) -> J s ->
  items_then cf A (flt_fine A) 37 items -> Forall (fun i => trips A i = false) items -> item_ok cf (flt_fine A) i -> trips A i = true ->
  vfptrprnf_a cf A W rd wr (Some fn) s fmt (arguments cf items ++ match i with Other _ _ => va | _ => item_args cf i ++ va end) =
    let! s := feed fn s t in Ok (None, s).
Proof.
  intros s fmt items i rest va Wf t f Ht Hm Hs Hok Hnt Hi Hti. unfold vfptrprnf_a. pose proof (Zlen_nonneg t) as Zt.
  rewrite (stop_a cf A W rd wr feeding (Zlen t) fmt items i rest); auto.
  - cbn [o_col]. fold t. pose proof (chars_feed cf W rd wr fn t 0 0 s ltac:(lia) ltac:(lia)) as Ce.
    destruct (out_chars cf W rd wr (Out W 0 0 0 null (Some fn) s) t) as [o1| |]; cbn [bind] in *; destruct (feed fn s t) as [s1| |]; cbn [bind] in *; try discriminate.
    + injection Ce as C1 C2 C3. rewrite C3. reflexivity.
    + injection Ce as ->. reflexivity.
    + reflexivity.
  - now apply feeding_step.
  - intros o (_ & _ & _ & Hj1). now apply Hm.
  - intros o (_ & _ & _ & Hj1). now apply Hm.
  - unfold feeding. cbn. repeat split; auto; lia.
  - cbn. lia.
  - cbn [o_cnt o_col]. fold t. lia.
Qed.
End Feed.
