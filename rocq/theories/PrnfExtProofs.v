(** Proofs about the extension %n of prnf: pieces of a format string. *)
From Verif Require Import Base Mem Libc Alloc StrviewModel Spec MemLemmas StrviewProofs StrviewProofs3 NumSpec StrnumProofs StrnumProofs2 StrnumProofs3
  PrnfModel PrnfSpec PrnfSpec2 PrnfProofs PrnfProofs2 PrnfProofs3 PrnfProofs4 PrnfProofs5 PrnfExtModel PrnfExtSpec.

Definition not_n {D} (i : item D) : Prop := match i with Other _ t => t <> 110 | _ => True end.

Section Core.
Variable cf : cfg.
Variable A : fops.
Variable W : Type.
Variable rd : W -> mem.
Variable wr : W -> mem -> W.
Variable heap : allocator.
Notation D := (dbl A).
Notation out := (out W).
Notation out_char := (out_char cf W rd wr).
Notation out_chars := (out_chars cf W rd wr).
Notation print_placeholder := (print_placeholder cf A W rd wr).
Notation core_loop := (core_loop_n cf A W rd wr heap).
Notation memof o := (rd (o_st W o)).

Variable flt : bool -> conv -> D -> list Z.
Variable flt_ok : bool -> conv -> D -> Prop.
Hypothesis flt_bytes : forall b c d, conv_ok c -> flt_ok b c d -> Forall is_byte (flt b c d).
Hypothesis flt_f : forall o c d, conv_ok c -> flt_ok false c d -> Zlen (flt false c d) < INT_MAX ->
  print_placeholder o (VFlt A (f_of_dbl A d)) (ph_of cf c TYPE_FLOAT) = out_chars o (flt false c d).
Hypothesis flt_e : forall o c d, conv_ok c -> flt_ok true c d -> Zlen (flt true c d) < INT_MAX ->
  print_placeholder o (VFlt A (f_of_dbl A d)) (ph_of cf c TYPE_ENG) = out_chars o (flt true c d).

Variable I : out -> Prop.
Variable M : Z.
Hypothesis M_max : M < INT_MAX.
Hypothesis I_step : forall o c o', I o -> 0 <= o_cnt W o < M -> out_char o c = Ok o' -> I o'.
Hypothesis wf : wf_cfg cf.
Variable fmt : ptr.
Variable full : list Z.
Hypothesis fmt_at : forall o, I o -> bytes_at (memof o) fmt full.
Notation fmt_tail := (fmt_tail cf W rd I fmt full fmt_at).

Lemma type_read_ok : forall o pre t l q, I o -> full = pre ++ t :: l -> q = shift fmt (Zlen pre + 1) -> type_read (memof o) q = Ok t.
Proof.
  intros o pre t l q Ho E ->. destruct (fmt_tail o pre t l Ho E) as (L & _). unfold type_read. rewrite <- L. f_equal. unfold shift. cbn [p_obj p_ofs]. f_equal. lia.
Qed.
Lemma conv_not_n : forall i c t a, item_conv cf A i = Some (c, t, a) -> not_n i -> (t =? 110) = false.
Proof. intros i c t a H N. apply Z.eqb_neq. destruct i; cbn [item_conv not_n] in *; try discriminate; injection H as <- <- <-; try destruct b; lia || auto. Qed.

(** One item, then the rest. *)
Lemma item_step_n : forall limit, (length full <= limit)%nat -> forall i pre x rest fuel o va,
  full = pre ++ item_text i ++ x :: rest -> item_ok cf flt_ok i -> not_n i -> next_ok cf A i x -> I o -> item_mem (memof o) i -> (forall o, I o -> item_still A (memof o) i) ->
  0 <= o_col W o <= o_cnt W o -> o_cnt W o + Zlen (item_out cf flt (o_col W o) i) <= M -> (length (item_text i) < fuel)%nat ->
  exists fuel', (fuel <= fuel' + length (item_text i))%nat /\
    core_loop fuel limit o (shift fmt (Zlen pre)) (item_args cf i ++ va) =
    let! o1 := out_chars o (item_out cf flt (o_col W o) i) in core_loop fuel' limit o1 (shift fmt (Zlen (pre ++ item_text i))) va.
Proof.
  intros limit Hlim i pre x rest fuel o va Efull Hi Hnn Hx Ho Hmi Hms Hr Hc Hf.
  set (s := item_out cf flt (o_col W o) i) in *. pose proof (Zlen_nonneg s) as Zs.
  assert (Forall is_byte s) as Bs by (eapply item_bytes; eauto).
  destruct (item_conv cf A i) as [[[c t] a]|] eqn:Ec.
  + (* conversions *)
    destruct (item_conv_text cf A flt_ok _ _ _ _ Ec Hi) as (Et & Ht & Ea). pose proof (item_conv_ok cf A flt_ok _ _ _ _ Ec Hi) as Hcv.
    rewrite Ea, <- app_assoc. rewrite Et in *. destruct fuel as [|fuel]; [lia|]. exists fuel. cbn [core_loop_n].
    pose proof (conv_text_len c t) as Lt. split; [unfold Zlen in Lt; lia|].
    set (body := map flg_char (cv_flags c) ++ wid_text (cv_width c) ++ prc_text (cv_prec c) ++ len_text (cv_len c)) in *.
    assert (full = pre ++ 37 :: body ++ t :: x :: rest) as E37.
    { rewrite Efull. unfold conv_text, body. cbn [app]. rewrite <- !app_assoc. reflexivity. }
    destruct (fmt_tail o pre 37 (body ++ t :: x :: rest)) as (L1 & L2 & L3); auto.
    rewrite L1. cbn [bind Z.eqb Pos.eqb]. rewrite L2. cbn [bind].
    assert (full = (pre ++ [37]) ++ body ++ t :: x :: rest) as Eb by (rewrite <- app_assoc; exact E37).
    assert (exists y r, body ++ t :: x :: rest = y :: r /\ y <> 37) as (y & r & Ey & Ny).
    { destruct (first_char c t (x :: rest) Hcv Ht) as (y & r & Ey & Ny). exists y, r. split; auto. unfold body. rewrite <- !app_assoc. exact Ey. }
    destruct (fmt_tail o (pre ++ [37]) y r) as (M1 & M2 & M3); auto. { rewrite Eb, Ey. reflexivity. }
    rewrite M1. cbn [bind]. rewrite (proj2 (Z.eqb_neq y 37)) by auto.
    rewrite <- Ey in M3. unfold body in M3. rewrite <- !app_assoc in M3.
    rewrite (parse_placeholder_ok cf c t (x :: rest) limit (memof o) _ Hcv Ht M3).
    2:{ fold body. rewrite E37 in Hlim. rewrite app_length in Hlim. cbn [length] in Hlim. rewrite app_length in Hlim. lia. }
    cbn [bind]. rewrite (type_read_ok o (pre ++ 37 :: body) t (x :: rest)); auto.
    3:{ rewrite shift_shift, (Zlen_app pre [37]), (Zlen_app pre (37 :: body)), (Zlen_cons 37 body). change (Zlen [37]) with 1. f_equal. unfold body in *. lia. }
    2:{ rewrite E37, <- app_assoc. reflexivity. }
    cbn [bind]. rewrite read_varg_conv by auto. cbn [app].
    assert ((t =? 110) = false) as Nt by (eapply conv_not_n; eauto).
    destruct (conv_item cf A W rd wr flt flt_ok flt_f flt_e I M M_max I_step wf i c t a va o Ec Hi Ho Hmi Hms) as (v & V1 & V2); [lia|fold s; lia|].
    rewrite V1. cbn [bind]. rewrite Nt, V2. fold s. destruct (out_chars o s) as [o1| |] eqn:E1; cbn [bind]; auto.
    rewrite shift_shift. replace (Zlen (pre ++ [37]) + (Zlen (conv_text c t) - 1)) with (Zlen (pre ++ conv_text c t)); [reflexivity|].
    rewrite !Zlen_app, Zlen_cons. change (Zlen (@nil Z)) with 0. lia.
  + destruct i; cbn [item_conv] in Ec; try discriminate; clear Ec; cbn [item_text item_args app item_ok item_out next_ok] in *.
    * (* text *)
      exists (fuel - length l)%nat. split; [lia|].
      assert (forall b a o1 fuel, l = a ++ b -> out_chars o a = Ok o1 -> (length b <= fuel)%nat ->
        core_loop fuel limit o1 (shift fmt (Zlen (pre ++ a))) va =
        bind (out_chars o1 b) (fun o2 => core_loop (fuel - length b) limit o2 (shift fmt (Zlen (pre ++ l))) va)) as K.
      { induction b as [|y b IHb]; intros a o1 f El E1 Hf1; cbn [PrnfModel.out_chars bind].
        - rewrite app_nil_r in El. subst a. rewrite Nat.sub_0_r. reflexivity.
        - destruct f as [|f]; [cbn in Hf1; lia|]. cbn [core_loop_n].
          assert (Zlen s = Zlen a + Zlen b + 1) as Ls by (unfold s; rewrite El, Zlen_app, Zlen_cons; lia).
          pose proof (Zlen_nonneg a). pose proof (Zlen_nonneg b).
          destruct (I_chars cf W rd wr I M (Z.lt_le_incl _ _ M_max) I_step a o o1) as [Ho1 Co1]; auto; try lia.
          assert (0 < y < 256 /\ y <> 37 /\ y <> 11) as (X1 & X2 & X3). { rewrite El in Hi. apply Forall_app in Hi as [_ Hi]. now inversion Hi. }
          destruct (fmt_tail o1 (pre ++ a) y (b ++ x :: rest)) as (L1 & _); auto.
          { rewrite Efull, El, <- !app_assoc. reflexivity. }
          rewrite L1. cbn [bind]. rewrite (proj2 (Z.eqb_neq y 0)), (proj2 (Z.eqb_neq y 37)), (proj2 (Z.eqb_neq y 11)) by lia.
          rewrite bind_bind. destruct (out_char o1 y) as [o2| |] eqn:E2; cbn [bind]; auto.
          assert (I o2) as Ho2 by (eapply I_step; eauto; lia).
          destruct (fmt_tail o2 (pre ++ a) y (b ++ x :: rest)) as (_ & L2 & _); auto.
          { rewrite Efull, El, <- !app_assoc. reflexivity. }
          rewrite L2. cbn [bind]. rewrite <- app_assoc. cbn [length Nat.sub]. apply IHb.
          + rewrite El, <- app_assoc. reflexivity.
          + rewrite out_chars_app, E1. cbn [bind PrnfModel.out_chars]. now rewrite E2.
          + cbn [length] in Hf1. lia. }
      specialize (K l [] o fuel eq_refl eq_refl ltac:(lia)). rewrite app_nil_r in K. exact K.
    * (* %% *)
      destruct fuel as [|fuel]; [lia|]. exists fuel. split; [cbn [length]; lia|]. cbn [core_loop_n].
      destruct (fmt_tail o pre 37 (37 :: x :: rest)) as (L1 & L2 & _); auto.
      rewrite L1. cbn [bind Z.eqb Pos.eqb]. rewrite L2. cbn [bind].
      destruct (fmt_tail o (pre ++ [37]) 37 (x :: rest)) as (M1 & _); auto. { rewrite Efull, <- !app_assoc. reflexivity. }
      rewrite M1. cbn [bind Z.eqb Pos.eqb]. subst s. cbn [PrnfModel.out_chars] in *. rewrite bind_bind.
      destruct (out_char o 37) as [o1| |] eqn:E1; cbn [bind] in *; auto.
      destruct (fmt_tail o1 (pre ++ [37]) 37 (x :: rest)) as (_ & M2 & _). { eapply I_step; eauto. rewrite Zlen_cons in *. change (Zlen (@nil Z)) with 0 in *. lia. } { rewrite Efull, <- !app_assoc. reflexivity. }
      rewrite M2. cbn [bind]. rewrite <- app_assoc. reflexivity.
    * (* \v *)
      destruct fuel as [|fuel]; [lia|]. exists fuel. split; [cbn [length]; lia|]. cbn [core_loop_n].
      destruct (fmt_tail o pre 11 (x :: rest)) as (L1 & L2 & _); auto.
      rewrite L1. cbn [bind Z.eqb Pos.eqb]. rewrite L2. cbn [bind]. unfold print_col_alignment.
      destruct (fmt_tail o (pre ++ [11]) x rest) as (M1 & _ & M3); auto. { rewrite Efull, <- !app_assoc. reflexivity. }
      rewrite M1. cbn [bind]. rewrite digit_eq, Hx.
      rewrite (atoi_ok cf [] limit (memof o) _ 0 x rest); auto; try (cbn; unfold INT_MAX; lia).
      2:{ rewrite Efull in Hlim. rewrite app_length in Hlim. cbn [length app] in *. lia. }
      cbn [bind]. change (Zlen (@nil Z)) with 0. rewrite shift_0, M1. cbn [bind negb]. subst s. cbn [PrnfModel.out_chars] in *. rewrite !bind_bind.
      destruct (out_char o 11) as [o1| |] eqn:E1; cbn [bind] in *; auto.
    * (* column *)
      destruct Hi as (Hn & Hb & Hv & Dx). pose proof (counts_ge _ _ Hv) as Hge. destruct fuel as [|fuel]; [lia|]. exists fuel. split; [cbn [length]; lia|]. cbn [core_loop_n].
      destruct (num_small z n Hn) as (S1 & _ & S3).
      assert (full = (pre ++ [11]) ++ num_text z n ++ pad :: x :: rest) as E1.
      { rewrite Efull. cbn [app]. rewrite <- !app_assoc. reflexivity. }
      destruct (fmt_tail o pre 11 (num_text z n ++ pad :: x :: rest)) as (L1 & L2 & _); auto. { rewrite E1, <- !app_assoc. reflexivity. }
      rewrite L1. cbn [bind Z.eqb Pos.eqb]. rewrite L2. cbn [bind]. unfold print_col_alignment.
      assert (exists y r, num_text z n = y :: r /\ prnf_is_digit y = true) as (y & r & Ey & Dy).
      { destruct (num_text z n) as [|y r]; [congruence|]. exists y, r. split; auto. inversion S1 as [|? ? Hy _]; subst. destruct (dig10 y Hy).
        unfold prnf_is_digit. rewrite (proj2 (Z.leb_le 48 y)), (proj2 (Z.leb_le y 57)) by lia. reflexivity. }
      destruct (fmt_tail o (pre ++ [11]) y (r ++ pad :: x :: rest)) as (M1 & _ & M3); auto. { rewrite E1, Ey. reflexivity. }
      rewrite M1. cbn [bind]. rewrite Dy. cbn [negb].
      assert (length (num_text z n) < limit)%nat as Lf.
      { rewrite E1 in Hlim. rewrite !app_length in Hlim. cbn [length] in Hlim. lia. }
      rewrite (atoi_num cf z n limit (memof o) _ pad (x :: rest)); auto; [|rewrite Ey; exact M3].
      cbn [bind]. rewrite shift_shift, <- Zlen_app.
      destruct (fmt_tail o ((pre ++ [11]) ++ num_text z n) pad (x :: rest)) as (N1 & _); auto. { rewrite E1, <- !app_assoc. reflexivity. }
      rewrite N1. cbn [bind]. rewrite char_counts, Hv by exact Hb. cbn [negb]. rewrite (proj2 (Z.eqb_neq pad 0)) by lia. cbn [negb].
      rewrite (col_loop_eq cf W rd wr (Z.to_nat (n - o_col W o))); auto; try lia.
      2:{ assert (Zlen s = Z.max 0 (n - o_col W o)) as Ls by apply Zlen_copies. lia. }
      change (repeat pad (Z.to_nat (n - o_col W o))) with (copies pad (n - o_col W o)). fold s.
      destruct (out_chars o s) as [o1| |] eqn:Eo; cbn [bind]; auto.
      destruct (fmt_tail o1 ((pre ++ [11]) ++ num_text z n) pad (x :: rest)) as (_ & N2 & _); auto. { eapply (I_chars cf W rd wr I M (Z.lt_le_incl _ _ M_max) I_step s o o1); eauto; lia. } { rewrite E1, <- !app_assoc. reflexivity. }
      rewrite N2. cbn [bind]. rewrite <- !app_assoc. reflexivity.
    * (* column without a character to fill it with *)
      destruct Hx as [Cx Bx]. destruct fuel as [|fuel]; [lia|]. exists fuel. split; [cbn [length]; lia|]. cbn [core_loop_n].
      destruct (num_small z n Hi) as (S1 & _ & S3).
      assert (full = (pre ++ [11]) ++ num_text z n ++ x :: rest) as E1 by (rewrite Efull, <- !app_assoc; reflexivity).
      destruct (fmt_tail o pre 11 (num_text z n ++ x :: rest)) as (L1 & L2 & _); auto.
      rewrite L1. cbn [bind Z.eqb Pos.eqb]. rewrite L2. cbn [bind]. unfold print_col_alignment.
      assert (exists y r, num_text z n = y :: r /\ prnf_is_digit y = true) as (y & r & Ey & Dy).
      { destruct (num_text z n) as [|y r]; [congruence|]. exists y, r. split; auto. inversion S1 as [|? ? Hy _]; subst. destruct (dig10 y Hy).
        unfold prnf_is_digit. rewrite (proj2 (Z.leb_le 48 y)), (proj2 (Z.leb_le y 57)) by lia. reflexivity. }
      destruct (fmt_tail o (pre ++ [11]) y (r ++ x :: rest)) as (M1 & _ & M3); auto. { rewrite E1, Ey. reflexivity. }
      rewrite M1. cbn [bind]. rewrite Dy. cbn [negb].
      assert (length (num_text z n) < limit)%nat as Lf.
      { rewrite E1 in Hlim. rewrite !app_length in Hlim. cbn [length] in Hlim. lia. }
      assert (prnf_is_digit x = false) as Dx.
      { unfold prnf_is_digit. destruct (Z.leb_spec 48 x); auto. apply Z.leb_gt. unfold counts in Cx.
        rewrite (proj2 (Z.leb_le 32 x)) in Cx by lia. destruct (Z.ltb_spec x 128); cbn in Cx; [discriminate|lia]. }
      rewrite (atoi_num cf z n limit (memof o) _ x rest); auto; [|rewrite Ey; exact M3].
      cbn [bind]. rewrite shift_shift, <- Zlen_app.
      destruct (fmt_tail o ((pre ++ [11]) ++ num_text z n) x rest) as (N1 & _); auto. { rewrite E1, <- !app_assoc. reflexivity. }
      rewrite N1. cbn [bind]. rewrite char_counts, Cx by exact Bx. cbn [negb Z.eqb]. rewrite <- !app_assoc. reflexivity.
Qed.

(** A string handed over. *)
Lemma nstr_item : forall o c p l, conv_ok c -> match prec_of c with Some p => 0 <= p | None => True end -> I o -> string_arg (memof o) p l ->
  (forall o, I o -> still_there (memof o) p l) ->
  0 <= o_cnt W o -> o_cnt W o + Zlen (given_text c l) <= M ->
  print_str cf W rd wr o (ph_of cf c TYPE_NONE) p = out_chars o (given_text c l).
Proof.
  intros o c p l Hc Hpr Ho Hsa Hp Hc0 Hl. pose proof (width_ok c Hc) as Hw. unfold given_text in *.
  unfold print_str. rewrite (prnf_strlen_ok cf _ p l) by auto. cbn [bind].
  assert (is_centered_string (ph_of cf c TYPE_NONE) = false) as Ec by reflexivity. rewrite Ec.
  pose proof (Zlen_nonneg l) as Zl. cbn [negb].
  rewrite andb_true_r. pose proof (pad_len c 32 (str_body c l)) as Lp.
  assert ((if ph_pspec (ph_of cf c TYPE_NONE) && (ph_prec (ph_of cf c TYPE_NONE) <? Zlen l) then ph_prec (ph_of cf c TYPE_NONE) else Zlen l) = Zlen (str_body c l)) as ->.
  { unfold str_body. cbn [ph_of ph_pspec ph_prec]. destruct (prec_of c) as [p0|]; cbn [andb]; auto.
    destruct (p0 <? Zlen l) eqn:E; [apply Z.ltb_lt in E|apply Z.ltb_ge in E]; unfold Zlen in *; rewrite firstn_length; lia. }
  assert (padded (ph_of cf c TYPE_NONE) (str_body c l) = pad c 32 (str_body c l)) as Ep by reflexivity. rewrite <- Ep in *.
  rewrite <- around; [|auto|exact Hw|lia].
  destruct (prepad _ _ _ _ _ _ _) as [o1| |] eqn:E1; cbn [bind]; auto.
  rewrite prepad_eq in E1; [|auto|exact Hw|cbn [ph_of ph_width]; pose proof (Zlen_nonneg (str_body c l)); lia].
  set (pre := if ph_minus (ph_of cf c TYPE_NONE) then [] else copies (fillc (ph_of cf c TYPE_NONE)) (ph_width (ph_of cf c TYPE_NONE) - Zlen (str_body c l))) in *.
  assert (Zlen pre + Zlen (str_body c l) <= Zlen (padded (ph_of cf c TYPE_NONE) (str_body c l))) as Lq.
  { unfold pre, padded. destruct (ph_minus (ph_of cf c TYPE_NONE)); rewrite Zlen_app, ?Zlen_copies; change (Zlen (@nil Z)) with 0; lia. }
  pose proof (Zlen_nonneg pre) as Zp. pose proof (Zlen_nonneg (str_body c l)) as Zb.
  destruct (I_chars cf W rd wr I M (Z.lt_le_incl _ _ M_max) I_step pre o o1 Ho Hc0) as [Ho1 C1]; [lia|exact E1|]. rewrite loops_ok by apply Zlen_nonneg. cbn [bind].
  assert (exists k, (k <= length l)%nat /\ str_body c l = firstn k l) as (k & Hk & Ek).
  { unfold str_body. destruct (prec_of c) as [p0|]; [|exists (length l); split; [lia|now rewrite firstn_all]].
    destruct (le_lt_dec (Z.to_nat p0) (length l)); [exists (Z.to_nat p0); auto|exists (length l); split; [lia|]]. rewrite firstn_all, firstn_all2 by lia. reflexivity. }
  rewrite Ek. rewrite Zlen_to_nat, firstn_length_le by auto. rewrite (read_str cf W rd wr I M M_max I_step o1 p l k); auto; try lia. rewrite Ek in *. unfold Zlen in *. rewrite firstn_length_le in * by auto. lia.
Qed.
Lemma n_past : forall c, longer c 110 = false.
Proof.
  intros c. unfold longer, longer_prec, longer_width. destruct (cv_len c), (cv_prec c), (cv_width c); reflexivity.
Qed.
(** A placeholder. *)
Lemma conv_step : forall limit c t pre x rest fuel o va, (length full <= limit)%nat ->
  full = pre ++ conv_text c t ++ x :: rest -> conv_ok c -> longer c t = false -> I o ->
  core_loop (S fuel) limit o (shift fmt (Zlen pre)) (conv_args c ++ va) =
  let! (ph, v, va) := read_value A (ph_of cf c (type_of t)) va in
  if t =? 110
  then match va with
       | AP p :: va => let! o1 := print_nstr cf W rd wr heap o ph p in core_loop fuel limit o1 (shift fmt (Zlen (pre ++ conv_text c t))) va
       | _ => UB UB_varg
       end
  else let! o1 := print_placeholder o v ph in core_loop fuel limit o1 (shift fmt (Zlen (pre ++ conv_text c t))) va.
Proof.
  intros limit c t pre x rest fuel o va Hlim Efull Hcv Ht Ho. cbn [core_loop_n].
    set (body := map flg_char (cv_flags c) ++ wid_text (cv_width c) ++ prc_text (cv_prec c) ++ len_text (cv_len c)) in *.
    assert (full = pre ++ 37 :: body ++ t :: x :: rest) as E37.
    { rewrite Efull. unfold conv_text, body. cbn [app]. rewrite <- !app_assoc. reflexivity. }
    destruct (fmt_tail o pre 37 (body ++ t :: x :: rest)) as (L1 & L2 & L3); auto.
    rewrite L1. cbn [bind Z.eqb Pos.eqb]. rewrite L2. cbn [bind].
    assert (full = (pre ++ [37]) ++ body ++ t :: x :: rest) as Eb by (rewrite <- app_assoc; exact E37).
    assert (exists y r, body ++ t :: x :: rest = y :: r /\ y <> 37) as (y & r & Ey & Ny).
    { destruct (first_char c t (x :: rest) Hcv Ht) as (y & r & Ey & Ny). exists y, r. split; auto. unfold body. rewrite <- !app_assoc. exact Ey. }
    destruct (fmt_tail o (pre ++ [37]) y r) as (M1 & M2 & M3); auto. { rewrite Eb, Ey. reflexivity. }
    rewrite M1. cbn [bind]. rewrite (proj2 (Z.eqb_neq y 37)) by auto.
    rewrite <- Ey in M3. unfold body in M3. rewrite <- !app_assoc in M3.
    rewrite (parse_placeholder_ok cf c t (x :: rest) limit (memof o) _ Hcv Ht M3).
    2:{ fold body. rewrite E37 in Hlim. rewrite app_length in Hlim. cbn [length] in Hlim. rewrite app_length in Hlim. lia. }
    pose proof (conv_text_len c t) as Lt. fold body in Lt.
    cbn [bind]. rewrite (type_read_ok o (pre ++ 37 :: body) t (x :: rest)); auto.
    3:{ rewrite shift_shift, (Zlen_app pre [37]), (Zlen_app pre (37 :: body)), (Zlen_cons 37 body). change (Zlen [37]) with 1. f_equal. unfold body in *. lia. }
    2:{ rewrite E37, <- app_assoc. reflexivity. }
    cbn [bind]. rewrite read_varg_conv by auto.
    replace (shift (shift fmt (Zlen (pre ++ [37]))) (Zlen (conv_text c t) - 1)) with (shift fmt (Zlen (pre ++ conv_text c t))); [reflexivity|].
    rewrite shift_shift, !Zlen_app. change (Zlen [37]) with 1. f_equal. lia.
Qed.
(** The placeholder %n, up to the call of free(). *)
Lemma given_step : forall limit c p pre x rest fuel o va, (length full <= limit)%nat ->
  full = pre ++ conv_text c 110 ++ x :: rest -> conv_ok c -> I o ->
  core_loop (S fuel) limit o (shift fmt (Zlen pre)) ((conv_args c ++ [AP p]) ++ va) =
  let! o1 := print_nstr cf W rd wr heap o (ph_of cf c TYPE_NONE) p in core_loop fuel limit o1 (shift fmt (Zlen (pre ++ conv_text c 110))) va.
Proof.
  intros limit c p pre x rest fuel o va Hlim Efull Hcv Ho. rewrite <- app_assoc. rewrite (conv_step limit c 110 pre x rest fuel o); auto. apply n_past.
Qed.
(** %s and %S *)
Lemma str_step : forall limit c (b : bool) p pre x rest fuel o va, (length full <= limit)%nat ->
  full = pre ++ conv_text c (if b then 83 else 115) ++ x :: rest -> conv_ok c -> I o ->
  core_loop (S fuel) limit o (shift fmt (Zlen pre)) ((conv_args c ++ [AP p]) ++ va) =
  let! o1 := print_str cf W rd wr o (ph_of cf c TYPE_STR) p in core_loop fuel limit o1 (shift fmt (Zlen (pre ++ conv_text c (if b then 83 else 115)))) va.
Proof.
  intros limit c b p pre x rest fuel o va Hlim Efull Hcv Ho. rewrite <- app_assoc. rewrite (conv_step limit c (if b then 83 else 115) pre x rest fuel o); auto.
  - destruct b; reflexivity.
  - unfold longer, longer_prec, longer_width. destruct b, (cv_len c), (cv_prec c), (cv_width c); reflexivity.
Qed.
End Core.
