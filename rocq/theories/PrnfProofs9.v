(** Proofs about prnf: formats without floating point, handlers, columns, numbers read back. *)
From Verif Require Import Base Mem Libc StrviewModel Spec MemLemmas StrviewProofs StrviewProofs3 StrnumModel NumSpec
  PrnfModel PrnfSpec PrnfSpec2 PrnfProofs PrnfProofs2 PrnfProofs3 PrnfProofs4 PrnfProofs5.

Lemma plain_fine : forall cf A (l : list (item (dbl A))) col, plain_items cf l ->
  items_ok cf (flt_fine A) l /\ printed cf (flt A) col l = printed cf (fun _ _ _ => []) col l.
Proof.
  intros cf A. induction l as [|i l IH]; intros col H; cbn [items_ok printed]; [auto|]. destruct H as (Hi & Hl & Hv).
  assert (item_ok cf (flt_fine A) i /\ item_out cf (flt A) col i = item_out cf (fun _ _ _ => []) col i) as [E1 E2].
  { destruct i; cbn [item_ok item_out] in *; auto; destruct Hi as [_ []]. }
  rewrite E2. destruct (IH (after cf col (item_out cf (fun _ _ _ => []) col i)) Hl) as [I1 I2]. rewrite I2. split; auto.
Qed.

Lemma printed_prints : forall cf A (ft : bool -> conv -> dbl A -> list Z -> Prop) (fok : bool -> conv -> dbl A -> Prop), (forall e c d, conv_ok c -> fok e c d -> flt_fine A e c d /\ ft e c d (flt A e c d)) ->
  forall l col, items_ok cf fok l -> items_ok cf (flt_fine A) l /\ prints cf ft col l (printed cf (flt A) col l).
Proof.
  intros cf A ft fok Hf. induction l as [|i l IH]; intros col H; cbn [items_ok printed prints]; [auto|]. destruct H as (Hi & Hl & Hv).
  assert (item_ok cf (flt_fine A) i /\ item_prints cf ft col i (item_out cf (flt A) col i)) as [E1 E2].
  { destruct i; cbn [item_ok item_out item_prints] in *; auto; destruct Hi as [H1 H2]; destruct (Hf _ _ _ H1 H2); auto. }
  destruct (IH (after cf col (item_out cf (flt A) col i)) Hl) as [I1 I2]. split; auto. eauto.
Qed.

(** ** Handlers *)
Section Feed.
Variable cf : cfg.
Variable A : fops.
Variable W : Type.
Variable rd : W -> mem.
Variable wr : W -> mem -> W.
Variable fn : W -> Z -> outcome W.

Lemma chars_feed : forall l col cnt s, 0 <= col <= cnt -> cnt + Zlen l <= INT_MAX ->
  (let! o := out_chars cf W rd wr (Out W col cnt 0 null (Some fn) s) l in Ok (o_cnt W o, o_buf W o, o_st W o)) =
  (let! s := feed fn s l in Ok (cnt + Zlen l, null, s)).
Proof.
  induction l as [|c l IH]; intros col cnt s Hc Hm; cbn [PrnfModel.out_chars feed].
  - cbn [bind o_cnt o_buf o_st]. change (Zlen (@nil Z)) with 0. now rewrite Z.add_0_r.
  - rewrite Zlen_cons in *. pose proof (Zlen_nonneg l). unfold PrnfModel.out_char at 1. cbn [o_buf is_null null p_obj p_ofs Z.eqb bind o_fn o_st].
    destruct (fn s c) as [s1| |]; cbn [bind]; auto. cbn [o_col o_cnt].
    set (col1 := if (c =? 13) || (c =? 10) then 0 else if 31 <? char_int cf c then col + 1 else col).
    assert ((if (c =? 13) || (c =? 10) then Ok 0 else if 31 <? char_int cf c then iadd cf col 1 else Ok col) = Ok col1) as ->.
    { unfold col1. destruct ((c =? 13) || (c =? 10)); auto. destruct (31 <? char_int cf c); auto. apply iadd_ok. unfold INT_MIN. lia. }
    cbn [bind]. rewrite iadd_ok by (unfold INT_MIN; lia). cbn [bind o_limit].
    rewrite IH; [|unfold col1; destruct ((c =? 13) || (c =? 10)); [lia|destruct (31 <? char_int cf c); lia]|lia].
    replace (cnt + 1 + Zlen l) with (cnt + (Zlen l + 1)) by lia. reflexivity.
Qed.

Lemma fptr_feed : forall (J : W -> Prop) s fmt items va, wf_cfg cf ->
  (forall s c s', J s -> fn s c = Ok s' -> J s') ->
  (forall s, J s -> bytes_at (rd s) fmt (format items ++ [0]) /\ Forall (item_mem (rd s)) items) -> J s ->
  items_ok cf (flt_fine A) items ->
  let t := printed cf (flt A) 0 items in Zlen t < INT_MAX ->
  vfptrprnf cf A W rd wr (Some fn) s fmt (arguments cf items ++ va) = let! s := feed fn s t in Ok (Zlen t, s).
Proof.
  intros J s fmt items va Wf Hj Hm Hs Hok t Ht. unfold vfptrprnf.
  set (I := fun o : out W => o_buf W o = null /\ o_fn W o = Some fn /\ 0 <= o_col W o <= o_cnt W o /\ J (o_st W o)).
  pose proof (Zlen_nonneg t) as Zt.
  rewrite (core_prnf_ok cf A W rd wr I (Zlen t) fmt items); auto.
  - cbn [o_col]. fold t. pose proof (chars_feed t 0 0 s ltac:(lia) ltac:(lia)) as Ce.
    destruct (out_chars cf W rd wr (Out W 0 0 0 null (Some fn) s) t) as [o1| |]; cbn [bind] in *.
    + destruct (feed fn s t) as [s1| |]; cbn [bind] in *; try discriminate. injection Ce as C1 C2 C3.
      unfold out_terminate. rewrite C2. cbn [is_null null p_obj p_ofs Z.eqb negb andb bind]. rewrite C1, C3. reflexivity.
    + destruct (feed fn s t) as [s1| |]; cbn [bind] in *; try discriminate. injection Ce as ->. reflexivity.
    + destruct (feed fn s t) as [s1| |]; cbn [bind] in *; try discriminate. reflexivity.
  - intros o c o' (I1 & I2 & I3 & I4) Hc Ho.
    unfold PrnfModel.out_char in Ho. rewrite I1, I2 in Ho. cbn [is_null null p_obj p_ofs Z.eqb bind] in Ho.
    destruct (fn (o_st W o) c) as [s1| |] eqn:E; try discriminate. cbn [bind] in Ho.
    set (col1 := if (c =? 13) || (c =? 10) then 0 else if 31 <? char_int cf c then o_col W o + 1 else o_col W o) in *.
    assert ((if (c =? 13) || (c =? 10) then Ok 0 else if 31 <? char_int cf c then iadd cf (o_col W o) 1 else Ok (o_col W o)) = Ok col1) as Ecol.
    { unfold col1. destruct ((c =? 13) || (c =? 10)); auto. destruct (31 <? char_int cf c); auto. apply iadd_ok. unfold INT_MIN. lia. }
    rewrite Ecol in Ho. cbn [bind] in Ho. rewrite iadd_ok in Ho by (unfold INT_MIN; lia). cbn [bind] in Ho. injection Ho as <-.
    unfold I. cbn [o_buf o_fn o_col o_cnt o_st]. split; auto. split; auto.
    split; [unfold col1; destruct ((c =? 13) || (c =? 10)); [lia|destruct (31 <? char_int cf c); lia]|]. eauto.
  - intros o (_ & _ & _ & Hj1). now apply Hm.
  - intros o (_ & _ & _ & Hj1). now apply Hm.
  - unfold I. cbn. repeat split; auto; lia.
  - cbn. lia.
  - cbn [o_cnt o_col]. fold t. lia.
Qed.
End Feed.

(** ** Columns *)
Lemma printed_app : forall D cf (flt : bool -> conv -> D -> list Z) a b col,
  printed cf flt col (a ++ b) = printed cf flt col a ++ printed cf flt (after cf col (printed cf flt col a)) b.
Proof.
  intros D cf flt. induction a as [|i a IH]; intros b col; cbn [printed app]; [reflexivity|].
  rewrite IH, <- app_assoc. unfold after. now rewrite fold_left_app.
Qed.
Lemma after_visible : forall cf l col, visible cf l -> after cf col l = col + Zlen l.
Proof.
  intros cf. induction l as [|x l IH]; intros col H; [change (Zlen (@nil Z)) with 0; rewrite Z.add_0_r; reflexivity|].
  inversion H as [|? ? H1 H2]; subst. unfold after. cbn [fold_left]. fold (after cf (step_col cf col x) l). rewrite IH by auto. rewrite Zlen_cons.
  unfold step_col. rewrite H1. unfold counts in H1. apply andb_true_iff in H1 as [H1 _]. apply Z.leb_le in H1.
  rewrite (proj2 (Z.eqb_neq x 13)), (proj2 (Z.eqb_neq x 10)) by lia. cbn [orb]. lia.
Qed.
Lemma after_line : forall cf a l col, visible cf l -> after cf col (a ++ 10 :: l) = Zlen l.
Proof.
  intros cf a l col H. unfold after. rewrite fold_left_app. cbn [fold_left]. unfold step_col at 2. cbn [Z.eqb Pos.eqb orb].
  fold (after cf 0 l). rewrite after_visible by auto. lia.
Qed.
Lemma copies_len : forall x n, Zlen (copies x n) = Z.max 0 n.
Proof. intros. unfold copies, Zlen. rewrite repeat_length. lia. Qed.
Lemma copies_visible : forall cf x n, counts cf x = true -> visible cf (copies x n).
Proof. intros cf x n H. unfold visible, copies. apply Forall_forall. intros y Hy. apply repeat_spec in Hy. now subst. Qed.
Lemma pad_len : forall c x t, Zlen (pad c x t) = Z.max (width_of c) (Zlen t).
Proof.
  intros c x t. pose proof (Zlen_nonneg t). unfold pad. destruct (left_aligned c); rewrite Zlen_app, copies_len; lia.
Qed.

Lemma pad_none : forall c x t, width_of c = 0 -> pad c x t = t.
Proof.
  intros c x t H. unfold pad. rewrite H. pose proof (Zlen_nonneg t). unfold copies.
  replace (Z.to_nat (0 - Zlen t)) with 0%nat by lia. cbn [repeat app]. rewrite app_nil_r. now destruct (left_aligned c).
Qed.
Lemma fixed_len : forall base k n, Zlen (PrnfSpec.fixed base k n) = Z.of_nat k.
Proof.
  intros base. induction k as [|k IH]; intros n; cbn [PrnfSpec.fixed]; [reflexivity|].
  rewrite Zlen_app, IH. change (Zlen [upper_digit (n mod base)]) with 1. lia.
Qed.
Lemma plain_dec : forall D cf b l v, plain cf [Dec b (Conv [] WNone PNone l) v : item D] = show_signed 10 v.
Proof.
  intros D cf b l v. unfold plain. cbn [printed item_out]. rewrite app_nil_r, pad_none by reflexivity.
  unfold show_signed, dec_digits. cbn [prec_of cv_prec cv_flags plus_sign app]. destruct (Z.ltb_spec v 0); cbn [app];
    [rewrite Z.abs_neq by lia|rewrite Z.abs_eq by lia]; reflexivity.
Qed.
Lemma plain_uns : forall D cf l v, 0 <= v -> plain cf [Uns (Conv [] WNone PNone l) v : item D] = show_signed 10 v.
Proof.
  intros D cf l v H. unfold plain. cbn [printed item_out]. rewrite app_nil_r, pad_none by reflexivity.
  unfold show_signed, dec_digits. cbn [prec_of cv_prec app]. rewrite (proj2 (Z.ltb_ge v 0)) by lia. reflexivity.
Qed.

(** Exact numbers of digits *)
Lemma upper_digit_ok : forall base d, base <= 16 -> 0 <= d < base -> isdig base (upper_digit d) = true /\ dval (upper_digit d) = d.
Proof.
  intros base d Hb Hd. assert (dval (upper_digit d) = d) as E.
  { unfold upper_digit, dval. destruct (Z.ltb_spec d 10).
    - rewrite (proj2 (Z.leb_le (48 + d) 57)) by lia. lia.
    - rewrite (proj2 (Z.leb_gt (55 + d) 57)), (proj2 (Z.leb_le (55 + d) 70)) by lia. lia. }
  split; auto. unfold isdig. rewrite E, (proj2 (Z.ltb_lt d base)) by lia. rewrite andb_true_r. unfold upper_digit. destruct (Z.ltb_spec d 10).
  - rewrite (proj2 (Z.leb_le 48 _)), (proj2 (Z.leb_le _ 57)) by lia. reflexivity.
  - rewrite (proj2 (Z.leb_le 65 _)), (proj2 (Z.leb_le _ 70)) by lia. cbn [andb]. rewrite orb_true_r. reflexivity.
Qed.
Lemma fixed_ok : forall base k n, 2 <= base <= 16 -> 0 <= n ->
  Forall (fun x => isdig base x = true) (PrnfSpec.fixed base k n) /\ num_val base (PrnfSpec.fixed base k n) = n mod base ^ Z.of_nat k.
Proof.
  intros base k. induction k as [|k IH]; intros n Hb Hn; cbn [PrnfSpec.fixed].
  - split; [constructor|]. change (base ^ Z.of_nat 0) with 1. rewrite Z.mod_1_r. reflexivity.
  - assert (0 <= n mod base < base) as Hm by (apply Z.mod_pos_bound; lia). destruct (upper_digit_ok base (n mod base)) as [U1 U2]; [lia|lia|].
    assert (0 <= n / base) as Hd by (apply Z.div_pos; lia). destruct (IH (n / base) Hb Hd) as [F1 F2]. split.
    + apply Forall_app. split; auto.
    + unfold num_val in *. rewrite fold_left_app, F2. cbn [fold_left]. rewrite U2.
      rewrite Nat2Z.inj_succ, Z.pow_succ_r by lia. assert (0 < base ^ Z.of_nat k) by (apply Z.pow_pos_nonneg; lia).
      rewrite Z.rem_mul_r by lia. lia.
Qed.
Lemma span_all : forall (p : Z -> bool) l, Forall (fun x => p x = true) l -> span p l = (l, []).
Proof. intros p. induction 1 as [|x l H F IH]; cbn [span]; [reflexivity|]. rewrite H, IH. reflexivity. Qed.
Lemma read_digits : forall sg opt base l, (opt = STRNUM_BASE_HEX /\ base = 16) \/ (opt = STRNUM_BASE_BIN /\ base = 2) ->
  Forall (fun x => isdig base x = true) l -> read_int sg opt l = IntText false base l [].
Proof.
  intros sg opt base l Ho Hd.
  assert (opt_base opt = base /\ flag opt STRNUM_NOSPACE = false /\
    ((flag opt STRNUM_BASE_HEX = true /\ base = 16 /\ flag opt STRNUM_NOSIGN = false) \/ (base = 2 /\ flag opt STRNUM_NOSIGN = false))) as (E1 & E2 & E3).
  { destruct Ho as [[-> ->]|[-> ->]]; (split; [reflexivity|split; [reflexivity|]]); [left|right]; repeat split; reflexivity. }
  assert (forall x, isdig base x = true -> (x =? 32) = false /\ (x =? 45) = false /\ (x =? 43) = false /\ (x =? 120) = false /\ (x =? 88) = false /\
    (base = 2 -> (x =? 98) = false /\ (x =? 66) = false)) as Hx.
  { intros x Hx. unfold isdig in Hx. apply andb_true_iff in Hx as [Hx Hl].
    assert (48 <= x <= 57 \/ 65 <= x <= 70 \/ 97 <= x <= 102) as Hr.
    { apply orb_true_iff in Hx as [Hx|Hx]; [apply orb_true_iff in Hx as [Hx|Hx]|]; apply andb_true_iff in Hx as [X1 X2]; apply Z.leb_le in X1, X2; lia. }
    do 5 (split; [apply Z.eqb_neq; lia|]). intros Hb. clear - Hb Hl. rewrite Hb in Hl.
    split; apply Z.eqb_neq; intros ->; vm_compute in Hl; discriminate. }
  unfold read_int. rewrite E2.
  assert (snd (span (Z.eqb 32) l) = l) as ->.
  { destruct l as [|x l]; [reflexivity|]. inversion Hd; subst. cbn [span]. destruct (Hx x) as (X & _); auto. rewrite Z.eqb_sym, X. reflexivity. }
  assert ((if sg && negb (flag opt STRNUM_NOSIGN) then read_sign l else (false, l)) = (false, l)) as ->.
  { destruct (sg && negb (flag opt STRNUM_NOSIGN)); [|reflexivity]. destruct l as [|x l]; [reflexivity|]. inversion Hd; subst. cbn [read_sign].
    destruct (Hx x) as (_ & X1 & X2 & _); auto. rewrite X1, X2. reflexivity. }
  assert (read_prefix opt l = (base, l)) as ->.
  { unfold read_prefix. rewrite E1. destruct l as [|z [|b l]]; try reflexivity. inversion Hd as [|? ? _ Hd2]; subst z. inversion Hd2; subst.
    destruct (Hx b) as (_ & _ & _ & X1 & X2 & X3); auto. rewrite X1, X2. cbn [orb]. rewrite andb_false_r. cbn [andb].
    destruct E3 as [(E3 & _)|(E3 & _)].
    - rewrite E3. cbn [negb]. rewrite !andb_false_r. reflexivity.
    - destruct (X3 E3) as [-> ->]. cbn [orb]. rewrite andb_false_r. reflexivity. }
  rewrite (span_all _ _ Hd). reflexivity.
Qed.
