(** Property theorems about floating point numbers printed by prnf in IEEE-754 arithmetic (C104-C107). *)
From Coq Require Import String ZArith Reals Lra Lia.
From Flocq Require Import Core BinarySingleNaN.
From Verif Require Import Base Mem Libc StrviewModel Spec MemLemmas IeeeSpec Alloc StrbufModel BufSpec
  StrbufProofs StrbufProofs7 PrnfModel PrnfSpec PrnfSpec2 PrnfIeee PrnfBufModel PrnfPrecSpec PrnfPrec PrnfProofs4 PrnfProofs5 PrnfProofs6 PrnfProofs7 PrnfProofs8
  PrnfProofs9 PrnfProofs10 ExampleLib BufExample PropsBuf PropsBuf2 PropsPrnf.
Local Open Scope string_scope.
Local Open Scope list_scope.
Local Open Scope Z_scope.

(** Every number can be printed with every precision. *)
Definition float_ok (eng : bool) (c : conv) (d : b64) : Prop := True.
(** [s] is an acceptable text for the floating point argument [d]. *)
Definition ieee_text (eng : bool) (c : conv) (d : b64) (s : list Z) : Prop :=
  if eng then exists k r, s = flt_text true c (si_prefix k) r /\ eng_reading d (flt_prec true c) k r
  else exists r, s = flt_text false c [] r /\ float_reading d (flt_prec false c) r.
Lemma ieee_printed : forall cf (items : list (item b64)), items_ok cf float_ok items ->
  items_ok cf (flt_fine ieee) items /\ prints cf ieee_text 0 items (printed cf (flt ieee) 0 items).
Proof.
  intros cf items H. apply (printed_prints cf ieee ieee_text float_ok) with (col := 0) in H; auto. clear. intros e c d Hc _.
  split; [now apply ieee_flt_fine|]. pose proof (flt_prec_range c e) as Hp.
  destruct e; [now apply eng_text_ok|now apply flt_text_ok].
Qed.
(** The double [z] * 2^[e]. *)
Definition dbl_of (z e : Z) : b64 := binary_normalize 53 1024 p64 l64 mode_NE z e false.

(** ** C104 *)
(** The text depends only on the items; it is the same for every function. *)
Theorem C104_text : forall cf (items : list (item b64)), wf_cfg cf -> items_ok cf float_ok items ->
  exists t, prints cf ieee_text 0 items t /\ (Zlen t < INT_MAX ->
    (forall m dst n fmt va, let w := Z.min n (Zlen t + 1) in
       0 <= n <= INT_MAX -> writable m dst w -> given m fmt items -> elsewhere dst w fmt items ->
       exists m', snprnf cf ieee m dst n fmt (arguments cf items ++ va) = Ok (Zlen t, m') /\
         only_wrote m m' dst w /\ (0 < n -> bytes_at m' dst (firstn (Z.to_nat (n - 1)) t ++ [0]))) /\
    (forall m dst fmt va, writable m dst (Zlen t + 1) -> given m fmt items -> elsewhere dst (Zlen t + 1) fmt items ->
       exists m', sprnf cf ieee m dst fmt (arguments cf items ++ va) = Ok (Zlen t, m') /\
         only_wrote m m' dst (Zlen t + 1) /\ bytes_at m' dst (t ++ [0])) /\
    (forall m dst n l0 fmt va, let at_ := shift dst (Zlen l0) in let room := n - Zlen l0 in let w := Z.min room (Zlen t + 1) in
       0 < n <= INT_MAX -> c_string m dst l0 -> Zlen l0 < n -> writable m at_ w -> given m fmt items -> elsewhere at_ w fmt items ->
       exists m', snappf cf ieee m dst n fmt (arguments cf items ++ va) = Ok (Zlen t, m') /\
         only_wrote m m' at_ w /\ bytes_at m' dst (l0 ++ firstn (Z.to_nat (room - 1)) t ++ [0])) /\
    (forall m n fmt va, given m fmt items -> snprnf cf ieee m null n fmt (arguments cf items ++ va) = Ok (Zlen t, m)) /\
    (forall w p B fmt va, ready cf w p B -> given (s_mem w) fmt items ->
       apart cf p B fmt (Zlen (format items) + 1) -> Forall (item_apart cf p B) items ->
       (sums_ok cf (Zlen t) ->
          becomes cf w p B (strbuf_prnf cf ieee w (Some p) fmt (arguments cf items ++ va)) (put_all cf B t)) /\
       (sums_ok cf (Zlen (bf_data B) + Zlen t) ->
          becomes cf w p B (strbuf_append_prnf cf ieee w (Some p) fmt (arguments cf items ++ va)) (put_all cf B (bf_data B ++ t))))).
Proof.
  intros cf items Wf Hi. destruct (ieee_printed cf items Hi) as [P1 P2]. exists (printed cf (flt ieee) 0 items). split; [exact P2|]. intros Ht.
  repeat match goal with |- _ /\ _ => split end; intros; repeat match goal with H : given _ _ _ |- _ => destruct H | H : elsewhere _ _ _ _ |- _ => destruct H end.
  - now apply vsnprnf_ok.
  - now apply vsprnf_ok.
  - now apply snappf_ok.
  - now apply to_null_ok.
  - destruct H as (R1 & R2 & R3 & R4).
    split; intros Hs; [rewrite (prnf_format_ok cf ieee w p B) by auto; apply prnf_ok|rewrite (append_prnf_format_ok cf ieee w p B) by auto; apply append_prnf_ok]; auto;
      try lia; eapply text_bytes; eauto.
Qed.
Print Assumptions C104_text.
Definition pi_items : list (item b64) :=
  [Text (bs "x="); Flt false (Conv [FPlus] (WNum 9) (PNum 2) Lint) (dbl_of 884279719003555 (-48)); Column 14 46;
   Eng false (Conv [] WNone (PNum 1) Lint) (dbl_of 12345 0)].
Definition pi_mem : mem := xmem (bs "x=%+9.2f" ++ [11] ++ bs "14.%.1e" ++ [0]) [].
Example C104_ex : items_ok gcc64 float_ok pi_items /\ given pi_mem xfmt pi_items
  /\ seen (sprnf gcc64 ieee pi_mem xdst xfmt (arguments gcc64 pi_items)) 20 = Some (19, bs "x=    +3.14...12.3k" ++ [0])
  /\ seen (snprnf gcc64 ieee pi_mem xdst 8 xfmt (arguments gcc64 pi_items)) 8 = Some (19, bs "x=    +" ++ [0]).
Proof.
  split; [items_check|]. split; [split; [rewrite (ltac:(vm_compute; reflexivity) : format pi_items = bs "x=%+9.2f" ++ [11] ++ bs "14.%.1e"); apply bytes_atb_ok; vm_compute; reflexivity|repeat constructor]|].
  split; vm_compute; reflexivity.
Qed.

(** ** C105: engineering notation of one number *)
Theorem C105_engineering : forall cf m dst fmt b c d va, wf_cfg cf -> conv_ok c ->
  let items := [Eng b c d] in let p := flt_prec true c in
  exists k r, eng_reading d p k r /\ let t := flt_text true c (si_prefix k) r in
    (Zlen t < INT_MAX -> writable m dst (Zlen t + 1) -> given m fmt items -> elsewhere dst (Zlen t + 1) fmt items ->
     exists m', sprnf cf ieee m dst fmt (arguments cf items ++ va) = Ok (Zlen t, m') /\ bytes_at m' dst (t ++ [0])).
Proof.
  intros cf m dst fmt b c d va Wf Hc items p. assert (items_ok cf float_ok items) as Hi by (cbn; unfold float_ok; auto).
  destruct (C104_text cf items Wf Hi) as (t & (s & r & -> & (k & rd & -> & R) & Hr) & H). cbn [prints] in Hr. subst r. rewrite app_nil_r in H. exists k, rd. split; [exact R|].
  intros t Ht Hw Hg He. destruct (H Ht) as (_ & H2 & _). destruct (H2 m dst fmt va Hw Hg He) as (m' & E & _ & B). eauto.
Qed.
Print Assumptions C105_engineering.
Definition one_mem (f : string) : mem := xmem (bs f ++ [0]) [].
(** What is printed for one number. *)
Definition shown (f : string) (d : b64) (n : Z) : option (Z * list Z) := seen (sprnf gcc64 ieee (one_mem f) xdst xfmt [AD d]) n.
Example C105_ex : conv_ok (Conv [] WNone (PNum 3) Lint)
  /\ given (one_mem "%.3e") xfmt [Eng false (Conv [] WNone (PNum 3) Lint) (dbl_of 1 (-10))]
  /\ shown "%.3e" (dbl_of 1 (-10)) 9 = Some (8, bs "976.563u" ++ [0]) /\ shown "%.3e" (dbl_of (-1) 10) 8 = Some (7, bs "-1.024k" ++ [0])
  /\ eng_reading (dbl_of 1 (-10)) 3 (-2) (RNum false 976563).
Proof.
  split; [vm_compute; repeat split; discriminate|].
  split; [split; [apply bytes_atb_ok; vm_compute; reflexivity|repeat constructor]|]. split; [vm_compute; reflexivity|]. split; [vm_compute; reflexivity|].
  assert (B2R (dbl_of 1 (-10)) = (1 / 1024)%R) as E.
  { rewrite <- SF2R_B2SF. replace (B2SF (dbl_of 1 (-10))) with (SpecFloat.S754_finite false 4503599627370496 (-62)) by (vm_compute; reflexivity).
    unfold SF2R, F2R. cbn. lra. }
  assert (exists m e H, dbl_of 1 (-10) = B754_finite false m e H) as (mm & e & Hb & Ed).
  { destruct (dbl_of 1 (-10)) as [s|s| |s mm e Hb] eqn:Ed; [exfalso..|].
    - cbn in E. lra.
    - cbn in E. lra.
    - cbn in E. lra.
    - destruct s; [|eauto]. exfalso. assert (B2R (B754_finite true mm e Hb : b64) < 0)%R by (apply F2R_lt_0; reflexivity). lra. }
  rewrite Ed in *. cbn [eng_reading]. rewrite E. split; [lia|]. split; [lia|]. split.
  - unfold eng_error. change (10 ^ 3) with 1000. cbn [powerRZ Pos.to_nat Pos.iter_op Nat.add pow]. change (Pos.to_nat 2) with 2%nat. cbn [pow].
    rewrite (Rabs_right (1 / 1024)) by lra. apply Rabs_le. pose proof (bpow_gt_0 radix2 (-148)). pose proof (bpow_gt_0 radix2 (-20)). lra.
  - split; [pose proof (bpow_gt_0 radix2 (-150)); lra|]. split; lia.
Qed.
(** The number shown can be 1000: 999999.6 is shown as 1000k, not as 1M. *)
Theorem C105_below_1000_refuted : exists m m' d, items_ok gcc64 float_ok [Eng false (Conv [] WNone PNone Lint) d] /\
  given m xfmt [Eng false (Conv [] WNone PNone Lint) d] /\ (B2R d < 1000000)%R /\
  sprnf gcc64 ieee m xdst xfmt (arguments gcc64 [Eng false (Conv [] WNone PNone Lint) d]) = Ok (5, m') /\ bytes_at m' xdst (bs "1000k" ++ [0]).
Proof.
  exists (one_mem "%e"). eexists. exists (dbl_of 7999997 (-3)). split; [items_check|].
  split; [split; [apply bytes_atb_ok; vm_compute; reflexivity|repeat constructor]|]. split.
  { rewrite <- SF2R_B2SF. replace (B2SF (dbl_of 7999997 (-3))) with (SpecFloat.S754_finite false 8589931370774528 (-33)) by (vm_compute; reflexivity).
    unfold SF2R, F2R. cbn. lra. }
  split; [vm_compute; reflexivity|]. apply bytes_atb_ok; vm_compute; reflexivity.
Qed.
Print Assumptions C105_below_1000_refuted.

(** ** C106: exact numbers *)
(** A number that float can hold, with at most p decimals, and with all its digits below 2^24. *)
Theorem C106_exact_partial : forall cf m dst fmt b c d n va, wf_cfg cf -> conv_ok c ->
  let items := [Flt b c d] in let p := flt_prec false c in p <= 10 -> is_finite d = true ->
  generic_format radix2 (SpecFloat.fexp 24 128) (B2R d) -> (Rabs (B2R d) * IZR (10 ^ p) = IZR n)%R -> n <= 2 ^ 24 ->
  let t := flt_text false c [] (RNum (Rlt_bool (B2R d) 0) n) in
  Zlen t < INT_MAX -> writable m dst (Zlen t + 1) -> given m fmt items -> elsewhere dst (Zlen t + 1) fmt items ->
  exists m', sprnf cf ieee m dst fmt (arguments cf items ++ va) = Ok (Zlen t, m') /\ bytes_at m' dst (t ++ [0]).
Proof.
  intros cf m dst fmt b c d n va Wf Hc items p Hp Fd Gd Hn Hl t Ht Hw [G1 G2] [E1 E2].
  assert (items_ok cf float_ok items) as Hi by (cbn; unfold float_ok; auto). destruct (ieee_printed cf items Hi) as [P1 _].
  assert (0 <= p) as P0 by (unfold p, flt_prec; destruct Hc as [_ Hc]; unfold prec_of; destruct (cv_prec c); lia).
  assert (printed cf (flt ieee) 0 items = t) as Et.
  { unfold items. cbn [printed item_out]. rewrite app_nil_r. unfold flt. cbn [f_of_dbl ieee]. fold p. rewrite (exact_reading d p n); auto. }
  pose proof (vsprnf_ok cf ieee m dst fmt items va Wf) as Q. cbv zeta in Q. rewrite Et in Q.
  destruct (Q Ht Hw G1 E1 P1 G2 E2) as (m' & E & _ & B). eauto.
Qed.
Print Assumptions C106_exact_partial.
Example C106_ex : conv_ok (Conv [] WNone PNone Lint) /\ B2R (dbl_of (-3) (-3)) = (- 3 / 8)%R
  /\ generic_format radix2 (SpecFloat.fexp 24 128) (B2R (dbl_of (-3) (-3)))
  /\ (Rabs (B2R (dbl_of (-3) (-3))) * IZR (10 ^ 3) = IZR 375)%R
  /\ flt_text false (Conv [] WNone PNone Lint) [] (RNum true 375) = bs "-0.375"
  /\ shown "%f" (dbl_of (-3) (-3)) 7 = Some (6, bs "-0.375" ++ [0]).
Proof.
  assert (B2R (dbl_of (-3) (-3)) = (- 3 / 8)%R) as E.
  { rewrite <- SF2R_B2SF. replace (B2SF (dbl_of (-3) (-3))) with (SpecFloat.S754_finite true 6755399441055744 (-54)) by (vm_compute; reflexivity).
    unfold SF2R, F2R. cbn. lra. }
  split; [vm_compute; auto|]. split; [exact E|]. rewrite E. split.
  { apply generic_format_FLT. exists (Float radix2 (-3) (-3)); [unfold F2R; cbn; lra|cbn; lia|cbn; unfold SpecFloat.emin; lia]. }
  split; [change (10 ^ 3) with 1000; rewrite Rabs_left by lra; lra|]. split; vm_compute; reflexivity.
Qed.
(** A whole number that float can hold and whose text has only 11 digits is printed as 16777214.976. *)
Theorem C106_whole_number_refuted : exists m m' d, items_ok gcc64 float_ok [Flt false (Conv [] WNone PNone Lint) d] /\
  given m xfmt [Flt false (Conv [] WNone PNone Lint) d] /\ B2R d = 16777215%R /\
  generic_format radix2 (SpecFloat.fexp 24 128) (B2R d) /\
  sprnf gcc64 ieee m xdst xfmt (arguments gcc64 [Flt false (Conv [] WNone PNone Lint) d]) = Ok (12, m') /\ bytes_at m' xdst (bs "16777214.976" ++ [0]).
Proof.
  exists (one_mem "%f"). eexists. exists (dbl_of 16777215 0). split; [items_check|].
  split; [split; [apply bytes_atb_ok; vm_compute; reflexivity|repeat constructor]|].
  assert (B2R (dbl_of 16777215 0) = 16777215%R) as E.
  { rewrite <- SF2R_B2SF. replace (B2SF (dbl_of 16777215 0)) with (SpecFloat.S754_finite false 9007198717870080 (-29)) by (vm_compute; reflexivity).
    unfold SF2R, F2R. cbn. lra. }
  split; [exact E|]. split; [rewrite E; apply small_format; lia|]. split; [vm_compute; reflexivity|]. apply bytes_atb_ok; vm_compute; reflexivity.
Qed.
Print Assumptions C106_whole_number_refuted.

(** ** C107: zero *)
Theorem C107_zero : forall cf m dst fmt b c s va, wf_cfg cf -> conv_ok c ->
  let items := [Flt b c (B754_zero s : b64)] in let p := flt_prec false c in p <= 10 ->
  let t := flt_text false c [] (RNum false 0) in
  Zlen t < INT_MAX -> writable m dst (Zlen t + 1) -> given m fmt items -> elsewhere dst (Zlen t + 1) fmt items ->
  exists m', sprnf cf ieee m dst fmt (arguments cf items ++ va) = Ok (Zlen t, m') /\ bytes_at m' dst (t ++ [0]).
Proof.
  intros cf m dst fmt b c s va Wf Hc items p Hp t Ht Hw Hg He.
  pose proof (C106_exact_partial cf m dst fmt b c (B754_zero s) 0 va Wf Hc Hp eq_refl) as Q. cbn [B2R] in Q. cbv zeta in Q.
  rewrite Rlt_bool_false in Q by apply Rle_refl. apply Q; auto; [apply generic_format_0|rewrite Rabs_R0; apply Rmult_0_l|lia].
Qed.
Print Assumptions C107_zero.
Example C107_ex : conv_ok (Conv [] (WNum 6) (PNum 2) Lint) /\ flt_text false (Conv [] (WNum 6) (PNum 2) Lint) [] (RNum false 0) = bs "  0.00"
  /\ given (one_mem "%6.2f") xfmt [Flt false (Conv [] (WNum 6) (PNum 2) Lint) (B754_zero true : b64)]
  /\ shown "%6.2f" (B754_zero true) 7 = Some (6, bs "  0.00" ++ [0]).
Proof.
  split; [vm_compute; repeat split; discriminate|]. split; [vm_compute; reflexivity|].
  split; [split; [apply bytes_atb_ok; vm_compute; reflexivity|repeat constructor]|]. vm_compute. reflexivity.
Qed.
(** Numbers that are shown as zero can have a sign. *)
Theorem C107_shown_as_zero_refuted : exists m m' d, items_ok gcc64 float_ok [Flt false (Conv [] WNone (PNum 2) Lint) d] /\
  given m xfmt [Flt false (Conv [] WNone (PNum 2) Lint) d] /\
  sprnf gcc64 ieee m xdst xfmt (arguments gcc64 [Flt false (Conv [] WNone (PNum 2) Lint) d]) = Ok (5, m') /\ bytes_at m' xdst (bs "-0.00" ++ [0]).
Proof.
  exists (one_mem "%.2f"). eexists. exists (dbl_of (-1) (-20)). split; [items_check|].
  split; [split; [apply bytes_atb_ok; vm_compute; reflexivity|repeat constructor]|]. split; [vm_compute; reflexivity|]. apply bytes_atb_ok; vm_compute; reflexivity.
Qed.
Print Assumptions C107_shown_as_zero_refuted.

(** ** C141: floating point numbers with a negative precision *)
(** Most negative arguments select 19 decimals, not the default. *)
Lemma same_tail : forall (x y f g : list Z), x ++ 46 :: f = y ++ 46 :: g -> ~ In 46 f -> ~ In 46 g -> f = g.
Proof.
  induction x as [|a x IH]; intros [|b y] f g E Hf Hg; cbn [app] in E.
  - now injection E.
  - injection E as E1 E2. subst. exfalso. apply Hf. apply in_or_app. right. now left.
  - injection E as E1 E2. subst. exfalso. apply Hg. apply in_or_app. right. now left.
  - injection E as E1 E2. now apply (IH y).
Qed.
Lemma fixed_no_point : forall k n, ~ In 46 (PrnfSpec.fixed 10 k n).
Proof.
  induction k as [|k IH]; intros n; cbn [PrnfSpec.fixed]; [intros []|]. intros H. apply in_app_or in H as [H|[H|[]]]; [now apply (IH (n / 10))|].
  pose proof (Z.mod_pos_bound n 10 ltac:(lia)). unfold upper_digit in H. destruct (Z.ltb_spec (n mod 10) 10); lia.
Qed.
Lemma fixed_len : forall k n, length (PrnfSpec.fixed 10 k n) = k.
Proof. induction k as [|k IH]; intros n; cbn [PrnfSpec.fixed]; [reflexivity|]. rewrite app_length, IH. cbn. lia. Qed.
Lemma small_reading : forall d p r, is_finite d = true -> (Rabs (B2R d) <= 1)%R -> 0 <= p <= 19 -> float_reading d p r -> exists neg n, r = RNum neg n.
Proof.
  intros d p r Hf Hd Hp H. assert (0 < bpow radix2 (-24) < / 2 /\ 0 < bpow radix2 (-22) < / 100)%R as [B1 B2] by (cbn; lra).
  assert (IZR (10 ^ p) <= 10000000000000000000)%R as Hq by (apply IZR_le; change 10000000000000000000 with (10 ^ 19); apply Z.pow_le_mono_r; lia).
  assert (0 < IZR (10 ^ p))%R as Hq0 by (apply IZR_lt, Z.pow_pos_nonneg; lia).
   assert (bpow radix2 64 = 18446744073709551616)%R as B64 by (cbn; lra).
  assert (Rabs (B2R d) * IZR (10 ^ p) <= 10000000000000000000)%R as Hm.
  { apply Rle_trans with (1 * IZR (10 ^ p))%R; [apply Rmult_le_compat_r; lra|lra]. }
  assert (exists neg n, r = RNum neg n \/ r = RInf neg /\ (bpow radix2 128 * (1 - bpow radix2 (-24)) <= Rabs (B2R d))%R \/
     r = ROver neg /\ (bpow radix2 64 * (1 - bpow radix2 (-22)) <= Rabs (B2R d) * IZR (10 ^ p))%R) as (neg & n & [E|[[_ E]|[_ E]]]).
  { destruct d as [s|s| |s mm e Hb]; try discriminate Hf; cbn [float_reading] in H; (destruct r as [|neg|neg|neg n]; [contradiction|exists neg, 0|exists neg, 0|exists neg, n; now left]);
      right; [left|right|left|right]; split; auto; apply H. }
  - eauto.
  - exfalso. assert (2 <= bpow radix2 128)%R by (change 2%R with (bpow radix2 1); apply bpow_le; lia).
    assert (2 * (1 - bpow radix2 (-24)) <= bpow radix2 128 * (1 - bpow radix2 (-24)))%R by (apply Rmult_le_compat_r; lra). lra.
  - exfalso. rewrite B64 in E. lra.
Qed.
Theorem C141_float_refuted : forall cf b c d n, wf_cfg cf -> conv_ok (set_prec (PStar n) c) -> n < 0 -> 19 <= n mod 256 -> width_of c = 0 ->
  is_finite d = true -> (Rabs (B2R d) <= 1)%R -> let i := Flt b c d : item (dbl ieee) in
  exists t t', outputs cf ieee [with_prec (PStar n) i] t /\ outputs cf ieee [with_prec PNone i] t' /\ t <> t'.
Proof.
  intros cf b c d n Wf Hc Hn Hm Hw Hf Hd i.
  exists (printed cf (flt ieee) 0 [with_prec (PStar n) i]), (printed cf (flt ieee) 0 [with_prec PNone i]).
  assert (conv_ok (set_prec PNone c)) as Hc0 by (split; [exact (proj1 Hc)|exact I]).
  split; [|split].
  - apply outputs_ok; auto. unfold i. cbn [with_prec items_ok item_ok]. split; [split; [exact Hc|apply ieee_flt_fine]|split; exact I].
  - apply outputs_ok; auto. unfold i. cbn [with_prec items_ok item_ok]. split; [split; [exact Hc0|apply ieee_flt_fine]|split; exact I].
  - unfold i. cbn [with_prec printed item_out]. rewrite !app_nil_r.
    assert (flt_prec false (set_prec (PStar n) c) = 19 /\ flt_prec false (set_prec PNone c) = 3) as [P1 P2] by (unfold flt_prec; cbn [set_prec cv_prec prec_of]; split; [lia|reflexivity]).
    destruct (flt_text_ok (set_prec (PStar n) c) d ltac:(lia)) as (r1 & -> & R1). destruct (flt_text_ok (set_prec PNone c) d ltac:(lia)) as (r2 & -> & R2).
    rewrite P1 in R1. rewrite P2 in R2.
    destruct (small_reading d 19 r1 Hf Hd ltac:(lia) R1) as (n1 & v1 & ->). destruct (small_reading d 3 r2 Hf Hd ltac:(lia) R2) as (n2 & v2 & ->).
    cbn [flt_text]. rewrite !PrnfProofs9.pad_none by exact Hw. rewrite P1, P2.
    assert (forall v : Z, (if v =? 0 then @nil Z else []) = []) as En by (intros v; now destruct (v =? 0)). rewrite !En, !app_nil_r.
    unfold point_text. cbn [Z.eqb]. rewrite !app_assoc. intros E. apply same_tail in E; try apply fixed_no_point. apply (f_equal (@List.length Z)) in E. rewrite !fixed_len in E. vm_compute in E. discriminate.
Qed.
Print Assumptions C141_float_refuted.
Example C141_float_ex : conv_ok (set_prec (PStar (-1)) (Conv [] WNone PNone Lint)) /\ 19 <= (-1) mod 256 /\ is_finite (dbl_of 1 (-1)) = true
  /\ (Rabs (B2R (dbl_of 1 (-1))) <= 1)%R
  /\ seen (sprnf gcc64 ieee (one_mem "%.*f") xdst xfmt [A32 (2 ^ 32 - 1); AD (dbl_of 1 (-1))]) 22 = Some (21, bs "0.4999999990253223936" ++ [0])
  /\ shown "%f" (dbl_of 1 (-1)) 6 = Some (5, bs "0.500" ++ [0]).
Proof.
  split; [split; cbn; unfold INT_MIN, INT_MAX; auto; lia|]. split; [vm_compute; discriminate|]. split; [vm_compute; reflexivity|].
  assert (B2R (dbl_of 1 (-1)) = (1 / 2)%R) as E.
  { rewrite <- SF2R_B2SF. replace (B2SF (dbl_of 1 (-1))) with (SpecFloat.S754_finite false 4503599627370496 (-53)) by (vm_compute; reflexivity).
    unfold SF2R, F2R. cbn. lra. }
  split; [rewrite E, Rabs_right; lra|]. split; vm_compute; reflexivity.
Qed.
