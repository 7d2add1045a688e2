(** Property theorems about floating point numbers printed by prnf configured with PRNF_SUPPORT_DOUBLE (C146). *)
From Coq Require Import String ZArith Reals Lra Lia.
From Flocq Require Import Core BinarySingleNaN.
From Verif Require Import Base Mem Libc StrviewModel Spec MemLemmas IeeeSpec Alloc StrbufModel BufSpec
  StrbufProofs StrbufProofs7 PrnfModel PrnfSpec PrnfSpec2 PrnfIeee PrnfDouble PrnfBufModel PrnfPrecSpec PrnfPrec PrnfProofs4 PrnfProofs5 PrnfProofs6
  PrnfProofs9 PrnfDoubleProofs PrnfDoubleEng ExampleLib BufExample PropsBuf PropsBuf2 PropsPrnf PropsPrnfIeee.
Local Open Scope string_scope.
Local Open Scope list_scope.
Local Open Scope Z_scope.

(** [s] is an acceptable text for the floating point argument [d]. *)
Definition double_text (eng : bool) (c : conv) (d : b64) (s : list Z) : Prop :=
  if eng then exists k r, s = flt_text true c (si_prefix k) r /\ double_eng_reading d (flt_prec true c) k r
  else exists r, s = flt_text false c [] r /\ double_reading d (flt_prec false c) r.
Lemma double_printed : forall cf (items : list (item b64)), items_ok cf float_ok items ->
  items_ok cf (flt_fine dieee) items /\ prints cf double_text 0 items (printed cf (flt dieee) 0 items).
Proof.
  intros cf items H. apply (printed_prints cf dieee double_text float_ok) with (col := 0) in H; auto. clear. intros e c d Hc _.
  split; [now apply PrnfDoubleProofs.ieee_flt_fine|]. pose proof (flt_prec_range c e) as Hp.
  destruct e; [now apply double_eng_text_ok|now apply double_text_ok].
Qed.

(** ** C146 *)
(** Every function prints the same text, and every number in it is accurate. *)
Theorem C146_text : forall cf (items : list (item b64)), wf_cfg cf -> items_ok cf float_ok items ->
  exists t, prints cf double_text 0 items t /\ (Zlen t < INT_MAX ->
    (forall m dst n fmt va, let w := Z.min n (Zlen t + 1) in
       0 <= n <= INT_MAX -> writable m dst w -> given m fmt items -> elsewhere dst w fmt items ->
       exists m', snprnf cf dieee m dst n fmt (arguments cf items ++ va) = Ok (Zlen t, m') /\
         only_wrote m m' dst w /\ (0 < n -> bytes_at m' dst (firstn (Z.to_nat (n - 1)) t ++ [0]))) /\
    (forall m dst fmt va, writable m dst (Zlen t + 1) -> given m fmt items -> elsewhere dst (Zlen t + 1) fmt items ->
       exists m', sprnf cf dieee m dst fmt (arguments cf items ++ va) = Ok (Zlen t, m') /\
         only_wrote m m' dst (Zlen t + 1) /\ bytes_at m' dst (t ++ [0])) /\
    (forall m dst n l0 fmt va, let at_ := shift dst (Zlen l0) in let room := n - Zlen l0 in let w := Z.min room (Zlen t + 1) in
       0 < n <= INT_MAX -> c_string m dst l0 -> Zlen l0 < n -> writable m at_ w -> given m fmt items -> elsewhere at_ w fmt items ->
       exists m', snappf cf dieee m dst n fmt (arguments cf items ++ va) = Ok (Zlen t, m') /\
         only_wrote m m' at_ w /\ bytes_at m' dst (l0 ++ firstn (Z.to_nat (room - 1)) t ++ [0])) /\
    (forall m n fmt va, given m fmt items -> snprnf cf dieee m null n fmt (arguments cf items ++ va) = Ok (Zlen t, m)) /\
    (forall w p B fmt va, ready cf w p B -> given (s_mem w) fmt items ->
       apart cf p B fmt (Zlen (format items) + 1) -> Forall (item_apart cf p B) items ->
       (sums_ok cf (Zlen t) ->
          becomes cf w p B (strbuf_prnf cf dieee w (Some p) fmt (arguments cf items ++ va)) (put_all cf B t)) /\
       (sums_ok cf (Zlen (bf_data B) + Zlen t) ->
          becomes cf w p B (strbuf_append_prnf cf dieee w (Some p) fmt (arguments cf items ++ va)) (put_all cf B (bf_data B ++ t))))).
Proof.
  intros cf items Wf Hi. destruct (double_printed cf items Hi) as [P1 P2]. exists (printed cf (flt dieee) 0 items). split; [exact P2|]. intros Ht.
  repeat match goal with |- _ /\ _ => split end; intros; repeat match goal with H : given _ _ _ |- _ => destruct H | H : elsewhere _ _ _ _ |- _ => destruct H end.
  - now apply vsnprnf_ok.
  - now apply vsprnf_ok.
  - now apply snappf_ok.
  - now apply to_null_ok.
  - destruct H as (R1 & R2 & R3 & R4).
    split; intros Hs; [rewrite (prnf_format_ok cf dieee w p B) by auto; apply prnf_ok|rewrite (append_prnf_format_ok cf dieee w p B) by auto; apply append_prnf_ok]; auto;
      try lia; eapply text_bytes; eauto.
Qed.
Print Assumptions C146_text.
(** What is printed for one number. *)
Definition dshown (f : string) (d : b64) (n : Z) : option (Z * list Z) := seen (sprnf gcc64 dieee (one_mem f) xdst xfmt [AD d]) n.
Example C146_text_ex : items_ok gcc64 float_ok pi_items /\ given pi_mem xfmt pi_items
  /\ seen (sprnf gcc64 dieee pi_mem xdst xfmt (arguments gcc64 pi_items)) 20 = Some (19, bs "x=    +3.14...12.3k" ++ [0])
  /\ dshown "%.10f" (dbl_of 884279719003555 (-48)) 13 = Some (12, bs "3.1415926536" ++ [0])
  /\ shown "%.10f" (dbl_of 884279719003555 (-48)) 13 = Some (12, bs "3.1415926784" ++ [0]).
Proof.
  destruct C104_ex as (E1 & E2 & _ & _). split; [exact E1|]. split; [exact E2|].
  repeat split; vm_compute; reflexivity.
Qed.

(** Numbers with at most ten decimals are printed exactly up to 2^53 units of the last decimal. *)
Theorem C146_exact_partial : forall cf m dst fmt b c d n va, wf_cfg cf -> conv_ok c ->
  let items := [Flt b c d] in let p := flt_prec false c in p <= 10 -> is_finite d = true ->
  (Rabs (B2R d) * IZR (10 ^ p) = IZR n)%R -> n <= 2 ^ 53 ->
  let t := flt_text false c [] (RNum (Rlt_bool (B2R d) 0) n) in
  Zlen t < INT_MAX -> writable m dst (Zlen t + 1) -> given m fmt items -> elsewhere dst (Zlen t + 1) fmt items ->
  exists m', sprnf cf dieee m dst fmt (arguments cf items ++ va) = Ok (Zlen t, m') /\ bytes_at m' dst (t ++ [0]).
Proof.
  intros cf m dst fmt b c d n va Wf Hc items p Hp Fd Hn Hl t Ht Hw [G1 G2] [E1 E2].
  assert (items_ok cf float_ok items) as Hi by (cbn; unfold float_ok; auto). destruct (double_printed cf items Hi) as [P1 _].
  pose proof (flt_prec_range c false) as P0. fold p in P0.
  assert (printed cf (flt dieee) 0 items = t) as Et.
  { unfold items. cbn [printed item_out]. rewrite app_nil_r. unfold flt. cbn [f_of_dbl dieee]. fold p. rewrite (double_exact d p n); auto; lia. }
  pose proof (vsprnf_ok cf dieee m dst fmt items va Wf) as Q. cbv zeta in Q. rewrite Et in Q.
  destruct (Q Ht Hw G1 E1 P1 G2 E2) as (m' & E & _ & B). eauto.
Qed.
Print Assumptions C146_exact_partial.
(** The number that C106 shows to be printed wrongly as a float. *)
Lemma whole_val : B2R (dbl_of 16777215 0) = 16777215%R.
Proof.
  rewrite <- SF2R_B2SF. replace (B2SF (dbl_of 16777215 0)) with (SpecFloat.S754_finite false 9007198717870080 (-29)) by (vm_compute; reflexivity).
  unfold SF2R, F2R. cbn. lra.
Qed.
Example C146_exact_ex : conv_ok (Conv [] WNone PNone Lint) /\ is_finite (dbl_of 16777215 0) = true
  /\ (Rabs (B2R (dbl_of 16777215 0)) * IZR (10 ^ 3) = IZR 16777215000)%R /\ 16777215000 <= 2 ^ 53
  /\ given (one_mem "%f") xfmt [Flt false (Conv [] WNone PNone Lint) (dbl_of 16777215 0)]
  /\ dshown "%f" (dbl_of 16777215 0) 13 = Some (12, bs "16777215.000" ++ [0])
  /\ shown "%f" (dbl_of 16777215 0) 13 = Some (12, bs "16777214.976" ++ [0]).
Proof.
  split; [vm_compute; auto|]. split; [vm_compute; reflexivity|]. split.
  { rewrite whole_val. change (10 ^ 3) with 1000. rewrite Rabs_right by lra. lra. }
  split; [vm_compute; discriminate|]. split; [split; [apply bytes_atb_ok; vm_compute; reflexivity|repeat constructor]|].
  split; vm_compute; reflexivity.
Qed.

(** Not every double can be printed: those that float cannot hold are shown as infinite. *)
Theorem C146_large_refuted : forall cf b c d, wf_cfg cf -> conv_ok c -> is_finite d = true -> (FLT_MAX < Rabs (B2R d))%R ->
  let i := Flt b c d : item (dbl dieee) in
  outputs cf dieee [i] (flt_text false c [] (RInf (Rlt_bool (B2R d) 0))).
Proof.
  intros cf b c d Wf Hc Hf Hd i.
  assert (printed cf (flt dieee) 0 [i] = flt_text false c [] (RInf (Rlt_bool (B2R d) 0))) as E.
  { unfold i. cbn [printed item_out]. rewrite app_nil_r. unfold flt. cbn [f_of_dbl dieee].
    destruct (read_finite (flt_prec false c) d (flt_prec_range c false) Hf) as [[_ ->]|[(L & _)|(L & _)]]; [reflexivity|lra|lra]. }
  rewrite <- E. apply outputs_ok; auto. unfold i. cbn [items_ok item_ok]. split; [split; [exact Hc|apply PrnfDoubleProofs.ieee_flt_fine]|split; exact I].
Qed.
Print Assumptions C146_large_refuted.
Example C146_large_ex : conv_ok (Conv [] WNone (PNum 1) Lint) /\ is_finite (dbl_of (-1) 128) = true /\ (FLT_MAX < Rabs (B2R (dbl_of (-1) 128)))%R
  /\ flt_text false (Conv [] WNone (PNum 1) Lint) [] (RInf true) = bs "-INF" /\ dshown "%.1f" (dbl_of (-1) 128) 5 = Some (4, bs "-INF" ++ [0])
  /\ dshown "%.1e" (dbl_of 1 128) 19 = Some (18, bs "340282366920938.4Y" ++ [0]).
Proof.
  assert (B2R (dbl_of (-1) 128) = - bpow radix2 128)%R as E.
  { rewrite <- SF2R_B2SF. replace (B2SF (dbl_of (-1) 128)) with (SpecFloat.S754_finite true 4503599627370496 76) by (vm_compute; reflexivity).
    unfold SF2R. change (128)%Z with (52 + 76)%Z. rewrite bpow_plus. unfold F2R. cbn [Fnum Fexp]. change (IZR (cond_Zopp true 4503599627370496)) with (- (4503599627370496))%R. change (bpow radix2 52) with 4503599627370496%R. ring. }
  split; [vm_compute; repeat split; discriminate|]. split; [vm_compute; reflexivity|]. split.
  { rewrite E, Rabs_Ropp, Rabs_pos_eq by apply bpow_ge_0. unfold FLT_MAX. pose proof (bpow_gt_0 radix2 104). lra. }
  repeat split; vm_compute; reflexivity.
Qed.

(** Nor are the numbers accurate with eleven or more decimals, where the powers of ten are those of float: 1 is not printed as 1. *)
Theorem C146_decimals_refuted : forall cf b c, wf_cfg cf -> conv_ok c -> let p := flt_prec false c in 11 <= p ->
  let i := Flt b c (dbl_of 1 0) : item (dbl dieee) in
  exists n, n <> 10 ^ p /\ outputs cf dieee [i] (flt_text false c [] (RNum false n)).
Proof.
  intros cf b c Wf Hc p Hp i. pose proof (flt_prec_range c false) as P0. fold p in P0.
  assert (exists n, n <> 10 ^ p /\ read_as dieee p (dbl_of 1 0) = RNum false n) as (n & Hn & Er).
  { clearbody p. clear - Hp P0. assert (p = 11 \/ p = 12 \/ p = 13 \/ p = 14 \/ p = 15 \/ p = 16 \/ p = 17 \/ p = 18 \/ p = 19) as C by lia.
    repeat (destruct C as [->|C]; [eexists; split; [|vm_compute; reflexivity]; discriminate|]). subst p. eexists. split; [|vm_compute; reflexivity]. discriminate. }
  exists n. split; [exact Hn|]. assert (printed cf (flt dieee) 0 [i] = flt_text false c [] (RNum false n)) as E.
  { unfold i. cbn [printed item_out]. rewrite app_nil_r. unfold flt. cbn [f_of_dbl dieee]. fold p. now rewrite Er. }
  rewrite <- E. apply outputs_ok; auto. unfold i. cbn [items_ok item_ok]. split; [split; [exact Hc|apply PrnfDoubleProofs.ieee_flt_fine]|split; exact I].
Qed.
Print Assumptions C146_decimals_refuted.
Example C146_decimals_ex : conv_ok (Conv [] WNone (PNum 11) Lint) /\ 11 <= flt_prec false (Conv [] WNone (PNum 11) Lint)
  /\ dshown "%.11f" (dbl_of 1 0) 14 = Some (13, bs "0.99999997952" ++ [0]).
Proof. split; [vm_compute; repeat split; discriminate|]. split; [vm_compute; discriminate|]. vm_compute. reflexivity. Qed.
