(** Property theorems about prnf, continued: precisions passed as arguments (C141). *)
From Coq Require Import String.
From Verif Require Import Base Mem Libc StrviewModel Spec MemLemmas NumSpec PrnfModel PrnfSpec PrnfSpec2 PrnfPrecSpec PrnfFormat PrnfFormat2 PrnfPrec PrnfProofs4
  ExampleLib PropsPrnf PropsPrnf2 PropsPrnf3.
Local Open Scope string_scope.
Local Open Scope list_scope.
Local Open Scope Z_scope.

(** ** C141 *)
(** An argument that is not negative has the effect of the same number in the format, except that 0 never centres. *)
Theorem C141_argument_partial : forall cf A (a b : list (item (dbl A))) i z n, wf_cfg cf -> 0 <= n <= INT_MAX ->
  placeholder_of i <> None -> (n = 0 -> no_centring i) -> (forall c t, i <> Other c t) ->
  items_ok cf (flt_fine A) (a ++ with_prec (PStar n) i :: b) ->
  same_output cf A (a ++ with_prec (PStar n) i :: b) (a ++ with_prec (PNumZ z n) i :: b).
Proof. exact argument_ok. Qed.
Print Assumptions C141_argument_partial.
(** Floating point numbers: any argument is reduced modulo 256. *)
Theorem C141_modulo_partial : forall cf A (a b : list (item (dbl A))) i z n, wf_cfg cf -> is_float i ->
  items_ok cf (flt_fine A) (a ++ with_prec (PStar n) i :: b) ->
  same_output cf A (a ++ with_prec (PStar n) i :: b) (a ++ with_prec (PNumZ z (n mod 256)) i :: b).
Proof. exact float_mod. Qed.
Print Assumptions C141_modulo_partial.
(** Decimal numbers: a negative argument has the effect of leaving out the precision and the flag 0. *)
Theorem C141_decimal_partial : forall cf A (a b : list (item (dbl A))) i n, wf_cfg cf -> n < 0 -> is_decimal i ->
  items_ok cf (flt_fine A) (a ++ with_prec (PStar n) i :: b) ->
  same_output cf A (a ++ with_prec (PStar n) i :: b) (a ++ without_zero (with_prec PNone i) :: b).
Proof. exact decimal_negative. Qed.
Print Assumptions C141_decimal_partial.
Example C141_ex : forall A, let i := Dec false (Conv [FZero; FPlus] (WNum 6) PNone Lint) 42 : item (dbl A) in let a := [Text (bs "<")] in let b := [Text (bs ">")] in
  items_ok gcc64 (flt_fine A) (a ++ with_prec (PStar 4) i :: b) /\ items_ok gcc64 (flt_fine A) (a ++ with_prec (PStar (-4)) i :: b)
  /\ placeholder_of i <> None /\ is_decimal i
  /\ format (a ++ with_prec (PStar 4) i :: b) = bs "<%0+6.*d>" /\ format (a ++ with_prec (PNumZ 1 4) i :: b) = bs "<%0+6.04d>"
  /\ format (a ++ without_zero (with_prec PNone i) :: b) = bs "<%+6d>"
  /\ arguments gcc64 (a ++ with_prec (PStar (-4)) i :: b) = [A32 (2 ^ 32 - 4); A32 42]
  /\ seen (snprnf gcc64 A (xmem (bs "<%0+6.*d>" ++ [0]) []) xdst 20 xfmt [A32 4; A32 42]) 9 = Some (8, bs "< +0042>" ++ [0])
  /\ seen (snprnf gcc64 A (xmem (bs "<%0+6.*d>" ++ [0]) []) xdst 20 xfmt [A32 (2 ^ 32 - 4); A32 42]) 9 = Some (8, bs "<   +42>" ++ [0])
  /\ seen (snprnf gcc64 A (xmem (bs "<%+6d>" ++ [0]) []) xdst 20 xfmt [A32 42]) 9 = Some (8, bs "<   +42>" ++ [0]).
Proof.
  intros A. cbv zeta. split; [items_check|]. split; [items_check|]. split; [discriminate|]. split; [exact I|].
  repeat (split; [vm_compute; reflexivity|]). vm_compute. reflexivity.
Qed.

(** Every string with a negative precision is read beyond its end: undefined behaviour in every format. *)
Theorem C141_string_refuted : forall cf A m n fmt (items : list (item (dbl A))) c t p q l rest va, wf_cfg cf -> conv_ok c -> t = 115 \/ t = 83 ->
  cv_prec c = PStar p -> p < 0 -> string_arg m q l ->
  Zlen (plain cf items) + width_of c - p < INT_MAX ->
  (forall b, access m (p_obj q) = Ok b -> Zlen (plain cf items) + width_of c - p + b_size b < INT_MAX) ->
  items_before cf (fun _ _ _ => False) 37 items -> Forall (item_mem m) items ->
  bytes_at m fmt (format items ++ conv_text c t ++ rest) ->
  exists u, snprnf cf A m null n fmt (arguments cf items ++ conv_args c ++ AP q :: va) = UB u.
Proof. exact negative_str_ub. Qed.
Print Assumptions C141_string_refuted.
Example C141_string_ex : forall A, let a := [Text (bs "x=")] : list (item (dbl A)) in let c := Conv [] WNone (PStar (-1)) Lint in
  let m := xmem (bs "x=%.*s" ++ [0]) (bs "abc" ++ [0]) in
  conv_ok c /\ string_arg m (Ptr (PBlk 2) 0) (bs "abc") /\ Zlen (plain gcc64 a) + width_of c - -1 < INT_MAX
  /\ (forall b, access m (PBlk 2) = Ok b -> Zlen (plain gcc64 a) + width_of c - -1 + b_size b < INT_MAX)
  /\ items_before gcc64 (fun _ _ _ => False) 37 a /\ Forall (item_mem m) a /\ bytes_at m xfmt (format a ++ conv_text c 115 ++ [0])
  /\ conv_args c ++ [AP (Ptr (PBlk 2) 0)] = [A32 (2 ^ 32 - 1); AP (D := dbl A) (Ptr (PBlk 2) 0)].
Proof.
  intros A. cbv zeta. split; [split; cbn; unfold INT_MIN, INT_MAX; lia|]. split; [right; cstr_check|]. split; [reflexivity|].
  split; [intros b E; vm_compute in E; injection E as <-; reflexivity|].
  split; [unfold items_before, item_ok, conv_ok; cbn -[Z.lt Z.le In counts]; repeat (split || constructor); cbv; try intuition discriminate; try reflexivity|].
  split; [repeat constructor|]. split; [apply bytes_atb_ok; vm_compute; reflexivity|]. reflexivity.
Qed.

(** Decimal numbers: the flag 0 is always lost. *)
Lemma hd_copies : forall x n l, 0 < n -> hd 0 (copies x n ++ l) = x.
Proof. intros x n l H. unfold copies. destruct (Z.to_nat n) eqn:E; [lia|reflexivity]. Qed.
Theorem C141_zero_flag_refuted : forall cf A b c v n, wf_cfg cf -> conv_ok (set_prec (PStar n) c) -> signed_ok cf (cv_len c) v -> n < 0 ->
  has_flag FZero c = true -> left_aligned c = false -> Zlen (show 10 (Z.abs v)) + 1 < width_of c ->
  let i := Dec b c v : item (dbl A) in
  exists t t', outputs cf A [with_prec (PStar n) i] t /\ outputs cf A [with_prec PNone i] t' /\ t <> t'.
Proof.
  intros cf A b c v n Wf Hc Hv Hn Hz Hla Hw i. exists (printed cf (flt A) 0 [with_prec (PStar n) i]), (printed cf (flt A) 0 [with_prec PNone i]).
  assert (width_of (set_prec (PStar n) c) = width_of c /\ width_of (set_prec PNone c) = width_of c /\ left_aligned (set_prec (PStar n) c) = false /\ left_aligned (set_prec PNone c) = false
    /\ has_flag FZero (set_prec PNone c) = true) as (W1 & W2 & L1 & L2 & F1) by (repeat split; assumption).
  split; [|split].
  - apply outputs_ok; auto. unfold i. cbn [with_prec items_ok item_ok]. split; [split; [exact Hc|exact Hv]|split; exact I].
  - apply outputs_ok; auto. unfold i. cbn [with_prec items_ok item_ok]. split; [split; [split; [exact (proj1 Hc)|exact I]|exact Hv]|split; exact I].
  - unfold i. cbn [with_prec printed item_out]. rewrite !app_nil_r. unfold pad. rewrite L1, L2, W1, W2. unfold int_fill, dec_digits. cbn [set_prec cv_prec prec_of cv_flags].
    change (has_flag FZero (Conv (cv_flags c) (cv_width c) PNone (cv_len c))) with (has_flag FZero (set_prec PNone c)). rewrite F1. intros E. apply (f_equal (hd 0)) in E.
    assert (Zlen (if v <? 0 then [45] else plus_sign (cv_flags c)) <= 1) as Ls.
    { destruct (v <? 0); [cbn; lia|]. destruct (PrnfProofs3.plus_sign_cases (cv_flags c)) as [-> | [-> | ->]]; cbn; lia. }
    pose proof (Zlen_nonneg (show 10 (Z.abs v))) as Z0. rewrite (PrnfProofs.copies_none 48 (n - _)) in E by lia. cbn [app] in E.
    rewrite !hd_copies in E by (rewrite Zlen_app; lia). discriminate.
Qed.
Print Assumptions C141_zero_flag_refuted.
Example C141_zero_flag_ex : forall A, let c := Conv [FZero] (WNum 5) PNone Lint in
  conv_ok (set_prec (PStar (-1)) c) /\ signed_ok gcc64 Lint (-7) /\ has_flag FZero c = true /\ left_aligned c = false /\ Zlen (show 10 (Z.abs (-7))) + 1 < width_of c
  /\ seen (snprnf gcc64 A (xmem (bs "%05.*d" ++ [0]) []) xdst 20 xfmt [A32 (2 ^ 32 - 1); A32 (2 ^ 32 - 7)]) 6 = Some (5, bs "   -7" ++ [0])
  /\ seen (snprnf gcc64 A (xmem (bs "%05d" ++ [0]) []) xdst 20 xfmt [A32 (2 ^ 32 - 7)]) 6 = Some (5, bs "000-7" ++ [0]).
Proof.
  intros A. cbv zeta. split; [split; cbn; unfold INT_MIN, INT_MAX; lia|]. split; [split; [vm_compute; split; [discriminate|reflexivity]|left; reflexivity]|].
  repeat (split; [vm_compute; reflexivity|]). vm_compute. reflexivity.
Qed.
