(** Property theorems about prnf with an assertion handler, in IEEE-754 arithmetic (C161). *)
From Coq Require Import String ZArith Reals.
From Flocq Require Import Core BinarySingleNaN.
From Verif Require Import Base Mem Libc StrviewModel Spec MemLemmas IeeeSpec NumSpec PrnfModel PrnfSpec PrnfSpec2 PrnfIeee PrnfProofs4 PrnfProofs5 PrnfProofs7 PrnfProofs8
  PrnfProofs9 PrnfAssertModel PrnfAssertSpec PrnfAssertProofs PrnfAssertProofs2 ExampleLib BufExample PropsBuf PropsBuf2 PropsPrnf PropsPrnfIeee PropsPrnfAssert.
Local Open Scope string_scope.
Local Open Scope list_scope.
Local Open Scope Z_scope.

(** More than 19 decimals, counted modulo 256. *)
Definition too_many (c : conv) : Prop := exists p, prec_of c = Some p /\ 19 < p mod 256.
(** Supported; a number that is finite as a float has at most 19 decimals. *)
Definition calm (i : item b64) : Prop :=
  match i with
  | Other _ _ => False
  | Flt _ c d | Eng _ c d => is_finite (narrow d) = true -> ~ too_many c
  | _ => True
  end.
Lemma many_ok : forall c, many_decimals c = true <-> too_many c.
Proof.
  intros c. unfold many_decimals, too_many. destruct (prec_of c) as [p|].
  - rewrite Z.ltb_lt. split; [eauto|]. intros (q & E & H). injection E as <-. exact H.
  - split; [discriminate|]. intros (q & E & _). discriminate.
Qed.
Lemma calm_quiet : forall l, Forall calm l -> Forall (fun i => trips ieee i = false) l.
Proof.
  intros l H. eapply Forall_impl; [|exact H]. clear. intros i Hi. rewrite trips_ieee. destruct i; cbn [calm] in Hi; auto; try contradiction.
  all: destruct (is_finite (narrow d)); auto; destruct (many_decimals c) eqn:E; auto; apply many_ok in E; exfalso; now apply Hi.
Qed.
Lemma ieee_each : forall e c d, conv_ok c -> float_ok e c d -> flt_fine ieee e c d /\ ieee_text e c d (flt ieee e c d).
Proof.
  intros e c d Hc _. split; [now apply ieee_flt_fine|]. pose proof (flt_prec_range c e) as Hp.
  destruct e; [now apply eng_text_ok|now apply flt_text_ok].
Qed.

(** Such formats are printed as by the build as shipped. *)
Theorem C161_numbers : forall cf (items : list (item b64)), wf_cfg cf -> items_ok cf float_ok items -> Forall calm items ->
  exists t, prints cf ieee_text 0 items t /\ (Zlen t < INT_MAX -> forall m dst n fmt va, let w := Z.min n (Zlen t + 1) in
    0 <= n <= INT_MAX -> writable m dst w -> given m fmt items -> elsewhere dst w fmt items ->
    exists m', snprnf_a cf ieee m dst n fmt (arguments cf items ++ va) = Ok (Some (Zlen t), m') /\
      only_wrote m m' dst w /\ (0 < n -> bytes_at m' dst (firstn (Z.to_nat (n - 1)) t ++ [0]))).
Proof.
  intros cf items Wf Hi Hc. destruct (ieee_printed cf items Hi) as [P1 P2]. exists (printed cf (flt ieee) 0 items). split; [exact P2|].
  intros Ht m dst n fmt va w Hn Hw [G1 G2] [E1 E2]. apply vsnprnf_a_ok; auto. now apply calm_quiet.
Qed.
Print Assumptions C161_numbers.

(** The first number with too many decimals stops the program before anything of it is printed. *)
Theorem C161_decimals : forall cf (items : list (item b64)) e b c d, wf_cfg cf -> items_before cf float_ok 37 items -> Forall calm items ->
  conv_ok c -> is_finite (narrow d) = true -> too_many c ->
  let i := if e : bool then Eng b c d else Flt b c d in
  exists t, prints cf ieee_text 0 items t /\ (Zlen t < INT_MAX -> forall m dst n fmt rest va, let w := Z.min n (Zlen t + 1) in let f := format items ++ item_text i ++ rest in
    0 <= n <= INT_MAX -> writable m dst w -> bytes_at m fmt f -> clear_of dst w fmt (Zlen f) -> Forall (item_mem m) items -> Forall (item_clear dst w) items ->
    exists m', snprnf_a cf ieee m dst n fmt (arguments cf items ++ item_args cf i ++ va) = Ok (None, m') /\
      only_wrote m m' dst (Z.min (Z.max 0 (n - 1)) (Zlen t)) /\ bytes_at m' dst (firstn (Z.to_nat (n - 1)) t)).
Proof.
  intros cf items e b c d Wf Hb Hc Hcv Hd Hm i.
  destruct (before_prints cf ieee ieee_text float_ok ieee_each 37 items 0 ltac:(unfold is_byte; lia) Hb) as [P1 P2].
  exists (printed cf (flt ieee) 0 items). split; [exact P2|]. intros Ht m dst n fmt rest va w f Hn Hw Hf Hfc Hmi Hcl.
  pose proof (vsnprnf_a_stop cf ieee m dst n fmt items i rest va Wf Hn Ht Hw Hf Hfc P1 (calm_quiet items Hc)) as K.
  apply many_ok in Hm. assert (item_ok cf (flt_fine ieee) i /\ trips ieee i = true) as [K1 K2].
  { rewrite trips_ieee. unfold i. destruct e; cbn [item_ok]; rewrite Hd, Hm; split; auto; split; auto; now apply ieee_flt_fine. }
  specialize (K K1 K2 Hmi Hcl). unfold i in *. destruct e; exact K.
Qed.
Print Assumptions C161_decimals.

(** "x=%.2f %.25f" of 3.5 and 1, and "%.25f" of a number that is infinite as a float. *)
Definition dec_items : list (item b64) := [Text (bs "x="); Flt false (Conv [] WNone (PNum 2) Lint) (dbl_of 7 (-1)); Text (bs " ")].
Definition c25 : conv := Conv [] WNone (PNum 25) Lint.
Definition dec_mem : mem := xmem (bs "x=%.2f %.25f" ++ [0]) [].
Definition inf_mem : mem := xmem (bs "%.25f" ++ [0]) [].
Example C161_decimals_ex : items_before gcc64 float_ok 37 dec_items /\ Forall calm dec_items /\ conv_ok c25 /\ too_many c25 /\ is_finite (narrow (dbl_of 1 0)) = true
  /\ format dec_items ++ item_text (Flt false c25 (dbl_of 1 0)) = bs "x=%.2f %.25f"
  /\ seen_a (snprnf_a gcc64 ieee dec_mem xdst 20 xfmt (arguments gcc64 dec_items ++ [AD (dbl_of 1 0)])) 7 = Some (None, bs "x=3.50 ")
  /\ calm (Flt false c25 (dbl_of 1 200))
  /\ seen_a (snprnf_a gcc64 ieee inf_mem xdst 20 xfmt [AD (dbl_of 1 200)]) 4 = Some (Some 3, bs "INF" ++ [0]).
Proof.
  split.
  { unfold items_before, item_ok, conv_ok, dec_items; cbn -[Z.lt Z.le In counts]; repeat (split || constructor); cbv; try intuition discriminate; try reflexivity. }
  split. { repeat constructor. intros _ (p & E & H). vm_compute in E. injection E as <-. vm_compute in H. discriminate. }
  split; [split; [exact Logic.I|vm_compute; intuition discriminate]|]. split; [exists 25; split; [reflexivity|vm_compute; reflexivity]|].
  split; [vm_compute; reflexivity|]. split; [vm_compute; reflexivity|]. split; [vm_compute; reflexivity|].
  split; [intros H; vm_compute in H; discriminate|vm_compute; reflexivity].
Qed.
