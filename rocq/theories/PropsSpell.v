(** Property theorems about spellings of floating point numbers (C144). *)
From Coq Require Import String ZArith Reals.
From Flocq Require Import Core BinarySingleNaN.
From Verif Require Import Base Mem Libc StrviewModel Spec MemLemmas StrviewProofs ExampleLib
  StrnumModel NumSpec StrnumFloatVal IeeeSpec StrnumIeee3 SpellSpec SpellProofs SpellIeee PropsIeee.
Local Open Scope string_scope.
Local Open Scope list_scope.
Local Open Scope Z_scope.

(** ** C144: texts that spell the same number give the same value *)
(** Full statement: two texts that write the same number are parsed to the same value. It holds, in whatever
    arithmetic the type has, for spaces in front, a plus sign, zeros in front of the integral part, a point without
    digits behind it, zeros behind the fraction, the case of the letter e, a sign and zeros in front of the exponent,
    and an exponent of zero. It does not hold when the point is moved and the exponent adjusted. *)
Theorem C144_spelling_partial : forall cf A f m1 m2 dst s1 s2 p q rest1 rest2, parser_of cf A f ->
  mem_wf m1 -> mem_wf m2 -> has_view m1 s1 (spelled p ++ rest1) -> has_view m2 s2 (spelled q ++ rest2) ->
  ctype_safe cf rest1 -> ctype_safe cf rest2 ->
  spelling_ok p -> spelling_ok q -> ends_here p rest1 -> ends_here q rest2 -> same_number p q -> both_whole A p q ->
  parses_alike dst m1 m2 rest1 rest2 (f m1 dst (Some s1) 0) (f m2 dst (Some s2) 0).
Proof. exact spelled_alike. Qed.
Print Assumptions C144_spelling_partial.
(** In IEEE-754 arithmetic of any format it makes no difference whether a zero is written in front of the point. *)
Theorem C144_ieee_partial : forall prec emax Hp Hm pow10 cf f m1 m2 dst s1 s2 p q rest1 rest2, pow_zero pow10 ->
  parser_of cf (flocq prec emax Hp Hm pow10) f ->
  mem_wf m1 -> mem_wf m2 -> has_view m1 s1 (spelled p ++ rest1) -> has_view m2 s2 (spelled q ++ rest2) ->
  ctype_safe cf rest1 -> ctype_safe cf rest2 ->
  spelling_ok p -> spelling_ok q -> ends_here p rest1 -> ends_here q rest2 -> same_number p q ->
  parses_alike dst m1 m2 rest1 rest2 (f m1 dst (Some s1) 0) (f m2 dst (Some s2) 0).
Proof.
  intros prec emax Hp Hm pow10 cf f m1 m2 dst s1 s2 p q rest1 rest2 Hz Hf W1 W2 V1 V2 C1 C2 Hp1 Hq E1 E2 Hs.
  exact (spelled_alike cf _ f m1 m2 dst s1 s2 p q rest1 rest2 Hf W1 W2 V1 V2 C1 C2 Hp1 Hq E1 E2 Hs (or_intror (flocq_zero prec emax Hp Hm pow10 Hz))).
Qed.
Print Assumptions C144_ieee_partial.
(** The parsers with a default value answer the same. *)
Theorem C144_default_partial : forall cf A m1 m2 s1 s2 p q rest1 rest2 d,
  mem_wf m1 -> mem_wf m2 -> has_view m1 s1 (spelled p ++ rest1) -> has_view m2 s2 (spelled q ++ rest2) ->
  ctype_safe cf rest1 -> ctype_safe cf rest2 ->
  spelling_ok p -> spelling_ok q -> ends_here p rest1 -> ends_here q rest2 -> same_number p q -> both_whole A p q ->
  strnum_float cf A m1 s1 d 0 = strnum_float cf A m2 s2 d 0 /\ strnum_double cf A m1 s1 d 0 = strnum_double cf A m2 s2 d 0.
Proof. exact default_alike. Qed.
Print Assumptions C144_default_partial.

(** The number 42.5e3 in two spellings. *)
Definition long_way : spelling := Spelling 2 (Some false) 3 (bs "42") (Some (bs "5", 2%nat)) (Some (true, Some false, 1%nat, bs "3")).
Definition short_way : spelling := Spelling 0 None 0 (bs "42") (Some (bs "5", 0%nat)) (Some (false, None, 0%nat, bs "3")).
Definition no_whole : spelling := Spelling 0 None 0 [] (Some (bs "5", 0%nat)) None.
Definition with_whole : spelling := Spelling 0 None 1 [] (Some (bs "5", 0%nat)) (Some (false, Some true, 0%nat, bs "0")).
Definition sm : mem := [ blk 4096 (bs "  +00042.500E+03;x"); blk 8192 (bs "42.5e3,"); blk 12288 (bs ".5"); blk 16384 (bs "0.5e-0");
  blk 20480 (bs "3"); blk 24576 (bs "0.3e1") ].
Example sm_wf : mem_wf sm. Proof. wf_check. Qed.
Example C144_texts : has_view sm (vw 0 0 18) (spelled long_way ++ bs ";x") /\ has_view sm (vw 1 0 7) (spelled short_way ++ bs ",")
  /\ has_view sm (vw 2 0 2) (spelled no_whole ++ []) /\ has_view sm (vw 3 0 6) (spelled with_whole ++ []).
Proof. split; [view_check|]. split; [view_check|]. split; view_check. Qed.
Example C144_ok : spelling_ok long_way /\ spelling_ok short_way /\ ends_here long_way (bs ";x") /\ ends_here short_way (bs ",")
  /\ same_number long_way short_way /\ spelling_ok no_whole /\ spelling_ok with_whole /\ ends_here no_whole [] /\ ends_here with_whole []
  /\ same_number no_whole with_whole /\ forall A, both_whole A long_way short_way.
Proof.
  repeat split; try (intro A; left); cbn; try lia; try discriminate; try (repeat constructor; fail); try (vm_compute; discriminate); try (now intros).
Qed.
Example C144_runs : match strnum_consume_double gcc64 (A64 pow64) sm true (Some (vw 0 0 18)) 0,
                          strnum_consume_double gcc64 (A64 pow64) sm true (Some (vw 1 0 7)) 0 with
  | Ok (Parsed NoErr (Some b) (Some r)), Ok (Parsed NoErr (Some c) (Some s)) =>
      B2SF b = B2SF c /\ B2SF b = SpecFloat.S754_finite false 5841155522560000 (-37) /\ r = vw 0 16 2 /\ s = vw 1 6 1
  | _, _ => False end.
Proof. vm_compute. repeat split. Qed.

(** The same real number with the point moved: 0.3e1 is not stored as 3, even when every power of ten is computed
    perfectly. *)
Theorem C144_moved_refuted : exists m s1 s2 l1 l2 t1 t2, mem_wf m /\ has_view m s1 l1 /\ has_view m s2 l2 /\
  is_number 0 l1 t1 /\ is_number 0 l2 t2 /\ real_value t1 = real_value t2 /\ ft_neg t1 = ft_neg t2 /\
  forall cf pow10, pow_correct pow10 -> exists b1 b2 r1 r2,
    strnum_consume_double cf (A64 pow10) m true (Some s1) 0 = Ok (Parsed NoErr (Some b1) r1) /\
    strnum_consume_double cf (A64 pow10) m true (Some s2) 0 = Ok (Parsed NoErr (Some b2) r2) /\
    is_finite b1 = true /\ is_finite b2 = true /\ B2R b1 <> B2R b2.
Proof.
  exists sm, (vw 4 0 1), (vw 5 0 5), (bs "3"), (bs "0.3e1"), t3, t03e1.
  assert (has_view sm (vw 4 0 1) (bs "3")) as V1 by view_check. assert (has_view sm (vw 5 0 5) (bs "0.3e1")) as V2 by view_check.
  split; [exact sm_wf|]. split; [exact V1|]. split; [exact V2|]. split; [repeat split; vm_compute; reflexivity|].
  split; [repeat split; vm_compute; reflexivity|]. split; [exact same_real|]. split; [reflexivity|].
  intros cf pow10 P. exact (moved_point pow10 cf sm _ _ P sm_wf V1 V2).
Qed.
Print Assumptions C144_moved_refuted.
