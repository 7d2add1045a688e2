(** C117 and C133 on every text: the number test program with bytes that only the binary loop takes for digits and with the word infinity. *)
From Coq Require Import String QArith.
From Verif Require Import Base Mem Libc StrviewModel Spec MemLemmas NumSpec NumSpec2 StrnumModel FloatSpec StrnumProofs
  ExamplesModel ExamplesSpec ExamplesProofs3 ExamplesProofs4 MacroModel MacroProofs ExampleLib BufExample PropsNum PropsNum2 PropsMacro.
Local Open Scope string_scope.
Local Open Scope list_scope.
Local Open Scope Z_scope.

Theorem C117_every_integer_line : forall cf m txt l opt, mem_wf m -> c_string m txt l -> ctype_safe cf l ->
  exists b c, l = b ++ c /\ Forall (fun x => x = 13 \/ x = 10) c /\ (forall t x, b = t ++ [x] -> x <> 13 /\ x <> 10) /\
    number_line cf m txt opt = Ok (b, map (line_exact cf opt b) line_types).
Proof. exact number_line_exact. Qed.
Print Assumptions C117_every_integer_line.
Theorem C117_every_float_line : forall cf F D L m v l opt, mem_wf m -> has_view m v l -> ctype_safe cf l -> c_mem0 cf = true ->
  exists rf rd rl a b c, strnum_consume_float cf F m true (Some v) opt = Ok rf /\ strnum_consume_double cf D m true (Some v) opt = Ok rd /\
    strnum_consume_double cf L m true (Some v) opt = Ok rl /\ float_lines cf F D L m v opt = Ok (a, b, c) /\
    float_line_exact (a_zero F) rf opt l a /\ float_line_exact (a_zero D) rd opt l b /\ float_line_exact (a_zero L) rl opt l c.
Proof. exact float_lines_every. Qed.
Print Assumptions C117_every_float_line.
(** 1 0xB0 0xB1 2 and a line end, read as binary; and an infinity whose word is misspelt. *)
Definition odd_mem : mem := [ blk 4096 [49; 176; 177; 50; 13; 10; 0]; blk 8192 (bs "-INFinty;x") ].
Example C117_every_ex : mem_wf odd_mem /\ c_string odd_mem (Ptr (PBlk 0) 0) [49; 176; 177; 50; 13; 10] /\ ctype_safe gcc64 [49; 176; 177; 50; 13; 10] /\
  (exists ls, number_line gcc64 odd_mem (Ptr (PBlk 0) 0) STRNUM_BASE_BIN = Ok ([49; 176; 177; 50], (NoErr, 5, [50]) :: ls)) /\
  has_view odd_mem (vw 1 0 10) (bs "-INFinty;x") /\
  match float_lines gcc64 exact exact exact odd_mem (vw 1 0 10) 0 with Ok ((e, x, r), _, _) => e = NoErr /\ x = XInf true /\ r = bs "x" | _ => False end.
Proof.
  split; [wf_check|]. split; [cstr_check|]. split; [left; reflexivity|]. split; [eexists; vm_compute; reflexivity|]. split; [view_check|].
  vm_compute. auto.
Qed.

(** ** C133: strnum_value on every text, whatever its bytes *)
Theorem C133_every_text : forall cf A32 A64 A80 t it, int_type t = Some it ->
  exists f, strnum_value_macro cf A32 A64 A80 false t = Some (PInt f) /\
  forall m s l opt dst, mem_wf m -> has_view m s l -> ctype_safe cf l ->
    result_of dst s l (parse_int_exact (ty_signed it) opt (ty_lo cf it) (ty_hi cf it) l) (f m dst (Some s) opt).
Proof.
  intros cf A32 A64 A80 t it Ht.
  assert (K : exists f, strnum_value_macro cf A32 A64 A80 false t = Some (PInt f) /\ consumer cf it = Some f).
  { unfold strnum_value_macro. rewrite value_assocs_parse.
    destruct t; cbn in Ht; try discriminate; inversion Ht; subst it; eexists; (split; reflexivity). }
  destruct K as (f & K1 & K2). exists f. split; [exact K1|].
  intros m s l opt dst Hw Hv Hc. exact (C28_every_text cf it f m dst s l opt K2 Hw Hv Hc).
Qed.
Print Assumptions C133_every_text.
(** The types whose range depends on the platform. *)
Theorem C133_platform_ranges : forall cf,
  (ty_lo cf TChar, ty_hi cf TChar) = (if c_char_signed cf then (-128, 127) else (0, 255)) /\
  (ty_lo cf TLong, ty_hi cf TLong) = (if c_long64 cf then (-9223372036854775808, 9223372036854775807) else (-2147483648, 2147483647)) /\
  (ty_lo cf TUlong, ty_hi cf TUlong) = (if c_long64 cf then (0, 18446744073709551615) else (0, 4294967295)).
Proof. intro cf. unfold ty_lo, ty_hi, ty_neg, ty_bits. destruct (c_char_signed cf), (c_long64 cf); repeat split. Qed.
Print Assumptions C133_platform_ranges.
Example C133_every_ex : int_type DUchar = Some TUchar /\ has_view odd_mem (vw 0 0 4) [49; 176; 177; 50] /\
  parse_int_exact false STRNUM_BASE_BIN 0 255 [49; 176; 177; 50] = Good 5 [50].
Proof. split; [reflexivity|]. split; [view_check|]. vm_compute. reflexivity. Qed.
