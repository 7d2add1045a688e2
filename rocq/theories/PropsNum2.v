(** Property theorems for strnum.h on every text (C28, C29, C30, C31) and for its documentation (C128, C129). *)
From Coq Require Import String QArith SpecFloat.
From Verif Require Import Base Mem Libc StrviewModel Spec MemLemmas StrviewProofs ExampleLib
  StrnumModel NumSpec NumSpec2 FloatSpec StrnumFloatVal StrnumPieces NumB0Proofs NumDocsProofs PropsNum.
Local Open Scope string_scope.
Local Open Scope list_scope.
Local Open Scope Z_scope.

Definition dm : mem := [ blk 4096 [49; 176; 177; 50]; blk 8192 (9 :: bs "1"); blk 12288 (bs "  -5;"); blk 16384 (bs "-5;");
  blk 20480 (bs "-INFinty;x"); blk 24576 (bs "infinty"); blk 28672 (bs "1e-99999999999"); blk 32768 (bs "   2.5e3");
  blk 36864 (bs "2.5e3"); blk 40960 (bs " 7"); blk 45056 (bs "0e99999999999") ].
Example dm_wf : mem_wf dm. Proof. wf_check. Qed.

(** ** C28: integers, on every text whatever its bytes *)
Theorem C28_every_text : forall cf t f m dst s l opt, consumer cf t = Some f ->
  mem_wf m -> has_view m s l -> ctype_safe cf l ->
  result_of dst s l (parse_int_exact (ty_signed t) opt (ty_lo cf t) (ty_hi cf t) l) (f m dst (Some s) opt).
Proof. intros cf t f m dst s l opt Hf Hw Hv Hc. exact (consumer_ok_x cf m s l opt Hw Hv Hc t f dst Hf). Qed.
Print Assumptions C28_every_text.
Theorem C28_every_default : forall cf t m s l opt d, mem_wf m -> has_view m s l -> ctype_safe cf l ->
  default_parser cf t m s d opt =
  Ok (match parse_int_exact (ty_signed t) opt (ty_lo cf t) (ty_hi cf t) l with Good v _ => v | Bad _ => d end).
Proof. intros cf t m s l opt d Hw Hv Hc. exact (default_ok_x cf m s l opt Hw Hv Hc t d). Qed.
Print Assumptions C28_every_default.
(** The exact grammar is the plain one unless the number is binary and one of the two bytes occurs. *)
Theorem C28_same_grammar : forall sg opt lo hi l, (it_base (read_int sg opt l) = 2 -> no_b0 l) ->
  parse_int_exact sg opt lo hi l = parse_int sg opt lo hi l.
Proof. exact parse_exact_same. Qed.
Print Assumptions C28_same_grammar.
Example C28_every_ex : has_view dm (vw 0 0 4) [49; 176; 177; 50]
  /\ parse_int_exact false STRNUM_BASE_BIN 0 255 [49; 176; 177; 50] = Good 5 [50]
  /\ parse_int false STRNUM_BASE_BIN 0 255 [49; 176; 177; 50] = Good 1 [176; 177; 50]
  /\ strnum_consume_uchar gcc64 dm true (Some (vw 0 0 4)) STRNUM_BASE_BIN = Ok (Parsed NoErr (Some 5) (Some (vw 0 3 1)))
  /\ parse_int_exact true 0 (-128) 127 (bs " -12;") = Good (-12) (bs ";").
Proof. split; [view_check|]. repeat split; vm_compute; reflexivity. Qed.

(** ** C29: floating point numbers, on every text *)
Theorem C29_every_text : forall cf A f m dst s l opt, float_parser cf A f ->
  mem_wf m -> has_view m s l -> ctype_safe cf l ->
  match read_float_exact opt l with
  | FBad e => e <> NoErr /\ f m dst (Some s) opt = Ok (Parsed e None None)
  | FGood t => exists a x, l = a ++ ft_rest t /\ a <> [] /\
      match ft_special t with
      | NoSpecial => f m dst (Some s) opt =
          if a_is_inf A x then Ok (Parsed ERANGE None None)
          else Ok (Parsed NoErr (if dst then Some (if a_is_nan A x then a_nan A else if ft_neg t then a_neg A x else x) else None)
                          (Some (subview s (Zlen a) (Zlen (ft_rest t)))))
      | sp => x = match sp with SpInf => a_inf A | _ => a_nan A end /\
          f m dst (Some s) opt =
          Ok (Parsed NoErr (if dst then Some (if a_is_nan A x then a_nan A else if ft_neg t then a_neg A x else x) else None)
                     (Some (match ft_rest t with [] => INVALID | _ => subview s (Zlen a) (Zlen (ft_rest t)) end)))
      end
  end.
Proof.
  intros cf A f m dst s l opt Hf Hw Hv Hc.
  assert (f m dst (Some s) opt = strnum_consume_double cf A m dst (Some s) opt) as -> by (destruct Hf as [-> | ->]; auto).
  pose proof (float_ok_exact cf A m dst s l opt Hw Hv Hc) as K.
  destruct (read_float_exact opt l) as [e|t]; [exact K|].
  destruct K as (a & E1 & E2 & K). exists a, (float_result A t). split; auto. split; auto. rewrite K.
  unfold float_over, signed_result, rest_view_of, float_result. destruct (ft_special t).
  - destruct (a_is_inf A _); reflexivity.
  - split; auto.
  - split; auto.
Qed.
Print Assumptions C29_every_text.
Example C29_every_ex : has_view dm (vw 4 0 10) (bs "-INFinty;x")
  /\ read_float_exact 0 (bs "-INFinty;x") = FGood (FloatText true SpInf [] [] 0 (bs "x"))
  /\ read_float_exact 0 (bs "2.5e3") = FGood (FloatText false NoSpecial (bs "2") (bs "5") 3 [])
  /\ strnum_consume_double gcc64 exact dm true (Some (vw 4 0 10)) 0 = Ok (Parsed NoErr (Some (XInf true)) (Some (vw 4 9 1))).
Proof. split; [view_check|]. repeat split; vm_compute; reflexivity. Qed.

(** ** C30: the value computed for an integral part of any length *)
(** The digits of the integral part are cut into the longest pieces that fit 64 bits. With one or two pieces the
    value is the number written; with more it is over nine times too large, exactly [piled_value]. *)
Theorem C30_any_length_partial : forall cf f m s l opt t, float_parser cf exact f ->
  mem_wf m -> has_view m s l -> ctype_safe cf l ->
  read_float_exact opt l = FGood t -> ft_special t = NoSpecial ->
  (exists ps, pieces (ft_int t) ps) /\
  forall ps, pieces (ft_int t) ps ->
  exists q rest, f m true (Some s) opt = Ok (Parsed NoErr (Some (Fin (if ft_neg t then - q else q)%Q)) rest)
    /\ (q == piled_value ps t)%Q
    /\ ((length ps <= 2)%nat -> (q == float_value t)%Q)
    /\ ((2 < length ps)%nat -> (0 < float_value t /\ inject_Z 9 * float_value t < q)%Q).
Proof.
  intros cf f m s l opt t Hf Hw Hv Hc Ht Hs.
  assert (f m true (Some s) opt = strnum_consume_double cf exact m true (Some s) opt) as -> by (destruct Hf as [-> | ->]; auto).
  exact (float_any_length cf m s l opt t Hw Hv Hc Ht Hs).
Qed.
Print Assumptions C30_any_length_partial.
(** The text of 1e40 is cut into three pieces, that of 2^64 * 10^18, with zeros in front, into two. *)
Example C30_any_ex :
  pieces big [bs "10000000000000000303"; bs "7860284270036668907"; bs "52"]
  /\ piled 0 [bs "10000000000000000303"; bs "7860284270036668907"; bs "52"]
     = (10000000000000000303 * 10 ^ 21 + 7860284270036668907) * 100 + 52
  /\ num_val 10 big = 10000000000000000303 * 10 ^ 21 + 7860284270036668907 * 100 + 52
  /\ pieces (bs "000018446744073709551616000000000000000000") [bs "00001844674407370955161"; bs "6000000000000000000"].
Proof.
  split. { change big with (bs "10000000000000000303" ++ bs "7860284270036668907" ++ bs "52" ++ []).
    constructor; [discriminate|vm_compute; discriminate|right; do 2 eexists; split; [reflexivity|vm_compute; reflexivity]|].
    constructor; [discriminate|vm_compute; discriminate|right; do 2 eexists; split; [reflexivity|vm_compute; reflexivity]|].
    constructor; [discriminate|vm_compute; discriminate|now left|constructor]. }
  split; [vm_compute; reflexivity|]. split; [vm_compute; reflexivity|].
  change (bs "000018446744073709551616000000000000000000") with (bs "00001844674407370955161" ++ bs "6000000000000000000" ++ []).
  constructor; [discriminate|vm_compute; discriminate|right; do 2 eexists; split; [reflexivity|vm_compute; reflexivity]|].
  constructor; [discriminate|vm_compute; discriminate|now left|constructor].
Qed.

(** ** C31: the word infinty is an infinity and takes the character behind it along *)
Theorem C31_misspelt : forall cf A f m s l opt r, float_parser cf A f -> mem_wf m -> has_view m s l ->
  strip_word w_infinty (snd (float_body opt l)) = Some r ->
  exists a, l = a ++ r /\
  f m true (Some s) opt =
  Ok (Parsed NoErr (Some (if a_is_nan A (a_inf A) then a_nan A
                          else if fst (float_body opt l) then a_neg A (a_inf A) else a_inf A))
             (Some (match r with _ :: y :: t => subview s (Zlen a + 1) (Zlen (y :: t)) | _ => INVALID end))).
Proof.
  intros cf A f m s l opt r Hf Hw Hv Hi.
  assert (f m true (Some s) opt = strnum_consume_double cf A m true (Some s) opt) as -> by (destruct Hf as [-> | ->]; auto).
  destruct (misspelt_ok cf A m true s l opt r Hw Hv Hi) as (a & E1 & E2 & E3). cbv zeta in E3.
  unfold signed_result, float_result, rest_view_of in E3. cbn [ft_special ft_rest ft_neg] in E3.
  assert (exists b, l = b ++ r) as [b Eb].
  { destruct (StrnumFloat.strip_word_app _ _ _ Hi) as (w & Ew & _).
    assert (exists c, l = c ++ snd (float_body opt l)) as [c Ec].
    { unfold float_body. set (l1 := if flag opt STRNUM_NOSPACE then l else snd (span (Z.eqb 32) l)).
      assert (exists a, l = a ++ l1) as [a1 F1].
      { unfold l1. destruct (flag opt STRNUM_NOSPACE); [exists []; auto|apply span_suffix]. }
      clearbody l1. destruct (flag opt STRNUM_NOSIGN); [exists a1; auto|]. unfold read_sign.
      destruct l1 as [|x t]; [exists a1; auto|].
      destruct (x =? 45); [exists (a1 ++ [x]); now rewrite <- app_assoc|].
      destruct (x =? 43); [exists (a1 ++ [x]); now rewrite <- app_assoc|exists a1; auto]. }
    exists (c ++ w). now rewrite <- app_assoc, <- Ew. }
  exists b. split; [exact Eb|]. rewrite E3. do 3 f_equal. destruct r as [|x [|y t]]; auto. cbn [tl] in E1 |- *.
  assert (Zlen a = Zlen b + 1) as ->; [|reflexivity].
  rewrite E1 in Eb. apply (f_equal Zlen) in Eb. rewrite !Zlen_app, !Zlen_cons in Eb. lia.
Qed.
Print Assumptions C31_misspelt.
Example C31_misspelt_ex : strip_word w_infinty (snd (float_body 0 (bs "-INFinty;x"))) = Some (bs ";x")
  /\ has_view dm (vw 5 0 7) (bs "infinty") /\ strip_word w_infinty (snd (float_body 0 (bs "infinty"))) = Some []
  /\ strnum_consume_float gcc64 exact dm true (Some (vw 5 0 7)) 0 = Ok (Parsed NoErr (Some (XInf false)) (Some INVALID)).
Proof. split; [reflexivity|]. split; [view_check|]. split; vm_compute; reflexivity. Qed.

(** ** C128: leading white space *)
(** The white space characters of isspace() other than the space *)
Definition other_space (c : Z) : Prop := 9 <= c <= 13.
Lemma other_no_start : forall c, other_space c -> no_start c /\ c <> 32.
Proof. intros c H. unfold other_space in H. unfold no_start, alnum. split; [|lia]. repeat split; lia. Qed.
Theorem C128_whitespace_refuted : exists m s, mem_wf m /\ has_view m s (9 :: bs "1")
  /\ strnum_consume_int gcc64 m true (Some s) 0 = Ok (Parsed EINVAL None None)
  /\ forall A, strnum_consume_double gcc64 A m true (Some s) 0 = Ok (Parsed EINVAL None None).
Proof.
  exists dm, (vw 1 0 2). split; [wf_check|]. split; [view_check|]. split; [vm_compute; reflexivity|].
  intro A. vm_compute. reflexivity.
Qed.
Print Assumptions C128_whitespace_refuted.
(** No number that starts with such a character is accepted. *)
Theorem C128_other_integers : forall cf t f m s c l opt, consumer cf t = Some f -> mem_wf m ->
  has_view m s (c :: l) -> ctype_safe cf (c :: l) -> other_space c ->
  f m true (Some s) opt = Ok (Parsed EINVAL None None).
Proof.
  intros cf t f m s c l opt Hf Hw Hv Hc H. destruct (other_no_start c H) as [N1 N2].
  exact (no_start_int cf t f m s c l opt Hf Hw Hv Hc N1 (or_introl N2)).
Qed.
Print Assumptions C128_other_integers.
Theorem C128_other_floats : forall cf A f m s c l opt, float_parser cf A f -> mem_wf m ->
  has_view m s (c :: l) -> ctype_safe cf (c :: l) -> other_space c ->
  f m true (Some s) opt = Ok (Parsed EINVAL None None).
Proof.
  intros cf A f m s c l opt Hf Hw Hv Hc H. destruct (other_no_start c H) as [N1 N2].
  pose proof (C29_every_text cf A f m true s _ opt Hf Hw Hv Hc) as K.
  rewrite (no_start_float opt c l N1 (or_introl N2)) in K. exact (proj2 K).
Qed.
Print Assumptions C128_other_floats.
(** Any number of spaces changes neither error, value nor remaining text. *)
Theorem C128_integer_spaces_partial : forall cf t f m s1 s2 k l opt, consumer cf t = Some f ->
  mem_wf m -> has_view m s1 (repeat 32 k ++ l) -> has_view m s2 l -> ctype_safe cf l ->
  flag opt STRNUM_NOSPACE = false ->
  exists e v r1 r2, f m true (Some s1) opt = Ok (Parsed e v r1) /\ f m true (Some s2) opt = Ok (Parsed e v r2)
    /\ same_rest m r1 r2.
Proof. exact int_spaces. Qed.
Print Assumptions C128_integer_spaces_partial.
Theorem C128_float_spaces_partial : forall cf A f m s1 s2 k l opt, float_parser cf A f ->
  mem_wf m -> has_view m s1 (repeat 32 k ++ l) -> has_view m s2 l -> ctype_safe cf l ->
  flag opt STRNUM_NOSPACE = false ->
  exists e v r1 r2, f m true (Some s1) opt = Ok (Parsed e v r1) /\ f m true (Some s2) opt = Ok (Parsed e v r2)
    /\ same_rest m r1 r2.
Proof. exact float_spaces. Qed.
Print Assumptions C128_float_spaces_partial.
(** With STRNUM_NOSPACE spaces are not accepted. *)
Theorem C128_nospace_integers : forall cf t f m s l opt, consumer cf t = Some f -> mem_wf m ->
  has_view m s (32 :: l) -> ctype_safe cf (32 :: l) -> flag opt STRNUM_NOSPACE = true ->
  f m true (Some s) opt = Ok (Parsed EINVAL None None).
Proof.
  intros cf t f m s l opt Hf Hw Hv Hc H. refine (no_start_int cf t f m s 32 l opt Hf Hw Hv Hc _ (or_intror H)).
  unfold no_start, alnum. repeat split; lia.
Qed.
Print Assumptions C128_nospace_integers.
Theorem C128_nospace_floats : forall cf A f m s l opt, float_parser cf A f -> mem_wf m ->
  has_view m s (32 :: l) -> ctype_safe cf (32 :: l) -> flag opt STRNUM_NOSPACE = true ->
  f m true (Some s) opt = Ok (Parsed EINVAL None None).
Proof.
  intros cf A f m s l opt Hf Hw Hv Hc H. pose proof (C29_every_text cf A f m true s _ opt Hf Hw Hv Hc) as K.
  rewrite (no_start_float opt 32 l) in K; [exact (proj2 K)| |now right]. unfold no_start, alnum. repeat split; lia.
Qed.
Print Assumptions C128_nospace_floats.
Example C128_ex : has_view dm (vw 2 0 5) (repeat 32 2 ++ bs "-5;") /\ has_view dm (vw 3 0 3) (bs "-5;")
  /\ strnum_consume_char gcc64 dm true (Some (vw 2 0 5)) 0 = Ok (Parsed NoErr (Some (-5)) (Some (vw 2 4 1)))
  /\ strnum_consume_char gcc64 dm true (Some (vw 3 0 3)) 0 = Ok (Parsed NoErr (Some (-5)) (Some (vw 3 2 1)))
  /\ same_rest dm (Some (vw 2 4 1)) (Some (vw 3 2 1))
  /\ has_view dm (vw 7 0 8) (repeat 32 3 ++ bs "2.5e3") /\ has_view dm (vw 8 0 5) (bs "2.5e3")
  /\ has_view dm (vw 9 0 2) (32 :: bs "7") /\ flag STRNUM_NOSPACE STRNUM_NOSPACE = true
  /\ strnum_consume_int gcc64 dm true (Some (vw 9 0 2)) 0 = Ok (Parsed NoErr (Some 7) (Some (vw 9 2 0)))
  /\ other_space 9.
Proof.
  split; [view_check|]. split; [view_check|]. split; [vm_compute; reflexivity|]. split; [vm_compute; reflexivity|].
  split; [right; exists (bs ";"); split; view_check|]. split; [view_check|]. split; [view_check|]. split; [view_check|].
  split; [reflexivity|]. split; [vm_compute; reflexivity|]. unfold other_space; lia.
Qed.

(** ** C129: the errors of floating point conversions *)
(** Numbers far below the smallest one, and zero, are reported as out of range. *)
Theorem C129_errors_refuted : exists m s1 s2, mem_wf m /\ has_view m s1 (bs "1e-99999999999") /\ has_view m s2 (bs "0e99999999999")
  /\ forall A, strnum_consume_double gcc64 A m true (Some s1) 0 = Ok (Parsed ERANGE None None)
            /\ strnum_consume_double gcc64 A m true (Some s2) 0 = Ok (Parsed ERANGE None None).
Proof.
  exists dm, (vw 6 0 14), (vw 10 0 13). split; [wf_check|]. split; [view_check|]. split; [view_check|].
  intro A. split; vm_compute; reflexivity.
Qed.
Print Assumptions C129_errors_refuted.
(** An error is EINVAL exactly if the text is no number, and ERANGE exactly if the exponent written does not fit an
    int or the value computed is infinite. *)
Theorem C129_errors_partial : forall cf A f m dst s l opt, float_parser cf A f ->
  mem_wf m -> has_view m s l -> ctype_safe cf l ->
  exists e v r, f m dst (Some s) opt = Ok (Parsed e v r)
    /\ (e = NoErr \/ e = EINVAL \/ e = ERANGE)
    /\ (e = EINVAL <-> read_float_exact opt l = FBad EINVAL)
    /\ (e = ERANGE <-> read_float_exact opt l = FBad ERANGE
                    \/ exists t, read_float_exact opt l = FGood t /\ float_over A t = true)
    /\ (read_float_exact opt l = FBad ERANGE -> exponent_out_of_range opt l).
Proof.
  intros cf A f m dst s l opt Hf Hw Hv Hc.
  assert (f m dst (Some s) opt = strnum_consume_double cf A m dst (Some s) opt) as -> by (destruct Hf as [-> | ->]; auto).
  exact (float_errors cf A m dst s l opt Hw Hv Hc).
Qed.
Print Assumptions C129_errors_partial.
Example C129_ex : exponent_out_of_range 0 (bs "1e-99999999999")
  /\ read_float_exact 0 (bs "1e-99999999999") = FBad ERANGE
  /\ read_float_exact 0 (bs "e5") = FBad EINVAL
  /\ ~ exponent_out_of_range STRNUM_NOEXP (bs "1e-99999999999")
  /\ read_float_exact STRNUM_NOEXP (bs "1e-99999999999") = FGood (FloatText false NoSpecial (bs "1") [] 0 (bs "e-99999999999")).
Proof.
  split. { exists (bs "1"), 101, (bs "-99999999999"). split; [reflexivity|]. split; [auto|]. split; [reflexivity|].
           cbv zeta. split; [vm_compute; discriminate|]. vm_compute. intros [H _]. apply H. reflexivity. }
  split; [vm_compute; reflexivity|]. split; [vm_compute; reflexivity|].
  split; [|vm_compute; reflexivity]. intros (pre & c & t & _ & _ & H & _). discriminate.
Qed.
