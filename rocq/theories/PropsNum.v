(** Property theorems for strnum.h (C23 - C33, C64, C65), each with a concrete instance. *)
From Coq Require Import String QArith SpecFloat.
From Verif Require Import Base Mem Libc StrviewModel Spec MemLemmas StrviewProofs ExampleLib
  StrnumModel NumSpec FloatSpec StrnumProofs StrnumProofs2 StrnumProofs3 StrnumFloat StrnumFloatVal.
Local Open Scope string_scope.
Local Open Scope list_scope.
Local Open Scope Z_scope.

Definition n1 : list Z := bs " -00128;x".
Definition n2 : list Z := bs "0xFFfg".
Definition n3 : list Z := bs "18446744073709551616".
Definition numm : mem := [ blk 4096 n1; blk 8192 n2; blk 12288 n3; blk 16384 (bs "+12.50e-3 m"); blk 20480 (bs "Infinity");
  blk 24576 (bs "-INF"); blk 28672 (bs "0e400"); blk 32768 [176; 49]; blk 36864 [128]; blk 40960 (bs "1e99999999999"); blk 45056 [0]; blk 49152 (bs " 0b1012") ].
Definition v1 := vw 0 0 (Zlen n1).
Definition v2 := vw 1 0 (Zlen n2).
Definition v3 := vw 2 0 (Zlen n3).
Example numm_wf : mem_wf numm. Proof. wf_check. Qed.
Lemma gcc_safe : forall l, ctype_safe gcc64 l. Proof. intro l. left. reflexivity. Qed.

(** ** C23, C24: [parse_int] is the specification: spaces, sign, prefix, all digits, range *)
Theorem C23_unsigned : forall cf m s l opt t f dst, ty_signed t = false -> consumer cf t = Some f ->
  mem_wf m -> has_view m s l -> ctype_safe cf l ->
  (it_base (read_int false opt l) = 2 -> no_b0 l) ->
  result_of dst s l (parse_int false opt 0 (2 ^ ty_bits cf t - 1) l) (f m dst (Some s) opt).
Proof.
  intros cf m s l opt t f dst Ht Hf Hw Hv Hc Hb.
  pose proof (consumer_ok cf m s l opt Hw Hv Hc t f dst Hf) as K. rewrite Ht in K. specialize (K Hb).
  unfold ty_lo, ty_hi in K. destruct t; cbn in Ht; try discriminate; exact K.
Qed.
Print Assumptions C23_unsigned.
Example C23_ex : has_view numm v2 n2 /\ has_view numm v3 n3
  /\ parse_int false 0 0 65535 n2 = Good 4095 (bs "g")
  /\ strnum_consume_ushort gcc64 numm true (Some v2) 0 = Ok (Parsed NoErr (Some 4095) (Some (vw 1 5 1)))
  /\ strnum_consume_uchar gcc64 numm true (Some v2) 0 = Ok (Parsed ERANGE None None)
  /\ strnum_consume_ullong gcc64 numm true (Some v3) 0 = Ok (Parsed ERANGE None None).
Proof. split; [view_check|]. split; [view_check|]. repeat split; vm_compute; reflexivity. Qed.

(** The range of plain char depends on the platform; all other signed types are two's complement. *)
Theorem C24_signed : forall cf m s l opt t f dst, ty_signed t = true -> consumer cf t = Some f ->
  mem_wf m -> has_view m s l -> ctype_safe cf l ->
  (it_base (read_int true opt l) = 2 -> no_b0 l) ->
  result_of dst s l (parse_int true opt (ty_lo cf t) (ty_hi cf t) l) (f m dst (Some s) opt).
Proof.
  intros cf m s l opt t f dst Ht Hf Hw Hv Hc Hb.
  pose proof (consumer_ok cf m s l opt Hw Hv Hc t f dst Hf) as K. rewrite Ht in K. exact (K Hb).
Qed.
Print Assumptions C24_signed.
Example C24_ex : has_view numm v1 n1
  /\ parse_int true 0 (-128) 127 n1 = Good (-128) (bs ";x")
  /\ strnum_consume_char gcc64 numm true (Some v1) 0 = Ok (Parsed NoErr (Some (-128)) (Some (vw 0 7 2)))
  /\ strnum_consume_int gcc64 numm true (Some v1) STRNUM_NOSIGN = Ok (Parsed EINVAL None None)
  /\ strnum_consume_llong gcc64 numm true (Some v3) 0 = Ok (Parsed ERANGE None None).
Proof. split; [view_check|]. repeat split; vm_compute; reflexivity. Qed.

(** The view left behind shows the unconsumed text. *)
Theorem C24_rest_is_view : forall m s a rest, has_view m s (a ++ rest) ->
  has_view m (subview s (Zlen a) (Zlen rest)) rest.
Proof. exact has_view_suffix. Qed.
Print Assumptions C24_rest_is_view.

(** ** C25 *)
(** No hypothesis on memory, text or options: an error return never comes with a write. *)
Theorem C25_error_writes_nothing : forall cf t f m dst src opt p, consumer cf t = Some f ->
  f m dst src opt = Ok p -> pr_err p <> NoErr -> pr_dst p = None /\ pr_src p = None.
Proof. intros cf t f m dst src opt p Hf. exact (quiet_consumer cf t f m dst src opt Hf p). Qed.
Print Assumptions C25_error_writes_nothing.
Theorem C25_float_error_writes_nothing : forall cf A m dst src opt p,
  strnum_consume_float cf A m dst src opt = Ok p \/ strnum_consume_double cf A m dst src opt = Ok p ->
  pr_err p <> NoErr -> pr_dst p = None /\ pr_src p = None.
Proof.
  intros cf A m dst src opt p [H|H]; [exact (proj1 (quiet_float cf A m dst src opt) p H)|exact (proj2 (quiet_float cf A m dst src opt) p H)].
Qed.
Print Assumptions C25_float_error_writes_nothing.
Theorem C25_error_codes : forall cf m s l opt t f dst, consumer cf t = Some f ->
  mem_wf m -> has_view m s l -> ctype_safe cf l ->
  (it_base (read_int (ty_signed t) opt l) = 2 -> no_b0 l) ->
  let n := read_int (ty_signed t) opt l in
  exists p, f m dst (Some s) opt = Ok p
    /\ (pr_err p = EINVAL <-> it_digits n = [])
    /\ (pr_err p = ERANGE <-> it_digits n <> [] /\ ~ (ty_lo cf t <= int_value n <= ty_hi cf t)).
Proof.
  intros cf m s l opt t f dst Hf Hw Hv Hc Hb n.
  pose proof (consumer_ok cf m s l opt Hw Hv Hc t f dst Hf Hb) as K. unfold parse_int in K. fold n in K.
  destruct (it_digits n) as [|d ds] eqn:Ed.
  - cbn in K. rewrite K. eexists; split; [reflexivity|]. cbn. split; [tauto|]. split; [discriminate|tauto].
  - destruct (ty_lo cf t <=? int_value n) eqn:E1; destruct (int_value n <=? ty_hi cf t) eqn:E2; cbn [andb] in K; cbn [result_of] in K;
    repeat match goal with H : (_ <=? _) = true |- _ => apply Z.leb_le in H | H : (_ <=? _) = false |- _ => apply Z.leb_gt in H end;
    [destruct K as (a & _ & _ & K)| | |]; rewrite K; (eexists; split; [reflexivity|]); cbn [pr_err];
    (split; [split; [discriminate|intro Hx; discriminate Hx]|]); split; intro Hx; try discriminate Hx; try reflexivity;
    try (split; [discriminate|lia]); exfalso; destruct Hx as [_ Hx]; apply Hx; lia.
Qed.
Print Assumptions C25_error_codes.
Example C25_ex : it_digits (read_int true STRNUM_NOSIGN n1) = []
  /\ it_digits (read_int true 0 n3) <> [] /\ ~ (ty_lo gcc64 TLlong <= int_value (read_int true 0 n3) <= ty_hi gcc64 TLlong).
Proof. split; [reflexivity|]. split; [discriminate|]. vm_compute. intros [_ H]. now apply H. Qed.

(** ** C26 *)
Theorem C26_default : forall cf m s l opt t d, mem_wf m -> has_view m s l -> ctype_safe cf l ->
  (it_base (read_int (ty_signed t) opt l) = 2 -> no_b0 l) ->
  default_parser cf t m s d opt =
  Ok (match parse_int (ty_signed t) opt (ty_lo cf t) (ty_hi cf t) l with Good v _ => v | Bad _ => d end).
Proof. intros. now apply default_ok. Qed.
Print Assumptions C26_default.
Theorem C26_default_of_invalid : forall cf t m d opt, default_parser cf t m INVALID d opt = Ok d.
Proof. exact default_invalid. Qed.
Print Assumptions C26_default_of_invalid.
(** The float versions agree with strnum_value on every input. *)
Theorem C26_float_default : forall cf A m s d opt p,
  (strnum_consume_float cf A m true (Some s) opt = Ok p -> strnum_float cf A m s d opt =
     Ok (match pr_dst p with Some v => v | None => d end)) /\
  (strnum_consume_double cf A m true (Some s) opt = Ok p -> strnum_double cf A m s d opt =
     Ok (match pr_dst p with Some v => v | None => d end)).
Proof.
  intros cf A m s d opt p. destruct (quiet_float cf A m true (Some s) opt) as [Q1 Q2].
  split; intro H; unfold strnum_float, strnum_double; rewrite H; cbn [bind]; f_equal;
  (destruct (pr_err p) eqn:E; [reflexivity| |]); [destruct (Q1 p H) as [-> _]|destruct (Q1 p H) as [-> _]|destruct (Q2 p H) as [-> _]|destruct (Q2 p H) as [-> _]];
  auto; congruence.
Qed.
Print Assumptions C26_float_default.
Example C26_ex : has_view numm v1 n1 /\ strnum_i8 gcc64 numm v1 7 0 = Ok (-128)
  /\ strnum_u8 gcc64 numm v1 7 0 = Ok 7 /\ strnum_i8 gcc64 numm v3 7 0 = Ok 7.
Proof. split; [view_check|]. repeat split; vm_compute; reflexivity. Qed.

(** ** C27 *)
(** [sp] spaces, an optional sign, the prefix or the base option, the digits of [n], and any
    following text that cannot continue a number. *)
Theorem C27_printed_parses : forall cf t f m s opt dst base sp neg pre n rest, consumer cf t = Some f ->
  (base = 2 \/ base = 10 \/ base = 16) -> 0 <= n < two64 -> stops rest ->
  Forall (fun c => c = 32) sp -> (sp <> [] -> flag opt STRNUM_NOSPACE = false) ->
  (neg = [] \/ ((neg = [45] \/ neg = [43]) /\ ty_signed t = true /\ flag opt STRNUM_NOSIGN = false)) ->
  (pre = [] /\ opt_base opt = base \/
   pre = base_prefix base /\ (base = 2 \/ base = 16) /\ flag opt STRNUM_NOBX = false /\
     (base = 2 -> flag opt STRNUM_BASE_HEX = false) /\ (base = 16 -> flag opt STRNUM_BASE_BIN = false)) ->
  mem_wf m -> has_view m s (sp ++ neg ++ pre ++ show base n ++ rest) ->
  ctype_safe cf rest -> (base = 2 -> no_b0 rest) ->
  let v := match neg with [45] => - n | _ => n end in
  ty_lo cf t <= v <= ty_hi cf t ->
  exists k, f m dst (Some s) opt = Ok (Parsed NoErr (if dst then Some v else None) (Some (subview s k (Zlen rest))))
    /\ has_view m (subview s k (Zlen rest)) rest.
Proof. exact show_round. Qed.
Print Assumptions C27_printed_parses.
(** Every value of every type, printed in decimal, alone in the view. *)
Theorem C27_decimal_round_trip : forall cf t f m s v, consumer cf t = Some f ->
  ty_lo cf t <= v <= ty_hi cf t -> mem_wf m -> has_view m s (show_signed 10 v) ->
  exists s', f m true (Some s) 0 = Ok (Parsed NoErr (Some v) (Some s')) /\ has_view m s' [].
Proof.
  intros cf t f m s v Hf Hr Hw Hv.
  assert (ty_signed t = false -> 0 <= v) as Hu.
  { intro E. unfold ty_lo in Hr. destruct t; cbn [ty_neg ty_signed] in Hr, E; try discriminate; lia. }
  assert (- two64 < v < two64) as Hb.
  { unfold ty_lo, ty_hi, two64 in *. assert (ty_bits cf t = 8 \/ ty_bits cf t = 16 \/ ty_bits cf t = 32 \/ ty_bits cf t = 64) as B
      by (destruct t; cbn [ty_bits]; try destruct (c_long64 cf); auto).
    assert (2 ^ (8 - 1) = 128 /\ 2 ^ (16 - 1) = 32768 /\ 2 ^ (32 - 1) = 2147483648 /\ 2 ^ (64 - 1) = 9223372036854775808
      /\ 2 ^ 8 = 256 /\ 2 ^ 16 = 65536 /\ 2 ^ 32 = 4294967296 /\ 2 ^ 64 = 18446744073709551616) as P by (vm_compute; tauto).
    destruct P as (P1 & P2 & P3 & P4 & P5 & P6 & P7 & P8).
    destruct B as [B|[B|[B|B]]]; rewrite B in Hr; destruct (ty_neg cf t); rewrite ?P1, ?P2, ?P3, ?P4, ?P5, ?P6, ?P7, ?P8 in Hr; lia. }
  assert (stops []) as S0 by exact I. assert (ctype_safe cf []) as C0 by (right; right; constructor).
  assert (flag 0 STRNUM_NOSPACE = false /\ flag 0 STRNUM_NOSIGN = false /\ opt_base 0 = 10) as (F1 & F2 & F3) by (vm_compute; auto).
  assert (base_ok 10) as B10 by (unfold base_ok; auto).
  unfold show_signed in Hv. destruct (v <? 0) eqn:E; [apply Z.ltb_lt in E|apply Z.ltb_ge in E].
  - destruct (show_round cf t f m s 0 true 10 [] [45] [] (- v) [] Hf) as (k & K1 & K2); auto; try lia; try congruence.
    + right. split; [auto|]. split; [|exact F2]. destruct (ty_signed t); auto. specialize (Hu eq_refl). lia.
    + cbn [app]. now rewrite app_nil_r.
    + cbv zeta in K1. rewrite Z.opp_involutive in K1. eauto.
  - destruct (show_round cf t f m s 0 true 10 [] [] [] v [] Hf) as (k & K1 & K2); auto; try lia; try congruence.
    + cbn [app]. now rewrite app_nil_r.
    + eauto.
Qed.
Print Assumptions C27_decimal_round_trip.
Example C27_ex : show 16 4095 = bs "fff" /\ show_signed 10 (-32768) = bs "-32768" /\ show 2 10 = bs "1010"
  /\ stops (bs ";x") /\ ty_lo gcc64 TShort <= -32768 <= ty_hi gcc64 TShort
  /\ strnum_consume_short gcc64 [blk 4096 (show_signed 10 (-32768))] true (Some (vw 0 0 6)) 0
     = Ok (Parsed NoErr (Some (-32768)) (Some (vw 0 6 0)))
  /\ strnum_consume_uchar gcc64 [blk 4096 (bs "  0b" ++ show 2 10)] true (Some (vw 0 0 8)) 0
     = Ok (Parsed NoErr (Some 10) (Some (vw 0 8 0))).
Proof. repeat split; vm_compute; congruence. Qed.

(** ** C28 *)
Theorem C28_binary_digits_refuted : exists m s opt t f p, mem_wf m /\ has_view m s [176; 49]
  /\ consumer gcc64 t = Some f /\ flag opt STRNUM_BASE_BIN = true
  /\ f m true (Some s) opt = Ok p /\ p = Parsed NoErr (Some 1) (Some (vw 7 2 0))
  /\ it_digits (read_int (ty_signed t) opt [176; 49]) = [].
Proof.
  exists numm, (vw 7 0 2), STRNUM_BASE_BIN, TUint, (strnum_consume_uint gcc64). eexists.
  split; [wf_check|]. split; [view_check|]. repeat split; vm_compute; reflexivity.
Qed.
Print Assumptions C28_binary_digits_refuted.
(** The two characters 0xB0 and 0xB1 are the only ones wrongly accepted: what is consumed from
    any other text is spaces, sign and prefix followed by a non-empty run of 0 and 1. *)
Theorem C28_binary_digits_partial : forall cf m s l opt t f p, consumer cf t = Some f ->
  mem_wf m -> has_view m s l -> ctype_safe cf l -> no_b0 l ->
  flag opt STRNUM_BASE_BIN = true -> flag opt STRNUM_BASE_HEX = false ->
  f m true (Some s) opt = Ok p -> pr_err p = NoErr ->
  exists a ds rest, l = a ++ ds ++ rest /\ ds <> [] /\ Forall (fun c => c = 48 \/ c = 49) ds
    /\ (forall c r, rest = c :: r -> c <> 48 /\ c <> 49)
    /\ pr_src p = Some (subview s (Zlen (a ++ ds)) (Zlen rest))
    /\ (pr_dst p = Some (num_val 2 ds) \/ pr_dst p = Some (- num_val 2 ds)).
Proof. exact bin_value_ok. Qed.
Print Assumptions C28_binary_digits_partial.
Example C28_ex : has_view numm (vw 11 0 7) (bs " 0b1012") /\ no_b0 (bs " 0b1012")
  /\ strnum_consume_uint gcc64 numm true (Some (vw 11 0 7)) STRNUM_BASE_BIN = Ok (Parsed NoErr (Some 5) (Some (vw 11 6 1)))
  /\ strnum_consume_uint gcc64 numm true (Some v3) STRNUM_BASE_BIN = Ok (Parsed NoErr (Some 1) (Some (vw 2 1 19))).
Proof. split; [view_check|]. split; [split; intro H; cbn in H; repeat (destruct H as [H|H]; [discriminate H|]); exact H|]. split; vm_compute; reflexivity. Qed.

(** ** C29: [read_float] is the grammar; any arithmetic [A] *)
Definition float_parser (cf : cfg) (A : arith) (f : mem -> bool -> option view -> Z -> outcome (parsed (a_t A))) : Prop :=
  f = strnum_consume_float cf A \/ f = strnum_consume_double cf A.
Theorem C29_float_grammar : forall cf A f m dst s l opt, float_parser cf A f ->
  mem_wf m -> has_view m s l -> ctype_safe cf l ->
  strip_word w_infinty (snd (float_body opt l)) = None ->
  match read_float opt l with
  | FBad e => e <> NoErr /\ f m dst (Some s) opt = Ok (Parsed e None None)
  | FGood t => exists a x, l = a ++ ft_rest t /\ a <> [] /\
      match ft_special t with
      | NoSpecial => f m dst (Some s) opt =
          if a_is_inf A x then Ok (Parsed ERANGE None None)
          else Ok (Parsed NoErr (if dst then Some (if a_is_nan A x then a_nan A else if ft_neg t then a_neg A x else x) else None)
                          (Some (subview s (Zlen a) (Zlen (ft_rest t)))))
      | sp => x = match sp with SpInf => a_inf A | _ => a_nan A end /\
          f m dst (Some s) opt =
          Ok (Parsed NoErr (if dst then Some (if a_is_nan A x then a_nan A else if ft_neg t then a_neg A x else x) else None)
                     (Some (match ft_rest t with [] => INVALID | _ => subview s (Zlen a) (Zlen (ft_rest t)) end)))
      end
  end.
Proof.
  intros cf A f m dst s l opt Hf Hw Hv Hc Hn.
  destruct (float_ok cf A m dst s l opt Hw Hv Hc Hn) as [E K].
  assert (f m dst (Some s) opt = strnum_consume_double cf A m dst (Some s) opt) as -> by (destruct Hf as [-> | ->]; auto).
  destruct (read_float opt l) as [e|t]; [exact K|].
  destruct K as (a & E1 & E2 & _ & _ & K). exists a, (float_result A t). split; auto. split; auto. rewrite K.
  unfold float_over, signed_result, rest_view_of, float_result. destruct (ft_special t).
  - destruct (a_is_inf A _); reflexivity.
  - split; auto.
  - split; auto.
Qed.
Print Assumptions C29_float_grammar.
Example C29_ex : has_view numm (vw 3 0 11) (bs "+12.50e-3 m")
  /\ read_float 0 (bs "+12.50e-3 m") = FGood (FloatText false NoSpecial (bs "12") (bs "50") (-3) (bs " m"))
  /\ strip_word w_infinty (snd (float_body 0 (bs "+12.50e-3 m"))) = None
  /\ read_float 0 (bs ".5e+x") = FGood (FloatText false NoSpecial [] (bs "5") 0 (bs "e+x"))
  /\ read_float 0 (bs "+.e5") = FBad EINVAL
  /\ strnum_consume_double gcc64 exact numm false (Some (vw 3 0 11)) 0 = Ok (Parsed NoErr None (Some (vw 3 9 2)))
  /\ strnum_consume_double gcc64 exact numm false (Some (vw 9 0 13)) 0 = Ok (Parsed ERANGE None None).
Proof. split; [view_check|]. repeat split; vm_compute; reflexivity. Qed.

(** ** C30 *)
Theorem C30_exact_value_partial : forall cf f m s l opt t, float_parser cf exact f ->
  mem_wf m -> has_view m s l -> ctype_safe cf l ->
  strip_word w_infinty (snd (float_body opt l)) = None ->
  read_float opt l = FGood t -> ft_special t = NoSpecial -> num_val 10 (ft_int t) < 10 ^ 38 ->
  exists q rest, f m true (Some s) opt = Ok (Parsed NoErr (Some (Fin q)) rest)
    /\ (q == if ft_neg t then - float_value t else float_value t)%Q.
Proof.
  intros cf f m s l opt t Hf Hw Hv Hc Hn Ht Hs Hb.
  destruct (float_ok cf exact m true s l opt Hw Hv Hc Hn) as [E K].
  assert (f m true (Some s) opt = strnum_consume_double cf exact m true (Some s) opt) as -> by (destruct Hf as [-> | ->]; auto).
  rewrite Ht in K. destruct K as (a & _ & _ & D1 & D2 & K). rewrite K. clear K E.
  pose proof (float_exact (ft_int t) (ft_frac t) (ft_exp t) D1 D2 Hb) as F.
  unfold float_over, signed_result, float_result. rewrite Hs.
  destruct (float_pure exact _ _ _) as [q| |]; try contradiction. cbn [is_fin] in F.
  cbn [a_is_inf a_is_nan exact a_neg xneg]. unfold float_value.
  destruct (ft_neg t); eexists; eexists; (split; [reflexivity|]); rewrite F; reflexivity.
Qed.
Print Assumptions C30_exact_value_partial.
Example C30_ex : strnum_consume_double gcc64 exact numm true (Some (vw 3 0 11)) 0
    = Ok (Parsed NoErr (Some (Fin (125 # 10000))) (Some (vw 3 9 2)))
  /\ (float_value (FloatText false NoSpecial (bs "12") (bs "50") (-3) (bs " m")) == 125 # 10000)%Q
  /\ num_val 10 (bs "12") < 10 ^ 38.
Proof. repeat split; vm_compute; reflexivity. Qed.
(** The text that printf("%.0f", 1e40) prints. *)
Definition big : list Z := bs "10000000000000000303786028427003666890752".
Theorem C30_exact_value_refuted : exists m s l t q rest, mem_wf m /\ has_view m s l
  /\ read_float 0 l = FGood t /\ ft_special t = NoSpecial
  /\ strnum_consume_double gcc64 exact m true (Some s) 0 = Ok (Parsed NoErr (Some (Fin q)) rest)
  /\ ~ (q == float_value t)%Q.
Proof.
  exists [blk 4096 big], (vw 0 0 (Zlen big)), big.
  eexists. eexists. eexists. split; [wf_check|]. split; [view_check|].
  split; [vm_compute; reflexivity|]. split; [reflexivity|]. split; [vm_compute; reflexivity|].
  vm_compute. discriminate.
Qed.
Print Assumptions C30_exact_value_refuted.

(** ** C31 *)
Theorem C31_inf_nan_partial : forall cf A f m s l opt r, float_parser cf A f ->
  mem_wf m -> has_view m s l -> ctype_safe cf l ->
  strip_word w_infinty (snd (float_body opt l)) = None ->
  let x := snd (float_body opt l) in
  let signed v := if a_is_nan A v then a_nan A else if fst (float_body opt l) then a_neg A v else v in
  let left a := match r with [] => INVALID | _ => subview s (Zlen a) (Zlen r) end in
  (strip_word w_inf x = Some r -> exists a, l = a ++ r /\
     f m true (Some s) opt = Ok (Parsed NoErr (Some (signed (a_inf A))) (Some (left a)))) /\
  (strip_word w_nan x = Some r -> exists a, l = a ++ r /\
     f m true (Some s) opt = Ok (Parsed NoErr (Some (signed (a_nan A))) (Some (left a)))).
Proof.
  intros cf A f m s l opt r Hf Hw Hv Hc Hn x signed left.
  pose proof (C29_float_grammar cf A f m true s l opt Hf Hw Hv Hc Hn) as K.
  unfold read_float in K. unfold x, signed, left in *. destruct (float_body opt l) as [neg l2]. cbn [fst snd] in *.
  split; intro E.
  - rewrite E in K. cbn [ft_special ft_rest ft_neg] in K. destruct K as (a & y & E1 & _ & -> & K). exists a. auto.
  - assert (strip_word w_inf l2 = None) as N.
    { destruct l2 as [|c l2]; [reflexivity|]. cbn [strip_word w_inf w_nan] in *.
      destruct (lower c =? 110) eqn:E1; [|discriminate]. apply Z.eqb_eq in E1. now rewrite E1. }
    rewrite N, E in K. cbn [ft_special ft_rest ft_neg] in K. destruct K as (a & y & E1 & _ & -> & K). exists a. auto.
Qed.
Print Assumptions C31_inf_nan_partial.
(** infinity: only inf is removed, inity is left in the source. *)
Theorem C31_infinity_refuted : exists m s, mem_wf m /\ has_view m s (bs "Infinity")
  /\ strip_word w_infinity (bs "Infinity") = Some []
  /\ forall A, strnum_consume_double gcc64 A m false (Some s) 0 = Ok (Parsed NoErr None (Some (subview s 3 5)))
  /\ has_view m (subview s 3 5) (bs "inity").
Proof.
  exists numm, (vw 4 0 8). split; [wf_check|]. split; [view_check|]. split; [reflexivity|].
  intro A. split; [vm_compute; reflexivity|view_check].
Qed.
Print Assumptions C31_infinity_refuted.
Example C31_ex : has_view numm (vw 5 0 4) (bs "-INF") /\ strip_word w_inf (snd (float_body 0 (bs "-INF"))) = Some []
  /\ strnum_consume_float gcc64 exact numm true (Some (vw 5 0 4)) 0 = Ok (Parsed NoErr (Some (XInf true)) (Some INVALID)).
Proof. split; [view_check|]. split; vm_compute; reflexivity. Qed.

(** ** C32 *)
(** double arithmetic, with the pow() of any C library where pow(10, 0) is 1 and pow(10, 400) is infinite *)
Theorem C32_zero_mantissa_refuted : exists m s, mem_wf m /\ has_view m s (bs "0e400") /\
  forall pow10, pow10 0 = binary_normalize 53 1024 1 0 false -> pow10 400 = S754_infinity false ->
  exists rest, strnum_consume_double gcc64 (ieee 53 1024 pow10) m true (Some s) 0 = Ok (Parsed NoErr (Some S754_nan) rest).
Proof.
  exists numm, (vw 6 0 5). split; [wf_check|]. split; [view_check|]. intros pow10 H0 H.
  assert (ctype_safe gcc64 (bs "0e400")) as C0 by (left; reflexivity).
  destruct (float_ok gcc64 (ieee 53 1024 pow10) numm true (vw 6 0 5) (bs "0e400") 0 numm_wf ltac:(view_check) C0 eq_refl) as [_ K].
  assert (read_float 0 (bs "0e400") = FGood (FloatText false NoSpecial [48] [] 400 [])) as E by (vm_compute; reflexivity).
  rewrite E in K. destruct K as (a & _ & _ & _ & _ & K). eexists. rewrite K.
  unfold float_over, signed_result, float_result. cbn [ft_special ft_int ft_frac ft_exp ft_neg].
  assert (float_pure (ieee 53 1024 pow10) [48] [] 400 = S754_nan) as ->.
  { unfold float_pure. cbn [a_mul a_pow10 ieee]. rewrite H.
    assert (drop_in_end [48] [] = @nil Z) as -> by (vm_compute; reflexivity). cbn [length frac_pure int_pure].
    assert (chunk1 [48] 0 = (0, @nil Z)) as -> by (vm_compute; reflexivity).
    cbn [int_pure a_mul a_add a_pow10 a_zero a_of_ull ieee].
    change (Zlen (@nil Z)) with 0. rewrite H0. vm_compute. reflexivity. }
  cbn [a_is_inf a_is_nan ieee a_nan]. reflexivity.
Qed.
Print Assumptions C32_zero_mantissa_refuted.

(** ** C33 *)
Theorem C33_null_integers : forall cf t f m dst src opt, consumer cf t = Some f -> (src = None \/ src = Some INVALID) ->
  f m dst src opt = Ok (Parsed EINVAL None None).
Proof. exact consumer_invalid. Qed.
Print Assumptions C33_null_integers.
Theorem C33_null_double_partial : forall cf A m dst opt,
  strnum_consume_double cf A m dst None opt = Ok (Parsed EINVAL None None).
Proof. reflexivity. Qed.
Print Assumptions C33_null_double_partial.
(** float: the NULL source is written through. *)
Theorem C33_null_float_refuted : exists A, forall cf m opt,
  strnum_consume_float cf A m true None opt = UB UB_null.
Proof. exists exact. intros. reflexivity. Qed.
Print Assumptions C33_null_float_refuted.
Example C33_ex : consumer gcc64 TInt = Some (strnum_consume_int gcc64)
  /\ strnum_consume_int gcc64 numm true None 0 = Ok (Parsed EINVAL None None).
Proof. split; reflexivity. Qed.

(** ** C64: the strict reading of isdigit() *)
Theorem C64_any_bytes_refuted : exists m s t f, mem_wf m /\ has_view m s [128] /\ consumer iso64 t = Some f
  /\ f m true (Some s) 0 = UB UB_ctype.
Proof.
  exists numm, (vw 8 0 1), TInt, (strnum_consume_int iso64).
  split; [wf_check|]. split; [view_check|]. split; [reflexivity|]. vm_compute. reflexivity.
Qed.
Print Assumptions C64_any_bytes_refuted.
(** Strictly conforming for text without bytes 128..254, or when char is unsigned. *)
Theorem C64_any_bytes_partial : forall cf m s l opt t f dst, consumer cf t = Some f ->
  mem_wf m -> has_view m s l ->
  c_char_signed cf = false \/ Forall (fun b => b < 128) l ->
  (it_base (read_int (ty_signed t) opt l) = 2 -> no_b0 l) ->
  exists p, f m dst (Some s) opt = Ok p.
Proof.
  intros cf m s l opt t f dst Hf Hw Hv Hc Hb.
  assert (ctype_safe cf l) as C.
  { destruct Hc as [H|H]; [right; left; auto|right; right; eapply Forall_impl; [|exact H]; cbn; auto]. }
  pose proof (consumer_ok cf m s l opt Hw Hv C t f dst Hf Hb) as K. unfold result_of in K.
  destruct (parse_int _ _ _ _ _); [|destruct K as (a & _ & _ & K)]; rewrite K; eauto.
Qed.
Print Assumptions C64_any_bytes_partial.
Example C64_ex : Forall (fun b => b < 128) n1. Proof. repeat constructor. Qed.

(** ** C65: the source left by a successful parse is a valid view *)
Theorem C65_rest_valid_refuted : exists m s, mem_wf m /\ has_view m s (bs "-INF") /\
  forall A, exists d, strnum_consume_double gcc64 A m true (Some s) 0 = Ok (Parsed NoErr d (Some INVALID)).
Proof.
  exists numm, (vw 5 0 4). split; [wf_check|]. split; [view_check|]. intro A. eexists. vm_compute. reflexivity.
Qed.
Print Assumptions C65_rest_valid_refuted.
Theorem C65_rest_valid_partial : forall cf m s l opt t f dst d s', consumer cf t = Some f ->
  mem_wf m -> has_view m s l -> ctype_safe cf l ->
  (it_base (read_int (ty_signed t) opt l) = 2 -> no_b0 l) ->
  f m dst (Some s) opt = Ok (Parsed NoErr d (Some s')) -> exists rest, has_view m s' rest.
Proof.
  intros cf m s l opt t f dst d s' Hf Hw Hv Hc Hb E.
  pose proof (consumer_ok cf m s l opt Hw Hv Hc t f dst Hf Hb) as K. unfold result_of in K.
  destruct (parse_int _ _ _ _ _) as [e|v rest]; rewrite E in *; [injection K; intros; discriminate|].
  destruct K as (a & -> & _ & K). injection K as _ ->. exists rest. now apply has_view_suffix in Hv.
Qed.
Print Assumptions C65_rest_valid_partial.
