(** Proofs about testnum. *)
From Coq Require Import String.
From Verif Require PropsNum.
From Verif Require Import Base Mem Libc StrviewModel Spec MemLemmas StrviewProofs StrviewProofs2 StrnumModel NumSpec StrnumProofs StrnumProofs3
  Alloc BufSpec ExamplesModel ExamplesSpec ExamplesProofs ExamplesProofs2.
Local Open Scope list_scope.
Local Open Scope Z_scope.

(** ** Command line *)
Definition same (l : list Z) (word : string) : Prop := map upper l = map upper (chars word).
Lemma chars_byte : forall s, Forall is_byte (chars s).
Proof.
  intros s. unfold chars. apply Forall_forall. intros x H. apply in_map_iff in H as (c & <- & _). unfold is_byte.
  pose proof (Ascii.nat_ascii_bounded c). lia.
Qed.
Lemma word_view_ok : forall m s, Zlen (chars s) <= INT_MAX -> has_view m (word_view s) (chars s).
Proof. intros m s H. apply lit_view; auto. apply chars_byte. Qed.

Lemma one_option_ok : forall cf m v l word j bit options, bit = 2 ^ j -> mem_wf m -> has_view m v l -> Zlen (chars word) <= INT_MAX -> 0 <= j ->
  exists o, one_option cf m v word bit options = Ok o /\
    forall k, Z.testbit o k = true <-> Z.testbit options k = true \/ (k = j /\ same l word).
Proof.
  intros cf m v l word j bit options -> Wm Hv Hl Hj. unfold one_option.
  destruct (is_match_nocase_ok cf m v (word_view word) l (chars word) Wm Hv (word_view_ok m word Hl)) as (r & -> & Hr). cbn [bind].
  eexists. split; [reflexivity|]. intros k. fold (same l word) in Hr. destruct r.
  - rewrite Z.lor_spec, Z.pow2_bits_eqb by auto. rewrite orb_true_iff, Z.eqb_eq. intuition.
  - intuition.
Qed.

Lemma argument_ok : forall cf m arg l options, mem_wf m -> c_string m arg l ->
  exists o, argument cf m arg options = Ok o /\
    forall k, Z.testbit o k = true <-> Z.testbit options k = true \/ exists w, In (k, w) option_words /\ map upper l = map upper w.
Proof.
  intros cf m arg l options Wm Hs. destruct (cstr_ok m arg l Hs) as [E Hv]. unfold argument. rewrite E. cbn [bind].
  destruct (one_option_ok cf m _ l "base-bin" 0 1 options eq_refl Wm Hv ltac:(vm_compute; discriminate) ltac:(lia)) as (o1 & -> & H1). cbn [bind].
  destruct (one_option_ok cf m _ l "base-hex" 1 2 o1 eq_refl Wm Hv ltac:(vm_compute; discriminate) ltac:(lia)) as (o2 & -> & H2). cbn [bind].
  destruct (one_option_ok cf m _ l "nobx" 2 4 o2 eq_refl Wm Hv ltac:(vm_compute; discriminate) ltac:(lia)) as (o3 & -> & H3). cbn [bind].
  destruct (one_option_ok cf m _ l "nosign" 3 8 o3 eq_refl Wm Hv ltac:(vm_compute; discriminate) ltac:(lia)) as (o4 & -> & H4). cbn [bind].
  destruct (one_option_ok cf m _ l "nospace" 4 16 o4 eq_refl Wm Hv ltac:(vm_compute; discriminate) ltac:(lia)) as (o5 & -> & H5). cbn [bind].
  destruct (one_option_ok cf m _ l "noexp" 5 32 o5 eq_refl Wm Hv ltac:(vm_compute; discriminate) ltac:(lia)) as (o6 & -> & H6).
  exists o6. split; auto. intros k. rewrite H6, H5, H4, H3, H2, H1. unfold same. split.
  - intros [[[[[[K|[-> K]]|[-> K]]|[-> K]]|[-> K]]|[-> K]]|[-> K]]; [now left|right; eexists; split; [|exact K]; cbn; tauto..].
  - intros [K|(w & Hw & K)]; [tauto|]. cbn [option_words In] in Hw.
    destruct Hw as [Hw|[Hw|[Hw|[Hw|[Hw|[Hw|[]]]]]]]; injection Hw as <- <-.
    + do 5 left. right. split; auto.
    + do 4 left. right. split; auto.
    + do 3 left. right. split; auto.
    + do 2 left. right. split; auto.
    + left. right. split; auto.
    + right. split; auto.
Qed.

Lemma arguments_ok : forall cf m argv ls options, mem_wf m -> Forall2 (c_string m) argv ls ->
  exists o, arguments cf m argv options = Ok o /\
    forall k, Z.testbit o k = true <-> Z.testbit options k = true \/ exists w, In (k, w) option_words /\ asked ls w.
Proof.
  intros cf m argv ls options Wm H. revert options. induction H as [|a l argv ls Hs H IH]; intros options; cbn [arguments].
  - exists options. split; auto. intros k. split; auto. intros [K|(w & _ & l & [] & _)]; auto.
  - destruct (argument_ok cf m a l options Wm Hs) as (o1 & E1 & H1). rewrite E1. cbn [bind]. destruct (IH o1) as (o2 & E2 & H2).
    exists o2. split; auto. intros k. rewrite H2, H1. split.
    + intros [[K|(w & Hw & K)]|(w & Hw & x & Hx & K)]; [now left|right; exists w; split; auto; exists l; split; [now left|auto]|].
      right. exists w. split; auto. exists x. split; [now right|auto].
    + intros [K|(w & Hw & x & [<-|Hx] & K)]; [now left; left|left; right; eauto|right; exists w; split; auto; exists x; auto].
Qed.

(** The options are exactly those asked for, nothing else. *)
Lemma options_ok : forall cf m argv ls, mem_wf m -> Forall2 (c_string m) argv ls ->
  exists o, arguments cf m argv 0 = Ok o /\ (forall k w, In (k, w) option_words -> (Z.testbit o k = true <-> asked ls w)) /\
    forall k, Z.testbit o k = true -> 0 <= k <= 5.
Proof.
  intros cf m argv ls Wm H. destruct (arguments_ok cf m argv ls 0 Wm H) as (o & E & K). exists o. split; auto. split.
  - intros k w Hw. rewrite K, Z.bits_0. split.
    + intros [X|(w' & Hw' & A)]; [discriminate|]. replace w with w'; auto.
      cbn [option_words In] in Hw, Hw'. destruct Hw as [Hw|[Hw|[Hw|[Hw|[Hw|[Hw|[]]]]]]]; injection Hw as <- <-;
      destruct Hw' as [Hw'|[Hw'|[Hw'|[Hw'|[Hw'|[Hw'|[]]]]]]]; try discriminate Hw'; now injection Hw'.
    + intros A. right. eauto.
  - intros k X. apply K in X. rewrite Z.bits_0 in X. destruct X as [X|(w & Hw & _)]; [discriminate|].
    cbn [option_words In] in Hw. destruct Hw as [Hw|[Hw|[Hw|[Hw|[Hw|[Hw|[]]]]]]]; injection Hw as <- <-; lia.
Qed.

(** ** One line *)
Lemma helper_ok : forall cf m v l opt t f, mem_wf m -> has_view m v l -> ctype_safe cf l ->
  (it_base (read_int (ty_signed t) opt l) = 2 -> no_b0 l) -> consumer cf t = Some f ->
  numtsthelper cf 0 f m v opt = Ok (line_of cf opt l t).
Proof.
  intros cf m v l opt t f Wm Hv Hc Hb Hf. pose proof (consumer_ok cf m v l opt Wm Hv Hc t f true Hf Hb) as K. unfold numtsthelper, line_of.
  destruct (parse_int (ty_signed t) opt (ty_lo cf t) (ty_hi cf t) l) as [e|x rest] eqn:Ep; cbn [result_of] in K.
  - rewrite K. cbn [bind pr_err pr_src pr_dst]. assert (e <> NoErr) as He.
    { unfold parse_int in Ep. destruct (it_digits _); [|destruct (_ && _); [discriminate|]]; injection Ep as <-; discriminate. }
    destruct e; [congruence| |]; cbn [bind]; now rewrite (show_view_ok cf m v l Hv).
  - destruct K as (a & -> & _ & K). rewrite K. cbn [bind pr_err pr_src pr_dst]. now rewrite (show_view_ok cf m _ rest (has_view_suffix m v a rest Hv)).
Qed.

Lemma int_lines_ok : forall cf m v l opt fs ts, mem_wf m -> has_view m v l -> ctype_safe cf l ->
  (forall s, it_base (read_int s opt l) = 2 -> no_b0 l) -> Forall2 (fun f t => consumer cf t = Some f) fs ts ->
  int_lines cf fs m v opt = Ok (map (line_of cf opt l) ts).
Proof.
  intros cf m v l opt fs ts Wm Hv Hc Hb H. induction H as [|f t fs ts Hf H IH]; cbn [int_lines map]; auto.
  rewrite (helper_ok cf m v l opt t f Wm Hv Hc (Hb _) Hf). cbn [bind]. now rewrite IH.
Qed.

Lemma conversion_ok : forall cf m v l opt, mem_wf m -> has_view m v l -> ctype_safe cf l ->
  (forall s, it_base (read_int s opt l) = 2 -> no_b0 l) ->
  test_number_conversion cf m v opt = Ok (upto_nul l, map (line_of cf opt l) line_types).
Proof.
  intros cf m v l opt Wm Hv Hc Hb. unfold test_number_conversion. rewrite (show_view_ok cf m v l Hv). cbn [bind].
  rewrite (int_lines_ok cf m v l opt (int_parsers cf) line_types); auto. unfold int_parsers, line_types. repeat constructor.
Qed.

Lemma number_line_ok : forall cf m txt l opt, mem_wf m -> c_string m txt l -> ctype_safe cf l -> no_b0 l ->
  exists b c, l = b ++ c /\ Forall (fun x => x = 13 \/ x = 10) c /\ (forall t x, b = t ++ [x] -> x <> 13 /\ x <> 10) /\
    number_line cf m txt opt = Ok (b, map (line_of cf opt b) line_types).
Proof.
  intros cf m txt l opt Wm Hs Hc Hb. destruct (cstr_ok m txt l Hs) as [E Hv]. unfold number_line. rewrite E. cbn [bind].
  assert (has_view m (View (lit [13; 10]) 2) [13; 10]) as Hcr by (apply lit_view'; [repeat constructor; unfold is_byte; lia|vm_compute; discriminate|reflexivity]).
  destruct (trim_end_spec cf m _ (View (lit [13; 10]) 2) l (Some [13; 10]) Hv Hcr) as (b & c & E1 & E2 & E3 & E4 & E5); [discriminate|].
  exists b, c. split; auto. split; [|split].
  - eapply Forall_impl; [|exact E2]. cbn. intros x [H|[H|[]]]; auto.
  - intros t x Hx. specialize (E3 t x Hx). cbn in E3. split; intros ->; tauto.
  - rewrite E4. cbn [bind]. rewrite (conversion_ok cf m _ b opt); auto.
    + rewrite upto_nul_id; auto. destruct Hs as (_ & _ & N & _). rewrite E1, in_app_iff in N. tauto.
    + rewrite E1 in Hc. destruct Hc as [Hc|[Hc|Hc]]; [left|right; left|right; right]; auto. apply Forall_app in Hc. tauto.
    + intros _ _. rewrite E1 in Hb. unfold no_b0 in *. rewrite !in_app_iff in Hb. tauto.
Qed.

(** ** A floating point line *)
Lemma float_line_ok : forall cf A f m v l opt, PropsNum.float_parser cf A f -> mem_wf m -> has_view m v l -> ctype_safe cf l ->
  strip_word w_infinty (snd (float_body opt l)) = None -> c_mem0 cf = true ->
  exists r line, f m true (Some v) opt = Ok r /\ numtsthelper cf (a_zero A) f m v opt = Ok line /\ float_line (a_zero A) r opt l line.
Proof.
  intros cf A f m v l opt Hf Wm Hv Hc Hn H0. pose proof (PropsNum.C29_float_grammar cf A f m true v l opt Hf Wm Hv Hc Hn) as K.
  unfold numtsthelper, float_line. pose proof (show_view_ok cf m v l Hv) as S.
  destruct (read_float opt l) as [e|t].
  - destruct K as [He K]. rewrite K. cbn [bind pr_err pr_src pr_dst]. exists (Parsed e None None), (e, a_zero A, upto_nul l).
    split; auto. split; auto. destruct e; [congruence| |]; cbn [bind]; now rewrite S.
  - destruct K as (a & x & El & _ & K).
    assert (show_view cf m (subview v (Zlen a) (Zlen (ft_rest t))) = Ok (upto_nul (ft_rest t))) as S2
      by (rewrite El in Hv; apply show_view_ok; now apply has_view_suffix).
    assert (ft_rest t = [] -> show_view cf m INVALID = Ok (upto_nul (ft_rest t))) as S3.
    { intros ->. unfold show_view. cbn [v_data INVALID v_size]. rewrite H0. cbn [negb]. rewrite andb_false_r. reflexivity. }
    assert (show_view cf m (match ft_rest t with [] => INVALID | _ => subview v (Zlen a) (Zlen (ft_rest t)) end) = Ok (upto_nul (ft_rest t))) as S4.
    { destruct (ft_rest t) eqn:Er; [apply (S3 eq_refl)|exact S2]. }
    destruct (ft_special t) eqn:Es.
    + rewrite K. destruct (a_is_inf A x); cbn [bind pr_err pr_src pr_dst].
      * do 2 eexists. split; [reflexivity|]. rewrite S. cbn [bind]. split; [reflexivity|]. right. auto.
      * do 2 eexists. split; [reflexivity|]. rewrite S2. cbn [bind]. split; [reflexivity|]. left. eexists. split; reflexivity.
    + destruct K as [-> K]. rewrite K. cbn [bind pr_err pr_src pr_dst]. do 2 eexists. split; [reflexivity|]. rewrite S4. cbn [bind].
      split; [reflexivity|]. left. eexists. split; reflexivity.
    + destruct K as [-> K]. rewrite K. cbn [bind pr_err pr_src pr_dst]. do 2 eexists. split; [reflexivity|]. rewrite S4. cbn [bind].
      split; [reflexivity|]. left. eexists. split; reflexivity.
Qed.

Lemma float_lines_ok : forall cf F D L m v l opt, mem_wf m -> has_view m v l -> ctype_safe cf l ->
  strip_word w_infinty (snd (float_body opt l)) = None -> c_mem0 cf = true ->
  exists rf rd rl a b c, strnum_consume_float cf F m true (Some v) opt = Ok rf /\ strnum_consume_double cf D m true (Some v) opt = Ok rd /\
    strnum_consume_double cf L m true (Some v) opt = Ok rl /\ float_lines cf F D L m v opt = Ok (a, b, c) /\
    float_line (a_zero F) rf opt l a /\ float_line (a_zero D) rd opt l b /\ float_line (a_zero L) rl opt l c.
Proof.
  intros cf F D L m v l opt Wm Hv Hc Hn H0. unfold float_lines.
  destruct (float_line_ok cf F _ m v l opt (or_introl eq_refl) Wm Hv Hc Hn H0) as (rf & a & R1 & E1 & L1).
  destruct (float_line_ok cf D _ m v l opt (or_intror eq_refl) Wm Hv Hc Hn H0) as (rd & b & R2 & E2 & L2).
  destruct (float_line_ok cf L _ m v l opt (or_intror eq_refl) Wm Hv Hc Hn H0) as (rl & c & R3 & E3 & L3).
  exists rf, rd, rl, a, b, c. rewrite E1, E2, E3. cbn [bind]. repeat (split; [assumption || reflexivity|]). assumption.
Qed.
