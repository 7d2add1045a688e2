(** testnum on every line of text, whatever its bytes and words (C117). *)
From Verif Require PropsNum PropsNum2.
From Verif Require Import Base Mem Libc StrviewModel Spec MemLemmas StrviewProofs StrviewProofs2 StrnumModel NumSpec NumSpec2 StrnumProofs StrnumProofs3
  Alloc BufSpec ExamplesModel ExamplesSpec ExamplesProofs ExamplesProofs2 ExamplesProofs3.
Local Open Scope list_scope.
Local Open Scope Z_scope.

(** As [line_of] and [float_line], with the grammars that are exact for every text. *)
Definition line_exact (cf : cfg) (opt : Z) (l : list Z) (t : ity) : errno * Z * list Z :=
  match parse_int_exact (ty_signed t) opt (ty_lo cf t) (ty_hi cf t) l with
  | Bad e => (e, 0, upto_nul l)
  | Good v rest => (NoErr, v, upto_nul rest)
  end.
Definition float_line_exact {T} (zero : T) (r : parsed T) (opt : Z) (l : list Z) (line : errno * T * list Z) : Prop :=
  match read_float_exact opt l with
  | FBad e => e <> NoErr /\ line = (e, zero, upto_nul l)
  | FGood t =>
      (exists x, pr_dst r = Some x /\ line = (NoErr, x, upto_nul (ft_rest t))) \/
      (ft_special t = NoSpecial /\ pr_err r = ERANGE /\ line = (ERANGE, zero, upto_nul l))
  end.

Lemma helper_exact : forall cf m v l opt t f, mem_wf m -> has_view m v l -> ctype_safe cf l -> consumer cf t = Some f ->
  numtsthelper cf 0 f m v opt = Ok (line_exact cf opt l t).
Proof.
  intros cf m v l opt t f Wm Hv Hc Hf. pose proof (PropsNum2.C28_every_text cf t f m true v l opt Hf Wm Hv Hc) as K. unfold numtsthelper, line_exact.
  destruct (parse_int_exact (ty_signed t) opt (ty_lo cf t) (ty_hi cf t) l) as [e|x rest] eqn:Ep; cbn [result_of] in K.
  - rewrite K. cbn [bind pr_err pr_src pr_dst]. assert (e <> NoErr) as He.
    { unfold parse_int_exact in Ep. destruct (it_digits _); [|destruct (_ && _); [discriminate|]]; injection Ep as <-; discriminate. }
    destruct e; [congruence| |]; cbn [bind]; now rewrite (show_view_ok cf m v l Hv).
  - destruct K as (a & -> & _ & K). rewrite K. cbn [bind pr_err pr_src pr_dst]. now rewrite (show_view_ok cf m _ rest (has_view_suffix m v a rest Hv)).
Qed.
Lemma int_lines_exact : forall cf m v l opt fs ts, mem_wf m -> has_view m v l -> ctype_safe cf l ->
  Forall2 (fun f t => consumer cf t = Some f) fs ts -> int_lines cf fs m v opt = Ok (map (line_exact cf opt l) ts).
Proof.
  intros cf m v l opt fs ts Wm Hv Hc H. induction H as [|f t fs ts Hf H IH]; cbn [int_lines map]; auto.
  rewrite (helper_exact cf m v l opt t f Wm Hv Hc Hf). cbn [bind]. now rewrite IH.
Qed.
Lemma conversion_exact : forall cf m v l opt, mem_wf m -> has_view m v l -> ctype_safe cf l ->
  test_number_conversion cf m v opt = Ok (upto_nul l, map (line_exact cf opt l) line_types).
Proof.
  intros cf m v l opt Wm Hv Hc. unfold test_number_conversion. rewrite (show_view_ok cf m v l Hv). cbn [bind].
  rewrite (int_lines_exact cf m v l opt (int_parsers cf) line_types); auto. unfold int_parsers, line_types. repeat constructor.
Qed.
Lemma number_line_exact : forall cf m txt l opt, mem_wf m -> c_string m txt l -> ctype_safe cf l ->
  exists b c, l = b ++ c /\ Forall (fun x => x = 13 \/ x = 10) c /\ (forall t x, b = t ++ [x] -> x <> 13 /\ x <> 10) /\
    number_line cf m txt opt = Ok (b, map (line_exact cf opt b) line_types).
Proof.
  intros cf m txt l opt Wm Hs Hc. destruct (cstr_ok m txt l Hs) as [E Hv]. unfold number_line. rewrite E. cbn [bind].
  assert (has_view m (View (lit [13; 10]) 2) [13; 10]) as Hcr by (apply lit_view'; [repeat constructor; unfold is_byte; lia|vm_compute; discriminate|reflexivity]).
  destruct (trim_end_spec cf m _ (View (lit [13; 10]) 2) l (Some [13; 10]) Hv Hcr) as (b & c & E1 & E2 & E3 & E4 & E5); [discriminate|].
  exists b, c. split; auto. split; [|split].
  - eapply Forall_impl; [|exact E2]. cbn. intros x [H|[H|[]]]; auto.
  - intros t x Hx. specialize (E3 t x Hx). cbn in E3. split; intros ->; tauto.
  - rewrite E4. cbn [bind]. rewrite (conversion_exact cf m _ b opt); auto.
    + rewrite upto_nul_id; auto. destruct Hs as (_ & _ & N & _). rewrite E1, in_app_iff in N. tauto.
    + rewrite E1 in Hc. destruct Hc as [Hc|[Hc|Hc]]; [left|right; left|right; right]; auto. apply Forall_app in Hc. tauto.
Qed.

Lemma float_line_every : forall cf A f m v l opt, PropsNum.float_parser cf A f -> mem_wf m -> has_view m v l -> ctype_safe cf l -> c_mem0 cf = true ->
  exists r line, f m true (Some v) opt = Ok r /\ numtsthelper cf (a_zero A) f m v opt = Ok line /\ float_line_exact (a_zero A) r opt l line.
Proof.
  intros cf A f m v l opt Hf Wm Hv Hc H0. pose proof (PropsNum2.C29_every_text cf A f m true v l opt Hf Wm Hv Hc) as K.
  unfold numtsthelper, float_line_exact. pose proof (show_view_ok cf m v l Hv) as S.
  destruct (read_float_exact opt l) as [e|t].
  - destruct K as [He K]. rewrite K. cbn [bind pr_err pr_src pr_dst]. exists (Parsed e None None), (e, a_zero A, upto_nul l).
    split; auto. split; auto. destruct e; [congruence| |]; cbn [bind]; now rewrite S.
  - destruct K as (a & x & El & _ & K).
    assert (show_view cf m (subview v (Zlen a) (Zlen (ft_rest t))) = Ok (upto_nul (ft_rest t))) as S2
      by (rewrite El in Hv; apply show_view_ok; now apply has_view_suffix).
    assert (ft_rest t = [] -> show_view cf m INVALID = Ok (upto_nul (ft_rest t))) as S3.
    { intros ->. unfold show_view. cbn [v_data INVALID v_size]. rewrite H0. cbn [negb]. rewrite andb_false_r. reflexivity. }
    assert (show_view cf m (match ft_rest t with [] => INVALID | _ => subview v (Zlen a) (Zlen (ft_rest t)) end) = Ok (upto_nul (ft_rest t))) as S4.
    { destruct (ft_rest t) eqn:Er; [apply (S3 eq_refl)|exact S2]. }
    destruct (ft_special t) eqn:Es.
    + rewrite K. destruct (a_is_inf A x); cbn [bind pr_err pr_src pr_dst].
      * do 2 eexists. split; [reflexivity|]. rewrite S. cbn [bind]. split; [reflexivity|]. right. auto.
      * do 2 eexists. split; [reflexivity|]. rewrite S2. cbn [bind]. split; [reflexivity|]. left. eexists. split; reflexivity.
    + destruct K as [-> K]. rewrite K. cbn [bind pr_err pr_src pr_dst]. do 2 eexists. split; [reflexivity|]. rewrite S4. cbn [bind].
      split; [reflexivity|]. left. eexists. split; reflexivity.
    + destruct K as [-> K]. rewrite K. cbn [bind pr_err pr_src pr_dst]. do 2 eexists. split; [reflexivity|]. rewrite S4. cbn [bind].
      split; [reflexivity|]. left. eexists. split; reflexivity.
Qed.
Lemma float_lines_every : forall cf F D L m v l opt, mem_wf m -> has_view m v l -> ctype_safe cf l -> c_mem0 cf = true ->
  exists rf rd rl a b c, strnum_consume_float cf F m true (Some v) opt = Ok rf /\ strnum_consume_double cf D m true (Some v) opt = Ok rd /\
    strnum_consume_double cf L m true (Some v) opt = Ok rl /\ float_lines cf F D L m v opt = Ok (a, b, c) /\
    float_line_exact (a_zero F) rf opt l a /\ float_line_exact (a_zero D) rd opt l b /\ float_line_exact (a_zero L) rl opt l c.
Proof.
  intros cf F D L m v l opt Wm Hv Hc H0. unfold float_lines.
  destruct (float_line_every cf F _ m v l opt (or_introl eq_refl) Wm Hv Hc H0) as (rf & a & R1 & E1 & L1).
  destruct (float_line_every cf D _ m v l opt (or_intror eq_refl) Wm Hv Hc H0) as (rd & b & R2 & E2 & L2).
  destruct (float_line_every cf L _ m v l opt (or_intror eq_refl) Wm Hv Hc H0) as (rl & c & R3 & E3 & L3).
  exists rf, rd, rl, a, b, c. rewrite E1, E2, E3. cbn [bind]. repeat (split; [assumption || reflexivity|]). assumption.
Qed.
