(** Proofs about floating point syntax. *)
From Verif Require Import Base Mem Libc StrviewModel StrnumModel Spec NumSpec MemLemmas
  StrviewProofs StrviewProofs2 StrviewProofs3 StrnumProofs StrnumProofs2 StrnumProofs3.

Lemma lower_upper : forall x y, is_byte y -> 97 <= x <= 122 -> (lower y =? x) = (upper y =? upper x).
Proof.
  intros x y Hy Hx. unfold lower, upper, is_byte in *.
  rewrite (proj2 (Z.leb_le 97 x)), (proj2 (Z.leb_le x 122)) by lia. cbn [andb].
  destruct ((65 <=? y) && (y <=? 90)) eqn:E1; destruct ((97 <=? y) && (y <=? 122)) eqn:E2; try lia.
Qed.

Lemma strip_word_prefix : forall w l, Forall (fun x => 97 <= x <= 122) w -> Forall is_byte l ->
  (prefix_of (map upper w) (map upper l) <-> strip_word w l <> None).
Proof.
  induction w as [|x w IH]; intros l Hw Hl.
  - split; [destruct l; discriminate|]. intros _. exists (map upper l). reflexivity.
  - inversion Hw; subst. destruct l as [|y l].
    + split; [intros [r H]; discriminate|cbn; congruence].
    + inversion Hl; subst. cbn [strip_word map]. rewrite lower_upper by auto.
      specialize (IH l H2 H4). destruct (upper y =? upper x) eqn:E.
      * apply Z.eqb_eq in E. rewrite <- IH. split; intros [r Hr].
        -- exists r. cbn in Hr. congruence.
        -- exists r. cbn [app]. congruence.
      * split; [|congruence]. intros [r Hr]. cbn [app] in Hr. apply Z.eqb_neq in E. congruence.
Qed.

Lemma strip_word_app : forall w l r, strip_word w l = Some r -> exists a, l = a ++ r /\ length a = length w.
Proof.
  induction w as [|x w IH]; intros l r H.
  - exists []. cbn in H. destruct l; injection H as <-; auto.
  - destruct l as [|y l]; [discriminate|]. cbn in H. destruct (lower y =? x); [|discriminate].
    destruct (IH l r H) as (a & -> & Ha). exists (y :: a). cbn; auto.
Qed.

Lemma starts_word : forall cf m s l w, mem_wf m -> has_view m s l -> Forall (fun x => 97 <= x <= 122) w -> Zlen w <= INT_MAX ->
  strview_starts_with_nocase cf m s (vlit w) = Ok (match strip_word w l with Some _ => true | None => false end).
Proof.
  intros cf m s l w Hw Hv Hf Hl.
  destruct (starts_with_nocase_ok cf m s (vlit w) l w) as (r & E & Hr); auto.
  { unfold vlit. apply lit_view; auto. eapply Forall_impl; [|exact Hf]. unfold is_byte; cbn; lia. }
  rewrite E. f_equal. pose proof Hv as (_ & _ & _ & Hb). pose proof (strip_word_prefix w l Hf Hb) as P.
  destruct (strip_word w l) as [q|].
  - apply Hr, P. discriminate.
  - destruct r; auto. exfalso. apply P; auto. now apply Hr.
Qed.

(** strview_sub(v, k, INT_MAX) for k up to the size *)
Lemma sub_tail : forall cf m s a b, has_view m s (a ++ b) -> a <> [] ->
  strview_sub cf m s (Zlen a) INT_MAX = Ok (match b with [] => INVALID | _ => rest_of s a b end).
Proof.
  intros cf m s a b H Ha. destruct b as [|x b].
  - rewrite app_nil_r in H. pose proof H as (_ & _ & Hl & _). pose proof (Zlen_nonneg a).
    apply (sub_out cf m s a); auto; try (unfold INT_MIN, INT_MAX in *; lia).
    unfold py_in, py_index. zb. lia.
  - apply sub_from; auto. discriminate.
Qed.

(** A view of digits, or the invalid view if there are none. *)
Definition opt_view (m : mem) (v : view) (l : list Z) : Prop := has_view m v l \/ (l = [] /\ v = INVALID).

Lemma split_digits_loop_ok : forall cf m l s n fuel, has_view m s l -> ctype_safe cf l -> (length l < fuel)%nat ->
  0 <= n -> n + Zlen l <= INT_MAX ->
  split_digits_loop cf fuel m s n =
  Ok (n + Zlen (fst (span (isdig 10) l)), rest_of s (fst (span (isdig 10) l)) (snd (span (isdig 10) l))).
Proof.
  intros cf m; induction l as [|x l IH]; intros s n fuel Hv Hc Hf Hn Hm;
    (destruct fuel as [|fuel]; [cbn in Hf; lia|]); cbn [split_digits_loop].
  - rewrite (at_digit_ok cf m s []); auto. cbn. rewrite (rest_nil m s []); auto. do 2 f_equal; lia.
  - rewrite (at_digit_ok cf m s (x :: l)); auto. cbn [bind headb span]. destruct (isdig 10 x) eqn:E.
    + rewrite (pop_num cf m s x l); auto. cbn [bind]. rewrite Zlen_cons in Hm. pose proof (Zlen_nonneg l).
      rewrite iadd_ok by (unfold INT_MIN; lia). cbn [bind].
      rewrite IH; try lia.
      * pose proof (span_app (isdig 10) l) as As. destruct (span (isdig 10) l) as [a b]. cbn [fst snd] in *.
        rewrite <- As, chain. rewrite Zlen_cons. do 2 f_equal. lia.
      * apply (rest_view m s [x] l); auto.
      * apply (ctype_safe_app cf [x]); auto.
      * cbn in Hf; lia.
    + cbn [fst snd]. rewrite (rest_nil m s (x :: l)); auto. rewrite Zlen_nil. do 2 f_equal; lia.
Qed.

Lemma split_digits_ok : forall cf m s l, has_view m s l -> ctype_safe cf l -> exists d,
  split_digits cf m s = Ok (d, rest_of s (fst (span (isdig 10) l)) (snd (span (isdig 10) l))) /\
  opt_view m d (fst (span (isdig 10) l)) /\
  (strview_is_valid d = true <-> fst (span (isdig 10) l) <> []).
Proof.
  intros cf m s l Hv Hc. unfold split_digits. rewrite (at_digit_ok cf m s l); auto. cbn [bind].
  destruct (headb (isdig 10) l) eqn:E.
  - rewrite (has_view_size _ _ _ Hv), Zlen_to_nat. rewrite (split_digits_loop_ok cf m l s 0); auto; try lia.
    2:{ pose proof Hv as (_ & _ & ? & _). lia. }
    cbn [bind]. eexists; split; [reflexivity|].
    assert (has_view m (View (v_data s) (0 + Zlen (fst (span (isdig 10) l)))) (fst (span (isdig 10) l))) as H.
    { apply (has_view_prefix m s _ (snd (span (isdig 10) l))). now rewrite span_app. }
    split; [left; auto|]. rewrite (has_view_valid _ _ _ H). split; auto. intros _. now apply span_cons_nonnil.
  - rewrite (span_nil _ l E). cbn [fst snd]. exists INVALID. rewrite (rest_nil m s l); auto. split; auto.
    split; [right; auto|]. cbn. split; congruence.
Qed.

Lemma exp_opts : forall l, it_base (read_int true (STRNUM_NOSPACE + STRNUM_NOBX) l) = 10.
Proof.
  intro l. unfold read_int.
  change (flag (STRNUM_NOSPACE + STRNUM_NOBX) STRNUM_NOSPACE) with true.
  change (flag (STRNUM_NOSPACE + STRNUM_NOBX) STRNUM_NOSIGN) with false. cbn [andb negb].
  destruct (read_sign l) as [neg l2]. unfold read_prefix, opt_base.
  change (flag (STRNUM_NOSPACE + STRNUM_NOBX) STRNUM_NOBX) with true. cbn [negb]. rewrite ?andb_false_r.
  change (flag (STRNUM_NOSPACE + STRNUM_NOBX) STRNUM_BASE_BIN) with false.
  change (flag (STRNUM_NOSPACE + STRNUM_NOBX) STRNUM_BASE_HEX) with false.
  destruct l2 as [|z [|b t]]; rewrite ?andb_false_r; cbn [andb];
    match goal with |- context[span ?p ?q] => destruct (span p q) end; reflexivity.
Qed.

Lemma exponent_ok : forall cf m s c t, mem_wf m -> has_view m s (c :: t) -> ctype_safe cf (c :: t) ->
  match parse_int true (STRNUM_NOSPACE + STRNUM_NOBX) INT_MIN INT_MAX t with
  | Good v r => exists a, t = a ++ r /\ consume_exponent cf m s = Ok (NoErr, v, rest_of s (c :: a) r)
  | Bad EINVAL => consume_exponent cf m s = Ok (NoErr, 0, s)
  | Bad e => consume_exponent cf m s = Ok (e, 0, s)
  end.
Proof.
  intros cf m s c t Hw Hv Hc. unfold consume_exponent.
  rewrite (sub_tail cf m s [c] t Hv ltac:(discriminate) : strview_sub cf m s 1 INT_MAX = _). cbn [bind].
  destruct t as [|x t].
  { reflexivity. }
  assert (has_view m (rest_of s [c] (x :: t)) (x :: t)) as Hv1 by (apply (rest_view m s [c]); auto).
  pose proof (consumer_ok cf m (rest_of s [c] (x :: t)) (x :: t) (STRNUM_NOSPACE + STRNUM_NOBX) Hw Hv1
     (ctype_safe_app cf [c] _ Hc) TInt (strnum_consume_int cf) true eq_refl) as K.
  cbn [ty_signed] in K. rewrite exp_opts in K. specialize (K ltac:(discriminate)).
  change (ty_lo cf TInt) with INT_MIN in K. change (ty_hi cf TInt) with INT_MAX in K.
  destruct (parse_int true (STRNUM_NOSPACE + STRNUM_NOBX) INT_MIN INT_MAX (x :: t)) as [e|v r]; cbn [result_of] in K.
  - rewrite K. destruct e; cbn; auto.
  - destruct K as (a & Ea & _ & ->). exists a. split; auto. cbn [bind pr_err pr_dst pr_src].
    do 3 f_equal. change (subview (rest_of s [c] (x :: t)) (Zlen a) (Zlen r)) with (rest_of (rest_of s [c] (x :: t)) a r).
    rewrite Ea. now rewrite chain.
Qed.

Definition good_comp (m : mem) (s : view) (l : list Z) (t : float_text) (c : components) : Prop :=
  fc_neg c = ft_neg t /\ fc_special c = ft_special t /\ fc_exp c = ft_exp t /\
  opt_view m (fc_int c) (ft_int t) /\ opt_view m (fc_frac c) (ft_frac t) /\
  Forall (fun x => isdig 10 x = true) (ft_int t) /\ Forall (fun x => isdig 10 x = true) (ft_frac t) /\
  (ft_special t = NoSpecial -> INT_MIN <= ft_exp t <= INT_MAX) /\
  exists a, l = a ++ ft_rest t /\ a <> [] /\
    fc_num c = match ft_special t, ft_rest t with
               | NoSpecial, _ => subview s (Zlen a) (Zlen (ft_rest t))
               | _, [] => INVALID
               | _, _ => subview s (Zlen a) (Zlen (ft_rest t))
               end.

Lemma special_ok : forall cf m s l, mem_wf m -> has_view m s l -> strip_word w_infinty l = None ->
  consume_float_special cf m s =
  match strip_word w_inf l, strip_word w_nan l with
  | Some r, _ => Ok (SpInf, match r with [] => INVALID | _ => subview s 3 (Zlen r) end)
  | _, Some r => Ok (SpNan, match r with [] => INVALID | _ => subview s 3 (Zlen r) end)
  | None, None => Ok (NoSpecial, s)
  end.
Proof.
  intros cf m s l Hw Hv Hn. unfold consume_float_special.
  assert (forall w, w = w_infinty \/ w = w_inf \/ w = w_nan ->
    strview_starts_with_nocase cf m s (vlit w) = Ok (match strip_word w l with Some _ => true | None => false end)) as K.
  { intros w Hww. apply starts_word; auto.
    - destruct Hww as [-> | [-> | ->]]; repeat constructor; lia.
    - destruct Hww as [-> | [-> | ->]]; vm_compute; discriminate. }
  change (vlit [105; 110; 102; 105; 110; 116; 121]) with (vlit w_infinty).
  change (vlit [105; 110; 102]) with (vlit w_inf). change (vlit [110; 97; 110]) with (vlit w_nan).
  rewrite !K by auto. rewrite Hn. cbn [bind].
  assert (forall w r, w = w_inf \/ w = w_nan -> strip_word w l = Some r ->
    strview_sub cf m s 3 INT_MAX = Ok (match r with [] => INVALID | _ => subview s 3 (Zlen r) end)) as T.
  { intros w r Hww E. destruct (strip_word_app _ _ _ E) as (a & -> & La).
    assert (Zlen a = 3) as L3 by (unfold Zlen; rewrite La; destruct Hww as [-> | ->]; reflexivity).
    pose proof (sub_tail cf m s a r Hv) as Q. rewrite L3 in Q. rewrite Q.
    - destruct r; auto. unfold rest_of. now rewrite L3.
    - intros ->. discriminate. }
  destruct (strip_word w_inf l) as [r|] eqn:E1; cbn [bind].
  - rewrite (T w_inf r) by auto. reflexivity.
  - destruct (strip_word w_nan l) as [r|] eqn:E2; cbn [bind]; auto.
    rewrite (T w_nan r) by auto. reflexivity.
Qed.

Lemma components_ok : forall cf m s l opt, mem_wf m -> has_view m s l -> ctype_safe cf l ->
  strip_word w_infinty (snd (float_body opt l)) = None ->
  match read_float opt l with
  | FBad e => e <> NoErr /\ exists c, process_float_components cf m s opt = Ok (e, c)
  | FGood t => exists c, process_float_components cf m s opt = Ok (NoErr, c) /\ good_comp m s l t c
  end.
Proof.
  intros cf m s l opt Hw Hv Hc Hni.
  unfold process_float_components. rewrite (has_view_valid _ _ _ Hv). cbn [negb].
  unfold read_float. unfold float_body in *.
  (* spaces *)
  set (l1 := if flag opt STRNUM_NOSPACE then l else snd (span (Z.eqb 32) l)) in *.
  assert (exists a1, l = a1 ++ l1 /\ (if negb (flag opt STRNUM_NOSPACE)
      then strview_trim_start cf m s (vlit [32]) else Ok s) = Ok (rest_of s a1 l1)) as (a1 & El & Et).
  { unfold l1. destruct (flag opt STRNUM_NOSPACE); cbn [negb].
    - exists []. split; auto. now rewrite (rest_nil m s l).
    - destruct (trim_space cf m s l Hv) as (z & E1 & E2). exists z. auto. }
  rewrite Et. cbn [bind]. clearbody l1. subst l.
  pose proof (rest_view _ _ _ _ Hv) as Hv1. pose proof (ctype_safe_app _ _ _ Hc) as Hc1.
  (* sign *)
  set (r := if flag opt STRNUM_NOSIGN then (false, l1) else read_sign l1) in *.
  assert (exists a2, l1 = a2 ++ snd r /\
     (if negb (flag opt STRNUM_NOSIGN) then consume_sign cf m (rest_of s a1 l1) else Ok (false, rest_of s a1 l1))
     = Ok (fst r, rest_of s (a1 ++ a2) (snd r))) as (a2 & El2 & Es).
  { unfold r. destruct (flag opt STRNUM_NOSIGN); cbn [negb fst snd].
    - exists []. split; auto. now rewrite app_nil_r.
    - destruct (sign_ok cf m (rest_of s a1 l1) l1 Hv1) as (z & E1 & E2). exists z. split; auto. rewrite E2.
      rewrite E1 at 2. now rewrite rest_rest. }
  rewrite Es. cbn [bind]. clearbody r. destruct r as [neg l2]. cbn [fst snd] in *. subst l1.
  set (s2 := rest_of s (a1 ++ a2) l2) in *.
  assert (has_view m s2 l2) as Hv2. { apply rest_view. now rewrite <- app_assoc. }
  pose proof (ctype_safe_app _ _ _ Hc1) as Hc2.
  (* special *)
  rewrite (special_ok cf m s2 l2 Hw Hv2 Hni).
  destruct (strip_word w_inf l2) as [r|] eqn:Ei.
  { cbn [bind]. eexists; split; [reflexivity|]. destruct (strip_word_app _ _ _ Ei) as (a & -> & La).
    unfold good_comp. cbn [fc_neg fc_special fc_exp fc_int fc_frac fc_num ft_neg ft_special ft_exp ft_int ft_frac ft_rest].
    repeat (split; [solve [auto | right; auto | discriminate]|]).
    exists (a1 ++ a2 ++ a). split; [now rewrite <- !app_assoc|]. split; [intro X; repeat apply app_eq_nil in X as [_ X]; subst; discriminate|].
    destruct r; auto. unfold s2, rest_of. rewrite subview_subview. f_equal. rewrite !Zlen_app.
    change (length w_inf) with 3%nat in La. unfold Zlen. rewrite La. lia. }
  destruct (strip_word w_nan l2) as [r|] eqn:En.
  { cbn [bind]. eexists; split; [reflexivity|]. destruct (strip_word_app _ _ _ En) as (a & -> & La).
    unfold good_comp. cbn [fc_neg fc_special fc_exp fc_int fc_frac fc_num ft_neg ft_special ft_exp ft_int ft_frac ft_rest].
    repeat (split; [solve [auto | right; auto | discriminate]|]).
    exists (a1 ++ a2 ++ a). split; [now rewrite <- !app_assoc|]. split; [intro X; repeat apply app_eq_nil in X as [_ X]; subst; discriminate|].
    destruct r; auto. unfold s2, rest_of. rewrite subview_subview. f_equal. rewrite !Zlen_app.
    change (length w_nan) with 3%nat in La. unfold Zlen. rewrite La. lia. }
  cbn [bind].
  (* integral digits *)
  destruct (split_digits_ok cf m s2 l2 Hv2 Hc2) as (ip & Eip & Hip & Vip). rewrite Eip. cbn [bind].
  pose proof (span_all (isdig 10) l2) as Fip. pose proof (span_app (isdig 10) l2) as Aip.
  destruct (span (isdig 10) l2) as [di l3]. cbn [fst snd] in *.
  set (s3 := rest_of s2 di l3) in *.
  assert (has_view m s3 l3) as Hv3. { apply rest_view. now rewrite Aip. }
  assert (ctype_safe cf l3) as Hc3. { apply (ctype_safe_app cf di). now rewrite Aip. }
  (* fraction *)
  set (fr := match l3 with 46 :: t => span (isdig 10) t | _ => ([], l3) end).
  assert (exists fp a4, l3 = a4 ++ snd fr /\ Forall (fun x => isdig 10 x = true) (fst fr) /\
     (if v_size s3 =? 0 then Ok (INVALID, s3)
      else let! x := load_byte m (v_data s3) in
           if char_int cf x =? 46 then let! (_, s0) := pop cf m s3 in split_digits cf m s0 else Ok (INVALID, s3))
     = Ok (fp, rest_of s3 a4 (snd fr)) /\ opt_view m fp (fst fr) /\ (strview_is_valid fp = true <-> fst fr <> []) /\
     (fst fr <> [] -> a4 <> [])) as (fp & a4 & E4 & F4 & Ef & Hfp & Vfp & Nfp).
  { rewrite (has_view_size _ _ _ Hv3). destruct l3 as [|x l3].
    - exists INVALID, []. unfold fr. cbn. rewrite (rest_nil m s3 []) by auto. repeat split; auto; try congruence; right; auto.
    - rewrite Zlen_cons. pose proof (Zlen_nonneg l3). zb.
      pose proof Hv3 as (Hb3 & _ & _ & Hf3). inversion Hf3 as [|? ? Hx _]; subst. apply bytes_at_cons in Hb3 as [Hl3 _].
      rewrite Hl3. cbn [bind].
      assert ((char_int cf x =? 46) = (x =? 46)) as ->.
      { unfold char_int, is_byte in *. destruct (c_char_signed cf); cbn [andb]; auto.
        destruct (128 <=? x) eqn:E; auto. zb. reflexivity. }
      destruct (x =? 46) eqn:Ex.
      + apply Z.eqb_eq in Ex. subst x. rewrite (pop_num cf m s3 46 l3); auto. cbn [bind].
        assert (has_view m (rest_of s3 [46] l3) l3) as Hv4 by (apply (rest_view m s3 [46]); auto).
        destruct (split_digits_ok cf m (rest_of s3 [46] l3) l3 Hv4 (ctype_safe_app cf [46] _ Hc3)) as (d & Ed & Hd & Vd).
        exists d, (46 :: fst (span (isdig 10) l3)). unfold fr. split; [|split; [|split; [|split; [|split]]]]; auto; try discriminate.
        * cbn [app]. now rewrite span_app.
        * apply span_all.
        * rewrite Ed. do 2 f_equal. rewrite <- (span_app (isdig 10) l3) at 1. now rewrite chain.
      + assert (fr = ([], x :: l3)) as Efr.
        { unfold fr. apply Z.eqb_neq in Ex. destruct x as [|p|p]; auto.
          repeat (destruct p as [p|p|]; auto). congruence. }
        rewrite Efr. cbn [fst snd]. exists INVALID, []. rewrite (rest_nil m s3 (x :: l3)) by auto. split; [auto|]. split; [auto|]. split; [auto|]. split; [right; auto|]. cbn. split; [split|]; congruence. }
  fold fr. rewrite Ef. cbn [bind].
  destruct fr as [df l4]. cbn [fst snd] in *. subst l3.
  (* no digits *)
  assert ((negb (strview_is_valid ip) && negb (strview_is_valid fp)) = match di, df with [], [] => true | _, _ => false end) as ->.
  { destruct (strview_is_valid ip); destruct (strview_is_valid fp); destruct di; destruct df; cbn; auto.
    all: exfalso; try (apply Vip; auto; fail); try (apply Vfp; auto; fail); try (apply proj2 in Vip; specialize (Vip ltac:(discriminate)); discriminate);
      try (apply proj2 in Vfp; specialize (Vfp ltac:(discriminate)); discriminate). }
  destruct (match di, df with [], [] => true | _, _ => false end) eqn:Ez.
  { assert (di = [] /\ df = []) as [-> ->] by (destruct di, df; try discriminate; auto).
    split; [discriminate|]. eauto. }
  (* exponent *)
  assert (has_view m (rest_of s3 a4 l4) l4) as Hv4 by (apply rest_view; auto).
  pose proof (ctype_safe_app _ _ _ Hc3) as Hc4.
  assert (di ++ a4 <> []) as Hne.
  { intro X. apply app_eq_nil in X as [-> ->]. destruct df as [|x df]; [discriminate|]. apply Nfp; auto. discriminate. }
  assert (forall (b : list Z) (r : list Z) t v e, l4 = b ++ r -> t = FloatText neg NoSpecial di df e r ->
     INT_MIN <= e <= INT_MAX -> v = rest_of (rest_of s3 a4 l4) b r ->
     good_comp m s (a1 ++ a2 ++ l2) t (Comp v neg NoSpecial ip fp e)) as G.
  { intros b r t v e Eb -> He ->. unfold good_comp.
    cbn [fc_neg fc_special fc_exp fc_int fc_frac fc_num ft_neg ft_special ft_exp ft_int ft_frac ft_rest].
    repeat (split; [solve [auto]|]). exists (a1 ++ a2 ++ di ++ a4 ++ b).
    split; [rewrite <- Aip, Eb, <- !app_assoc; reflexivity|]. split.
    - intro X. apply app_eq_nil in X as [_ X]. apply app_eq_nil in X as [_ X]. rewrite app_assoc in X.
      apply app_eq_nil in X as [X _]. auto.
    - unfold s3, s2, rest_of. rewrite !subview_subview. f_equal. rewrite !Zlen_app. lia. }
  assert (match di, df with [], [] => FBad EINVAL | _, _ => match read_exp opt l4 with
      | Bad e => FBad e | Good v r => FGood (FloatText neg NoSpecial di df v r) end end
    = match read_exp opt l4 with
      | Bad e => FBad e | Good v r => FGood (FloatText neg NoSpecial di df v r) end) as ->.
  { destruct di, df; auto; discriminate. }
  assert (l4 = [] ++ l4) as Hnil by reflexivity.
  assert (good_comp m s (a1 ++ a2 ++ l2) (FloatText neg NoSpecial di df 0 l4) (Comp (rest_of s3 a4 l4) neg NoSpecial ip fp 0)) as G0.
  { apply (G [] l4 _ _ 0 Hnil); auto; [unfold INT_MIN, INT_MAX; lia|]. now rewrite (rest_nil m _ l4). }
  assert ((if negb (flag opt STRNUM_NOEXP) then strview_starts_with_nocase cf m (rest_of s3 a4 l4) (vlit [69]) else Ok false)
    = Ok (match l4 with c :: _ => (lower c =? 101) && negb (flag opt STRNUM_NOEXP) | [] => false end)) as ->.
  { destruct (flag opt STRNUM_NOEXP); cbn [negb].
    - destruct l4; auto. now rewrite andb_false_r.
    - destruct (starts_with_nocase_ok cf m (rest_of s3 a4 l4) (vlit [69]) l4 [69]) as (r & E & Hr); auto.
      { unfold vlit. apply lit_view; [constructor; [unfold is_byte; lia|constructor]|vm_compute; discriminate]. }
      rewrite E. f_equal. pose proof Hv4 as (_ & _ & _ & Hb4). apply eq_true_iff_eq. rewrite Hr. destruct l4 as [|c l4].
      + split; [intros [q Hq]; discriminate|discriminate].
      + inversion Hb4; subst. rewrite andb_true_r, lower_upper by (auto; lia). rewrite Z.eqb_eq.
        change (upper 101) with 69. cbn [map]. change (upper 69) with 69. split.
        * intros [q Hq]. cbn [app] in Hq. congruence.
        * intros Hc'. exists (map upper l4). cbn [app]. congruence. }
  cbn [bind]. unfold read_exp. destruct l4 as [|c l5].
  { eauto. }
  destruct ((lower c =? 101) && negb (flag opt STRNUM_NOEXP)).
  - pose proof (exponent_ok cf m (rest_of s3 a4 (c :: l5)) c l5 Hw Hv4 Hc4) as X.
    destruct (parse_int true (STRNUM_NOSPACE + STRNUM_NOBX) INT_MIN INT_MAX l5) as [e|v r] eqn:Ep.
    + destruct e; rewrite X; cbn [bind]; eauto.
      * exfalso. unfold parse_int in Ep. destruct (it_digits _); [discriminate|]. destruct (_ && _); discriminate.
      * split; [discriminate|eauto].
    + destruct X as (b & Eb & ->). cbn [bind]. eexists; split; [reflexivity|].
      apply (G (c :: b) r _ _ v); auto.
      * cbn [app]. congruence.
      * eapply parse_range; eauto.
  - eauto.
Qed.
