(** Proofs about leading white space, error codes and the misspelt infinity of the number parsers. *)
From Verif Require Import Base Mem Libc StrviewModel Spec MemLemmas StrviewProofs StrviewProofs2 StrnumModel NumSpec NumSpec2
  StrnumProofs StrnumProofs2 StrnumProofs3 StrnumFloat StrnumFloatVal NumB0Proofs.

Lemma span_spaces : forall k l, snd (span (Z.eqb 32) (repeat 32 k ++ l)) = snd (span (Z.eqb 32) l).
Proof.
  induction k as [|k IH]; intro l; [reflexivity|]. cbn [repeat app span]. rewrite Z.eqb_refl.
  specialize (IH l). destruct (span (Z.eqb 32) (repeat 32 k ++ l)). exact IH.
Qed.

Lemma read_int_spaces : forall sg opt k l, flag opt STRNUM_NOSPACE = false ->
  read_int_exact sg opt (repeat 32 k ++ l) = read_int_exact sg opt l.
Proof. intros sg opt k l H. unfold read_int_exact. now rewrite H, span_spaces. Qed.
Lemma float_body_spaces : forall opt k l, flag opt STRNUM_NOSPACE = false ->
  float_body opt (repeat 32 k ++ l) = float_body opt l.
Proof. intros opt k l H. unfold float_body. now rewrite H, span_spaces. Qed.
Lemma read_float_spaces : forall opt k l, flag opt STRNUM_NOSPACE = false ->
  read_float_exact opt (repeat 32 k ++ l) = read_float_exact opt l.
Proof. intros opt k l H. unfold read_float_exact, read_float. now rewrite float_body_spaces. Qed.

Lemma ctype_spaces : forall cf k l, ctype_safe cf l -> ctype_safe cf (repeat 32 k ++ l).
Proof.
  intros cf k l [H|[H|H]]; [now left|right; now left|right; right].
  apply Forall_app. split; auto. induction k; cbn; constructor; auto. lia.
Qed.
(** ** Floating point texts, the misspelt word included *)
Lemma misspelt_ok : forall cf A m dst s l opt r, mem_wf m -> has_view m s l ->
  strip_word w_infinty (snd (float_body opt l)) = Some r ->
  exists a, l = a ++ tl r /\ a <> [] /\
    strnum_consume_double cf A m dst (Some s) opt =
    Ok (let t := FloatText (fst (float_body opt l)) SpInf [] [] 0 (tl r) in
        Parsed NoErr (if dst then Some (signed_result A t) else None) (Some (rest_view_of s (Zlen a) t))).
Proof.
  intros cf A m dst s l opt r Hw Hv Hi. unfold strnum_consume_double, process_float_components.
  rewrite (has_view_valid _ _ _ Hv). cbn [negb]. unfold float_body in *.
  set (l1 := if flag opt STRNUM_NOSPACE then l else snd (span (Z.eqb 32) l)) in *.
  assert (exists a1, l = a1 ++ l1 /\ (if negb (flag opt STRNUM_NOSPACE)
      then strview_trim_start cf m s (vlit [32]) else Ok s) = Ok (rest_of s a1 l1)) as (a1 & El & Et).
  { unfold l1. destruct (flag opt STRNUM_NOSPACE); cbn [negb].
    - exists []. split; auto. now rewrite (rest_nil m s l).
    - destruct (trim_space cf m s l Hv) as (z & E1 & E2). exists z. auto. }
  rewrite Et. cbn [bind]. clearbody l1. subst l.
  pose proof (rest_view _ _ _ _ Hv) as Hv1.
  set (q := if flag opt STRNUM_NOSIGN then (false, l1) else read_sign l1) in *.
  assert (exists a2, l1 = a2 ++ snd q /\
     (if negb (flag opt STRNUM_NOSIGN) then consume_sign cf m (rest_of s a1 l1) else Ok (false, rest_of s a1 l1))
     = Ok (fst q, rest_of s (a1 ++ a2) (snd q))) as (a2 & El2 & Es).
  { unfold q. destruct (flag opt STRNUM_NOSIGN); cbn [negb fst snd].
    - exists []. split; auto. now rewrite app_nil_r.
    - destruct (sign_ok cf m (rest_of s a1 l1) l1 Hv1) as (z & E1 & E2). exists z. split; auto. rewrite E2.
      rewrite E1 at 2. now rewrite rest_rest. }
  rewrite Es. cbn [bind]. clearbody q. destruct q as [neg l2]. cbn [fst snd] in *. subst l1.
  set (s2 := rest_of s (a1 ++ a2) l2) in *.
  assert (has_view m s2 l2) as Hv2. { apply rest_view. now rewrite <- app_assoc. }
  unfold consume_float_special.
  change (vlit [105; 110; 102; 105; 110; 116; 121]) with (vlit w_infinty).
  rewrite (starts_word cf m s2 l2 w_infinty Hw Hv2); [|repeat constructor; lia|vm_compute; discriminate].
  rewrite Hi. cbn [bind].
  destruct (strip_word_app _ _ _ Hi) as (w & -> & Lw). change (length w_infinty) with 7%nat in Lw.
  assert (exists w', w ++ r = w' ++ tl r /\ w' <> [] /\
    strview_sub cf m s2 8 INT_MAX = Ok (match tl r with [] => INVALID | _ => rest_of s2 w' (tl r) end)) as (w' & Ew & Nw & ->).
  { destruct r as [|c r]; cbn [tl].
    - exists w. split; auto. split; [intros ->; discriminate|]. rewrite app_nil_r in Hv2.
      pose proof Hv2 as (_ & _ & Hl & _).
      apply (sub_out cf m s2 w); auto; try (unfold INT_MIN, INT_MAX in *; lia).
      + intros ->; discriminate.
      + unfold py_in, py_index, Zlen. rewrite Lw. cbn. lia.
    - exists (w ++ [c]). split; [now rewrite <- app_assoc|]. split; [intro X; apply app_eq_nil in X as [_ X]; discriminate|].
      assert (Zlen (w ++ [c]) = 8) as L8 by (unfold Zlen; rewrite app_length, Lw; reflexivity).
      rewrite <- L8. apply sub_tail; [now rewrite <- app_assoc|]. intro X; apply app_eq_nil in X as [_ X]; discriminate. }
  cbn [bind finish_float fc_special fc_num fc_neg].
  exists (a1 ++ a2 ++ w'). split; [now rewrite <- !app_assoc, Ew|]. split.
  { intro X. apply app_eq_nil in X as [_ X]. apply app_eq_nil in X as [_ X]. auto. }
  cbv zeta. unfold signed_result, float_result, rest_view_of. cbn [ft_special ft_rest ft_neg].
  do 3 f_equal. destruct (tl r); auto. unfold s2, rest_of. rewrite subview_subview. do 2 f_equal. rewrite !Zlen_app. lia.
Qed.

Lemma float_ok_exact : forall cf A m dst s l opt, mem_wf m -> has_view m s l -> ctype_safe cf l ->
  match read_float_exact opt l with
  | FBad e => e <> NoErr /\ strnum_consume_double cf A m dst (Some s) opt = Ok (Parsed e None None)
  | FGood t => exists a, l = a ++ ft_rest t /\ a <> [] /\
      strnum_consume_double cf A m dst (Some s) opt =
      Ok (if float_over A t then Parsed ERANGE None None
          else Parsed NoErr (if dst then Some (signed_result A t) else None) (Some (rest_view_of s (Zlen a) t)))
  end.
Proof.
  intros cf A m dst s l opt Hw Hv Hc. unfold read_float_exact.
  destruct (strip_word w_infinty (snd (float_body opt l))) as [r|] eqn:E.
  - destruct (misspelt_ok cf A m dst s l opt r Hw Hv E) as (a & E1 & E2 & E3). exists a. cbn [ft_rest]. auto.
  - destruct (float_ok cf A m dst s l opt Hw Hv Hc E) as [_ K]. destruct (read_float opt l); auto.
    destruct K as (a & K1 & K2 & _ & _ & K3). exists a. auto.
Qed.

(** The views left by two successful parses show the same text. *)
Definition same_rest (m : mem) (a b : option view) : Prop :=
  match a, b with
  | Some x, Some y => x = INVALID /\ y = INVALID \/ exists rest, has_view m x rest /\ has_view m y rest
  | None, None => True
  | _, _ => False
  end.

Lemma int_spaces : forall cf t f m s1 s2 k l opt, consumer cf t = Some f ->
  mem_wf m -> has_view m s1 (repeat 32 k ++ l) -> has_view m s2 l -> ctype_safe cf l ->
  flag opt STRNUM_NOSPACE = false ->
  exists e v r1 r2, f m true (Some s1) opt = Ok (Parsed e v r1) /\ f m true (Some s2) opt = Ok (Parsed e v r2)
    /\ same_rest m r1 r2.
Proof.
  intros cf t f m s1 s2 k l opt Hf Hw H1 H2 Hc Hn.
  pose proof (consumer_ok_x cf m s1 _ opt Hw H1 (ctype_spaces cf k l Hc) t f true Hf) as K1.
  pose proof (consumer_ok_x cf m s2 _ opt Hw H2 Hc t f true Hf) as K2.
  unfold parse_int_exact in K1, K2. rewrite (read_int_spaces _ opt k l Hn) in K1.
  set (x := read_int_exact (ty_signed t) opt l) in *.
  destruct (match it_digits x with [] => Bad EINVAL | _ =>
    if (ty_lo cf t <=? int_value x) && (int_value x <=? ty_hi cf t)
    then Good (int_value x) (it_rest x) else Bad ERANGE end) as [e|v rest];
  cbn [result_of] in K1, K2.
  - exists e, None, None, None. split; [exact K1|]. split; [exact K2|]. exact I.
  - destruct K1 as (a1 & E1 & _ & K1). destruct K2 as (a2 & E2 & _ & K2).
    eexists NoErr, (Some v), _, _. split; [exact K1|]. split; [exact K2|]. right. exists rest.
    rewrite E1 in H1. rewrite E2 in H2. split; now apply has_view_suffix.
Qed.

Lemma rest_same : forall m s1 s2 a1 a2 t, has_view m s1 (a1 ++ ft_rest t) -> has_view m s2 (a2 ++ ft_rest t) ->
  same_rest m (Some (rest_view_of s1 (Zlen a1) t)) (Some (rest_view_of s2 (Zlen a2) t)).
Proof.
  intros m s1 s2 a1 a2 t H1 H2. apply has_view_suffix in H1, H2. unfold same_rest, rest_view_of.
  destruct (ft_special t); [right; eauto| |]; (destruct (ft_rest t); [left; auto|right; eauto]).
Qed.

Lemma float_spaces : forall cf A f m s1 s2 k l opt,
  (f = strnum_consume_float cf A \/ f = strnum_consume_double cf A) ->
  mem_wf m -> has_view m s1 (repeat 32 k ++ l) -> has_view m s2 l -> ctype_safe cf l ->
  flag opt STRNUM_NOSPACE = false ->
  exists e v r1 r2, f m true (Some s1) opt = Ok (Parsed e v r1) /\ f m true (Some s2) opt = Ok (Parsed e v r2)
    /\ same_rest m r1 r2.
Proof.
  intros cf A f m s1 s2 k l opt Hf Hw H1 H2 Hc Hn.
  assert (forall s, f m true (Some s) opt = strnum_consume_double cf A m true (Some s) opt) as E by (intro s; destruct Hf as [-> | ->]; reflexivity).
  rewrite !E.
  pose proof (float_ok_exact cf A m true s1 _ opt Hw H1 (ctype_spaces cf k l Hc)) as K1.
  pose proof (float_ok_exact cf A m true s2 _ opt Hw H2 Hc) as K2.
  rewrite (read_float_spaces opt k l Hn) in K1. destruct (read_float_exact opt l) as [e|t].
  - destruct K1 as [_ K1]. destruct K2 as [_ K2]. exists e, None, None, None. rewrite K1, K2. cbn. auto.
  - destruct K1 as (a1 & E1 & _ & K1). destruct K2 as (a2 & E2 & _ & K2). rewrite K1, K2.
    destruct (float_over A t).
    + exists ERANGE, None, None, None. cbn. auto.
    + eexists NoErr, (Some (signed_result A t)), _, _. split; [reflexivity|]. split; [reflexivity|].
      apply rest_same; [now rewrite <- E1|now rewrite <- E2].
Qed.

(** ** A first character that is neither space, sign, digit, point nor a letter *)
Definition no_start (c : Z) : Prop := 0 <= c < 128 /\ c <> 43 /\ c <> 45 /\ c <> 46 /\ alnum c = false.

Lemma no_start_digit : forall base c, no_start c -> isdig base c = false.
Proof.
  intros base c (_ & _ & _ & _ & H). unfold alnum in H. unfold isdig.
  destruct ((48 <=? c) && (c <=? 57)) eqn:E1; [discriminate|].
  destruct ((65 <=? c) && (c <=? 70)) eqn:E2.
  { apply andb_true_iff in E2 as [A B]. apply Z.leb_le in A. apply Z.leb_le in B.
    rewrite (proj2 (Z.leb_le 65 c)), (proj2 (Z.leb_le c 90)) in H by lia. discriminate. }
  destruct ((97 <=? c) && (c <=? 102)) eqn:E3; [|reflexivity].
  apply andb_true_iff in E3 as [A B]. apply Z.leb_le in A. apply Z.leb_le in B.
  rewrite (proj2 (Z.leb_le 97 c)), (proj2 (Z.leb_le c 122)) in H by lia.
  cbn [andb] in H. rewrite orb_true_r in H. discriminate.
Qed.
Lemma no_start_skip : forall opt c l, (c <> 32 \/ flag opt STRNUM_NOSPACE = true) ->
  (if flag opt STRNUM_NOSPACE then c :: l else snd (span (Z.eqb 32) (c :: l))) = c :: l.
Proof.
  intros opt c l Hs. destruct (flag opt STRNUM_NOSPACE); auto. destruct Hs as [Hs|Hs]; [|discriminate]. cbn [span].
  now rewrite (proj2 (Z.eqb_neq 32 c)) by auto.
Qed.
Lemma no_start_read : forall sg opt c l, no_start c -> (c <> 32 \/ flag opt STRNUM_NOSPACE = true) ->
  it_digits (read_int_exact sg opt (c :: l)) = [].
Proof.
  intros sg opt c l H Hs. pose proof H as (H0 & H1 & H2 & H3 & H4). unfold read_int_exact. rewrite (no_start_skip opt c l Hs).
  assert ((if sg && negb (flag opt STRNUM_NOSIGN) then read_sign (c :: l) else (false, c :: l)) = (false, c :: l)) as ->.
  { destruct (sg && negb (flag opt STRNUM_NOSIGN)); auto. unfold read_sign.
    now rewrite (proj2 (Z.eqb_neq c 45)), (proj2 (Z.eqb_neq c 43)) by auto. }
  assert (c <> 48) as H48 by (intros ->; discriminate H4).
  assert (read_prefix opt (c :: l) = (opt_base opt, c :: l)) as ->.
  { unfold read_prefix. destruct l as [|b l]; auto. now rewrite (proj2 (Z.eqb_neq c 48)) by auto. }
  cbn [span]. assert (is_read_digit (opt_base opt) c = false) as ->; [|reflexivity].
  unfold is_read_digit. assert (read_digit (opt_base opt) c = c) as ->.
  { unfold read_digit. destruct (opt_base opt =? 2); auto. now rewrite (proj2 (Z.eqb_neq c 176)), (proj2 (Z.eqb_neq c 177)) by lia. }
  now apply no_start_digit.
Qed.

Lemma no_start_int : forall cf t f m s c l opt, consumer cf t = Some f -> mem_wf m -> has_view m s (c :: l) ->
  ctype_safe cf (c :: l) -> no_start c -> (c <> 32 \/ flag opt STRNUM_NOSPACE = true) ->
  f m true (Some s) opt = Ok (Parsed EINVAL None None).
Proof.
  intros cf t f m s c l opt Hf Hw Hv Hc H Hs.
  pose proof (consumer_ok_x cf m s _ opt Hw Hv Hc t f true Hf) as K. unfold parse_int_exact in K.
  rewrite (no_start_read (ty_signed t) opt c l H Hs) in K. exact K.
Qed.

Lemma no_start_float : forall opt c l, no_start c -> (c <> 32 \/ flag opt STRNUM_NOSPACE = true) ->
  read_float_exact opt (c :: l) = FBad EINVAL.
Proof.
  intros opt c l H Hs. pose proof H as (H0 & H1 & H2 & H3 & H4). unfold read_float_exact, read_float.
  assert (float_body opt (c :: l) = (false, c :: l)) as ->.
  { unfold float_body. rewrite (no_start_skip opt c l Hs). destruct (flag opt STRNUM_NOSIGN); auto. unfold read_sign.
    now rewrite (proj2 (Z.eqb_neq c 45)), (proj2 (Z.eqb_neq c 43)) by auto. }
  cbn [fst snd].
  assert (forall x w, 97 <= x <= 122 -> strip_word (x :: w) (c :: l) = None) as W.
  { intros x w Hx. cbn [strip_word]. rewrite (proj2 (Z.eqb_neq (lower c) x)); auto. intro E.
    unfold lower in E. unfold alnum in H4. destruct ((65 <=? c) && (c <=? 90)) eqn:Ec.
    - rewrite orb_true_r in H4. discriminate.
    - subst x. rewrite (proj2 (Z.leb_le 97 c)), (proj2 (Z.leb_le c 122)) in H4 by lia. rewrite orb_true_r in H4. discriminate. }
  unfold w_infinty, w_inf, w_nan. rewrite !W by lia. cbn [span]. rewrite (no_start_digit 10 c H).
  destruct c as [|p|p]; auto. repeat (destruct p as [p|p|]; auto). congruence.
Qed.

(** ** Errors of the floating point parsers *)
Lemma exp_errors : forall opt l e, read_exp opt l = Bad e ->
  e = ERANGE /\ exists c t, l = c :: t /\ (c = 101 \/ c = 69) /\ flag opt STRNUM_NOEXP = false /\
    let x := read_int true (STRNUM_NOSPACE + STRNUM_NOBX) t in
    it_digits x <> [] /\ ~ (INT_MIN <= int_value x <= INT_MAX).
Proof.
  intros opt l e H. unfold read_exp in H. destruct l as [|c t]; [discriminate|].
  destruct ((lower c =? 101) && negb (flag opt STRNUM_NOEXP)) eqn:E; [|discriminate].
  apply andb_true_iff in E as [E1 E2]. apply Z.eqb_eq in E1. apply negb_true_iff in E2.
  unfold parse_int in H. set (x := read_int true (STRNUM_NOSPACE + STRNUM_NOBX) t) in *.
  destruct (it_digits x) as [|d ds] eqn:Ed; [discriminate|].
  destruct ((INT_MIN <=? int_value x) && (int_value x <=? INT_MAX)) eqn:Er; [discriminate|].
  injection H as <-. split; auto. exists c, t. split; auto. split.
  { unfold lower in E1. destruct ((65 <=? c) && (c <=? 90)); [right|left]; lia. }
  split; auto. cbv zeta. fold x. split; [rewrite Ed; discriminate|]. lia.
Qed.

Lemma read_float_errors : forall opt l e, read_float_exact opt l = FBad e ->
  e = EINVAL \/ e = ERANGE /\ exponent_out_of_range opt l.
Proof.
  intros opt l e H. unfold read_float_exact in H.
  destruct (strip_word w_infinty (snd (float_body opt l))); [discriminate|]. unfold read_float in H.
  assert (exists a, l = a ++ snd (float_body opt l)) as [a Ea].
  { unfold float_body. set (l1 := if flag opt STRNUM_NOSPACE then l else snd (span (Z.eqb 32) l)).
    assert (exists a, l = a ++ l1) as [a1 E1].
    { unfold l1. destruct (flag opt STRNUM_NOSPACE); [exists []; auto|apply span_suffix]. }
    clearbody l1. destruct (flag opt STRNUM_NOSIGN); [exists a1; auto|]. unfold read_sign.
    destruct l1 as [|x t]; [exists a1; auto|].
    destruct (x =? 45); [exists (a1 ++ [x]); now rewrite <- app_assoc|].
    destruct (x =? 43); [exists (a1 ++ [x]); now rewrite <- app_assoc|exists a1; auto]. }
  destruct (float_body opt l) as [neg l2]. cbn [snd] in Ea.
  destruct (strip_word w_inf l2); [discriminate|]. destruct (strip_word w_nan l2); [discriminate|].
  pose proof (span_app (isdig 10) l2) as S1. destruct (span (isdig 10) l2) as [ip l3]. cbn [fst snd] in S1.
  set (fr := match l3 with 46 :: t => span (isdig 10) t | _ => ([], l3) end) in *.
  assert (exists a4, l3 = a4 ++ snd fr) as [a4 E4].
  { unfold fr. destruct l3 as [|x l3]; [exists []; auto|].
    destruct (Z.eq_dec x 46) as [-> |N].
    - exists (46 :: fst (span (isdig 10) l3)). cbn [app]. now rewrite span_app.
    - exists []. destruct x as [|p|p]; auto. repeat (destruct p as [p|p|]; auto). congruence. }
  destruct fr as [fp l4]. cbn [snd] in E4.
  assert (e = EINVAL \/ read_exp opt l4 = Bad e) as [-> |K].
  { destruct ip, fp; try (injection H as <-; auto); destruct (read_exp opt l4); try discriminate; injection H as <-; auto. }
  - auto.
  - destruct (exp_errors opt l4 e K) as (-> & c & t & -> & K1 & K2 & K3). right. split; auto.
    exists (a ++ ip ++ a4), c, t. split; [|auto]. rewrite Ea, <- S1, E4, <- !app_assoc. reflexivity.
Qed.

Lemma float_errors : forall cf A m dst s l opt, mem_wf m -> has_view m s l -> ctype_safe cf l ->
  exists e v r, strnum_consume_double cf A m dst (Some s) opt = Ok (Parsed e v r)
    /\ (e = NoErr \/ e = EINVAL \/ e = ERANGE)
    /\ (e = EINVAL <-> read_float_exact opt l = FBad EINVAL)
    /\ (e = ERANGE <-> read_float_exact opt l = FBad ERANGE
                    \/ exists t, read_float_exact opt l = FGood t /\ float_over A t = true)
    /\ (read_float_exact opt l = FBad ERANGE -> exponent_out_of_range opt l).
Proof.
  intros cf A m dst s l opt Hw Hv Hc. pose proof (float_ok_exact cf A m dst s l opt Hw Hv Hc) as K.
  pose proof (read_float_errors opt l) as R.
  destruct (read_float_exact opt l) as [e|t].
  - destruct K as [N K]. exists e, None, None. split; [exact K|].
    destruct (R e eq_refl) as [-> |[-> X]].
    + split; [auto|]. split; [split; auto|]. split; [|discriminate]. split; [discriminate|].
      intros [H|(t & H & _)]; discriminate.
    + split; [auto|]. split; [split; discriminate|]. split; [split; auto|auto].
  - destruct K as (a & _ & _ & K). destruct (float_over A t) eqn:E.
    + eexists _, _, _. split; [exact K|]. split; [auto|]. split; [split; discriminate|]. split; [|discriminate].
      split; auto. right. exists t. auto.
    + eexists _, _, _. split; [exact K|]. split; [auto|]. split; [split; discriminate|]. split; [|discriminate].
      split; [discriminate|]. intros [H|(t' & H & Ho)]; [discriminate|]. injection H as <-. congruence.
Qed.
