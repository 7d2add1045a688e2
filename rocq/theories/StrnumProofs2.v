(** The integer parsers meet their specification. *)
From Verif Require Import Base Mem Libc StrviewModel StrnumModel Spec NumSpec MemLemmas
  StrviewProofs StrviewProofs2 StrviewProofs3 StrnumProofs.

Lemma span_app : forall p l, fst (span p l) ++ snd (span p l) = l.
Proof. intros p; induction l as [|x l IH]; cbn; auto. destruct (p x); cbn; auto. destruct (span p l); cbn in *; congruence. Qed.
Lemma span_all : forall p l, Forall (fun x => p x = true) (fst (span p l)).
Proof. intros p; induction l as [|x l IH]; cbn; auto. destruct (p x) eqn:E; cbn; auto. destruct (span p l); cbn in *; auto. Qed.
Lemma span_head : forall p l, headb p (snd (span p l)) = false.
Proof. intros p; induction l as [|x l IH]; cbn; auto. destruct (p x) eqn:E; cbn; auto. destruct (span p l); cbn in *; auto. Qed.
Lemma span_unique : forall p a b, Forall (fun x => p x = true) a -> headb p b = false -> span p (a ++ b) = (a, b).
Proof.
  intros p; induction a as [|x a IH]; intros b Ha Hb; cbn.
  - destruct b as [|y b]; cbn in *; auto. now rewrite Hb.
  - inversion Ha; subst. rewrite H1. now rewrite IH.
Qed.
Lemma span_nil : forall p l, headb p l = false -> span p l = ([], l).
Proof. intros p [|x l] H; cbn in *; auto. now rewrite H. Qed.
Lemma span_cons_nonnil : forall p l, headb p l = true -> fst (span p l) <> [].
Proof. intros p [|x l] H; cbn in *; [discriminate|]. rewrite H. destruct (span p l); cbn; congruence. Qed.

Lemma span_prefix : forall p a b, Forall (fun x => p x = true) a -> span p (a ++ b) = (a ++ fst (span p b), snd (span p b)).
Proof.
  intros p; induction a as [|x a IH]; intros b Ha; cbn.
  - now destruct (span p b).
  - inversion Ha; subst. rewrite H1, IH; auto.
Qed.

Lemma trim_space : forall cf m s l, has_view m s l -> exists z,
  l = z ++ snd (span (Z.eqb 32) l) /\
  strview_trim_start cf m s (vlit [32]) = Ok (rest_of s z (snd (span (Z.eqb 32) l))).
Proof.
  intros cf m s l H. destruct (trim_char cf m s l 32) as (z & b & -> & Hz & Hb & E); auto.
  { unfold is_byte; lia. }
  exists z. rewrite (span_unique (Z.eqb 32) z b); cbn; auto.
  eapply Forall_impl; [|exact Hz]. intros x ->. reflexivity.
Qed.

Lemma sign_ok : forall cf m s l, has_view m s l -> exists a,
  l = a ++ snd (read_sign l) /\
  consume_sign cf m s = Ok (fst (read_sign l), rest_of s a (snd (read_sign l))).
Proof.
  intros cf m s l H. unfold consume_sign. rewrite (has_view_size _ _ _ H).
  destruct l as [|x l].
  - exists []. cbn. split; auto. now rewrite (rest_nil m s []).
  - rewrite Zlen_cons. pose proof (Zlen_nonneg l). zb.
    pose proof H as (Hb & _ & _ & Hf). inversion Hf; subst. apply bytes_at_cons in Hb as [Hl _]. rewrite Hl. cbn [bind].
    assert (forall c, 0 <= c < 128 -> (char_int cf x =? c) = (x =? c)) as Hx.
    { intros c Hc. unfold char_int, is_byte in *. destruct (c_char_signed cf); cbn [andb]; auto.
      destruct (128 <=? x) eqn:E; auto. zb. reflexivity. }
    rewrite !Hx by lia. cbn [read_sign]. destruct (x =? 45) eqn:E1.
    + rewrite (pop_num cf m s x l); auto. exists [x]; auto.
    + destruct (x =? 43) eqn:E2.
      * rewrite (pop_num cf m s x l); auto. exists [x]; auto.
      * exists []. cbn. split; auto. now rewrite (rest_nil m s (x :: l)).
Qed.

Lemma upper_is : forall x c, is_byte x -> (c = 98 \/ c = 120) -> upper x = upper c <-> (x = c \/ x = c - 32).
Proof.
  intros x c Hx [-> | ->].
  - by_bytes (fun x => eqb (upper x =? upper 98) ((x =? 98) || (x =? 98 - 32))).
    apply eqb_prop in H. rewrite <- Z.eqb_eq, H, orb_true_iff, !Z.eqb_eq. tauto.
  - by_bytes (fun x => eqb (upper x =? upper 120) ((x =? 120) || (x =? 120 - 32))).
    apply eqb_prop in H. rewrite <- Z.eqb_eq, H, orb_true_iff, !Z.eqb_eq. tauto.
Qed.
Lemma upper_48 : forall x, is_byte x -> upper x = upper 48 <-> x = 48.
Proof.
  intros x Hx.
  by_bytes (fun x => eqb (upper x =? upper 48) (x =? 48)).
  apply eqb_prop in H. rewrite <- Z.eqb_eq, H, !Z.eqb_eq. tauto.
Qed.

(** Matching the first two characters of the text with a prefix literal. *)
Lemma match_prefix : forall cf m s l c, mem_wf m -> has_view m s l -> (c = 98 \/ c = 120) ->
  exists p, strview_sub cf m s 0 2 = Ok p /\
  strview_is_match_nocase cf m p (vlit [48; c]) =
  Ok (match l with z :: b :: _ => (z =? 48) && ((b =? c) || (b =? c - 32)) | _ => false end).
Proof.
  intros cf m s l c Hw Hv Hc.
  assert (has_view m (vlit [48; c]) [48; c]) as Hlit.
  { unfold vlit. apply lit_view; [|vm_compute; discriminate].
    constructor; [unfold is_byte; lia|]. constructor; [unfold is_byte; lia|constructor]. }
  assert (forall p l1, has_view m p l1 -> strview_is_match_nocase cf m p (vlit [48; c]) =
    Ok (match l1 with [z; b] => (z =? 48) && ((b =? c) || (b =? c - 32)) | _ => false end)) as M.
  { intros p l1 Hp. destruct (is_match_nocase_ok cf m p (vlit [48; c]) l1 [48; c]) as (r & E & Hr); auto.
    rewrite E. f_equal. pose proof Hp as (_ & _ & _ & Hf). destruct l1 as [|z [|b [|y t]]].
    - destruct r; auto. apply proj1 in Hr. specialize (Hr eq_refl). discriminate.
    - destruct r; auto. apply proj1 in Hr. specialize (Hr eq_refl). discriminate.
    - inversion Hf as [|? ? Hz Hf2]; subst. inversion Hf2 as [|? ? Hb _]; subst.
      apply eq_true_iff_eq. rewrite Hr. cbn [map]. rewrite andb_true_iff, orb_true_iff, !Z.eqb_eq.
      split.
      + intro Eq. assert (upper z = upper 48) as Eq1 by congruence. assert (upper b = upper c) as Eq2 by congruence.
        split; [now apply upper_48|now apply upper_is].
      + intros [Eq1 Eq2]. rewrite (proj2 (upper_48 z Hz) Eq1), (proj2 (upper_is b c Hb Hc) Eq2). reflexivity.
    - destruct r; auto. apply proj1 in Hr. specialize (Hr eq_refl). discriminate. }
  destruct l as [|z [|b t]].
  - exists s. rewrite (sub_empty cf m s 0 2); auto. split; auto. now rewrite (M s []).
  - destruct (sub_ok cf m s [z] 0 2 Hv) as (x & y & w & E & Ex & Ey & Es & Hy); try (unfold INT_MIN, INT_MAX; lia); try discriminate.
    { vm_compute. repeat split; discriminate. }
    change (Zlen [z]) with 1 in *. cbn in Ex, Ey. apply Zlen_0 in Ex. subst x. cbn [app] in E.
    rewrite Zlen_nil in *. assert (Zlen y = 1) as Ly by lia.
    destruct y as [|y1 y]; [cbn in Ly; lia|]. rewrite Zlen_cons in Ly. assert (Zlen y = 0) as Ly0 by lia. apply Zlen_0 in Ly0. subst y.
    cbn [app] in E. injection E as <- <-.
    exists (subview s 0 (Zlen [z])). split; [exact Es|exact (M _ [z] Hy)].
  - destruct (sub_ok cf m s (z :: b :: t) 0 2 Hv) as (x & y & w & E & Ex & Ey & Es & Hy); try (unfold INT_MIN, INT_MAX; lia); try discriminate.
    { unfold py_in, py_index. rewrite !Zlen_cons. pose proof (Zlen_nonneg t). cbn. lia. }
    unfold py_index in Ex, Ey. cbn in Ex. apply Zlen_0 in Ex. subst x. cbn [app] in E.
    rewrite Zlen_nil in *. rewrite !Zlen_cons in Ey. pose proof (Zlen_nonneg t).
    assert (Zlen y = 2) as Ly by (cbn in Ey; lia).
    destruct y as [|y1 [|y2 y]]; try (cbn in Ly; lia). rewrite !Zlen_cons in Ly.
    assert (Zlen y = 0) as Ly0 by lia. apply Zlen_0 in Ly0. subst y.
    cbn [app] in E. injection E as <- <- <-.
    exists (subview s 0 (Zlen [z; b])). split; [exact Es|exact (M _ [z; b] Hy)].
Qed.

Lemma sub_2 : forall cf m s z b t, has_view m s (z :: b :: t) ->
  strview_sub cf m s 2 INT_MAX = Ok (match t with [] => INVALID | _ => rest_of s [z; b] t end).
Proof.
  intros cf m s z b t H. destruct t as [|x t].
  - apply (sub_out cf m s [z; b]); try discriminate; auto; try (unfold INT_MIN, INT_MAX; lia).
    unfold py_in. vm_compute. intros (_ & Hc & _). discriminate.
  - apply (sub_from cf m s [z; b] (x :: t)); auto. discriminate.
Qed.

Lemma prefix_ok : forall cf m s l opt, mem_wf m -> has_view m s l -> exists a s',
  l = a ++ snd (read_prefix opt l) /\
  consume_base_prefix cf m (start_base opt) s opt = Ok (fst (read_prefix opt l), s') /\
  (s' = rest_of s a (snd (read_prefix opt l)) \/ (snd (read_prefix opt l) = [] /\ s' = INVALID)).
Proof.
  intros cf m s l opt Hw Hv. unfold consume_base_prefix.
  destruct (match_prefix cf m s l 98) as (p & Ep & Mb); auto.
  destruct (match_prefix cf m s l 120) as (p' & Ep' & Mx); auto.
  rewrite Ep in Ep'. injection Ep' as <-. rewrite Ep. cbn [bind].
  change (start_base opt) with (opt_base opt).
  assert (exists a s', l = a ++ l /\ Ok (opt_base opt, s) = Ok (opt_base opt, s') /\ (s' = rest_of s a l \/ (l = [] /\ s' = INVALID))) as D.
  { exists [], s. repeat split; auto. left. now rewrite (rest_nil m s l). }
  rewrite Mb, Mx. destruct l as [|z [|b t]]; cbn [read_prefix].
  - cbn [fst snd]. destruct (flag opt STRNUM_NOBX), (flag opt STRNUM_BASE_HEX), (flag opt STRNUM_BASE_BIN); cbn [negb bind]; exact D.
  - cbn [fst snd]. destruct (flag opt STRNUM_NOBX), (flag opt STRNUM_BASE_HEX), (flag opt STRNUM_BASE_BIN); cbn [negb bind]; exact D.
  - change (98 - 32) with 66. change (120 - 32) with 88.
    rewrite (sub_2 cf m s z b t); auto.
    assert (forall k : Z, exists a s', z :: b :: t = a ++ t /\
      (let! s0 := Ok match t with [] => INVALID | _ :: _ => rest_of s [z; b] t end in Ok (k, s0)) = Ok (k, s') /\
      (s' = rest_of s a t \/ t = [] /\ s' = INVALID)) as D2.
    { intro k. exists [z; b], (match t with [] => INVALID | _ :: _ => rest_of s [z; b] t end).
      repeat split; auto. destruct t; auto. }
    destruct (flag opt STRNUM_NOBX), (flag opt STRNUM_BASE_HEX), (flag opt STRNUM_BASE_BIN); cbn [negb bind];
      rewrite ?andb_false_r, ?andb_true_r; cbn [fst snd];
      destruct ((z =? 48) && ((b =? 98) || (b =? 66))); cbn [fst snd bind]; try exact D; try apply D2;
      destruct ((z =? 48) && ((b =? 120) || (b =? 88))); cbn [fst snd bind]; try exact D; try apply D2.
Qed.

Lemma prefix_base : forall opt l, base_ok (fst (read_prefix opt l)).
Proof.
  intros. unfold base_ok. unfold read_prefix, opt_base.
  destruct l as [|z [|b t]];
  repeat match goal with |- context[if ?c then _ else _] => destruct c end; cbn [fst]; auto.
Qed.

Lemma base_pos : forall b, base_ok b -> 2 <= b.
Proof. intros b [-> | [-> | ->]]; lia. Qed.

Lemma digits_ok : forall cf m s l base, ctype_safe cf l -> (base = 2 -> no_b0 l) -> base_ok base ->
  (has_view m s l \/ (l = [] /\ s = INVALID)) ->
  let (ds, rest) := span (isdig base) l in
  exists e v s', consume_digits cf m s base = Ok (e, v, s') /\
    (ds = [] -> e = EINVAL) /\
    (ds <> [] -> ULLONG_MAX < num_val base ds -> e = ERANGE) /\
    (ds <> [] -> num_val base ds <= ULLONG_MAX -> e = NoErr /\ v = num_val base ds /\ s' = rest_of s ds rest).
Proof.
  intros cf m s l base Hc Hn Hb [Hv|[-> ->]].
  2:{ cbn. exists EINVAL, 0, INVALID. split; [|repeat split; congruence].
      destruct Hb as [-> | [-> | ->]]; reflexivity. }
  destruct (consume_digits_ok cf m s l base) as [H1 H2]; auto.
  destruct (headb (isdig base) l) eqn:Eh.
  - destruct (H1 eq_refl) as (a & b & e & v & E & -> & Fa & Ev & Bv & S).
    pose proof (base_pos _ Hb) as Hbp.
    rewrite (span_prefix (isdig base) a b Fa).
    destruct S as [[-> Hh] | (-> & d & b' & -> & Hd & Ho)].
    + rewrite (span_nil _ b Hh). cbn [fst snd]. rewrite app_nil_r.
      exists NoErr, v, (rest_of s a b). split; auto. rewrite <- Ev. split; [|split].
      * intros ->. cbn in *. congruence.
      * lia.
      * auto.
    + pose proof (span_all (isdig base) (d :: b')) as Fs. pose proof (span_app (isdig base) (d :: b')) as As.
      set (x := fst (span (isdig base) (d :: b'))) in *.
      assert (exists x', x = d :: x') as [x' Ex].
      { unfold x. cbn [span]. rewrite Hd. destruct (span (isdig base) b'); cbn. eauto. }
      exists ERANGE, v, (rest_of s a (d :: b')). split; auto. split; [|split].
      * rewrite Ex. intro Hx. destruct a; discriminate.
      * auto.
      * intros _ Hle. exfalso. rewrite num_acc, acc_app, <- num_acc, <- Ev, Ex in Hle.
        rewrite Ex in Fs. apply Forall_inv_tail in Fs. cbn [acc_val fold_left] in Hle.
        pose proof (isdig_dval _ _ Hd).
        pose proof (acc_nonneg base x' (v * base + dval d)) as G. unfold acc_val in G.
        specialize (G ltac:(lia) ltac:(nia) Fs). lia.
  - rewrite (span_nil _ l Eh). rewrite (H2 eq_refl). exists EINVAL, 0, s. repeat split; auto; congruence.
Qed.

(** ** consume_unsigned / consume_signed *)

Lemma chain : forall (s : view) (a b c : list Z), rest_of (rest_of s a (b ++ c)) b c = rest_of s (a ++ b) c.
Proof. exact rest_rest. Qed.

Lemma num_nonneg : forall base ds, 2 <= base -> Forall (fun x => isdig base x = true) ds -> 0 <= num_val base ds.
Proof. intros. rewrite num_acc. apply acc_nonneg; auto; lia. Qed.

Lemma unsigned_ok : forall cf m dst s l opt hi, mem_wf m -> has_view m s l -> ctype_safe cf l ->
  (it_base (read_int false opt l) = 2 -> no_b0 l) -> 0 <= hi <= ULLONG_MAX ->
  result_of dst s l (parse_int false opt 0 hi l) (consume_unsigned cf m dst (Some s) opt hi).
Proof.
  intros cf m dst s l opt hi Hw Hv Hc Hn Hhi.
  unfold consume_unsigned. rewrite (has_view_valid _ _ _ Hv). cbn [negb].
  unfold parse_int, read_int in *. cbn [andb] in *.
  (* spaces *)
  set (l1 := if flag opt STRNUM_NOSPACE then l else snd (span (Z.eqb 32) l)) in *.
  assert (exists a1, l = a1 ++ l1 /\ (if negb (flag opt STRNUM_NOSPACE)
      then strview_trim_start cf m s (vlit [32]) else Ok s) = Ok (rest_of s a1 l1)) as (a1 & El & Et).
  { unfold l1. destruct (flag opt STRNUM_NOSPACE); cbn [negb].
    - exists []. split; auto. now rewrite (rest_nil m s l).
    - destruct (trim_space cf m s l Hv) as (z & E1 & E2). exists z. auto. }
  rewrite Et. cbn [bind]. clearbody l1. subst l.
  pose proof (rest_view _ _ _ _ Hv) as Hv1. pose proof (ctype_safe_app _ _ _ Hc) as Hc1.
  (* prefix *)
  destruct (prefix_ok cf m (rest_of s a1 l1) l1 opt Hw Hv1) as (a2 & s3 & El1 & Ep & Hs3).
  rewrite Ep. cbn [bind]. pose proof (prefix_base opt l1) as Hbo.
  destruct (read_prefix opt l1) as [base l3]. cbn [fst snd] in *. subst l1.
  assert (ctype_safe cf l3) as Hc3 by (eapply ctype_safe_app; eauto).
  assert (has_view m s3 l3 \/ (l3 = [] /\ s3 = INVALID)) as Hv3.
  { destruct Hs3 as [-> | H]; auto. left. now apply (rest_view m _ a2 l3). }
  assert (base = 2 -> no_b0 l3) as Hn3.
  { intro Hb. destruct (span (isdig base) l3). cbn [it_base] in Hn.
    apply (no_b0_app a2), (no_b0_app a1). auto. }
  pose proof (digits_ok cf m s3 l3 base Hc3 Hn3 Hbo Hv3) as D.
  pose proof (span_all (isdig base) l3) as Fd. pose proof (span_app (isdig base) l3) as Ad.
  destruct (span (isdig base) l3) as [ds rest]. cbn [fst snd] in *.
  destruct D as (e & v & s' & Ed & D1 & D2 & D3). rewrite Ed. cbn [bind].
  unfold int_value. cbn [it_digits it_neg it_base it_rest].
  pose proof (num_nonneg base ds (base_pos _ Hbo) Fd) as Hnn.
  destruct ds as [|d ds].
  - rewrite (D1 eq_refl). reflexivity.
  - destruct (Z_le_gt_dec (num_val base (d :: ds)) ULLONG_MAX) as [L|G].
    + destruct (D3 ltac:(discriminate) L) as (-> & -> & ->).
      destruct (hi <? num_val base (d :: ds)) eqn:Eh.
      * apply Z.ltb_lt in Eh. rewrite (proj2 (Z.leb_gt (num_val base (d :: ds)) hi)) by lia. rewrite andb_false_r. reflexivity.
      * apply Z.ltb_ge in Eh. rewrite (proj2 (Z.leb_le 0 (num_val base (d :: ds)))) by lia.
        rewrite (proj2 (Z.leb_le (num_val base (d :: ds)) hi)) by lia. cbn [andb result_of].
        exists (a1 ++ a2 ++ d :: ds). split; [|split].
        -- now rewrite <- Ad, <- !app_assoc.
        -- intro X. apply app_eq_nil in X as [_ X]. apply app_eq_nil in X as [_ X]. discriminate.
        -- do 3 f_equal. destruct Hs3 as [-> | [-> ->]]; [|destruct ds; discriminate].
           rewrite <- Ad. rewrite !chain. unfold rest_of. rewrite subview_subview. f_equal. rewrite !Zlen_app. lia.
    + rewrite (D2 ltac:(discriminate) ltac:(lia)).
      rewrite (proj2 (Z.leb_gt (num_val base (d :: ds)) hi)) by lia. rewrite andb_false_r. reflexivity.
Qed.

Lemma signed_ok : forall cf m dst s l opt lo hi, mem_wf m -> has_view m s l -> ctype_safe cf l ->
  (it_base (read_int true opt l) = 2 -> no_b0 l) -> LLONG_MIN <= lo -> hi <= LLONG_MAX ->
  result_of dst s l (parse_int true opt lo hi l) (consume_signed cf m dst (Some s) opt lo hi).
Proof.
  intros cf m dst s l opt lo hi Hw Hv Hc Hn Hlo Hhi.
  unfold consume_signed. rewrite (has_view_valid _ _ _ Hv). cbn [negb].
  unfold parse_int, read_int in *. cbn [andb] in *.
  (* spaces *)
  set (l1 := if flag opt STRNUM_NOSPACE then l else snd (span (Z.eqb 32) l)) in *.
  assert (exists a1, l = a1 ++ l1 /\ (if negb (flag opt STRNUM_NOSPACE)
      then strview_trim_start cf m s (vlit [32]) else Ok s) = Ok (rest_of s a1 l1)) as (a1 & El & Et).
  { unfold l1. destruct (flag opt STRNUM_NOSPACE); cbn [negb].
    - exists []. split; auto. now rewrite (rest_nil m s l).
    - destruct (trim_space cf m s l Hv) as (z & E1 & E2). exists z. auto. }
  rewrite Et. cbn [bind]. clearbody l1. subst l.
  pose proof (rest_view _ _ _ _ Hv) as Hv1. pose proof (ctype_safe_app _ _ _ Hc) as Hc1.
  (* sign *)
  set (r := if negb (flag opt STRNUM_NOSIGN) then read_sign l1 else (false, l1)) in *.
  assert (exists a2, l1 = a2 ++ snd r /\
     (if negb (flag opt STRNUM_NOSIGN) then consume_sign cf m (rest_of s a1 l1) else Ok (false, rest_of s a1 l1))
     = Ok (fst r, rest_of s (a1 ++ a2) (snd r))) as (a2 & El2 & Es).
  { unfold r. destruct (flag opt STRNUM_NOSIGN); cbn [negb fst snd].
    - exists []. split; auto. now rewrite app_nil_r.
    - destruct (sign_ok cf m (rest_of s a1 l1) l1 Hv1) as (z & E1 & E2). exists z. split; auto. rewrite E2.
      rewrite E1 at 2. now rewrite rest_rest. }
  rewrite Es. cbn [bind]. clearbody r. destruct r as [neg l2]. cbn [fst snd] in *. subst l1.
  assert (has_view m (rest_of s (a1 ++ a2) l2) l2) as Hv2.
  { apply rest_view. now rewrite <- app_assoc. }
  pose proof (ctype_safe_app _ _ _ Hc1) as Hc2.
  (* prefix *)
  destruct (prefix_ok cf m (rest_of s (a1 ++ a2) l2) l2 opt Hw Hv2) as (a3 & s3 & El3 & Ep & Hs3).
  rewrite Ep. cbn [bind]. pose proof (prefix_base opt l2) as Hbo.
  destruct (read_prefix opt l2) as [base l3]. cbn [fst snd] in *. subst l2.
  assert (ctype_safe cf l3) as Hc3 by (eapply ctype_safe_app; eauto).
  assert (has_view m s3 l3 \/ (l3 = [] /\ s3 = INVALID)) as Hv3.
  { destruct Hs3 as [-> | H]; auto. left. now apply (rest_view m _ a3 l3). }
  assert (base = 2 -> no_b0 l3) as Hn3.
  { intro Hb. destruct (span (isdig base) l3). cbn [it_base] in Hn.
    apply (no_b0_app a3), (no_b0_app a2), (no_b0_app a1). auto. }
  pose proof (digits_ok cf m s3 l3 base Hc3 Hn3 Hbo Hv3) as D.
  pose proof (span_all (isdig base) l3) as Fd. pose proof (span_app (isdig base) l3) as Ad.
  destruct (span (isdig base) l3) as [ds rest]. cbn [fst snd] in *.
  destruct D as (e & v & s' & Ed & D1 & D2 & D3). rewrite Ed. cbn [bind].
  unfold int_value. cbn [it_digits it_neg it_base it_rest].
  pose proof (num_nonneg base ds (base_pos _ Hbo) Fd) as Hnn.
  destruct ds as [|d ds].
  - rewrite (D1 eq_refl). reflexivity.
  - destruct (Z_le_gt_dec (num_val base (d :: ds)) ULLONG_MAX) as [L|G].
    + destruct (D3 ltac:(discriminate) L) as (-> & -> & ->).
      set (n := num_val base (d :: ds)) in *.
      assert (forall x, LLONG_MIN <= x <= LLONG_MAX -> to_llong x = x) as TL.
      { intros x Hx. unfold to_llong, two64, LLONG_MIN, LLONG_MAX in *. rewrite Z.mod_small; lia. }
      set (val := if neg then - n else n).
      assert ((if neg then if LLONG_MIN mod two64 <? n then None else Some (to_llong ((n * (-1 mod two64)) mod two64))
               else if LLONG_MAX <? n then None else Some (to_llong n))
        = if (LLONG_MIN <=? val) && (val <=? LLONG_MAX) then Some val else None) as ->.
      { unfold val. destruct neg.
        - change (LLONG_MIN mod two64) with 9223372036854775808. change LLONG_MIN with (-9223372036854775808) in *.
          change LLONG_MAX with 9223372036854775807 in *. change ULLONG_MAX with 18446744073709551615 in *.
          destruct (9223372036854775808 <? n) eqn:E.
          + apply Z.ltb_lt in E. zb. reflexivity.
          + apply Z.ltb_ge in E. rewrite (proj2 (Z.leb_le (-9223372036854775808) (- n))) by lia.
            rewrite (proj2 (Z.leb_le (- n) 9223372036854775807)) by lia. cbn [andb]. f_equal.
            change (-1 mod two64) with (two64 - 1). unfold to_llong, two64. change LLONG_MIN with (-9223372036854775808).
            destruct (Z.eq_dec n 0) as [-> |N]; [reflexivity|].
            replace ((n * (18446744073709551616 - 1)) mod 18446744073709551616) with (18446744073709551616 - n).
            2:{ apply (Z.mod_unique _ _ (n - 1)); lia. }
            replace ((18446744073709551616 - n - -9223372036854775808) mod 18446744073709551616) with (9223372036854775808 - n); [lia|].
            apply (Z.mod_unique _ _ 1); lia.
        - change LLONG_MIN with (-9223372036854775808) in *. change LLONG_MAX with 9223372036854775807 in *.
          rewrite (proj2 (Z.leb_le (-9223372036854775808) n)) by lia. cbn [andb].
          destruct (9223372036854775807 <? n) eqn:E.
          + apply Z.ltb_lt in E. zb. reflexivity.
          + apply Z.ltb_ge in E. zb. f_equal. apply TL. lia. }
      destruct ((lo <=? val) && (val <=? hi)) eqn:Er.
      * apply andb_true_iff in Er as [Er1 Er2]. apply Z.leb_le in Er1, Er2.
        rewrite (proj2 (Z.leb_le LLONG_MIN val)) by lia. rewrite (proj2 (Z.leb_le val LLONG_MAX)) by lia. cbn [andb].
        rewrite (proj2 (Z.leb_le lo val)) by lia. rewrite (proj2 (Z.leb_le val hi)) by lia. cbn [andb result_of].
        exists (a1 ++ a2 ++ a3 ++ d :: ds). split; [|split].
        -- now rewrite <- Ad, <- !app_assoc.
        -- intro X. repeat apply app_eq_nil in X as [_ X]. discriminate.
        -- do 3 f_equal. destruct Hs3 as [-> | [-> ->]]; [|destruct ds; discriminate].
           unfold rest_of. rewrite !subview_subview. f_equal. rewrite !Zlen_app. lia.
      * destruct ((LLONG_MIN <=? val) && (val <=? LLONG_MAX)); [|reflexivity]. rewrite Er. reflexivity.
    + rewrite (D2 ltac:(discriminate) ltac:(lia)).
      destruct neg.
      * rewrite (proj2 (Z.leb_gt lo (- num_val base (d :: ds)))); [reflexivity|].
        unfold ULLONG_MAX, LLONG_MIN in *. lia.
      * rewrite (proj2 (Z.leb_gt (num_val base (d :: ds)) hi)); [rewrite andb_false_r; reflexivity|].
        unfold ULLONG_MAX, LLONG_MAX in *. lia.
Qed.
