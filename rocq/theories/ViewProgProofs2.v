(** Proofs for programs on views, continued: the functions that look at two texts, numbers, and whole programs. *)
From Verif Require Import Base Mem Libc StrviewModel StrnumModel Spec MemLemmas NumSpec NumSpec2 StrviewProofs StrviewProofs2
  StrviewProofs3 StrviewProofs4 StrnumProofs NumB0Proofs ViewProg ViewProgProofs.

(** ** strview_dequote *)
Lemma hd_repeat : forall (q : Z) k r, hd 0 (repeat q (S k) ++ r) = q.
Proof. reflexivity. Qed.
Lemma last_repeat : forall (q : Z) k r, last (r ++ repeat q (S k)) 0 = q.
Proof.
  intros q k r. replace (repeat q (S k)) with (repeat q k ++ [q]).
  - rewrite app_assoc. apply last_last.
  - change [q] with (repeat q 1). rewrite <- repeat_app. f_equal. lia.
Qed.
Lemma dequote_less : forall q k r q' k' r', repeat q k ++ r ++ repeat q k = repeat q' k' ++ r' ++ repeat q' k' ->
  (k = O -> Zlen (repeat q k ++ r ++ repeat q k) <= 1 \/ hd 0 (repeat q k ++ r ++ repeat q k) <> last (repeat q k ++ r ++ repeat q k) 0) ->
  (k <> O -> Zlen r <= 1 \/ hd 0 r <> q \/ last r 0 <> q) -> ~ (k < k')%nat.
Proof.
  intros q k r q' k' r' E H0 Hk L. destruct k as [|k].
  - specialize (H0 eq_refl). rewrite E in H0. destruct k' as [|k']; [lia|].
    rewrite hd_repeat in H0. rewrite app_assoc, last_repeat in H0. destruct H0 as [H0|H0]; [|congruence].
    rewrite !Zlen_app in H0. unfold Zlen in H0. rewrite repeat_length in H0. lia.
  - assert (q = q') as <- by (destruct k' as [|k']; [lia|]; apply (f_equal (hd 0)) in E; rewrite !hd_repeat in E; exact E).
    assert (exists j, k' = (S k + S j)%nat) as [j ->] by (exists (k' - S k - 1)%nat; lia).
    rewrite repeat_app in E. rewrite <- !app_assoc in E. apply app_inv_head in E.
    assert (repeat q (S k) ++ repeat q (S j) = repeat q (S j) ++ repeat q (S k)) as C by (rewrite <- !repeat_app; f_equal; lia).
    rewrite C, !app_assoc in E. apply app_inv_tail in E. subst r.
    destruct (Hk ltac:(discriminate)) as [H|[H|H]].
    + rewrite !Zlen_app in H. unfold Zlen in H. rewrite repeat_length in H. lia.
    + apply H. rewrite <- app_assoc. apply hd_repeat.
    + apply H. apply last_repeat.
Qed.

Lemma strings_nth : forall m ds dls d, Forall2 (c_string m) ds dls -> (d < length ds)%nat -> c_string m (nth d ds null) (nth d dls []).
Proof.
  intros m ds dls d H. revert d. induction H as [|p l ds dls Hp H IH]; intros [|d] L; cbn in *; try lia; auto. apply IH. lia.
Qed.

Lemma strings_len : forall m ds dls, Forall2 (c_string m) ds dls -> length ds = length dls.
Proof. intros m ds dls H. induction H; cbn; congruence. Qed.

Section Two.
Variables (cf1 cf2 : cfg) (m1 m2 : mem).
Hypotheses (U1 : usual cf1) (U2 : usual cf2) (W1 : mem_wf m1) (W2 : mem_wf m2).
Variables (s1 s2 a1 a2 : view) (o oa : option (list Z)) (e : Z).
Hypotheses (D1 : denotes m1 s1 o) (D2 : denotes m2 s2 o) (A1 : denotes m1 a1 oa) (A2 : denotes m2 a2 oa) (He : pend_ok e).

Lemma dequote_agree : agree s1 s2 o (only_view s1 e (strview_dequote cf1 m1 s1)) (only_view s2 e (strview_dequote cf2 m2 s2)).
Proof.
  destruct o as [l|] eqn:Eo.
  2:{ cbn in D1, D2. eapply (agree_view _ _ m1 m2 None e None); auto; subst s1 s2; try reflexivity; try exact I. }
  cbn [denotes] in *.
  destruct (dequote_ok cf1 m1 s1 l D1) as (q & k & r & E & Z0 & Zk & Q1 & _).
  destruct (dequote_ok cf2 m2 s2 l D2) as (q' & k' & r' & E' & Z0' & Zk' & Q2 & _).
  assert (k = k') as <-.
  { assert (~ (k < k')%nat) by (apply (dequote_less q k r q' k' r'); [congruence|rewrite <- E; exact Z0|exact Zk]).
    assert (~ (k' < k)%nat) by (apply (dequote_less q' k' r' q k r); [congruence|rewrite <- E'; exact Z0'|exact Zk']). lia. }
  assert (Zlen r = Zlen r' /\ Zlen l = Z.of_nat k + Zlen r + Z.of_nat k) as [Er El].
  { apply (f_equal Zlen) in E, E'. rewrite !Zlen_app in E, E'. unfold Zlen in E, E' |- *. rewrite !repeat_length in E, E'. lia. }
  rewrite <- Er in Q2. eapply (agree_view _ _ m1 m2 (Some l) e (Some (Z.of_nat k, Zlen r))); eauto.
  cbn. pose proof (Zlen_nonneg r). lia.
Qed.

(** ** Comparing *)
Definition match_with (comp : mem -> ptr -> ptr -> Z -> outcome Z) (m : mem) (v1 v2 : view) : outcome bool :=
  if v_size v1 =? v_size v2 then
     if peq m (v_data v1) (v_data v2) then Ok true
     else let! r := comp m (v_data v1) (v_data v2) (v_size v1) in Ok (r =? 0)
   else Ok false.
Lemma match_any : forall comp f m v1 v2 o1 o2, comp_ok f comp -> (forall m p q, comp m p q 0 = Ok 0) -> mem_wf m ->
  denotes m v1 o1 -> denotes m v2 o2 -> exists r, match_with comp m v1 v2 = Ok r /\ (r = true <-> map f (contents o1) = map f (contents o2)).
Proof.
  intros comp f m v1 v2 [l1|] [l2|] C Cz W H1 H2; cbn [denotes contents] in *.
  - exact (is_match_gen comp f m v1 v2 l1 l2 C W H1 H2).
  - subst v2. unfold match_with. rewrite (has_view_size _ _ _ H1). cbn [INVALID v_size v_data]. destruct l1 as [|x l1].
    + cbn [Zlen length]. change (Z.of_nat 0) with 0. cbn [Z.eqb]. rewrite Cz. exists true. split; [destruct (peq m (v_data v1) null); reflexivity|]. tauto.
    + replace (Zlen (x :: l1) =? 0) with false by (symmetry; apply Z.eqb_neq; rewrite Zlen_cons; pose proof (Zlen_nonneg l1); lia).
      exists false. split; [reflexivity|]. split; discriminate.
  - subst v1. unfold match_with. rewrite (has_view_size _ _ _ H2). cbn [INVALID v_size v_data]. destruct l2 as [|x l2].
    + cbn [Zlen length]. change (Z.of_nat 0) with 0. cbn [Z.eqb]. rewrite Cz. exists true. split; [destruct (peq m null (v_data v2)); reflexivity|]. tauto.
    + replace (0 =? Zlen (x :: l2)) with false by (symmetry; apply Z.eqb_neq; rewrite Zlen_cons; pose proof (Zlen_nonneg l2); lia).
      exists false. split; [reflexivity|]. split; discriminate.
  - subst v1 v2. exists true. split; [reflexivity|]. tauto.
Qed.
Definition starts_any (comp : mem -> ptr -> ptr -> Z -> outcome Z) (m : mem) (v1 v2 : view) : outcome bool :=
  if negb (strview_is_valid v2) then Ok (negb (strview_is_valid v1))
  else if v_size v2 <=? v_size v1 then
     if peq m (v_data v1) (v_data v2) then Ok true
     else let! r := comp m (v_data v1) (v_data v2) (v_size v2) in Ok (r =? 0)
   else Ok false.
Lemma starts_any_ok : forall comp f m v1 v2 o1 o2, comp_ok f comp -> (forall m p q, comp m p q 0 = Ok 0) -> mem_wf m ->
  denotes m v1 o1 -> denotes m v2 o2 ->
  exists r, starts_any comp m v1 v2 = Ok r /\ (r = true <-> match o2 with Some l2 => prefix_of (map f l2) (map f (contents o1)) | None => o1 = None end).
Proof.
  intros comp f m v1 v2 [l1|] [l2|] C Cz W H1 H2; cbn [denotes contents] in *.
  - exact (starts_with_gen comp f m v1 v2 l1 l2 C W H1 H2).
  - subst v2. unfold starts_any. cbn. rewrite (has_view_valid _ _ _ H1). exists false. split; [reflexivity|]. split; discriminate.
  - subst v1. unfold starts_any. rewrite (has_view_valid _ _ _ H2), (has_view_size _ _ _ H2). cbn [INVALID v_size v_data negb]. destruct l2 as [|x l2].
    + cbn [Zlen length]. change (Z.of_nat 0) with 0. cbn [Z.leb Z.compare]. rewrite Cz. exists true. split; [destruct (peq m null (v_data v2)); reflexivity|].
      split; [|reflexivity]. intros _. now exists [].
    + replace (Zlen (x :: l2) <=? 0) with false by (symmetry; apply Z.leb_gt; rewrite Zlen_cons; pose proof (Zlen_nonneg l2); lia).
      exists false. split; [reflexivity|]. split; [discriminate|]. intros (r & K). discriminate.
  - subst v1 v2. exists true. split; [reflexivity|]. tauto.
Qed.
Lemma memcmp_0 : forall cf, usual cf -> forall m p q, memcmp cf m p q 0 = Ok 0.
Proof. intros cf (_ & U & _) m p q. unfold memcmp, zero_ok. rewrite U. reflexivity. Qed.
Lemma memcmp_nocase_0 : forall cf m p q, memcmp_nocase cf m p q 0 = Ok 0.
Proof. reflexivity. Qed.

Lemma match_agree : forall f comp1 comp2, comp_ok f comp1 -> comp_ok f comp2 ->
  (forall m p q, comp1 m p q 0 = Ok 0) -> (forall m p q, comp2 m p q 0 = Ok 0) ->
  agree s1 s2 o (only_bool s1 e (match_with comp1 m1 s1 a1)) (only_bool s2 e (match_with comp2 m2 s2 a2)).
Proof.
  intros f comp1 comp2 C1 C2 Z1 Z2.
  destruct (match_any comp1 f m1 s1 a1 o oa C1 Z1 W1 D1 A1) as (r1 & E1 & H1).
  destruct (match_any comp2 f m2 s2 a2 o oa C2 Z2 W2 D2 A2) as (r2 & E2 & H2).
  eapply (agree_bool s1 s2 m1 m2 o e r1 r2); eauto. tauto.
Qed.
Lemma starts_agree : forall f comp1 comp2, comp_ok f comp1 -> comp_ok f comp2 ->
  (forall m p q, comp1 m p q 0 = Ok 0) -> (forall m p q, comp2 m p q 0 = Ok 0) ->
  agree s1 s2 o (only_bool s1 e (starts_any comp1 m1 s1 a1)) (only_bool s2 e (starts_any comp2 m2 s2 a2)).
Proof.
  intros f comp1 comp2 C1 C2 Z1 Z2.
  destruct (starts_any_ok comp1 f m1 s1 a1 o oa C1 Z1 W1 D1 A1) as (r1 & E1 & H1).
  destruct (starts_any_ok comp2 f m2 s2 a2 o oa C2 Z2 W2 D2 A2) as (r2 & E2 & H2).
  eapply (agree_bool s1 s2 m1 m2 o e r1 r2); eauto. tauto.
Qed.
Lemma contains_agree : forall f comp1 comp2, comp_ok f comp1 -> comp_ok f comp2 ->
  agree s1 s2 o (only_bool s1 e (let! v := find_first cf1 m1 comp1 s1 a1 in Ok (strview_is_valid v)))
                (only_bool s2 e (let! v := find_first cf2 m2 comp2 s2 a2 in Ok (strview_is_valid v))).
Proof.
  intros f comp1 comp2 C1 C2.
  assert (forall cf comp m s a, comp_ok f comp -> denotes m s o -> denotes m a oa ->
    exists r, (let! v := find_first cf m comp s a in Ok (strview_is_valid v)) = Ok r /\
      (r = true <-> match o, oa with Some l, Some n => exists k, occurs (map f l) (map f n) k | _, _ => False end)) as K.
  { intros cf comp m s a C D A. destruct o as [l|] eqn:Eo, oa as [n|] eqn:Ea; cbn [denotes] in *.
    - destruct (contains_gen cf comp f m s a l n C D A) as (r & -> & Hr). cbn [bind]. eexists. split; [reflexivity|exact Hr].
    - rewrite find_first_null by auto. cbn. exists false. split; [reflexivity|]. split; [discriminate|tauto].
    - rewrite find_first_null by auto. cbn. exists false. split; [reflexivity|]. split; [discriminate|tauto].
    - rewrite find_first_null by auto. cbn. exists false. split; [reflexivity|]. split; [discriminate|tauto]. }
  destruct (K cf1 comp1 m1 s1 a1 C1 D1 A1) as (r1 & E1 & H1). destruct (K cf2 comp2 m2 s2 a2 C2 D2 A2) as (r2 & E2 & H2).
  eapply (agree_bool s1 s2 m1 m2 o e r1 r2); eauto. tauto.
Qed.
Lemma compare_agree : agree s1 s2 o (vcall cf1 m1 [] FCompare s1 a1 e) (vcall cf2 m2 [] FCompare s2 a2 e).
Proof.
  cbn [vcall]. destruct (compare_ok cf1 m1 s1 a1 o oa D1 A1) as (r1 & -> & H1). destruct (compare_ok cf2 m2 s2 a2 o oa D2 A2) as (r2 & -> & H2). cbn [bind].
  assert (Z.sgn r1 = Z.sgn r2) as ->.
  { rewrite <- H2 in H1. destruct r1, r2; cbn in *; congruence. }
  eapply agree_num; eassumption.
Qed.
Lemma num_agree : forall t opt, ty_lo cf1 t = ty_lo cf2 t -> ty_hi cf1 t = ty_hi cf2 t ->
  agree s1 s2 o (vcall cf1 m1 [] (FNum t opt) s1 a1 e) (vcall cf2 m2 [] (FNum t opt) s2 a2 e).
Proof.
  intros t opt Hlo Hhi. cbn [vcall].
  destruct (consumer cf1 t) as [f1|] eqn:E1, (consumer cf2 t) as [f2|] eqn:E2;
    try (destruct t; discriminate); [|eapply agree_num; eassumption].
  destruct o as [l|] eqn:Eo.
  - cbn [denotes] in *.
    pose proof (consumer_ok_x cf1 m1 s1 l opt W1 D1 (or_introl (proj2 (proj2 U1))) t f1 true E1) as R1.
    pose proof (consumer_ok_x cf2 m2 s2 l opt W2 D2 (or_introl (proj2 (proj2 U2))) t f2 true E2) as R2.
    rewrite <- Hlo, <- Hhi in R2. unfold result_of in *.
    destruct (parse_int_exact (ty_signed t) opt (ty_lo cf1 t) (ty_hi cf1 t) l) as [er|v rest].
    + rewrite R1, R2. cbn [bind]. apply (agree_num s1 s2 m1 m2 (Some l)); assumption.
    + destruct R1 as (a & El & _ & ->). destruct R2 as (a' & El' & _ & ->). cbn [bind].
      assert (Zlen a' = Zlen a) as -> by (rewrite El in El'; apply app_inv_tail in El'; congruence).
      eexists _, None, (Some (Zlen a, Zlen rest)), e. split; [reflexivity|]. split; [reflexivity|]. split; [exact I|]. split; [|exact He].
      cbn. rewrite El, Zlen_app. pose proof (Zlen_nonneg a). pose proof (Zlen_nonneg rest). lia.
  - cbn in D1, D2. subst s1 s2.
    assert (forall cf f m, consumer cf t = Some f -> f m true (Some INVALID) opt = Ok (Parsed EINVAL None None)) as K.
    { intros cf f m E. destruct t; cbn in E; try discriminate; injection E as <-; reflexivity. }
    rewrite (K cf1 f1 m1 E1), (K cf2 f2 m2 E2). cbn [bind]. apply (agree_num INVALID INVALID m1 m2 None); auto; reflexivity.
Qed.

(** ** Any function *)
Lemma vcall_agree : forall ds1 ds2 dls f, Forall2 (c_string m1) ds1 dls -> Forall2 (c_string m2) ds2 dls ->
  vlegal ds1 f s1 a1 ->
  (match f with FNum t _ => ty_lo cf1 t = ty_lo cf2 t /\ ty_hi cf1 t = ty_hi cf2 t | _ => True end) ->
  (match f with
   | FAt _ => s1 = INVALID /\ s2 = INVALID \/ a1 = INVALID /\ a2 = INVALID \/
              exists d, pdiff cf1 m1 (v_data a1) (v_data s1) = Ok d /\ pdiff cf2 m2 (v_data a2) (v_data s2) = Ok d
   | _ => True end) ->
  agree s1 s2 o (vcall cf1 m1 ds1 f s1 a1 e) (vcall cf2 m2 ds2 f s2 a2 e).
Proof.
  intros ds1 ds2 dls f S1 S2 L Rg P. destruct f; cbn [vcall vlegal] in *.
  - exists [], (Some (0, Zlen (contents o))), (Some (0, Zlen (contents o))), e. rewrite (place_all _ _ _ D1), (place_all _ _ _ D2).
    do 2 (split; [reflexivity|]). split; [apply fits_all|]. split; [apply fits_all|exact He].
  - destruct L as [Hb Hn]. destruct (sub_at cf1 m1 s1 o b e0 D1 Hb Hn) as [E1 F]. destruct (sub_at cf2 m2 s2 o b e0 D2 Hb Hn) as [E2 _].
    eapply (agree_view s1 s2 m1 m2); eauto.
  - destruct sd.
    + destruct (trim_start_at cf1 m1 s1 a1 o oa U1 D1 A1) as [E1 F]. destruct (trim_start_at cf2 m2 s2 a2 o oa U2 D2 A2) as [E2 _].
      eapply (agree_view s1 s2 m1 m2); eauto.
    + destruct (trim_end_at cf1 m1 s1 a1 o oa U1 D1 A1) as [E1 F]. destruct (trim_end_at cf2 m2 s2 a2 o oa U2 D2 A2) as [E2 _].
      eapply (agree_view s1 s2 m1 m2); eauto.
    + destruct (trim_at cf1 m1 s1 a1 o oa U1 D1 A1) as [E1 F]. destruct (trim_at cf2 m2 s2 a2 o oa U2 D2 A2) as [E2 _].
      eapply (agree_view s1 s2 m1 m2); eauto.
  - destruct last, nocase.
    + apply (find_agree cf1 cf2 m1 m2 U1 U2 s1 s2 a1 a2 o oa e D1 D2 A1 A2 He true _ _ upper (memcmp_nocase_ok cf1) (memcmp_nocase_ok cf2)).
    + apply (find_agree cf1 cf2 m1 m2 U1 U2 s1 s2 a1 a2 o oa e D1 D2 A1 A2 He true _ _ _ (memcmp_ok cf1) (memcmp_ok cf2)).
    + apply (find_agree cf1 cf2 m1 m2 U1 U2 s1 s2 a1 a2 o oa e D1 D2 A1 A2 He false _ _ upper (memcmp_nocase_ok cf1) (memcmp_nocase_ok cf2)).
    + apply (find_agree cf1 cf2 m1 m2 U1 U2 s1 s2 a1 a2 o oa e D1 D2 A1 A2 He false _ _ _ (memcmp_ok cf1) (memcmp_ok cf2)).
  - assert (exists dl, c_string m1 (nth d ds1 null) dl /\ c_string m2 (nth d ds2 null) dl) as (dl & P1 & P2).
    { exists (nth d dls []). split; (apply strings_nth; [assumption|]); [exact L|].
      pose proof (strings_len _ _ _ S1). pose proof (strings_len _ _ _ S2). lia. }
    destruct last.
    + apply (delim_agree cf1 cf2 m1 m2 U1 U2 s1 s2 o e D1 D2 He true exq _ _ dl P1 P2).
    + apply (delim_agree cf1 cf2 m1 m2 U1 U2 s1 s2 o e D1 D2 He false exq _ _ dl P1 P2).
  - apply (index_agree cf1 cf2 m1 m2 U1 U2 s1 s2 o e D1 D2 He i L).
  - destruct right.
    + apply (at_agree cf1 cf2 m1 m2 s1 s2 a1 a2 o oa e D1 D2 A1 A2 He true P).
    + apply (at_agree cf1 cf2 m1 m2 s1 s2 a1 a2 o oa e D1 D2 A1 A2 He false P).
  - apply (pop_agree cf1 cf2 m1 m2 s1 s2 a1 a2 o e D1 D2 He).
  - apply (line_agree cf1 cf2 m1 m2 s1 s2 a1 a2 o e D1 D2 He keep).
  - apply dequote_agree.
  - destruct nocase.
    + apply (match_agree upper (memcmp_nocase cf1) (memcmp_nocase cf2)); auto using memcmp_nocase_ok.
    + apply (match_agree (fun x => x) (memcmp cf1) (memcmp cf2)); auto using memcmp_ok, memcmp_0.
  - destruct nocase.
    + apply (starts_agree upper (memcmp_nocase cf1) (memcmp_nocase cf2)); auto using memcmp_nocase_ok.
    + apply (starts_agree (fun x => x) (memcmp cf1) (memcmp cf2)); auto using memcmp_ok, memcmp_0.
  - destruct nocase.
    + apply (contains_agree upper (memcmp_nocase cf1) (memcmp_nocase cf2)); auto using memcmp_nocase_ok.
    + apply (contains_agree (fun x => x) (memcmp cf1) (memcmp cf2)); auto using memcmp_ok.
  - apply compare_agree.
  - apply num_agree; apply Rg.
Qed.
End Two.

(** ** Programs *)
Lemma upd_Forall2 : forall {A B} (R : A -> B -> Prop) l1 l2 j x y, Forall2 R l1 l2 -> R x y -> Forall2 R (upd l1 j x) (upd l2 j y).
Proof. intros A B R l1 l2 j x y H. revert j. induction H; intros [|j] Hx; cbn; auto. Qed.
Lemma same_get : forall T1 T2 vars1 vars2 j, Forall2 (same_part T1 T2) vars1 vars2 -> same_part T1 T2 (vget vars1 j) (vget vars2 j).
Proof.
  intros T1 T2 vars1 vars2 j H. unfold vget. revert j. induction H; intros [|j]; cbn; auto; left; auto.
Qed.
Lemma part_of : forall (l : list Z) i n, 0 <= i -> 0 <= n -> i + n <= Zlen l ->
  exists a b c, l = a ++ b ++ c /\ Zlen a = i /\ Zlen b = n.
Proof.
  intros l i n Hi Hn Hl. exists (firstn (Z.to_nat i) l), (firstn (Z.to_nat n) (skipn (Z.to_nat i) l)), (skipn (Z.to_nat n) (skipn (Z.to_nat i) l)).
  unfold Zlen in *. rewrite !firstn_skipn. split; [reflexivity|]. rewrite !firstn_length, skipn_length. lia.
Qed.
Lemma same_denotes : forall m1 m2 T1 T2 v1 v2, stored m1 T1 -> stored m2 T2 -> same_part T1 T2 v1 v2 ->
  exists o, denotes m1 v1 o /\ denotes m2 v2 o.
Proof.
  intros m1 m2 T1 T2 v1 v2 S1 S2 [[-> ->]|(k & s1 & s2 & l & i & n & E1 & E2 & Hi & Hn & Hl & -> & ->)].
  - exists None. split; reflexivity.
  - apply nth_error_In in E1, E2. unfold stored in *. rewrite Forall_forall in S1, S2. apply S1 in E1. apply S2 in E2. cbn [fst snd] in *.
    destruct (part_of l i n Hi Hn Hl) as (a & b & c & -> & <- & <-). exists (Some b).
    split; [apply (has_view_sub _ _ _ _ _ E1)|apply (has_view_sub _ _ _ _ _ E2)].
Qed.
Lemma same_place : forall m1 T1 T2 v1 v2 o c, denotes m1 v1 o -> same_part T1 T2 v1 v2 -> fits_in o c ->
  stored m1 T1 -> same_part T1 T2 (place v1 c) (place v2 c).
Proof.
  intros m1 T1 T2 v1 v2 o [[i n]|] D P F S1; [|left; auto]. cbn [place fits_in] in *. destruct F as (Hi & Hn & F).
  destruct P as [[-> ->]|(k & s1 & s2 & l & i0 & n0 & E1 & E2 & Hi0 & Hn0 & Hl & -> & ->)].
  - left. assert (contents o = []) as E.
    { destruct o as [l|]; [|reflexivity]. destruct D as (HB & Hs & _). cbn in Hs. symmetry in Hs. destruct l; [reflexivity|].
      rewrite Zlen_cons in Hs. pose proof (Zlen_nonneg l). lia. }
    rewrite E in F. cbn in F. assert (i = 0) as -> by lia. assert (n = 0) as -> by lia. split; reflexivity.
  - right. exists k, s1, s2, l, (i0 + i), n. rewrite !subview_subview.
    assert (Zlen (contents o) = n0) as En; [|do 4 (split; [first [assumption|lia]|]); split; [lia|split; reflexivity]]. destruct o as [x|]; cbn [denotes contents] in D |- *.
    + symmetry. apply (has_view_size _ _ _ D).
    + pose proof (nth_error_In _ _ E1) as I. unfold stored in S1. rewrite Forall_forall in S1. apply S1 in I. cbn [fst snd] in I.
      destruct (part_of l i0 n0 Hi0 Hn0 Hl) as (a & b & c & -> & <- & <-). apply has_view_sub in I. apply has_view_valid in I. rewrite D in I. discriminate.
Qed.

(** Positions to split at are at the same distance in both runs. *)
Definition at_ok cf1 cf2 m1 m2 T1 T2 : Prop := forall s1 s2 a1 a2, same_part T1 T2 s1 s2 -> same_part T1 T2 a1 a2 ->
  s1 = INVALID \/ a1 = INVALID \/ p_obj (v_data s1) = p_obj (v_data a1) ->
  s1 = INVALID /\ s2 = INVALID \/ a1 = INVALID /\ a2 = INVALID \/
  exists d, pdiff cf1 m1 (v_data a1) (v_data s1) = Ok d /\ pdiff cf2 m2 (v_data a2) (v_data s2) = Ok d.

Section Runs.
Variables (cf1 cf2 : cfg) (m1 m2 : mem) (T1 T2 : library) (ds1 ds2 : list ptr) (dls : list (list Z)).
Hypotheses (U1 : usual cf1) (U2 : usual cf2) (W1 : mem_wf m1) (W2 : mem_wf m2) (S1 : stored m1 T1) (S2 : stored m2 T2)
  (C1 : Forall2 (c_string m1) ds1 dls) (C2 : Forall2 (c_string m2) ds2 dls) (HAt : at_ok cf1 cf2 m1 m2 T1 T2).

Lemma runs_agree : forall prog vars1 vars2 e, Forall2 (same_part T1 T2) vars1 vars2 -> pend_ok e ->
  Forall (same_range cf1 cf2) prog -> all_vlegal cf1 m1 ds1 vars1 e prog ->
  exists xs vars1' vars2' e', vrun cf1 m1 ds1 vars1 e prog = Ok (xs, vars1', e') /\ vrun cf2 m2 ds2 vars2 e prog = Ok (xs, vars2', e') /\
    Forall2 (same_part T1 T2) vars1' vars2' /\ pend_ok e'.
Proof.
  induction prog as [|o t IH]; intros vars1 vars2 e HV He HR HL.
  - exists [], vars1, vars2, e. auto.
  - cbn [vrun all_vlegal] in *. destruct HL as [HL HN]. inversion HR as [|? ? R1 R2]; subst.
    pose proof (same_get _ _ _ _ (vo_src o) HV) as Ps. pose proof (same_get _ _ _ _ (vo_arg o) HV) as Pa.
    destruct (same_denotes _ _ _ _ _ _ S1 S2 Ps) as (os & D1 & D2). destruct (same_denotes _ _ _ _ _ _ S1 S2 Pa) as (oa & A1 & A2).
    assert (agree (vget vars1 (vo_src o)) (vget vars2 (vo_src o)) os
      (vcall cf1 m1 ds1 (vo_f o) (vget vars1 (vo_src o)) (vget vars1 (vo_arg o)) e)
      (vcall cf2 m2 ds2 (vo_f o) (vget vars2 (vo_src o)) (vget vars2 (vo_arg o)) e)) as (x & cr & cs & e1 & E1 & E2 & F1 & F2 & He1).
    { apply (vcall_agree cf1 cf2 m1 m2 U1 U2 W1 W2 _ _ _ _ os oa e D1 D2 A1 A2 He ds1 ds2 dls); auto.
      destruct (vo_f o); auto. }
    unfold vexec in HN |- *. rewrite E1 in HN |- *. rewrite E2. cbn [bind] in HN |- *.
    assert (Forall2 (same_part T1 T2)
      (vset (upd vars1 (vo_src o) (place (vget vars1 (vo_src o)) cs)) (vo_to o) (place (vget vars1 (vo_src o)) cr))
      (vset (upd vars2 (vo_src o) (place (vget vars2 (vo_src o)) cs)) (vo_to o) (place (vget vars2 (vo_src o)) cr))) as HV'.
    { assert (Forall2 (same_part T1 T2) (upd vars1 (vo_src o) (place (vget vars1 (vo_src o)) cs)) (upd vars2 (vo_src o) (place (vget vars2 (vo_src o)) cs))).
      { apply upd_Forall2; [exact HV|]. eapply same_place; eassumption. }
      destruct (vo_to o); cbn [vset]; [|assumption]. apply upd_Forall2; [assumption|]. eapply same_place; eassumption. }
    destruct (IH _ _ e1 HV' He1 R2 HN) as (xs & v1' & v2' & e' & G1 & G2 & G3 & G4). rewrite G1, G2. cbn [bind].
    exists (x :: xs), v1', v2', e'. auto.
Qed.
End Runs.

Lemma part_valid : forall m T k s l i n, stored m T -> nth_error T k = Some (s, l) -> 0 <= i -> 0 <= n -> i + n <= Zlen l -> subview s i n <> INVALID.
Proof.
  intros m T k s l i n S E Hi Hn Hl K. apply nth_error_In in E. unfold stored in S. rewrite Forall_forall in S. apply S in E. cbn [fst snd] in E.
  destruct (part_of l i n Hi Hn Hl) as (a & b & c & -> & <- & <-). apply has_view_sub in E. apply has_view_valid in E. rewrite K in E. discriminate.
Qed.
Lemma apart_at : forall cf1 cf2 m1 m2 T1 T2, stored m1 T1 -> apart T1 -> at_ok cf1 cf2 m1 m2 T1 T2.
Proof.
  intros cf1 cf2 m1 m2 T1 T2 S1 HA s1 s2 a1 a2 [[-> ->]|(k & t1 & t2 & l & i & n & E1 & E2 & Hi & Hn & Hl & -> & ->)]; [auto|].
  intros [[-> ->]|(k' & u1 & u2 & l' & i' & n' & E1' & E2' & Hi' & Hn' & Hl' & -> & ->)]; [auto|].
  intros H. right. right.
  assert (k = k') as <-.
  { destruct H as [H|[H|H]]; [exfalso; exact (part_valid m1 T1 k t1 l i n S1 E1 Hi Hn Hl H)|exfalso; exact (part_valid m1 T1 k' u1 l' i' n' S1 E1' Hi' Hn' Hl' H)|]. exact (HA k k' _ _ E1 E1' H). }
  rewrite E1 in E1'. rewrite E2 in E2'. injection E1' as <- <-. injection E2' as <-.
  exists (i' - i). unfold pdiff, subview, shift. cbn [v_data p_obj p_ofs]. rewrite !pobj_eqb_refl. split; f_equal; lia.
Qed.
Lemma same_inside : forall T v, inside T v -> same_part T T v v.
Proof.
  intros T v [->|(s & l & i & n & H & Hi & Hn & Hl & ->)]; [left; auto|]. right. apply In_nth_error in H as [k E].
  exists k, s, s, l, i, n. auto 10.
Qed.
Lemma inside_same : forall T v w, same_part T T v w -> v = w /\ inside T v.
Proof.
  intros T v w [[-> ->]|(k & s1 & s2 & l & i & n & E1 & E2 & Hi & Hn & Hl & -> & ->)]; [split; [|left]; reflexivity|].
  rewrite E1 in E2. injection E2 as <-. split; [reflexivity|]. right. exists s1, l, i, n. apply nth_error_In in E1. auto 10.
Qed.
Lemma self_at : forall cf m T, at_ok cf cf m m T T.
Proof.
  intros cf m T s1 s2 a1 a2 P Q H. apply inside_same in P as [<- P]. apply inside_same in Q as [<- Q].
  destruct H as [->|[->|H]]; auto. right. right. unfold pdiff. rewrite H, pobj_eqb_refl. eauto.
Qed.

Theorem viewprog_safe : forall cf m T ds dls vars e prog, usual cf -> mem_wf m -> stored m T -> Forall2 (c_string m) ds dls ->
  Forall (inside T) vars -> pend_ok e -> all_vlegal cf m ds vars e prog ->
  exists xs vars' e', vrun cf m ds vars e prog = Ok (xs, vars', e') /\ Forall (inside T) vars' /\ pend_ok e'.
Proof.
  intros cf m T ds dls vars e prog U W S C HV He HL.
  destruct (runs_agree cf cf m m T T ds ds dls U U W W S S C C (self_at cf m T) prog vars vars e) as (xs & v1 & v2 & e' & E1 & E2 & F & He'); auto.
  - clear HL. induction HV; constructor; auto using same_inside.
  - clear HL. induction prog as [|o t IH]; constructor; auto. unfold same_range. destruct (vo_f o); auto.
  - exists xs, v1, e'. split; [exact E1|]. split; [|exact He']. clear E1 E2. induction F as [|a b l l' H F IH]; constructor; auto. apply inside_same in H. apply H.
Qed.
Theorem viewprog_same : forall cf1 cf2 m1 m2 T1 T2 ds1 ds2 dls vars1 vars2 e prog,
  usual cf1 -> usual cf2 -> mem_wf m1 -> mem_wf m2 -> stored m1 T1 -> stored m2 T2 -> apart T1 ->
  Forall2 (c_string m1) ds1 dls -> Forall2 (c_string m2) ds2 dls -> Forall2 (same_part T1 T2) vars1 vars2 -> pend_ok e ->
  Forall (same_range cf1 cf2) prog -> all_vlegal cf1 m1 ds1 vars1 e prog ->
  exists xs vars1' vars2' e', vrun cf1 m1 ds1 vars1 e prog = Ok (xs, vars1', e') /\ vrun cf2 m2 ds2 vars2 e prog = Ok (xs, vars2', e') /\
    Forall2 (same_part T1 T2) vars1' vars2'.
Proof.
  intros cf1 cf2 m1 m2 T1 T2 ds1 ds2 dls vars1 vars2 e prog U1 U2 W1 W2 S1 S2 HA C1 C2 HV He HR HL.
  destruct (runs_agree cf1 cf2 m1 m2 T1 T2 ds1 ds2 dls U1 U2 W1 W2 S1 S2 C1 C2 (apart_at cf1 cf2 m1 m2 T1 T2 S1 HA) prog vars1 vars2 e)
    as (xs & v1 & v2 & e' & E1 & E2 & F & _); auto.
  exists xs, v1, v2, e'. auto.
Qed.
