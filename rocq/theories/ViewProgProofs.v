(** Proofs for programs on views: two runs on the same texts agree, call by call. *)
From Verif Require Import Base Mem Libc StrviewModel StrnumModel Spec MemLemmas NumSpec NumSpec2 StrviewProofs StrviewProofs2
  StrviewProofs3 StrviewProofs4 NumB0Proofs ViewProg.

(** A part of a view: invalid, or offset and length. *)
Definition place (s : view) (c : option (Z * Z)) : view := match c with None => INVALID | Some (i, n) => subview s i n end.
Definition fits_in (o : option (list Z)) (c : option (Z * Z)) : Prop :=
  match c with None => True | Some (i, n) => 0 <= i /\ 0 <= n /\ i + n <= Zlen (contents o) end.

Definition agree (s1 s2 : view) (o : option (list Z)) (r1 r2 : outcome (list Z * view * view * Z)) : Prop :=
  exists x cr cs e, r1 = Ok (x, place s1 cr, place s1 cs, e) /\ r2 = Ok (x, place s2 cr, place s2 cs, e) /\
    fits_in o cr /\ fits_in o cs /\ pend_ok e.

Lemma place_all : forall m s o, denotes m s o -> place s (Some (0, Zlen (contents o))) = s.
Proof.
  intros m s [l|] H; cbn in *; [apply subview_0; symmetry; apply (has_view_size _ _ _ H)|subst; reflexivity].
Qed.
Lemma fits_all : forall o, fits_in o (Some (0, Zlen (contents o))).
Proof. intros o. cbn. pose proof (Zlen_nonneg (contents o)). lia. Qed.

Lemma agree_view : forall s1 s2 m1 m2 o e c r1 r2, denotes m1 s1 o -> denotes m2 s2 o -> pend_ok e ->
  r1 = Ok (place s1 c) -> r2 = Ok (place s2 c) -> fits_in o c ->
  agree s1 s2 o (only_view s1 e r1) (only_view s2 e r2).
Proof.
  intros s1 s2 m1 m2 o e c r1 r2 D1 D2 He -> -> F. exists [], c, (Some (0, Zlen (contents o))), e. unfold only_view. cbn [bind].
  rewrite (place_all _ _ _ D1), (place_all _ _ _ D2). do 2 (split; [reflexivity|]). split; [exact F|]. split; [apply fits_all|exact He].
Qed.
Lemma agree_num : forall s1 s2 m1 m2 o e x, denotes m1 s1 o -> denotes m2 s2 o -> pend_ok e ->
  agree s1 s2 o (Ok (x, INVALID, s1, e)) (Ok (x, INVALID, s2, e)).
Proof.
  intros s1 s2 m1 m2 o e x D1 D2 He. exists x, None, (Some (0, Zlen (contents o))), e.
  rewrite (place_all _ _ _ D1), (place_all _ _ _ D2). do 2 (split; [reflexivity|]). split; [exact I|]. split; [apply fits_all|exact He].
Qed.
Lemma agree_bool : forall s1 s2 m1 m2 o e b1 b2 r1 r2, denotes m1 s1 o -> denotes m2 s2 o -> pend_ok e ->
  r1 = Ok b1 -> r2 = Ok b2 -> (b1 = true <-> b2 = true) -> agree s1 s2 o (only_bool s1 e r1) (only_bool s2 e r2).
Proof.
  intros s1 s2 m1 m2 o e b1 b2 r1 r2 D1 D2 He -> -> Hb. apply eq_true_iff_eq in Hb. subst b2. unfold only_bool. cbn [bind].
  eapply agree_num; eassumption.
Qed.
Lemma agree_both : forall s1 s2 o e c1 c2 r1 r2, pend_ok e -> r1 = Ok (place s1 c1, Some (place s1 c2)) -> r2 = Ok (place s2 c1, Some (place s2 c2)) ->
  fits_in o c1 -> fits_in o c2 -> agree s1 s2 o (both s1 e r1) (both s2 e r2).
Proof. intros s1 s2 o e c1 c2 r1 r2 He -> -> F1 F2. exists [], c1, c2, e. unfold both. cbn [bind]. auto 10. Qed.

(** ** One function at a time *)
Definition sub_cut (l : list Z) (b e : Z) : option (Z * Z) :=
  let n := Zlen l in let b' := py_index n b in let e' := py_index n e in
  if n =? 0 then Some (0, 0)
  else if (b' <=? e') && (b' <? n) && (0 <=? e') then Some (Z.max 0 b', Z.min n e' - Z.max 0 b') else None.
Lemma sub_at : forall cf m s o b e, denotes m s o -> INT_MIN <= b <= INT_MAX -> INT_MIN <= e <= INT_MAX ->
  strview_sub cf m s b e = Ok (place s (sub_cut (contents o) b e)) /\ fits_in o (sub_cut (contents o) b e).
Proof.
  intros cf m s [l|] b e D Hb He.
  2:{ cbn in D. subst s. rewrite sub_invalid. cbn. split; [reflexivity|lia]. }
  cbn [denotes contents fits_in] in *. unfold sub_cut. cbv zeta.
  destruct (Zlen l =? 0) eqn:E0.
  - apply Z.eqb_eq, Zlen_0 in E0. subst l. rewrite (sub_empty cf m s b e D). cbn [place]. rewrite subview_0 by (symmetry; apply (has_view_size _ _ _ D)).
    split; [reflexivity|cbn; lia].
  - assert (l <> []) as Hn by (intros ->; discriminate).
    destruct ((py_index (Zlen l) b <=? py_index (Zlen l) e) && (py_index (Zlen l) b <? Zlen l) && (0 <=? py_index (Zlen l) e)) eqn:Ein.
    + rewrite !andb_true_iff, !Z.leb_le, Z.ltb_lt in Ein. destruct Ein as [[E1 E2] E3].
      destruct (sub_ok cf m s l b e D Hn Hb He (conj E1 (conj E2 E3))) as (x & y & z & El & Lx & Ly & -> & _).
      cbn [place]. replace (Z.min (Zlen l) (py_index (Zlen l) e) - Z.max 0 (py_index (Zlen l) b)) with (Zlen y) by lia. rewrite <- Lx.
      split; [reflexivity|]. cbn [fits_in contents]. rewrite El. rewrite !Zlen_app. pose proof (Zlen_nonneg x). pose proof (Zlen_nonneg y). pose proof (Zlen_nonneg z). lia.
    + rewrite (sub_out cf m s l b e D Hn Hb He); [split; [reflexivity|exact I]|].
      intros (P1 & P2 & P3). rewrite !andb_false_iff, !Z.leb_gt, Z.ltb_ge in Ein. lia.
Qed.

Lemma drop_in_le : forall cs l, Zlen (drop_in cs l) <= Zlen l.
Proof. intros cs l. destruct (drop_in_spec cs l) as (a & E & _). rewrite E at 2. rewrite Zlen_app. pose proof (Zlen_nonneg a). lia. Qed.
Lemma drop_in_end_le : forall cs l, Zlen (drop_in_end cs l) <= Zlen l.
Proof. intros cs l. destruct (drop_in_end_spec cs l) as (a & E & _). rewrite E at 2. rewrite Zlen_app. pose proof (Zlen_nonneg a). lia. Qed.

Lemma set_usual : forall cf o, usual cf -> set_ok cf o.
Proof. intros cf o (H & _) _. now right. Qed.

Lemma trim_start_at : forall cf m s a o oa, usual cf -> denotes m s o -> denotes m a oa ->
  let d := Zlen (drop_in (contents oa) (contents o)) in
  strview_trim_start cf m s a = Ok (place s (Some (Zlen (contents o) - d, d))) /\ fits_in o (Some (Zlen (contents o) - d, d)).
Proof.
  intros cf m s a [l|] oa U D Da d; subst d.
  - cbn [denotes contents] in *. rewrite (trim_start_ok cf m s a l oa D Da (set_usual cf oa U)). split; [reflexivity|].
    cbn [fits_in contents]. pose proof (drop_in_le (contents oa) l). pose proof (Zlen_nonneg (drop_in (contents oa) l)). lia.
  - cbn in D. subst s. rewrite trim_start_invalid. cbn. split; [reflexivity|lia].
Qed.
Lemma trim_end_at : forall cf m s a o oa, usual cf -> denotes m s o -> denotes m a oa ->
  let d := Zlen (drop_in_end (contents oa) (contents o)) in
  strview_trim_end cf m s a = Ok (place s (Some (0, d))) /\ fits_in o (Some (0, d)).
Proof.
  intros cf m s a [l|] oa U D Da d; subst d.
  - cbn [denotes contents] in *. rewrite (trim_end_ok cf m s a l oa D Da (set_usual cf oa U)). split; [reflexivity|].
    cbn [fits_in contents]. pose proof (drop_in_end_le (contents oa) l). pose proof (Zlen_nonneg (drop_in_end (contents oa) l)). lia.
  - cbn in D. subst s. rewrite trim_end_invalid. cbn. split; [reflexivity|lia].
Qed.
Lemma trim_start_view : forall m s l cs, has_view m s l -> has_view m (subview s (Zlen l - Zlen (drop_in cs l)) (Zlen (drop_in cs l))) (drop_in cs l).
Proof.
  intros m s l cs H. destruct (drop_in_spec cs l) as (a & E & _). pose proof H as H'. rewrite E in H'. apply has_view_suffix in H'.
  replace (Zlen l - Zlen (drop_in cs l)) with (Zlen a); [exact H'|]. rewrite E at 1. rewrite Zlen_app. lia.
Qed.
Lemma trim_at : forall cf m s a o oa, usual cf -> denotes m s o -> denotes m a oa ->
  let l1 := drop_in (contents oa) (contents o) in let c := Some (Zlen (contents o) - Zlen l1, Zlen (drop_in_end (contents oa) l1)) in
  strview_trim cf m s a = Ok (place s c) /\ fits_in o c.
Proof.
  intros cf m s a [l|] oa U D Da l1 c.
  - subst c. cbn [denotes contents place fits_in] in *. unfold strview_trim.
    rewrite (trim_start_ok cf m s a l oa D Da (set_usual cf oa U)). cbn [bind].
    rewrite (trim_end_ok cf m _ a l1 oa (trim_start_view m s l (contents oa) D) Da (set_usual cf oa U)).
    rewrite subview_subview, Z.add_0_r. split; [reflexivity|]. subst l1.
    pose proof (drop_in_le (contents oa) l). pose proof (drop_in_end_le (contents oa) (drop_in (contents oa) l)). pose proof (Zlen_nonneg (drop_in_end (contents oa) (drop_in (contents oa) l))). lia.
  - cbn in D. subst s c l1. unfold strview_trim. rewrite trim_start_invalid. cbn [bind]. rewrite trim_end_invalid. cbn. split; [reflexivity|lia].
Qed.

Lemma is_greatest_unique : forall P i j, is_greatest P i -> is_greatest P j -> i = j.
Proof.
  intros P i j [Pi Li] [Pj Lj]. destruct (Nat.lt_trichotomy i j) as [H|[H|H]]; [exfalso; exact (Li _ H Pj)|exact H|exfalso; exact (Lj _ H Pi)].
Qed.
Lemma occurs_fits : forall (f : Z -> Z) (l n : list Z) k, occurs (map f l) (map f n) k -> Z.of_nat k + Zlen n <= Zlen l.
Proof.
  intros f l n k (a & b & E & <-). apply (f_equal (@length Z)) in E. rewrite !app_length, !map_length in E. unfold Zlen. lia.
Qed.

Section Two.
Variables (cf1 cf2 : cfg) (m1 m2 : mem).
Hypotheses (U1 : usual cf1) (U2 : usual cf2) (W1 : mem_wf m1) (W2 : mem_wf m2).
Variables (s1 s2 a1 a2 : view) (o oa : option (list Z)) (e : Z).
Hypotheses (D1 : denotes m1 s1 o) (D2 : denotes m2 s2 o) (A1 : denotes m1 a1 oa) (A2 : denotes m2 a2 oa) (He : pend_ok e).

Lemma find_agree : forall (last : bool) comp1 comp2 f, comp_ok f comp1 -> comp_ok f comp2 ->
  agree s1 s2 o
    (only_view s1 e (if last then find_last cf1 m1 comp1 s1 a1 else find_first cf1 m1 comp1 s1 a1))
    (only_view s2 e (if last then find_last cf2 m2 comp2 s2 a2 else find_first cf2 m2 comp2 s2 a2)).
Proof.
  intros last comp1 comp2 f C1 C2.
  assert (forall cf m comp s a, usual cf -> s = INVALID \/ a = INVALID ->
    (if last then find_last cf m comp s a else find_first cf m comp s a) = Ok INVALID) as Inv.
  { intros cf m comp s a (Up & _) H. destruct last.
    - unfold find_last, padd. rewrite Up. destruct H as [-> | ->]; cbn; rewrite ?orb_true_r, ?andb_false_r.
      + destruct (- v_size a =? 0); reflexivity.
      + destruct (p_obj (v_data s)) eqn:Eo, ((p_ofs (v_data s) =? 0) && (v_size s - 0 =? 0)); cbn; rewrite ?andb_false_r; reflexivity.
    - apply find_first_null. destruct H as [-> | ->]; auto. }
  destruct o as [l|] eqn:Eo; [|cbn in D1, D2; eapply (agree_view _ _ m1 m2 _ e None); [rewrite D1; reflexivity|rewrite D2; reflexivity|exact He|apply Inv; auto|apply Inv; auto|exact I]].
  destruct oa as [n|] eqn:Ea; [|cbn in A1, A2; eapply (agree_view _ _ m1 m2 _ e None); [exact D1|exact D2|exact He|apply Inv; auto|apply Inv; auto|exact I]].
  cbn [denotes] in *. destruct last.
  - destruct (find_last_ok cf1 comp1 f m1 s1 a1 l n (proj1 U1) C1 D1 A1) as [(k & K & E1)|(N & E1)];
    destruct (find_last_ok cf2 comp2 f m2 s2 a2 l n (proj1 U2) C2 D2 A2) as [(k' & K' & E2)|(N' & E2)].
    + rewrite (is_greatest_unique _ _ _ K' K) in E2. eapply (agree_view _ _ m1 m2 (Some l) e (Some (Z.of_nat k, Zlen n))); eauto.
      cbn. pose proof (occurs_fits _ _ _ _ (proj1 K)). pose proof (Zlen_nonneg n). lia.
    + exfalso. exact (N' _ (proj1 K)).
    + exfalso. exact (N _ (proj1 K')).
    + eapply (agree_view _ _ m1 m2 (Some l) e None); eauto. exact I.
  - destruct (find_first_ok cf1 comp1 f m1 s1 a1 l n C1 D1 A1) as [(k & K & E1)|(N & E1)];
    destruct (find_first_ok cf2 comp2 f m2 s2 a2 l n C2 D2 A2) as [(k' & K' & E2)|(N' & E2)].
    + rewrite (is_least_unique _ _ _ K' K) in E2. eapply (agree_view _ _ m1 m2 (Some l) e (Some (Z.of_nat k, Zlen n))); eauto.
      cbn. pose proof (occurs_fits _ _ _ _ (proj1 K)). pose proof (Zlen_nonneg n). lia.
    + exfalso. exact (N' _ (proj1 K)).
    + exfalso. exact (N _ (proj1 K')).
    + eapply (agree_view _ _ m1 m2 (Some l) e None); eauto. exact I.
Qed.

Lemma nil_or : forall (l : list Z), Zlen l = 0 \/ 0 < Zlen l.
Proof. intros l. pose proof (Zlen_nonneg l). lia. Qed.

Lemma delim_fits : forall l a d b, l = a ++ d :: b ->
  fits_in (Some l) (Some (0, Zlen a)) /\ fits_in (Some l) (Some (if Zlen b =? 0 then Zlen a else Zlen a + 1, Zlen b)).
Proof.
  intros l a d b ->. cbn [fits_in contents]. rewrite Zlen_app, Zlen_cons. pose proof (Zlen_nonneg a). pose proof (Zlen_nonneg b).
  destruct (Zlen b =? 0) eqn:E; [apply Z.eqb_eq in E|]; lia.
Qed.

Lemma delim_agree : forall (last exq : bool) p1 p2 dl, c_string m1 p1 dl -> c_string m2 p2 dl ->
  agree s1 s2 o
    (both s1 e (if last then strview_split_last_delim cf1 m1 (Some s1) p1 exq else strview_split_first_delim cf1 m1 (Some s1) p1 exq))
    (both s2 e (if last then strview_split_last_delim cf2 m2 (Some s2) p2 exq else strview_split_first_delim cf2 m2 (Some s2) p2 exq)).
Proof.
  intros last exq p1 p2 dl P1 P2. destruct (cstr_ok m1 p1 dl P1) as [C1 V1]. destruct (cstr_ok m2 p2 dl P2) as [C2 V2].
  unfold strview_split_last_delim, strview_split_first_delim. rewrite C1, C2. cbn [bind].
  destruct o as [l|] eqn:Eo.
  2:{ cbn in D1, D2. subst s1 s2. eapply (agree_both _ _ None e None None); [exact He| | |exact I|exact I]; destruct last; reflexivity. }
  cbn [denotes] in *. destruct last.
  - destruct (split_last_ok cf1 m1 s1 _ l dl exq (proj1 U1) D1 V1) as [(a & d & b & E1 & G1 & -> & _)|(N & ->)];
    destruct (split_last_ok cf2 m2 s2 _ l dl exq (proj1 U2) D2 V2) as [(a' & d' & b' & E2 & G2 & -> & _)|(N' & ->)].
    + pose proof (is_greatest_unique _ _ _ G1 G2) as La. destruct (delim_fits l a d b E1) as [F1 F2]. rewrite E1 in E2. apply app_same_len in E2 as [<- Eb]; auto.
      injection Eb as <- <-. eapply (agree_both _ _ (Some l) e (Some (_, _)) (Some (0, _))); [exact He|reflexivity|reflexivity|exact F2|exact F1].
    + exfalso. exact (N' _ (proj1 G1)).
    + exfalso. exact (N _ (proj1 G2)).
    + eapply (agree_both _ _ (Some l) e (Some (0, Zlen l)) None); [exact He| | |apply (fits_all (Some l))|exact I]; cbn [bind].
      * now rewrite (place_all m1 s1 (Some l) D1 : place s1 (Some (0, Zlen l)) = s1).
      * now rewrite (place_all m2 s2 (Some l) D2 : place s2 (Some (0, Zlen l)) = s2).
  - destruct (split_first_ok cf1 m1 s1 _ l dl exq D1 V1) as [(a & d & b & E1 & G1 & -> & _)|(N & ->)];
    destruct (split_first_ok cf2 m2 s2 _ l dl exq D2 V2) as [(a' & d' & b' & E2 & G2 & -> & _)|(N' & ->)].
    + pose proof (is_least_unique _ _ _ G1 G2) as La. destruct (delim_fits l a d b E1) as [F1 F2]. rewrite E1 in E2. apply app_same_len in E2 as [<- Eb]; auto.
      injection Eb as <- <-. eapply (agree_both _ _ (Some l) e (Some (0, _)) (Some (_, _))); [exact He|reflexivity|reflexivity|exact F1|exact F2].
    + exfalso. exact (N' _ (proj1 G1)).
    + exfalso. exact (N _ (proj1 G2)).
    + eapply (agree_both _ _ (Some l) e (Some (0, Zlen l)) None); [exact He| | |apply (fits_all (Some l))|exact I]; cbn [bind].
      * now rewrite (place_all m1 s1 (Some l) D1 : place s1 (Some (0, Zlen l)) = s1).
      * now rewrite (place_all m2 s2 (Some l) D2 : place s2 (Some (0, Zlen l)) = s2).
Qed.


Lemma split_index_invalid : forall cf m i, usual cf -> INT_MIN <= i <= INT_MAX -> split_index cf m INVALID i = Ok (INVALID, INVALID).
Proof.
  intros cf m i (U & _) Hi. unfold split_index. cbn [INVALID v_size v_data].
  assert ((if i <? 0 then iadd cf 0 i else Ok i) = Ok i) as ->.
  { destruct (i <? 0); [|reflexivity]. rewrite iadd_ok by lia. reflexivity. }
  cbn [bind]. assert ((if 0 <? (if i <? 0 then 0 else i) then 0 else (if i <? 0 then 0 else i)) = 0) as ->.
  { destruct (i <? 0) eqn:E; [reflexivity|]. apply Z.ltb_ge in E. destruct (0 <? i) eqn:E2; [reflexivity|]. apply Z.ltb_ge in E2. lia. }
  unfold padd. cbn. rewrite U, orb_true_r. cbn.
  destruct (i <? 0); reflexivity.
Qed.

Lemma index_agree : forall i, INT_MIN <= i <= INT_MAX ->
  agree s1 s2 o (both s1 e (strview_split_index cf1 m1 (Some s1) i)) (both s2 e (strview_split_index cf2 m2 (Some s2) i)).
Proof.
  intros i Hi. unfold strview_split_index. destruct o as [l|] eqn:Eo.
  2:{ cbn in D1, D2. rewrite D1, D2, !split_index_invalid by auto. eapply (agree_both _ _ None e None None); auto; exact I. }
  cbn [denotes] in *.
  destruct (split_index_ok cf1 m1 s1 l i D1 Hi) as (a & b & E1 & L1 & -> & _).
  destruct (split_index_ok cf2 m2 s2 l i D2 Hi) as (a' & b' & E2 & L2 & -> & _).
  rewrite <- L1 in L2. rewrite E1 in E2. apply app_same_len in E2 as [<- <-]; [|unfold Zlen in L2; lia].
  assert (fits_in (Some l) (Some (0, Zlen a)) /\ fits_in (Some l) (Some (Zlen a, Zlen b))) as [F1 F2].
  { rewrite E1. cbn. rewrite Zlen_app. pose proof (Zlen_nonneg a). pose proof (Zlen_nonneg b). lia. }
  destruct (i <? 0).
  - eapply (agree_both _ _ (Some l) e (Some (_, _)) (Some (0, _))); [exact He|reflexivity|reflexivity|exact F2|exact F1].
  - eapply (agree_both _ _ (Some l) e (Some (0, _)) (Some (_, _))); [exact He|reflexivity|reflexivity|exact F1|exact F2].
Qed.

Lemma at_agree : forall (right : bool),
  (s1 = INVALID /\ s2 = INVALID \/ a1 = INVALID /\ a2 = INVALID \/
   exists d, pdiff cf1 m1 (v_data a1) (v_data s1) = Ok d /\ pdiff cf2 m2 (v_data a2) (v_data s2) = Ok d) ->
  agree s1 s2 o
    (both s1 e (if right then strview_split_right cf1 m1 (Some s1) a1 else strview_split_left cf1 m1 (Some s1) a1))
    (both s2 e (if right then strview_split_right cf2 m2 (Some s2) a2 else strview_split_left cf2 m2 (Some s2) a2)).
Proof.
  intros right H.
  assert (s1 = INVALID /\ s2 = INVALID \/ a1 = INVALID /\ a2 = INVALID ->
    agree s1 s2 o
    (both s1 e (if right then strview_split_right cf1 m1 (Some s1) a1 else strview_split_left cf1 m1 (Some s1) a1))
    (both s2 e (if right then strview_split_right cf2 m2 (Some s2) a2 else strview_split_left cf2 m2 (Some s2) a2))) as Inv.
  { intros K. assert (forall cf m s a, s = INVALID \/ a = INVALID ->
      (if right then strview_split_right cf m (Some s) a else strview_split_left cf m (Some s) a) = Ok (INVALID, Some s)) as Q.
    { intros cf m s a [-> | ->]; unfold strview_split_left, strview_split_right; cbn; rewrite ?andb_false_r; destruct right; reflexivity. }
    eapply (agree_both _ _ o e None (Some (0, Zlen (contents o)))); [exact He| | |exact I|apply fits_all].
    - rewrite (place_all _ _ _ D1). apply Q. tauto.
    - rewrite (place_all _ _ _ D2). apply Q. tauto. }
  destruct H as [H|[H|(d & P1 & P2)]]; [apply Inv; auto|apply Inv; auto|].
  destruct o as [l|] eqn:Eo; [|apply Inv; auto]. destruct oa as [n|] eqn:Ea; [|apply Inv; auto]. clear Inv.
  cbn [denotes] in *.
  assert (forall x, (0 <=? x) && (x <=? Zlen l) = true -> fits_in (Some l) (Some (0, x)) /\ fits_in (Some l) (Some (x, Zlen l - x))) as F.
  { intros x Hx. rewrite andb_true_iff, !Z.leb_le in Hx. cbn. lia. }
  destruct right.
  - apply (pdiff_shift_arg_l _ _ _ _ _ (Zlen n)) in P1, P2.
    rewrite (split_right_gen cf1 m1 s1 l a1 n _ D1 A1 P1), (split_right_gen cf2 m2 s2 l a2 n _ D2 A2 P2).
    destruct ((0 <=? d + Zlen n) && (d + Zlen n <=? Zlen l)) eqn:E.
    + destruct (F _ E). eapply (agree_both _ _ (Some l) e (Some (_, _)) (Some (0, _))); [exact He|reflexivity|reflexivity|assumption|assumption].
    + eapply (agree_both _ _ (Some l) e None (Some (0, Zlen l))); [exact He| | |exact I|apply (fits_all (Some l))].
      * now rewrite (place_all m1 s1 (Some l) D1 : place s1 (Some (0, Zlen l)) = s1).
      * now rewrite (place_all m2 s2 (Some l) D2 : place s2 (Some (0, Zlen l)) = s2).
  - rewrite (split_left_gen cf1 m1 s1 l a1 _ D1 (has_view_nonnull _ _ _ A1) P1), (split_left_gen cf2 m2 s2 l a2 _ D2 (has_view_nonnull _ _ _ A2) P2).
    destruct ((0 <=? d) && (d <=? Zlen l)) eqn:E.
    + destruct (F _ E). eapply (agree_both _ _ (Some l) e (Some (0, _)) (Some (_, _))); [exact He|reflexivity|reflexivity|assumption|assumption].
    + eapply (agree_both _ _ (Some l) e None (Some (0, Zlen l))); [exact He| | |exact I|apply (fits_all (Some l))].
      * now rewrite (place_all m1 s1 (Some l) D1 : place s1 (Some (0, Zlen l)) = s1).
      * now rewrite (place_all m2 s2 (Some l) D2 : place s2 (Some (0, Zlen l)) = s2).
Qed.

Lemma pop_at : forall cf m s, denotes m s o ->
  strview_pop_first_char cf m (Some s) =
  Ok (hd 0 (contents o), Some (place s (Some (match contents o with [] => 0 | _ => 1 end, Zlen (tl (contents o)))))).
Proof.
  intros cf m s D. destruct o as [[|x l]|] eqn:Eo; cbn [contents hd tl denotes place] in *.
  - rewrite pop_empty by (apply (has_view_size _ _ _ D)). rewrite subview_0 by (symmetry; apply (has_view_size _ _ _ D)). reflexivity.
  - apply (proj1 (pop_ok cf m s x l D)).
  - subst s. reflexivity.
Qed.
Lemma pop_agree : 
  agree s1 s2 o (vcall cf1 m1 [] FPop s1 a1 e) (vcall cf2 m2 [] FPop s2 a2 e).
Proof.
  cbn [vcall]. rewrite (pop_at cf1 m1 s1 D1), (pop_at cf2 m2 s2 D2). cbn [bind].
  exists [hd 0 (contents o)], None. do 2 eexists. split; [reflexivity|]. split; [reflexivity|]. split; [exact I|]. split; [|exact He].
  destruct (contents o) as [|x l] eqn:E; cbn [fits_in tl]; rewrite E; [cbn; lia|]. rewrite Zlen_cons. pose proof (Zlen_nonneg l). lia.
Qed.

(** Where a line and the rest are. *)
Definition line_cuts (e : Z) (l : list Z) : option (Z * Z) * option (Z * Z) * Z :=
  let l1 := drop_half e l in let k := Zlen l - Zlen l1 in
  match until_eol l1 with
  | None => (None, Some (k, Zlen l1), e)
  | Some (a, d, []) => (Some (k, Zlen a), Some (k + Zlen a, 0), d)
  | Some (a, d, y :: t) => if y =? other_eol d then (Some (k, Zlen a), Some (k + (Zlen a + 1 + 1), Zlen t), 0)
                           else (Some (k, Zlen a), Some (k + (Zlen a + 1), Zlen (y :: t)), d)
  end.
Lemma line_at : forall cf m s l eol e0, has_view m s l -> l <> [] -> e0 = match eol with Some x => x | None => 0 end -> pend_ok e0 ->
  strview_split_line cf m (Some s) eol =
  Ok (place s (fst (fst (line_cuts e0 l))), Some (place s (snd (fst (line_cuts e0 l)))),
      match eol with Some _ => Some (snd (line_cuts e0 l)) | None => None end).
Proof.
  intros cf m s l eol e0 H Hn He0 Hp. pose proof H as (HB & HS & HM & HF).
  assert (exists k src, has_view m src (drop_half e0 l) /\ src = subview s k (v_size src) /\ k = Zlen l - Zlen (drop_half e0 l) /\
    (match eol with
     | Some e => if e =? 0 then Ok s
                 else let! x := load_byte m (v_data s) in
                      if char_int cf e + char_int cf x =? CR + LF then pop_view cf m s else Ok s
     | None => Ok s end) = Ok src) as (k & src & Hsrc & Esrc & Ek & Epop).
  { assert (forall e1, is_eol e1 = false -> drop_half e1 l = l) as D0.
    { intros e1 E0. unfold drop_half. rewrite E0. destruct l; auto. }
    destruct eol as [e1|].
    - cbn in He0. subst e1. destruct (e0 =? 0) eqn:E0.
      + apply Z.eqb_eq in E0. subst. rewrite D0 by reflexivity. exists 0, s. rewrite subview_0 by reflexivity. repeat split; auto; try apply H; lia.
      + assert (is_eol e0 = true) as Hee.
        { unfold is_eol. apply orb_true_iff. rewrite !Z.eqb_eq. apply Z.eqb_neq in E0. unfold pend_ok in Hp. lia. }
        destruct l as [|x t]; [congruence|]. pose proof (bytes_at_cons _ _ _ _ HB) as [Hx _]. rewrite Hx; cbn [bind].
        rewrite eol_sum by (auto; inversion HF; auto). cbn [drop_half]. rewrite Hee. cbn [andb].
        destruct (x =? other_eol e0) eqn:Ex.
        * rewrite (pop_view_ok cf m s x t H). exists 1, (subview s 1 (Zlen t)).
          repeat split; auto; try apply (proj2 (pop_ok cf m s x t H)). zl; lia.
        * exists 0, s. rewrite subview_0 by reflexivity. repeat split; auto; try apply H; lia.
    - rewrite D0 by (subst; reflexivity). exists 0, s. rewrite subview_0 by reflexivity. repeat split; auto; try apply H; lia. }
  unfold line_cuts. cbv zeta. rewrite <- Ek. set (l1 := drop_half e0 l) in *.
  assert (strview_split_line cf m (Some s) eol =
    (let! (result, src1) := split_first_delim cf m src (View (lit [CR; LF]) 2) false in
        if strview_is_valid src1 then
          let! pe := padd cf m (v_data result) (v_size result) in
          let! e := load_byte m pe in
          let! x := load_byte m (v_data src1) in
          let! (src2, e2) :=
            if char_int cf e + char_int cf x =? CR + LF
            then let! s := pop_view cf m src1 in Ok (s, 0)
            else Ok (src1, e) in
          Ok (result, Some src2, match eol with Some _ => Some e2 | None => None end)
        else Ok (INVALID, Some result, eol))) as ->.
  { unfold strview_split_line. rewrite HS. assert (0 < Zlen l) as Hl by (destruct l; [congruence|zl]).
    zb. rewrite Epop. reflexivity. }
  clear Epop.
  assert (has_view m (View (lit [CR; LF]) 2) [CR; LF]) as Hd.
  { apply lit_view'; [repeat constructor; unfold is_byte, CR, LF; lia|cbn; unfold INT_MAX; lia|reflexivity]. }
  destruct (split_first_ok cf m src _ l1 _ false Hsrc Hd) as [(a & d & b & El & Hle & -> & Ha & Hb)|(Hno & ->)]; cbn [bind].
  - rewrite (has_view_valid _ _ _ Hb). rewrite El in Hle. apply until_eol_some in Hle as [Eu Ed].
    rewrite El, Eu. pose proof Hsrc as (SB & SS & SM & SF). rewrite El in SB, SS, SM, SF.
    unfold subview at 1 2; cbn [v_data v_size]. rewrite shift_0.
    rewrite (padd_ok cf m (v_data src) (a ++ d :: b)) by (auto; zl). cbn [bind].
    rewrite (bytes_at_mid _ _ _ _ _ SB). cbn [bind].
    destruct b as [|y t].
    + change (Zlen (@nil Z) =? 0) with true in *. cbv iota in *. unfold subview at 1; cbn [v_data].
      rewrite (bytes_at_mid _ _ _ _ _ SB). cbn [bind].
      assert (is_byte d) as Hbd by (apply Forall_app in SF as [_ SF]; inversion SF; auto).
      rewrite eol_sum by auto.
      assert ((d =? other_eol d) = false) as ->.
      { unfold other_eol. destruct (d =? 13) eqn:E13; apply Z.eqb_neq; [apply Z.eqb_eq in E13|apply Z.eqb_neq in E13]; lia. }
      cbn [bind fst snd place]. rewrite Esrc, !subview_subview, Z.add_0_r. reflexivity.
    + assert ((Zlen (y :: t) =? 0) = false) as Ez by (zl; apply Z.eqb_neq; lia).
      rewrite Ez in *. pose proof Hb as (BB & _ & _ & BF). apply bytes_at_cons in BB as [BB _]. rewrite BB. cbn [bind].
      assert (is_byte y) as Hby by (inversion BF; auto).
      rewrite eol_sum by auto. destruct (y =? other_eol d) eqn:Ey.
      * rewrite (pop_view_ok cf m _ y t Hb). cbn [bind fst snd place]. rewrite Esrc, !subview_subview, Z.add_0_r.
        replace (k + (Zlen a + 1) + 1) with (k + (Zlen a + 1 + 1)) by lia. reflexivity.
      * cbn [bind fst snd place]. rewrite Esrc, !subview_subview, Z.add_0_r. reflexivity.
  - assert (until_eol l1 = None) as -> by (apply until_eol_none; auto). cbn [fst snd place].
    rewrite <- (has_view_size _ _ _ Hsrc), <- Esrc. destruct eol; subst; reflexivity.
Qed.
Lemma line_fits : forall e0 l, pend_ok e0 -> fits_in (Some l) (fst (fst (line_cuts e0 l))) /\ fits_in (Some l) (snd (fst (line_cuts e0 l))) /\ pend_ok (snd (line_cuts e0 l)).
Proof.
  intros e0 l Hp. unfold line_cuts. cbv zeta. pose proof (drop_half_len e0 l) as Ld. set (l1 := drop_half e0 l) in *. clearbody l1.
  pose proof (Zlen_nonneg l1).
  destruct (until_eol l1) as [[[a d] b]|] eqn:U.
  - apply until_eol_spec in U as (El & Ed & _). apply (f_equal Zlen) in El. rewrite Zlen_app, Zlen_cons in El.
    pose proof (Zlen_nonneg a). pose proof (Zlen_nonneg b).
    destruct b as [|y t]; [|rewrite Zlen_cons in *; pose proof (Zlen_nonneg t); destruct (y =? other_eol d)]; cbn [fst snd fits_in contents]; rewrite ?Zlen_nil, ?Zlen_cons in *;
      (split; [lia|]; split; [lia|]); auto using is_eol_pend. now left.
  - cbn [fst snd fits_in contents]. split; [exact I|]. split; [lia|exact Hp].
Qed.
Lemma line_agree : forall keep,
  agree s1 s2 o (vcall cf1 m1 [] (FLine keep) s1 a1 e) (vcall cf2 m2 [] (FLine keep) s2 a2 e).
Proof.
  intros keep. cbn [vcall].
  assert (forall cf m s, denotes m s o -> contents o = [] -> strview_split_line cf m (Some s) (if keep then Some e else None) = Ok (INVALID, Some s, if keep then Some e else None)) as Em.
  { intros cf m s D E. assert (v_size s = 0) as Es.
    { destruct o as [l|]; cbn in *; [rewrite (has_view_size _ _ _ D), E; reflexivity|subst; reflexivity]. }
    unfold strview_split_line. rewrite Es. reflexivity. }
  destruct (contents o) as [|x l] eqn:E.
  - rewrite (Em cf1 m1 s1 D1 eq_refl), (Em cf2 m2 s2 D2 eq_refl). cbn [bind].
    exists [], None, (Some (0, Zlen (contents o))), e. rewrite (place_all _ _ _ D1), (place_all _ _ _ D2).
    split; [destruct keep; reflexivity|]. split; [destruct keep; reflexivity|]. split; [exact I|]. split; [apply fits_all|exact He].
  - clear Em. destruct o as [l0|] eqn:Eo; [|discriminate]. cbn in E. subst l0. cbn [denotes] in *.
    set (e0 := match (if keep then Some e else None) with Some x => x | None => 0 end).
    assert (pend_ok e0) as He0 by (subst e0; destruct keep; [exact He|now left]).
    rewrite (line_at cf1 m1 s1 _ _ e0 D1 ltac:(discriminate) eq_refl He0), (line_at cf2 m2 s2 _ _ e0 D2 ltac:(discriminate) eq_refl He0). cbn [bind].
    destruct (line_fits e0 (x :: l) He0) as (F1 & F2 & F3).
    exists [], (fst (fst (line_cuts e0 (x :: l)))), (snd (fst (line_cuts e0 (x :: l)))), (if keep then snd (line_cuts e0 (x :: l)) else e).
    split; [destruct keep; reflexivity|]. split; [destruct keep; reflexivity|]. split; [exact F1|]. split; [exact F2|]. destruct keep; [exact F3|exact He].
Qed.
End Two.
