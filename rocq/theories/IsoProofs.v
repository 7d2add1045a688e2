(** Proofs about view programs in ISO C. *)
From Verif Require Import Base Mem Libc StrviewModel StrnumModel Spec MemLemmas NumSpec NumSpec2 StrviewProofs StrviewProofs2
  StrviewProofs3 StrviewProofs4 StrnumProofs NumB0Proofs ExactProofs StrictNum ViewProg ViewProgProofs ViewProgProofs2 PortSpec PortView PortProg IsoSpec.

(** Defined or not. *)
Definition fails {A} (x : outcome A) : Prop := exists u, x = UB u.
Definition works {A} (x : outcome A) : Prop := exists r, x = Ok r.
Definition decided {A} (P : Prop) (x : outcome A) : Prop := (P -> fails x) /\ (~ P -> works x).

Lemma fails_view : forall s e r, fails r -> fails (only_view s e r).
Proof. intros s e r [u ->]. exists u. reflexivity. Qed.
Lemma works_view : forall s e r, works r -> works (only_view s e r).
Proof. intros s e r [u ->]. eexists. reflexivity. Qed.
Lemma fails_bool : forall s e r, fails r -> fails (only_bool s e r).
Proof. intros s e r [u ->]. exists u. reflexivity. Qed.
Lemma works_bool : forall s e r, works r -> works (only_bool s e r).
Proof. intros s e r [u ->]. eexists. reflexivity. Qed.
Lemma fails_both : forall s e r, fails r -> fails (both s e r).
Proof. intros s e r [u ->]. exists u. reflexivity. Qed.
Lemma works_both : forall s e r, works r -> works (both s e r).
Proof. intros s e r [[v o] ->]. eexists. reflexivity. Qed.
Lemma decided_view : forall P s e r, decided P r -> decided P (only_view s e r).
Proof. intros P s e r [A B]. split; auto using fails_view, works_view. Qed.
Lemma decided_bool : forall P s e r, decided P r -> decided P (only_bool s e r).
Proof. intros P s e r [A B]. split; auto using fails_bool, works_bool. Qed.
Lemma decided_both : forall P s e r, decided P r -> decided P (both s e r).
Proof. intros P s e r [A B]. split; auto using fails_both, works_both. Qed.
Lemma never : forall {A} (x : outcome A), works x -> decided False x.
Proof. intros A x H. split; tauto. Qed.
Lemma always : forall {A} (x : outcome A), fails x -> decided True x.
Proof. intros A x H. split; tauto. Qed.

Section Strict.
Variables (cf : cfg) (m : mem).
Hypotheses (Kp : c_ptr cf = false) (Km : c_mem0 cf = false) (Kt : c_ctype cf = false) (W : mem_wf m).

Lemma null_0 : padd cf m null 0 = UB UB_ptr.
Proof. unfold padd. cbn. now rewrite Km, Kp. Qed.
Lemma null_any : forall i, padd cf m null i = UB UB_ptr.
Proof. intros i. unfold padd. cbn. rewrite Km, Kp. destruct (i =? 0); reflexivity. Qed.
Lemma contains_null : forall c, contains_char cf m INVALID c = UB UB_ptr.
Proof. intros c. unfold contains_char. cbn [INVALID v_data v_size]. now rewrite null_0. Qed.

Lemma trim_start_null : forall s x l, has_view m s (x :: l) -> strview_trim_start cf m s INVALID = UB UB_ptr.
Proof.
  intros s x l D. pose proof D as (HB & HS & _).
  unfold strview_trim_start. cbn [trim_start_loop]. rewrite HS.
  rewrite (proj2 (Z.eqb_neq _ _)) by (rewrite Zlen_cons; pose proof (Zlen_nonneg l); lia).
  apply bytes_at_cons in HB as [-> _]. cbn [bind]. now rewrite contains_null.
Qed.
Lemma trim_end_null : forall s x l, has_view m s (x :: l) -> strview_trim_end cf m s INVALID = UB UB_ptr.
Proof.
  intros s x l D. pose proof D as (HB & HS & _).
  unfold strview_trim_end. cbn [trim_end_loop]. rewrite HS.
  rewrite (proj2 (Z.eqb_neq _ _)) by (rewrite Zlen_cons; pose proof (Zlen_nonneg l); lia).
  rewrite (padd_ok cf m _ (x :: l)) by (auto; rewrite Zlen_cons; pose proof (Zlen_nonneg l); lia). cbn [bind].
  assert (exists y, load_byte m (shift (v_data s) (Zlen (x :: l) - 1)) = Ok y) as [y ->].
  { destruct (exists_last (l := x :: l)) as (p & y & E); [discriminate|]. exists y. rewrite E in HB |- *.
    rewrite Zlen_app. change (Zlen [y]) with 1. replace (Zlen p + 1 - 1) with (Zlen p) by lia. exact (bytes_at_mid _ _ _ _ _ HB). }
  cbn [bind]. now rewrite contains_null.
Qed.

Variables (s a : view) (o oa : option (list Z)).
Hypotheses (D : denotes m s o) (A : denotes m a oa).

Lemma trims : forall sd e, decided (iso_undefined (c_char_signed cf) (FTrim sd) s o oa)
  (vcall cf m [] (FTrim sd) s a e).
Proof.
  intros sd e.
  assert (set_ok cf oa \/ contents o = [] -> works (vcall cf m [] (FTrim sd) s a e)) as Wk.
  { intros H. assert (forall l, denotes m s (Some l) -> set_ok cf oa \/ l = [] -> works (strview_trim_start cf m s a) /\ works (strview_trim_end cf m s a) /\ works (strview_trim cf m s a)) as Q.
    { intros l Dl [Ok1| ->].
      - cbn [denotes] in Dl. unfold strview_trim. rewrite (trim_start_ok cf m s a l oa Dl A Ok1), (trim_end_ok cf m s a l oa Dl A Ok1). cbn [bind].
        rewrite (trim_end_ok cf m _ a _ oa (trim_start_view m s l (contents oa) Dl) A Ok1). repeat split; eexists; reflexivity.
      - destruct Dl as (_ & HS & _). unfold strview_trim, strview_trim_start, strview_trim_end. rewrite HS. cbn. rewrite HS. cbn. rewrite HS. cbn. repeat split; eexists; reflexivity. }
    assert (works (strview_trim_start cf m s a) /\ works (strview_trim_end cf m s a) /\ works (strview_trim cf m s a)) as (Q1 & Q2 & Q3).
    { destruct o as [l|] eqn:Eo; [apply (Q l D); exact H|]. cbn in D. subst s. unfold strview_trim. rewrite trim_start_invalid, trim_end_invalid. cbn [bind].
      rewrite trim_end_invalid. repeat split; eexists; reflexivity. }
    destruct sd; cbn [vcall]; now apply works_view. }
  destruct o as [[|x l]|] eqn:Eo; [apply never, Wk; now right| |apply never, Wk; now right].
  destruct oa as [n|] eqn:Ea; [apply never, Wk; left; intros K; discriminate|]. apply always.
  cbn [denotes] in *. subst a. destruct sd; cbn [vcall]; apply fails_view; exists UB_ptr; [exact (trim_start_null s x l D)|exact (trim_end_null s x l D)|].
  unfold strview_trim. now rewrite (trim_start_null s x l D).
Qed.

Lemma last_found : forall comp f l n, comp_ok f comp -> has_view m s l -> has_view m a n ->
  decided (p_ofs (v_data s) < Zlen n - Zlen l \/ at_front s /\ ~ exists k, occurs (map f l) (map f n) k) (find_last cf m comp s a).
Proof.
  intros comp f l n Hc Hs Ha. split.
  - intros H. exists UB_ptr. apply (find_last_ub cf comp f m s a l n Kp Hc Hs Ha).
    destruct H as [H|[H N]]; [now right|left]. split; [exact H|]. intros j J. apply N. now exists j.
  - intros H.
    assert (1 <= p_ofs (v_data s) \/ exists k, occurs (map f l) (map f n) k) as R.
    { destruct (Z_le_gt_dec 1 (p_ofs (v_data s))) as [G|G]; [now left|]. right.
      assert (0 <= p_ofs (v_data s)) as G0 by (destruct Hs as ((blk & _ & B & _) & _); lia).
      assert (at_front s) as F by (unfold at_front; lia).
      destruct (Z_lt_ge_dec (p_ofs (v_data s)) (Zlen n - Zlen l)) as [L|L]; [exfalso; apply H; now left|].
      assert (forall j, (exists k, occurs (map f l) (map f n) k) \/ forall k, (k < j)%nat -> ~ occurs (map f l) (map f n) k) as Q.
      { induction j as [|j IH]; [right; lia|]. destruct IH as [IH|IH]; [now left|].
        destruct (occurs_dec (map f l) (map f n) j) as [O|O]; [left; now exists j|]. right. intros k Hk. destruct (Nat.eq_dec k j) as [->|Ne]; [exact O|]. apply IH. lia. }
      destruct (Q (S (length l))) as [Y|N]; [exact Y|]. exfalso. apply H. right. split; [exact F|]. intros (k & O). apply (N k); [|exact O].
      pose proof (occurs_fits _ _ _ _ O). pose proof (Zlen_nonneg n). unfold Zlen in *. lia. }
    assert (Zlen n - Zlen l <= p_ofs (v_data s)) as L by (destruct (Z_lt_ge_dec (p_ofs (v_data s)) (Zlen n - Zlen l)); [exfalso; apply H; now left|lia]).
    destruct (find_last_room cf comp f m s a l n (or_intror L)) as [(k & _ & ->)|(_ & ->)]; auto; [|eexists; reflexivity|eexists; reflexivity].
    destruct R; auto. left. now right.
Qed.

Lemma finds : forall nocase e, decided (iso_undefined (c_char_signed cf) (FFind true nocase) s o oa) (vcall cf m [] (FFind true nocase) s a e).
Proof.
  intros nocase e. cbn [vcall].
  assert (forall comp f, comp_ok f comp -> decided (match o, oa with None, _ => True | Some l, Some n =>
      p_ofs (v_data s) < Zlen n - Zlen l \/ at_front s /\ ~ exists k, occurs (map f l) (map f n) k | Some _, None => False end) (find_last cf m comp s a)) as K.
  { intros comp f Hc. destruct o as [l|] eqn:Eo.
    - cbn [denotes] in D. destruct oa as [n|] eqn:Ea; [apply last_found; assumption|]. apply never. cbn in A. subst a. unfold find_last. cbn [INVALID v_size v_data].
      pose proof D as (HB & HS & _). rewrite HS, (padd_ok cf m _ l) by (auto; pose proof (Zlen_nonneg l); lia). cbn. rewrite andb_false_r. eexists. reflexivity.
    - apply always. cbn in D. subst s. unfold find_last. cbn [INVALID v_data]. rewrite null_any. eexists. reflexivity. }
  destruct nocase.
  - specialize (K _ _ (memcmp_nocase_ok cf)). unfold iso_undefined, absent. apply decided_view. destruct o, oa; exact K.
  - specialize (K _ _ (memcmp_ok cf)). unfold iso_undefined, absent. apply decided_view.
    destruct o, oa; try exact K. rewrite !map_id in K. exact K.
Qed.

Lemma delims : forall exq p dl e, c_string m p dl ->
  decided (match o with Some (_ :: _) => at_front s | _ => False end) (both s e (strview_split_last_delim cf m (Some s) p exq)).
Proof.
  intros exq p dl e P. destruct (cstr_ok m p dl P) as [C V]. apply decided_both. unfold strview_split_last_delim. rewrite C. cbn [bind].
  assert (forall l, denotes m s (Some l) -> l = [] \/ room cf (v_data s) 1 -> works (let! (r, s') := split_last_delim cf m s (View p (Zlen dl)) exq in Ok (r, Some s'))) as Wk.
  { intros l Dl R. destruct (split_last_room cf m s _ l dl exq R Dl V) as [(x & d & b & _ & _ & -> & _)|(_ & ->)]; eexists; reflexivity. }
  destruct o as [[|x l]|] eqn:Eo.
  - apply never, (Wk [] D). now left.
  - split.
    + intros F. exists UB_ptr. rewrite (split_last_ub cf m s _ (x :: l) dl exq Kp D V); [reflexivity|discriminate|exact F].
    + intros F. apply (Wk (x :: l) D). right. right. cbn [denotes] in D. destruct D as ((blk & _ & B & _) & _). unfold at_front in F. lia.
  - apply never. cbn in D. subst s. eexists. reflexivity.
Qed.

Lemma first_delims : forall exq p dl e, c_string m p dl -> works (both s e (strview_split_first_delim cf m (Some s) p exq)).
Proof.
  intros exq p dl e P. destruct (cstr_ok m p dl P) as [C V]. apply works_both. unfold strview_split_first_delim. rewrite C. cbn [bind].
  destruct o as [l|] eqn:Eo.
  - destruct (split_first_ok cf m s _ l dl exq D V) as [(x & d & b & _ & _ & -> & _)|(_ & ->)]; eexists; reflexivity.
  - cbn in D. subst s. eexists. reflexivity.
Qed.

Lemma firsts : forall comp f, comp_ok f comp -> works (find_first cf m comp s a).
Proof.
  intros comp f C. destruct o as [l|] eqn:Eo, oa as [n|] eqn:Ea; cbn [denotes] in *.
  - destruct (find_first_ok cf comp f m s a l n C D A) as [(k & _ & ->)|(_ & ->)]; eexists; reflexivity.
  - rewrite find_first_null by (subst; auto). eexists. reflexivity.
  - rewrite find_first_null by (subst; auto). eexists. reflexivity.
  - rewrite find_first_null by (subst; auto). eexists. reflexivity.
Qed.

Lemma indexes : forall i, INT_MIN <= i <= INT_MAX -> decided (o = None) (strview_split_index cf m (Some s) i).
Proof.
  intros i Hi. unfold strview_split_index. split.
  - intros ->. cbn in D. subst s. exists UB_ptr. unfold split_index. cbn [INVALID v_size v_data].
    assert ((if i <? 0 then iadd cf 0 i else Ok i) = Ok i) as ->.
    { destruct (i <? 0); [|reflexivity]. rewrite iadd_ok by lia. reflexivity. }
    cbn [bind]. now rewrite null_any.
  - intros H. destruct o as [l|]; [|congruence]. destruct (split_index_ok cf m s l i D Hi) as (x & b & _ & _ & -> & _). destruct (i <? 0); eexists; reflexivity.
Qed.

Lemma ats : forall right : bool, s = INVALID \/ a = INVALID \/ p_obj (v_data s) = p_obj (v_data a) ->
  works (if right then strview_split_right cf m (Some s) a else strview_split_left cf m (Some s) a).
Proof.
  intros right H.
  assert (s = INVALID \/ a = INVALID -> works (if right then strview_split_right cf m (Some s) a else strview_split_left cf m (Some s) a)) as Inv.
  { intros [-> | ->]; unfold strview_split_left, strview_split_right; cbn; rewrite ?andb_false_r; destruct right; eexists; reflexivity. }
  destruct o as [l|] eqn:Eo; [|apply Inv; auto]. destruct oa as [n|] eqn:Ea; [|apply Inv; auto]. cbn [denotes] in *.
  assert (p_obj (v_data s) = p_obj (v_data a)) as E.
  { destruct H as [H|[H|H]]; auto; exfalso; [apply has_view_valid in D; rewrite H in D; discriminate|apply has_view_valid in A; rewrite H in A; discriminate]. }
  assert (pdiff cf m (v_data a) (v_data s) = Ok (p_ofs (v_data a) - p_ofs (v_data s))) as P by (unfold pdiff; now rewrite E, pobj_eqb_refl).
  destruct right.
  - apply (pdiff_shift_arg_l _ _ _ _ _ (Zlen n)) in P. rewrite (split_right_gen cf m s l a n _ D A P).
    destruct (_ && _); eexists; reflexivity.
  - rewrite (split_left_gen cf m s l a _ D (has_view_nonnull _ _ _ A) P). destruct (_ && _); eexists; reflexivity.
Qed.

Lemma lines : forall keep e, pend_ok e -> works (vcall cf m [] (FLine keep) s a e).
Proof.
  intros keep e He. cbn [vcall]. destruct (contents o) as [|x l] eqn:E.
  - assert (v_size s = 0) as Es.
    { destruct o as [l|]; cbn in *; [rewrite (has_view_size _ _ _ D), E; reflexivity|subst; reflexivity]. }
    unfold strview_split_line. rewrite Es. eexists. reflexivity.
  - destruct o as [l0|] eqn:Eo; [|discriminate]. cbn in E. subst l0. cbn [denotes] in *.
    rewrite (line_at cf m s _ _ _ D ltac:(discriminate) eq_refl); [eexists; reflexivity|]. destruct keep; [exact He|now left].
Qed.
Lemma dequotes : works (strview_dequote cf m s).
Proof.
  destruct o as [l|] eqn:Eo; [destruct (dequote_ok cf m s l D) as (q & k & r & _ & _ & _ & -> & _); eexists; reflexivity|].
  cbn in D. subst s. eexists. reflexivity.
Qed.


Lemma memcmp_null : forall p, memcmp cf m null p 0 = UB UB_null /\ memcmp cf m p null 0 = UB UB_null.
Proof. intros p. unfold memcmp, zero_ok. rewrite Km. cbn [orb null p_obj access]. cbn. rewrite andb_false_r. auto. Qed.
Lemma nocase_null : forall p q, memcmp_nocase cf m p q 0 = Ok 0.
Proof. reflexivity. Qed.

Lemma matches : forall nocase e, decided (iso_undefined (c_char_signed cf) (FMatch nocase) s o oa) (vcall cf m [] (FMatch nocase) s a e).
Proof.
  intros nocase e. destruct nocase; cbn [vcall iso_undefined].
  - apply decided_bool. apply never.
    destruct (match_any (memcmp_nocase cf) upper m s a o oa (memcmp_nocase_ok cf) (memcmp_nocase_0 cf) W D A) as (r & E & _). exists r. exact E.
  - apply decided_bool. unfold iso_undefined. destruct o as [l|] eqn:Eo, oa as [n|] eqn:Ea; cbn [denotes] in *.
    + assert (works (strview_is_match cf m s a)) as K.
      { destruct (is_match_gen (memcmp cf) (fun x => x) m s a l n (memcmp_ok cf) W D A) as (r & E & _). exists r. exact E. }
      destruct l, n; apply never; exact K.
    + subst a. unfold strview_is_match. rewrite (has_view_size _ _ _ D). cbn [INVALID v_size v_data]. rewrite (null_peq' m s l W D). destruct l as [|x l].
      * apply always. change (Zlen (@nil Z) =? 0) with true. rewrite (proj2 (memcmp_null _)). exists UB_null. reflexivity.
      * apply never. replace (Zlen (x :: l) =? 0) with false by (symmetry; apply Z.eqb_neq; rewrite Zlen_cons; pose proof (Zlen_nonneg l); lia). eexists. reflexivity.
    + subst s. unfold strview_is_match. rewrite (has_view_size _ _ _ A). cbn [INVALID v_size v_data]. rewrite (null_peq m a n W A). destruct n as [|x n].
      * apply always. change (0 =? Zlen (@nil Z)) with true. rewrite (proj1 (memcmp_null _)). exists UB_null. reflexivity.
      * apply never. replace (0 =? Zlen (x :: n)) with false by (symmetry; apply Z.eqb_neq; rewrite Zlen_cons; pose proof (Zlen_nonneg n); lia). eexists. reflexivity.
    + apply never. subst s a. eexists. reflexivity.
Qed.
Lemma starts : forall nocase e, decided (iso_undefined (c_char_signed cf) (FStarts nocase) s o oa) (vcall cf m [] (FStarts nocase) s a e).
Proof.
  intros nocase e. destruct nocase; cbn [vcall iso_undefined].
  - apply decided_bool. apply never.
    destruct (starts_any_ok (memcmp_nocase cf) upper m s a o oa (memcmp_nocase_ok cf) (memcmp_nocase_0 cf) W D A) as (r & E & _). exists r. exact E.
  - apply decided_bool. destruct o as [l|] eqn:Eo, oa as [n|] eqn:Ea; cbn [denotes] in *.
    + assert (works (strview_starts_with cf m s a)) as K.
      { destruct (starts_with_gen (memcmp cf) (fun x => x) m s a l n (memcmp_ok cf) W D A) as (r & E & _). exists r. exact E. }
      apply never; exact K.
    + subst a. apply never. unfold strview_starts_with. eexists. reflexivity.
    + subst s. unfold strview_starts_with. rewrite (has_view_valid _ _ _ A), (has_view_size _ _ _ A). cbn [INVALID v_size v_data negb]. rewrite (null_peq m a n W A). destruct n as [|x n].
      * apply always. change (Zlen (@nil Z) <=? 0) with true. change (Zlen (@nil Z)) with 0. rewrite (proj1 (memcmp_null _)). exists UB_null. reflexivity.
      * apply never. replace (Zlen (x :: n) <=? 0) with false by (symmetry; apply Z.leb_gt; rewrite Zlen_cons; pose proof (Zlen_nonneg n); lia). eexists. reflexivity.
    + apply never. subst s a. eexists. reflexivity.
Qed.

Lemma nums : forall t opt e, decided (iso_undefined (c_char_signed cf) (FNum t opt) s o oa) (vcall cf m [] (FNum t opt) s a e).
Proof.
  intros t opt e. cbn [vcall].
  destruct (consumer cf t) as [f|] eqn:Ec.
  2:{ assert (has_parser t = false) as Hp by (destruct t; try reflexivity; discriminate). unfold iso_undefined. rewrite Hp.
      split; [intros H; destruct o; [destruct H as (_ & K & _); discriminate|contradiction]|intros _; eexists; reflexivity]. }
  assert (has_parser t = true) as Hp by (destruct t; try reflexivity; discriminate).
  destruct o as [l|] eqn:Eo; cbn [denotes] in *.
  2:{ apply never. subst s. assert (f m true (Some INVALID) opt = Ok (Parsed EINVAL None None)) as ->.
      { destruct t; cbn in Ec; try discriminate; injection Ec as <-; reflexivity. } eexists. reflexivity. }
  assert (forall x, result_of true s l x (f m true (Some s) opt) -> works (f m true (Some s) opt)) as Rk.
  { intros x R. unfold result_of in R. destruct x; [rewrite R; eexists; reflexivity|]. destruct R as (b & _ & _ & ->). eexists. reflexivity. }
  destruct (c_char_signed cf) eqn:Es.
  - destruct (consumer_strict cf m s l opt t f true Es Kt W D Ec) as [F1 F2]. unfold iso_undefined. rewrite Hp.
    assert (negative_after t opt l <-> int_stops (read_int_exact (ty_signed t) opt l)) as Q by reflexivity. split.
    + intros (_ & _ & N). rewrite (F1 (proj1 Q N)). exists UB_ctype. reflexivity.
    + intros N. destruct (Rk _ (F2 ltac:(intros K; apply N; split; [reflexivity|split; [reflexivity|apply Q, K]]))) as [[er v s'] ->]. eexists. reflexivity.
  - unfold iso_undefined. split; [intros (K & _); discriminate|]. intros _.
    pose proof (consumer_ok_x cf m s l opt W D) as C. destruct (Rk _ (C ltac:(right; now left) t f true Ec)) as [[er v s'] ->]. eexists. reflexivity.
Qed.
End Strict.

Lemma pops : forall cf m s o, denotes m s o ->
  strview_pop_first_char cf m (Some s) =
  Ok (hd 0 (contents o), Some (place s (Some (match contents o with [] => 0 | _ => 1 end, Zlen (tl (contents o)))))).
Proof. intros cf m s o D. eapply pop_at; eassumption. Qed.

(** ** Any function *)
Lemma strict_call : forall cf m ds dls f s a o oa e, c_ptr cf = false -> c_mem0 cf = false -> c_ctype cf = false -> mem_wf m ->
  denotes m s o -> denotes m a oa -> Forall2 (c_string m) ds dls -> vlegal ds f s a -> pend_ok e ->
  decided (iso_undefined (c_char_signed cf) f s o oa) (vcall cf m ds f s a e).
Proof.
  intros cf m ds dls f s a o oa e Kp Km Kt W D A S L He. destruct f; cbn [vlegal] in L.
  - apply never. eexists. reflexivity.
  - apply never. cbn [vcall]. apply works_view. destruct L as [L1 L2]. destruct (sub_at cf m s o b e0 D L1 L2) as [E _]. rewrite E. eexists. reflexivity.
  - exact (trims cf m Kp Km s a o oa D A sd e).
  - destruct last; [exact (finds cf m Kp Km s a o oa D A nocase e)|]. apply never. destruct nocase; cbn [vcall]; apply works_view.
    + exact (firsts cf m s a o oa D A _ _ (memcmp_nocase_ok cf)).
    + exact (firsts cf m s a o oa D A _ _ (memcmp_ok cf)).
  - pose proof (strings_nth m ds dls d S L) as P. destruct last; cbn [vcall].
    + pose proof (delims cf m Kp s o D exq _ _ e P) as K. destruct o as [[|x l]|]; exact K.
    + apply never. exact (first_delims cf m s o D exq _ _ e P).
  - cbn [vcall]. apply decided_both. pose proof (indexes cf m Kp Km s o D i L) as K. destruct o as [l|].
    + apply never, K. discriminate.
    + apply always, K. reflexivity.
  - apply never. pose proof (ats cf m s a o oa D A right L) as K. destruct right; cbn [vcall]; apply works_both, K.
  - apply never. cbn [vcall]. rewrite (pops cf m s o D). eexists. reflexivity.
  - apply never. exact (lines cf m s a o D keep e He).
  - apply never. cbn [vcall]. apply works_view. exact (dequotes cf m s o D).
  - exact (matches cf m Km W s a o oa D A nocase e).
  - exact (starts cf m Km W s a o oa D A nocase e).
  - apply never. destruct nocase; cbn [vcall]; apply works_bool.
    + destruct (firsts cf m s a o oa D A _ _ (memcmp_nocase_ok cf)) as [r E]. unfold strview_contains_nocase, strview_find_first_nocase. rewrite E. eexists. reflexivity.
    + destruct (firsts cf m s a o oa D A _ _ (memcmp_ok cf)) as [r E]. unfold strview_contains, strview_find_first. rewrite E. eexists. reflexivity.
  - apply never. cbn [vcall]. destruct (compare_ok cf m s a o oa D A) as (r & -> & _). eexists. reflexivity.
  - exact (nums cf m Kt W s a o oa D t opt e).
Qed.

(** ** Programs *)
Lemma strict_flags : forall cf, c_ptr (strict cf) = false /\ c_mem0 (strict cf) = false /\ c_ctype (strict cf) = false /\ c_char_signed (strict cf) = c_char_signed cf.
Proof. intros cf. repeat split. Qed.

Lemma iso_call_exact : forall cf m ds dls f s a o oa e, usual cf -> mem_wf m ->
  denotes m s o -> denotes m a oa -> Forall2 (c_string m) ds dls -> vlegal ds f s a -> pend_ok e ->
  (iso_undefined (c_char_signed cf) f s o oa -> exists u, vcall (strict cf) m ds f s a e = UB u) /\
  (~ iso_undefined (c_char_signed cf) f s o oa -> vcall (strict cf) m ds f s a e = vcall cf m ds f s a e).
Proof.
  intros cf m ds dls f s a o oa e U W D A S L He.
  destruct (strict_call (strict cf) m ds dls f s a o oa e eq_refl eq_refl eq_refl W D A S L He) as [K1 K2].
  change (c_char_signed (strict cf)) with (c_char_signed cf) in *. split; [exact K1|].
  intros N. destruct (K2 N) as [r E]. destruct (vcall_mono (Fewer false false false false) cf m ds f s a e) as [B|[u B]]; [exact B|].
  unfold strict in E. congruence.
Qed.

Lemma inside_denotes : forall m T v, stored m T -> inside T v -> exists o, denotes m v o.
Proof.
  intros m T v S I. destruct (same_denotes m m T T v v S S (same_inside T v I)) as (o & D & _). now exists o.
Qed.
Lemma inside_get : forall T vars j, Forall (inside T) vars -> inside T (vget vars j).
Proof.
  intros T vars j H. unfold vget. revert j. induction H; intros [|j]; cbn; auto; now left.
Qed.
Lemma denotes_unique : forall m v o1 o2, denotes m v o1 -> denotes m v o2 -> o1 = o2.
Proof.
  intros m v [l|] [l'|] H1 H2; cbn [denotes] in *; auto; [f_equal; eapply has_view_unique; eauto| |]; exfalso.
  - subst v. apply has_view_valid in H1. discriminate.
  - subst v. apply has_view_valid in H2. discriminate.
Qed.

Lemma iso_program_exact : forall cf m T ds dls prog vars e, usual cf -> mem_wf m -> stored m T -> Forall2 (c_string m) ds dls ->
  Forall (inside T) vars -> pend_ok e -> all_vlegal cf m ds vars e prog ->
  (iso_program cf m ds vars e prog -> vrun (strict cf) m ds vars e prog = vrun cf m ds vars e prog) /\
  (~ iso_program cf m ds vars e prog -> exists u, vrun (strict cf) m ds vars e prog = UB u).
Proof.
  intros cf m T ds dls prog. induction prog as [|o t IH]; intros vars e U W S C HV He HL; [split; [reflexivity|intros N; exfalso; apply N; exact I]|].
  destruct (viewprog_safe cf m T ds dls vars e [o] U W S C HV He) as (xs & v1 & e1 & E & HV1 & He1).
  { cbn [all_vlegal] in HL |- *. split; [apply HL|]. destruct (vexec cf m ds vars e o) as [[[x v'] e']|u|]; exact I. }
  cbn [vrun] in E. destruct (vexec cf m ds vars e o) as [[[x v'] e']|u|] eqn:Ex; cbn [bind] in E; try discriminate. injection E as <- <- <-.
  cbn [all_vlegal] in HL. rewrite Ex in HL. destruct HL as [HL HN].
  destruct (inside_denotes m T _ S (inside_get T vars (vo_src o) HV)) as [os Ds]. destruct (inside_denotes m T _ S (inside_get T vars (vo_arg o) HV)) as [oa Da].
  destruct (iso_call_exact cf m ds dls (vo_f o) _ _ os oa e U W Ds Da C HL He) as [K1 K2].
  destruct (IH v' e' U W S C HV1 He1 HN) as [I1 I2].
  cbn [vrun iso_program]. rewrite Ex. unfold vexec in Ex |- *. 
  assert (iso_call cf m (vo_f o) (vget vars (vo_src o)) (vget vars (vo_arg o)) <-> ~ iso_undefined (c_char_signed cf) (vo_f o) (vget vars (vo_src o)) os oa) as Q.
  { unfold iso_call. split; [intros H; exact (H os oa Ds Da)|]. intros H o1 o2 D1 D2. now rewrite (denotes_unique _ _ _ _ D1 Ds), (denotes_unique _ _ _ _ D2 Da). }
  split.
  - intros [H1 H2]. rewrite (K2 (proj1 Q H1)). rewrite Ex. cbn [bind]. now rewrite (I1 H2).
  - intros H. destruct (vcall_mono (Fewer false false false false) cf m ds (vo_f o) (vget vars (vo_src o)) (vget vars (vo_arg o)) e) as [B|[u B]]; fold (strict cf) in B; rewrite B; [|exists u; reflexivity].
    rewrite Ex. cbn [bind].
    assert (iso_call cf m (vo_f o) (vget vars (vo_src o)) (vget vars (vo_arg o))) as H1.
    { apply Q. intros X. destruct (K1 X) as [u E]. rewrite E in B. rewrite <- B in Ex. discriminate. }
    destruct I2 as [u ->]; [|exists u; reflexivity]. intros H2. apply H. now split.
Qed.

Lemma in_iso_never : forall sg f s o oa, in_iso f = true -> ~ iso_undefined sg f s o oa.
Proof.
  intros sg f s o oa H K. destruct f; cbn [in_iso] in H; try discriminate; unfold iso_undefined in K;
    try (destruct last; try discriminate); try (destruct nocase; try discriminate); destruct o as [[|x l]|], oa as [[|y n]|]; exact K.
Qed.
Lemma in_iso_program : forall cf m T ds dls prog vars e, usual cf -> mem_wf m -> stored m T -> Forall2 (c_string m) ds dls ->
  Forall (inside T) vars -> pend_ok e -> all_vlegal cf m ds vars e prog -> Forall (fun o => in_iso (vo_f o) = true) prog ->
  exists xs vars' e', vrun (strict cf) m ds vars e prog = Ok (xs, vars', e') /\ Forall (inside T) vars'.
Proof.
  intros cf m T ds dls prog vars e U W S C HV He HL HP.
  destruct (viewprog_safe cf m T ds dls vars e prog U W S C HV He HL) as (xs & v1 & e1 & E & HV1 & _).
  exists xs, v1, e1. split; [|exact HV1]. rewrite <- E.
  apply (iso_program_exact cf m T ds dls prog vars e U W S C HV He HL). clear xs v1 e1 E HV1.
  revert vars e HV He HL. induction prog as [|o t IH]; intros vars e HV He HL; [exact I|].
  destruct (viewprog_safe cf m T ds dls vars e [o] U W S C HV He) as (xs & v1 & e1 & E & HV1 & He1).
  { cbn [all_vlegal] in HL |- *. split; [apply HL|]. destruct (vexec cf m ds vars e o) as [[[x v'] e']|u|]; exact I. }
  cbn [vrun] in E. cbn [all_vlegal] in HL. cbn [iso_program].
  destruct (vexec cf m ds vars e o) as [[[x v'] e']|u|] eqn:Ex; cbn [bind] in E; try discriminate. injection E as <- <- <-.
  inversion HP as [|? ? H1 H2]; subst. split; [|apply (IH H2 v' e' HV1 He1 (proj2 HL))]. intros o1 o2 _ _. now apply in_iso_never.
Qed.
Lemma iso_call_of : forall cf m f s a o oa, denotes m s o -> denotes m a oa -> ~ iso_undefined (c_char_signed cf) f s o oa -> iso_call cf m f s a.
Proof. intros cf m f s a o oa D A H o1 o2 D1 D2. now rewrite (denotes_unique _ _ _ _ D1 D), (denotes_unique _ _ _ _ D2 A). Qed.
