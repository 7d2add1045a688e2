(** More proofs about the strview model: matching, ordering, slicing, splitting. *)
From Verif Require Import Base Mem Libc StrviewModel Spec MemLemmas StrviewProofs.

(** ** pointer equality implies equal contents *)

Lemma nth_ext0 : forall (a b : list Z), length a = length b ->
  (forall i, (i < length a)%nat -> nth i a 0 = nth i b 0) -> a = b.
Proof. intros. apply (nth_ext a b 0 0); auto. Qed.

Lemma access_blk : forall m o blk, access m o = Ok blk ->
  (exists b, o = PBlk b /\ nth_error m b = Some blk /\ b_live blk = true)
  \/ (exists l, o = PLit l /\ blk = lit_block l).
Proof.
  intros m [|b|l] blk H; cbn in H.
  - discriminate.
  - left; exists b. destruct (nth_error m b) as [k|] eqn:E; [|discriminate].
    destruct (b_live k) eqn:El; [|discriminate]. injection H as <-. auto.
  - right; exists l. injection H as <-. auto.
Qed.

Lemma bytes_at_same : forall m p q a b, bytes_at m p a -> bytes_at m q b ->
  p_obj p = p_obj q -> p_ofs p = p_ofs q -> (length b <= length a)%nat -> b = firstn (length b) a.
Proof.
  intros m p q a b (k1 & A1 & O1 & S1 & G1) (k2 & A2 & O2 & S2 & G2) Eo Ef Hl.
  rewrite Eo, A2 in A1. injection A1 as <-.
  apply nth_ext0.
  - rewrite firstn_length. lia.
  - intros i Hi. specialize (G1 (Z.of_nat i)). specialize (G2 (Z.of_nat i)).
    rewrite Ef in G1. rewrite G2 in G1 by (unfold Zlen; lia).
    assert (nth (Z.to_nat (Z.of_nat i)) b 0 = nth (Z.to_nat (Z.of_nat i)) a 0) as E.
    { assert (CByte (nth (Z.to_nat (Z.of_nat i)) b 0) = CByte (nth (Z.to_nat (Z.of_nat i)) a 0)) as E.
      { apply G1; unfold Zlen; lia. }
      now injection E. }
    rewrite !Nat2Z.id in E. rewrite E.
    rewrite <- (firstn_skipn (length b) a) at 1. rewrite app_nth1; auto. rewrite firstn_length; lia.
Qed.

Lemma peq_same : forall m p q a b, mem_wf m -> bytes_at m p a -> bytes_at m q b ->
  (length b <= length a)%nat -> peq m p q = true -> b = firstn (length b) a.
Proof.
  intros m p q a b [Wp Wd] Ha Hb Hl Hp. unfold peq in Hp.
  destruct (pobj_eqb (p_obj p) (p_obj q)) eqn:E.
  - apply pobj_eqb_eq in E. apply Z.eqb_eq in Hp. eapply bytes_at_same; eauto.
  - destruct b as [|y b]; [reflexivity|]. exfalso.
    destruct Ha as (k1 & A1 & O1 & S1 & _). destruct Hb as (k2 & A2 & O2 & S2 & _).
    unfold addr in Hp.
    destruct (access_blk _ _ _ A1) as [(b1 & E1 & N1 & L1)|(l1 & E1 & _)];
      destruct (access_blk _ _ _ A2) as [(b2 & E2 & N2 & L2)|(l2 & E2 & _)];
      rewrite E1, E2 in *; try discriminate.
    + rewrite N1, N2 in Hp. apply Z.eqb_eq in Hp.
      cbn in E. apply Nat.eqb_neq in E.
      assert (1 <= Zlen a) by (unfold Zlen; cbn in Hl; lia).
      destruct (Wd _ _ _ _ N1 N2 L1 L2 E); zl.
    + rewrite N1 in Hp. discriminate.
Qed.

(** ** is_match *)

Lemma is_match_gen : forall comp f m v1 v2 l1 l2, comp_ok f comp -> mem_wf m ->
  has_view m v1 l1 -> has_view m v2 l2 ->
  exists r,
  (if v_size v1 =? v_size v2 then
     if peq m (v_data v1) (v_data v2) then Ok true
     else let! r := comp m (v_data v1) (v_data v2) (v_size v1) in Ok (r =? 0)
   else Ok false) = Ok r /\ (r = true <-> map f l1 = map f l2).
Proof.
  intros comp f m v1 v2 l1 l2 Hc W (B1 & S1 & _) (B2 & S2 & _).
  rewrite S1, S2. destruct (Zlen l1 =? Zlen l2) eqn:E.
  - apply Z.eqb_eq in E. assert (length l1 = length l2) as El by (unfold Zlen in E; lia).
    destruct (peq m (v_data v1) (v_data v2)) eqn:Ep.
    + exists true; split; auto.
      assert (l2 = firstn (length l2) l1) as E2 by (eapply peq_same; eauto; lia).
      rewrite <- El, firstn_all in E2. subst; tauto.
    + destruct (Hc m _ _ _ _ B1 B2 El) as (r & Hr & Hr0). rewrite Hr; cbn.
      exists (r =? 0); split; auto. rewrite Z.eqb_eq. exact Hr0.
  - apply Z.eqb_neq in E. exists false; split; auto. split; [discriminate|].
    intro K. apply (f_equal (@length Z)) in K. rewrite !map_length in K. unfold Zlen in E; lia.
Qed.

Lemma is_match_ok : forall cf m v1 v2 l1 l2, mem_wf m -> has_view m v1 l1 -> has_view m v2 l2 ->
  exists r, strview_is_match cf m v1 v2 = Ok r /\ (r = true <-> l1 = l2).
Proof.
  intros. destruct (is_match_gen (memcmp cf) (fun x => x) m v1 v2 l1 l2) as (r & H2 & H3); auto using memcmp_ok.
  rewrite !map_id in H3. exists r; auto.
Qed.

Lemma is_match_nocase_ok : forall cf m v1 v2 l1 l2, mem_wf m -> has_view m v1 l1 -> has_view m v2 l2 ->
  exists r, strview_is_match_nocase cf m v1 v2 = Ok r /\ (r = true <-> map upper l1 = map upper l2).
Proof.
  intros. destruct (is_match_gen (memcmp_nocase cf) upper m v1 v2 l1 l2) as (r & H2 & H3); auto using memcmp_nocase_ok.
  exists r; auto.
Qed.

(** ** starts_with *)

Lemma prefix_iff : forall p l, prefix_of p l <-> (length p <= length l)%nat /\ firstn (length p) l = p.
Proof.
  intros; split.
  - intros [r ->]. rewrite app_length, firstn_app, firstn_all, Nat.sub_diag, firstn_O, app_nil_r. split; auto; lia.
  - intros [H E]. exists (skipn (length p) l). rewrite <- E at 1. now rewrite firstn_skipn.
Qed.

Lemma starts_with_gen : forall comp f m v1 v2 l1 l2, comp_ok f comp -> mem_wf m ->
  has_view m v1 l1 -> has_view m v2 l2 ->
  exists r,
  (if negb (strview_is_valid v2) then Ok (negb (strview_is_valid v1))
   else if v_size v2 <=? v_size v1 then
     if peq m (v_data v1) (v_data v2) then Ok true
     else let! r := comp m (v_data v1) (v_data v2) (v_size v2) in Ok (r =? 0)
   else Ok false) = Ok r /\ (r = true <-> prefix_of (map f l2) (map f l1)).
Proof.
  intros comp f m v1 v2 l1 l2 Hc W H1 H2. rewrite (has_view_valid _ _ _ H2). cbn [negb].
  destruct H1 as (B1 & S1 & _). destruct H2 as (B2 & S2 & _).
  pose proof (prefix_iff (map f l2) (map f l1)) as PI. rewrite !map_length, firstn_map in PI.
  rewrite S1, S2. destruct (Zlen l2 <=? Zlen l1) eqn:E.
  - apply Z.leb_le in E. assert (length l2 <= length l1)%nat as El by (unfold Zlen in E; lia).
    destruct (peq m (v_data v1) (v_data v2)) eqn:Ep.
    + exists true; split; auto.
      assert (l2 = firstn (length l2) l1) as E2 by (eapply peq_same; eauto; lia).
      rewrite <- E2 in PI. tauto.
    + assert (bytes_at m (v_data v1) (firstn (length l2) l1)) as B1'.
      { rewrite <- (firstn_skipn (length l2) l1) in B1. apply bytes_at_app in B1. apply B1. }
      assert (length (firstn (length l2) l1) = length l2) as El' by (rewrite firstn_length; lia).
      destruct (Hc m _ _ _ _ B1' B2 El') as (r & Hr & Hr0).
      unfold Zlen in Hr. rewrite El' in Hr. unfold Zlen. rewrite Hr; cbn.
      exists (r =? 0); split; auto. rewrite Z.eqb_eq, Hr0. tauto.
  - apply Z.leb_gt in E. exists false; split; auto. split; [discriminate|].
    intros K. apply PI in K as [K _]. unfold Zlen in E; lia.
Qed.

Lemma starts_with_ok : forall cf m v1 v2 l1 l2, mem_wf m -> has_view m v1 l1 -> has_view m v2 l2 ->
  exists r, strview_starts_with cf m v1 v2 = Ok r /\ (r = true <-> prefix_of l2 l1).
Proof.
  intros. destruct (starts_with_gen (memcmp cf) (fun x => x) m v1 v2 l1 l2) as (r & H2 & H3); auto using memcmp_ok.
  rewrite !map_id in H3. exists r; auto.
Qed.
Lemma starts_with_nocase_ok : forall cf m v1 v2 l1 l2, mem_wf m -> has_view m v1 l1 -> has_view m v2 l2 ->
  exists r, strview_starts_with_nocase cf m v1 v2 = Ok r /\ (r = true <-> prefix_of (map upper l2) (map upper l1)).
Proof.
  intros. destruct (starts_with_gen (memcmp_nocase cf) upper m v1 v2 l1 l2) as (r & H2 & H3); auto using memcmp_nocase_ok.
  exists r; auto.
Qed.

(** ** compare *)

Lemma lex_refl : forall a, lex a a = Eq.
Proof. induction a; cbn; auto. now rewrite Z.compare_refl. Qed.
Lemma lex_eq : forall a b, lex a b = Eq <-> a = b.
Proof.
  intros a b; split; [|intros ->; apply lex_refl].
  revert b; induction a as [|x a IH]; destruct b as [|y b]; cbn; intro H; try discriminate; auto.
  destruct (x ?= y) eqn:E; try discriminate. apply Z.compare_eq in E. f_equal; auto.
Qed.
Lemma lex_antisym : forall a b, lex b a = CompOpp (lex a b).
Proof.
  induction a as [|x a IH]; destruct b as [|y b]; cbn; auto.
  rewrite (Z.compare_antisym x y). destruct (x ?= y); cbn; auto.
Qed.
Lemma lex_trans : forall a b c, lex a b = Lt -> lex b c = Lt -> lex a c = Lt.
Proof.
  induction a as [|x a IH]; destruct b as [|y b]; destruct c as [|z c]; cbn; intros H1 H2; try discriminate; auto.
  destruct (x ?= y) eqn:E1; try discriminate.
  - apply Z.compare_eq in E1; subst. destruct (y ?= z); try discriminate; auto. eapply IH; eauto.
  - rewrite Z.compare_lt_iff in E1. destruct (y ?= z) eqn:E2; try discriminate.
    + apply Z.compare_eq in E2; subst. rewrite <- Z.compare_lt_iff in E1. now rewrite E1.
    + rewrite Z.compare_lt_iff in E2. assert (x < z) as E3 by lia. rewrite <- Z.compare_lt_iff in E3. now rewrite E3.
Qed.

Lemma lex_list_cmp : forall a b,
  lex a b = let n := Nat.min (length a) (length b) in
            match list_cmp (firstn n a) (firstn n b) ?= 0 with
            | Eq => (Zlen a ?= Zlen b) | c => c end.
Proof.
  induction a as [|x a IH]; destruct b as [|y b]; cbn [lex]; auto.
  cbn [length Nat.min firstn list_cmp]. rewrite IH. cbv zeta.
  destruct (x ?= y) eqn:E.
  - apply Z.compare_eq in E; subst. rewrite Z.eqb_refl.
    destruct (list_cmp _ _ ?= 0); auto. rewrite !Zlen_cons, !(Z.add_comm _ 1), Zcompare_plus_compat. reflexivity.
  - rewrite Z.compare_lt_iff in E. zb. assert (x - y < 0) as E' by lia. rewrite <- Z.compare_lt_iff in E'. now rewrite E'.
  - rewrite Z.compare_gt_iff in E. zb. assert (0 < x - y) as E' by lia. rewrite <- Z.compare_gt_iff in E'. now rewrite E'.
Qed.

Lemma denotes_size : forall m v o, denotes m v o -> v_size v = Zlen (contents o).
Proof. intros m v [l|] H; cbn in *; [apply H|subst; reflexivity]. Qed.

Lemma denotes_bytes : forall m v o, denotes m v o -> 0 < v_size v -> bytes_at m (v_data v) (contents o).
Proof. intros m v [l|] H Hs; cbn in *; [apply H|subst; cbn in Hs; lia]. Qed.

Lemma bytes_at_firstn : forall m p l n, bytes_at m p l -> bytes_at m p (firstn n l).
Proof. intros m p l n H. rewrite <- (firstn_skipn n l) in H. now apply bytes_at_app in H. Qed.

Lemma compare_ok : forall cf m v1 v2 o1 o2, denotes m v1 o1 -> denotes m v2 o2 ->
  exists r, strview_compare cf m v1 v2 = Ok r /\ (r ?= 0) = lex (contents o1) (contents o2).
Proof.
  intros cf m v1 v2 o1 o2 H1 H2. unfold strview_compare.
  pose proof (denotes_size _ _ _ H1) as S1. pose proof (denotes_size _ _ _ H2) as S2.
  rewrite lex_list_cmp. cbv zeta.
  set (l1 := contents o1) in *. set (l2 := contents o2) in *. set (n := Nat.min (length l1) (length l2)).
  assert ((if v_size v1 <? v_size v2 then v_size v1 else v_size v2) = Z.of_nat n) as En.
  { rewrite S1, S2. unfold n, Zlen. destruct (_ <? _) eqn:E; [apply Z.ltb_lt in E|apply Z.ltb_ge in E]; lia. }
  rewrite En.
  assert (exists r, (if Z.of_nat n =? 0 then Ok 0 else memcmp cf m (v_data v1) (v_data v2) (Z.of_nat n)) = Ok r
    /\ r = list_cmp (firstn n l1) (firstn n l2)) as (r & Hr & Er).
  { destruct (Z.of_nat n =? 0) eqn:E0.
    - apply Z.eqb_eq in E0. assert (n = O) as -> by lia. exists 0; split; auto.
    - apply Z.eqb_neq in E0.
      assert (bytes_at m (v_data v1) (firstn n l1)) as B1.
      { apply bytes_at_firstn, denotes_bytes; auto. rewrite S1. unfold n, Zlen in *; lia. }
      assert (bytes_at m (v_data v2) (firstn n l2)) as B2.
      { apply bytes_at_firstn, denotes_bytes; auto. rewrite S2. unfold n, Zlen in *; lia. }
      assert (length (firstn n l1) = n) as L1 by (rewrite firstn_length; lia).
      assert (length (firstn n l2) = n) as L2 by (rewrite firstn_length; lia).
      apply load_bytes_ok in B1. apply load_bytes_ok in B2. rewrite L1 in B1. rewrite L2 in B2.
      exists (list_cmp (firstn n l1) (firstn n l2)); split; auto.
      unfold memcmp. zb. rewrite Nat2Z.id, B1; cbn [bind]. rewrite B2; reflexivity. }
  rewrite Hr; cbn [bind]. rewrite <- Er.
  destruct (r =? 0) eqn:E0; cbn [andb].
  - apply Z.eqb_eq in E0; subst r. rewrite E0. cbn [Z.compare]. rewrite S1, S2.
    destruct (Zlen l1 =? Zlen l2) eqn:E1; cbn [negb].
    + apply Z.eqb_eq in E1. rewrite E1, Z.compare_refl. exists 0; auto.
    + apply Z.eqb_neq in E1. destruct (Zlen l2 <? Zlen l1) eqn:E2.
      * apply Z.ltb_lt in E2. eexists; split; eauto. symmetry. apply Z.compare_gt_iff; lia.
      * apply Z.ltb_ge in E2. eexists; split; eauto. symmetry. apply Z.compare_lt_iff; lia.
  - exists r; split; auto. apply Z.eqb_neq in E0. destruct (r ?= 0) eqn:E1; auto.
    apply Z.compare_eq in E1; lia.
Qed.

(** ** sub *)

Lemma skipn_skipn' : forall {A} x y (l : list A), skipn x (skipn y l) = skipn (x + y) l.
Proof.
  intros A x y; revert x; induction y as [|y IH]; intros x l.
  - now rewrite Nat.add_0_r.
  - rewrite Nat.add_succ_r. destruct l; cbn [skipn]; [now rewrite skipn_nil|auto].
Qed.

Lemma firstn_skipn_split : forall (l : list Z) b e, (b <= e)%nat ->
  l = firstn b l ++ firstn (e - b) (skipn b l) ++ skipn e l.
Proof.
  intros l b e H. rewrite <- (firstn_skipn b l) at 1. f_equal.
  rewrite <- (firstn_skipn (e - b) (skipn b l)) at 1. f_equal.
  rewrite skipn_skipn'. f_equal. lia.
Qed.

Lemma sub_ok : forall cf m v l b e, has_view m v l -> l <> [] ->
  INT_MIN <= b <= INT_MAX -> INT_MIN <= e <= INT_MAX ->
  py_in (Zlen l) (py_index (Zlen l) b) (py_index (Zlen l) e) ->
  exists x y z, l = x ++ y ++ z
    /\ Zlen x = Z.max 0 (py_index (Zlen l) b)
    /\ Zlen x + Zlen y = Z.min (Zlen l) (py_index (Zlen l) e)
    /\ strview_sub cf m v b e = Ok (subview v (Zlen x) (Zlen y))
    /\ has_view m (subview v (Zlen x) (Zlen y)) y.
Proof.
  intros cf m v l b e H Hn Hb He (P1 & P2 & P3).
  remember (py_index (Zlen l) b) as bi eqn:Hbi. remember (py_index (Zlen l) e) as ei eqn:Hei.
  set (b' := Z.max 0 bi). set (e' := Z.min (Zlen l) ei).
  assert (0 < Zlen l) as Hl by (destruct l; [congruence|zl]).
  assert (0 <= b' <= e') as Hbe by (unfold b', e'; lia).
  assert (e' <= Zlen l) as Hel by (unfold e'; lia).
  exists (firstn (Z.to_nat b') l), (firstn (Z.to_nat e' - Z.to_nat b') (skipn (Z.to_nat b') l)), (skipn (Z.to_nat e') l).
  assert (l = firstn (Z.to_nat b') l ++ firstn (Z.to_nat e' - Z.to_nat b') (skipn (Z.to_nat b') l) ++ skipn (Z.to_nat e') l) as E.
  { apply firstn_skipn_split. lia. }
  assert (Zlen (firstn (Z.to_nat b') l) = b') as Ex.
  { unfold Zlen at 1. rewrite firstn_length. clearbody b' e'. unfold Zlen in *; lia. }
  assert (Zlen (firstn (Z.to_nat e' - Z.to_nat b') (skipn (Z.to_nat b') l)) = e' - b') as Ey.
  { unfold Zlen at 1. rewrite firstn_length, skipn_length. clearbody b' e'. unfold Zlen in *; lia. }
  split; [exact E|]. rewrite Ex, Ey. split; [reflexivity|]. split; [lia|].
  pose proof H as (HB & HS & HM & HF).
  split.
  - unfold strview_sub. rewrite (has_view_nonnull _ _ _ H). rewrite HS. zb. cbn [negb andb].
    assert ((if b <? 0 then iadd cf (Zlen l) b else Ok b) = Ok bi) as Eb.
    { rewrite Hbi; unfold py_index. destruct (b <? 0) eqn:E1; auto. apply Z.ltb_lt in E1.
      apply iadd_ok. unfold INT_MIN, INT_MAX in *; lia. }
    assert ((if e <? 0 then iadd cf (Zlen l) e else Ok e) = Ok ei) as Ee.
    { rewrite Hei; unfold py_index. destruct (e <? 0) eqn:E1; auto. apply Z.ltb_lt in E1.
      apply iadd_ok. unfold INT_MIN, INT_MAX in *; lia. }
    rewrite Eb; cbn [bind]. rewrite Ee; cbn [bind].
    rewrite (proj2 (Z.leb_le bi ei)) by lia. rewrite (proj2 (Z.ltb_lt bi (Zlen l))) by lia.
    rewrite (proj2 (Z.leb_le 0 ei)) by lia. cbn [andb].
    assert ((if bi <? 0 then 0 else bi) = b') as Eb'.
    { unfold b'. destruct (bi <? 0) eqn:E1; [apply Z.ltb_lt in E1|apply Z.ltb_ge in E1]; lia. }
    assert ((if Zlen l <? ei then Zlen l else ei) = e') as Ee'.
    { unfold e'. destruct (Zlen l <? ei) eqn:E1; [apply Z.ltb_lt in E1|apply Z.ltb_ge in E1]; lia. }
    cbv zeta. rewrite Eb', Ee'. rewrite isub_ok by (unfold INT_MIN, INT_MAX, e' in *; lia). cbn [bind].
    rewrite (padd_ok cf m (v_data v) l); [reflexivity|auto|lia].
  - rewrite E in H. apply has_view_sub in H. rewrite Ex, Ey in H. exact H.
Qed.

Lemma sub_out : forall cf m v l b e, has_view m v l -> l <> [] ->
  INT_MIN <= b <= INT_MAX -> INT_MIN <= e <= INT_MAX ->
  ~ py_in (Zlen l) (py_index (Zlen l) b) (py_index (Zlen l) e) ->
  strview_sub cf m v b e = Ok INVALID.
Proof.
  intros cf m v l b e H Hn Hb He P. unfold py_in in P.
  assert (0 < Zlen l) as Hl by (destruct l; [congruence|zl]).
  pose proof H as (HB & HS & HM & HF).
  unfold strview_sub. rewrite (has_view_nonnull _ _ _ H). rewrite HS. zb. cbn [negb andb].
  assert ((if b <? 0 then iadd cf (Zlen l) b else Ok b) = Ok (py_index (Zlen l) b)) as Eb.
  { unfold py_index. destruct (b <? 0) eqn:E1; auto. apply Z.ltb_lt in E1.
    apply iadd_ok. unfold INT_MIN, INT_MAX in *; lia. }
  assert ((if e <? 0 then iadd cf (Zlen l) e else Ok e) = Ok (py_index (Zlen l) e)) as Ee.
  { unfold py_index. destruct (e <? 0) eqn:E1; auto. apply Z.ltb_lt in E1.
    apply iadd_ok. unfold INT_MIN, INT_MAX in *; lia. }
  rewrite Eb; cbn [bind]. rewrite Ee; cbn [bind].
  destruct (_ && _ && _) eqn:E; auto.
  apply andb_true_iff in E as [E E3]. apply andb_true_iff in E as [E1 E2].
  apply Z.leb_le in E1. apply Z.ltb_lt in E2. apply Z.leb_le in E3. exfalso; auto.
Qed.

Lemma sub_empty : forall cf m v b e, has_view m v [] -> strview_sub cf m v b e = Ok v.
Proof.
  intros cf m v b e H. unfold strview_sub. rewrite (has_view_size _ _ _ H). cbn.
  rewrite andb_false_r. f_equal. apply has_view_size in H. destruct v; cbn in *. subst; reflexivity.
Qed.

Lemma sub_invalid : forall cf m b e, strview_sub cf m INVALID b e = Ok INVALID.
Proof. reflexivity. Qed.

(** Frequently used instance: dropping the first k bytes. *)
Lemma sub_from : forall cf m v x y, has_view m v (x ++ y) -> y <> [] ->
  strview_sub cf m v (Zlen x) INT_MAX = Ok (subview v (Zlen x) (Zlen y)).
Proof.
  intros cf m v x y H Hy. pose proof H as (HB & HS & HM & HF).
  destruct (sub_ok cf m v (x ++ y) (Zlen x) INT_MAX H) as (x' & y' & z & E & E1 & E2 & E3 & _).
  - destruct x; cbn; [auto|congruence].
  - zl. unfold INT_MIN, INT_MAX in *; lia.
  - unfold INT_MIN, INT_MAX; lia.
  - unfold py_in, py_index. pose proof (Zlen_nonneg x). pose proof (Zlen_nonneg y).
    assert (0 < Zlen y) by (destruct y; [congruence|zl]). zl. rewrite (proj2 (Z.ltb_ge (Zlen x) 0)) by lia. change (INT_MAX <? 0) with false. unfold INT_MAX in *; lia.
  - unfold py_index in E1, E2. zl. rewrite (proj2 (Z.ltb_ge (Zlen x) 0)) in E1 by lia.
    change (INT_MAX <? 0) with false in E2.
    rewrite E3. do 2 f_equal; unfold INT_MAX in *; zl.
Qed.
