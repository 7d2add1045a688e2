(** Proofs about the splitting functions, split_line, dequote and to_cstr. *)
From Verif Require Import Base Mem Libc StrviewModel Spec MemLemmas StrviewProofs StrviewProofs2.

(** ** split_first_delim *)

Fixpoint fdelim (exq : bool) (dl : list Z) (inq : bool) (l : list Z) : option nat :=
  match l with
  | [] => None
  | x :: t =>
      let inq' := xorb inq ((x =? 34) && exq) in
      if negb inq' && existsb (Z.eqb x) dl then Some O
      else option_map S (fdelim exq dl inq' t)
  end.

Definition gen_delim (exq : bool) (dl : list Z) (inq : bool) (l : list Z) (k : nat) : Prop :=
  exists a d b, l = a ++ d :: b /\ length a = k /\ In d dl
    /\ xorb inq (exq && Nat.odd (count 34 (a ++ [d]))) = false.

Lemma count_cons : forall c x l, count c (x :: l) = ((if Z.eqb c x then 1 else 0) + count c l)%nat.
Proof. intros; unfold count; cbn. destruct (c =? x); reflexivity. Qed.

Lemma gen_delim_0 : forall exq dl inq x l,
  gen_delim exq dl inq (x :: l) 0 <-> In x dl /\ xorb inq ((x =? 34) && exq) = false.
Proof.
  intros; split.
  - intros (a & d & b & E & Hl & Hi & Hx). destruct a; [|discriminate]. cbn in E. injection E as -> ->.
    split; auto. rewrite <- Hx. cbn [app]. rewrite count_cons. rewrite Z.eqb_sym, andb_comm. cbn [count filter length].
    destruct (34 =? d); cbn; rewrite ?andb_true_r, ?andb_false_r; reflexivity.
  - intros [Hi Hx]. exists [], x, l. repeat split; auto. rewrite <- Hx. cbn [app]. rewrite count_cons.
    rewrite Z.eqb_sym, andb_comm. cbn [count filter length].
    destruct (x =? 34); cbn; rewrite ?andb_true_r, ?andb_false_r; reflexivity.
Qed.

Lemma quote_step : forall inq exq x n,
  xorb inq (exq && Nat.odd ((if Z.eqb 34 x then 1 else 0) + n))
  = xorb (xorb inq ((x =? 34) && exq)) (exq && Nat.odd n).
Proof.
  intros. rewrite (Z.eqb_sym x 34). destruct (34 =? x); cbn [Nat.add].
  - rewrite Nat.odd_succ, <- Nat.negb_odd. destruct inq, exq, (Nat.odd n); reflexivity.
  - destruct inq, exq, (Nat.odd n); reflexivity.
Qed.

Lemma gen_delim_S : forall exq dl inq x l k,
  gen_delim exq dl inq (x :: l) (S k) <-> gen_delim exq dl (xorb inq ((x =? 34) && exq)) l k.
Proof.
  intros; split.
  - intros (a & d & b & E & Hl & Hi & Hx). destruct a as [|y a]; [discriminate|].
    cbn in E. injection E as -> ->. exists a, d, b. cbn in Hl. repeat split; auto.
    rewrite <- Hx. cbn [app]. rewrite count_cons. now rewrite quote_step.
  - intros (a & d & b & -> & Hl & Hi & Hx). exists (x :: a), d, b. cbn [app length]. repeat split; auto.
    rewrite <- Hx. rewrite count_cons. now rewrite quote_step.
Qed.

Lemma fdelim_spec : forall exq dl l inq,
  match fdelim exq dl inq l with
  | Some k => is_least (gen_delim exq dl inq l) k
  | None => forall k, ~ gen_delim exq dl inq l k
  end.
Proof.
  intros exq dl; induction l as [|x l IH]; intro inq.
  - cbn. intros k (a & d & b & E & _). destruct a; discriminate.
  - cbn [fdelim]. set (inq' := xorb inq ((x =? 34) && exq)).
    destruct (negb inq' && existsb (Z.eqb x) dl) eqn:E.
    + apply andb_true_iff in E as [E1 E2]. apply negb_true_iff in E1. apply existsb_eqb_In in E2.
      split; [|intros; lia]. apply gen_delim_0. auto.
    + assert (~ gen_delim exq dl inq (x :: l) 0) as N0.
      { rewrite gen_delim_0. intros [H1 H2]. fold inq' in H2. rewrite H2 in E. cbn in E.
        apply existsb_eqb_nIn in E. auto. }
      specialize (IH inq'). destruct (fdelim exq dl inq' l) as [k|]; cbn.
      * destruct IH as [I1 I2]. split; [now apply gen_delim_S|].
        intros [|j] Hj; auto. rewrite gen_delim_S. apply I2. lia.
      * intros [|k]; auto. rewrite gen_delim_S. apply IH.
Qed.

Lemma gen_delim_at : forall exq dl l k, gen_delim exq dl false l k <-> delim_at exq dl l k.
Proof.
  intros; unfold gen_delim, delim_at. split; intros (a & d & b & H1 & H2 & H3 & H4); exists a, d, b; repeat split; auto.
  - intros ->. rewrite <- Nat.negb_odd. destruct (Nat.odd (count 34 (a ++ [d]))); [discriminate|reflexivity].
  - destruct exq; auto. rewrite <- Nat.negb_even. now rewrite H4.
Qed.

Lemma is_least_iff : forall P Q k, (forall j, P j <-> Q j) -> is_least P k -> is_least Q k.
Proof. intros P Q k H [H1 H2]. split; [now apply H|]. intros j Hj K. apply H in K. eapply H2; eauto. Qed.

Lemma fdelim_bound : forall exq dl l inq k, fdelim exq dl inq l = Some k -> (k < length l)%nat.
Proof.
  intros exq dl; induction l as [|x l IH]; intros inq k H; cbn in *; [discriminate|].
  destruct (_ && _) in H; [injection H as <-; lia|].
  destruct (fdelim _ _ _ _) eqn:E; cbn in H; [|discriminate]. injection H as <-. apply IH in E. lia.
Qed.

Lemma split_first_loop_ok : forall cf m delims dl exq, has_view m delims dl ->
  forall l p fuel inq, bytes_at m p l -> (length l < fuel)%nat ->
  split_first_loop cf fuel m (shift p (Zlen l)) delims exq p false inq
  = Ok (match fdelim exq dl inq l with
        | Some k => (shift p (Z.of_nat k), true)
        | None => (shift p (Zlen l), false)
        end).
Proof.
  intros cf m delims dl exq Hd; induction l as [|x l IH]; intros p fuel inq H Hf;
    (destruct fuel as [|fuel]; [cbn in Hf; lia|]).
  - cbn [split_first_loop fdelim]. rewrite peq_shift_r. cbn. rewrite shift_0. reflexivity.
  - cbn [split_first_loop]. rewrite peq_shift_r. zl. zb. cbn [negb andb].
    pose proof (bytes_at_cons _ _ _ _ H) as [H1 H2]. rewrite H1; cbn [bind]. change QUOTE with 34.
    cbn [fdelim]. set (inq' := xorb inq ((x =? 34) && exq)).
    assert ((if inq' then Ok false else contains_char cf m delims x)
            = Ok (negb inq' && existsb (Z.eqb x) dl)) as Ef.
    { destruct inq'; auto. now rewrite (contains_char_ok cf m delims dl). }
    rewrite Ef; cbn [bind]. destruct (negb inq' && existsb (Z.eqb x) dl).
    + erewrite padd_ok; eauto; [|zl]. cbn [bind]. rewrite shift_0.
      destruct fuel; [cbn in Hf; lia|]. cbn [split_first_loop]. rewrite peq_shift_r. zb. cbn [negb andb]. rewrite shift_0. reflexivity.
    + erewrite padd_ok; eauto; [|zl]. cbn [bind].
      replace (shift p (Zlen l + 1)) with (shift (shift p 1) (Zlen l)) by (rewrite shift_shift; f_equal; lia).
      rewrite IH; auto; [|cbn in Hf; lia].
      destruct (fdelim exq dl inq' l); cbn [option_map]; rewrite !shift_shift; do 3 f_equal; lia.
Qed.

Lemma split_first_ok : forall cf m s delims l dl exq, has_view m s l -> has_view m delims dl ->
  (exists a d b, l = a ++ d :: b /\ is_least (delim_at exq dl l) (length a) /\
     split_first_delim cf m s delims exq
     = Ok (subview s 0 (Zlen a), subview s (if (Zlen b =? 0) then Zlen a else Zlen a + 1) (Zlen b))
     /\ has_view m (subview s 0 (Zlen a)) a
     /\ has_view m (subview s (if (Zlen b =? 0) then Zlen a else Zlen a + 1) (Zlen b)) b)
  \/ ((forall k, ~ delim_at exq dl l k) /\ split_first_delim cf m s delims exq = Ok (s, INVALID)).
Proof.
  intros cf m s delims l dl exq H Hd. pose proof H as (HB & HS & HM & HF).
  unfold split_first_delim. erewrite !has_view_nonnull by eauto. cbn [negb andb].
  rewrite HS. erewrite padd_ok; eauto; [|zl]. cbn [bind]. rewrite Zlen_to_nat.
  rewrite (split_first_loop_ok cf m delims dl exq Hd l (v_data s)) by auto. cbn [bind].
  pose proof (fdelim_spec exq dl l false) as Sp.
  destruct (fdelim exq dl false l) as [k|] eqn:E.
  - left. apply (is_least_iff _ _ _ (gen_delim_at exq dl l)) in Sp.
    pose proof Sp as [(a & d & b & El & Ek & _) _]. exists a, d, b. split; auto. rewrite Ek. split; auto.
    assert (Z.of_nat k = Zlen a) as Eka by (unfold Zlen; lia). rewrite Eka.
    rewrite pdiff_shift_l; cbn [bind]. cbn [v_size].
    rewrite El in *. zl.
    rewrite to_int_ok by (unfold INT_MIN, INT_MAX in *; lia).
    rewrite isub_ok by (unfold INT_MIN, INT_MAX in *; lia). cbn [bind].
    rewrite isub_ok by (unfold INT_MIN, INT_MAX in *; lia). cbn [bind].
    replace (Zlen a + (Zlen b + 1) - Zlen a - 1) with (Zlen b) by lia.
    split; [|split].
    + destruct (Zlen b =? 0) eqn:Eb; cbn [bind].
      * unfold subview. rewrite shift_0. reflexivity.
      * rewrite (padd_ok_shift cf m (v_data s) (a ++ d :: b)); [|auto|zl].
        cbn [bind]. unfold subview. rewrite shift_0. reflexivity.
    + apply has_view_prefix in H. unfold subview. now rewrite shift_0.
    + destruct (Zlen b =? 0) eqn:Eb.
      * apply Z.eqb_eq in Eb. apply Zlen_0 in Eb. subst b. 
        apply (has_view_sub m s a [] [d]). exact H.
      * replace (a ++ d :: b) with ((a ++ [d]) ++ b) in H by (rewrite <- app_assoc; reflexivity).
        apply has_view_suffix in H. zl. replace (Zlen a + 1) with (Zlen a + (0 + 1)) by lia. exact H.
  - right. split; auto. intros k K. apply (Sp k). now apply gen_delim_at.
Qed.

Lemma split_first_null_src : forall cf m delims exq,
  split_first_delim cf m INVALID delims exq = Ok (INVALID, INVALID).
Proof. reflexivity. Qed.

(** ** split_all *)

Lemma fields_ex : forall exq dl n l, (length l <= n)%nat -> exists fs, fields exq dl l fs.
Proof.
  intros exq dl; induction n as [|n IH]; intros l Hl.
  - destruct l; [|cbn in Hl; lia]. exists [[]]. constructor. intros k (a & d & b & E & _). destruct a; discriminate.
  - pose proof (fdelim_spec exq dl l false) as Sp. destruct (fdelim exq dl false l) as [k|].
    + apply (is_least_iff _ _ _ (gen_delim_at exq dl l)) in Sp.
      pose proof Sp as [(a & d & b & -> & <- & _) _].
      destruct (IH b) as [fs Hfs]; [rewrite app_length in Hl; cbn in Hl; lia|].
      exists (a :: fs). now constructor.
    + exists [l]. constructor. intros k K; apply (Sp k). now apply gen_delim_at.
Qed.

Lemma is_least_unique : forall P i j, is_least P i -> is_least P j -> i = j.
Proof.
  intros P i j [H1 H2] [H3 H4]. destruct (lt_eq_lt_dec i j) as [[L|]|L]; auto.
  - exfalso; eapply H4; eauto.
  - exfalso; eapply H2; eauto.
Qed.

Lemma app_same_len : forall {A} (a a' b b' : list A), length a = length a' -> a ++ b = a' ++ b' -> a = a' /\ b = b'.
Proof.
  intros A; induction a as [|x a IH]; destruct a' as [|y a']; cbn; intros b b' Hl E; try discriminate; auto.
  injection E as -> E. destruct (IH a' b b') as [-> ->]; auto.
Qed.

Lemma fields_unique : forall exq dl l fs, fields exq dl l fs -> forall fs', fields exq dl l fs' -> fs = fs'.
Proof.
  intros exq dl l fs H; induction H as [l Hn|a d b fs Hl Hf IH]; intros fs' H'.
  - inversion H'; subst; auto. exfalso. eapply Hn. apply H.
  - inversion H' as [l' Hn E|a' d' b' fs'' Hl' Hf' E]; subst.
    + exfalso. eapply Hn. apply Hl.
    + rewrite E in Hl'. assert (length a' = length a) as EL by (eapply is_least_unique; eauto).
      apply app_same_len in E as [-> E]; auto. injection E as -> ->. f_equal; auto.
Qed.

Lemma fields_join : forall exq dl l fs, fields exq dl l fs ->
  exists ds, length fs = S (length ds) /\ Forall (fun d => In d dl) ds /\ join fs ds = l.
Proof.
  intros exq dl l fs H; induction H as [l Hn|a d b fs Hl Hf IH].
  - exists []; repeat split; auto.
  - destruct IH as (ds & H1 & H2 & H3). exists (d :: ds). cbn. repeat split; auto.
    + constructor; auto. destruct Hl as [(a' & d' & b' & E & EL & Hi & _) _].
      apply app_same_len in E as [_ E]; auto. injection E as -> _; auto.
    + now rewrite H3.
Qed.

Lemma split_all_ok : forall cf m delims dl exq, c_string m delims dl ->
  forall n src l fs, has_view m src l -> fields exq dl l fs ->
  exists vs, split_all_loop cf n m src delims exq = Ok vs /\ Forall2 (has_view m) vs (firstn n fs).
Proof.
  intros cf m delims dl exq Hd. pose proof (cstr_ok _ _ _ Hd) as [Ec Hc].
  induction n as [|n IH]; intros src l fs H Hf.
  - exists []; split; [reflexivity|cbn; constructor].
  - cbn [split_all_loop]. rewrite (has_view_valid _ _ _ H). unfold strview_split_first_delim.
    rewrite Ec; cbn [bind].
    destruct (split_first_ok cf m src _ l dl exq H Hc) as [(a & d & b & E & Hl & -> & Ha & Hb)|(Hn & ->)]; cbn [bind].
    + subst l. inversion Hf as [l' Hn E|a' d' b' fs'' Hl' Hf' E]; subst.
      { exfalso; eapply Hn; apply Hl. }
      rewrite E in Hl'. assert (length a' = length a) as EL by (eapply is_least_unique; eauto).
      apply app_same_len in E as [-> E]; auto. injection E as -> ->.
      destruct (IH _ _ _ Hb Hf') as (vs & Ev & Fv). rewrite Ev; cbn [bind].
      eexists; split; eauto. cbn [firstn]. constructor; auto.
    + inversion Hf as [l' Hn' E|a' d' b' fs'' Hl' Hf' E]; subst.
      2:{ exfalso; eapply Hn; apply Hl'. }
      assert (split_all_loop cf n m INVALID delims exq = Ok []) as -> by (destruct n; reflexivity).
      cbn [bind]. eexists; split; eauto. cbn [firstn]. rewrite firstn_nil. constructor; auto.
Qed.

(** ** split_last_delim *)

Lemma count_rev : forall c l, count c (rev l) = count c l.
Proof.
  intros c; induction l as [|x t IH]; auto. unfold count in *. cbn [rev].
  rewrite filter_app, app_length, IH. cbn [filter]. destruct (c =? x); cbn [length]; lia.
Qed.

Lemma delim_at_end_rev : forall exq dl l k, (k < length l)%nat ->
  (delim_at exq dl (rev l) (length l - 1 - k) <-> delim_at_end exq dl l k).
Proof.
  intros exq dl l k Hk; split.
  - intros (a & d & b & E & HL & Hi & Hq). exists (rev b), d, (rev a).
    apply (f_equal (@rev Z)) in E. rewrite rev_involutive, rev_app_distr in E. cbn in E. rewrite <- app_assoc in E. cbn in E.
    assert (length l = length b + 1 + length a)%nat as HLl.
    { rewrite E, app_length. cbn [length]. rewrite !rev_length. lia. }
    repeat split; auto.
    + rewrite rev_length. lia.
    + intros K. specialize (Hq K). rewrite <- Hq. f_equal.
      replace (d :: rev a) with (rev (a ++ [d])) by (rewrite rev_app_distr; reflexivity).
      apply count_rev.
  - intros (a & d & b & E & HL & Hi & Hq). exists (rev b), d, (rev a). subst l.
    rewrite app_length in *; cbn in *. repeat split; auto.
    + rewrite rev_app_distr. cbn. rewrite <- app_assoc. reflexivity.
    + rewrite rev_length. lia.
    + intros K. specialize (Hq K). rewrite <- Hq. f_equal.
      change (rev b ++ [d]) with (rev (d :: b)). apply count_rev.
Qed.

Lemma split_last_loop_ok : forall cf m s delims dl exq, room cf (v_data s) 1 -> has_view m delims dl ->
  forall l r fuel inq, bytes_at m (v_data s) (l ++ r) -> (length l < fuel)%nat ->
  split_last_loop cf fuel m s delims exq (shift (v_data s) (Zlen l - 1)) false inq
  = Ok (match fdelim exq dl inq (rev l) with
        | Some k => (shift (v_data s) (Zlen l - 1 - Z.of_nat k), true)
        | None => (shift (v_data s) (-1), false)
        end).
Proof.
  intros cf m s delims dl exq Hcp Hd; induction l as [|x l IH] using rev_ind; intros r fuel inq H Hf;
    (destruct fuel as [|fuel]; [rewrite ?app_length in Hf; cbn in Hf; lia|]).
  - cbn [split_last_loop fdelim rev]. rewrite (padd_room cf m (v_data s) _ 1 (-1) H Hcp) by (zl). cbn [bind]. rewrite peq_shift.
    reflexivity.
  - cbn [split_last_loop]. rewrite (padd_room cf m (v_data s) _ 1 (-1) H Hcp) by (zl). cbn [bind]. rewrite peq_shift.
    rewrite app_length in Hf; cbn in Hf. zl. zb. cbn [negb andb].
    replace (Zlen l + (0 + 1) - 1) with (Zlen l) by lia.
    assert (bytes_at m (v_data s) (l ++ x :: r)) as H' by (rewrite <- app_assoc in H; exact H).
    rewrite (bytes_at_mid _ _ _ _ _ H'). cbn [bind]. change QUOTE with 34.
    rewrite rev_app_distr. cbn [rev app fdelim]. set (inq' := xorb inq ((x =? 34) && exq)).
    assert ((if inq' then Ok false else contains_char cf m delims x)
            = Ok (negb inq' && existsb (Z.eqb x) dl)) as Ef.
    { destruct inq'; auto. now rewrite (contains_char_ok cf m delims dl). }
    rewrite Ef; cbn [bind]. destruct (negb inq' && existsb (Z.eqb x) dl).
    + rewrite (padd_room_shift cf m (v_data s) _ 1 _ _ H Hcp) by (zl). cbn [bind].
      destruct fuel; [cbn in Hf; lia|]. cbn [split_last_loop]. rewrite (padd_room cf m (v_data s) _ 1 (-1) H Hcp) by (zl). cbn [bind].
      rewrite andb_false_r. do 3 f_equal; lia.
    + rewrite (padd_room_shift cf m (v_data s) _ 1 _ _ H Hcp) by (zl). cbn [bind].
      replace (Zlen l + -1) with (Zlen l - 1) by lia.
      rewrite (IH (x :: r)); auto; [|lia].
      destruct (fdelim exq dl inq' (rev l)); cbn [option_map]; do 3 f_equal; lia.
Qed.

Lemma split_last_room : forall cf m s delims l dl exq, (l = [] \/ room cf (v_data s) 1) -> has_view m s l -> has_view m delims dl ->
  (exists a d b, l = a ++ d :: b /\ is_greatest (delim_at_end exq dl l) (length a) /\
     split_last_delim cf m s delims exq
     = Ok (subview s (if (Zlen b =? 0) then Zlen a else Zlen a + 1) (Zlen b), subview s 0 (Zlen a))
     /\ has_view m (subview s 0 (Zlen a)) a
     /\ has_view m (subview s (if (Zlen b =? 0) then Zlen a else Zlen a + 1) (Zlen b)) b)
  \/ ((forall k, ~ delim_at_end exq dl l k) /\ split_last_delim cf m s delims exq = Ok (s, INVALID)).
Proof.
  intros cf m s delims l dl exq Hcp H Hd. pose proof H as (HB & HS & HM & HF).
  unfold split_last_delim. erewrite !has_view_nonnull by eauto. cbn [negb andb]. rewrite HS.
  destruct (Zlen l =? 0) eqn:E0; cbn [negb andb].
  { right. apply Z.eqb_eq in E0. apply Zlen_0 in E0. subst l. split; [|reflexivity].
    intros k (a & d & b & E & _). destruct a; discriminate. }
  apply Z.eqb_neq in E0. destruct Hcp as [->|Hcp]; [now cbn in E0|]. rewrite (padd_ok cf m _ l) by (auto; zl). cbn [bind]. rewrite Zlen_to_nat.
  rewrite (split_last_loop_ok cf m s delims dl exq Hcp Hd l []) by (rewrite ?app_nil_r; auto). cbn [bind].
  pose proof (fdelim_spec exq dl (rev l) false) as Sp.
  assert (forall k, delim_at_end exq dl l k -> (k < length l)%nat) as Hlt.
  { intros k (a & d & b & -> & <- & _). rewrite app_length; cbn; lia. }
  destruct (fdelim exq dl false (rev l)) as [k|] eqn:E.
  - left. apply (is_least_iff _ _ _ (gen_delim_at exq dl (rev l))) in Sp.
    pose proof (fdelim_bound _ _ _ _ _ E) as Hk. rewrite rev_length in Hk.
    assert (is_greatest (delim_at_end exq dl l) (length l - 1 - k)) as Hg.
    { split.
      - apply delim_at_end_rev; [lia|]. replace (length l - 1 - (length l - 1 - k))%nat with k by lia. apply Sp.
      - intros j Hj K. pose proof (Hlt _ K) as Hjl. apply delim_at_end_rev in K; auto.
        destruct Sp as [_ Sp]. apply (Sp (length l - 1 - j)%nat); auto. lia. }
    pose proof Hg as [(a & d & b & El & Ek & _) _]. exists a, d, b. split; auto. rewrite Ek. split; auto.
    assert (Zlen l - 1 - Z.of_nat k = Zlen a) as Eka by (unfold Zlen; lia). rewrite Eka.
    erewrite padd_ok; eauto; [|zl]. cbn [bind]. rewrite pdiff_shift; cbn [bind].
    rewrite El in *. zl.
    rewrite to_int_ok by (unfold INT_MIN, INT_MAX in *; lia).
    rewrite isub_ok by (unfold INT_MIN, INT_MAX in *; lia). cbn [bind].
    rewrite isub_ok by (unfold INT_MIN, INT_MAX in *; lia). cbn [bind].
    replace (Zlen a + (Zlen b + 1) - Zlen a - 1) with (Zlen b) by lia.
    replace (Zlen a + (Zlen b + 1) - (Zlen a + (Zlen b + 1) - Zlen a)) with (Zlen a) by lia.
    split; [|split].
    + destruct (Zlen b =? 0) eqn:Eb; cbn [bind].
      * unfold subview. rewrite shift_0. reflexivity.
      * rewrite (padd_ok_shift cf m (v_data s) (a ++ d :: b)); [|auto|zl].
        cbn [bind]. unfold subview. rewrite shift_0. reflexivity.
    + apply has_view_prefix in H. unfold subview. now rewrite shift_0.
    + destruct (Zlen b =? 0) eqn:Eb.
      * apply Z.eqb_eq in Eb. apply Zlen_0 in Eb. subst b.
        apply (has_view_sub m s a [] [d]). exact H.
      * replace (a ++ d :: b) with ((a ++ [d]) ++ b) in H by (rewrite <- app_assoc; reflexivity).
        apply has_view_suffix in H. zl. replace (Zlen a + 1) with (Zlen a + (0 + 1)) by lia. exact H.
  - right. split; auto. intros k K. pose proof (Hlt _ K) as Hk.
    apply delim_at_end_rev in K; auto. eapply Sp. apply gen_delim_at. eauto.
Qed.

Lemma split_last_ok : forall cf m s delims l dl exq, c_ptr cf = true -> has_view m s l -> has_view m delims dl ->
  (exists a d b, l = a ++ d :: b /\ is_greatest (delim_at_end exq dl l) (length a) /\
     split_last_delim cf m s delims exq
     = Ok (subview s (if (Zlen b =? 0) then Zlen a else Zlen a + 1) (Zlen b), subview s 0 (Zlen a))
     /\ has_view m (subview s 0 (Zlen a)) a
     /\ has_view m (subview s (if (Zlen b =? 0) then Zlen a else Zlen a + 1) (Zlen b)) b)
  \/ ((forall k, ~ delim_at_end exq dl l k) /\ split_last_delim cf m s delims exq = Ok (s, INVALID)).
Proof. intros cf m s delims l dl exq H. apply split_last_room. right. now left. Qed.

(** ** split_index, pop_first_char *)

Lemma split_index_ok : forall cf m s l i, has_view m s l -> INT_MIN <= i <= INT_MAX ->
  exists a b, l = a ++ b /\
    Zlen a = Z.max 0 (Z.min (Zlen l) (py_index (Zlen l) i)) /\
    split_index cf m s i =
      Ok (if i <? 0 then (subview s (Zlen a) (Zlen b), subview s 0 (Zlen a))
          else (subview s 0 (Zlen a), subview s (Zlen a) (Zlen b))) /\
    has_view m (subview s 0 (Zlen a)) a /\ has_view m (subview s (Zlen a) (Zlen b)) b.
Proof.
  intros cf m s l i H Hi. pose proof H as (HB & HS & HM & HF).
  set (k := Z.max 0 (Z.min (Zlen l) (py_index (Zlen l) i))).
  assert (0 <= k <= Zlen l) as Hk by (pose proof (Zlen_nonneg l); unfold k; lia).
  exists (firstn (Z.to_nat k) l), (skipn (Z.to_nat k) l).
  assert (Zlen (firstn (Z.to_nat k) l) = k) as Ea.
  { unfold Zlen at 1. rewrite firstn_length. clearbody k. unfold Zlen in *; lia. }
  assert (Zlen (skipn (Z.to_nat k) l) = Zlen l - k) as Eb.
  { unfold Zlen at 1. rewrite skipn_length. clearbody k. unfold Zlen in *; lia. }
  split; [symmetry; apply firstn_skipn|]. rewrite Ea, Eb. split; [reflexivity|]. split.
  - unfold split_index. rewrite HS.
    assert ((if i <? 0 then iadd cf (Zlen l) i else Ok i) = Ok (py_index (Zlen l) i)) as E1.
    { unfold py_index. destruct (i <? 0) eqn:E; auto. apply Z.ltb_lt in E. apply iadd_ok.
      zl; unfold INT_MIN, INT_MAX in *; lia. }
    rewrite E1; cbn [bind]. cbv zeta.
    assert ((if Zlen l <? (if py_index (Zlen l) i <? 0 then 0 else py_index (Zlen l) i)
             then Zlen l else (if py_index (Zlen l) i <? 0 then 0 else py_index (Zlen l) i)) = k) as E2.
    { unfold k. pose proof (Zlen_nonneg l). destruct (py_index (Zlen l) i <? 0) eqn:Ex.
      - apply Z.ltb_lt in Ex. zb. lia.
      - apply Z.ltb_ge in Ex. destruct (Zlen l <? _) eqn:Ey; [apply Z.ltb_lt in Ey|apply Z.ltb_ge in Ey]; lia. }
    rewrite E2. rewrite (padd_ok cf m (v_data s) l) by auto. cbn [bind].
    rewrite isub_ok by (unfold INT_MIN, INT_MAX in *; lia). cbn [bind].
    unfold subview. rewrite shift_0. destruct (i <? 0); reflexivity.
  - rewrite <- (firstn_skipn (Z.to_nat k) l) in H.
    pose proof (has_view_prefix _ _ _ _ H) as H1. pose proof (has_view_suffix _ _ _ _ H) as H2.
    rewrite Ea in *. rewrite Eb in *. unfold subview. rewrite shift_0. auto.
Qed.

(** split at a position given by a decomposition *)
Lemma split_index_at : forall cf m s a b, has_view m s (a ++ b) ->
  split_index cf m s (Zlen a) = Ok (subview s 0 (Zlen a), subview s (Zlen a) (Zlen b)).
Proof.
  intros cf m s a b H. pose proof H as (HB & HS & HM & HF). zl.
  destruct (split_index_ok cf m s (a ++ b) (Zlen a) H) as (a' & b' & E & El & Es & _).
  { unfold INT_MIN, INT_MAX in *; lia. }
  rewrite (proj2 (Z.ltb_ge (Zlen a) 0)) in Es by lia.
  assert (Zlen a' = Zlen a) as Ea.
  { rewrite El. unfold py_index. zl. rewrite (proj2 (Z.ltb_ge (Zlen a) 0)) by lia. lia. }
  symmetry in E. apply app_same_len in E as [-> ->]; [auto|unfold Zlen in Ea; lia].
Qed.

Lemma pop_ok : forall cf m s x l, has_view m s (x :: l) ->
  strview_pop_first_char cf m (Some s) = Ok (x, Some (subview s 1 (Zlen l)))
  /\ has_view m (subview s 1 (Zlen l)) l.
Proof.
  intros cf m s x l H. pose proof H as (HB & HS & HM & HF). split.
  - unfold strview_pop_first_char. rewrite HS. zl. zb.
    rewrite (split_index_at cf m s [x] l H : split_index cf m s 1 = _). cbn [bind].
    unfold subview; cbn [v_data]. rewrite shift_0. apply bytes_at_cons in HB as [HB _]. rewrite HB. reflexivity.
  - apply (has_view_suffix m s [x] l). exact H.
Qed.

Lemma pop_view_ok : forall cf m s x l, has_view m s (x :: l) ->
  pop_view cf m s = Ok (subview s 1 (Zlen l)).
Proof. intros cf m s x l H. unfold pop_view. rewrite (proj1 (pop_ok cf m s x l H)). reflexivity. Qed.

Lemma pop_empty : forall cf m s, v_size s = 0 -> strview_pop_first_char cf m (Some s) = Ok (0, Some s).
Proof. intros cf m s H. cbn. rewrite H. reflexivity. Qed.

(** ** split_left / split_right *)

Lemma pdiff_neg : forall cf m p q d, pdiff cf m p q = Ok d -> pdiff cf m q p = Ok (- d).
Proof.
  intros cf m p q d. unfold pdiff. intro H.
  destruct (pobj_eqb (p_obj p) (p_obj q)) eqn:E.
  - apply pobj_eqb_eq in E. rewrite <- E, pobj_eqb_refl. injection H as <-. f_equal; lia.
  - destruct (pobj_eqb (p_obj q) (p_obj p)) eqn:E'.
    + apply pobj_eqb_eq in E'. rewrite E', pobj_eqb_refl in E. discriminate.
    + destruct (c_ptr cf); [|discriminate]. destruct (addr m p), (addr m q); try discriminate.
      injection H as <-. f_equal; lia.
Qed.

Lemma pdiff_shift_arg : forall cf m p q d n, pdiff cf m p q = Ok d -> pdiff cf m p (shift q n) = Ok (d - n).
Proof.
  intros cf m p q d n. unfold pdiff. rewrite shift_obj, shift_ofs. intro H.
  destruct (pobj_eqb (p_obj p) (p_obj q)) eqn:E.
  - injection H as <-. f_equal; lia.
  - destruct (c_ptr cf); [|discriminate]. unfold addr in *. rewrite shift_obj, shift_ofs.
    destruct (p_obj p); try discriminate; destruct (p_obj q); try discriminate;
      repeat match goal with
             | H : context[match nth_error m ?b with _ => _ end] |- _ => destruct (nth_error m b)
             end; try discriminate; injection H as <-; f_equal; lia.
Qed.

Lemma split_left_gen : forall cf m s l pos d, has_view m s l -> is_null (v_data pos) = false ->
  pdiff cf m (v_data pos) (v_data s) = Ok d ->
  strview_split_left cf m (Some s) pos
  = if (0 <=? d) && (d <=? Zlen l)
    then Ok (subview s 0 d, Some (subview s d (Zlen l - d)))
    else Ok (INVALID, Some s).
Proof.
  intros cf m s l pos d H Hp Hd. pose proof H as (HB & HS & HM & HF).
  unfold strview_split_left. rewrite (has_view_valid _ _ _ H).
  unfold strview_is_valid at 1. rewrite Hp. cbn [negb andb].
  unfold ple. rewrite (pdiff_neg _ _ _ _ _ Hd). cbn [bind]. rewrite HS.
  erewrite padd_ok; eauto; [|zl]. cbn [bind].
  rewrite (pdiff_shift_arg _ _ _ _ _ (Zlen l) Hd). cbn [bind].
  replace (- d <=? 0) with (0 <=? d) by (apply eq_true_iff_eq; rewrite !Z.leb_le; lia).
  replace (d - Zlen l <=? 0) with (d <=? Zlen l) by (apply eq_true_iff_eq; rewrite !Z.leb_le; lia).
  destruct (0 <=? d) eqn:E1; cbn [bind andb]; [|reflexivity].
  destruct (d <=? Zlen l) eqn:E2; [|reflexivity].
  apply Z.leb_le in E1, E2. rewrite Hd; cbn [bind].
  rewrite to_int_ok by (unfold INT_MIN, INT_MAX in *; lia).
  rewrite <- (firstn_skipn (Z.to_nat d) l) in H.
  assert (Zlen (firstn (Z.to_nat d) l) = d) as El.
  { unfold Zlen at 1. rewrite firstn_length. unfold Zlen in *; lia. }
  assert (Zlen (skipn (Z.to_nat d) l) = Zlen l - d) as Er.
  { unfold Zlen at 1. rewrite skipn_length. unfold Zlen in *; lia. }
  pose proof (split_index_at cf m s _ _ H) as K. rewrite El, Er in K. rewrite K. reflexivity.
Qed.

Lemma pdiff_shift_arg_l : forall cf m p q d n, pdiff cf m p q = Ok d -> pdiff cf m (shift p n) q = Ok (d + n).
Proof.
  intros cf m p q d n H. apply pdiff_neg in H. apply (pdiff_shift_arg _ _ _ _ _ n) in H.
  apply pdiff_neg in H. rewrite H. f_equal; lia.
Qed.

(** [pos] must be a view of some live object, so that its end may be formed. *)
Lemma split_right_gen : forall cf m s l pos pl d, has_view m s l -> has_view m pos pl ->
  pdiff cf m (shift (v_data pos) (Zlen pl)) (v_data s) = Ok d ->
  strview_split_right cf m (Some s) pos
  = if (0 <=? d) && (d <=? Zlen l)
    then Ok (subview s d (Zlen l - d), Some (subview s 0 d))
    else Ok (INVALID, Some s).
Proof.
  intros cf m s l pos pl d H Hp Hd. pose proof H as (HB & HS & HM & HF).
  pose proof Hp as (PB & PS & _).
  unfold strview_split_right. rewrite (has_view_valid _ _ _ H), (has_view_valid _ _ _ Hp). cbn [andb].
  rewrite PS, (padd_ok cf m (v_data pos) pl) by (auto; zl). cbn [bind].
  unfold ple. rewrite (pdiff_neg _ _ _ _ _ Hd). cbn [bind]. rewrite HS.
  erewrite padd_ok; eauto; [|zl]. cbn [bind].
  rewrite (pdiff_shift_arg _ _ _ _ _ (Zlen l) Hd). cbn [bind].
  replace (- d <=? 0) with (0 <=? d) by (apply eq_true_iff_eq; rewrite !Z.leb_le; lia).
  replace (d - Zlen l <=? 0) with (d <=? Zlen l) by (apply eq_true_iff_eq; rewrite !Z.leb_le; lia).
  destruct (0 <=? d) eqn:E1; cbn [bind andb]; [|reflexivity].
  destruct (d <=? Zlen l) eqn:E2; [|reflexivity].
  apply Z.leb_le in E1, E2. rewrite Hd; cbn [bind].
  rewrite to_int_ok by (unfold INT_MIN, INT_MAX in *; lia).
  rewrite <- (firstn_skipn (Z.to_nat d) l) in H.
  assert (Zlen (firstn (Z.to_nat d) l) = d) as El.
  { unfold Zlen at 1. rewrite firstn_length. unfold Zlen in *; lia. }
  assert (Zlen (skipn (Z.to_nat d) l) = Zlen l - d) as Er.
  { unfold Zlen at 1. rewrite skipn_length. unfold Zlen in *; lia. }
  pose proof (split_index_at cf m s _ _ H) as K. rewrite El, Er in K. rewrite K. reflexivity.
Qed.

(** ** split_line *)

Lemma is_eol_In : forall x, is_eol x = true <-> In x [CR; LF].
Proof.
  intro x. unfold is_eol, CR, LF. rewrite orb_true_iff, !Z.eqb_eq. cbn. intuition congruence.
Qed.

Lemma until_eol_none : forall l, (forall k, ~ delim_at false [CR; LF] l k) -> until_eol l = None.
Proof.
  induction l as [|x l IH]; intros H; cbn; auto.
  destruct (is_eol x) eqn:E.
  - exfalso. apply (H O). exists [], x, l. repeat split; auto. now apply is_eol_In. discriminate.
  - rewrite IH; auto. intros k (a & d & b & -> & <- & Hi & _). apply (H (S (length a))).
    exists (x :: a), d, b. repeat split; auto. discriminate.
Qed.

Lemma until_eol_some : forall a d b, is_least (delim_at false [CR; LF] (a ++ d :: b)) (length a) ->
  until_eol (a ++ d :: b) = Some (a, d, b) /\ is_eol d = true.
Proof.
  intros a d b [(a' & d' & b' & E & EL & Hi & _) Hm].
  assert (d' = d) as -> by (apply app_same_len in E as [_ E]; auto; now injection E as ->).
  apply is_eol_In in Hi. split; auto. clear E EL a' b'.
  induction a as [|x a IH]; cbn.
  - now rewrite Hi.
  - destruct (is_eol x) eqn:E.
    + exfalso. apply (Hm O); [cbn; lia|]. exists [], x, (a ++ d :: b). repeat split; auto.
      now apply is_eol_In. discriminate.
    + rewrite IH; auto. intros j Hj (a' & d'' & b'' & E' & EL & Hi' & _).
      apply (Hm (S j)); [cbn; lia|]. exists (x :: a'), d'', b''. cbn. rewrite E', EL. repeat split; auto. discriminate.
Qed.

Lemma eol_sum : forall cf e x, is_eol e = true -> is_byte x ->
  (char_int cf e + char_int cf x =? CR + LF) = (x =? other_eol e).
Proof.
  intros cf e x He Hx. unfold is_eol, is_byte in *. apply orb_true_iff in He. rewrite !Z.eqb_eq in He.
  unfold char_int, other_eol, CR, LF.
  destruct He as [-> | ->]; cbn [Z.leb Z.compare Pos.compare Pos.compare_cont Z.eqb Pos.eqb];
    rewrite andb_false_r; apply eq_true_iff_eq; rewrite !Z.eqb_eq;
    destruct (c_char_signed cf && (128 <=? x)) eqn:E; try lia;
    apply andb_true_iff in E as [_ E]; apply Z.leb_le in E; lia.
Qed.

Lemma drop_half_len : forall e l, Zlen (drop_half e l) <= Zlen l.
Proof. intros e [|x l]; cbn [drop_half]; [lia|]. destruct (_ && _); zl; lia. Qed.

Lemma split_line_ok : forall cf m s l eol e,
  has_view m s l -> l <> [] -> e = match eol with Some x => x | None => 0 end -> pend_ok e ->
  match next_line e l with
  | Some (a, e', b) =>
      exists r s', strview_split_line cf m (Some s) eol
                   = Ok (r, Some s', match eol with Some _ => Some e' | None => None end)
                   /\ has_view m r a /\ has_view m s' b
                   /\ (exists i j, r = subview s i (Zlen a) /\ s' = subview s j (Zlen b)
                       /\ 0 <= i /\ i + Zlen a <= j /\ j + Zlen b <= Zlen l)
  | None =>
      exists s', strview_split_line cf m (Some s) eol = Ok (INVALID, Some s', eol)
                 /\ has_view m s' (drop_half e l) /\ s' = subview s (Zlen l - Zlen (drop_half e l)) (Zlen (drop_half e l))
  end.
Proof.
  intros cf m s l eol e H Hn He Hp. pose proof H as (HB & HS & HM & HF).
  assert (exists k src, has_view m src (drop_half e l) /\ src = subview s k (v_size src) /\ k = Zlen l - Zlen (drop_half e l) /\
    (match eol with
     | Some e => if e =? 0 then Ok s
                 else let! x := load_byte m (v_data s) in
                      if char_int cf e + char_int cf x =? CR + LF then pop_view cf m s else Ok s
     | None => Ok s end) = Ok src) as (k & src & Hsrc & Esrc & Ek & Epop).
  { assert (forall e0, is_eol e0 = false -> drop_half e0 l = l) as D0.
    { intros e0 E0. unfold drop_half. rewrite E0. destruct l; auto. }
    destruct eol as [e0|].
    - cbn in He. subst e0. destruct (e =? 0) eqn:E0.
      + apply Z.eqb_eq in E0. subst. rewrite D0 by reflexivity. exists 0, s. rewrite subview_0 by reflexivity. repeat split; auto; try apply H; lia.
      + assert (is_eol e = true) as Hee.
        { unfold is_eol. apply orb_true_iff. rewrite !Z.eqb_eq. apply Z.eqb_neq in E0. unfold pend_ok in Hp. lia. }
        destruct l as [|x t]; [congruence|]. pose proof (bytes_at_cons _ _ _ _ HB) as [Hx _]. rewrite Hx; cbn [bind].
        rewrite eol_sum by (auto; inversion HF; auto). cbn [drop_half]. rewrite Hee. cbn [andb].
        destruct (x =? other_eol e) eqn:Ex.
        * rewrite (pop_view_ok cf m s x t H). exists 1, (subview s 1 (Zlen t)).
          repeat split; auto; try apply (proj2 (pop_ok cf m s x t H)). zl; lia.
        * exists 0, s. rewrite subview_0 by reflexivity. repeat split; auto; try apply H; lia.
    - rewrite D0 by (subst; reflexivity). exists 0, s. rewrite subview_0 by reflexivity. repeat split; auto; try apply H; lia. }
  pose proof (drop_half_len e l) as Hdl.
  unfold next_line. set (l1 := drop_half e l) in *.
  assert (strview_split_line cf m (Some s) eol =
    (let! (result, src1) := split_first_delim cf m src (View (lit [CR; LF]) 2) false in
        if strview_is_valid src1 then
          let! pe := padd cf m (v_data result) (v_size result) in
          let! e := load_byte m pe in
          let! x := load_byte m (v_data src1) in
          let! (src2, e2) :=
            if char_int cf e + char_int cf x =? CR + LF
            then let! s := pop_view cf m src1 in Ok (s, 0)
            else Ok (src1, e) in
          Ok (result, Some src2, match eol with Some _ => Some e2 | None => None end)
        else Ok (INVALID, Some result, eol))) as ->.
  { unfold strview_split_line. rewrite HS. assert (0 < Zlen l) as Hl by (destruct l; [congruence|zl]).
    zb. rewrite Epop. reflexivity. }
  clear Epop.
  assert (has_view m (View (lit [CR; LF]) 2) [CR; LF]) as Hd.
  { apply lit_view'; [repeat constructor; unfold is_byte, CR, LF; lia|cbn; unfold INT_MAX; lia|reflexivity]. }
  destruct (split_first_ok cf m src _ l1 _ false Hsrc Hd) as [(a & d & b & El & Hle & -> & Ha & Hb)|(Hno & ->)]; cbn [bind].
  - rewrite (has_view_valid _ _ _ Hb). rewrite El in Hle. apply until_eol_some in Hle as [Eu Ed].
    rewrite El, Eu. pose proof Hsrc as (SB & SS & SM & SF). rewrite El in SB, SS, SM, SF.
    unfold subview at 1 2; cbn [v_data v_size]. rewrite shift_0.
    rewrite (padd_ok cf m (v_data src) (a ++ d :: b)) by (auto; zl). cbn [bind].
    rewrite (bytes_at_mid _ _ _ _ _ SB). cbn [bind].
    destruct b as [|y t].
    + change (Zlen (@nil Z) =? 0) with true in *. cbv iota in *. unfold subview at 1; cbn [v_data].
      rewrite (bytes_at_mid _ _ _ _ _ SB). cbn [bind].
      assert (is_byte d) as Hbd by (apply Forall_app in SF as [_ SF]; inversion SF; auto).
      rewrite eol_sum by auto.
      assert ((d =? other_eol d) = false) as ->.
      { unfold other_eol. destruct (d =? 13) eqn:E13; apply Z.eqb_neq; [apply Z.eqb_eq in E13|apply Z.eqb_neq in E13]; lia. }
      cbn [bind]. do 2 eexists. repeat split; eauto; try apply Ha; try apply Hb.
      rewrite Esrc, !subview_subview. do 2 eexists. split; [reflexivity|]. split; [reflexivity|]. subst k. clear - El Hdl. pose proof (f_equal Zlen El) as Hl. clearbody l1. clear El. repeat split; zl; lia.
    + assert ((Zlen (y :: t) =? 0) = false) as Ez by (zl; apply Z.eqb_neq; lia).
      rewrite Ez in *. pose proof Hb as (BB & _ & _ & BF). apply bytes_at_cons in BB as [BB _]. rewrite BB. cbn [bind].
      assert (is_byte y) as Hby by (inversion BF; auto).
      rewrite eol_sum by auto. destruct (y =? other_eol d) eqn:Ey.
      * rewrite (pop_view_ok cf m _ y t Hb). cbn [bind]. do 2 eexists.
        split; [reflexivity|]. split; [exact Ha|]. split; [apply (proj2 (pop_ok cf m _ y t Hb))|].
        rewrite Esrc, !subview_subview. do 2 eexists. split; [reflexivity|]. split; [reflexivity|]. subst k. clear - El Hdl. pose proof (f_equal Zlen El) as Hl. clearbody l1. clear El. repeat split; zl; lia.
      * cbn [bind]. do 2 eexists. split; [reflexivity|]. split; [exact Ha|]. split; [exact Hb|].
        rewrite Esrc, !subview_subview. do 2 eexists. split; [reflexivity|]. split; [reflexivity|]. subst k. clear - El Hdl. pose proof (f_equal Zlen El) as Hl. clearbody l1. clear El. repeat split; zl; lia.
  - assert (until_eol l1 = None) as -> by (apply until_eol_none; auto).
    exists src. split; auto. split; auto. rewrite <- (has_view_size _ _ _ Hsrc) in Ek |- *. subst k. exact Esrc.
Qed.

Lemma until_eol_spec : forall l a e b, until_eol l = Some (a, e, b) ->
  l = a ++ e :: b /\ is_eol e = true /\ until_eol a = None.
Proof.
  induction l as [|x l IH]; intros a e b H; cbn in H; [discriminate|].
  destruct (is_eol x) eqn:E.
  - injection H as <- <- <-. auto.
  - destruct (until_eol l) as [[[a' e'] b']|] eqn:U; [|discriminate]. injection H as <- <- <-.
    destruct (IH _ _ _ eq_refl) as (-> & H2 & H3). repeat split; auto. cbn. now rewrite E, H3.
Qed.

Lemma is_eol_pend : forall e, is_eol e = true -> pend_ok e.
Proof. intros e H. unfold is_eol in H. apply orb_true_iff in H. rewrite !Z.eqb_eq in H. unfold pend_ok. lia. Qed.

Lemma drop_half_0 : forall l, drop_half 0 l = l.
Proof. destruct l; reflexivity. Qed.

Lemma next_line_some : forall p l a e b, next_line p l = Some (a, e, b) ->
  exists e0 b0, until_eol (drop_half p l) = Some (a, e0, b0) /\ drop_half e b = drop_half e0 b0 /\ pend_ok e
  /\ (length b < length l)%nat
  /\ (forall c, drop_half e (b ++ c) = drop_half e0 (b0 ++ c)).
Proof.
  intros p l a e b H. unfold next_line in H.
  destruct (until_eol (drop_half p l)) as [[[a0 e0] b0]|] eqn:U; [|discriminate].
  pose proof (until_eol_spec _ _ _ _ U) as (El & Ee & _).
  assert (length (drop_half p l) <= length l)%nat as Hlen.
  { unfold drop_half. destruct l; auto. destruct (_ && _); cbn; lia. }
  rewrite El, app_length in Hlen. cbn in Hlen.
  destruct b0 as [|y t].
  - injection H as <- <- <-. exists e0, []. repeat split; auto using is_eol_pend. cbn in *. lia.
  - destruct (y =? other_eol e0) eqn:Ey; injection H as <- <- <-.
    + exists e0, (y :: t). repeat split; auto.
      * rewrite drop_half_0. cbn. now rewrite Ee, Ey.
      * now left.
      * cbn in *; lia.
      * intro c. rewrite drop_half_0. cbn. now rewrite Ee, Ey.
    + exists e0, (y :: t). repeat split; auto using is_eol_pend. cbn in *; lia.
Qed.

Lemma lines_of_unique : forall l ls r, lines_of l ls r -> forall ls' r', lines_of l ls' r' -> ls = ls' /\ r = r'.
Proof.
  intros l ls r H; induction H as [l Hu|l a e b ls r Hu Hl IH]; intros ls' r' H'.
  - inversion H'; subst; auto. congruence.
  - inversion H' as [? Hu'|? a' e' b' ls'' ? Hu' Hl']; subst; [congruence|].
    rewrite Hu in Hu'. injection Hu' as <- <- <-. destruct (IH _ _ Hl') as [-> ->]. auto.
Qed.

Lemma until_eol_app : forall l c a e b, until_eol l = Some (a, e, b) -> until_eol (l ++ c) = Some (a, e, b ++ c).
Proof.
  induction l as [|x l IH]; intros c a e b H; cbn in *; [discriminate|].
  destruct (is_eol x).
  - now injection H as <- <- <-.
  - destruct (until_eol l) as [[[a' e'] b']|]; [|discriminate]. injection H as <- <- <-.
    now rewrite (IH c _ _ _ eq_refl).
Qed.

(** State of the caller: remaining text [l] and pending [e]; invariant: lines still to come
    of the text [rest] appended later are those of [drop_half e (l ++ rest)]. *)
Lemma pop_all_ok : forall cf m fuel s l e,
  has_view m s l -> pend_ok e -> (length l < fuel)%nat ->
  exists vs s' e' ls l', pop_all cf fuel m s e = Ok (vs, s', e')
    /\ Forall2 (has_view m) vs ls /\ has_view m s' l' /\ pend_ok e'
    /\ until_eol (drop_half e' l') = None
    /\ (forall rest ls' r, lines_of (drop_half e' (l' ++ rest)) ls' r ->
                           lines_of (drop_half e (l ++ rest)) (ls ++ ls') r).
Proof.
  intros cf m; induction fuel as [|fuel IH]; intros s l e H Hp Hf; [lia|].
  cbn [pop_all]. destruct l as [|x t].
  - unfold strview_split_line. rewrite (has_view_size _ _ _ H). cbn.
    exists [], s, e, [], []. repeat split; auto; apply H.
  - assert (x :: t <> []) as Hn by discriminate.
    pose proof (split_line_ok cf m s (x :: t) (Some e) e H Hn eq_refl Hp) as Sp.
    destruct (next_line e (x :: t)) as [[[a e1] b]|] eqn:N.
    + destruct Sp as (r & s1 & -> & Hr & Hs1 & _). cbn [bind]. rewrite (has_view_valid _ _ _ Hr).
      pose proof (next_line_some _ _ _ _ _ N) as (e0 & b0 & U & D & Pe & L & Dc).
      destruct (IH s1 b e1 Hs1 Pe) as (vs & s2 & e2 & ls & l' & -> & F & Hs2 & Pe2 & U2 & K); [cbn in *; lia|].
      cbn [bind]. exists (r :: vs), s2, e2, (a :: ls), l'. repeat split; auto; try apply Hs2.
      intros rest ls' r' Hr'. change ((a :: ls) ++ ls') with (a :: (ls ++ ls')).
      assert (drop_half e ((x :: t) ++ rest) = drop_half e (x :: t) ++ rest) as ->.
      { cbn. destruct (_ && _); reflexivity. }
      eapply lines_one; [apply until_eol_app; eauto|].
      rewrite <- Dc. apply K. exact Hr'.
    + destruct Sp as (s1 & -> & Hs1 & _). cbn [bind]. cbn.
      exists [], s, e, [], (x :: t). repeat split; auto; try apply H.
      unfold next_line in N. destruct (until_eol (drop_half e (x :: t))) as [[[a0 e0] b0]|]; auto.
      destruct b0 as [|y b0]; [|destruct (y =? other_eol e0)]; discriminate.
Qed.

Lemma pop_all_fuel : forall cf m fuel s e r, pop_all cf fuel m s e = Ok r ->
  forall fuel', (fuel <= fuel')%nat -> pop_all cf fuel' m s e = Ok r.
Proof.
  intros cf m; induction fuel as [|fuel IH]; intros s e r H fuel' Hf; [discriminate|].
  destruct fuel' as [|fuel']; [lia|]. cbn [pop_all] in *.
  destruct (strview_split_line cf m (Some s) (Some e)) as [[[r1 s1] e1]| |]; cbn [bind] in *; try discriminate.
  destruct s1; [|discriminate]. destruct e1; [|discriminate]. destruct (strview_is_valid r1); [|exact H].
  destruct (pop_all cf fuel m v z) as [[[rs s2] e2]| |] eqn:P; cbn [bind] in H; try discriminate.
  rewrite (IH _ _ _ P) by lia. exact H.
Qed.

Lemma has_view_unique : forall m v a b, has_view m v a -> has_view m v b -> a = b.
Proof.
  intros m v a b (A1 & A2 & _) (B1 & B2 & _).
  assert (length a = length b) as E by (unfold Zlen in *; lia).
  pose proof (bytes_at_same m _ _ _ _ A1 B1 eq_refl eq_refl) as K.
  rewrite K by lia. rewrite <- E. symmetry. apply firstn_all.
Qed.

Lemma stream_ok : forall cf rem e cs ls r e', stream cf rem e cs ls r e' -> pend_ok e ->
  until_eol (drop_half e rem) = None ->
  lines_of (drop_half e (rem ++ concat cs)) ls (drop_half e' r).
Proof.
  intros cf rem e cs ls r e' H; induction H as [rem e|m s fuel vs s' ls rem e c e' rem' cs ls' r e'' Hs Hp Hv Hs' Hr IH];
    intros Pe U.
  - cbn [concat]. rewrite app_nil_r. now constructor.
  - destruct (pop_all_ok cf m (S (length (rem ++ c))) s _ e Hs Pe) as (vs1 & s1 & e1 & ls1 & l1 & E1 & F1 & V1 & P1 & U1 & K); [lia|].
    assert (Ok (vs1, s1, e1) = Ok (vs, s', e')) as E.
    { rewrite <- (pop_all_fuel _ _ _ _ _ _ E1 (Nat.max fuel (S (length (rem ++ c))))) by lia.
      apply (pop_all_fuel _ _ _ _ _ _ Hp). lia. }
    injection E as -> -> ->.
    assert (l1 = rem') as -> by (eapply has_view_unique; eauto).
    assert (ls1 = ls) as ->.
    { clear - F1 Hv. revert ls1 F1; induction Hv; intros ls1 F1; inversion F1; subst; auto.
      f_equal; auto. eapply has_view_unique; eauto. }
    cbn [concat]. rewrite app_assoc. apply K. apply IH; auto.
Qed.

(** ** dequote *)

Lemma dequote_loop_ok : forall cf m q n v l, (length l <= n)%nat -> has_view m v l ->
  forall fuel, (length l < fuel)%nat ->
  exists k r, l = repeat q k ++ r ++ repeat q k
    /\ (Zlen r <= 1 \/ hd 0 r <> q \/ last r 0 <> q)
    /\ dequote_loop cf fuel m v q = Ok (subview v (Z.of_nat k) (Zlen r)).
Proof.
  intros cf m q; induction n as [|n IH]; intros v l Hn H fuel Hf;
    (destruct fuel as [|fuel]; [lia|]); pose proof H as (HB & HS & HM & HF).
  - destruct l; [|cbn in Hn; lia]. exists O, []. cbn [dequote_loop]. rewrite HS. cbn.
    repeat split; auto. rewrite subview_0; auto.
  - cbn [dequote_loop]. rewrite HS. destruct (1 <? Zlen l) eqn:E1.
    2:{ apply Z.ltb_ge in E1. exists O, l. cbn. rewrite app_nil_r. repeat split; auto. now rewrite subview_0 by auto. }
    apply Z.ltb_lt in E1.
    destruct l as [|x t]; [cbn in E1; lia|]. destruct t as [|z t] using rev_ind; [cbn in E1; lia|]. clear IHt.
    pose proof (bytes_at_cons _ _ _ _ HB) as [Hx _]. rewrite Hx; cbn [bind].
    destruct (x =? q) eqn:Ex.
    2:{ apply Z.eqb_neq in Ex. exists O, (x :: t ++ [z]). cbn [repeat app]. rewrite app_nil_r.
        repeat split; auto. now rewrite subview_0 by auto. }
    apply Z.eqb_eq in Ex; subst x.
    rewrite (padd_ok cf m (v_data v) (q :: t ++ [z])) by (auto; zl). cbn [bind].
    replace (Zlen (q :: t ++ [z]) - 1) with (Zlen (q :: t)) by (rewrite !Zlen_cons, Zlen_app; cbn; lia).
    rewrite (bytes_at_mid m (v_data v) (q :: t) z [] HB). cbn [bind].
    destruct (z =? q) eqn:Ez.
    2:{ apply Z.eqb_neq in Ez. exists O, (q :: t ++ [z]). cbn [repeat app]. rewrite app_nil_r.
        repeat split; auto. 2: now rewrite subview_0 by auto.
        right; right. change (q :: t ++ [z]) with ((q :: t) ++ [z]). now rewrite last_last. }
    apply Z.eqb_eq in Ez; subst z.
    assert (strview_sub cf m v 1 (-1) = Ok (subview v 1 (Zlen t))) as Es.
    { unfold strview_sub. rewrite (has_view_nonnull _ _ _ H), HS. zl. zb. cbn [negb andb].
      change (1 <? 0) with false. change (-1 <? 0) with true. cbn [bind].
      rewrite iadd_ok by (unfold INT_MIN, INT_MAX in *; lia). cbn [bind]. zb. cbn [andb]. change (1 <? 0) with false.
      rewrite isub_ok by (unfold INT_MIN, INT_MAX in *; lia). cbn [bind].
      rewrite (padd_ok cf m (v_data v) (q :: t ++ [q])) by (auto; zl). cbn [bind].
      unfold subview. do 2 f_equal. zl. }
    rewrite Es; cbn [bind].
    assert (has_view m (subview v 1 (Zlen t)) t) as Ht by (apply (has_view_sub m v [q] t [q]); exact H).
    cbn [length] in Hn, Hf.
    destruct (IH _ t ltac:(rewrite app_length in Hn; cbn in Hn; lia) Ht fuel) as (k & r & El & Hr & Ed).
    { rewrite app_length in Hf; cbn in Hf; lia. }
    exists (S k), r. repeat split; auto.
    + change (q :: t ++ [q] = q :: repeat q k ++ r ++ (q :: repeat q k)).
      rewrite (repeat_cons k q), El, <- !app_assoc. reflexivity.
    + rewrite Ed, subview_subview. do 2 f_equal. lia.
Qed.

Lemma dequote_ok : forall cf m v l, has_view m v l ->
  exists q k r, l = repeat q k ++ r ++ repeat q k
    /\ (k = O -> Zlen l <= 1 \/ hd 0 l <> last l 0)
    /\ (k <> O -> Zlen r <= 1 \/ hd 0 r <> q \/ last r 0 <> q)
    /\ strview_dequote cf m v = Ok (subview v (Z.of_nat k) (Zlen r))
    /\ has_view m (subview v (Z.of_nat k) (Zlen r)) r.
Proof.
  intros cf m v l H. pose proof H as (HB & HS & HM & HF). unfold strview_dequote. rewrite HS.
  destruct (1 <? Zlen l) eqn:E1.
  - apply Z.ltb_lt in E1. destruct l as [|q t]; [cbn in E1; lia|].
    pose proof (bytes_at_cons _ _ _ _ HB) as [Hx _]. rewrite Hx; cbn [bind]. rewrite Zlen_to_nat.
    destruct (dequote_loop_ok cf m q (length (q :: t)) v _ (le_n _) H (S (length (q :: t))) (le_n _)) as (k & r & El & Hr & Ed).
    exists q, k, r. repeat split; auto.
    + intros ->. cbn in El. rewrite app_nil_r in El. rewrite <- El in Hr. cbn [hd] in *.
      destruct Hr as [Hr|[Hr|Hr]]; auto.
    + rewrite El in H. pose proof (has_view_sub m v _ _ _ H) as K.
      assert (Zlen (repeat q k) = Z.of_nat k) as Ek by (unfold Zlen; rewrite repeat_length; auto).
      rewrite Ek in K. apply K.
    + rewrite El in H. pose proof (has_view_sub m v _ _ _ H) as K.
      assert (Zlen (repeat q k) = Z.of_nat k) as Ek by (unfold Zlen; rewrite repeat_length; auto).
      rewrite Ek in K. apply K.
    + rewrite El in H. pose proof (has_view_sub m v _ _ _ H) as K. apply K.
  - apply Z.ltb_ge in E1. exists 0, O, l. cbn [repeat app]. rewrite app_nil_r. cbn [Z.of_nat].
    rewrite subview_0 by auto. repeat split; auto.
Qed.

Lemma dequote_unquoted : forall cf m v l, has_view m v l -> (Zlen l <= 1 \/ hd 0 l <> last l 0) -> strview_dequote cf m v = Ok v.
Proof.
  intros cf m v l H Hq. destruct (dequote_ok cf m v l H) as (q & k & r & E & _ & _ & D & _). pose proof H as (_ & HS & _).
  destruct k as [|k].
  - cbn [repeat app] in E. rewrite app_nil_r in E. subst r. rewrite D. unfold subview. rewrite <- HS, shift_0. destruct v; reflexivity.
  - exfalso. subst l. destruct Hq as [Hq|Hq].
    + rewrite !Zlen_app in Hq. unfold Zlen in Hq. rewrite !repeat_length in Hq. lia.
    + apply Hq. assert (last ((repeat q (S k) ++ r) ++ repeat q (S k)) 0 = q) as L.
      { change (repeat q (S k)) with (q :: repeat q k) at 2. rewrite repeat_cons, app_assoc. apply last_last. }
      rewrite app_assoc. rewrite L. reflexivity.
Qed.

(** ** to_cstr *)

Lemma upd_length : forall {A} (l : list A) n x, length (upd l n x) = length l.
Proof. induction l; destruct n; intros; cbn; auto. Qed.
Lemma upd_same : forall {A} (l : list A) n x, (n < length l)%nat -> nth_error (upd l n x) n = Some x.
Proof. induction l; destruct n; intros; cbn in *; auto; try lia. apply IHl. lia. Qed.
Lemma upd_other : forall {A} (l : list A) n k x, k <> n -> nth_error (upd l n x) k = nth_error l k.
Proof. induction l; destruct n; destruct k; intros; cbn; auto; try congruence. Qed.

Lemma store_cells_ok : forall m b o n f k, nth_error m b = Some k -> b_live k = true ->
  0 <= o -> 0 <= n -> o + n <= b_size k ->
  store_cells m (Ptr (PBlk b) o) n f = Ok (upd m b (with_cells k o n f)).
Proof.
  intros m b o n f k Hk Hl Ho Hn Hs. unfold store_cells; cbn. rewrite Hk, Hl. cbn [bind].
  unfold in_block. rewrite !(proj2 (Z.leb_le _ _)) by lia. reflexivity.
Qed.

Lemma frame_upd : forall m b o n f k, nth_error m b = Some k ->
  frame m (upd m b (with_cells k o n f)) b o (o + n).
Proof.
  intros m b o n f k Hk. assert (b < length m)%nat as Hb by (apply nth_error_Some; congruence).
  split; [apply upd_length|]. split; [intros; now apply upd_other|].
  intros k' Hk'. rewrite Hk in Hk'. injection Hk' as <-.
  eexists; split; [now apply upd_same|]. cbn. repeat split; auto.
  intros i Hi. destruct ((o <=? i) && (i <? o + n)) eqn:E; auto.
  apply andb_true_iff in E as [E1 E2]. apply Z.leb_le in E1. apply Z.ltb_lt in E2. lia.
Qed.

Lemma frame_trans : forall m1 m2 m3 b lo1 hi1 lo2 hi2 lo hi, frame m1 m2 b lo1 hi1 -> frame m2 m3 b lo2 hi2 ->
  lo <= lo1 -> lo <= lo2 -> hi1 <= hi -> hi2 <= hi -> frame m1 m3 b lo hi.
Proof.
  intros m1 m2 m3 b lo1 hi1 lo2 hi2 lo hi (L1 & O1 & K1) (L2 & O2 & K2) H1 H2 H3 H4.
  split; [congruence|]. split; [intros; rewrite O2, O1; auto|].
  intros k Hk. destruct (K1 k Hk) as (k1 & E1 & B1 & S1 & V1 & W1 & G1).
  destruct (K2 k1 E1) as (k2 & E2 & B2 & S2 & V2 & W2 & G2).
  exists k2. repeat split; try congruence; auto. intros i Hi. rewrite G2, G1; auto; lia.
Qed.

Lemma frame_weak : forall m1 m2 b lo1 hi1 lo hi, frame m1 m2 b lo1 hi1 -> lo <= lo1 -> hi1 <= hi -> frame m1 m2 b lo hi.
Proof.
  intros m1 m2 b lo1 hi1 lo hi (L1 & O1 & K1) H1 H2. split; auto. split; auto.
  intros k Hk. destruct (K1 k Hk) as (k1 & E1 & B1 & S1 & V1 & W1 & G1).
  exists k1. repeat split; try congruence; auto. intros i Hi. apply G1. lia.
Qed.

Lemma frame_refl : forall m b lo hi, frame m m b lo hi.
Proof. intros. split; auto. split; auto. intros k Hk. exists k. repeat split; auto. Qed.

(** Storing a known byte string *)
Lemma bytes_stored : forall m b o f k l, nth_error m b = Some k -> b_live k = true ->
  0 <= o -> o + Zlen l <= b_size k ->
  (forall i, 0 <= i < Zlen l -> f i = CByte (nth (Z.to_nat i) l 0)) ->
  bytes_at (upd m b (with_cells k o (Zlen l) f)) (Ptr (PBlk b) o) l.
Proof.
  intros m b o f k l Hk Hl Ho Hs Hf. assert (b < length m)%nat as Hb by (apply nth_error_Some; congruence).
  exists (with_cells k o (Zlen l) f). cbn. rewrite upd_same by auto. cbn. rewrite Hl. repeat split; auto.
  intros i Hi. rewrite (proj2 (Z.leb_le _ _)), (proj2 (Z.ltb_lt _ _)) by lia. cbn [andb].
  replace (o + i - o) with i by lia. now apply Hf.
Qed.

(** memmove of readable bytes into a block *)
Lemma memmove_ok : forall cf m b o src l k, nth_error m b = Some k -> b_live k = true ->
  0 <= o -> o + Zlen l <= b_size k -> bytes_at m src l ->
  exists m', memmove cf m (Ptr (PBlk b) o) src (Zlen l) = Ok m' /\ frame m m' b o (o + Zlen l)
    /\ bytes_at m' (Ptr (PBlk b) o) l.
Proof.
  intros cf m b o src l k Hk Hl Ho Hs Hb. unfold memmove.
  destruct (Zlen l <=? 0) eqn:E.
  - rewrite (proj2 (Z.ltb_ge (Zlen l) 0)) by (pose proof (Zlen_nonneg l); lia). rewrite (zero_ok_bytes cf m src l Hb).
    apply Z.leb_le in E. assert (l = []) as -> by (apply Zlen_0; pose proof (Zlen_nonneg l); lia).
    assert (bytes_at m (Ptr (PBlk b) o) []) as B.
    { exists k. cbn. rewrite Hk, Hl. repeat split; auto. intros i Hi; cbn in Hi; lia. }
    rewrite (zero_ok_bytes cf m _ _ B). exists m. repeat split; auto. apply frame_refl.
  - apply Z.leb_gt in E. destruct Hb as (sb & Sa & So & Ss & Sg). rewrite Sa. cbn [bind]. unfold in_block.
    rewrite !(proj2 (Z.leb_le _ _)) by lia. cbn [andb].
    erewrite store_cells_ok by (eauto; lia). eexists; split; [reflexivity|]. split; [now apply frame_upd|].
    apply bytes_stored; auto.
Qed.

Lemma bytes_at_frame : forall m m' b lo hi p l, frame m m' b lo hi -> bytes_at m p l ->
  (p_obj p = PBlk b -> p_ofs p + Zlen l <= lo \/ hi <= p_ofs p) -> bytes_at m' p l.
Proof.
  intros m m' b lo hi p l (L & O & K) (k & Ha & Ho & Hs & Hg) Hd.
  apply access_blk in Ha as [(b' & Eo & Hn & Hl)|(t & Eo & ->)].
  - destruct (Nat.eq_dec b' b) as [->|Hne].
    + destruct (K k Hn) as (k' & E' & B' & S' & V' & W' & G').
      exists k'. rewrite Eo. cbn. rewrite E', V', Hl. repeat split; auto; try lia.
      intros i Hi. rewrite G'; auto. specialize (Hd Eo). lia.
    + exists k. rewrite Eo. cbn. rewrite O by auto. rewrite Hn, Hl. repeat split; auto.
  - exists (lit_block t). rewrite Eo. repeat split; auto.
Qed.

Lemma to_cstr_ok : forall cf m b o n k v l, nth_error m b = Some k -> b_live k = true ->
  0 <= o -> 0 < n -> o + n <= b_size k -> has_view m v l ->
  (p_obj (v_data v) = PBlk b ->
   p_ofs (v_data v) + Zlen l <= o \/ o + n <= p_ofs (v_data v)) ->
  exists m', strview_to_cstr cf m (Ptr (PBlk b) o) n v = Ok (Ptr (PBlk b) o, m')
    /\ bytes_at m' (Ptr (PBlk b) o) (firstn (Z.to_nat (n - 1)) l ++ [0])
    /\ frame m m' b o (o + Z.min (n - 1) (Zlen l) + 1).
Proof.
  intros cf m b o n k v l Hk Hl Ho Hn Hs H Hd. pose proof H as (HB & HS & HM & HF).
  unfold strview_to_cstr. rewrite HS. pose proof (Zlen_nonneg l) as Hz. zb. cbn [negb andb is_null p_obj].
  set (c := if n - 1 <? Zlen l then n - 1 else Zlen l).
  assert (c = Z.min (n - 1) (Zlen l)) as Ec.
  { unfold c. destruct (n - 1 <? Zlen l) eqn:E; [apply Z.ltb_lt in E|apply Z.ltb_ge in E]; lia. }
  set (t := firstn (Z.to_nat (n - 1)) l).
  assert (Zlen t = c) as Et. { unfold t, Zlen. rewrite firstn_length. unfold Zlen in *. lia. }
  assert (bytes_at m (v_data v) t) as Bt by (apply bytes_at_firstn; auto).
  unfold memcpy.
  assert ((0 <? c) && ranges_overlap (Ptr (PBlk b) o) (v_data v) c = false) as ->.
  { unfold ranges_overlap. cbn [p_obj p_ofs]. destruct (pobj_eqb (PBlk b) (p_obj (v_data v))) eqn:E; [|now rewrite andb_false_r].
    apply pobj_eqb_eq in E. symmetry in E. specialize (Hd E). cbn [andb].
    destruct (0 <? c) eqn:E0; auto. apply Z.ltb_lt in E0. cbn [andb].
    apply andb_false_iff. rewrite !Z.ltb_ge. lia. }
  destruct (memmove_ok cf m b o (v_data v) t k) as (m1 & E1 & F1 & B1); auto; [lia|].
  rewrite Et in E1, F1. rewrite E1; cbn [bind].
  pose proof F1 as (L1 & O1 & K1). destruct (K1 k Hk) as (k1 & Ek1 & Bk1 & Sk1 & Vk1 & Wk1 & Gk1).
  assert (padd cf m1 (Ptr (PBlk b) o) c = Ok (Ptr (PBlk b) (o + c))) as ->.
  { unfold padd; cbn [p_obj]. destruct (c_ptr cf); [reflexivity|]. cbn [access]. rewrite Ek1, Vk1, Hl. cbn [bind].
    unfold in_block. cbn [p_ofs]. rewrite !(proj2 (Z.leb_le _ _)) by lia. reflexivity. }
  cbn [bind]. unfold store_byte.
  rewrite (store_cells_ok m1 b (o + c) 1 _ k1) by (auto; try congruence; lia). cbn [bind].
  set (m2 := upd _ _ _).
  assert (frame m1 m2 b (o + c) (o + c + 1)) as F2 by (apply frame_upd; auto).
  exists m2. split; [reflexivity|]. split.
  - apply bytes_at_app. rewrite Et. split.
    + eapply bytes_at_frame; eauto. cbn. lia.
    + unfold shift; cbn [p_obj p_ofs]. apply (bytes_stored m1 b (o + c) _ k1 [0]); auto; try congruence; cbn; try lia.
      intros i Hi. now assert (i = 0) as -> by lia.
  - eapply frame_trans; [exact F1|exact F2|lia..].
Qed.

Lemma to_cstr_none : forall cf m dst n v, n = 0 \/ dst = null ->
  strview_to_cstr cf m dst n v = Ok (dst, m).
Proof.
  intros cf m dst n v [-> | ->]; unfold strview_to_cstr; cbn; rewrite ?andb_false_r; reflexivity.
Qed.

Lemma to_cstr_invalid : forall cf m b o n k, c_mem0 cf = true -> nth_error m b = Some k -> b_live k = true ->
  0 <= o -> 0 < n -> o + n <= b_size k ->
  exists m', strview_to_cstr cf m (Ptr (PBlk b) o) n INVALID = Ok (Ptr (PBlk b) o, m')
    /\ bytes_at m' (Ptr (PBlk b) o) [0] /\ frame m m' b o (o + 1).
Proof.
  intros cf m b o n k Hc Hk Hl Ho Hn Hs. unfold strview_to_cstr. cbn [v_size INVALID v_data].
  change (0 <? 0) with false. cbv iota zeta. zb. cbn [negb andb is_null p_obj].
  unfold memcpy. cbn [Z.ltb Z.compare andb]. unfold memmove. cbn [Z.leb Z.ltb Z.compare]. unfold zero_ok. rewrite Hc.
  cbn [orb andb bind].
  assert (padd cf m (Ptr (PBlk b) o) 0 = Ok (Ptr (PBlk b) o)) as ->.
  { unfold padd; cbn [p_obj]. unfold shift; cbn [p_obj p_ofs]. rewrite Z.add_0_r.
    destruct (c_ptr cf); [reflexivity|]. cbn [access]. rewrite Hk, Hl. cbn [bind].
    unfold in_block. rewrite !(proj2 (Z.leb_le _ _)) by lia. reflexivity. }
  cbn [bind]. unfold store_byte.
  rewrite (store_cells_ok m b o 1 _ k) by (auto; lia). cbn [bind]. eexists; split; [reflexivity|]. split.
  - apply (bytes_stored m b o _ k [0]); auto; cbn; try lia. intros i Hi. now assert (i = 0) as -> by lia.
  - apply frame_upd; auto.
Qed.
