(** Padded decimal numbers and what the integer parsers read from them. *)
From Verif Require Import Base Mem StrviewModel Spec MemLemmas StrviewProofs StrviewProofs3 StrnumModel NumSpec StrnumProofs StrnumProofs2 StrnumProofs3
  PrnfModel PrnfSpec PrnfSpec2 PrnfProofs PrnfProofs9.

Definition dec (x : Z) : Prop := isdig 10 x = true.
Lemma dec_range : forall x, dec x -> 48 <= x <= 57.
Proof.
  intros x H. unfold dec, isdig in H. apply andb_true_iff in H as [H1 H2]. apply Z.ltb_lt in H2. unfold dval in H2.
  apply orb_true_iff in H1 as [H1|H1]; [apply orb_true_iff in H1 as [H1|H1]|]; apply andb_true_iff in H1 as [X1 X2]; apply Z.leb_le in X1, X2; auto;
  destruct (x <=? 57) eqn:Y1; [apply Z.leb_le in Y1; lia| |apply Z.leb_le in Y1; lia|]; destruct (x <=? 70) eqn:Y2; try apply Z.leb_le in Y2; try apply Z.leb_gt in Y1; try apply Z.leb_gt in Y2; lia.
Qed.
Lemma span_ends : forall (p : Z -> bool) l r, Forall (fun x => p x = true) l -> match r with x :: _ => p x = false | [] => True end ->
  span p (l ++ r) = (l, r).
Proof.
  intros p l r H Hr. induction H as [|x l Hx Hl IH]; cbn [app span].
  - destruct r as [|y r]; cbn [span]; [reflexivity|]. now rewrite Hr.
  - now rewrite Hx, IH.
Qed.
Lemma all_copies : forall (P : Z -> Prop) x n, P x -> Forall P (copies x n).
Proof. intros P x n H. apply Forall_forall. intros y Hy. apply repeat_spec in Hy. now subst. Qed.

(** Spaces, a sign, digits, spaces. *)
Lemma read_padded : forall sg a s ds b, Forall dec ds -> ds <> [] ->
  s = [] \/ (sg = true /\ (s = [45] \/ s = [43])) ->
  read_int sg 0 (copies 32 a ++ s ++ ds ++ copies 32 b) = IntText (match s with [45] => true | _ => false end) 10 ds (copies 32 b).
Proof.
  intros sg a s ds b Hd Hn Hs. unfold read_int. change (flag 0 STRNUM_NOSPACE) with false. change (flag 0 STRNUM_NOSIGN) with false. cbn [negb]. rewrite andb_true_r.
  assert (exists x t, ds = x :: t /\ dec x) as (x & t & Ed & Hx).
  { destruct ds as [|x t]; [congruence|]. exists x, t. inversion Hd; auto. }
  pose proof (dec_range x Hx) as Rx.
  rewrite span_ends.
  2:{ apply all_copies. reflexivity. }
  2:{ destruct Hs as [-> | (_ & [-> | ->])]; cbn [app]; auto. rewrite Ed. cbn [app]. apply Z.eqb_neq. lia. }
  cbn [snd].
  assert ((if sg then read_sign (s ++ ds ++ copies 32 b) else (false, s ++ ds ++ copies 32 b)) =
    (match s with [45] => true | _ => false end, ds ++ copies 32 b)) as ->.
  { destruct Hs as [-> | (-> & [-> | ->])]; cbn [app]; auto. destruct sg; auto. rewrite Ed. cbn [app read_sign].
    rewrite (proj2 (Z.eqb_neq x 45)), (proj2 (Z.eqb_neq x 43)) by lia. reflexivity. }
  assert (read_prefix 0 (ds ++ copies 32 b) = (10, ds ++ copies 32 b)) as ->.
  { rewrite Ed. cbn [app]. destruct (t ++ copies 32 b) as [|y r] eqn:Et; [reflexivity|].
    assert (y <= 57) as Hy.
    { assert (Forall (fun z => z <= 57) (t ++ copies 32 b)) as F.
      { apply Forall_app. split; [|apply all_copies; lia]. rewrite Ed in Hd. inversion Hd as [|? ? _ Ht]. eapply Forall_impl; [|exact Ht].
        intros z Hz. apply dec_range in Hz. lia. }
      rewrite Et in F. inversion F; auto. }
    unfold read_prefix. rewrite (proj2 (Z.eqb_neq y 98)), (proj2 (Z.eqb_neq y 66)), (proj2 (Z.eqb_neq y 120)), (proj2 (Z.eqb_neq y 88)) by lia.
    cbn [orb]. rewrite !andb_false_r. reflexivity. }
  rewrite span_ends; auto. unfold copies. destruct (Z.to_nat b); cbn [repeat]; auto.
Qed.

Lemma num_zeros : forall n ds, num_val 10 (copies 48 n ++ ds) = num_val 10 ds.
Proof.
  intros n ds. unfold num_val, copies. rewrite fold_left_app. f_equal. induction (Z.to_nat n) as [|k IH]; [reflexivity|]. cbn [repeat fold_left]. exact IH.
Qed.
Lemma dec_zeros : forall n v, 0 <= v < two64' -> let ds := copies 48 n ++ show 10 v in Forall dec ds /\ ds <> [] /\ num_val 10 ds = v.
Proof.
  intros n v Hv ds. destruct (show10_facts v Hv) as (S1 & S2 & S3 & _). unfold ds. split; [|split].
  - apply Forall_app. split; auto. apply all_copies. reflexivity.
  - intro E. apply app_eq_nil in E as [_ E]. auto.
  - now rewrite num_zeros.
Qed.
Lemma dec_digits_ok : forall c v, 0 <= v < two64' -> Forall dec (dec_digits c v) /\ dec_digits c v <> [] /\ num_val 10 (dec_digits c v) = v.
Proof.
  intros c v Hv. unfold dec_digits. destruct (prec_of c) as [p|].
  - exact (dec_zeros _ v Hv).
  - cbn [app]. pose proof (dec_zeros 0 v Hv) as H. cbn in H. exact H.
Qed.

(** The zeros come before the sign only if there is one. *)
Definition zeros_ok (c : conv) (s : list Z) : Prop := left_aligned c = true \/ int_fill c = 32 \/ s = [].
Lemma pad_shape : forall c s v, 0 <= v < two64' -> zeros_ok c s -> s = [] \/ s = [45] \/ s = [43] \/ s = [32] ->
  exists a s' ds b, pad c (int_fill c) (s ++ dec_digits c v) = copies 32 a ++ s' ++ ds ++ copies 32 b /\
    Forall dec ds /\ ds <> [] /\ num_val 10 ds = v /\ (s' = s \/ (s = [32] /\ s' = [])) /\ s' <> [32] /\
    b = (if left_aligned c then width_of c - Zlen (s ++ dec_digits c v) else 0).
Proof.
  intros c s v Hv Hz Hs. destruct (dec_digits_ok c v Hv) as (D1 & D2 & D3). set (ds := dec_digits c v) in *. unfold pad.
  set (w := width_of c - Zlen (s ++ ds)).
  assert (forall a b, exists a' s', copies 32 a ++ s ++ ds ++ copies 32 b = copies 32 a' ++ s' ++ ds ++ copies 32 b /\ (s' = s \/ (s = [32] /\ s' = [])) /\ s' <> [32]) as K.
  { intros a b. destruct Hs as [-> | [-> | [-> | ->]]]; try (exists a; eexists; split; [reflexivity|split; [now left|discriminate]]).
    exists (Z.max 0 a + 1), []. split; [|split; [now right|discriminate]]. cbn [app].
    assert (copies 32 (Z.max 0 a + 1) = copies 32 a ++ [32]) as ->; [|now rewrite <- app_assoc].
    unfold copies. replace (Z.to_nat (Z.max 0 a + 1)) with (Z.to_nat a + 1)%nat by lia. now rewrite repeat_app. }
  destruct (left_aligned c) eqn:El.
  - destruct (K 0 w) as (a & s' & E & H1 & H2). exists a, s', ds, w. split; [|auto 10]. rewrite <- E. change (copies 32 0) with (@nil Z). cbn [app]. now rewrite <- app_assoc.
  - destruct Hz as [Hz|[Hz|Hz]]; [congruence| |].
    + rewrite Hz. destruct (K w 0) as (a & s' & E & H1 & H2). exists a, s', ds, 0. split; [|auto 10]. rewrite <- E. change (copies 32 0) with (@nil Z). now rewrite app_nil_r.
    + subst s. cbn [app]. unfold int_fill. destruct (prec_of c) as [p|] eqn:Ep; [|destruct (has_flag FZero c)].
      * exists w, [], ds, 0. split; [change (copies 32 0) with (@nil Z); now rewrite app_nil_r|]. repeat split; auto; discriminate.
      * exists 0, [], (copies 48 w ++ ds), 0. change (copies 32 0) with (@nil Z). rewrite app_nil_r. cbn [app]. split; auto.
        split; [apply Forall_app; split; auto; apply all_copies; reflexivity|]. split; [intro X; apply app_eq_nil in X as [_ X]; auto|].
        split; [now rewrite num_zeros|]. split; auto. split; [discriminate|reflexivity].
      * exists w, [], ds, 0. split; [change (copies 32 0) with (@nil Z); now rewrite app_nil_r|]. repeat split; auto; discriminate.
Qed.

(** What the parsers make of it. *)
Lemma reads_padded : forall cf t f m s a sg ds b, consumer cf t = Some f -> mem_wf m -> has_view m s (copies 32 a ++ sg ++ ds ++ copies 32 b) ->
  Forall dec ds -> ds <> [] -> sg = [] \/ (ty_signed t = true /\ (sg = [45] \/ sg = [43])) ->
  let v := match sg with [45] => - num_val 10 ds | _ => num_val 10 ds end in ty_lo cf t <= v <= ty_hi cf t ->
  exists s', f m true (Some s) 0 = Ok (Parsed NoErr (Some v) (Some s')) /\ has_view m s' (copies 32 b).
Proof.
  intros cf t f m s a sg ds b Hf Hw V Hd Hn Hs v Hr. set (l := copies 32 a ++ sg ++ ds ++ copies 32 b) in *.
  assert (Forall (fun x => x < 128) l) as Small.
  { unfold l. apply Forall_app; split; [apply all_copies; lia|]. apply Forall_app; split; [destruct Hs as [-> | (_ & [-> | ->])]; repeat constructor; lia|].
    apply Forall_app; split; [|apply all_copies; lia]. eapply Forall_impl; [|exact Hd]. intros x Hx. apply dec_range in Hx. lia. }
  pose proof (read_padded (ty_signed t) a sg ds b Hd Hn Hs) as R. fold l in R.
  assert (result_of true s l (parse_int (ty_signed t) 0 (ty_lo cf t) (ty_hi cf t) l) (f m true (Some s) 0)) as K.
  { apply consumer_ok; auto.
    - right; right. eapply Forall_impl; [|exact Small]. intros x Hx. cbv beta in Hx. lia.
    - rewrite R. cbn [it_base]. intros X. discriminate. }
  unfold parse_int in K. rewrite R in K. unfold int_value in K. cbn [it_digits it_neg it_base it_rest] in K.
  assert ((if match sg with [45] => true | _ => false end then - num_val 10 ds else num_val 10 ds) = v) as Ev
    by (unfold v; destruct Hs as [-> | (_ & [-> | ->])]; reflexivity).
  rewrite Ev in K. destruct ds as [|x ds]; [congruence|].
  rewrite (proj2 (Z.leb_le (ty_lo cf t) v)), (proj2 (Z.leb_le v (ty_hi cf t))) in K by lia. cbn [andb] in K.
  destruct K as (h & Eh & _ & K). eexists. split; [exact K|]. apply has_view_suffix. now rewrite <- Eh.
Qed.
