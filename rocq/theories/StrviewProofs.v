(** Proofs about the strview model. *)
From Verif Require Import Base Mem Libc StrviewModel Spec MemLemmas.

Ltac zb :=
  repeat match goal with
  | |- context[Z.eqb ?a ?b] =>
      first [ rewrite (proj2 (Z.eqb_eq a b)) by lia | rewrite (proj2 (Z.eqb_neq a b)) by lia ]
  | |- context[Z.leb ?a ?b] =>
      first [ rewrite (proj2 (Z.leb_le a b)) by lia | rewrite (proj2 (Z.leb_gt a b)) by lia ]
  | |- context[Z.ltb ?a ?b] =>
      first [ rewrite (proj2 (Z.ltb_lt a b)) by lia | rewrite (proj2 (Z.ltb_ge a b)) by lia ]
  end.

Lemma is_null_null : is_null null = true.
Proof. reflexivity. Qed.

(** ** cstr *)

Lemma strlen_loop_ok : forall m l p fuel acc,
  bytes_at m p (l ++ [0]) -> ~ In 0 l -> (length l < fuel)%nat ->
  strlen_loop fuel m p acc = Ok (acc + Zlen l).
Proof.
  intros m; induction l as [|x l IH]; intros p fuel acc H Hn Hf; (destruct fuel as [|fuel]; [cbn in Hf; lia|]).
  - cbn in H. apply bytes_at_cons in H as [H _]. cbn. rewrite H; cbn. f_equal; lia.
  - cbn in H. apply bytes_at_cons in H as [H H']. cbn [strlen_loop]. rewrite H; cbn [bind].
    destruct (x =? 0) eqn:E. { apply Z.eqb_eq in E; subst; exfalso; apply Hn; left; reflexivity. }
    rewrite IH; auto.
    + f_equal. zl.
    + intro; apply Hn; right; auto.
    + cbn in Hf; lia.
Qed.

Lemma cstr_ok : forall m p l, c_string m p l ->
  cstr m p = Ok (View p (Zlen l)) /\ has_view m (View p (Zlen l)) l.
Proof.
  intros m p l (Hb & Hf & Hn & Hl). split.
  - unfold cstr. rewrite (bytes_at_nonnull _ _ _ Hb).
    unfold strlen. destruct Hb as (blk & Ha & H0 & Hs & Hg).
    rewrite Ha; cbn [bind].
    rewrite (strlen_loop_ok m l p); auto.
    + cbn [bind]. rewrite Z.add_0_l, to_int_ok; auto. zl; unfold INT_MIN; lia.
    + exists blk; auto.
    + zl. unfold Zlen in *. lia.
  - repeat split; cbn; auto. apply bytes_at_app in Hb; apply Hb.
Qed.

Lemma cstr_null : forall m, cstr m null = Ok INVALID.
Proof. reflexivity. Qed.

Lemma lit_view : forall m l, Forall is_byte l -> Zlen l <= INT_MAX ->
  has_view m (View (lit l) (Zlen l)) l.
Proof.
  intros m l Hf Hl. repeat split; cbn; auto.
  exists (lit_block l). cbn. repeat split; try lia.
Qed.

Lemma lit_view' : forall m l n, Forall is_byte l -> Zlen l <= INT_MAX -> n = Zlen l ->
  has_view m (View (lit l) n) l.
Proof. intros; subst; now apply lit_view. Qed.

(** ** contains_char *)

Lemma contains_char_loop_ok : forall cf m c l p fuel,
  bytes_at m p l -> (length l < fuel)%nat ->
  contains_char_loop cf fuel m (shift p (Zlen l)) p c false = Ok (existsb (Z.eqb c) l).
Proof.
  intros cf m c; induction l as [|x l IH]; intros p fuel H Hf;
    (destruct fuel as [|fuel]; [cbn in Hf; lia|]).
  - cbn [contains_char_loop]. rewrite peq_shift_r. reflexivity.
  - cbn [contains_char_loop]. rewrite peq_shift_r. zl. zb. cbn [negb andb].
    pose proof (bytes_at_cons _ _ _ _ H) as [H1 H2]. rewrite H1; cbn [bind].
    erewrite padd_ok; eauto; [|zl]. cbn [bind existsb]. rewrite Z.eqb_sym.
    destruct (c =? x) eqn:E; cbn [orb].
    + destruct fuel; [cbn in Hf; lia|]. reflexivity.
    + replace (shift p (Zlen l + 1)) with (shift (shift p 1) (Zlen l)) by (rewrite shift_shift; f_equal; lia).
      apply IH; auto. cbn in Hf; lia.
Qed.

Lemma contains_char_ok : forall cf m s l c,
  has_view m s l -> contains_char cf m s c = Ok (existsb (Z.eqb c) l).
Proof.
  intros cf m s l c (Hb & Hs & Hm & Hf). unfold contains_char.
  rewrite Hs. erewrite padd_ok; eauto; [|zl]. cbn [bind].
  rewrite contains_char_loop_ok; auto. rewrite Zlen_to_nat; lia.
Qed.

Lemma contains_char_invalid : forall cf m c,
  c_mem0 cf = true \/ c_ptr cf = true -> contains_char cf m INVALID c = Ok false.
Proof.
  intros cf m c H. unfold contains_char, INVALID; cbn [v_data v_size].
  unfold padd; cbn. destruct H as [-> | ->]; rewrite ?orb_true_r; cbn; reflexivity.
Qed.


Lemma contains_char_denotes : forall cf m s o c,
  denotes m s o -> set_ok cf o -> contains_char cf m s c = Ok (existsb (Z.eqb c) (contents o)).
Proof.
  intros cf m s [l|] c H Hs; cbn in *.
  - now apply contains_char_ok.
  - subst. rewrite contains_char_invalid; auto.
Qed.

(** ** trim *)

Fixpoint drop_in (cs l : list Z) : list Z :=
  match l with
  | [] => []
  | x :: t => if existsb (Z.eqb x) cs then drop_in cs t else l
  end.

Lemma drop_in_spec : forall cs l, exists a, l = a ++ drop_in cs l
  /\ Forall (fun x => In x cs) a /\ (forall x t, drop_in cs l = x :: t -> ~ In x cs).
Proof.
  intros cs; induction l as [|x l IH]; cbn.
  - exists []; repeat split; auto. discriminate.
  - destruct (existsb (Z.eqb x) cs) eqn:E.
    + destruct IH as (a & H1 & H2 & H3). exists (x :: a); repeat split; auto.
      * cbn; congruence.
      * constructor; auto. now apply existsb_eqb_In.
    + exists []; repeat split; auto. intros y t [= <- <-]. now apply existsb_eqb_nIn.
Qed.

Lemma trim_start_loop_ok : forall cf m chars o,
  denotes m chars o -> set_ok cf o ->
  forall l d fuel, has_view m (View d (Zlen l)) l -> (length l < fuel)%nat ->
  trim_start_loop cf fuel m (View d (Zlen l)) chars
  = Ok (View (shift d (Zlen l - Zlen (drop_in (contents o) l))) (Zlen (drop_in (contents o) l))).
Proof.
  intros cf m chars o Hc Ho; induction l as [|x l IH]; intros d fuel H Hf;
    (destruct fuel as [|fuel]; [cbn in Hf; lia|]).
  - cbn. rewrite shift_0. reflexivity.
  - cbn [trim_start_loop v_size v_data]. destruct H as (Hb & Hs & Hm & Hfo); cbn [v_size v_data] in *.
    zl. zb. pose proof (bytes_at_cons _ _ _ _ Hb) as [H1 H2]. rewrite H1; cbn [bind].
    erewrite contains_char_denotes by eauto. cbn [bind drop_in].
    destruct (existsb (Z.eqb x) (contents o)) eqn:E.
    + erewrite padd_ok; eauto; [|zl]. cbn [bind].
      rewrite isub_ok by (unfold INT_MIN, INT_MAX in *; lia). cbn [bind].
      replace (Zlen l + 1 - 1) with (Zlen l) by lia.
      rewrite IH; [|split; [|split; [|split]]; cbn; auto; [lia|now inversion Hfo]|cbn in Hf; lia].
      rewrite shift_shift. do 3 f_equal; lia.
    + zl. rewrite Z.sub_diag, shift_0. reflexivity.
Qed.

Lemma trim_start_ok : forall cf m s chars l o,
  has_view m s l -> denotes m chars o -> set_ok cf o ->
  strview_trim_start cf m s chars
  = Ok (subview s (Zlen l - Zlen (drop_in (contents o) l)) (Zlen (drop_in (contents o) l))).
Proof.
  intros cf m s chars l o H Hc Ho. unfold strview_trim_start, subview.
  pose proof (has_view_size _ _ _ H) as Hs.
  destruct s as [d n]; cbn in Hs; subst n.
  cbn [v_size v_data]. rewrite Zlen_to_nat. erewrite trim_start_loop_ok; eauto.
Qed.

Lemma trim_start_invalid : forall cf m chars, strview_trim_start cf m INVALID chars = Ok INVALID.
Proof. reflexivity. Qed.

Definition drop_in_end (cs l : list Z) : list Z := rev (drop_in cs (rev l)).

Lemma drop_in_end_snoc : forall cs l x,
  drop_in_end cs (l ++ [x]) = if existsb (Z.eqb x) cs then drop_in_end cs l else l ++ [x].
Proof.
  intros; unfold drop_in_end. rewrite rev_app_distr. cbn.
  destruct (existsb (Z.eqb x) cs); auto. cbn. now rewrite rev_involutive.
Qed.

Lemma trim_end_loop_ok : forall cf m chars o,
  denotes m chars o -> set_ok cf o ->
  forall l d fuel, has_view m (View d (Zlen l)) l -> (length l < fuel)%nat ->
  trim_end_loop cf fuel m (View d (Zlen l)) chars
  = Ok (View d (Zlen (drop_in_end (contents o) l))).
Proof.
  intros cf m chars o Hc Ho; induction l as [|x l IH] using rev_ind; intros d fuel H Hf;
    (destruct fuel as [|fuel]; [rewrite ?app_length in Hf; cbn in Hf; lia|]).
  - reflexivity.
  - rewrite drop_in_end_snoc.
    cbn [trim_end_loop v_size v_data]. pose proof H as (Hb & Hs & Hm & Hfo); cbn [v_size v_data] in *.
    rewrite app_length in Hf; cbn in Hf.
    zl. zb. replace (Zlen l + (0 + 1) - 1) with (Zlen l) by lia.
    erewrite padd_ok; eauto; [|zl]. cbn [bind].
    rewrite (bytes_at_mid _ _ _ _ _ Hb). cbn [bind].
    erewrite contains_char_denotes by eauto. cbn [bind].
    destruct (existsb (Z.eqb x) (contents o)) eqn:E.
    + rewrite isub_ok by (unfold INT_MIN, INT_MAX in *; lia). cbn [bind].
      replace (Zlen l + (0 + 1) - 1) with (Zlen l) by lia.
      apply IH; [|lia].
      apply (has_view_prefix _ _ _ _ H).
    + zl. reflexivity.
Qed.

Lemma trim_end_ok : forall cf m s chars l o,
  has_view m s l -> denotes m chars o -> set_ok cf o ->
  strview_trim_end cf m s chars = Ok (subview s 0 (Zlen (drop_in_end (contents o) l))).
Proof.
  intros cf m s chars l o H Hc Ho. unfold strview_trim_end, subview. rewrite shift_0.
  pose proof (has_view_size _ _ _ H) as Hs.
  destruct s as [d n]; cbn in Hs; subst n.
  cbn [v_size v_data]. rewrite Zlen_to_nat. erewrite trim_end_loop_ok; eauto.
Qed.

Lemma trim_end_invalid : forall cf m chars, strview_trim_end cf m INVALID chars = Ok INVALID.
Proof. reflexivity. Qed.

Lemma drop_in_end_spec : forall cs l, exists c, l = drop_in_end cs l ++ c
  /\ Forall (fun x => In x cs) c /\ (forall t x, drop_in_end cs l = t ++ [x] -> ~ In x cs).
Proof.
  intros cs l. destruct (drop_in_spec cs (rev l)) as (a & H1 & H2 & H3).
  exists (rev a); repeat split.
  - unfold drop_in_end. rewrite <- rev_app_distr, <- H1. now rewrite rev_involutive.
  - now apply Forall_rev.
  - intros t x Ht. unfold drop_in_end in Ht.
    assert (drop_in cs (rev l) = x :: rev t) as E.
    { rewrite <- (rev_involutive (drop_in _ _)), Ht, rev_app_distr. reflexivity. }
    eapply H3; eauto.
Qed.

(** generic statement used by the property theorems *)
Lemma trim_start_spec : forall cf m s chars l o,
  has_view m s l -> denotes m chars o -> set_ok cf o ->
  exists a b, l = a ++ b
    /\ Forall (fun x => In x (contents o)) a
    /\ (forall x t, b = x :: t -> ~ In x (contents o))
    /\ strview_trim_start cf m s chars = Ok (subview s (Zlen a) (Zlen b))
    /\ has_view m (subview s (Zlen a) (Zlen b)) b.
Proof.
  intros cf m s chars l o H Hc Ho.
  destruct (drop_in_spec (contents o) l) as (a & H1 & H2 & H3).
  exists a, (drop_in (contents o) l). repeat split; auto.
  - erewrite trim_start_ok by eauto. do 2 f_equal. rewrite H1 at 1. zl.
  - rewrite H1 in H. apply has_view_suffix in H. apply H.
  - rewrite H1 in H. apply has_view_suffix in H. apply H.
  - rewrite H1 in H. apply has_view_suffix in H. apply H.
Qed.

Lemma trim_end_spec : forall cf m s chars l o,
  has_view m s l -> denotes m chars o -> set_ok cf o ->
  exists b c, l = b ++ c
    /\ Forall (fun x => In x (contents o)) c
    /\ (forall t x, b = t ++ [x] -> ~ In x (contents o))
    /\ strview_trim_end cf m s chars = Ok (subview s 0 (Zlen b))
    /\ has_view m (subview s 0 (Zlen b)) b.
Proof.
  intros cf m s chars l o H Hc Ho.
  destruct (drop_in_end_spec (contents o) l) as (c & H1 & H2 & H3).
  exists (drop_in_end (contents o) l), c.
  assert (has_view m (subview s 0 (Zlen (drop_in_end (contents o) l))) (drop_in_end (contents o) l)).
  { rewrite H1 in H. apply has_view_prefix in H. unfold subview. now rewrite shift_0. }
  repeat split; auto; try apply H0.
  erewrite trim_end_ok by eauto. reflexivity.
Qed.

Lemma trim_spec : forall cf m s chars l o,
  has_view m s l -> denotes m chars o -> set_ok cf o ->
  exists a b c, l = a ++ b ++ c
    /\ Forall (fun x => In x (contents o)) a /\ Forall (fun x => In x (contents o)) c
    /\ (forall x t, b = x :: t -> ~ In x (contents o))
    /\ (forall t x, b = t ++ [x] -> ~ In x (contents o))
    /\ strview_trim cf m s chars = Ok (subview s (Zlen a) (Zlen b))
    /\ has_view m (subview s (Zlen a) (Zlen b)) b.
Proof.
  intros cf m s chars l o H Hc Ho. unfold strview_trim.
  destruct (trim_start_spec cf m s chars l o) as (a & b & E1 & Fa & Hb & Et & Hv); auto.
  destruct (trim_end_spec cf m _ chars b o Hv) as (b' & c & E2 & Fc & Hb' & Et' & Hv'); auto.
  exists a, b', c. rewrite subview_subview, Z.add_0_r in Et'. rewrite subview_subview, Z.add_0_r in Hv'.
  rewrite Et; cbn [bind]. split; [subst; auto|].
  do 2 (split; [auto|]). split; [|split; [auto|split; auto]].
  intros x t ->. apply (Hb x (t ++ c)). subst b; reflexivity.
Qed.

(** ** memcmp and memcmp_nocase *)

Lemma list_cmp_0 : forall a b, length a = length b -> (list_cmp a b = 0 <-> a = b).
Proof.
  induction a as [|x a IH]; destruct b as [|y b]; cbn; intros H; try discriminate.
  - tauto.
  - destruct (x =? y) eqn:E.
    + apply Z.eqb_eq in E; subst. rewrite IH by lia. split; congruence.
    + apply Z.eqb_neq in E. split; intro K; [lia|congruence].
Qed.

Definition comp_ok (f : Z -> Z) (comp : mem -> ptr -> ptr -> Z -> outcome Z) : Prop :=
  forall m p q a b, bytes_at m p a -> bytes_at m q b -> length a = length b ->
  exists r, comp m p q (Zlen a) = Ok r /\ (r = 0 <-> map f a = map f b).

Lemma memcmp_ok : forall cf, comp_ok (fun x => x) (memcmp cf).
Proof.
  intros cf m p q a b Ha Hb Hl. unfold memcmp. rewrite !map_id.
  destruct (Zlen a <=? 0) eqn:E.
  - rewrite (proj2 (Z.ltb_ge (Zlen a) 0)) by (pose proof (Zlen_nonneg a); lia). erewrite !zero_ok_bytes by eauto. exists 0; split; auto.
    apply Z.leb_le in E. assert (a = []) by (apply Zlen_0; zl). subst.
    destruct b; [tauto|discriminate].
  - rewrite Zlen_to_nat. rewrite (load_bytes_ok _ _ _ Ha). cbn [bind]. rewrite Hl.
    rewrite (load_bytes_ok _ _ _ Hb). cbn [bind].
    exists (list_cmp a b); split; auto. now apply list_cmp_0.
Qed.

Lemma memcmp_nocase_loop_stop : forall cf m n p q r, r <> 0 ->
  memcmp_nocase_loop cf m p q n r = Ok r.
Proof. intros cf m [|n] p q r H; cbn; auto. apply Z.eqb_neq in H; rewrite H; auto. Qed.

Lemma toupper_upper : forall x, toupper x = upper x.
Proof. reflexivity. Qed.

Lemma memcmp_nocase_loop_ok : forall cf m a b p q,
  bytes_at m p a -> bytes_at m q b -> length a = length b ->
  exists r, memcmp_nocase_loop cf m p q (length a) 0 = Ok r /\ (r = 0 <-> map upper a = map upper b).
Proof.
  intros cf m; induction a as [|x a IH]; destruct b as [|y b]; intros p q Ha Hb Hl; try discriminate.
  - exists 0; cbn; tauto.
  - pose proof (bytes_at_cons _ _ _ _ Ha) as [Ha1 Ha2].
    pose proof (bytes_at_cons _ _ _ _ Hb) as [Hb1 Hb2].
    cbn [length memcmp_nocase_loop]. rewrite Z.eqb_refl, Ha1; cbn [bind]. rewrite Hb1; cbn [bind].
    erewrite padd_ok; eauto; [|zl]. cbn [bind]. erewrite padd_ok; eauto; [|zl]. cbn [bind].
    change toupper with upper. cbn [map].
    destruct (Z.eq_dec (upper x) (upper y)) as [E|E].
    + replace (upper x - upper y) with 0 by lia.
      destruct (IH b (shift p 1) (shift q 1)) as (r & Hr & Hr'); auto.
      exists r; split; auto. rewrite E. split; intro K; [f_equal; apply Hr'; exact K|apply Hr'; congruence].
    + rewrite memcmp_nocase_loop_stop by lia. eexists; split; eauto. split; intro K; [lia|congruence].
Qed.

Lemma memcmp_nocase_ok : forall cf, comp_ok upper (memcmp_nocase cf).
Proof.
  intros cf m p q a b Ha Hb Hl. unfold memcmp_nocase. rewrite (proj2 (Z.ltb_ge (Zlen a) 0)) by (pose proof (Zlen_nonneg a); lia). rewrite Zlen_to_nat.
  now apply memcmp_nocase_loop_ok.
Qed.

(** ** find_first *)

Lemma occurs_iff : forall hay needle k, occurs hay needle k <->
  (k + length needle <= length hay)%nat /\ firstn (length needle) (skipn k hay) = needle.
Proof.
  intros; split.
  - intros (a & b & -> & <-). split; [rewrite !app_length; lia|].
    rewrite skipn_app, skipn_all, Nat.sub_diag. cbn. now rewrite firstn_app, firstn_all, Nat.sub_diag, firstn_O, app_nil_r.
  - intros [Hl Hf]. exists (firstn k hay), (skipn (length needle) (skipn k hay)). split.
    + rewrite <- Hf at 1. now rewrite !firstn_skipn.
    + rewrite firstn_length. lia.
Qed.

Lemma occurs_dec : forall hay needle k, occurs hay needle k \/ ~ occurs hay needle k.
Proof.
  intros. rewrite occurs_iff.
  destruct (le_dec (k + length needle) (length hay)); [|tauto].
  destruct (list_eq_dec Z.eq_dec (firstn (length needle) (skipn k hay)) needle); tauto.
Qed.

Lemma occurs_map_app : forall (f : Z -> Z) a rest nl,
  occurs (map f (a ++ rest)) (map f nl) (length a) <->
  (length nl <= length rest)%nat /\ map f (firstn (length nl) rest) = map f nl.
Proof.
  intros f a rest nl. rewrite occurs_iff, map_app, app_length, !map_length.
  assert (skipn (length a) (map f a) = []) as E by (rewrite <- (map_length f a); apply skipn_all).
  rewrite skipn_app, map_length, Nat.sub_diag, E. cbn [skipn app].
  rewrite firstn_map. split; intros [H1 H2]; split; auto; lia.
Qed.

Lemma find_first_loop_ok : forall cf comp f m hay needle hl nl,
  comp_ok f comp -> has_view m hay hl -> has_view m needle nl ->
  forall rest a fuel, hl = a ++ rest -> (length rest + 1 < fuel)%nat ->
  (forall j, (j < length a)%nat -> ~ occurs (map f hl) (map f nl) j) ->
  (exists k, is_least (occurs (map f hl) (map f nl)) k /\
     find_first_loop cf fuel m comp hay needle (shift (v_data hay) (Zlen a)) false
     = Ok (shift (v_data hay) (Z.of_nat k), true))
  \/ ((forall k, ~ occurs (map f hl) (map f nl) k) /\ exists p,
     find_first_loop cf fuel m comp hay needle (shift (v_data hay) (Zlen a)) false = Ok (p, false)).
Proof.
  intros cf comp f m hay needle hl nl Hc Hh Hn.
  pose proof Hh as (Hhb & Hhs & Hhm & Hhf). pose proof Hn as (Hnb & Hns & Hnm & Hnf).
  induction rest as [|x rest IH]; intros a fuel E Hfu Hno; (destruct fuel as [|fuel]; [cbn in Hfu; lia|]).
  - rewrite app_nil_r in E; subst a.
    cbn [find_first_loop]. rewrite Hhs, Hns.
    erewrite padd_ok; eauto; [|zl]. cbn [bind]. rewrite pdiff_shift; cbn [bind]. rewrite Z.sub_diag.
    destruct (Zlen nl <=? 0) eqn:El; cbn [andb negb].
    + apply Z.leb_le in El. assert (nl = []) by (apply Zlen_0; zl). subst nl.
      destruct (Hc m (shift (v_data hay) (Zlen hl)) (v_data needle) [] []) as (r & Hr & Hr0); auto.
      { now apply bytes_at_nil_end. }
      cbn [map] in *. rewrite Hr. cbn [bind].
      rewrite (proj2 Hr0 eq_refl). cbn [Z.eqb].
      erewrite padd_ok_shift; eauto; [|zl]. cbn [bind]. rewrite Z.add_0_r.
      destruct fuel as [|fuel]; [cbn in Hfu; lia|]. cbn [find_first_loop].
      rewrite Hhs, Hns. erewrite padd_ok; eauto; [|zl]. cbn [bind]. rewrite pdiff_shift; cbn [bind].
      rewrite andb_false_r. left; exists (length hl). split; [|reflexivity].
      split; auto. apply occurs_iff. rewrite map_length. cbn. split; [lia|]. auto.
    + right. split; [|eauto]. apply Z.leb_gt in El.
      intros k Hk. pose proof Hk as Hk'. apply occurs_iff in Hk' as [Hk' _]. rewrite !map_length in Hk'.
      apply (Hno k); auto. unfold Zlen in El. lia.
  - cbn [find_first_loop]. rewrite Hhs, Hns.
    erewrite padd_ok; eauto; [|zl]. cbn [bind]. rewrite pdiff_shift; cbn [bind].
    destruct (Zlen nl <=? Zlen hl - Zlen a) eqn:El; cbn [andb negb].
    + apply Z.leb_le in El.
      assert (length nl <= length (x :: rest))%nat as Hle.
      { subst hl. zl. unfold Zlen in El. cbn. lia. }
      destruct (Hc m (shift (v_data hay) (Zlen a)) (v_data needle) (firstn (length nl) (x :: rest)) nl) as (r & Hr & Hr0); auto.
      { subst hl. eapply bytes_at_sub. rewrite firstn_skipn. exact Hhb. }
      { rewrite firstn_length. lia. }
      replace (Zlen (firstn (length nl) (x :: rest))) with (Zlen nl) in Hr
        by (unfold Zlen; rewrite firstn_length; lia).
      rewrite Hr. cbn [bind].
      destruct (r =? 0) eqn:Er.
      * erewrite padd_ok_shift; eauto; [|subst hl; zl]. cbn [bind]. rewrite Z.add_0_r.
        destruct fuel as [|fuel]; [cbn in Hfu; lia|]. cbn [find_first_loop].
        rewrite Hhs, Hns. erewrite padd_ok; eauto; [|zl]. cbn [bind]. rewrite pdiff_shift; cbn [bind].
        rewrite andb_false_r. left; exists (length a). split; [|reflexivity].
        split; auto. rewrite E. apply occurs_map_app. split; auto. apply Hr0. now apply Z.eqb_eq.
      * erewrite padd_ok_shift; eauto; [|subst hl; zl]. cbn [bind].
        replace (Zlen a + 1) with (Zlen (a ++ [x])) by zl.
        apply IH.
        { rewrite <- app_assoc. exact E. }
        { cbn in Hfu. lia. }
        { intros j Hj. rewrite app_length in Hj; cbn in Hj.
          destruct (Nat.eq_dec j (length a)) as [->|]; [|apply Hno; lia].
          rewrite E. rewrite occurs_map_app. intros [_ K]. apply Hr0 in K. apply Z.eqb_neq in Er. auto. }
    + apply Z.leb_gt in El. right. split; [|eauto]. intros k Hk.
      destruct (le_lt_dec (length a) k) as [L|L]; [|apply (Hno k); auto].
      apply occurs_iff in Hk as [Hk _]. rewrite !map_length in Hk. unfold Zlen in El. lia.
Qed.

Lemma find_first_ok : forall cf comp f m hay needle hl nl,
  comp_ok f comp -> has_view m hay hl -> has_view m needle nl ->
  (exists k, is_least (occurs (map f hl) (map f nl)) k /\
     find_first cf m comp hay needle = Ok (subview hay (Z.of_nat k) (Zlen nl)))
  \/ ((forall k, ~ occurs (map f hl) (map f nl) k) /\ find_first cf m comp hay needle = Ok INVALID).
Proof.
  intros cf comp f m hay needle hl nl Hc Hh Hn. unfold find_first.
  erewrite !has_view_nonnull by eauto. cbn [negb andb].
  erewrite has_view_size by exact Hh. rewrite Zlen_to_nat.
  erewrite has_view_size by exact Hn.
  destruct (find_first_loop_ok cf comp f m hay needle hl nl Hc Hh Hn hl [] (S (S (length hl)))) as [(k & Hk & E)|(Hk & p & E)]; auto.
  - lia.
  - cbn; intros; lia.
  - rewrite Zlen_nil, shift_0 in E. left; exists k; split; auto. rewrite E; reflexivity.
  - rewrite Zlen_nil, shift_0 in E. right; split; auto. rewrite E; reflexivity.
Qed.

Lemma find_first_null : forall cf comp m hay needle,
  hay = INVALID \/ needle = INVALID -> find_first cf m comp hay needle = Ok INVALID.
Proof.
  intros cf comp m hay needle H. unfold find_first.
  destruct H as [-> | ->]; cbn; rewrite ?andb_false_r; reflexivity.
Qed.

(** ** find_last (flat address space: it forms a pointer in front of the view) *)

Lemma ple_shift : forall cf m p i, ple cf m p (shift p i) = Ok (0 <=? i).
Proof.
  intros; unfold ple. rewrite pdiff_shift_r; cbn. f_equal.
  destruct (0 <=? i) eqn:E; [apply Z.leb_le in E; apply Z.leb_le; lia|apply Z.leb_gt in E; apply Z.leb_gt; lia].
Qed.

Lemma padd_room : forall cf m p l k i, bytes_at m p l -> room cf p k -> - k <= i <= Zlen l -> padd cf m p i = Ok (shift p i).
Proof.
  intros cf m p l k i (blk & Ha & H0 & Hs & _) R Hi. unfold padd. destruct (c_ptr cf) eqn:C.
  - destruct (p_obj p); [cbn in Ha; discriminate| |]; reflexivity.
  - destruct R as [R|R]; [congruence|]. pose proof (Zlen_nonneg l).
    destruct (p_obj p) eqn:E; [cbn in Ha; discriminate| |]; rewrite Ha; cbn [bind]; unfold in_block;
      rewrite (proj2 (Z.leb_le _ _)) by lia; rewrite (proj2 (Z.leb_le _ _)) by lia; reflexivity.
Qed.
Lemma padd_room_shift : forall cf m p l k i j, bytes_at m p l -> room cf p k -> - k <= i + j <= Zlen l ->
  padd cf m (shift p i) j = Ok (shift p (i + j)).
Proof.
  intros cf m p l k i j H R Hi. pose proof (padd_room cf m p l k (i + j) H R Hi) as E. destruct H as (blk & Ha & _).
  revert E. unfold padd. rewrite shift_obj, shift_ofs. rewrite shift_shift, Z.add_assoc.
  destruct (p_obj p); [discriminate Ha| |]; auto.
Qed.

Lemma find_last_loop_ok : forall cf comp f m hay needle hl nl,
  room cf (v_data hay) 1 \/ (exists j, occurs (map f hl) (map f nl) j) -> comp_ok f comp -> has_view m hay hl -> has_view m needle nl ->
  forall k fuel, (Z.of_nat k + Zlen nl <= Zlen hl + 1) -> (k < fuel)%nat ->
  (forall j, (k <= j)%nat -> ~ occurs (map f hl) (map f nl) j) ->
  (exists j, is_greatest (occurs (map f hl) (map f nl)) j /\
     find_last_loop cf fuel m comp hay needle (shift (v_data hay) (Z.of_nat k - 1)) false
     = Ok (shift (v_data hay) (Z.of_nat j), true))
  \/ ((forall j, ~ occurs (map f hl) (map f nl) j) /\ exists p,
     find_last_loop cf fuel m comp hay needle (shift (v_data hay) (Z.of_nat k - 1)) false = Ok (p, false)).
Proof.
  intros cf comp f m hay needle hl nl Hcp Hc Hh Hn.
  pose proof Hh as (Hhb & Hhs & Hhm & Hhf). pose proof Hn as (Hnb & Hns & Hnm & Hnf).
  induction k as [|k IH]; intros fuel Hk Hfu Hno; (destruct fuel as [|fuel]; [lia|]).
  - cbn [find_last_loop]. rewrite ple_shift. cbn. right. split; [|eauto]. intros j; apply Hno; lia.
  - cbn [find_last_loop]. rewrite ple_shift. zb. cbn [andb negb bind].
    replace (Z.of_nat (S k) - 1) with (Z.of_nat k) by lia.
    set (a := firstn k hl). set (rest := skipn k hl).
    assert (hl = a ++ rest) as E by (symmetry; apply firstn_skipn).
    assert (length a = k) as Hla by (unfold a; rewrite firstn_length; unfold Zlen in Hk; lia).
    assert (length nl <= length rest)%nat as Hle by (unfold rest; rewrite skipn_length; unfold Zlen in Hk; lia).
    destruct (Hc m (shift (v_data hay) (Z.of_nat k)) (v_data needle) (firstn (length nl) rest) nl) as (r & Hr & Hr0); auto.
    { rewrite <- Hla. apply (bytes_at_sub m (v_data hay) a _ (skipn (length nl) rest)).
      rewrite firstn_skipn, <- E. exact Hhb. }
    { rewrite firstn_length. lia. }
    replace (Zlen (firstn (length nl) rest)) with (Zlen nl) in Hr
      by (unfold Zlen; rewrite firstn_length; lia).
    rewrite Hns, Hr. cbn [bind].
    destruct (r =? 0) eqn:Er.
    + rewrite (padd_ok_shift cf m (v_data hay) hl) by (auto; unfold Zlen in *; lia). cbn [bind]. rewrite Z.add_0_r.
      destruct fuel as [|fuel]; [lia|]. cbn [find_last_loop]. rewrite ple_shift. cbn [bind].
      rewrite andb_false_r. left; exists k. split; [|reflexivity]. split.
      * rewrite E. rewrite <- Hla. apply occurs_map_app. split; auto. apply Hr0. now apply Z.eqb_eq.
      * intros j Hj; apply Hno; lia.
    + assert (forall j, (k <= j)%nat -> ~ occurs (map f hl) (map f nl) j) as Hno'.
      { intros j Hj. destruct (Nat.eq_dec j k) as [->|]; [|apply Hno; lia].
        rewrite E. rewrite <- Hla at 1. rewrite occurs_map_app. intros [_ K]. apply Hr0 in K. apply Z.eqb_neq in Er. auto. }
      assert (padd cf m (shift (v_data hay) (Z.of_nat k)) (-1) = Ok (shift (v_data hay) (Z.of_nat k + -1))) as ->.
      { destruct k as [|k].
        - destruct Hcp as [R|[j K]]; [|exfalso; apply (Hno' j); auto; lia].
          apply (padd_room_shift cf m _ hl 1); auto. unfold Zlen; lia.
        - apply (padd_ok_shift cf m _ hl); auto. unfold Zlen in *; lia. }
      cbn [bind]. replace (Z.of_nat k + -1) with (Z.of_nat k - 1) by lia.
      apply IH; [lia|lia|auto].
Qed.

Lemma find_last_room : forall cf comp f m hay needle hl nl,
  room cf (v_data hay) (Zlen nl - Zlen hl) ->
  room cf (v_data hay) 1 \/ (exists j, occurs (map f hl) (map f nl) j) -> comp_ok f comp -> has_view m hay hl -> has_view m needle nl ->
  (exists k, is_greatest (occurs (map f hl) (map f nl)) k /\
     find_last cf m comp hay needle = Ok (subview hay (Z.of_nat k) (Zlen nl)))
  \/ ((forall k, ~ occurs (map f hl) (map f nl) k) /\ find_last cf m comp hay needle = Ok INVALID).
Proof.
  intros cf comp f m hay needle hl nl Hr Hcp Hc Hh Hn. unfold find_last.
  pose proof Hh as (Hhb & Hhs & Hhm & Hhf). pose proof Hn as (Hnb & Hns & Hnm & Hnf).
  rewrite (padd_room cf m _ hl (Zlen nl - Zlen hl)) by (auto; pose proof (Zlen_nonneg nl); lia). cbn [bind].
  erewrite !has_view_nonnull by eauto. cbn [negb andb].
  rewrite Hhs, Hns, Zlen_to_nat.
  destruct (Z_le_gt_dec (Zlen nl) (Zlen hl)) as [L|L].
  - destruct (find_last_loop_ok cf comp f m hay needle hl nl Hcp Hc Hh Hn
                (length hl - length nl + 1)%nat (S (S (length hl)))) as [(k & Hk & E)|(Hk & p & E)]; auto.
    + unfold Zlen in *; lia.
    + lia.
    + intros j Hj Ho. apply occurs_iff in Ho as [Ho _]. rewrite !map_length in Ho.
      unfold Zlen in L. lia.
    + replace (Z.of_nat (length hl - length nl + 1) - 1) with (Zlen hl - Zlen nl) in E by (unfold Zlen in *; lia).
      left; exists k; split; auto. rewrite E; reflexivity.
    + replace (Z.of_nat (length hl - length nl + 1) - 1) with (Zlen hl - Zlen nl) in E by (unfold Zlen in *; lia).
      right; split; auto. rewrite E; reflexivity.
  - right; split.
    + intros k Ho. apply occurs_iff in Ho as [Ho _]. rewrite !map_length in Ho. unfold Zlen in L; lia.
    + cbn [find_last_loop]. rewrite ple_shift. zb. reflexivity.
Qed.

Lemma find_last_ok : forall cf comp f m hay needle hl nl,
  c_ptr cf = true -> comp_ok f comp -> has_view m hay hl -> has_view m needle nl ->
  (exists k, is_greatest (occurs (map f hl) (map f nl)) k /\
     find_last cf m comp hay needle = Ok (subview hay (Z.of_nat k) (Zlen nl)))
  \/ ((forall k, ~ occurs (map f hl) (map f nl) k) /\ find_last cf m comp hay needle = Ok INVALID).
Proof. intros cf comp f m hay needle hl nl H. apply find_last_room; [now left|left; now left]. Qed.
