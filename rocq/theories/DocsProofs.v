(** Proofs about the fragments of DocsModel.v. *)
From Verif Require Import Base Mem Libc StrviewModel Spec MemLemmas StrviewProofs StrviewProofs2 StrviewProofs3 StrviewProofs4
  Alloc StrbufModel BufSpec BufSpec2 StrbufProofs StrbufProofs2 StrbufProofs3 StrbufProofs4 StrbufProofs5 StrbufProofs6 StrbufProofs7
  StrbufProofs8 StrbufHistory StrbufProofs9 StrbufProofs10 PackProofs DocsModel.
Local Open Scope Z_scope.

(** ** Views *)
Lemma split_at : forall cf m s a p b, has_view m s (a ++ p ++ b) ->
  strview_split_left cf m (Some s) (subview s (Zlen a) (Zlen p)) = Ok (subview s 0 (Zlen a), Some (subview s (Zlen a) (Zlen (p ++ b)))) /\
  strview_split_right cf m (Some s) (subview s (Zlen a) (Zlen p)) = Ok (subview s (Zlen (a ++ p)) (Zlen b), Some (subview s 0 (Zlen (a ++ p)))) /\
  has_view m (subview s 0 (Zlen a)) a /\ has_view m (subview s (Zlen a) (Zlen (p ++ b))) (p ++ b) /\
  has_view m (subview s (Zlen (a ++ p)) (Zlen b)) b /\ has_view m (subview s 0 (Zlen (a ++ p))) (a ++ p).
Proof.
  intros cf m s a p b H. pose proof (has_view_sub m s a p b H) as V. pose proof (Zlen_nonneg a). pose proof (Zlen_nonneg b). pose proof (Zlen_nonneg p).
  split; [|split; [|split; [|split; [|split]]]].
  - rewrite (split_left_gen cf m s (a ++ p ++ b) _ (Zlen a) H).
    + rewrite !Zlen_app. zb. cbn [andb]. do 4 f_equal. lia.
    + now apply (has_view_nonnull m _ p).
    + cbn. apply pdiff_shift_l.
  - rewrite (split_right_gen cf m s (a ++ p ++ b) _ p (Zlen (a ++ p)) H V).
    + rewrite !Zlen_app. zb. cbn [andb]. do 3 f_equal. lia.
    + cbn [v_data subview]. rewrite shift_shift, <- Zlen_app. apply pdiff_shift_l.
  - unfold subview. rewrite shift_0. eapply has_view_prefix; eauto.
  - now apply has_view_suffix.
  - rewrite app_assoc in H. now apply has_view_suffix.
  - rewrite app_assoc in H. unfold subview. rewrite shift_0. eapply has_view_prefix; eauto.
Qed.

Lemma splits_none : forall cf m s, strview_split_left cf m (Some s) INVALID = Ok (INVALID, Some s) /\ strview_split_right cf m (Some s) INVALID = Ok (INVALID, Some s).
Proof. intros. unfold strview_split_left, strview_split_right. cbn. now rewrite !andb_false_r. Qed.

Lemma found_split : forall cf m hay needle hl nl, has_view m hay hl -> has_view m needle nl ->
  (exists a b, hl = a ++ nl ++ b /\ is_least (occurs hl nl) (length a) /\
     strview_find_first cf m hay needle = Ok (subview hay (Zlen a) (Zlen nl)))
  \/ ((forall k, ~ occurs hl nl k) /\ strview_find_first cf m hay needle = Ok INVALID).
Proof.
  intros cf m hay needle hl nl H1 H2. pose proof (find_first_ok cf _ _ m hay needle hl nl (memcmp_ok cf) H1 H2) as K. rewrite !map_id in K.
  destruct K as [(k & L & E)|K]; [left|right; exact K]. destruct (proj1 L) as (a & b & E1 & E2). exists a, b. subst k.
  split; [exact E1|]. split; [exact L|exact E].
Qed.
Lemma found_last_split : forall cf m hay needle hl nl, c_ptr cf = true -> has_view m hay hl -> has_view m needle nl ->
  (exists a b, hl = a ++ nl ++ b /\ is_greatest (occurs hl nl) (length a) /\
     strview_find_last cf m hay needle = Ok (subview hay (Zlen a) (Zlen nl)))
  \/ ((forall k, ~ occurs hl nl k) /\ strview_find_last cf m hay needle = Ok INVALID).
Proof.
  intros cf m hay needle hl nl Hc H1 H2. pose proof (find_last_ok cf _ _ m hay needle hl nl Hc (memcmp_ok cf) H1 H2) as K. rewrite !map_id in K.
  destruct K as [(k & L & E)|K]; [left|right; exact K]. destruct (proj1 L) as (a & b & E1 & E2). exists a, b. subst k.
  split; [exact E1|]. split; [exact L|exact E].
Qed.

Lemma app_inv_length_l : forall (a a' b b' : list Z), length a' = length a -> a' ++ b' = a ++ b -> a' = a /\ b' = b.
Proof.
  induction a as [|x a IH]; intros [|y a'] b b' L E; cbn in L; try discriminate; [auto|]. cbn [app] in E. injection E as -> E.
  destruct (IH a' b b' ltac:(lia) E) as [-> ->]. auto.
Qed.
Lemma fields_count : forall exq dl l fs, fields exq dl l fs -> (length fs <= S (length l))%nat.
Proof. intros exq dl l fs H. induction H; cbn; [lia|]. rewrite app_length. cbn. lia. Qed.
Lemma each_field_invalid : forall cf fuel m p exq, each_field cf fuel m INVALID p exq = Ok ([], INVALID).
Proof. intros cf [|n] m p exq; reflexivity. Qed.
Lemma each_field_ok : forall cf m p dl exq, c_string m p dl -> forall fuel src l fs, has_view m src l -> fields exq dl l fs -> (length fs <= fuel)%nat ->
  exists vs, each_field cf fuel m src p exq = Ok (vs, INVALID) /\ Forall2 (has_view m) vs fs.
Proof.
  intros cf m p dl exq Hp. destruct (cstr_ok m p dl Hp) as [E V]. induction fuel as [|fuel IH]; intros src l fs H Hf Hn.
  { inversion Hf; subst; cbn in Hn; lia. }
  pose proof (has_view_nonnull _ _ _ H) as NN. cbn [each_field]. unfold strview_is_valid. rewrite NN. cbn [negb].
  unfold strview_split_first_delim. rewrite E. cbn [bind].
  destruct (split_first_ok cf m src _ l dl exq H V) as [(a & d & b & E1 & E2 & E3 & E4 & E5)|(E1 & E2)].
  - rewrite E3. cbn [bind]. inversion Hf as [l0 N|a' d' b' fs' L F E6]; subst.
    + destruct (N (length a)). apply E2.
    + rewrite E6 in L. assert (length a' = length a) as La.
      { destruct (Nat.lt_trichotomy (length a') (length a)) as [X|[X|X]]; auto; [destruct (proj2 E2 _ X)|destruct (proj2 L _ X)]; [exact (proj1 L)|exact (proj1 E2)]. }
      destruct (app_inv_length_l _ _ _ _ La E6) as [-> E7]. injection E7 as -> ->. cbn [length] in Hn.
      destruct (IH _ b fs' E5 F ltac:(lia)) as (vs & -> & F2). cbn [bind]. eexists; split; [reflexivity|]. constructor; assumption.
  - rewrite E2. cbn [bind]. rewrite each_field_invalid. cbn [bind]. inversion Hf as [l0 N|a' d' b' fs' L F E6]; subst.
    + eexists; split; [reflexivity|]. constructor; [exact H|constructor].
    + destruct (E1 (length a')). exact (proj1 L).
Qed.

(** ** Buffers *)
Lemma put_within : forall cf B c, Zlen c <= bf_cap B <= INT_MAX -> put cf B c = Buffer c (bf_cap B) (bf_alloc B).
Proof.
  intros cf B c H. unfold put, fits, grown. cbn [bf_cap]. rewrite (proj2 (Z.ltb_ge (bf_cap B) (Zlen c))) by lia. rewrite andb_false_r.
  destruct (dyn B); rewrite (proj2 (Z.leb_le _ _)) by lia; reflexivity.
Qed.
Lemma buf_whole : forall cf m p B, wf_cfg cf -> buf_at cf m p B -> has_view m (buf_view cf p B) (bf_data B).
Proof.
  intros cf m p B W HB. pose proof (part_view cf m p B [] (bf_data B) [] W HB) as K. cbn [app] in K. rewrite app_nil_r in K. specialize (K eq_refl).
  change (Zlen (@nil Z)) with 0 in K. now rewrite shift_0 in K.
Qed.
Lemma assign_part : forall cf w p B x y z, wf_cfg cf -> mem_wf (s_mem w) -> buf_at cf (s_mem w) p B -> bf_data B = x ++ y ++ z ->
  becomes_alone cf w p B (strbuf_assign cf w (Some p) (subview (buf_view cf p B) (Zlen x) (Zlen y))) (Buffer y (bf_cap B) (bf_alloc B)).
Proof.
  intros cf w p B x y z W Wm HB E. destruct (buf_at_cap _ _ _ _ HB) as [C1 C2].
  assert (Zlen y <= bf_cap B) as L. { rewrite E, !Zlen_app in C1. pose proof (Zlen_nonneg x). pose proof (Zlen_nonneg z). lia. }
  rewrite <- (put_within cf B y) by (split; auto; lia). apply assign_alone; auto; [|right; exact L].
  unfold subview, buf_view. cbn [v_data]. now apply (src_inside cf (s_mem w) p B x y z).
Qed.
Lemma assign_invalid : forall cf w p B, wf_cfg cf -> mem_wf (s_mem w) -> buf_at cf (s_mem w) p B ->
  becomes_alone cf w p B (strbuf_assign cf w (Some p) INVALID) (Buffer [] (bf_cap B) (bf_alloc B)).
Proof.
  intros cf w p B W Wm HB. destruct (buf_at_cap _ _ _ _ HB) as [C1 C2]. pose proof (Zlen_nonneg (bf_data B)).
  rewrite <- (put_within cf B []) by (change (Zlen (@nil Z)) with 0; lia). apply assign_alone; auto; [constructor|right]. change (Zlen (@nil Z)) with 0. lia.
Qed.

Lemma trim_in_place_ok : forall cf w p B chars o, wf_cfg cf -> mem_wf (s_mem w) -> buf_at cf (s_mem w) p B -> denotes (s_mem w) chars o -> set_ok cf o ->
  exists a b c, bf_data B = a ++ b ++ c
    /\ Forall (fun x => In x (contents o)) a /\ Forall (fun x => In x (contents o)) c
    /\ (forall x t, b = x :: t -> ~ In x (contents o)) /\ (forall t x, b = t ++ [x] -> ~ In x (contents o))
    /\ becomes_alone cf w p B (trim_in_place cf w (Some p) chars) (Buffer b (bf_cap B) (bf_alloc B)).
Proof.
  intros cf w p B chars o W Wm HB Hc Ho. pose proof (buf_whole cf (s_mem w) p B W HB) as V.
  destruct (trim_spec cf (s_mem w) _ chars _ o V Hc Ho) as (a & b & c & E1 & E2 & E3 & E4 & E5 & E6 & _).
  exists a, b, c. do 5 (split; [assumption|]). unfold trim_in_place. rewrite (strbuf_view_ok cf w p B W HB). cbn [bind]. rewrite E6. cbn [bind].
  now apply (assign_part cf w p B a b c).
Qed.

Lemma crop_in_place_ok : forall cf w p B i j, wf_cfg cf -> mem_wf (s_mem w) -> buf_at cf (s_mem w) p B -> INT_MIN <= i <= INT_MAX -> INT_MIN <= j <= INT_MAX ->
  let n := Zlen (bf_data B) in
  exists a b c, bf_data B = a ++ b ++ c /\ becomes_alone cf w p B (crop_in_place cf w (Some p) i j) (Buffer b (bf_cap B) (bf_alloc B)) /\
    (bf_data B <> [] -> py_in n (py_index n i) (py_index n j) -> Zlen a = Z.max 0 (py_index n i) /\ Zlen a + Zlen b = Z.min n (py_index n j)) /\
    (~ py_in n (py_index n i) (py_index n j) -> b = []).
Proof.
  intros cf w p B i j W Wm HB Hi Hj n. pose proof (buf_whole cf (s_mem w) p B W HB) as V.
  unfold crop_in_place. rewrite (strbuf_view_ok cf w p B W HB). cbn [bind].
  assert (bf_data B = [] \/ bf_data B <> []) as [ED|NE] by (destruct (bf_data B); [left|right]; congruence).
  - subst n. rewrite ED in *. rewrite (sub_empty cf _ _ i j V). cbn [bind]. exists [], [], []. split; [reflexivity|]. split; [|split; [congruence|auto]].
    pose proof (assign_part cf w p B [] [] [] W Wm HB ED) as K. unfold subview in K. change (Zlen (@nil Z)) with 0 in K. rewrite shift_0 in K.
    unfold buf_view in *. rewrite ED in *. exact K.
  - assert (py_in n (py_index n i) (py_index n j) \/ ~ py_in n (py_index n i) (py_index n j)) as [P|P] by (unfold py_in; lia).
    + destruct (sub_ok cf (s_mem w) _ _ i j V NE Hi Hj P) as (a & b & c & E1 & E2 & E3 & E4 & _). exists a, b, c. split; [exact E1|].
      split; [|split; [auto|intros Q; contradiction]]. rewrite E4. cbn [bind]. now apply (assign_part cf w p B a b c).
    + rewrite (sub_out cf (s_mem w) _ _ i j V NE Hi Hj P). cbn [bind]. exists [], [], (bf_data B). split; [reflexivity|].
      split; [|split; [intros _ Q; contradiction|reflexivity]]. now apply assign_invalid.
Qed.

Lemma insert_itself_ok : forall cf w p B i, wf_cfg cf -> mem_wf (s_mem w) -> no_fail w -> buf_at cf (s_mem w) p B -> INT_MIN <= i <= INT_MAX ->
  sums_ok cf (Zlen (bf_data B) + Zlen (bf_data B)) ->
  becomes cf w p B (insert_itself cf w (Some p) i) (put cf B (insert (bf_data B) i (bf_data B))).
Proof.
  intros cf w p B i W Wm Nf HB Hi Hs. unfold insert_itself. rewrite (strbuf_view_ok cf w p B W HB). cbn [bind].
  apply insert_at_index_ok; auto; [right; reflexivity|]. unfold buf_view. rewrite <- (shift_0 (chars_of cf p)).
  apply (src_inside cf (s_mem w) p B [] (bf_data B) []). now rewrite app_nil_r.
Qed.

Lemma insert_found_ok : forall cf w p B needle nl src l, wf_cfg cf -> c_ptr cf = true -> mem_wf (s_mem w) -> no_fail w -> buf_at cf (s_mem w) p B ->
  has_view (s_mem w) needle nl -> source cf (s_mem w) p B src l -> sums_ok cf (Zlen (bf_data B) + Zlen l) ->
  (exists a b, bf_data B = a ++ nl ++ b /\ is_least (occurs (bf_data B) nl) (length a) /\
     becomes cf w p B (insert_before_found cf w (Some p) needle src) (put cf B (a ++ l ++ nl ++ b)) /\
     becomes cf w p B (insert_after_found cf w (Some p) needle src) (put cf B (a ++ nl ++ l ++ b)))
  \/ ((forall k, ~ occurs (bf_data B) nl k) /\
      insert_before_found cf w (Some p) needle src = Ok (buf_view cf p B, Some p, w) /\
      insert_after_found cf w (Some p) needle src = Ok (buf_view cf p B, Some p, w)).
Proof.
  intros cf w p B needle nl src l W Hc Wm Nf HB Hn Hs Hsum. pose proof (buf_whole cf (s_mem w) p B W HB) as V.
  unfold insert_before_found, insert_after_found. rewrite (strbuf_view_ok cf w p B W HB). cbn [bind].
  destruct (found_split cf (s_mem w) _ needle _ nl V Hn) as [(a & b & E1 & E2 & E3)|(E1 & E2)]; [left|right].
  - exists a, b. split; [exact E1|]. split; [exact E2|]. rewrite E3. cbn [bind]. unfold subview, buf_view. cbn [v_data].
    split; [apply insert_before_in|apply insert_after_in]; auto; now left.
  - split; [exact E1|]. rewrite E2. cbn [bind]. now apply (insert_before_out cf w p B INVALID []); auto.
Qed.

Lemma receive_ok : forall cf w p B chunk cl header hd, wf_cfg cf -> c_ptr cf = true -> mem_wf (s_mem w) -> no_fail w -> buf_at cf (s_mem w) p B ->
  source cf (s_mem w) p B chunk cl -> has_view (s_mem w) header hd -> outside cf p B header hd -> sums_ok cf (Zlen (bf_data B) + Zlen cl) ->
  let B1 := put cf B (bf_data B ++ cl) in
  exists junk kept, bf_data B1 = junk ++ kept /\
    becomes cf w p B (receive cf w (Some p) chunk header) (Buffer kept (bf_cap B1) (bf_alloc B1)) /\
    (is_least (occurs (bf_data B1) hd) (length junk) \/ (forall k, ~ occurs (bf_data B1) hd k) /\ junk = []).
Proof.
  intros cf w p B chunk cl header hd W Hc Wm Nf HB Hs Hh Ho Hsum B1. unfold receive.
  destruct (append_ok cf w p B chunk cl W ltac:(now left) Wm Nf HB Hs Hsum) as (p1 & w1 & E & HB1 & T1 & Wm1 & Nf1).
  fold B1 in E, HB1. rewrite E. cbn [bind]. pose proof (buf_whole cf (s_mem w1) p1 B1 W HB1) as V1.
  pose proof (touches_view cf _ _ p p1 B header hd T1 Hh Ho) as Hh1.
  destruct (found_split cf (s_mem w1) _ header _ hd V1 Hh1) as [(a & b & E1 & E2 & E3)|(E1 & E2)].
  - rewrite E3. cbn [bind]. rewrite E1 in V1. destruct (split_at cf (s_mem w1) _ a hd b V1) as (-> & _ & VA & _). cbn [bind].
    unfold strview_is_valid. rewrite (has_view_nonnull _ _ _ VA). cbn [negb].
    exists a, (hd ++ b). split; [exact E1|]. split; [|left; exact E2].
    destruct (assign_part cf w1 p1 B1 a (hd ++ b) [] W Wm1 HB1 ltac:(now rewrite app_nil_r)) as (w2 & -> & HB2 & T2 & Wm2 & Or).
    exists p1, w2. split; [reflexivity|]. split; [exact HB2|]. split; [|split; [exact Wm2|]].
    + eapply (touches_trans cf _ _ _ p p1 p1 B B1); eauto; [apply put_dyn|apply put_fixed_cap].
    + intros n. rewrite Or. apply Nf1.
  - rewrite E2. cbn [bind]. rewrite (proj1 (splits_none cf (s_mem w1) (buf_view cf p1 B1))). cbn [bind]. change (strview_is_valid INVALID) with false. cbv iota.
    exists [], (bf_data B1). split; [reflexivity|]. split; [|right; auto].
    exists p1, w1. destruct B1 as [d c a]. cbn [bf_data bf_cap bf_alloc]. auto.
Qed.

Lemma with_c_string_ok : forall {T} cf w dflt v l (use : mem -> ptr -> outcome T) (R : T -> Prop), wf_cfg cf -> c_ptr cf = true -> mem_wf (s_mem w) -> no_fail w ->
  is_dyn dflt = true -> (v = INVALID /\ l = [] \/ has_view (s_mem w) v l /\ exists b, p_obj (v_data v) = PBlk b) -> sums_ok cf (Zlen l) ->
  (forall m q, bytes_at m q (l ++ [0]) -> (forall i, (i < length (s_mem w))%nat -> nth_error m i = nth_error (s_mem w) i) -> exists r, use m q = Ok r /\ R r) ->
  exists r w', with_c_string cf w dflt v use = Ok (r, w') /\ R r /\
    (forall i, (i < length (s_mem w))%nat -> nth_error (s_mem w') i = nth_error (s_mem w) i) /\
    (forall i k, (length (s_mem w) <= i)%nat -> nth_error (s_mem w') i = Some k -> b_live k = false) /\ mem_wf (s_mem w') /\ no_fail w'.
Proof.
  intros T cf w dflt v l use R W Hc Wm Nf D Hv Hs Hu. unfold with_c_string.
  destruct (create_init_ok cf w dflt v l None W Hc Wm Nf D Hv Hs) as (b & w1 & E & Lb & HB & Old & New & Wm1 & Nf1).
  rewrite E. cbn [bind]. destruct (Hu (s_mem w1) (cstr_of cf (Ptr (PBlk b) 0))) as (r & -> & Hr); [|exact Old|].
  { exact (buf_at_bytes cf _ _ _ W HB). }
  cbn [bind]. destruct (destroy_dyn_ok cf w1 _ _ W Wm1 Nf1 HB D) as (b' & w2 & Eb & -> & (F1 & F2 & F3) & Wm2 & Nf2). cbn in Eb. injection Eb as <-.
  cbn [bind]. exists r, w2. split; [reflexivity|]. split; [exact Hr|]. split; [|split; [|split; auto]].
  - intros i Hi. rewrite F2 by lia. now apply Old.
  - intros i k Hi Hk. destruct (Nat.eq_dec i b) as [->|N]; [now apply F3|]. rewrite F2 in Hk by auto. now apply (New i k).
Qed.

(** ** Statements of PropsDocs.v about views *)
Lemma split_index_all : forall cf m s l i, has_view m s l -> INT_MIN <= i <= INT_MAX ->
  (Zlen l <= i -> strview_split_index cf m (Some s) i = Ok (s, Some (subview s (Zlen l) 0)) /\ has_view m (subview s (Zlen l) 0) []) /\
  (i < 0 -> i <= - Zlen l -> strview_split_index cf m (Some s) i = Ok (s, Some (subview s 0 0)) /\ has_view m (subview s 0 0) []).
Proof.
  intros cf m s l i H Hi. pose proof (Zlen_nonneg l) as L0. destruct (split_index_ok cf m s l i H Hi) as (a & b & E1 & E2 & E3 & E4 & E5).
  assert (s = subview s 0 (Zlen l)) as Es. { destruct H as (_ & Hz & _). unfold subview. rewrite shift_0, <- Hz. now destruct s. }
  unfold py_index in E2. pose proof (f_equal Zlen E1) as EL. rewrite Zlen_app in EL. pose proof (Zlen_nonneg a). pose proof (Zlen_nonneg b).
  split; intros C; [|intros C2].
  - rewrite (proj2 (Z.ltb_ge i 0)) in * by lia. assert (Zlen b = 0) as Zb by lia. apply Zlen_0 in Zb. subst b. rewrite app_nil_r in E1. subst a.
    change (Zlen (@nil Z)) with 0 in *. split; [|exact E5]. unfold strview_split_index. rewrite E3. cbn [bind]. now rewrite <- Es.
  - rewrite (proj2 (Z.ltb_lt i 0)) in * by lia. assert (Zlen a = 0) as Za by lia. apply Zlen_0 in Za. subst a. cbn [app] in E1. subst b.
    change (Zlen (@nil Z)) with 0 in *. split; [|exact E4]. unfold strview_split_index. rewrite E3. cbn [bind]. now rewrite <- Es.
Qed.

Lemma split_right_end : forall cf m s l pos pl d, has_view m s l -> has_view m pos pl ->
  pdiff cf m (shift (v_data pos) (Zlen pl)) (v_data s) = Ok d ->
  (d < 0 \/ Zlen l < d -> strview_split_right cf m (Some s) pos = Ok (INVALID, Some s)) /\
  (forall a b, l = a ++ b -> Zlen a = d ->
     strview_split_right cf m (Some s) pos = Ok (subview s d (Zlen b), Some (subview s 0 d)) /\
     has_view m (subview s d (Zlen b)) b /\ has_view m (subview s 0 d) a).
Proof.
  intros cf m s l pos pl d H Hp Hd. rewrite (split_right_gen cf m s l pos pl d H Hp Hd). split.
  - intros [C|C]; zb; rewrite ?andb_false_r; reflexivity.
  - intros a b -> <-. pose proof (Zlen_nonneg a). pose proof (Zlen_nonneg b). rewrite Zlen_app. zb. cbn [andb].
    split; [do 3 f_equal; lia|]. split; [now apply has_view_suffix|]. unfold subview. rewrite shift_0. eapply has_view_prefix; eauto.
Qed.

Lemma compare_invalid : forall cf m v l, has_view m v l -> l <> [] ->
  (exists r, strview_compare cf m v INVALID = Ok r /\ r > 0) /\ (exists r, strview_compare cf m INVALID v = Ok r /\ r < 0) /\
  strview_compare cf m INVALID INVALID = Ok 0.
Proof.
  intros cf m v l H NE. destruct l as [|x t]; [congruence|]. split; [|split; [|reflexivity]].
  - destruct (compare_ok cf m v INVALID (Some (x :: t)) None H eq_refl) as (r & E & C). exists r. split; [exact E|]. cbn [contents lex] in C. apply Z.compare_gt_iff in C. lia.
  - destruct (compare_ok cf m INVALID v None (Some (x :: t)) eq_refl H) as (r & E & C). exists r. split; [exact E|]. exact C.
Qed.

Lemma split_at_first : forall cf m hay needle hl nl, has_view m hay hl -> has_view m needle nl ->
  (exists a b, hl = a ++ nl ++ b /\ is_least (occurs hl nl) (length a) /\
     (exists x y, find_split_left cf m hay needle = Ok (x, Some y) /\ has_view m x a /\ has_view m y (nl ++ b)) /\
     (exists x y, find_split_right cf m hay needle = Ok (x, Some y) /\ has_view m x b /\ has_view m y (a ++ nl)))
  \/ ((forall k, ~ occurs hl nl k) /\ find_split_left cf m hay needle = Ok (INVALID, Some hay) /\ find_split_right cf m hay needle = Ok (INVALID, Some hay)).
Proof.
  intros cf m hay needle hl nl H1 H2. unfold find_split_left, find_split_right.
  destruct (found_split cf m hay needle hl nl H1 H2) as [(a & b & E1 & E2 & ->)|(E1 & ->)]; [left|right]; cbn [bind].
  - exists a, b. split; [exact E1|]. split; [exact E2|]. rewrite E1 in H1. destruct (split_at cf m hay a nl b H1) as (L & R & V1 & V2 & V3 & V4).
    split; do 2 eexists; eauto.
  - split; [exact E1|]. apply splits_none.
Qed.
Lemma split_at_last : forall cf m hay needle hl nl, c_ptr cf = true -> has_view m hay hl -> has_view m needle nl ->
  (exists a b, hl = a ++ nl ++ b /\ is_greatest (occurs hl nl) (length a) /\
     (exists x y, find_last_split_right cf m hay needle = Ok (x, Some y) /\ has_view m x b /\ has_view m y (a ++ nl)))
  \/ ((forall k, ~ occurs hl nl k) /\ find_last_split_right cf m hay needle = Ok (INVALID, Some hay)).
Proof.
  intros cf m hay needle hl nl Hc H1 H2. unfold find_last_split_right.
  destruct (found_last_split cf m hay needle hl nl Hc H1 H2) as [(a & b & E1 & E2 & ->)|(E1 & ->)]; [left|right]; cbn [bind].
  - exists a, b. split; [exact E1|]. split; [exact E2|]. rewrite E1 in H1. destruct (split_at cf m hay a nl b H1) as (L & R & V1 & V2 & V3 & V4).
    do 2 eexists; eauto.
  - split; [exact E1|]. apply splits_none.
Qed.

Lemma each_field_all : forall cf m src p l dl exq fuel, has_view m src l -> c_string m p dl -> (length l < fuel)%nat ->
  exists fs ds vs, fields exq dl l fs /\ length fs = S (length ds) /\ Forall (fun d => In d dl) ds /\ join fs ds = l /\
    each_field cf fuel m src p exq = Ok (vs, INVALID) /\ Forall2 (has_view m) vs fs.
Proof.
  intros cf m src p l dl exq fuel H Hp Hf. destruct (fields_ex exq dl (length l) l (le_n _)) as [fs F].
  destruct (fields_join _ _ _ _ F) as (ds & J1 & J2 & J3). pose proof (fields_count _ _ _ _ F) as Cn.
  destruct (each_field_ok cf m p dl exq Hp fuel src l fs H F ltac:(lia)) as (vs & E & V). exists fs, ds, vs. auto 10.
Qed.

Lemma strlen_spec : forall m p l, bytes_at m p (l ++ [0]) -> ~ In 0 l -> strlen m p = Ok (Zlen l).
Proof.
  intros m p l Hb Hn. unfold strlen. pose proof Hb as (blk & Ha & H0 & Hs & Hg). rewrite Ha; cbn [bind].
  rewrite (strlen_loop_ok m l p); auto. zl. unfold Zlen in *. lia.
Qed.
Lemma with_c_string_strlen : forall cf w dflt v l, wf_cfg cf -> c_ptr cf = true -> mem_wf (s_mem w) -> no_fail w -> is_dyn dflt = true ->
  has_view (s_mem w) v l -> (exists b, p_obj (v_data v) = PBlk b) -> sums_ok cf (Zlen l) -> ~ In 0 l ->
  exists w', with_c_string cf w dflt v strlen = Ok (Zlen l, w').
Proof.
  intros cf w dflt v l W Hc Wm Nf D Hv Hb Hs Hn.
  destruct (with_c_string_ok cf w dflt v l strlen (fun r => r = Zlen l) W Hc Wm Nf D (or_intror (conj Hv Hb)) Hs) as (r & w' & E & -> & _); [|eauto].
  intros m q B _. exists (Zlen l). split; [|reflexivity]. now apply strlen_spec.
Qed.
