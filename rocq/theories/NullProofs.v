(** NULL strings, NULL pointers and invalid views as arguments. *)
From Verif Require Import Base Mem Libc StrviewModel Spec MemLemmas StrviewProofs Alloc StrbufModel BufSpec StrbufProofs StrbufProofs7 ViewProg
  PropsView PropsBuf PropsBuf2.

Lemma no_null : forall m v l, has_view m v l -> is_null (v_data v) = false.
Proof. intros m v l H. destruct (is_null (v_data v)) eqn:E; [|reflexivity]. exfalso. revert H. unfold has_view, bytes_at. destruct v as [[o f] n]. cbn in *. destruct o; try discriminate. cbn. intros [H _]. destruct H as (k & H & _). discriminate. Qed.

Lemma trim_null : forall cf m v o, c_ptr cf = true -> denotes m v o ->
  strview_trim_start cf m v INVALID = Ok v /\ strview_trim_end cf m v INVALID = Ok v /\ strview_trim cf m v INVALID = Ok v.
Proof.
  intros cf m v o C H. destruct o as [l|]; cbn [denotes] in H.
  - assert (Hi : denotes m INVALID None) by reflexivity.
    assert (Hs : set_ok cf None) by (intros _; now right).
    assert (Hn : v_size v = Zlen l) by apply H.
    destruct (C05_trim_start cf m v INVALID l None H Hi Hs) as (a & b & E & Ha & _ & R & _).
    destruct (C05_trim_end cf m v INVALID l None H Hi Hs) as (b' & c & E' & Hc & _ & R' & _).
    destruct (C05_trim cf m v INVALID l None H Hi Hs) as (a2 & b2 & c2 & E2 & Ha2 & Hc2 & _ & _ & R2 & _).
    assert (none : forall z : list Z, Forall (fun x => In x (contents None)) z -> z = []).
    { intros z Hz. destruct z; [reflexivity|]. inversion Hz as [|? ? Hi' ?]. destruct Hi'. }
    apply none in Ha, Hc, Ha2, Hc2. subst a c a2 c2. rewrite app_nil_r in E'. cbn in E, E2. rewrite app_nil_r in E2. subst b b' b2.
    assert (S : subview v 0 (Zlen l) = v). { destruct v as [[o f] n]. unfold subview, shift. cbn in *. subst n. now rewrite Z.add_0_r. }
    rewrite R, R', R2. change (Zlen (@nil Z)) with 0. now rewrite S.
  - subst v. exact (C05_trim_of_invalid cf m INVALID).
Qed.

Lemma find_last_none : forall cf m comp hay needle, c_ptr cf = true -> hay = INVALID \/ needle = INVALID -> find_last cf m comp hay needle = Ok INVALID.
Proof.
  intros cf m comp hay needle C H. unfold find_last.
  assert (E : forall q n, padd cf m q n = Ok (shift q n)).
  { intros q n. unfold padd. rewrite C, orb_true_r. destruct (p_obj q); try reflexivity. now destruct ((p_ofs q =? 0) && (n =? 0)). }
  rewrite E. cbn [bind].
  destruct H as [-> | ->]; [reflexivity|].
  change (is_null (v_data INVALID)) with true. cbn [negb]. rewrite andb_false_r. reflexivity.
Qed.

Lemma null_string : forall cf m v o, usual cf -> mem_wf m -> denotes m v o ->
  (strview_is_match_cstr cf m v null = Ok (match contents o with [] => true | _ => false end) /\
   strview_is_match_nocase_cstr cf m v null = Ok (match contents o with [] => true | _ => false end) /\
   strview_starts_with_cstr cf m v null = Ok (match o with None => true | Some _ => false end) /\
   strview_starts_with_nocase_cstr cf m v null = Ok (match o with None => true | Some _ => false end)) /\
  (strview_find_first_cstr cf m v null = Ok INVALID /\ strview_find_first_nocase_cstr cf m v null = Ok INVALID /\
   strview_find_last_cstr cf m v null = Ok INVALID /\ strview_find_last_nocase_cstr cf m v null = Ok INVALID) /\
  (strview_trim_start_cstr cf m v null = Ok v /\ strview_trim_end_cstr cf m v null = Ok v /\ strview_trim_cstr cf m v null = Ok v) /\
  (forall q, strview_split_first_delim cf m (Some v) null q = Ok (v, Some INVALID) /\
             strview_split_last_delim cf m (Some v) null q = Ok (v, Some INVALID)) /\
  (forall q n, 0 < n -> strview_split_all cf m n v null q = Ok (match o with None => [] | Some _ => [v] end)).
Proof.
  intros cf m v o (C & C0 & _) W H. split; [|split; [|split; [|split]]].
  - destruct o as [l|]; cbn [denotes contents] in *.
    + repeat split.
      * destruct (C07_invalid_never_matches_partial cf m v l W C0 H) as [_ R]. exact R.
      * unfold strview_is_match_nocase_cstr. change (cstr m null) with (Ok INVALID). cbn [bind]. unfold strview_is_match_nocase. change (v_size INVALID) with 0. change (v_data INVALID) with null.
        rewrite (proj1 (proj2 H)). destruct l as [|x l].
        -- change (Zlen [] =? 0) with true. cbv iota. destruct (peq m (v_data v) null); reflexivity.
        -- destruct (Z.eqb_spec (Zlen (x :: l)) 0) as [E|E]; [exfalso; rewrite Zlen_cons in E; pose proof (Zlen_nonneg l); lia|reflexivity].
      * unfold strview_starts_with_cstr. change (cstr m null) with (Ok INVALID). cbn [bind]. unfold strview_starts_with, strview_is_valid. change (is_null (v_data INVALID)) with true. cbn [negb]. now rewrite (no_null _ _ _ H).
      * unfold strview_starts_with_nocase_cstr. change (cstr m null) with (Ok INVALID). cbn [bind]. unfold strview_starts_with_nocase, strview_is_valid. change (is_null (v_data INVALID)) with true. cbn [negb]. now rewrite (no_null _ _ _ H).
    + subst v. repeat split.
  - repeat split.
    + exact (proj1 (C02_find_first_invalid cf m v INVALID (or_intror eq_refl))).
    + exact (proj2 (C02_find_first_invalid cf m v INVALID (or_intror eq_refl))).
    + exact (find_last_none cf m _ v INVALID C (or_intror eq_refl)).
    + exact (find_last_none cf m _ v INVALID C (or_intror eq_refl)).
  - exact (trim_null cf m v o C H).
  - intro q. split.
    + unfold strview_split_first_delim. change (cstr m null) with (Ok INVALID). cbn [bind]. unfold split_first_delim. change (is_null (v_data INVALID)) with true. cbn [negb]. now rewrite andb_false_r.
    + unfold strview_split_last_delim. change (cstr m null) with (Ok INVALID). cbn [bind]. unfold split_last_delim. change (is_null (v_data INVALID)) with true. cbn [negb]. now rewrite andb_false_r.
  - intros q n Hn. unfold strview_split_all. destruct (Z.to_nat n) as [|k] eqn:E; [lia|]. cbn [split_all_loop]. unfold strview_is_valid at 1.
    destruct o as [l|]; cbn [denotes] in H.
    + rewrite (no_null _ _ _ H). cbn [negb].
      assert (R : strview_split_first_delim cf m (Some v) null q = Ok (v, Some INVALID)).
      { unfold strview_split_first_delim. change (cstr m null) with (Ok INVALID). cbn [bind]. unfold split_first_delim. change (is_null (v_data INVALID)) with true. cbn [negb]. now rewrite andb_false_r. }
      rewrite R. cbn [bind]. destruct k; reflexivity.
    + subst v. reflexivity.
Qed.

Lemma invalid_view : forall cf m v o p dl, usual cf -> denotes m v o -> p = null \/ c_string m p dl ->
  (strview_find_last cf m INVALID v = Ok INVALID /\ strview_find_last cf m v INVALID = Ok INVALID /\
   strview_find_last_nocase cf m INVALID v = Ok INVALID /\ strview_find_last_nocase cf m v INVALID = Ok INVALID) /\
  (strview_contains cf m INVALID v = Ok false /\ strview_contains cf m v INVALID = Ok false /\
   strview_contains_nocase cf m INVALID v = Ok false /\ strview_contains_nocase cf m v INVALID = Ok false) /\
  (forall q, strview_split_first_delim cf m (Some INVALID) p q = Ok (INVALID, Some INVALID) /\
             strview_split_last_delim cf m (Some INVALID) p q = Ok (INVALID, Some INVALID)) /\
  (forall q n, strview_split_all cf m n INVALID p q = Ok []) /\
  (forall i, INT_MIN <= i <= INT_MAX -> strview_split_index cf m (Some INVALID) i = Ok (INVALID, Some INVALID)).
Proof.
  intros cf m v o p dl (C & _) H Hp. split; [|split; [|split; [|split]]].
  - repeat split; (apply find_last_none; [exact C|]); auto.
  - unfold strview_contains, strview_contains_nocase.
    destruct (C02_find_first_invalid cf m INVALID v (or_introl eq_refl)) as [-> ->].
    destruct (C02_find_first_invalid cf m v INVALID (or_intror eq_refl)) as [-> ->]. repeat split.
  - assert (E : exists u, cstr m p = Ok u).
    { destruct Hp as [-> | Hp]; [now exists INVALID|]. destruct (C22_cstr m p dl Hp) as [E _]. eauto. }
    destruct E as [u E]. intro q. split.
    + unfold strview_split_first_delim. rewrite E. reflexivity.
    + unfold strview_split_last_delim. rewrite E. reflexivity.
  - intros q n. unfold strview_split_all. destruct (Z.to_nat n); reflexivity.
  - intros i Hi. unfold strview_split_index, split_index. change (v_size INVALID) with 0. change (v_data INVALID) with null.
    assert (E : (if i <? 0 then iadd cf 0 i else Ok i) = Ok i).
    { destruct (i <? 0); [|reflexivity]. now rewrite iadd_ok by lia. }
    rewrite E. cbn [bind].
    assert (E2 : (if 0 <? (if i <? 0 then 0 else i) then 0 else (if i <? 0 then 0 else i)) = 0).
    { destruct (Z.ltb_spec i 0); cbn; [reflexivity|]. destruct (Z.ltb_spec 0 i); lia. }
    rewrite E2. unfold padd. rewrite C, orb_true_r. cbn. destruct (i <? 0); reflexivity.
Qed.

Lemma null_pointer : forall cf m p q v i eol,
  strview_split_first_delim cf m None p q = Ok (INVALID, None) /\ strview_split_last_delim cf m None p q = Ok (INVALID, None) /\
  strview_split_index cf m None i = Ok (INVALID, None) /\ strview_split_left cf m None v = Ok (INVALID, None) /\
  strview_split_right cf m None v = Ok (INVALID, None) /\ strview_split_line cf m None eol = Ok (INVALID, None, eol) /\
  strview_pop_first_char cf m None = Ok (0, None).
Proof. intros. repeat split. Qed.

(** ** Buffers *)
Lemma ready_cap : forall cf w p B, ready cf w p B -> Zlen (bf_data B) <= bf_cap B /\ bf_cap B <= INT_MAX.
Proof. intros cf w p B R. assert (H : buf_at cf (s_mem w) p B) by apply R. destruct H as (b & k & _ & _ & (_ & _ & _ & _ & _ & _ & _ & _ & H & _)). exact H. Qed.
Section Buf.
Variables (cf : cfg) (w : st) (p : ptr) (B : buffer).
Hypothesis R : ready cf w p B.
Hypothesis C : c_ptr cf = true.
Hypothesis Hs : sums_ok cf (Zlen (bf_data B)).

Lemma same_B : put cf B (bf_data B) = B.
Proof. destruct (ready_cap cf w p B R). apply put_same; lia. Qed.
Lemma no_text : source cf (s_mem w) p B INVALID []. Proof. constructor. Qed.
Lemma sum0 : sums_ok cf (Zlen (bf_data B) + Zlen (@nil Z)).
Proof. change (Zlen (@nil Z)) with 0. now rewrite Z.add_0_r. Qed.

Lemma append_null : becomes cf w p B (strbuf_append_cstr cf w (Some p) null) B.
Proof. pose proof (C36_append cf w p B INVALID [] R (or_introl C) no_text sum0) as H. rewrite app_nil_r, same_B in H. exact H. Qed.
Lemma prepend_null : becomes cf w p B (strbuf_prepend_cstr cf w (Some p) null) B.
Proof. pose proof (C36_prepend cf w p B INVALID [] R (or_introl C) no_text sum0) as H. cbn [app] in H. rewrite same_B in H. exact H. Qed.
Lemma insert_null : forall i, INT_MIN <= i <= INT_MAX -> becomes cf w p B (strbuf_insert_at_index_cstr cf w (Some p) i null) B.
Proof.
  intros i Hi. pose proof (C36_insert_at_index cf w p B i INVALID [] R (or_introl C) no_text Hi sum0) as H.
  unfold insert in H. cbn [app] in H. rewrite firstn_skipn, same_B in H. exact H.
Qed.
Lemma before_null : forall x d y, bf_data B = x ++ d ++ y ->
  becomes cf w p B (strbuf_insert_before_cstr cf w (Some p) (View (shift (chars_of cf p) (Zlen x)) (Zlen d)) null) B.
Proof.
  intros x d y E. pose proof (C37_insert_before cf w p B x d y INVALID [] R (or_introl C) no_text E sum0) as H.
  cbn [app] in H. rewrite <- E, same_B in H. exact H.
Qed.
Lemma after_null : forall x d y, bf_data B = x ++ d ++ y ->
  becomes cf w p B (strbuf_insert_after_cstr cf w (Some p) (View (shift (chars_of cf p) (Zlen x)) (Zlen d)) null) B.
Proof.
  intros x d y E. pose proof (C37_insert_after cf w p B x d y INVALID [] R (or_introl C) no_text E sum0) as H.
  cbn [app] in H. rewrite <- E, same_B in H. exact H.
Qed.
End Buf.
Lemma strip_null : forall cf w p B, ready cf w p B -> strbuf_strip_cstr cf w (Some p) null = Ok (buf_view cf p B, Some p, w).
Proof. intros cf w p B R. exact (C48_strip_invalid cf w p B INVALID R eq_refl). Qed.
Lemma assign_null : forall cf w p B, ready cf w p B -> becomes cf w p B (strbuf_assign cf w (Some p) INVALID) (Buffer [] (bf_cap B) (bf_alloc B)).
Proof.
  intros cf w p B R. assert (S : source cf (s_mem w) p B INVALID []) by constructor.
  assert (Hc : 0 <= bf_cap B). { destruct (ready_cap cf w p B R). pose proof (Zlen_nonneg (bf_data B)). lia. }
  assert (K : put cf B [] = Buffer [] (bf_cap B) (bf_alloc B)).
  { unfold put. destruct (fits B []); [|reflexivity]. unfold grown. change (Zlen (@nil Z)) with 0. destruct (dyn B && (bf_cap B <? 0)) eqn:Q; [|reflexivity]. apply andb_true_iff in Q. destruct Q as [_ Q]. apply Z.ltb_lt in Q. lia. }
  rewrite <- K. apply C38_assign; [exact R|exact S|]. intros _ H. change (Zlen (@nil Z)) with 0 in H. lia.
Qed.
