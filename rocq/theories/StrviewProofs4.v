(** Consequences of the per-function lemmas used by the property theorems. *)
From Verif Require Import Base Mem Libc StrviewModel Spec MemLemmas StrviewProofs StrviewProofs2 StrviewProofs3.

(** ** invalid views *)

Lemma null_peq : forall m v l, mem_wf m -> has_view m v l -> peq m null (v_data v) = false.
Proof.
  intros m v l [W _] ((k & Ha & Ho & Hs & _) & _). unfold peq. cbn [p_obj null].
  apply access_blk in Ha as [(b & E & Hn & Hl)|(t & E & ->)]; rewrite E; cbn [pobj_eqb addr p_obj null p_ofs].
  - unfold addr. rewrite E, Hn. destruct (W b k Hn Hl). apply Z.eqb_neq. lia.
  - unfold addr. rewrite E. reflexivity.
Qed.
Lemma null_peq' : forall m v l, mem_wf m -> has_view m v l -> peq m (v_data v) null = false.
Proof.
  intros m v l [W _] ((k & Ha & Ho & Hs & _) & _). unfold peq. cbn [p_obj null].
  apply access_blk in Ha as [(b & E & Hn & Hl)|(t & E & ->)]; rewrite E; cbn [pobj_eqb].
  - unfold addr. rewrite E, Hn. cbn. destruct (W b k Hn Hl). apply Z.eqb_neq. lia.
  - unfold addr. rewrite E. reflexivity.
Qed.

Lemma is_match_invalid : forall cf m v l, mem_wf m -> c_mem0 cf = true -> has_view m v l ->
  strview_is_match cf m INVALID v = Ok (match l with [] => true | _ => false end)
  /\ strview_is_match cf m v INVALID = Ok (match l with [] => true | _ => false end).
Proof.
  intros cf m v l W Hc H. pose proof (null_peq _ _ _ W H) as E1. pose proof (null_peq' _ _ _ W H) as E2.
  pose proof (has_view_size _ _ _ H) as HS.
  unfold strview_is_match. cbn [v_size v_data INVALID]. rewrite E1, E2, HS.
  destruct l as [|x l].
  - cbn. unfold memcmp, zero_ok. rewrite Hc. cbn. auto.
  - zl. zb. auto.
Qed.

Lemma is_match_both_invalid : forall cf m, strview_is_match cf m INVALID INVALID = Ok true.
Proof. reflexivity. Qed.

Lemma starts_with_invalid2 : forall cf m v l, has_view m v l -> strview_starts_with cf m v INVALID = Ok false.
Proof. intros cf m v l H. unfold strview_starts_with. cbn. now rewrite (has_view_valid _ _ _ H). Qed.

(** ** trim twice *)

Lemma trim_start_idem : forall cf m s chars l o s', has_view m s l -> denotes m chars o -> set_ok cf o ->
  strview_trim_start cf m s chars = Ok s' -> strview_trim_start cf m s' chars = Ok s'.
Proof.
  intros cf m s chars l o s' H Hc Ho E.
  destruct (trim_start_spec cf m s chars l o H Hc Ho) as (a & b & El & Fa & Fb & E1 & V1).
  rewrite E1 in E. injection E as <-. 
  destruct (trim_start_spec cf m _ chars b o V1 Hc Ho) as (a' & b' & Eb & Fa' & Fb' & E2 & V2).
  rewrite E2. destruct a' as [|x a']; cbn in Eb.
  - subst b'. rewrite subview_0 by reflexivity. reflexivity.
  - exfalso. apply (Fb _ _ Eb). now inversion Fa'.
Qed.

Lemma trim_end_idem : forall cf m s chars l o s', has_view m s l -> denotes m chars o -> set_ok cf o ->
  strview_trim_end cf m s chars = Ok s' -> strview_trim_end cf m s' chars = Ok s'.
Proof.
  intros cf m s chars l o s' H Hc Ho E.
  destruct (trim_end_spec cf m s chars l o H Hc Ho) as (b & c & El & Fc & Fb & E1 & V1).
  rewrite E1 in E. injection E as <-. 
  destruct (trim_end_spec cf m _ chars b o V1 Hc Ho) as (b' & c' & Eb & Fc' & Fb' & E2 & V2).
  rewrite E2. destruct c' as [|x c'] using rev_ind.
  - rewrite app_nil_r in Eb. subst b'. rewrite subview_subview. reflexivity.
  - exfalso. rewrite app_assoc in Eb. apply (Fb _ _ Eb). apply Forall_app in Fc' as [_ Fc']. now inversion Fc'.
Qed.

Lemma trim_idem : forall cf m s chars l o s', has_view m s l -> denotes m chars o -> set_ok cf o ->
  strview_trim cf m s chars = Ok s' -> strview_trim cf m s' chars = Ok s'.
Proof.
  intros cf m s chars l o s' H Hc Ho E.
  destruct (trim_spec cf m s chars l o H Hc Ho) as (a & b & c & El & Fa & Fc & Fb & Fb' & E1 & V1).
  rewrite E1 in E. injection E as <-.
  destruct (trim_spec cf m _ chars b o V1 Hc Ho) as (a' & b' & c' & Eb & Fa' & Fc' & _ & _ & E2 & V2).
  rewrite E2. destruct a' as [|x a'].
  - destruct c' as [|x c'] using rev_ind.
    + cbn in Eb. rewrite app_nil_r in Eb. subst b'. rewrite subview_subview. do 2 f_equal. cbn. lia.
    + exfalso. cbn [app] in Eb. rewrite app_assoc in Eb. apply (Fb' _ _ Eb). apply Forall_app in Fc' as [_ Fc']. now inversion Fc'.
  - exfalso. cbn in Eb. apply (Fb _ _ Eb). now inversion Fa'.
Qed.

(** ** popping everything *)

Lemma pop_chars_ok : forall cf m l s, has_view m s l ->
  pop_chars cf m (length l) s = Ok (l, subview s (Zlen l) 0) /\ has_view m (subview s (Zlen l) 0) [].
Proof.
  intros cf m; induction l as [|x l IH]; intros s H.
  - cbn. rewrite subview_0 by (rewrite (has_view_size _ _ _ H); reflexivity). auto.
  - destruct (pop_ok cf m s x l H) as [E V]. cbn [pop_chars length]. rewrite E; cbn [bind].
    destruct (IH _ V) as [E1 V1]. rewrite E1; cbn [bind]. rewrite !subview_subview in *.
    replace (Zlen (x :: l)) with (1 + Zlen l) by (rewrite Zlen_cons; lia). auto.
Qed.

(** ** cstr and to_cstr *)

Lemma cstr_round : forall cf m p l b o n k, c_string m p l -> nth_error m b = Some k -> b_live k = true ->
  0 <= o -> Zlen l < n -> o + n <= b_size k ->
  (p_obj p = PBlk b -> p_ofs p + Zlen l <= o \/ o + n <= p_ofs p) ->
  exists v m', cstr m p = Ok v /\ has_view m v l
    /\ strview_to_cstr cf m (Ptr (PBlk b) o) n v = Ok (Ptr (PBlk b) o, m')
    /\ c_string m' (Ptr (PBlk b) o) l.
Proof.
  intros cf m p l b o n k Hc Hk Hl Ho Hn Hs Hd. pose proof (cstr_ok m p l Hc) as [E V].
  pose proof (Zlen_nonneg l).
  destruct (to_cstr_ok cf m b o n k _ l Hk Hl Ho ltac:(lia) Hs V Hd) as (m' & E' & B & _).
  exists (View p (Zlen l)), m'. repeat split; auto; try apply V; try apply Hc.
  rewrite firstn_all2 in B; auto. unfold Zlen in *. lia.
Qed.

(** ** compare as an order *)

Lemma compare_order : forall cf m v1 v2 v3 o1 o2 o3,
  denotes m v1 o1 -> denotes m v2 o2 -> denotes m v3 o3 ->
  exists r12 r21 r23 r13,
    strview_compare cf m v1 v2 = Ok r12 /\ strview_compare cf m v2 v1 = Ok r21 /\
    strview_compare cf m v2 v3 = Ok r23 /\ strview_compare cf m v1 v3 = Ok r13 /\
    (r12 = 0 <-> contents o1 = contents o2) /\ (r12 < 0 <-> r21 > 0) /\
    (r12 < 0 -> r23 < 0 -> r13 < 0) /\ (r12 <= 0 -> r23 <= 0 -> r13 <= 0).
Proof.
  intros cf m v1 v2 v3 o1 o2 o3 H1 H2 H3.
  destruct (compare_ok cf m v1 v2 o1 o2 H1 H2) as (r12 & E12 & C12).
  destruct (compare_ok cf m v2 v1 o2 o1 H2 H1) as (r21 & E21 & C21).
  destruct (compare_ok cf m v2 v3 o2 o3 H2 H3) as (r23 & E23 & C23).
  destruct (compare_ok cf m v1 v3 o1 o3 H1 H3) as (r13 & E13 & C13).
  exists r12, r21, r23, r13. do 4 (split; [assumption|]).
  assert (r12 = 0 <-> contents o1 = contents o2) as Z12.
  { rewrite <- Z.compare_eq_iff, C12. apply lex_eq. }
  assert (r23 = 0 <-> contents o2 = contents o3) as Z23.
  { rewrite <- Z.compare_eq_iff, C23. apply lex_eq. }
  assert (r12 < 0 -> r23 < 0 -> r13 < 0) as T.
  { rewrite <- !Z.compare_lt_iff, C12, C23, C13. apply lex_trans. }
  repeat split; auto; try apply Z12.
  - intro K. rewrite <- Z.compare_lt_iff, C12 in K. apply Z.lt_gt.
    rewrite <- Z.compare_gt_iff, C21, lex_antisym, K. reflexivity.
  - intro K. apply Z.gt_lt in K. rewrite <- Z.compare_gt_iff, C21, lex_antisym in K.
    rewrite <- Z.compare_lt_iff, C12. destruct (lex (contents o1) (contents o2)); cbn in K; congruence.
  - intros K1 K2. destruct (Z.eq_dec r12 0) as [E|E].
    + apply Z12 in E. rewrite E in C13. rewrite <- C23 in C13. destruct (Z.eq_dec r23 0) as [E'|E'].
      * subst r23. cbn in C13. apply Z.compare_eq in C13. lia.
      * assert (r23 < 0) as L by lia. rewrite <- Z.compare_lt_iff in L. rewrite L in C13. rewrite Z.compare_lt_iff in C13. lia.
    + destruct (Z.eq_dec r23 0) as [E'|E'].
      * apply Z23 in E'. rewrite <- E' in C13. rewrite <- C12 in C13.
        assert (r12 < 0) as L by lia. rewrite <- Z.compare_lt_iff in L. rewrite L in C13. rewrite Z.compare_lt_iff in C13. lia.
      * assert (r13 < 0) by (apply T; lia). lia.
Qed.

(** ** contains *)

Lemma contains_gen : forall cf comp f m hay needle hl nl, comp_ok f comp ->
  has_view m hay hl -> has_view m needle nl ->
  exists r, find_first cf m comp hay needle = Ok r /\
    (strview_is_valid r = true <-> exists k, occurs (map f hl) (map f nl) k).
Proof.
  intros cf comp f m hay needle hl nl Hc H1 H2.
  destruct (find_first_ok cf comp f m hay needle hl nl Hc H1 H2) as [(k & [Hk _] & ->)|(Hn & ->)].
  - eexists; split; [reflexivity|]. split; [eauto|]. intros _.
    unfold strview_is_valid, subview. cbn [v_data].
    pose proof H1 as ((blk & Ha & _) & _). unfold is_null. rewrite shift_obj.
    destruct (p_obj (v_data hay)); auto. discriminate.
  - eexists; split; [reflexivity|]. cbn. split; [discriminate|]. intros (k & K). exfalso; eapply Hn; eauto.
Qed.

Lemma Forall2_len : forall {A B} (P : A -> B -> Prop) a b, Forall2 P a b -> length a = length b.
Proof. intros A B P a b H; induction H; cbn; congruence. Qed.
