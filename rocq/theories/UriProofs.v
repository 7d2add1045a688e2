(** Proofs about the URI parser. *)
From Verif Require Import Base Mem Libc StrviewModel StrnumModel Spec MemLemmas StrviewProofs StrviewProofs2 StrviewProofs3 NumSpec
  StrnumProofs UriModel UriSpec.

(** ** List level *)
Fixpoint cut (d : Z) (l : list Z) : list Z * option (list Z) :=
  match l with
  | [] => ([], None)
  | x :: t => if x =? d then ([], Some t) else let (a, r) := cut d t in (x :: a, r)
  end.

Lemma cut_found : forall d a b, lacks d a -> cut d (a ++ d :: b) = (a, Some b).
Proof.
  unfold lacks. induction a as [|x a IH]; intros b H; cbn [app cut].
  - now rewrite Z.eqb_refl.
  - destruct (x =? d) eqn:E; [apply Z.eqb_eq in E; subst; destruct H; now left|]. rewrite IH; auto. intro K. apply H. now right.
Qed.
Lemma cut_none : forall d a, lacks d a -> cut d a = (a, None).
Proof.
  unfold lacks. induction a as [|x a IH]; intros H; cbn [app cut]; [reflexivity|].
  destruct (x =? d) eqn:E; [apply Z.eqb_eq in E; subst; destruct H; now left|]. rewrite IH; auto. intro K. apply H. now right.
Qed.
Lemma cut_cases : forall d l, (exists a b, l = a ++ d :: b /\ lacks d a) \/ lacks d l.
Proof.
  unfold lacks. induction l as [|x l [(a & b & -> & H)|H]]; [now right| |].
  - destruct (Z.eq_dec x d) as [->|N]; [left; exists [], (a ++ d :: b); split; auto|left; exists (x :: a), b; split; auto].
    intros [K|K]; auto.
  - destruct (Z.eq_dec x d) as [->|N]; [left; exists [], l; split; auto|right; intros [K|K]; auto].
Qed.

Definition hasb (c : Z) (l : list Z) : bool := existsb (Z.eqb c) l.
Lemma hasb_lacks : forall c l, hasb c l = false <-> lacks c l.
Proof.
  intros c l. unfold hasb, lacks. split.
  - intros H K. assert (existsb (Z.eqb c) l = true) as E by (apply existsb_exists; exists c; split; auto; apply Z.eqb_refl). congruence.
  - intros H. destruct (existsb (Z.eqb c) l) eqn:E; auto. apply existsb_exists in E as (x & Hx & Ex). apply Z.eqb_eq in Ex. subst. contradiction.
Qed.

Definition prefixb (l : list Z) : bool := match l with x :: y :: z :: _ => (x =? 58) && (y =? 47) && (z =? 47) | _ => false end.
Fixpoint marker (l : list Z) : bool := match l with [] => false | _ :: t => prefixb l || marker t end.

Lemma prefixb_iff : forall l, prefixb l = true <-> exists t, l = 58 :: 47 :: 47 :: t.
Proof.
  intros [|x [|y [|z t]]]; cbn [prefixb]; split; intros H; try discriminate; try (destruct H; discriminate).
  - apply andb_true_iff in H as [H H3]. apply andb_true_iff in H as [H1 H2]. apply Z.eqb_eq in H1, H2, H3. subst. eauto.
  - destruct H as (t' & E). injection E as -> -> -> ->. reflexivity.
Qed.
Lemma marker_iff : forall l, marker l = true <-> exists a t, l = a ++ 58 :: 47 :: 47 :: t.
Proof.
  induction l as [|x l IH]; cbn [marker].
  - split; [discriminate|]. intros (a & t & E). destruct a; discriminate.
  - rewrite orb_true_iff, prefixb_iff, IH. split.
    + intros [(t & E)|(a & t & ->)]; [exists [], t; auto|exists (x :: a), t; auto].
    + intros (a & t & E). destruct a as [|y a]; [left; exists t; auto|right]. injection E as -> ->. eauto.
Qed.
Lemma marker_no : forall l, no_marker l -> marker l = false.
Proof.
  intros l H. destruct (marker l) eqn:E; auto. apply marker_iff in E as (a & t & ->). exfalso.
  apply (H (length a)). exists a, t. auto.
Qed.

Definition drop2 (l : list Z) : option (list Z) :=
  match l with [] => Some [] | [_] | [_; _] => None | _ :: _ :: t => Some t end.
Definition cuto (d : Z) (o : option (list Z)) : option (list Z) * option (list Z) :=
  match o with None => (None, None) | Some l => let (a, r) := cut d l in (Some a, r) end.
Definition bindo (o : option (list Z)) (f : list Z -> option (list Z)) := match o with Some x => f x | None => None end.

Definition swapo (p : option (list Z) * option (list Z)) := match snd p with None => (None, fst p) | Some _ => p end.
Definition colon (o : option (list Z)) : bool := match o with Some l => hasb 58 l | None => false end.
Definition digito (o : option (list Z)) : bool := match o with Some l => headb (isdig 10) l | None => false end.

Definition parse_list (l : list Z) : comps :=
  let '(scheme, u) := if marker l then let (a, b) := cut 58 l in (Some a, bindo b drop2) else (None, Some l) in
  let '(user, u) := swapo (cuto 64 u) in
  if colon u
  then let '(tmp, u) := swapo (cuto 58 u) in
       if digito u
       then let '(port, p) := cuto 47 u in Comps scheme user tmp port p
       else Comps tmp user None None (bindo u (fun x => if Zlen x =? 0 then None else Some x))
  else let '(host, p) := cuto 47 u in Comps scheme user host None p.

(** ** Memory level *)
Lemma lit_cstring : forall m l, Forall is_byte l -> ~ In 0 l -> Zlen l <= INT_MAX -> c_string m (lit l) l.
Proof.
  intros m l H1 H2 H3. repeat split; auto. exists (lit_block l). cbn. rewrite Zlen_app. cbn. repeat split; try lia.
  intros i Hi. f_equal. replace (0 + i) with i by lia. destruct (Z.eq_dec i (Zlen l)) as [->|N].
  - unfold Zlen. rewrite Nat2Z.id, app_nth2, Nat.sub_diag, nth_overflow; auto; lia.
  - rewrite app_nth1; auto. unfold Zlen in *. cbn in *. lia.
Qed.

Lemma slice_refl : forall m v l, has_view m v l -> slice m v l v (Some l).
Proof.
  intros m v l H. exists [], []. rewrite app_nil_r. split; auto. pose proof (has_view_size _ _ _ H).
  rewrite subview_0 by auto. auto.
Qed.
Lemma slice_trans : forall m v l s l' r o, slice m v l s (Some l') -> slice m s l' r o -> slice m v l r o.
Proof.
  intros m v l s l' r o (x & z & -> & -> & H) Hr. destruct o as [y|]; [|exact Hr].
  destruct Hr as (x' & z' & -> & -> & H'). exists (x ++ x'), (z' ++ z). rewrite <- !app_assoc. split; auto.
  rewrite subview_subview in *. rewrite Zlen_app. auto.
Qed.
Lemma slice_valid : forall m v l r o, slice m v l r o -> strview_is_valid r = match o with Some _ => true | None => false end.
Proof.
  intros m v l r [y|] H; [|cbn in H; now subst]. destruct H as (x & z & _ & _ & H). unfold strview_is_valid. now rewrite (has_view_nonnull _ _ _ H).
Qed.
Lemma slice_none : forall m v l, slice m v l INVALID None.
Proof. reflexivity. Qed.

Lemma delim_one : forall d l k, delim_at false [d] l k <-> exists a b, l = a ++ d :: b /\ length a = k.
Proof.
  intros. unfold delim_at. split.
  - intros (a & d' & b & E & Hl & [<-|[]] & _). eauto.
  - intros (a & b & E & Hl). exists a, d, b. repeat split; auto; [now left|discriminate].
Qed.

Lemma app_inv_len : forall (a a' b b' : list Z), a ++ b = a' ++ b' -> length a' = length a -> a = a' /\ b = b'.
Proof.
  induction a as [|x a IH]; intros [|y a'] b b' E L; try discriminate; auto.
  injection E as -> E. injection L as L. destruct (IH _ _ _ E L). subst. auto.
Qed.

Lemma cut_at_ok : forall cf m v l d, has_view m v l -> is_byte d -> d <> 0 ->
  exists r u, cut_at cf m v d = Ok (r, u) /\ slice m v l r (Some (fst (cut d l))) /\ slice m v l u (snd (cut d l)).
Proof.
  intros cf m v l d H Hd Hn. unfold cut_at, strview_split_first_delim.
  assert (c_string m (lit [d]) [d]) as Hc by (apply lit_cstring; [constructor; auto|intros [K|[]]; auto|cbn; unfold INT_MAX; lia]).
  destruct (cstr_ok m _ _ Hc) as [-> Vd]. cbn [bind].
  destruct (split_first_ok cf m v _ l [d] false H Vd) as [(a & d' & b & E & [Hle Hmin] & -> & Ha & Hb)|[Hno ->]]; cbn [bind].
  - apply delim_one in Hle as (a' & b' & E' & El). rewrite E in E'.
    assert (a = a' /\ d' :: b = d :: b') as [-> E2] by (apply app_inv_len; auto). injection E2 as -> ->.
    assert (lacks d a') as La.
    { intros K. apply in_split in K as (x & y & ->). apply (Hmin (length x)); [rewrite app_length; cbn; lia|].
      apply delim_one. exists x, (y ++ d :: b'). split; auto. now rewrite E, <- app_assoc. }
    subst l. rewrite cut_found by auto. eexists _, _. split; [reflexivity|]. cbn [fst snd]. split.
    + exists [], (d :: b'). auto.
    + destruct b' as [|c b'].
      * exists a', [d]. cbn [app] in *. auto.
      * exists (a' ++ [d]), []. rewrite app_nil_r, <- app_assoc. split; auto.
        assert ((Zlen (c :: b') =? 0) = false) as Ez by (apply Z.eqb_neq; rewrite Zlen_cons; pose proof (Zlen_nonneg b'); lia).
        rewrite Ez in *. rewrite Zlen_app. auto.
  - assert (lacks d l) as Ll.
    { intros K. apply in_split in K as (x & y & ->). apply (Hno (length x)). apply delim_one. eauto. }
    rewrite cut_none by auto. eexists _, _. split; [reflexivity|]. cbn [fst snd]. split; [now apply slice_refl|reflexivity].
Qed.

Lemma cut_at_invalid : forall cf m d, is_byte d -> d <> 0 -> cut_at cf m INVALID d = Ok (INVALID, INVALID).
Proof.
  intros cf m d Hd Hn. unfold cut_at, strview_split_first_delim.
  assert (c_string m (lit [d]) [d]) as Hc by (apply lit_cstring; [constructor; auto|intros [K|[]]; auto|cbn; unfold INT_MAX; lia]).
  destruct (cstr_ok m _ _ Hc) as [-> Vd]. reflexivity.
Qed.

Lemma cuto_ok : forall cf m v l s o d, slice m v l s o -> is_byte d -> d <> 0 ->
  exists r u, cut_at cf m s d = Ok (r, u) /\ slice m v l r (fst (cuto d o)) /\ slice m v l u (snd (cuto d o)).
Proof.
  intros cf m v l s [y|] d H Hd Hn.
  - pose proof H as (x & z & _ & _ & Hy). destruct (cut_at_ok cf m s y d Hy Hd Hn) as (r & u & E & S1 & S2).
    exists r, u. split; auto. cbn [cuto]. destruct (cut d y) as [a b]. cbn [fst snd] in *. split; eapply slice_trans; eauto.
  - cbn in H. subst. exists INVALID, INVALID. split; [now apply cut_at_invalid|]. split; reflexivity.
Qed.

Lemma swapo_ok : forall m v l r u p, slice m v l r (fst p) -> slice m v l u (snd p) ->
  exists r' u', (if strview_is_valid u then (r, u) else strview_swap r u) = (r', u') /\
    slice m v l r' (fst (swapo p)) /\ slice m v l u' (snd (swapo p)).
Proof.
  intros m v l r u [a [b|]] H1 H2; rewrite (slice_valid _ _ _ _ _ H2); unfold swapo, strview_swap; cbn [fst snd] in *; eauto 6.
Qed.

Lemma find_lit_ok : forall cf m s y n, has_view m s y -> Forall is_byte n -> ~ In 0 n -> Zlen n <= INT_MAX ->
  exists f, strview_find_first_cstr cf m s (lit n) = Ok f /\ (strview_is_valid f = true <-> exists k, occurs y n k).
Proof.
  intros cf m s y n H H1 H2 H3. unfold strview_find_first_cstr.
  destruct (cstr_ok m _ _ (lit_cstring m n H1 H2 H3)) as [-> V]. cbn [bind].
  pose proof (find_first_ok cf _ _ m s _ y n (memcmp_ok cf) H V) as K. rewrite !map_id in K.
  destruct K as [(k & [Hk _] & E)|[Hno E]]; unfold strview_find_first; rewrite E; eexists; (split; [reflexivity|]).
  - split; eauto. intros _. unfold strview_is_valid, subview. cbn [v_data]. destruct H as ((bk & Hac & _) & _).
    unfold is_null, shift. cbn [p_obj p_ofs]. now destruct (p_obj (v_data s)).
  - split; [discriminate|]. intros (k & Hk). now apply Hno in Hk.
Qed.

Lemma occurs_one : forall c l, (exists k, occurs l [c] k) <-> hasb c l = true.
Proof.
  intros c l. destruct (hasb c l) eqn:E.
  - split; auto. intros _. unfold hasb in E. apply existsb_exists in E as (x & Hx & Ex). apply Z.eqb_eq in Ex. subst x.
    apply in_split in Hx as (a & b & ->). exists (length a), a, b. auto.
  - split; [|discriminate]. intros (k & a & b & -> & _). apply hasb_lacks in E. destruct E. apply in_or_app. right. now left.
Qed.
Lemma occurs_marker : forall l, (exists k, occurs l [58; 47; 47] k) <-> marker l = true.
Proof.
  intros l. rewrite marker_iff. split.
  - intros (k & a & b & E & _). exists a, b. exact E.
  - intros (a & b & E). exists (length a), a, b. auto.
Qed.

Lemma colon_ok : forall cf m v l s o, slice m v l s o ->
  exists f, strview_find_first_cstr cf m s (lit [58]) = Ok f /\ strview_is_valid f = colon o.
Proof.
  intros cf m v l s [y|] H.
  - destruct H as (x & z & _ & _ & Hy). destruct (find_lit_ok cf m s y [58] Hy) as (f & E & K).
    + repeat constructor; unfold is_byte; lia.
    + intros [K|[]]; discriminate.
    + cbn. unfold INT_MAX. lia.
    + exists f. split; auto. rewrite occurs_one in K. cbn [colon]. destruct (strview_is_valid f), (hasb 58 y); auto; [symmetry|]; now apply K.
  - cbn in H. subst. exists INVALID. split; [|reflexivity].
    unfold strview_find_first_cstr. destruct (cstr_ok m (lit [58]) [58]) as [-> V].
    { apply lit_cstring; [repeat constructor; unfold is_byte; lia|intros [K|[]]; discriminate|cbn; unfold INT_MAX; lia]. }
    cbn [bind]. apply find_first_null. now left.
Qed.

Lemma slice_safe : forall cf m v l s y, slice m v l s (Some y) -> ctype_safe cf l -> ctype_safe cf y.
Proof.
  intros cf m v l s y (x & z & -> & _) H. apply ctype_safe_app in H. destruct H as [H|[H|H]]; [left|right;left|right;right]; auto.
  apply Forall_app in H. apply H.
Qed.

Lemma digito_ok : forall cf m v l s o, slice m v l s o -> ctype_safe cf l -> at_digit cf m s = Ok (digito o).
Proof.
  intros cf m v l s [y|] H Hs.
  - pose proof (slice_safe _ _ _ _ _ _ H Hs). destruct H as (x & z & _ & _ & Hy). now apply at_digit_ok.
  - cbn in H. subst. reflexivity.
Qed.

Lemma drop2_ok : forall cf m v l s o, slice m v l s o -> exists u, strview_sub cf m s 2 INT_MAX = Ok u /\ slice m v l u (bindo o drop2).
Proof.
  intros cf m v l s [y|] H.
  - pose proof H as (x & z & _ & _ & Hy). cbn [bindo].
    assert (INT_MIN <= 2 <= INT_MAX) as B1 by (unfold INT_MIN, INT_MAX; lia).
    assert (INT_MIN <= INT_MAX <= INT_MAX) as B2 by (unfold INT_MIN, INT_MAX; lia).
    destruct y as [|a [|b [|c y]]]; cbn [drop2].
    + rewrite (sub_empty _ _ _ _ _ Hy). eauto.
    + rewrite (sub_out _ _ _ _ _ _ Hy); auto; [|discriminate|unfold py_in; cbn; lia]. eexists. split; reflexivity.
    + rewrite (sub_out _ _ _ _ _ _ Hy); auto; [|discriminate|unfold py_in; cbn; lia]. eexists. split; reflexivity.
    + change (a :: b :: c :: y) with ([a; b] ++ c :: y) in Hy. rewrite (sub_from _ _ _ [a; b] (c :: y) Hy) by discriminate.
      eexists. split; [reflexivity|]. eapply slice_trans; [exact H|]. exists [a; b], []. rewrite app_nil_r. split; auto. split; auto.
      now apply has_view_suffix in Hy.
  - cbn in H. subst. exists INVALID. split; reflexivity.
Qed.

Definition slices (m : mem) (v : view) (l : list Z) (r : uri) (u : comps) : Prop :=
  slice m v l (u_scheme r) (k_scheme u) /\ slice m v l (u_user r) (k_user u) /\ slice m v l (u_host r) (k_host u) /\
  slice m v l (u_port r) (k_port u) /\ slice m v l (u_path r) (k_path u).

Lemma keep_valid : forall m v l u o, slice m v l u o -> (if strview_is_valid u then u else INVALID) = u.
Proof. intros m v l u [y|] H; rewrite (slice_valid _ _ _ _ _ H); auto. Qed.

(** isdigit() is called with the first character of this text. *)
Definition asked (l : list Z) : option (list Z) :=
  let u := if marker l then bindo (snd (cut 58 l)) drop2 else Some l in
  let u := snd (swapo (cuto 64 u)) in
  if colon u then snd (swapo (cuto 58 u)) else None.
Definition outside_ctype (cf : cfg) (o : option (list Z)) : bool :=
  match o with Some l => headb (fun c => negb (ctype_ok cf (char_int cf c))) l | None => false end.
Lemma digito_exact : forall cf m v l s o, slice m v l s o -> at_digit cf m s = if outside_ctype cf o then UB UB_ctype else Ok (digito o).
Proof.
  intros cf m v l s [y|] H.
  - destruct H as (x & z & _ & _ & Hy). unfold at_digit. rewrite (has_view_size _ _ _ Hy). destruct y as [|c y]; [reflexivity|].
    rewrite Zlen_cons. pose proof (Zlen_nonneg y). zb. destruct Hy as (Hb & _ & _ & Hf). inversion Hf; subst.
    apply bytes_at_cons in Hb as [Hl _]. rewrite Hl. cbn [bind]. unfold isdigit. cbn [outside_ctype headb digito].
    destruct (ctype_ok cf (char_int cf c)); cbn [negb]; auto. now rewrite isdigit_char.
  - cbn in H. subst. reflexivity.
Qed.

Lemma parse_exact : forall cf m v l, has_view m v l ->
  if outside_ctype cf (asked l) then parse_uri cf m v = UB UB_ctype else exists r, parse_uri cf m v = Ok r /\ slices m v l r (parse_list l).
Proof.
  intros cf m v l H. unfold parse_uri, parse_list, asked.
  assert (forall d, (d = 58 \/ d = 47 \/ d = 64) -> is_byte d /\ d <> 0) as Hd by (unfold is_byte; lia).
  destruct (find_lit_ok cf m v l [58; 47; 47] H) as (f & -> & Kf).
  { repeat constructor; unfold is_byte; lia. } { intros [K|[K|[K|[]]]]; discriminate. } { cbn. unfold INT_MAX. lia. }
  cbn [bind]. rewrite occurs_marker in Kf.
  assert (strview_is_valid f = marker l) as -> by (destruct (strview_is_valid f), (marker l); auto; [symmetry|]; now apply Kf). clear Kf f.
  set (st := if marker l then let (a, b) := cut 58 l in (Some a, bindo b drop2) else (None, Some l)).
  assert (exists sc u, (if marker l then let! (s, u) := cut_at cf m v 58 in let! u := strview_sub cf m u 2 INT_MAX in Ok (s, u)
                        else Ok (INVALID, v)) = Ok (sc, u) /\ slice m v l sc (fst st) /\ slice m v l u (snd st)) as (sc & u & -> & S1 & S2).
  { subst st. destruct (marker l).
    - destruct (cut_at_ok cf m v l 58 H) as (r & u & -> & A1 & A2); try apply Hd; auto. cbn [bind].
      destruct (drop2_ok cf m v l u _ A2) as (u' & -> & A3). cbn [bind]. destruct (cut 58 l) as [a b]. cbn [fst snd] in *. eauto.
    - exists INVALID, v. split; auto. split; [reflexivity|now apply slice_refl]. }
  cbn [bind]. assert ((if marker l then bindo (snd (cut 58 l)) drop2 else Some l) = snd st) as -> by (subst st; destruct (marker l); auto; destruct (cut 58 l); auto).
  destruct st as [scheme l1]. cbn [fst snd] in *.
  destruct (cuto_ok cf m v l u l1 64 S2) as (us & u1 & -> & A1 & A2); try apply Hd; auto. cbn [bind].
  destruct (swapo_ok _ _ _ _ _ _ A1 A2) as (us' & u2 & -> & B1 & B2). destruct (swapo (cuto 64 l1)) as [user l2]. cbn [fst snd] in *.
  destruct (colon_ok cf m v l u2 l2 B2) as (f & -> & Ef). cbn [bind]. rewrite Ef. destruct (colon l2); cbn [negb].
  - destruct (cuto_ok cf m v l u2 l2 58 B2) as (t & u3 & -> & C1 & C2); try apply Hd; auto. cbn [bind].
    destruct (swapo_ok _ _ _ _ _ _ C1 C2) as (t' & u4 & -> & D1 & D2). destruct (swapo (cuto 58 l2)) as [tmp l3]. cbn [fst snd] in *.
    rewrite (digito_exact cf m v l u4 l3 D2). destruct (outside_ctype cf l3); [reflexivity|]. cbn [bind]. destruct (digito l3).
    + destruct (cuto_ok cf m v l u4 l3 47 D2) as (po & u5 & -> & E1 & E2); try apply Hd; auto. cbn [bind].
      destruct (cuto 47 l3) as [port l4]. cbn [fst snd] in *. eexists. split; [reflexivity|]. unfold slices. cbn [u_scheme u_user u_host u_port u_path
        k_scheme k_user k_host k_port k_path]. rewrite (keep_valid _ _ _ _ _ E2). auto 6.
    + eexists. split; [reflexivity|]. unfold slices. cbn [u_scheme u_user u_host u_port u_path k_scheme k_user k_host k_port k_path].
      split; [auto|]. split; [auto|]. split; [reflexivity|]. split; [reflexivity|].
      destruct l3 as [y|]; cbn [bindo].
      * pose proof D2 as (x & z & _ & _ & Hy). rewrite (has_view_size _ _ _ Hy). destruct (Zlen y =? 0); [reflexivity|auto].
      * cbn in D2. subst. reflexivity.
  - cbn [outside_ctype]. destruct (cuto_ok cf m v l u2 l2 47 B2) as (t & u3 & -> & C1 & C2); try apply Hd; auto. cbn [bind].
    destruct (cuto 47 l2) as [host l3]. cbn [fst snd] in *. rewrite (slice_valid _ _ _ _ _ C2).
    destruct l3; (eexists; split; [reflexivity|]); unfold slices; cbn [u_scheme u_user u_host u_port u_path k_scheme k_user k_host k_port k_path];
      repeat (split; [auto; reflexivity|]); auto; reflexivity.
Qed.

Lemma cut_incl : forall d l, incl (fst (cut d l)) l /\ forall b, snd (cut d l) = Some b -> incl b l.
Proof.
  intros d l. induction l as [|x l [I1 I2]]; cbn [cut]; [split; [apply incl_refl|discriminate]|].
  destruct (x =? d).
  - cbn [fst snd]. split; [intros y []|]. intros b E. injection E as <-. intros y Hy. now right.
  - destruct (cut d l) as [a r]. cbn [fst snd] in *. split; [intros y [->|Hy]; [now left|right; auto]|]. intros b E y Hy. right. now apply (I2 b E).
Qed.
Definition within (o : option (list Z)) (l : list Z) : Prop := forall y, o = Some y -> incl y l.
Lemma within_drop2 : forall o l, within o l -> within (bindo o drop2) l.
Proof.
  intros [y|] l H; cbn [bindo]; [|intros ? [=]]. specialize (H y eq_refl). destruct y as [|a [|b [|c y]]]; intros z E; try discriminate; cbn in E; injection E as <-.
  - intros ? [].
  - intros x Hx. apply H. right. now right.
Qed.
Lemma within_cut : forall d o l, within o l -> within (snd (swapo (cuto d o))) l.
Proof.
  intros d [y|] l H; cbn [cuto]; [|intros ? [=]]. specialize (H y eq_refl). destruct (cut_incl d y) as [I1 I2]. destruct (cut d y) as [a [b|]]; cbn [swapo fst snd] in *.
  - intros z E. injection E as <-. eapply incl_tran; [now apply I2|assumption].
  - intros z E. injection E as <-. eapply incl_tran; eauto.
Qed.
Lemma asked_incl : forall l y, asked l = Some y -> incl y l.
Proof.
  intros l y. unfold asked. set (u := if marker l then bindo (snd (cut 58 l)) drop2 else Some l).
  assert (within u l) as Hu.
  { subst u. destruct (marker l); [apply within_drop2; exact (proj2 (cut_incl 58 l))|]. intros z E. injection E as <-. apply incl_refl. }
  destruct (colon _); [|discriminate]. intro E. revert y E. change (within (snd (swapo (cuto 58 (snd (swapo (cuto 64 u)))))) l). now apply within_cut, within_cut.
Qed.

Theorem parse_ok : forall cf m v l, has_view m v l -> ctype_safe cf l ->
  exists r, parse_uri cf m v = Ok r /\ slices m v l r (parse_list l).
Proof.
  intros cf m v l H Hs. pose proof (parse_exact cf m v l H) as K.
  assert (outside_ctype cf (asked l) = false) as E; [|now rewrite E in K].
  destruct (asked l) as [y|] eqn:Ea; [|reflexivity]. assert (incl y l) as Hi by (now apply asked_incl).
  destruct y as [|c y]; [reflexivity|]. cbn [outside_ctype headb]. destruct H as (_ & _ & _ & Hf). rewrite Forall_forall in Hf.
  assert (In c l) as Hc by (apply Hi; now left). rewrite (ctype_safe_head cf c []); [reflexivity|now apply Hf|].
  destruct Hs as [Hs|[Hs|Hs]]; [left|right; left|right; right]; auto. rewrite Forall_forall in Hs. constructor; auto.
Qed.

Lemma cuto_found : forall d a b, lacks d a -> cuto d (Some (a ++ d :: b)) = (Some a, Some b).
Proof. intros. cbn [cuto]. now rewrite cut_found. Qed.
Lemma cuto_none : forall d a, lacks d a -> cuto d (Some a) = (Some a, None).
Proof. intros. cbn [cuto]. now rewrite cut_none. Qed.
Lemma hasb_yes : forall c a b, hasb c (a ++ c :: b) = true.
Proof. intros. destruct (hasb c (a ++ c :: b)) eqn:E; auto. apply hasb_lacks in E. destruct E. apply in_or_app. right. now left. Qed.
Lemma asked_iff : forall l c, (exists t, asked l = Some (c :: t)) <-> behind_colon l c.
Proof.
  intros l c. unfold behind_colon, asked.
  assert (forall l1, after_scheme l l1 <-> (if marker l then bindo (snd (cut 58 l)) drop2 else Some l) = Some l1) as S1.
  { intro l1. unfold after_scheme. destruct (marker l) eqn:M.
    - assert (~ no_marker l) as N. { intro N. apply marker_no in N. congruence. }
      split.
      + intros [[K _]|(_ & a & x & y & -> & La & Hn)]; [contradiction|]. change COLON with 58. rewrite cut_found by exact La. cbn [snd bindo].
        destruct l1; [congruence|reflexivity].
      + intro E. right. split; auto. destruct (cut_cases 58 l) as [(a & b & -> & La)|La].
        * rewrite cut_found in E by exact La. cbn [snd bindo] in E. destruct b as [|x [|y [|z b]]]; try discriminate; cbn in E; injection E as <-.
          -- exfalso. apply marker_iff in M as (a' & t & E). pose proof (cut_found 58 a [] La) as C. rewrite E in C.
             destruct (cut_cases 58 a') as [(h & k & -> & Lh)|Lh].
             ++ rewrite <- app_assoc in C. cbn [app] in C. rewrite cut_found in C by exact Lh. injection C as _ C. destruct k; discriminate.
             ++ rewrite cut_found in C by exact Lh. discriminate.
          -- exists a, x, y. split; [reflexivity|]. split; [exact La|discriminate].
        * rewrite cut_none in E by exact La. discriminate.
    - assert (no_marker l) as N. { intros k (a & b & -> & _). assert (marker (a ++ [COLON; SLASH; SLASH] ++ b) = true) as K by (apply marker_iff; exists a, b; reflexivity). congruence. }
      split.
      + intros [[_ ->]|(K & _)]; [reflexivity|contradiction].
      + intro E. injection E as <-. now left. }
  assert (forall l1 l2, after_user l1 l2 <-> snd (swapo (cuto 64 (Some l1))) = Some l2) as S2.
  { intros l1 l2. unfold after_user. cbn [cuto]. split.
    - intros [(a & -> & La)|(La & ->)]; change AT with 64 in *; [rewrite cut_found by exact La|rewrite cut_none by exact La]; reflexivity.
    - destruct (cut_cases 64 l1) as [(a & b & -> & La)|La]; [rewrite cut_found by exact La|rewrite cut_none by exact La]; cbn [swapo fst snd]; intro E; injection E as <-; [left; eauto|right; auto]. }
  set (u := if marker l then bindo (snd (cut 58 l)) drop2 else Some l) in *. split.
  - intros (t & E). destruct u as [l1|]; [|discriminate]. destruct (snd (swapo (cuto 64 (Some l1)))) as [l2|] eqn:E2; [|discriminate].
    cbn [colon] in E. destruct (hasb 58 l2) eqn:Hb; [|discriminate]. destruct (cut_cases 58 l2) as [(h & b & -> & Lh)|Lh]; [|apply hasb_lacks in Lh; congruence].
    rewrite cuto_found in E by exact Lh. cbn in E. injection E as ->. exists l1, (h ++ 58 :: c :: t), h, t. split; [now apply S1|]. split; [now apply S2|]. split; [reflexivity|exact Lh].
  - intros (l1 & l2 & h & t & A1 & A2 & -> & Lh). exists t. apply S1 in A1. apply S2 in A2. rewrite A1, A2. cbn [colon]. change COLON with 58. rewrite hasb_yes, cuto_found by exact Lh. reflexivity.
Qed.
Lemma outside_iff : forall cf l, Forall is_byte l -> outside_ctype cf (asked l) = true <-> c_ctype cf = false /\ c_char_signed cf = true /\ exists c, behind_colon l c /\ 128 <= c < 255.
Proof.
  intros cf l Hl. assert (forall c, is_byte c -> negb (ctype_ok cf (char_int cf c)) = true <-> c_ctype cf = false /\ c_char_signed cf = true /\ 128 <= c < 255) as K.
  { intros c Hc. unfold is_byte in Hc. rewrite negb_true_iff. unfold ctype_ok. rewrite orb_false_iff, andb_false_iff, !Z.leb_gt. unfold char_int.
    destruct (c_char_signed cf), (Z.leb_spec 128 c); cbn [andb]; destruct (c_ctype cf); intuition (try discriminate; lia). }
  split.
  - intro E. destruct (asked l) as [[|c t]|] eqn:Ea; try discriminate. cbn [outside_ctype headb] in E. assert (is_byte c) as Hc.
    { rewrite Forall_forall in Hl. apply Hl. apply (asked_incl l _ Ea). now left. }
    apply K in E as (E1 & E2 & E3); auto. do 2 (split; auto). exists c. split; auto. apply asked_iff. eauto.
  - intros (E1 & E2 & c & B & E3). apply asked_iff in B as (t & ->). cbn [outside_ctype headb]. apply K; auto. unfold is_byte. lia.
Qed.

(** ** The documented forms *)
Lemma lacks_app : forall c a b, lacks c (a ++ b) <-> lacks c a /\ lacks c b.
Proof. unfold lacks. intros. rewrite in_app_iff. tauto. Qed.
Lemma lacks_cons : forall c x a, lacks c (x :: a) <-> x <> c /\ lacks c a.
Proof. unfold lacks. intros. cbn. tauto. Qed.
Lemma lacks_nil : forall c, lacks c [].
Proof. unfold lacks. intros c []. Qed.

Lemma headb_digit : forall l, headb (isdig 10) l = true <-> starts_digit l.
Proof.
  intros [|x t]; unfold starts_digit; cbn [headb].
  - split; [discriminate|]. intros (d & r & E & _). discriminate.
  - split.
    + intros H. exists x, t. split; auto. unfold isdig, dval in H.
      destruct ((48 <=? x) && (x <=? 57)) eqn:E; [lia|]. cbn [orb] in H.
      destruct ((65 <=? x) && (x <=? 70)) eqn:E2; destruct ((97 <=? x) && (x <=? 102)) eqn:E3; cbn [orb andb] in H; try discriminate;
        destruct (x <=? 57) eqn:E4; try destruct (x <=? 70) eqn:E5; lia.
    + intros (d & r & E & Hd). injection E as <- <-. unfold isdig, dval. assert ((48 <=? x) && (x <=? 57) = true) as -> by lia.
      destruct (x <=? 57) eqn:E4; cbn [orb andb]; lia.
Qed.

Lemma swap_some : forall a r, swapo (Some a, Some r) = (Some a, Some r).
Proof. reflexivity. Qed.
Lemma swap_none : forall a, swapo (Some a, None) = (None, Some a).
Proof. reflexivity. Qed.

Lemma marker_here : forall a t, marker (a ++ 58 :: 47 :: 47 :: t) = true.
Proof. intros. apply marker_iff. eauto. Qed.
Lemma drop2_some : forall t, t <> [] -> drop2 (47 :: 47 :: t) = Some t.
Proof. intros [|x t]; [congruence|reflexivity]. Qed.

(** After the scheme. *)
Definition rest_list (scheme : option (list Z)) (u : option (list Z)) : comps :=
  let '(user, u) := swapo (cuto 64 u) in
  if colon u
  then let '(tmp, u) := swapo (cuto 58 u) in
       if digito u
       then let '(port, p) := cuto 47 u in Comps scheme user tmp port p
       else Comps tmp user None None (bindo u (fun x => if Zlen x =? 0 then None else Some x))
  else let '(host, p) := cuto 47 u in Comps scheme user host None p.

Lemma after_lacks : forall c sep o, lacks c sep -> all (lacks c) o -> lacks c (after sep o).
Proof. intros c sep [x|] H1 H2; cbn [after]; [apply lacks_app; split; auto|apply lacks_nil]. Qed.

Lemma rest_hosted : forall u h, k_host u = Some h -> lacks COLON h -> lacks SLASH h -> lacks AT h ->
  all (lacks AT) (k_user u) -> (k_user u = None -> all (lacks AT) (k_port u) /\ all (lacks AT) (k_path u)) ->
  all (fun p => starts_digit p /\ lacks SLASH p) (k_port u) -> (k_port u = None -> all (lacks COLON) (k_path u)) ->
  rest_list (k_scheme u) (Some (authority u h)) = u.
Proof.
  intros [sc us ho po pa] h; cbn [k_scheme k_user k_host k_port k_path]. intros -> Hc Hs Ha Hu Hu' Hp Hp'.
  unfold rest_list, authority. cbn [k_user k_port k_path].
  assert (swapo (cuto 64 (Some (before us [AT] ++ h ++ after [COLON] po ++ after [SLASH] pa)))
    = (us, Some (h ++ after [COLON] po ++ after [SLASH] pa))) as ->.
  { destruct us as [x|]; cbn [before].
    - rewrite <- app_assoc. cbn [app]. rewrite cuto_found by (now apply Hu). reflexivity.
    - cbn [app]. destruct (Hu' eq_refl) as [H1 H2]. rewrite cuto_none; [reflexivity|].
      apply lacks_app. split; auto. apply lacks_app. split; apply after_lacks; auto; intros [K|[]]; discriminate. }
  cbn [colon]. destruct po as [port|]; cbn [after].
  - destruct (Hp port eq_refl) as [Dg Sl]. cbn [app]. rewrite hasb_yes, cuto_found by auto. cbn [swapo fst snd digito].
    assert (headb (isdig 10) (port ++ after [SLASH] pa) = true) as ->.
    { apply headb_digit. destruct Dg as (d & t & -> & K). exists d, (t ++ after [SLASH] pa). auto. }
    destruct pa as [path|]; cbn [after app].
    + now rewrite cuto_found.
    + rewrite app_nil_r, cuto_none; auto.
  - cbn [app]. assert (lacks 58 (after [SLASH] pa)) as La by (apply after_lacks; [intros [K|[]]; discriminate|now apply Hp']).
    assert (hasb 58 (h ++ after [SLASH] pa) = false) as -> by (apply hasb_lacks, lacks_app; auto).
    destruct pa as [path|]; cbn [after app].
    + now rewrite cuto_found.
    + rewrite app_nil_r, cuto_none; auto.
Qed.

Theorem parse_compose : forall u, documented u -> parse_list (compose u) = u.
Proof.
  intros u [H|(h & H)].
  - destruct u as [sc us ho po pa]. unfold plain, compose in *. cbn [k_scheme k_user k_host k_port k_path] in *.
    destruct H as (-> & -> & -> & (s & -> & Hc & Ha) & Hp & Hm). unfold parse_list. rewrite (marker_no _ Hm).
    change (rest_list None (Some (before (Some s) [COLON] ++ after [] pa)) = Comps (Some s) None None None pa).
    cbn [before]. rewrite <- app_assoc. cbn [app]. unfold rest_list.
    assert (lacks 64 (s ++ COLON :: after [] pa)) as L.
    { apply lacks_app. split; auto. apply lacks_cons. split; [discriminate|]. apply after_lacks; [apply lacks_nil|].
      intros x E. now apply Hp. }
    rewrite cuto_none by exact L. cbn [swapo fst snd colon]. rewrite hasb_yes, cuto_found by auto. cbn [swapo fst snd digito bindo].
    destruct pa as [p|]; cbn [after app].
    + destruct (Hp p eq_refl) as (Hn & _ & Hd). destruct (headb (isdig 10) p) eqn:E; [now apply headb_digit in E|].
      destruct p as [|c p]; [congruence|]. rewrite Zlen_cons. pose proof (Zlen_nonneg p). destruct (Zlen p + 1 =? 0) eqn:E0; [|reflexivity].
      apply Z.eqb_eq in E0. lia.
    + reflexivity.
  - destruct H as (E & Hc & Hs & Ha & Hsc & Hne & Hm & Hu & Hu' & Hp & Hp').
    pose proof (rest_hosted u h E Hc Hs Ha Hu Hu' Hp Hp') as R. unfold compose in *. rewrite E in *.
    destruct (k_scheme u) as [s|]; cbn [before] in *.
    + rewrite <- app_assoc. cbn [app]. unfold parse_list. change COLON with 58. change SLASH with 47.
      rewrite marker_here, cut_found by (apply Hsc; auto). cbn [bindo]. rewrite drop2_some by (apply Hne; discriminate). exact R.
    + cbn [app] in *. unfold parse_list. rewrite (marker_no _ (Hm eq_refl)). exact R.
Qed.

(** ** Reasonable components that are recovered are documented ones *)
Lemma no_marker_iff : forall l, no_marker l <-> marker l = false.
Proof.
  intros l. split; [apply marker_no|]. intros H k Hk. assert (marker l = true) as E; [|congruence]. apply occurs_marker. now exists k.
Qed.
Lemma lacks_dec : forall c l, lacks c l \/ hasb c l = true.
Proof. intros c l. destruct (hasb c l) eqn:E; auto. left. now apply hasb_lacks. Qed.
Lemma cuto_has : forall d l, hasb d l = true -> exists a b, cuto d (Some l) = (Some a, Some b) /\ l = a ++ d :: b /\ lacks d a.
Proof.
  intros d l H. destruct (cut_cases d l) as [(a & b & -> & L)|L]; [exists a, b; rewrite cuto_found by auto; auto|].
  apply hasb_lacks in L. congruence.
Qed.
Lemma hasb_app : forall c a b, hasb c (a ++ b) = hasb c a || hasb c b.
Proof. intros c a b. unfold hasb. apply existsb_app. Qed.

(** With a colon, there is a port or no host. *)
Lemma rest_colon : forall sc us l, hasb 58 l = true -> forall u, swapo (cuto 64 (Some u)) = (us, Some l) ->
  let r := rest_list sc (Some u) in
  k_user r = us /\ ((exists p, k_port r = Some p) \/ (k_host r = None /\ exists a b, l = a ++ 58 :: b /\ lacks 58 a /\ k_scheme r = Some a /\ (k_path r = Some b \/ k_path r = None))).
Proof.
  intros sc us l H u E. unfold rest_list. rewrite E. cbn [colon]. rewrite H. destruct (cuto_has 58 l H) as (a & b & E2 & -> & L). rewrite E2.
  cbn [swapo fst snd]. destruct (digito (Some b)).
  - unfold cuto. destruct (cut 47 b) as [x y]. cbn [k_user k_port]. eauto.
  - cbn [k_user k_host k_scheme k_path bindo]. split; auto. right. split; auto. exists a, b. split; auto. split; auto. split; auto. destruct (Zlen b =? 0); auto.
Qed.
Lemma rest_user : forall sc u, hasb 64 u = true -> k_user (rest_list sc (Some u)) <> None.
Proof.
  intros sc u H. destruct (cuto_has 64 u H) as (a & b & E & _ & _). unfold rest_list. rewrite E. cbn [swapo fst snd].
  destruct (colon (Some b)); [destruct (cuto 58 (Some b)) as [x [y|]]; cbn [swapo fst snd]|].
  - destruct (digito (Some y)); [unfold cuto; destruct (cut 47 y)|]; cbn [k_user]; discriminate.
  - destruct (digito x); [destruct (cuto 47 x)|]; cbn [k_user]; discriminate.
  - unfold cuto. destruct (cut 47 b). cbn [k_user]. discriminate.
Qed.
Lemma rest_scheme : forall s u, k_host (rest_list (Some s) u) <> None -> k_scheme (rest_list (Some s) u) = Some s.
Proof.
  intros s u. unfold rest_list. destruct (swapo (cuto 64 u)) as [us v]. destruct (colon v).
  - destruct (swapo (cuto 58 v)) as [t x]. destruct (digito x); [destruct (cuto 47 x); reflexivity|]. cbn [k_host]. congruence.
  - destruct (cuto 47 v). reflexivity.
Qed.
Lemma parse_marker : forall l, marker l = true -> exists a b, l = a ++ 58 :: b /\ lacks 58 a /\ parse_list l = rest_list (Some a) (drop2 b).
Proof.
  intros l H. pose proof (proj1 (marker_iff l) H) as (x & t & E). destruct (cut_cases 58 l) as [(a & b & -> & L)|L].
  - exists a, b. split; auto. split; auto. unfold parse_list. rewrite H, cut_found by auto. reflexivity.
  - exfalso. apply L. rewrite E. apply in_or_app. right. now left.
Qed.
Lemma parse_plain : forall l, marker l = false -> parse_list l = rest_list None (Some l).
Proof. intros l H. unfold parse_list. rewrite H. reflexivity. Qed.

Lemma after_authority : forall u h, all clean (k_user u) -> (k_user u = None -> lacks 64 (authority u h)) ->
  swapo (cuto 64 (Some (authority u h))) = (k_user u, Some (h ++ after [COLON] (k_port u) ++ after [SLASH] (k_path u))).
Proof.
  intros u h Cu H. unfold authority in *. destruct (k_user u) as [x|]; cbn [before app] in *.
  - rewrite <- app_assoc. cbn [app]. destruct (Cu x eq_refl) as (_ & _ & A). now rewrite cuto_found.
  - now rewrite (cuto_none 64 _ (H eq_refl)).
Qed.

Lemma parse_hosted_inv : forall sc u h, k_host u = Some h -> reasonable u -> rest_list sc (Some (authority u h)) = u ->
  (k_user u = None -> all (lacks AT) (k_port u) /\ all (lacks AT) (k_path u)) /\ (k_port u = None -> all (lacks COLON) (k_path u)).
Proof.
  intros sc u h Eh R E. unfold reasonable in R. rewrite Eh in R. destruct R as (Ch & Cs & Cu & Cp).
  assert (k_user u = None -> lacks 64 (authority u h)) as X.
  { intros N. destruct (lacks_dec 64 (authority u h)) as [L|L]; auto. exfalso. apply (rest_user sc _ L). now rewrite E. }
  split.
  - intros N. specialize (X N). unfold authority in X. rewrite N in X. cbn [before app] in X. apply lacks_app in X as [_ X]. apply lacks_app in X as [X1 X2].
    split; intros x Ex; [rewrite Ex in X1; cbn [after] in X1; now apply lacks_app in X1|rewrite Ex in X2; cbn [after] in X2; now apply lacks_app in X2].
  - intros N x Ex. destruct (lacks_dec 58 x) as [L|L]; auto. exfalso.
    destruct (rest_colon sc (k_user u) (h ++ after [COLON] (k_port u) ++ after [SLASH] (k_path u))) with (u := authority u h) as (_ & [(p & K)|(K & _)]).
    + rewrite N, Ex. cbn [after app]. rewrite hasb_app. unfold hasb at 2. cbn [existsb]. change (existsb (Z.eqb 58) x) with (hasb 58 x). rewrite L. now rewrite !orb_true_r.
    + now apply after_authority.
    + rewrite E in K. congruence.
    + rewrite E in K. congruence.
Qed.

Lemma parse_inv : forall u, reasonable u -> parse_list (compose u) = u -> documented u.
Proof.
  intros u R E. destruct (k_host u) as [h|] eqn:Eh.
  - right. exists h. pose proof R as R'. unfold reasonable in R'. rewrite Eh in R'. destruct R' as ((H1 & H2 & H3) & Cs & Cu & Cp).
    assert ((k_scheme u <> None -> authority u h <> []) /\ (k_scheme u = None -> no_marker (compose u)) /\
            exists sc, rest_list sc (Some (authority u h)) = u) as (X1 & X2 & sc & X3).
    { unfold compose in *. rewrite Eh in *. destruct (k_scheme u) as [s|] eqn:Es; cbn [before] in *.
      - rewrite <- app_assoc in E. cbn [app] in E. destruct (Cs s eq_refl) as (S1 & _). unfold parse_list in E. change COLON with 58 in E. change SLASH with 47 in E.
        rewrite marker_here, cut_found in E by exact S1. cbn [bindo] in E.
        destruct (authority u h) as [|c t] eqn:Ea.
        + exfalso. cbn [drop2] in E. cbn in E. rewrite <- E in Eh. discriminate Eh.
        + split; [discriminate|]. split; [discriminate|]. exists (Some s). exact E.
      - cbn [app] in *. assert (marker (authority u h) = false) as M.
        { destruct (marker (authority u h)) eqn:M; auto. exfalso. destruct (parse_marker _ M) as (a & b & _ & _ & P). rewrite P in E.
          assert (k_scheme (rest_list (Some a) (drop2 b)) = Some a) as K by (apply rest_scheme; rewrite E; congruence). rewrite E in K. congruence. }
        split; [congruence|]. split; [intros _; now apply no_marker_iff|]. exists None. now rewrite <- (parse_plain _ M). }
    destruct (parse_hosted_inv sc u h Eh R X3) as (Y1 & Y2). unfold hosted.
    split; auto. split; auto. split; auto. split; auto. split; [intros x Ex; now apply (Cs x Ex)|]. split; auto. split; auto.
    split; [intros x Ex; now apply (Cu x Ex)|]. split; auto. split; auto. intros x Ex. destruct (Cp x Ex) as [D (_ & S & _)]. auto.
  - left. unfold reasonable in R. rewrite Eh in R. destruct R as (Eu & Ep & s & Es & S1 & S2 & S3).
    unfold plain. do 3 (split; auto). split; [exists s; auto|]. unfold compose in *. rewrite Eh, Es in *. cbn [before] in *. rewrite <- app_assoc in *. cbn [app] in *.
    assert (marker (s ++ COLON :: after [] (k_path u)) = false) as M.
    { destruct (marker (s ++ COLON :: after [] (k_path u))) eqn:M; auto. exfalso. unfold parse_list in E. rewrite M in E. change COLON with 58 in E.
      rewrite cut_found in E by exact S1. cbn [bindo] in E. change (rest_list (Some s) (drop2 (after [] (k_path u))) = u) in E.
      destruct (k_path u) as [p|] eqn:Ea; cbn [after app] in *.
      2:{ apply marker_iff in M as (x & t & K). pose proof (cut_found 58 s [] S1) as C. change COLON with 58 in K. rewrite K in C.
          destruct (cut_cases 58 x) as [(a & b & -> & L)|L].
          - rewrite <- app_assoc in C. cbn [app] in C. rewrite cut_found in C by exact L. injection C as _ C. destruct b; discriminate C.
          - rewrite cut_found in C by exact L. discriminate C. }
      destruct p as [|p0 [|p1 [|p2 p]]]; cbn [drop2] in E.
      - cbn in E. rewrite <- E in Eh. discriminate Eh.
      - cbn in E. rewrite <- E in Ea. discriminate Ea.
      - cbn in E. rewrite <- E in Ea. discriminate Ea.
      - set (l := p2 :: p) in *. destruct (lacks_dec 64 l) as [L|L]; [|apply (rest_user (Some s)) in L; rewrite E in L; congruence].
        destruct (lacks_dec 58 l) as [L2|L2].
        + unfold rest_list in E. rewrite (cuto_none 64 _ L) in E. cbn [swapo fst snd colon] in E. rewrite (proj2 (hasb_lacks 58 l) L2) in E.
          unfold cuto in E. destruct (cut 47 l). rewrite <- E in Eh. discriminate Eh.
        + destruct (rest_colon (Some s) None l L2 l) as (_ & [(q & K)|(K & a & b & El & _ & _ & Q)]); [now rewrite (cuto_none 64 _ L)|rewrite E in K; congruence|].
          rewrite E, Ea in Q. destruct Q as [Q|Q]; [|discriminate Q]. injection Q as Q. apply (f_equal (@length Z)) in Q. apply (f_equal (@length Z)) in El.
          rewrite app_length in El. unfold l in *. cbn [length] in *. lia. }
    split; [|now apply no_marker_iff]. rewrite (parse_plain _ M) in E.
    assert (lacks 64 (s ++ COLON :: after [] (k_path u))) as L.
    { destruct (lacks_dec 64 (s ++ COLON :: after [] (k_path u))) as [L|L]; auto. exfalso. apply (rest_user None) in L. rewrite E in L. congruence. }
    intros p Ea. rewrite Ea in *. cbn [after app] in *. apply lacks_app in L as [_ L]. apply lacks_cons in L as [_ L].
    unfold rest_list in E. rewrite (cuto_none 64) in E by (apply lacks_app; split; auto; apply lacks_cons; split; [discriminate|auto]).
    cbn [swapo fst snd colon] in E. change COLON with 58 in E. rewrite hasb_yes, cuto_found in E by exact S1. cbn [swapo fst snd digito bindo] in E.
    split; [|split; auto].
    + intros ->. cbn in E. rewrite <- E in Ea. discriminate Ea.
    + intros D. apply headb_digit in D. rewrite D in E. unfold cuto in E. destruct (cut 47 p). rewrite <- E in Ep. discriminate Ep.
Qed.
