(** Proofs for programs on buffers and views. *)
From Verif Require Import Base Mem Libc StrviewModel StrnumModel Spec MemLemmas NumSpec StrviewProofs StrviewProofs2 Alloc StrbufModel BufSpec
  StrbufProofs StrbufProofs2 HistSpec StrbufHistory ViewProg ViewProgProofs ViewProgProofs2 SameSpec SameProofs MixSpec.

(** ** Filling in arguments *)
Lemma fill_target : forall ss o, target (fill ss o) = target o.
Proof. intros ss []; cbn [fill target]; auto; destruct (fill_src ss d); reflexivity. Qed.
Lemma fill_src_bare : forall ss s, fill_src (map bare_src ss) (bare_src s) = (bare_src (fst (fill_src ss s)), map bare_src (snd (fill_src ss s))).
Proof. intros [|x ss] []; reflexivity. Qed.
Lemma fill_list_bare : forall l ss, fill_list (map bare_src ss) (map bare_src l) = map bare_src (fill_list ss l).
Proof.
  induction l as [|s l IH]; intros ss; cbn [fill_list map]; auto. rewrite fill_src_bare. destruct (fill_src ss s) as [x ss']. cbn [fst snd map]. now rewrite IH.
Qed.
Lemma fill_bare : forall ss o, bare (fill ss o) = fill (map bare_src ss) (bare o).
Proof.
  intros ss []; cbn [fill bare]; rewrite ?fill_src_bare, ?fill_list_bare; auto;
    destruct (fill_src ss d) as [x ss']; cbn [fst snd bare fill]; rewrite ?fill_src_bare; try reflexivity.
Qed.
Lemma fill_offers : forall ss o, offers (fill ss o) = offers o.
Proof. intros ss []; cbn [fill offers]; auto; destruct (fill_src ss d); reflexivity. Qed.
Lemma fill_resizes : forall ss o, resizes (fill ss o) = resizes o.
Proof. intros ss []; cbn [fill resizes]; auto; destruct (fill_src ss d); reflexivity. Qed.
Lemma fill_changes : forall ss o, changes (fill ss o) = changes o.
Proof. intros ss []; cbn [fill changes]; auto; destruct (fill_src ss d); reflexivity. Qed.

(** Only the views count. *)
Section Views.
Variables (cf : cfg) (vars : list ptr) (w : st).
Definition alike (s t : src) : Prop := the_view cf vars w s = the_view cf vars w t.
Lemma fill_src_alike : forall ss ts s, Forall2 alike ss ts ->
  alike (fst (fill_src ss s)) (fst (fill_src ts s)) /\ Forall2 alike (snd (fill_src ss s)) (snd (fill_src ts s)).
Proof. intros ss ts s H. destruct H, s; cbn; split; auto; reflexivity. Qed.
Lemma fill_list_alike : forall l ss ts, Forall2 alike ss ts -> the_views cf vars w (fill_list ss l) = the_views cf vars w (fill_list ts l).
Proof.
  induction l as [|s l IH]; intros ss ts H; cbn [fill_list]; auto. destruct (fill_src_alike ss ts s H) as [H1 H2].
  destruct (fill_src ss s), (fill_src ts s). cbn [fst snd] in *. cbn [the_views]. rewrite H1, (IH _ _ H2). reflexivity.
Qed.
Lemma fill_alike : forall o ss ts, Forall2 alike ss ts -> exec cf vars w (fill ss o) = exec cf vars w (fill ts o).
Proof.
  intros o ss ts H. destruct o; cbn [fill exec]; auto;
    try (destruct (fill_src_alike ss ts s H) as [H1 _]; rewrite H1; reflexivity);
    try (destruct (fill_src_alike ss ts d H) as [H1 H2]; destruct (fill_src ss d), (fill_src ts d); cbn [fst snd] in *;
         destruct (fill_src_alike _ _ s H2) as [H3 _]; cbn [exec]; rewrite H1, H3; reflexivity).
  now rewrite (fill_list_alike _ _ _ H).
Qed.
End Views.

(** ** Calls change one buffer *)
Lemma astep_other : forall cf a o i, i <> target o -> slot_of (snd (astep cf a o)) i = slot_of a i.
Proof.
  intros cf a o i H. destruct o; cbn [astep target snd] in *; try (now apply nth_upd_neq);
    destruct (slot_of a j); cbn [snd]; auto; now apply nth_upd_neq.
Qed.
Lemma astep_view : forall cf a j, snd (astep cf a (OView j)) = a.
Proof. intros cf a j. cbn [astep target buf_step snd]. destruct (slot_of a j) eqn:E; auto. cbn [snd]. rewrite <- E. apply upd_nth_same. Qed.

(** ** Names *)
Section Names.
Variables (cf : cfg) (T : library) (ds : list ptr) (dls : list (list Z)) (R : texts).
Hypotheses (W : wf_cfg cf) (Hc : covers ds T R dls).

Lemma piece_at : forall l i n, 0 <= i -> 0 <= n -> i + n <= Zlen l -> exists x z, l = x ++ piece i n l ++ z /\ Zlen x = i /\ Zlen (piece i n l) = n.
Proof.
  intros l i n Hi Hn Hl. destruct (at_cut l i n Hi Hn Hl) as (x & y & z & E & <- & <- & Ey). unfold piece. rewrite Ey. eauto.
Qed.
Lemma name_denotes : forall a vars w v x, means cf R a vars w -> is_view cf T a vars v x -> x <> NStale ->
  denotes (s_mem w) v (named_text T a x).
Proof.
  intros a vars w v [|k i n|j i n|] M H Hs; cbn [is_view named_text denotes] in *; [exact H| | |congruence].
  - destruct H as (s & l & E & Hi & Hn & Hl & ->). rewrite (nth_error_nth _ _ _ E). cbn [snd].
    destruct Hc as [Ht _]. apply (mn_text _ _ _ _ _ M _ _ (Ht k s l i n E Hi Hn Hl)).
  - destruct H as (B & E & Hi & Hn & Hl & ->). rewrite E. cbn [data_of].
    pose proof (slot_in a j _ E ltac:(congruence)) as Lj. pose proof (mn_slot _ _ _ _ _ M j Lj) as HB. rewrite E in HB. cbn [slot_rel] in HB.
    destruct (piece_at _ i n Hi Hn Hl) as (x & z & Ed & Ei & En). pose proof (buf_at_view cf _ _ _ W HB) as HV.
    rewrite Ed in HV. apply has_view_sub in HV. now rewrite Ei, En in HV.
Qed.
Definition place_name (x : name) (c : option (Z * Z)) : name :=
  match c, x with
  | None, _ => NNone
  | Some (i', n'), NText k i _ => NText k (i + i') n'
  | Some (i', n'), NBuf j i _ => NBuf j (i + i') n'
  | _, x => x
  end.
Lemma named_len : forall a vars v x i n, is_view cf T a vars v x -> (match x with NText _ i' n' | NBuf _ i' n' => i' = i /\ n' = n | _ => False end) ->
  Zlen (contents (named_text T a x)) = n.
Proof.
  intros a vars v [|k i' n'|j i' n'|] i n H E; cbn [is_view] in H; try contradiction; destruct E as [-> ->]; cbn [named_text contents].
  - destruct H as (s & l & E & Hi & Hn & Hl & ->). rewrite (nth_error_nth _ _ _ E). cbn [snd].
    destruct (piece_at _ i n Hi Hn Hl) as (? & ? & _ & _ & En). exact En.
  - destruct H as (B & E & Hi & Hn & Hl & ->). rewrite E. cbn [data_of].
    destruct (piece_at _ i n Hi Hn Hl) as (? & ? & _ & _ & En). exact En.
Qed.
Lemma name_place : forall a vars v x c, is_view cf T a vars v x -> x <> NStale -> fits_in (named_text T a x) c ->
  is_view cf T a vars (place v c) (place_name x c).
Proof.
  intros a vars v x [[i' n']|] H Hs F; [|reflexivity]. cbn [fits_in place] in *. destruct F as (Fi & Fn & F).
  destruct x as [|k i n|j i n|]; cbn [place_name is_view]; [| | |congruence].
  - cbn in H. subst v. cbn in F. assert (i' = 0) as -> by lia. assert (n' = 0) as -> by lia. reflexivity.
  - rewrite (named_len _ _ _ _ i n H (conj eq_refl eq_refl)) in F. destruct H as (s & l & E & Hi & Hn & Hl & ->). exists s, l. rewrite subview_subview.
    split; [exact E|]. split; [lia|]. split; [lia|]. split; [lia|reflexivity].
  - rewrite (named_len _ _ _ _ i n H (conj eq_refl eq_refl)) in F. destruct H as (B & E & Hi & Hn & Hl & ->). exists B. rewrite subview_subview.
    split; [exact E|]. split; [lia|]. split; [lia|]. split; [lia|reflexivity].
Qed.
Lemma rename_place : forall a vars w v x c, means cf R a vars w -> is_view cf T a vars v x -> x <> NStale -> fits_in (named_text T a x) c ->
  rename v x (place v c) = place_name x c.
Proof.
  intros a vars w v x c M H Hs F. pose proof (name_place a vars v x c H Hs F) as HP.
  assert (place_name x c <> NStale) as HP2 by (destruct c as [[]|], x; cbn; congruence).
  pose proof (name_denotes a vars w _ _ M HP HP2) as D. unfold rename. destruct c as [[i' n']|]; [|reflexivity].
  destruct x as [|k i n|j i n|]; cbn [place_name named_text denotes] in D |- *; [| | |congruence].
  - rewrite D. reflexivity.
  - rewrite (has_view_valid _ _ _ D). cbn [place subview v_data v_size shift p_ofs]. f_equal. lia.
  - rewrite (has_view_valid _ _ _ D). cbn [place subview v_data v_size shift p_ofs]. f_equal. lia.
Qed.

Lemma names_get : forall a vars views ns k, Forall2 (is_view cf T a vars) views ns -> is_view cf T a vars (vget views k) (nget ns k).
Proof. intros a vars views ns k H. unfold vget, nget. revert k. induction H; intros [|k]; cbn; auto. Qed.
Lemma names_set : forall a vars views ns k v x, Forall2 (is_view cf T a vars) views ns -> is_view cf T a vars v x ->
  Forall2 (is_view cf T a vars) (vset views k v) (nset ns k x).
Proof. intros a vars views ns [k|] v x H Hv; cbn [vset nset]; auto. now apply upd_Forall2. Qed.

Lemma strings_kept : forall a vars w, means cf R a vars w -> Forall2 (c_string (s_mem w)) ds dls.
Proof.
  intros a vars w M. pose proof (proj2 Hc) as H. clear Hc. induction H as [|d l ds dls [H1 H2] H IH]; constructor; auto.
  destruct (mn_text _ _ _ _ _ M _ _ H2) as ((V1 & V2 & V3 & V4) & _).
  cbn [v_data] in V1. rewrite Zlen_app in V3. pose proof (Zlen_nonneg l). split; [exact V1|]. split; [apply Forall_app in V4; apply V4|]. split; [exact H1|]. change (Zlen [0]) with 1 in V3. lia.
Qed.

(** ** A call on buffers *)
Lemma arg_alike : forall a vars views ns w k, means cf R a vars w -> Forall2 (is_view cf T a vars) views ns -> nget ns k <> NStale ->
  alike cf vars w (SText (vget views k) []) (arg_named T views (Ghost a ns) k).
Proof.
  intros a vars views ns w k M HV Hs. pose proof (names_get _ _ _ _ k HV) as H. unfold alike, arg_named. cbn [g_names g_slots the_view].
  destruct (nget ns k) as [|t i n|j i n|]; cbn [is_view the_view] in *; [now rewrite H|reflexivity| |congruence].
  destruct H as (B & E & Hi & Hn & Hl & ->). pose proof (slot_in a j _ E ltac:(congruence)) as Lj. pose proof (mn_slot _ _ _ _ _ M j Lj) as HB. rewrite E in HB. cbn [slot_rel] in HB.
  destruct (piece_at _ i n Hi Hn Hl) as (x & z & Ed & Ei & En). pose proof (view_at_ok cf w (var vars j) B x _ z W HB Ed) as K. rewrite Ei, En in K. now rewrite K.
Qed.
Lemma read_none : forall m, read_view m INVALID = Ok None.
Proof. reflexivity. Qed.

Lemma mbuf_ok : forall s g o ks to, c_ptr cf = true -> stands cf T R s g -> mlegal cf ds T R s g (MBuf o ks to) ->
  let x := Read (fst (astep cf (g_slots g) (fill (map (arg_named T (ms_views s) g) ks) o))) in
  exists s', mexec cf ds s (MBuf o ks to) = Ok (x, s') /\ stands cf T R s' (gstep cf ds T s g (MBuf o ks to) x).
Proof.
  intros [vars views e w] [a ns] o ks to Hp (M & HV & He) [Hk Hl]. cbn [ms_vars ms_views ms_eol ms_st g_slots g_names] in *.
  set (o' := fill (map (arg_named T views (Ghost a ns)) ks) o) in *. cbv zeta. cbn [mexec].
  assert (exec cf vars w (fill (map (fun k => SText (vget views k) []) ks) o) = exec cf vars w o') as ->.
  { apply fill_alike. clear Hl o'. induction Hk as [|k ks Hk1 Hk IH]; cbn [map]; constructor; auto. now apply arg_alike. }
  destruct (step_full cf R a vars w o' W Hp M Hl) as (v & vars' & w' & E & Rd & Rt & M' & Hv & _).
  assert (target o' = target o) as Et by apply fill_target. rewrite Et in *.
  rewrite E. cbn [bind]. rewrite Rd. cbn [bind]. eexists. split; [reflexivity|]. cbn [gstep g_names ms_views g_slots]. change (fill (map (arg_named T views (Ghost a ns)) ks) o) with o'.
  split; [exact M'|]. split; [|exact He]. cbn [ms_vars ms_views g_slots g_names]. apply names_set.
  - destruct (changes o) eqn:Ch.
    + clearbody o'. clear -HV Hv Et. induction HV as [|v0 x views ns Hx HV IH]; cbn [map]; constructor; auto.
      destruct x as [|k i n|j i n|]; cbn [spoil]; auto. destruct (j =? target o)%nat eqn:Ej; [exact I|]. apply Nat.eqb_neq in Ej.
      destruct Hx as (B & H1 & H2 & H3 & H4 & H5). exists B. rewrite astep_other by congruence. rewrite Hv by exact Ej. auto.
    + assert (o = OView (target o)) as Eo by (destruct o; try discriminate; reflexivity). assert (o' = OView (target o)) as Eo' by (unfold o'; rewrite Eo; reflexivity).
      rewrite Eo'. rewrite astep_view. assert (vars' = vars) as ->; [|exact HV]. rewrite Eo' in E. cbn [exec] in E.
      destruct (strbuf_view cf w (Some (var vars (target o)))); cbn [bind] in E; congruence.
  - destruct Rt as [->|(B' & Eb & ->)].
    + rewrite read_none in Rd. injection Rd as <-. reflexivity.
    + pose proof (slot_in _ _ _ Eb ltac:(congruence)) as Lj. pose proof (mn_slot _ _ _ _ _ M' _ Lj) as HB. rewrite Eb in HB. cbn [slot_rel] in HB.
      rewrite (read_ok _ _ _ (buf_at_view cf _ _ _ W HB)) in Rd. injection Rd as <-. cbn [is_view]. exists B'.
      split; [exact Eb|]. split; [lia|]. split; [apply Zlen_nonneg|]. split; [lia|]. symmetry. now apply subview_0.
Qed.

Lemma mtext_ok : forall s g k, stands cf T R s g -> mlegal cf ds T R s g (MText k) ->
  mexec cf ds s (MText k) = Ok (Read (named_text T (g_slots g) (nget (g_names g) k)), s).
Proof.
  intros [vars views e w] [a ns] k (M & HV & He) Hl. cbn [ms_vars ms_views ms_eol ms_st g_slots g_names mexec mlegal] in *.
  pose proof (name_denotes _ _ _ _ _ M (names_get _ _ _ _ k HV) Hl) as D.
  destruct (named_text T a (nget ns k)) as [l|]; cbn [denotes] in D; [now rewrite (read_ok _ _ _ D)|now rewrite D].
Qed.
End Names.

(** ** A function on views, in two runs *)
Lemma texts_nth : forall (T1 T2 : library) k, Forall2 (fun t u => snd t = snd u) T1 T2 -> snd (nth k T1 (INVALID, [])) = snd (nth k T2 (INVALID, [])).
Proof. intros T1 T2 k H. revert k. induction H; intros [|k]; cbn; auto. Qed.
Lemma named_same : forall T1 T2 a1 a2 x, Forall2 (fun t u => snd t = snd u) T1 T2 -> Forall2 same_slot a1 a2 -> named_text T1 a1 x = named_text T2 a2 x.
Proof.
  intros T1 T2 a1 a2 [|k i n|j i n|] HT Ha; cbn [named_text]; auto; [now rewrite (texts_nth T1 T2 k HT)|now rewrite (same_data _ _ (sames_slot a1 a2 j Ha))].
Qed.

Section Pair.
Variables (cf1 cf2 : cfg) (T1 T2 : library) (ds1 ds2 : list ptr) (dls : list (list Z)) (R1 R2 : texts).
Hypotheses (U1 : usual cf1) (U2 : usual cf2) (W1 : wf_cfg cf1) (W2 : wf_cfg cf2) (C1 : covers ds1 T1 R1 dls) (C2 : covers ds2 T2 R2 dls)
  (HT : Forall2 (fun t u => snd t = snd u) T1 T2).

Lemma together_at : forall a1 a2 vars1 vars2 m1 m2 v1 v2 u1 u2 x y, is_view cf1 T1 a1 vars1 v1 x -> is_view cf2 T2 a2 vars2 v2 x ->
  is_view cf1 T1 a1 vars1 u1 y -> is_view cf2 T2 a2 vars2 u2 y -> together x y ->
  v1 = INVALID /\ v2 = INVALID \/ u1 = INVALID /\ u2 = INVALID \/
  p_obj (v_data v1) = p_obj (v_data u1) /\
  exists d, pdiff cf1 m1 (v_data u1) (v_data v1) = Ok d /\ pdiff cf2 m2 (v_data u2) (v_data v2) = Ok d.
Proof.
  intros a1 a2 vars1 vars2 m1 m2 v1 v2 u1 u2 x y V1 V2 Y1 Y2 H. destruct x as [|k i n|j i n|], y as [|k' i' n'|j' i' n'|]; cbn in H; try contradiction; subst; auto;
    cbn [is_view] in *; right; right.
  - destruct V1 as (s & l & E & _ & _ & _ & ->), V2 as (s2 & l2 & E2 & _ & _ & _ & ->), Y1 as (s' & l' & E' & _ & _ & _ & ->), Y2 as (s2' & l2' & E2' & _ & _ & _ & ->).
    rewrite E in E'. injection E' as <- <-. rewrite E2 in E2'. injection E2' as <- <-. split; [reflexivity|].
    exists (i' - i). unfold pdiff, subview, shift. cbn [v_data p_obj p_ofs]. rewrite !pobj_eqb_refl. split; f_equal; lia.
  - destruct V1 as (s & E & _ & _ & _ & ->), V2 as (s2 & E2 & _ & _ & _ & ->), Y1 as (s' & E' & _ & _ & _ & ->), Y2 as (s2' & E2' & _ & _ & _ & ->).
    split; [reflexivity|].
    exists (i' - i). unfold pdiff, subview, buf_view, shift. cbn [v_data p_obj p_ofs]. rewrite !pobj_eqb_refl. split; f_equal; lia.
Qed.

Lemma mview_ok : forall s1 s2 g1 g2 o, stands cf1 T1 R1 s1 g1 -> stands cf2 T2 R2 s2 g2 -> g_names g1 = g_names g2 ->
  Forall2 same_slot (g_slots g1) (g_slots g2) -> ms_eol s1 = ms_eol s2 -> mlegal cf1 ds1 T1 R1 s1 g1 (MView o) -> same_range cf1 cf2 o ->
  exists x s1' s2', mexec cf1 ds1 s1 (MView o) = Ok (x, s1') /\ mexec cf2 ds2 s2 (MView o) = Ok (x, s2') /\
    stands cf1 T1 R1 s1' (gstep cf1 ds1 T1 s1 g1 (MView o) x) /\ stands cf2 T2 R2 s2' (gstep cf2 ds2 T2 s2 g2 (MView o) x) /\
    g_names (gstep cf1 ds1 T1 s1 g1 (MView o) x) = g_names (gstep cf2 ds2 T2 s2 g2 (MView o) x) /\
    Forall2 same_slot (g_slots (gstep cf1 ds1 T1 s1 g1 (MView o) x)) (g_slots (gstep cf2 ds2 T2 s2 g2 (MView o) x)) /\ ms_eol s1' = ms_eol s2'.
Proof.
  intros [vars1 views1 e w1] [vars2 views2 e2 w2] [a1 ns] [a2 ns2] o (M1 & V1 & He) (M2 & V2 & _) En Ha Ee (Hs & Ht & Hf) Hr.
  cbn [ms_vars ms_views ms_eol ms_st g_slots g_names] in *. subst ns2 e2.
  pose proof (names_get cf1 T1 a1 vars1 views1 ns (vo_src o) V1) as P1. pose proof (names_get cf2 T2 a2 vars2 views2 ns (vo_src o) V2) as P2.
  pose proof (names_get cf1 T1 a1 vars1 views1 ns (vo_arg o) V1) as Q1. pose proof (names_get cf2 T2 a2 vars2 views2 ns (vo_arg o) V2) as Q2.
  set (x := nget ns (vo_src o)) in *. set (y := nget ns (vo_arg o)) in *.
  pose proof (name_denotes cf1 T1 ds1 dls R1 W1 C1 _ _ _ _ _ M1 P1 Hs) as D1. pose proof (name_denotes cf2 T2 ds2 dls R2 W2 C2 _ _ _ _ _ M2 P2 Hs) as D2.
  pose proof (name_denotes cf1 T1 ds1 dls R1 W1 C1 _ _ _ _ _ M1 Q1 Ht) as A1. pose proof (name_denotes cf2 T2 ds2 dls R2 W2 C2 _ _ _ _ _ M2 Q2 Ht) as A2.
  rewrite <- (named_same T1 T2 a1 a2 x HT Ha) in D2. rewrite <- (named_same T1 T2 a1 a2 y HT Ha) in A2.
  assert (agree (vget views1 (vo_src o)) (vget views2 (vo_src o)) (named_text T1 a1 x)
    (vcall cf1 (s_mem w1) ds1 (vo_f o) (vget views1 (vo_src o)) (vget views1 (vo_arg o)) e)
    (vcall cf2 (s_mem w2) ds2 (vo_f o) (vget views2 (vo_src o)) (vget views2 (vo_arg o)) e)) as (z & cr & cs & e1 & E1 & E2 & F1 & F2 & He1).
  { pose proof (together_at a1 a2 vars1 vars2 (s_mem w1) (s_mem w2) _ _ _ _ x y P1 P2 Q1 Q2) as Tg.
    apply (vcall_agree cf1 cf2 (s_mem w1) (s_mem w2) U1 U2 (mn_wf _ _ _ _ _ M1) (mn_wf _ _ _ _ _ M2) _ _ _ _ (named_text T1 a1 x) (named_text T1 a1 y) e D1 D2 A1 A2 He ds1 ds2 dls
      (vo_f o) (strings_kept cf1 T1 ds1 dls R1 C1 a1 vars1 w1 M1) (strings_kept cf2 T2 ds2 dls R2 C2 a2 vars2 w2 M2)); unfold same_range in Hr; destruct (vo_f o); cbn [vlegal] in *; auto.
    - destruct (Tg Hf) as [[? _]|[[? _]|[? _]]]; auto.
    - destruct (Tg Hf) as [?|[?|[_ ?]]]; auto. }
  cbn [mexec gstep ms_views ms_st ms_eol g_names g_slots]. unfold vexec. fold x. rewrite E1, E2. cbn [bind].
  eexists _, _, _. split; [reflexivity|]. split; [reflexivity|].
  assert (fits_in (named_text T2 a2 x) cr /\ fits_in (named_text T2 a2 x) cs) as [G1 G2] by (rewrite <- (named_same T1 T2 a1 a2 x HT Ha); auto).
  rewrite !(rename_place cf1 T1 ds1 dls R1 W1 C1 _ _ _ _ _ _ M1 P1 Hs) by assumption. rewrite !(rename_place cf2 T2 ds2 dls R2 W2 C2 _ _ _ _ _ _ M2 P2 Hs) by assumption.
  cbn [g_names g_slots ms_eol]. split; [|split; [|auto]].
  - split; [exact M1|]. split; [|exact He1]. cbn [ms_vars ms_views g_slots g_names]. apply names_set; [apply upd_Forall2; [exact V1|]|]; now apply name_place.
  - split; [exact M2|]. split; [|exact He1]. cbn [ms_vars ms_views g_slots g_names]. apply names_set; [apply upd_Forall2; [exact V2|]|]; now apply name_place.
Qed.

(** ** Programs *)
Lemma bare_args : forall views1 views2 a1 a2 ns ks, Forall2 same_slot a1 a2 ->
  map bare_src (map (arg_named T1 views1 (Ghost a1 ns)) ks) = map bare_src (map (arg_named T2 views2 (Ghost a2 ns)) ks).
Proof.
  intros views1 views2 a1 a2 ns ks Ha. rewrite !map_map. apply map_ext. intros k. unfold arg_named. cbn [g_names g_slots].
  destruct (nget ns k) as [|t i n|j i n|]; auto. rewrite (named_same T1 T2 a1 a2 _ HT Ha). reflexivity.
Qed.
Lemma bare_resizes : forall o1 o2, bare o1 = bare o2 -> resizes o1 = resizes o2.
Proof. intros [] [] H; try reflexivity; discriminate. Qed.
Lemma bare_offers : forall o1 o2, bare o1 = bare o2 -> offers o1 = offers o2.
Proof. intros [] [] H; try reflexivity; discriminate. Qed.
Lemma bare_target : forall o1 o2, bare o1 = bare o2 -> target o1 = target o2.
Proof. intros [] [] H; try discriminate; cbn [bare target] in *; congruence. Qed.
Lemma bare_changes : forall o1 o2, bare o1 = bare o2 -> changes o1 = changes o2.
Proof. intros [] [] H; try reflexivity; discriminate. Qed.
Lemma resize_seen : forall a b o, Forall2 same_slot a b -> resizes o = true -> fst (astep cf1 a o) = fst (astep cf2 b o).
Proof.
  intros a b o H Hr. pose proof (sames_slot a b (target o) H) as S.
  destruct o; try discriminate; cbn [target] in S; cbn [astep target]; destruct (slot_of a j) as [|B1|l1 al1], (slot_of b j) as [|B2|l2 al2]; try contradiction S; auto;
    destruct S as (S1 & S2 & S3); cbn [fst refused buf_step]; rewrite <- S2, <- ?S1; destruct (dyn B1); cbn [negb]; auto; congruence.
Qed.
Lemma steps_same : forall a1 a2 o1 o2, Forall2 same_slot a1 a2 -> bare o1 = bare o2 -> offers o1 = false -> legal cf1 R1 a1 o1 -> legal cf2 R2 a2 o2 ->
  fst (astep cf1 a1 o1) = fst (astep cf2 a2 o2) /\ Forall2 same_slot (snd (astep cf1 a1 o1)) (snd (astep cf2 a2 o2)).
Proof.
  intros a1 a2 o1 o2 Ha Eb Ho L1 L2. destruct (resizes o1) eqn:Hr.
  - assert (o2 = o1) as -> by (destruct o1; try discriminate Hr; destruct o2; try discriminate Eb; cbn [bare] in Eb; congruence).
    split; [now apply resize_seen|]. eapply sames_trans; [now apply resize_same|]. eapply sames_trans; [exact Ha|]. apply sames_sym. now apply resize_same.
  - destruct (step_same cf1 cf2 a1 a2 o1 Ha Hr Ho (legal_dyn _ _ _ _ L1)) as [X1 X2].
    rewrite (bare_resizes _ _ Eb) in Hr. rewrite (bare_offers _ _ Eb) in Ho.
    destruct (step_same cf2 cf2 a2 a2 o2 (sames_refl a2) Hr Ho (legal_dyn _ _ _ _ L2)) as [Y1 Y2]. rewrite Eb in X1, X2.
    split; [congruence|]. eapply sames_trans; [exact X2|]. now apply sames_sym.
Qed.

Lemma mstep_pair : forall s1 s2 g1 g2 o1 o2, stands cf1 T1 R1 s1 g1 -> stands cf2 T2 R2 s2 g2 -> g_names g1 = g_names g2 ->
  Forall2 same_slot (g_slots g1) (g_slots g2) -> ms_eol s1 = ms_eol s2 -> mlegal cf1 ds1 T1 R1 s1 g1 o1 -> mlegal cf2 ds2 T2 R2 s2 g2 o2 -> same_mop cf1 cf2 o1 o2 ->
  exists x s1' s2', mexec cf1 ds1 s1 o1 = Ok (x, s1') /\ mexec cf2 ds2 s2 o2 = Ok (x, s2') /\
    stands cf1 T1 R1 s1' (gstep cf1 ds1 T1 s1 g1 o1 x) /\ stands cf2 T2 R2 s2' (gstep cf2 ds2 T2 s2 g2 o2 x) /\
    g_names (gstep cf1 ds1 T1 s1 g1 o1 x) = g_names (gstep cf2 ds2 T2 s2 g2 o2 x) /\
    Forall2 same_slot (g_slots (gstep cf1 ds1 T1 s1 g1 o1 x)) (g_slots (gstep cf2 ds2 T2 s2 g2 o2 x)) /\ ms_eol s1' = ms_eol s2'.
Proof.
  intros s1 s2 g1 g2 o1 o2 S1 S2 En Ha Ee L1 L2 Hs. destruct o1 as [o1|o1 ks to|k], o2 as [o2|o2 ks2 to2|k2]; cbn [same_mop] in Hs; try contradiction.
  - destruct Hs as [<- Hr]. now apply mview_ok.
  - destruct Hs as (Eb & <- & <- & Ho).
    destruct (mbuf_ok cf1 T1 ds1 R1 W1 s1 g1 o1 ks to (proj1 U1) S1 L1) as (s1' & E1 & X1).
    destruct (mbuf_ok cf2 T2 ds2 R2 W2 s2 g2 o2 ks to (proj1 U2) S2 L2) as (s2' & E2 & X2).
    destruct s1 as [vars1 views1 e w1], s2 as [vars2 views2 e2 w2], g1 as [a1 ns], g2 as [a2 ns2]. cbn [ms_vars ms_views ms_eol ms_st g_slots g_names] in *. subst e2 ns2.
    destruct L1 as [_ L1]. destruct L2 as [_ L2]. cbn [ms_views g_slots] in *.
    destruct (steps_same a1 a2 (fill (map (arg_named T1 views1 (Ghost a1 ns)) ks) o1) (fill (map (arg_named T2 views2 (Ghost a2 ns)) ks) o2)) as [Y1 Y2]; auto.
    { rewrite !fill_bare, Eb. f_equal. now apply bare_args. } { now rewrite fill_offers. }
    rewrite <- Y1 in E2, X2. eexists _, s1', s2'. split; [exact E1|]. split; [exact E2|]. split; [exact X1|]. split; [exact X2|].
    cbn [gstep g_names g_slots ms_views]. split; [rewrite (bare_changes _ _ Eb), (bare_target _ _ Eb); reflexivity|]. split; [exact Y2|].
    cbn [mexec] in E1, E2.
    destruct (exec cf1 vars1 w1 _) as [[[v1 p1] q1]|?|]; cbn [bind] in E1; try discriminate. destruct (read_view (s_mem q1) v1); cbn [bind] in E1; try discriminate. injection E1 as _ <-.
    destruct (exec cf2 vars2 w2 _) as [[[v2 p2] q2]|?|]; cbn [bind] in E2; try discriminate. destruct (read_view (s_mem q2) v2); cbn [bind] in E2; try discriminate. injection E2 as _ <-. reflexivity.
  - subst k2. pose proof (mtext_ok cf1 T1 ds1 dls R1 W1 C1 s1 g1 k S1 L1) as E1. pose proof (mtext_ok cf2 T2 ds2 dls R2 W2 C2 s2 g2 k S2 L2) as E2.
    rewrite <- En in E2. rewrite <- (named_same T1 T2 _ _ _ HT Ha) in E2. eexists _, s1, s2. split; [exact E1|]. split; [exact E2|]. cbn [gstep]. auto 10.
Qed.

Theorem mixed_same : forall p1 p2 s1 s2 g1 g2, stands cf1 T1 R1 s1 g1 -> stands cf2 T2 R2 s2 g2 -> g_names g1 = g_names g2 ->
  Forall2 same_slot (g_slots g1) (g_slots g2) -> ms_eol s1 = ms_eol s2 -> Forall2 (same_mop cf1 cf2) p1 p2 ->
  all_mlegal cf1 ds1 T1 R1 s1 g1 p1 -> all_mlegal cf2 ds2 T2 R2 s2 g2 p2 ->
  exists xs s1' s2', mrun cf1 ds1 s1 p1 = Ok (xs, s1') /\ mrun cf2 ds2 s2 p2 = Ok (xs, s2') /\
    let g1' := gafter cf1 ds1 T1 s1 g1 p1 in let g2' := gafter cf2 ds2 T2 s2 g2 p2 in
    stands cf1 T1 R1 s1' g1' /\ stands cf2 T2 R2 s2' g2' /\ g_names g1' = g_names g2' /\ Forall2 same_slot (g_slots g1') (g_slots g2').
Proof.
  intros p1 p2 s1 s2 g1 g2 S1 S2 En Ha Ee Hp. revert s1 s2 g1 g2 S1 S2 En Ha Ee. induction Hp as [|o1 o2 p1 p2 Ho Hp IH]; intros s1 s2 g1 g2 S1 S2 En Ha Ee L1 L2.
  - exists [], s1, s2. cbn. auto 10.
  - cbn [all_mlegal mrun gafter] in *. destruct L1 as [L1 N1], L2 as [L2 N2].
    destruct (mstep_pair s1 s2 g1 g2 o1 o2 S1 S2 En Ha Ee L1 L2 Ho) as (x & s1' & s2' & E1 & E2 & X1 & X2 & X3 & X4 & X5).
    rewrite E1 in N1 |- *. rewrite E2 in N2 |- *. cbn [bind]. destruct (IH s1' s2' _ _ X1 X2 X3 X4 X5 N1 N2) as (xs & t1 & t2 & F1 & F2 & F). rewrite F1, F2. cbn [bind].
    exists (x :: xs), t1, t2. auto.
Qed.
End Pair.

Theorem mixed_safe : forall cf T ds dls R prog s g, usual cf -> wf_cfg cf -> covers ds T R dls -> stands cf T R s g -> all_mlegal cf ds T R s g prog ->
  exists xs s', mrun cf ds s prog = Ok (xs, s') /\ stands cf T R s' (gafter cf ds T s g prog).
Proof.
  intros cf T ds dls R prog. induction prog as [|o t IH]; intros s g U W C S L.
  - exists [], s. auto.
  - cbn [all_mlegal mrun gafter] in *. destruct L as [L N].
    assert (exists x s', mexec cf ds s o = Ok (x, s') /\ stands cf T R s' (gstep cf ds T s g o x)) as (x & s' & E & X).
    { destruct o as [o|o ks to|k].
      - destruct (mview_ok cf cf T T ds ds dls R R U U W W C C ltac:(clear; induction T; constructor; auto) s s g g o) as (x & s1 & s2 & E1 & _ & X & _); auto using sames_refl.
        { unfold same_range. destruct (vo_f o); auto. } eauto.
      - destruct (mbuf_ok cf T ds R W s g o ks to (proj1 U) S L) as (s' & E & X). eauto.
      - rewrite (mtext_ok cf T ds dls R W C s g k S L). eauto. }
    rewrite E in N |- *. cbn [bind]. destruct (IH s' _ U W C X N) as (xs & s2 & F & Y). rewrite F. cbn [bind]. eauto.
Qed.
