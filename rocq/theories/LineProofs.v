(** Proofs about receiving lines through a buffer. *)
From Verif Require Import Base Mem Libc StrviewModel Spec MemLemmas StrviewProofs StrviewProofs2 StrviewProofs3 Alloc StrbufModel BufSpec BufSpec2
  StrbufProofs StrbufProofs2 StrbufProofs3 StrbufProofs4 StrbufProofs5 StrbufProofs7 PackProofs IoModel IoSpec IoProofs DocsProofs LineModel LineSpec.

Lemma is_eol_false : forall c, is_eol c = false <-> c <> 13 /\ c <> 10.
Proof. intro c. unfold is_eol. rewrite orb_false_iff, !Z.eqb_neq. tauto. Qed.

Lemma until_eol_free : forall l, until_eol l = None -> Forall (fun c => c <> 13 /\ c <> 10) l.
Proof.
  induction l as [|x l IH]; intro H; [constructor|]. cbn in H. destruct (is_eol x) eqn:E; [discriminate|].
  destruct (until_eol l) as [[[a e] b]|]; [discriminate|]. constructor; [now apply is_eol_false|auto].
Qed.

Lemma until_eol_snoc : forall l c, until_eol l = None -> until_eol (l ++ [c]) = if is_eol c then Some (l, c, []) else None.
Proof.
  induction l as [|x l IH]; intros c H; cbn in *.
  - destruct (is_eol c); reflexivity.
  - destruct (is_eol x); [discriminate|]. destruct (until_eol l) as [[[a e] b]|]; [discriminate|].
    rewrite IH by auto. destruct (is_eol c); reflexivity.
Qed.

Lemma drop_half_app : forall e x t r, drop_half e ((x :: t) ++ r) = drop_half e (x :: t) ++ r.
Proof. intros. cbn. destruct (_ && _); reflexivity. Qed.

Lemma drop_half_suffix : forall e l, exists x, l = x ++ drop_half e l /\ Zlen x <= 1.
Proof.
  intros e [|x t]; [now exists []|]. cbn [drop_half]. destruct (_ && _); [exists [x]|exists []]; split; auto; unfold Zlen; cbn; lia.
Qed.

Lemma no_line_short : forall n e l a b, short_lines n (a ++ l ++ b) -> no_line e l -> Zlen l <= n + 1.
Proof.
  intros n e l a b S N. destruct (drop_half_suffix e l) as (x & E & L).
  pose proof (S (a ++ x) (drop_half e l) b) as K. rewrite E, Zlen_app.
  assert (Zlen (drop_half e l) <= n); [|lia]. apply K; [|now apply until_eol_free]. rewrite E at 1. now rewrite <- !app_assoc.
Qed.

Lemma short_suffix : forall n a b, short_lines n (a ++ b) -> short_lines n b.
Proof. intros n a b S x y z E F. apply (S (a ++ x) y z); auto. now rewrite E, <- !app_assoc. Qed.

Lemma next_line_suffix : forall p l a e b, next_line p l = Some (a, e, b) -> exists x, l = x ++ b.
Proof.
  intros p l a e b H. unfold next_line in H. destruct (drop_half_suffix p l) as (x & E & _).
  destruct (until_eol (drop_half p l)) as [[[a0 e0] b0]|] eqn:U; [|discriminate].
  apply until_eol_spec in U as (El & _ & _). rewrite El in E.
  destruct b0 as [|y t].
  - injection H as <- <- <-. exists l. now rewrite app_nil_r.
  - destruct (y =? other_eol e0); injection H as <- <- <-.
    + exists (x ++ a0 ++ [e0; y]). rewrite E, <- !app_assoc. reflexivity.
    + exists (x ++ a0 ++ [e0]). rewrite E, <- !app_assoc. reflexivity.
Qed.

(** The remaining view lies within the source. *)
Lemma pop_all_inside : forall cf m fuel s l e vs s' e',
  has_view m s l -> pend_ok e -> pop_all cf fuel m s e = Ok (vs, s', e') ->
  exists j l' x, s' = subview s j (Zlen l') /\ 0 <= j /\ j + Zlen l' <= Zlen l /\ has_view m s' l' /\ l = x ++ l'.
Proof.
  intros cf m; induction fuel as [|fuel IH]; intros s l e vs s' e' H Hp E; [discriminate|].
  cbn [pop_all] in E. destruct l as [|x t].
  - unfold strview_split_line in E. rewrite (has_view_size _ _ _ H) in E. cbn in E. injection E as <- <- <-.
    exists 0, [], []. rewrite subview_0 by (now rewrite (has_view_size _ _ _ H)). repeat split; auto; try lia; apply H.
  - assert (x :: t <> []) as Hn by discriminate.
    pose proof (split_line_ok cf m s (x :: t) (Some e) e H Hn eq_refl Hp) as Sp.
    destruct (next_line e (x :: t)) as [[[a e1] b]|] eqn:N.
    + destruct Sp as (r & s1 & E1 & Hr & Hs1 & i & j & Er & Es & B1 & B2 & B3). rewrite E1 in E. cbn [bind] in E. rewrite (has_view_valid _ _ _ Hr) in E.
      pose proof (next_line_some _ _ _ _ _ N) as (e0 & b0 & U & D & Pe & L & Dc).
      destruct (pop_all cf fuel m s1 e1) as [[[rs s2] e2]| |] eqn:P; cbn [bind] in E; try discriminate. injection E as <- <- <-.
      destruct (IH s1 b e1 _ _ _ Hs1 Pe P) as (j' & l' & x' & E2 & J1 & J2 & V & S).
      destruct (next_line_suffix _ _ _ _ _ N) as (x2 & S2).
      exists (j + j'), l', (x2 ++ x'). split; [now rewrite E2, Es, subview_subview|]. pose proof (Zlen_nonneg a).
      split; [lia|]. split; [lia|]. split; [exact V|]. now rewrite S2, S, <- app_assoc.
    + destruct Sp as (s1 & E1 & _). rewrite E1 in E. cbn [bind] in E. cbn in E. injection E as <- <- <-.
      exists 0, (x :: t), []. rewrite subview_0 by (now rewrite (has_view_size _ _ _ H)). repeat split; auto; try lia; apply H.
Qed.

(** A part of a view, by position. *)
Lemma part_at : forall m s l j l', has_view m s l -> 0 <= j -> j + Zlen l' <= Zlen l -> has_view m (subview s j (Zlen l')) l' ->
  exists x z, l = x ++ l' ++ z /\ Zlen x = j.
Proof.
  intros m s l j l' H J1 J2 V. pose proof (Zlen_nonneg l') as Z1.
  set (x := firstn (Z.to_nat j) l). set (y := firstn (length l') (skipn (Z.to_nat j) l)). set (z := skipn (length l') (skipn (Z.to_nat j) l)).
  assert (l = x ++ y ++ z) as E. { unfold x, y, z. now rewrite !firstn_skipn. }
  assert (Zlen x = j) as Lx. { unfold x, Zlen in *. rewrite firstn_length. lia. }
  assert (Zlen y = Zlen l') as Ly. { unfold y, Zlen in *. rewrite firstn_length, skipn_length. lia. }
  assert (y = l') as Ey.
  { rewrite E in H. pose proof (has_view_sub m s x y z H) as V2. rewrite Lx, Ly in V2. eapply has_view_unique; eauto. }
  exists x, z. now rewrite <- Ey.
Qed.

Lemma text_of_ok : forall m v l, has_view m v l -> text_of m v = Ok l.
Proof.
  intros m v l H. unfold text_of. rewrite (has_view_size _ _ _ H). unfold Zlen. rewrite Nat2Z.id. apply load_bytes_ok. apply H.
Qed.
Lemma texts_of_ok : forall m vs ls, Forall2 (has_view m) vs ls -> texts_of m vs = Ok ls.
Proof.
  intros m vs ls H; induction H as [|v l vs ls V F IH]; [reflexivity|]. cbn [texts_of]. rewrite (text_of_ok _ _ _ V). cbn [bind]. rewrite IH. reflexivity.
Qed.

Lemma pop_all_none : forall cf m fuel s l e, has_view m s l -> pend_ok e -> no_line e l -> pop_all cf (S fuel) m s e = Ok ([], s, e).
Proof.
  intros cf m fuel s l e H Pe N. cbn [pop_all]. destruct l as [|x t].
  - unfold strview_split_line. rewrite (has_view_size _ _ _ H). reflexivity.
  - assert (x :: t <> []) as Hn by discriminate. pose proof (split_line_ok cf m s (x :: t) (Some e) e H Hn eq_refl Pe) as Sp.
    unfold next_line in Sp. rewrite N in Sp. destruct Sp as (s1 & -> & _). reflexivity.
Qed.

Section Read.
Variable cf : cfg.
Hypothesis W : wf_cfg cf.

(** The rest of the contents, assigned to their own buffer. *)
Lemma assign_rest : forall w p B j l', mem_wf (s_mem w) -> buf_at cf (s_mem w) p B -> 0 <= j -> j + Zlen l' <= Zlen (bf_data B) ->
  has_view (s_mem w) (subview (buf_view cf p B) j (Zlen l')) l' ->
  becomes_alone cf w p B (strbuf_assign cf w (Some p) (subview (buf_view cf p B) j (Zlen l'))) (Buffer l' (bf_cap B) (bf_alloc B)).
Proof.
  intros w p B j l' Wm HB J1 J2 V. pose proof (buf_whole cf (s_mem w) p B W HB) as H.
  destruct (part_at _ _ _ _ _ H J1 J2 V) as (x & z & E & <-). now apply (assign_part cf w p B x l' z).
Qed.

Lemma receive_ok : forall w p B e r, mem_wf (s_mem w) -> no_fail w -> buf_at cf (s_mem w) p B -> pend_ok e ->
  (forall l, r = RdBytes l -> Forall is_byte l) ->
  let got := delivered (bf_cap B - Zlen (bf_data B)) r in
  exists ls e' rem x w', receive cf w (Some p) e r = Ok (rd_result r got, ls, e', Some p, w') /\
    pend_ok e' /\ no_line e' rem /\ bf_data B ++ got = x ++ rem /\
    (forall rest ls' q, lines_of (drop_half e' (rem ++ rest)) ls' q -> lines_of (drop_half e ((bf_data B ++ got) ++ rest)) (ls ++ ls') q) /\
    (got = [] -> no_line e (bf_data B) -> ls = [] /\ e' = e /\ rem = bf_data B) /\
    buf_at cf (s_mem w') p (Buffer rem (bf_cap B) (bf_alloc B)) /\
    touches cf (s_mem w) (s_mem w') p p B /\ mem_wf (s_mem w') /\ no_fail w'.
Proof.
  intros w p B e r Wm Nf HB Pe Hr got.
  destruct (append_read_ok cf w p B r W Wm Nf HB Hr) as (w1 & E1 & HB1 & T1 & Wm1 & Nf1 & _). fold got in E1, HB1.
  set (B1 := Buffer (bf_data B ++ got) (bf_cap B) (bf_alloc B)) in *.
  pose proof (buf_whole cf (s_mem w1) p B1 W HB1) as V. change (bf_data B1) with (bf_data B ++ got) in V.
  unfold receive. rewrite E1. cbn [bind]. rewrite (strbuf_view_ok cf w1 p B1 W HB1). cbn [bind].
  assert (Z.to_nat (v_size (buf_view cf p B1)) = length (bf_data B ++ got)) as ->.
  { cbn [buf_view v_size]. change (bf_data B1) with (bf_data B ++ got). unfold Zlen. apply Nat2Z.id. }
  destruct (pop_all_ok cf (s_mem w1) (S (length (bf_data B ++ got))) _ _ e V Pe (Nat.lt_succ_diag_r _)) as (vs & s' & e' & ls & l' & E2 & F & V2 & Pe2 & U & K).
  rewrite E2. cbn [bind]. rewrite (texts_of_ok _ _ _ F). cbn [bind].
  destruct (pop_all_inside cf (s_mem w1) _ _ _ _ _ _ _ V Pe E2) as (j & l2 & x & Es & J1 & J2 & V3 & X).
  assert (l2 = l') as -> by (eapply has_view_unique; eauto).
  rewrite Es in V3 |- *.
  destruct (assign_rest w1 p B1 j l' Wm1 HB1 J1 J2 V3) as (w2 & E3 & HB2 & T2 & Wm2 & Or). rewrite E3. cbn [bind].
  exists ls, e', l', x, w2. split; [reflexivity|]. split; [exact Pe2|]. split; [exact U|]. split; [exact X|]. split; [exact K|].
  split; [|split; [exact HB2|split; [|split; [exact Wm2|intro n; rewrite Or; apply Nf1]]]].
  - intros Eg N. rewrite Eg, app_nil_r in *. rewrite (pop_all_none cf (s_mem w1) _ _ _ e V Pe N) in E2. injection E2 as <- <- <-.
    inversion F. split; [reflexivity|]. split; [reflexivity|]. exact (has_view_unique _ _ _ _ V2 V).
  - eapply (touches_trans cf _ _ _ p p p B B1); eauto.
Qed.

(** Chaining turns. *)
Lemma serve_ok : forall evs w p B e file, mem_wf (s_mem w) -> no_fail w -> buf_at cf (s_mem w) p B -> pend_ok e -> no_line e (bf_data B) ->
  Forall is_byte file ->
  exists ls e' w' took file' rem x, serve cf w (Some p) e file evs = Ok (ls, e', Some p, w', file') /\
    file = took ++ file' /\ pend_ok e' /\ no_line e' rem /\ bf_data B ++ took = x ++ rem /\
    lines_of (drop_half e (bf_data B ++ took)) ls (drop_half e' rem) /\
    buf_at cf (s_mem w') p (Buffer rem (bf_cap B) (bf_alloc B)) /\
    touches cf (s_mem w) (s_mem w') p p B /\ mem_wf (s_mem w') /\ no_fail w' /\
    (forall n, short_lines n (bf_data B ++ file) -> n + 2 <= bf_cap B -> (length file <= count_ready evs)%nat -> file' = []) /\
    (Zlen (bf_data B) = bf_cap B -> ls = [] /\ e' = e /\ file' = file /\ rem = bf_data B).
Proof.
  induction evs as [|ev evs IH]; intros w p B e file Wm Nf HB Pe N F.
  - exists [], e, w, [], file, (bf_data B), []. cbn [serve app]. rewrite app_nil_r. split; [reflexivity|]. split; [reflexivity|]. split; [exact Pe|].
    split; [exact N|]. split; [reflexivity|]. split; [now constructor|]. split; [now destruct B|]. split; [now apply touches_refl|].
    split; [exact Wm|]. split; [exact Nf|]. split; [|auto]. intros n _ _ L. destruct file; [reflexivity|cbn in L; lia].
  - cbn [serve]. set (r := match ev with None => RdError | Some k => RdBytes (firstn k file) end).
    assert (forall l, r = RdBytes l -> Forall is_byte l) as Hr.
    { intros l E. destruct ev as [k|]; cbn in E; [|discriminate]. injection E as <-. rewrite Forall_forall in *. intros y Hy. apply F.
      rewrite <- (firstn_skipn k file). apply in_or_app. now left. }
    destruct (receive_ok w p B e r Wm Nf HB Pe Hr) as (ls1 & e1 & rem1 & x1 & w1 & E1 & Pe1 & N1 & X1 & K1 & S1 & HB1 & T1 & Wm1 & Nf1).
    set (got := delivered (bf_cap B - Zlen (bf_data B)) r) in *. rewrite E1. cbn [bind].
    set (n1 := Z.to_nat (rd_result r got)).
    assert (got = firstn n1 file) as Eg.
    { unfold n1, got, r. destruct ev as [k|]; cbn [rd_result delivered]; [|reflexivity].
      rewrite firstn_firstn. set (q := Nat.min _ k). unfold Zlen. rewrite Nat2Z.id, firstn_length.
      destruct (Nat.le_ge_cases q (length file)); [now rewrite Nat.min_l|]. rewrite Nat.min_r, firstn_all by auto. now apply firstn_all2. }
    pose proof (firstn_skipn n1 file) as Ef. rewrite <- Eg in Ef.
    set (B1 := Buffer rem1 (bf_cap B) (bf_alloc B)) in *.
    assert (Forall is_byte (skipn n1 file)) as F1. { rewrite <- Ef in F. now apply Forall_app in F. }
    destruct (IH w1 p B1 e1 (skipn n1 file) Wm1 Nf1 HB1 Pe1 N1 F1) as (ls2 & e2 & w2 & took & file' & rem & x & E2 & Ft & Pe2 & N2 & X2 & K2 & HB2 & T2 & Wm2 & Nf2 & P2 & S2).
    rewrite E2. cbn [bind]. cbn [B1 bf_data bf_cap bf_alloc] in X2, K2, HB2, P2, S2.
    exists (ls1 ++ ls2), e2, w2, (got ++ took), file', rem, (x1 ++ x). split; [reflexivity|]. split; [now rewrite <- app_assoc, <- Ft|].
    split; [exact Pe2|]. split; [exact N2|]. split; [now rewrite app_assoc, X1, <- !app_assoc, X2|].
    split; [rewrite app_assoc; now apply K1|]. split; [exact HB2|]. split; [eapply (touches_trans cf _ _ _ p p p B B1); eauto|].
    split; [exact Wm2|]. split; [exact Nf2|]. split.
    + intros n Sh C L. assert (bf_data B ++ file = x1 ++ rem1 ++ skipn n1 file) as Ex by (now rewrite <- Ef at 1; rewrite app_assoc, X1, <- app_assoc).
      apply (P2 n); [rewrite Ex in Sh; now apply short_suffix in Sh|exact C|].
      assert (Zlen (bf_data B) <= n + 1) as L1 by (now apply (no_line_short n e (bf_data B) [] file)).
      unfold count_ready in L |- *. cbn [filter] in L. destruct ev as [[|k]|]; cbn [is_ready] in L; try (rewrite skipn_length; lia).
      cbn [length] in L. rewrite skipn_length. destruct file as [|y t]; [cbn; lia|].
      assert (0 < n1)%nat; [|cbn [length] in L |- *; lia].
      assert (got <> []) as G.
      { unfold got, r. cbn [delivered firstn]. destruct (Z.to_nat (bf_cap B - Zlen (bf_data B))) eqn:Ez; [lia|]. cbn. discriminate. }
      rewrite Eg in G. destruct n1; [cbn in G; congruence|lia].
    + intro Fu. assert (got = []) as G0. { unfold got. rewrite Fu, Z.sub_diag. destruct r; reflexivity. }
      destruct (S1 G0 N) as (-> & -> & ->). destruct (S2 Fu) as (-> & -> & -> & ->). split; [reflexivity|]. split; [reflexivity|]. split; [|reflexivity].
      rewrite G0 in Ef. exact Ef.
Qed.

(** Two runs one after the other. *)
Lemma serve_app : forall evs evs2 w bp e file ls e1 bp1 w1 file1, serve cf w bp e file evs = Ok (ls, e1, bp1, w1, file1) ->
  serve cf w bp e file (evs ++ evs2) = (let! (ls', e2, bp2, w2, file2) := serve cf w1 bp1 e1 file1 evs2 in Ok (ls ++ ls', e2, bp2, w2, file2)).
Proof.
  induction evs as [|ev evs IH]; intros evs2 w bp e file ls e1 bp1 w1 file1 E.
  - cbn [serve] in E. injection E as <- <- <- <- <-. cbn [app]. destruct (serve cf w bp e file evs2) as [[[[[a b] c] d] f]| |]; reflexivity.
  - cbn [serve app] in *. destruct (receive cf w bp e _) as [[[[[n l] e0] b0] w0]| |]; cbn [bind] in *; try discriminate.
    destruct (serve cf w0 b0 e0 _ evs) as [[[[[l1 e3] b3] w3] f3]| |] eqn:E3; cbn [bind] in *; try discriminate. injection E as <- <- <- <- <-.
    rewrite (IH evs2 _ _ _ _ _ _ _ _ _ E3). destruct (serve cf w3 b3 e3 f3 evs2) as [[[[[a b] c] d] f]| |]; cbn [bind]; try reflexivity. now rewrite app_assoc.
Qed.

(** ** One character at a time *)
Lemma snoc_line : forall e rem c, pend_ok e -> no_line e rem ->
  match next_line e (rem ++ [c]) with
  | Some (a, e1, b) => b = [] /\ e1 = c /\ is_eol c = true
  | None => no_line e (rem ++ [c])
  end.
Proof.
  intros e rem c Pe N. unfold next_line, no_line in *.
  assert (until_eol (drop_half e (rem ++ [c])) = None \/ exists a, until_eol (drop_half e (rem ++ [c])) = Some (a, c, []) /\ is_eol c = true) as [H|(a & H & Hc)].
  { destruct rem as [|x t].
    - cbn [app drop_half]. destruct (_ && _); [now left|]. cbn. destruct (is_eol c); [right; now exists []|now left].
    - rewrite drop_half_app, (until_eol_snoc _ c N). destruct (is_eol c); [right; eauto|now left]. }
  - now rewrite H.
  - rewrite H. auto.
Qed.

Lemma type_char_ok : forall w p B e c, mem_wf (s_mem w) -> no_fail w -> buf_at cf (s_mem w) p B -> pend_ok e -> no_line e (bf_data B) ->
  is_byte c -> sums_ok cf (Zlen (bf_data B) + 1) -> fits B (bf_data B ++ [c]) = true ->
  exists ls e' rem x p' B' w', type_char cf w (Some p) e c = Ok (ls, e', Some p', w') /\
    pend_ok e' /\ no_line e' rem /\ bf_data B ++ [c] = x ++ rem /\
    (forall rest ls' q, lines_of (drop_half e' (rem ++ rest)) ls' q -> lines_of (drop_half e ((bf_data B ++ [c]) ++ rest)) (ls ++ ls') q) /\
    buf_at cf (s_mem w') p' B' /\ bf_data B' = rem /\ dyn B' = dyn B /\ (dyn B = false -> p' = p /\ bf_cap B' = bf_cap B) /\ bf_alloc B' = bf_alloc B /\
    touches cf (s_mem w) (s_mem w') p p' B /\ mem_wf (s_mem w') /\ no_fail w'.
Proof.
  intros w p B e c Wm Nf HB Pe N Hc Hs Hf.
  destruct (append_char_ok cf w p B c W Wm Nf HB Hc Hs) as (p1 & w1 & E1 & HB1 & T1 & Wm1 & Nf1).
  set (B1 := put cf B (bf_data B ++ [c])) in *.
  assert (bf_data B1 = bf_data B ++ [c]) as D1 by (unfold B1, put; now rewrite Hf).
  assert (dyn B1 = dyn B) as Y1 by apply put_dyn.
  assert (dyn B = false -> bf_cap B1 = bf_cap B) as C1 by (apply put_fixed_cap).
  assert (bf_alloc B1 = bf_alloc B) as A1 by apply put_alloc.
  assert (dyn B = false -> p1 = p) as P1.
  { intro D. destruct T1 as (b & b' & Q1 & Q2 & Q3 & _ & _ & _ & _ & _ & [Q|(Q & _)] & _); [|congruence]. destruct p, p1. cbn in *. congruence. }
  pose proof (buf_whole cf (s_mem w1) p1 B1 W HB1) as V. rewrite D1 in V.
  unfold type_char. rewrite E1. cbn [bind]. rewrite (strbuf_view_ok cf w1 p1 B1 W HB1). cbn [bind].
  assert (bf_data B ++ [c] <> []) as Ne by (destruct (bf_data B); discriminate).
  pose proof (split_line_ok cf (s_mem w1) _ _ (Some e) e V Ne eq_refl Pe) as Sp. pose proof (snoc_line e (bf_data B) c Pe N) as Sn.
  destruct (next_line e (bf_data B ++ [c])) as [[[a e1] b]|] eqn:NL.
  - destruct Sn as (-> & -> & Ec). destruct Sp as (r & s1 & E2 & Vr & Vs & i & j & -> & -> & I1 & I2 & I3). rewrite E2. cbn [bind].
    rewrite (has_view_valid _ _ _ Vr), (text_of_ok _ _ _ Vr). cbn [bind].
    rewrite <- D1 in I3. pose proof (Zlen_nonneg a).
    destruct (assign_rest w1 p1 B1 j [] Wm1 HB1 ltac:(lia) I3 Vs) as (w2 & E3 & HB2 & T2 & Wm2 & Or). rewrite E3. cbn [bind].
    exists [a], c, [], (bf_data B ++ [c]), p1, (Buffer [] (bf_cap B1) (bf_alloc B1)), w2. split; [reflexivity|].
    split; [now apply is_eol_pend|]. split; [reflexivity|]. split; [now rewrite app_nil_r|].
    split.
    { intros rest ls' q Hl. cbn [app]. pose proof (next_line_some _ _ _ _ _ NL) as (e0 & b0 & U & D & Pe0 & L & Dc).
      assert (drop_half e ((bf_data B ++ [c]) ++ rest) = drop_half e (bf_data B ++ [c]) ++ rest) as ->.
      { destruct (bf_data B ++ [c]) as [|y t]; [congruence|apply drop_half_app]. }
      eapply lines_one; [apply until_eol_app; eauto|]. rewrite <- Dc. exact Hl. }
    split; [exact HB2|]. split; [reflexivity|]. split; [exact Y1|]. split; [auto|]. split; [exact A1|].
    split; [eapply (touches_trans cf _ _ _ p p1 p1 B B1); eauto|]. split; [exact Wm2|]. intro n. rewrite Or. apply Nf1.
  - destruct Sp as (s1 & E2 & _ & _). rewrite E2. cbn [bind]. change (strview_is_valid INVALID) with false. cbn match.
    exists [], e, (bf_data B ++ [c]), [], p1, B1, w1. split; [reflexivity|]. split; [exact Pe|]. split; [exact Sn|]. split; [reflexivity|].
    split; [auto|]. split; [exact HB1|]. split; [exact D1|]. split; [exact Y1|]. split; [auto|]. auto.
Qed.

Lemma type_chars_ok : forall cs w p B e, mem_wf (s_mem w) -> no_fail w -> buf_at cf (s_mem w) p B -> pend_ok e -> no_line e (bf_data B) ->
  Forall is_byte cs -> line_room cf B (bf_data B ++ cs) ->
  exists ls e' rem p' B' w', type_chars cf w (Some p) e cs = Ok (ls, e', Some p', w') /\
    pend_ok e' /\ no_line e' rem /\ lines_of (drop_half e (bf_data B ++ cs)) ls (drop_half e' rem) /\
    buf_at cf (s_mem w') p' B' /\ bf_data B' = rem /\ bf_alloc B' = bf_alloc B /\
    touches cf (s_mem w) (s_mem w') p p' B /\ mem_wf (s_mem w') /\ no_fail w'.
Proof.
  induction cs as [|c cs IH]; intros w p B e Wm Nf HB Pe N F R.
  - exists [], e, (bf_data B), p, B, w. cbn [type_chars]. rewrite app_nil_r. split; [reflexivity|]. split; [exact Pe|]. split; [exact N|].
    split; [now constructor|]. split; [exact HB|]. split; [reflexivity|]. split; [reflexivity|]. split; [now apply touches_refl|]. auto.
  - apply Forall_cons_iff in F as [Fc F]. cbn [type_chars].
    assert (Zlen (bf_data B ++ c :: cs) = Zlen (bf_data B) + 1 + Zlen cs) as Ls by (rewrite Zlen_app, Zlen_cons; lia).
    pose proof (Zlen_nonneg cs). destruct (buf_at_cap _ _ _ _ HB) as [C1 C2].
    assert (sums_ok cf (Zlen (bf_data B) + 1) /\ fits B (bf_data B ++ [c]) = true) as [Hs Hf].
    { unfold line_room, sums_ok, fits in *. rewrite Zlen_app. change (Zlen [c]) with 1. destruct (dyn B).
      - split; [destruct R as [[R|R] _]; [now left|right; lia]|apply Z.leb_le; lia].
      - destruct R as (n & Sh & C & R). pose proof (no_line_short n e (bf_data B) [] (c :: cs) Sh N).
        split; [destruct R as [R|R]; [now left|right; lia]|apply Z.leb_le; lia]. }
    destruct (type_char_ok w p B e c Wm Nf HB Pe N Fc Hs Hf) as (ls1 & e1 & rem1 & x1 & p1 & B1 & w1 & E1 & Pe1 & N1 & X1 & K1 & HB1 & D1 & Y1 & C3 & A1 & T1 & Wm1 & Nf1).
    rewrite E1. cbn [bind]. rewrite <- D1 in N1.
    assert (bf_data B ++ c :: cs = x1 ++ bf_data B1 ++ cs) as Ex.
    { rewrite D1. change (c :: cs) with ([c] ++ cs). now rewrite app_assoc, X1, <- app_assoc. }
    destruct (IH w1 p1 B1 e1 Wm1 Nf1 HB1 Pe1 N1 F) as (ls2 & e2 & rem & p2 & B2 & w2 & E2 & Pe2 & N2 & K2 & HB2 & D2 & A2 & T2 & Wm2 & Nf2).
    { rewrite Ex in R. unfold line_room in *. rewrite Y1. destruct (dyn B) eqn:Dy.
      - rewrite Zlen_app in R. pose proof (Zlen_nonneg x1). destruct R as [R1 R2]. split; [|lia]. destruct R1 as [R1|R1]; [now left|right; lia].
      - destruct R as (n & Sh & C & R). exists n. destruct (C3 eq_refl) as [_ ->]. split; [now apply short_suffix in Sh|]. auto. }
    rewrite E2. cbn [bind]. exists (ls1 ++ ls2), e2, rem, p2, B2, w2. split; [reflexivity|]. split; [exact Pe2|]. split; [exact N2|].
    split; [change (c :: cs) with ([c] ++ cs); rewrite app_assoc; apply K1; now rewrite <- D1|].
    split; [exact HB2|]. split; [exact D2|]. split; [congruence|].
    split; [eapply (touches_trans cf _ _ _ p p1 p2 B B1); eauto; intro D; now destruct (C3 D)|]. auto.
Qed.
End Read.

(** For examples: the longest stretch without a line end, computed. *)
Fixpoint run_of (l : list Z) : Z := match l with [] => 0 | x :: t => if is_eol x then 0 else 1 + run_of t end.
Fixpoint longest (l : list Z) : Z := match l with [] => 0 | x :: t => Z.max (run_of l) (longest t) end.
Lemma run_of_app : forall y z, Forall (fun c => c <> 13 /\ c <> 10) y -> Zlen y <= run_of (y ++ z).
Proof.
  induction y as [|c y IH]; intros z F.
  - change (Zlen (@nil Z)) with 0. cbn [app]. induction z as [|c z IH]; cbn [run_of]; [lia|]. destruct (is_eol c); lia.
  - apply Forall_cons_iff in F as [Fc F]. apply is_eol_false in Fc. cbn [app run_of]. rewrite Fc, Zlen_cons. specialize (IH z F). lia.
Qed.
Lemma longest_app : forall x l, run_of l <= longest (x ++ l).
Proof.
  induction x as [|c x IH]; intro l; cbn [app longest].
  - destruct l; cbn [longest run_of]; lia.
  - specialize (IH l). lia.
Qed.
Lemma longest_ok : forall n l, longest l <= n -> short_lines n l.
Proof. intros n l H x y z -> F. pose proof (run_of_app y z F). pose proof (longest_app x (y ++ z)). lia. Qed.

(** A character too many for a fixed buffer. *)
Lemma type_over : forall cf w p B e c, wf_cfg cf -> mem_wf (s_mem w) -> no_fail w -> buf_at cf (s_mem w) p B ->
  is_byte c -> dyn B = false -> Zlen (bf_data B) = bf_cap B -> sums_ok cf (bf_cap B + 1) ->
  exists w', type_char cf w (Some p) e c = Ok ([], e, Some p, w') /\ buf_at cf (s_mem w') p (Buffer [] (bf_cap B) (bf_alloc B)) /\
    touches cf (s_mem w) (s_mem w') p p B.
Proof.
  intros cf w p B e c W Wm Nf HB Hc D Fu Hs. rewrite <- Fu in Hs.
  destruct (append_char_ok cf w p B c W Wm Nf HB Hc Hs) as (p1 & w1 & E1 & HB1 & T1 & Wm1 & Nf1).
  assert (put cf B (bf_data B ++ [c]) = Buffer [] (bf_cap B) (bf_alloc B)) as Ep.
  { unfold put, fits. rewrite D, Zlen_app, Fu. change (Zlen [c]) with 1. now rewrite (proj2 (Z.leb_gt _ _)) by lia. }
  rewrite Ep in *.
  assert (p1 = p) as ->.
  { destruct T1 as (b & b' & Q1 & Q2 & Q3 & _ & _ & _ & _ & _ & [Q|(Q & _)] & _); [|congruence]. destruct p, p1. cbn in *. congruence. }
  unfold type_char. rewrite E1. cbn [bind]. rewrite (strbuf_view_ok cf w1 p _ W HB1). cbn [bind].
  exists w1. split; [|auto]. unfold strview_split_line, buf_view. cbn [bf_data v_size]. change (Zlen (@nil Z)) with 0. cbn. reflexivity.
Qed.
