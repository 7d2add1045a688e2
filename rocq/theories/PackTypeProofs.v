(** Proofs about the types that can be packed and unpacked. *)
From Verif Require Import Base Mem Libc StrviewModel Spec MemLemmas StrviewProofs Alloc StrbufModel BufSpec StrbufProofs StrbufProofs2 StrbufProofs3 StrbufProofs4
  StrviewProofs2 StrbufProofs5 StrbufProofs6 MacroModel PackModel PackSpec PackProofs PackTypeModel PackTypeSpec.

Lemma append_local_ok : forall cf w p B base l, wf_cfg cf -> c_ptr cf = true -> mem_wf (s_mem w) -> no_fail w -> buf_at cf (s_mem w) p B ->
  Forall is_byte l -> Zlen l <= INT_MAX -> sums_ok cf (Zlen (bf_data B) + Zlen l) ->
  exists p' w', append_local cf w (Some p) base l = Ok (Some p', w') /\
    buf_at cf (s_mem w') p' (put cf B (bf_data B ++ l)) /\
    touches cf (s_mem w) (s_mem w') p p' B /\ mem_wf (s_mem w') /\ no_fail w'.
Proof.
  intros cf w p B base l W Hc Wm Nf HB Fb Lm Hs. unfold append_local.
  destruct (push_local cf w base l) as [q w1] eqn:E.
  pose proof (local_fresh cf w base l W Wm) as W1. rewrite E in W1. cbn [snd] in W1.
  pose proof E as E'. unfold push_local in E. injection E as Eq Ew.
  assert (buf_at cf (s_mem w1) p B) as HB1 by (rewrite <- Ew; cbn [with_mem s_mem]; now apply buf_at_snoc).
  assert (p_obj q <> p_obj p) as Ne.
  { destruct HB as (b & k & E1 & E2 & _). apply nth_error_lt in E2. rewrite E1, <- Eq. cbn. intros H. injection H as H. lia. }
  assert (has_view (s_mem w1) (View q (Zlen l)) l) as HV.
  { unfold has_view. cbn [v_data v_size]. split; [|split; [auto|split; auto]].
    rewrite <- Ew, <- Eq. unfold bytes_at. cbn [p_obj p_ofs with_mem s_mem]. eexists. split.
    - apply access_ok; [rewrite nth_error_app2, Nat.sub_diag by lia; reflexivity|reflexivity].
    - cbn [b_size b_get]. split; [lia|]. split; [lia|]. intros i Hi. reflexivity. }
  assert (source cf (s_mem w1) p B (View q (Zlen l)) l) as Src.
  { apply src_outside; auto. split; [|left; exact Ne]. cbn [v_data]. rewrite <- Eq. cbn. eauto. }
  assert (no_fail w1) as Nf1 by (rewrite <- Ew; exact Nf).
  destruct (append_ok cf w1 p B _ _ W (or_introl Hc) W1 Nf1 HB1 Src Hs) as (p' & w2 & R & A1 & A2 & A3 & A4).
  rewrite R. cbn [bind]. exists p', (pop_local w2 q). split; auto.
  destruct (pop_local_ok cf w base l p p' w2 B (put cf B (bf_data B ++ l)) W HB) as (P1 & P2 & P3); try (rewrite E'; cbn [snd]; eassumption); try eassumption.
  rewrite E' in P1, P2, P3. cbn [fst] in P1, P2, P3. split; auto. split; auto. split; auto.
  intros n. unfold pop_local. destruct (p_obj q); apply A4.
Qed.

Section Types.
Variable cf : cfg.
Variable P : plat.
Hypothesis HP : plat_ok cf P.

Lemma exact_rep : forall t it, exact_width P t it -> int_rep cf t = Some it.
Proof.
  destruct HP as (E8 & E16 & E32 & E64 & _). intros t it H. unfold exact_width in H. rewrite E8, E16 in H.
  destruct E32 as [E32|[E32 L]]; destruct E64 as [E64|[E64 M]]; rewrite E32, E64 in H; cbn [unsigned_of] in H; try congruence;
    destruct H as [H|[H|[H|[H|[H|[H|[H|H]]]]]]]; injection H as -> ->; cbn [int_rep]; rewrite ?L, ?M; reflexivity.
Qed.
Lemma distinct : types_distinct (swap_assocs cf P) = true.
Proof.
  destruct HP as (E8 & E16 & E32 & E64 & _). unfold swap_assocs. rewrite E8, E16.
  destruct E32 as [E32|[E32 L]]; destruct E64 as [E64|[E64 M]]; rewrite E32, E64; try reflexivity. congruence.
Qed.
Lemma exact_swap : forall t it, exact_width P t it -> exists f, swap_of cf P t = Some f /\ forall x, to_bytes cf (i_bytes it) (conv it (f x)) = to_bytes cf (i_bytes it) (xendian_SWAP cf it x).
Proof.
  intros t it H. unfold swap_of. rewrite distinct. destruct HP as (E8 & E16 & E32 & E64 & _). unfold exact_width, swap_assocs in *. rewrite E8, E16 in *.
  destruct E32 as [E32|[E32 L]]; destruct E64 as [E64|[E64 M]]; rewrite E32, E64 in *; cbn [unsigned_of] in *; try congruence;
    destruct H as [H|[H|[H|[H|[H|[H|[H|H]]]]]]]; injection H as -> ->; eexists; (split; [reflexivity|]); intros x; rewrite to_bytes_conv; unfold xendian_SWAP; cbn [i_width]; rewrite ?to_bytes_conv; reflexivity.
Qed.
Lemma swap_exact : forall t, swap_of cf P t <> None <-> exists it, exact_width P t it.
Proof.
  intros t. split; [|intros [it H]; destruct (exact_swap t it H) as (f & -> & _); discriminate].
  unfold swap_of. rewrite distinct. destruct HP as (E8 & E16 & E32 & E64 & _). unfold exact_width, swap_assocs in *. rewrite E8, E16 in *.
  destruct E32 as [E32|[E32 L]]; destruct E64 as [E64|[E64 M]]; rewrite E32, E64 in *; cbn [unsigned_of] in *; try congruence;
    destruct t; cbn [generic_select dtype_eqb]; intros H; try congruence; eexists; intuition reflexivity.
Qed.

Lemma host_dec : forall o, o = host cf \/ o <> host cf.
Proof. intros o. unfold host. destruct o, (c_big_endian cf); (left; reflexivity) || (right; discriminate). Qed.
Lemma pack_host : forall t, pack_how cf P (host cf) t = Some AsIs /\ unpack_how cf P (host cf) t = Some AsIs.
Proof. intros t. unfold host, pack_how, unpack_how. destruct (c_big_endian cf); auto. Qed.
Lemma pack_foreign : forall o t, o <> host cf -> pack_how cf P o t = swapped cf P t /\ unpack_how cf P o t = swapped cf P t.
Proof. intros o t. unfold host, pack_how, unpack_how. destruct o, (c_big_endian cf); intros H; auto; congruence. Qed.

Lemma host_wire : forall it x, to_bytes cf (i_bytes it) x = wire (host cf) it x.
Proof. intros it x. rewrite wire_repr. unfold host, to_bytes. destruct (c_big_endian cf); reflexivity. Qed.
Lemma foreign_wire : forall o it x, o <> host cf -> to_bytes cf (i_bytes it) (xendian_SWAP cf it x) = wire o it x.
Proof.
  intros o it x H. rewrite SWAP_bytes, host_wire, !wire_repr. unfold host in *. destruct o, (c_big_endian cf); try congruence. now rewrite rev_involutive.
Qed.
Lemma host_stored : forall t v, value_of cf P t v -> stored cf t AsIs v = Some (wired cf (host cf) t v).
Proof.
  intros t v H. unfold value_of, stored, wired in *. destruct v as [x|l], (int_rep cf t) as [it|]; try contradiction; auto. rewrite to_bytes_conv. now rewrite host_wire.
Qed.
Lemma wired_fine : forall o t v, value_of cf P t v -> Forall is_byte (wired cf o t v) /\ Zlen (wired cf o t v) = Z.of_nat (size_of cf P t) /\ Zlen (wired cf o t v) <= INT_MAX.
Proof.
  intros o t v H. unfold value_of, wired, size_of in *. destruct v as [x|l], (int_rep cf t) as [it|]; try contradiction; [|destruct H as (H1 & H2 & H3); auto].
  split; [apply wire_byte|]. unfold Zlen. rewrite wire_len. split; auto. destruct it as [s []]; cbn; unfold INT_MAX; lia.
Qed.

Lemma pack_host_ok : forall w p B base t v, wf_cfg cf -> c_ptr cf = true -> mem_wf (s_mem w) -> no_fail w -> buf_at cf (s_mem w) p B ->
  value_of cf P t v -> sums_ok cf (Zlen (bf_data B) + Z.of_nat (size_of cf P t)) ->
  exists r, pack_macro cf P (host cf) w (Some p) false base t v false = Some r /\ appended cf w p B (wired cf (host cf) t v) r.
Proof.
  intros w p B base t v W Hc Wm Nf HB Hv Hs. destruct (wired_fine (host cf) t v Hv) as (F1 & F2 & F3). rewrite <- F2 in Hs.
  unfold pack_macro. rewrite (proj1 (pack_host t)), (host_stored t v Hv). eexists. split; [reflexivity|]. now apply append_local_ok.
Qed.
Lemma pack_exact_ok : forall o w p B base t it x, wf_cfg cf -> c_ptr cf = true -> mem_wf (s_mem w) -> no_fail w -> buf_at cf (s_mem w) p B ->
  exact_width P t it -> sums_ok cf (Zlen (bf_data B) + Zlen (wire o it x)) ->
  exists r, pack_macro cf P o w (Some p) false base t (VInt x) false = Some r /\ appended cf w p B (wire o it x) r.
Proof.
  intros o w p B base t it x W Hc Wm Nf HB He Hs. pose proof (exact_rep t it He) as Er.
  assert (Forall is_byte (wire o it x) /\ Zlen (wire o it x) <= INT_MAX) as [F1 F2].
  { split; [apply wire_byte|]. unfold Zlen. rewrite wire_len. destruct it as [s []]; cbn; unfold INT_MAX; lia. }
  unfold pack_macro, stored. rewrite Er. destruct (host_dec o) as [->|Ho].
  - rewrite (proj1 (pack_host t)), to_bytes_conv, host_wire. eexists. split; [reflexivity|]. now apply append_local_ok.
  - rewrite (proj1 (pack_foreign o t Ho)). unfold swapped. destruct (exact_swap t it He) as (f & -> & Hf). rewrite Hf, (foreign_wire o it x Ho).
    eexists. split; [reflexivity|]. now apply append_local_ok.
Qed.
Lemma pack_compiles : forall o w dst base t x, o <> host cf -> (pack_macro cf P o w dst false base t (VInt x) false <> None <-> exists it, exact_width P t it).
Proof.
  intros o w dst base t x Ho. rewrite <- swap_exact. unfold pack_macro. rewrite (proj1 (pack_foreign o t Ho)). unfold swapped.
  destruct (swap_of cf P t) as [f|] eqn:E; [|tauto]. assert (swap_of cf P t <> None) as K by congruence. apply swap_exact in K as [it K].
  unfold stored. rewrite (exact_rep t it K). split; discriminate.
Qed.
Lemma unpack_compiles : forall o m t v, o <> host cf -> (unpack_macro cf P o m t v <> None <-> exists it, exact_width P t it).
Proof.
  intros o m t v Ho. rewrite <- swap_exact. unfold unpack_macro. rewrite (proj2 (pack_foreign o t Ho)). unfold swapped.
  destruct (swap_of cf P t) as [f|]; [|tauto]. split; discriminate.
Qed.
Lemma rep_foreign : forall o w dst base t l, o <> host cf -> int_rep cf t = None ->
  pack_macro cf P o w dst false base t (VRep l) false = None.
Proof.
  intros o w dst base t l Ho Hr. unfold pack_macro. rewrite (proj1 (pack_foreign o t Ho)). unfold swapped.
  destruct (swap_of cf P t) as [f|] eqn:E; [|reflexivity]. assert (swap_of cf P t <> None) as K by congruence. apply swap_exact in K as [it K].
  apply exact_rep in K. congruence.
Qed.

Lemma load_ok : forall m v l rest n, has_view m v (l ++ rest) -> Zlen l = Z.of_nat n -> load_bytes m (v_data v) n = Ok l.
Proof.
  intros m v l rest n (Hb & _) Hn. apply bytes_at_app in Hb as [Hb _]. replace n with (length l) by (unfold Zlen in Hn; lia). now apply load_bytes_ok.
Qed.

Lemma rest_ok : forall m v l rest, has_view m v (l ++ rest) -> 0 < Zlen l -> Zlen l <= INT_MAX ->
  exists v', strview_sub cf m v (Zlen l) INT_MAX = Ok v' /\ behind m v (Zlen l) rest v'.
Proof.
  intros m v l rest H Lp Lm. pose proof H as (HB & HS & HM & HF). destruct rest as [|c r].
  - rewrite (sub_out cf m v (l ++ [])); auto; try (unfold INT_MIN, INT_MAX in *; zl; lia).
    + eexists. split; [reflexivity|]. split; [congruence|auto].
    + destruct l; [cbn in Lp; lia|discriminate].
    + unfold py_in, py_index. zl. rewrite (proj2 (Z.ltb_ge (Zlen l) 0)) by lia. change (Zlen (@nil Z)) with 0. lia.
  - rewrite (sub_from cf m v _ _ H) by discriminate. eexists. split; [reflexivity|]. split; [|discriminate]. intros _. split; auto. now apply has_view_suffix in H.
Qed.
Lemma size_pos : forall t, (0 < size_of cf P t)%nat.
Proof.
  intros t. destruct HP as (_ & _ & _ & _ & Hl). unfold size_of. destruct (int_rep cf t) as [[s []]|]; cbn; try lia. destruct t; lia.
Qed.
Lemma unpack_host_ok : forall m v t x rest, has_view m v (wired cf (host cf) t x ++ rest) -> value_of cf P t x ->
  exists v', unpack_macro cf P (host cf) m t v = Some (Ok (x, v')) /\ behind m v (Z.of_nat (size_of cf P t)) rest v'.
Proof.
  intros m v t x rest H Hx. destruct (wired_fine (host cf) t x Hx) as (F1 & F2 & F3). pose proof (size_pos t).
  destruct (rest_ok m v _ rest H) as (v' & Es & Hb); [lia|auto|]. exists v'. rewrite F2 in Es, Hb. split; auto.
  unfold unpack_macro. rewrite (proj2 (pack_host t)). rewrite (load_ok m v _ rest (size_of cf P t) H F2). cbn [bind]. rewrite Es. cbn [bind]. do 3 f_equal.
  unfold value_of, wired in *. destruct x as [x|l], (int_rep cf t) as [it|]; try contradiction; auto.
  rewrite <- host_wire, of_to_bytes, conv_id; [now rewrite conv_id|]. now rewrite conv_id.
Qed.
Lemma unpack_exact_ok : forall o m v t it x rest, has_view m v (wire o it x ++ rest) -> exact_width P t it -> in_type it x ->
  exists v', unpack_macro cf P o m t v = Some (Ok (VInt x, v')) /\ behind m v (Zlen (wire o it x)) rest v'.
Proof.
  intros o m v t it x rest H He Hx. pose proof (exact_rep t it He) as Er. assert (size_of cf P t = i_bytes it) as Es by (unfold size_of; now rewrite Er).
  assert (Zlen (wire o it x) = Z.of_nat (i_bytes it)) as Lw by (unfold Zlen; now rewrite wire_len). pose proof (size_pos t) as Sp. rewrite Es in Sp.
  destruct (rest_ok m v _ rest H) as (v' & Ev & Hb); [lia|rewrite Lw; destruct it as [s []]; cbn; unfold INT_MAX; lia|]. exists v'. split; auto.
  unfold unpack_macro. rewrite Es, Er. rewrite (load_ok m v _ rest (i_bytes it) H Lw). rewrite Lw in Ev.
  destruct (host_dec o) as [->|Ho].
  - rewrite (proj2 (pack_host t)). cbn [bind]. rewrite Ev. cbn [bind]. rewrite <- host_wire, of_to_bytes, !conv_id; auto. now rewrite conv_id.
  - rewrite (proj2 (pack_foreign o t Ho)). unfold swapped. destruct (exact_swap t it He) as (f & -> & Hf). cbn [bind]. rewrite Ev. cbn [bind]. do 4 f_equal.
    set (y := of_bytes cf it (wire o it x)). specialize (Hf y). rewrite to_bytes_conv in Hf. apply (f_equal (of_bytes cf it)) in Hf. rewrite !of_to_bytes in Hf.
    pose proof (unpack_value cf o it x Hx) as U. fold y in U. unfold xendian_unpack in U. unfold host in Ho. clearbody y. destruct o, (c_big_endian cf); congruence.
Qed.

Lemma char_not_exact : forall it, ~ exact_width P DChar it.
Proof.
  destruct HP as (E8 & E16 & E32 & E64 & _). intros it H. unfold exact_width in H. rewrite E8, E16 in H.
  destruct E32 as [E32|[E32 L]]; destruct E64 as [E64|[E64 M]]; rewrite E32, E64 in H; cbn [unsigned_of] in H; intuition discriminate.
Qed.
Lemma one_not_exact : exists t, In t [DInt; DLong; DLlong] /\ forall it, ~ exact_width P t it /\ ~ exact_width P (unsigned_of t) it.
Proof.
  destruct HP as (E8 & E16 & E32 & E64 & _). unfold exact_width. rewrite E8, E16.
  destruct E32 as [E32|[E32 L]]; destruct E64 as [E64|[E64 M]]; rewrite E32, E64; cbn [unsigned_of]; try congruence;
    [exists DLong|exists DLlong|exists DInt]; (split; [cbn; tauto|]); intros it; split; intros H; cbn [unsigned_of] in H; intuition discriminate.
Qed.
Lemma float_not_exact : forall t it, int_rep cf t = None \/ t = DBool -> ~ exact_width P t it.
Proof.
  intros t it H K. destruct H as [H| ->]; [apply exact_rep in K; congruence|].
  destruct HP as (E8 & E16 & E32 & E64 & _). unfold exact_width in K. rewrite E8, E16 in K.
  destruct E32 as [E32|[E32 L]]; destruct E64 as [E64|[E64 M]]; rewrite E32, E64 in K; cbn [unsigned_of] in K; intuition discriminate.
Qed.
End Types.
