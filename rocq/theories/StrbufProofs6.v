(** Creation, destruction, capacity changes, conversion to a C string. *)
From Verif Require Import Base Mem Libc StrviewModel Spec MemLemmas Alloc StrbufModel BufSpec StrbufProofs StrbufProofs2 StrbufProofs3 StrbufProofs4 StrbufProofs5.

Lemma nonneg_cap : forall cf m p B, buf_at cf m p B -> 0 <= bf_cap B.
Proof. intros cf m p B H. destruct (buf_at_cap _ _ _ _ H) as [C _]. pose proof (Zlen_nonneg (bf_data B)). lia. Qed.

(** ** Capacity *)
Lemma shrink_ok : forall cf w p B, wf_cfg cf -> mem_wf (s_mem w) -> no_fail w -> buf_at cf (s_mem w) p B ->
  becomes cf w p B (strbuf_shrink cf w (Some p)) (if dyn B then Buffer (bf_data B) (Zlen (bf_data B)) (bf_alloc B) else B).
Proof.
  intros cf w p B W Wm Nf HB. unfold strbuf_shrink. rewrite (on_buf_ok cf (s_mem w) p B) by auto.
  rewrite (buf_at_load cf (s_mem w) p B W HB). cbn [bind hdr_of h_alloc h_size]. change (is_dyn (bf_alloc B)) with (dyn B).
  destruct (buf_at_cap _ _ _ _ HB) as [C _]. destruct (dyn B) eqn:D.
  - destruct (change_cap_ok cf w p B (Zlen (bf_data B)) W Wm Nf HB D ltac:(lia)) as (p' & w' & -> & H1 & H2 & H3 & H4 & _).
    rewrite Z.max_id in H1. apply yields_becomes; auto. exists p', w'. auto.
  - apply (yields_becomes cf w p B (Ok (p, w))); auto. exists p, w. split; auto. split; auto. split; auto. now apply touches_refl.
Qed.

Lemma grow_dyn_ok : forall cf w p B n, wf_cfg cf -> mem_wf (s_mem w) -> no_fail w -> buf_at cf (s_mem w) p B -> dyn B = true ->
  n <= INT_MAX ->
  becomes cf w p B (strbuf_grow cf w (Some p) n) (Buffer (bf_data B) (Z.max (bf_cap B) n) (bf_alloc B)).
Proof.
  intros cf w p B n W Wm Nf HB D Hn. unfold strbuf_grow. rewrite (on_buf_ok cf (s_mem w) p B) by auto.
  rewrite (buf_at_load cf (s_mem w) p B W HB). cbn [bind hdr_of h_alloc h_cap]. change (is_dyn (bf_alloc B)) with (dyn B). rewrite D.
  destruct (buf_at_cap _ _ _ _ HB) as [C _]. destruct (bf_cap B <? n) eqn:E.
  - apply Z.ltb_lt in E. destruct (change_cap_ok cf w p B n W Wm Nf HB D Hn) as (p' & w' & -> & H1 & H2 & H3 & H4 & _).
    replace (Z.max (bf_cap B) n) with (Z.max n (Zlen (bf_data B))) by lia. apply yields_becomes; auto. exists p', w'. auto.
  - apply Z.ltb_ge in E. rewrite Z.max_l by lia. replace (Buffer (bf_data B) (bf_cap B) (bf_alloc B)) with B by (now destruct B).
    apply (yields_becomes cf w p B (Ok (p, w))); auto. exists p, w. split; auto. split; auto. split; auto. now apply touches_refl.
Qed.
Lemma grow_fixed_ok : forall cf w p B n, wf_cfg cf -> buf_at cf (s_mem w) p B -> dyn B = false ->
  strbuf_grow cf w (Some p) n = Ok (INVALID, Some p, w).
Proof.
  intros cf w p B n W HB D. unfold strbuf_grow. rewrite (on_buf_ok cf (s_mem w) p B) by auto.
  rewrite (buf_at_load cf (s_mem w) p B W HB). cbn [bind hdr_of h_alloc h_cap]. change (is_dyn (bf_alloc B)) with (dyn B). now rewrite D.
Qed.

(** ** Creation *)
Lemma create_created : forall cf w cap a, wf_cfg cf -> mem_wf (s_mem w) -> no_fail w -> is_dyn a = true -> 0 <= cap <= INT_MAX ->
  created cf w (create_buf cf w cap a) (Buffer [] cap a).
Proof.
  intros cf w cap a W Wm Nf Hd Hc. destruct (create_buf_ok cf w cap a W Wm Nf Hd Hc) as (k & w' & E & Em & HI & Wm' & Nf' & _).
  exists (length (s_mem w)), w'. split; auto. split; auto. rewrite Em in *.
  split; [|split; [|split; [|split]]]; auto.
  - exists (length (s_mem w)), k. split; auto. split; auto. rewrite nth_error_app2 by lia. now rewrite Nat.sub_diag.
  - intros i Hi. now rewrite nth_error_app1 by lia.
  - intros i k0 Hi Ne H. apply nth_error_snoc in H as [H|[H _]]; [|lia]. apply nth_error_lt in H. lia.
Qed.


Lemma create_empty_ok : forall cf w dflt cap a, wf_cfg cf -> mem_wf (s_mem w) -> no_fail w ->
  is_dyn (chosen dflt a) = true -> 0 <= cap <= INT_MAX ->
  created cf w (strbuf_create_empty cf w dflt cap a) (Buffer [] cap (chosen dflt a)).
Proof.
  intros cf w dflt cap a W Wm Nf Hd Hc. unfold strbuf_create_empty. change (match a with Some a => a | None => dflt end) with (chosen dflt a).
  rewrite Hd, (proj2 (Z.leb_le cap _)) by lia. cbn [andb]. now apply create_created.
Qed.
Lemma create_empty_none : forall cf w dflt cap a, is_dyn (chosen dflt a) = false \/ INT_MAX < cap ->
  strbuf_create_empty cf w dflt cap a = Ok (null, w).
Proof.
  intros cf w dflt cap a H. unfold strbuf_create_empty. change (match a with Some a => a | None => dflt end) with (chosen dflt a).
  destruct H as [->|H]; auto. rewrite (proj2 (Z.leb_gt cap _)) by lia. now rewrite andb_false_r.
Qed.

(** Text, or an invalid view (no text). *)
Lemma create_init_ok : forall cf w dflt v l a, wf_cfg cf -> c_ptr cf = true -> mem_wf (s_mem w) -> no_fail w ->
  is_dyn (chosen dflt a) = true ->
  (v = INVALID /\ l = [] \/ has_view (s_mem w) v l /\ exists b, p_obj (v_data v) = PBlk b) ->
  sums_ok cf (Zlen l) ->
  created cf w (strbuf_create_init cf w dflt v a) (Buffer l (Zlen l) (chosen dflt a)).
Proof.
  intros cf w dflt v l a W Hc Wm Nf Hd Hv Hs. unfold strbuf_create_init. change (match a with Some a => a | None => dflt end) with (chosen dflt a).
  rewrite Hd. set (al := chosen dflt a) in *.
  assert (v_size v = Zlen l /\ Zlen l <= INT_MAX) as [Hsz Hmax].
  { destruct Hv as [[-> ->]|[(_ & E & E2 & _) _]]; auto. split; [reflexivity|]. now rewrite Zlen_nil. }
  rewrite Hsz. pose proof (Zlen_nonneg l) as Z1.
  destruct (create_buf_ok cf w (Zlen l) al W Wm Nf Hd ltac:(lia)) as (k & w' & E & Em & HI & Wm' & Nf' & _).
  rewrite E. cbn [bind]. set (b := length (s_mem w)) in *.
  assert (nth_error (s_mem w') b = Some k) as Hn. { rewrite Em, nth_error_app2 by lia. unfold b. now rewrite Nat.sub_diag. }
  assert (buf_at cf (s_mem w') (Ptr (PBlk b) 0) (Buffer [] (Zlen l) al)) as HB by (exists b, k; auto).
  assert (source cf (s_mem w') (Ptr (PBlk b) 0) (Buffer [] (Zlen l) al) v l) as Hsrc.
  { destruct Hv as [[-> ->]|[HV (b0 & Eb)]]; [constructor|].
    destruct (has_view_block _ _ _ _ HV Eb) as (k0 & K1 & K2 & K3 & K4 & K5).
    assert (b0 <> b) as Ne by (apply nth_error_lt in K1; unfold b; lia).
    constructor.
    - destruct HV as (_ & HV). split; auto. destruct v as [[vo vf] vs]. cbn [v_data p_obj p_ofs] in *. subst vo.
      apply (chars_bytes (s_mem w') b0 k0); auto. rewrite Em, nth_error_app1; auto. apply nth_error_lt in K1. auto.
    - split; eauto. left. rewrite Eb. cbn [p_obj]. congruence. }
  destruct (insert_ok cf w' (Ptr (PBlk b) 0) _ 0 v l W Hc Wm' Nf' HB Hsrc) as (p' & w2 & -> & HB2 & Ht & Wm2 & Nf2 & Hp).
  { unfold INT_MIN, INT_MAX. lia. }
  { cbn [bf_data]. now rewrite Zlen_nil. }
  rewrite Hp in * by (cbn [bf_data bf_cap]; rewrite Zlen_nil; lia).
  exists b, w2. split; auto. split; auto. split.
  - cbn [bf_data] in HB2. rewrite insert_start, app_nil_r in HB2. unfold put in HB2.
    change (fits (Buffer [] (Zlen l) al) l) with (if is_dyn al then Zlen l <=? INT_MAX else Zlen l <=? Zlen l) in HB2.
    rewrite Hd, (proj2 (Z.leb_le _ _)) in HB2 by lia. rewrite grown_same in HB2 by (cbn [bf_cap]; lia). exact HB2.
  - destruct Ht as (b1 & b2 & A1 & A2 & A3 & La & La' & A4 & A5 & A6 & A7 & A8). cbn [p_obj] in A1, A2. injection A1 as <-. injection A2 as <-.
    assert (length (s_mem w') = S b) as Lm by (rewrite Em, app_length; unfold b; cbn; lia).
    split; [|split]; auto.
    + intros i Hi. rewrite A5 by lia. rewrite Em. now rewrite nth_error_app1.
    + intros i k0 Hi Ne Hk. apply (A6 i k0); auto. unfold b in *. lia.
Qed.

(** ** Fixed buffers *)
Lemma create_fixed_ok : forall cf (m : mem) b k o n, wf_cfg cf -> mem_wf m -> nth_error m b = Some k -> b_live k = true ->
  0 <= o -> o + n <= b_size k -> hdr_size cf < n -> (b_base k + o) mod c_ptrbytes cf = 0 ->
  exists m', strbuf_create_fixed cf m (Ptr (PBlk b) o) n = Ok (Ptr (PBlk b) o, m') /\
    buf_at cf m' (Ptr (PBlk b) o) (Buffer [] (Z.min (n - hdr_size cf - 1) INT_MAX) (Alloc 0 None)) /\
    frame m m' b o (o + n) /\ mem_wf m'.
Proof.
  intros cf m b k o n W Wm Hn L O Fi Hh Al. pose proof (hdr_size_pos cf W) as Hp. unfold strbuf_create_fixed.
  rewrite (proj2 (Z.ltb_lt _ n)) by lia. cbn [is_null p_obj negb andb addr p_ofs]. rewrite Hn, Al. cbn [Z.eqb].
  replace (if n - hdr_size cf - 1 <=? INT_MAX then n - hdr_size cf - 1 else INT_MAX) with (Z.min (n - hdr_size cf - 1) INT_MAX).
  2:{ destruct (n - hdr_size cf - 1 <=? INT_MAX) eqn:E; [apply Z.leb_le in E|apply Z.leb_gt in E]; lia. }
  set (cap := Z.min (n - hdr_size cf - 1) INT_MAX). assert (0 <= cap <= n - hdr_size cf - 1) as Hc by (unfold cap, INT_MAX; lia).
  assert (cap <= INT_MAX) as Hc2 by (unfold cap; lia). clearbody cap.
  assert (holder cf m b o k) as Hho by (constructor; auto; lia).
  destruct (store_hdr_sets cf m b o k (Hdr 0 cap (Alloc 0 None)) Hho) as (k1 & E1 & S1 & G1).
  rewrite E1. cbn [bind]. pose proof S1 as (U1 & U2 & U3 & U4).
  assert (nth_error (upd m b k1) b = Some k1) as N1 by (eapply nth_upd; eauto).
  destruct (close_ok cf (upd m b k1) b o k1 [] 0 cap (Alloc 0 None) W N1) as (k3 & X3 & S3 & HI3 & G3).
  - congruence.
  - lia.
  - congruence.
  - rewrite U2. lia.
  - intros i Hi. rewrite G1. rin. f_equal. lia.
  - apply chars_nil.
  - constructor.
  - rewrite Zlen_nil. lia.
  - discriminate.
  - rewrite Zlen_nil in X3, G3. unfold empty_buf. rewrite X3, upd_upd. cbn [bind]. eexists. split; [reflexivity|].
    pose proof (shape_trans _ _ _ S1 S3) as S13. split; [|split].
    + exists b, k3. split; auto. split; [eapply nth_upd; eauto|exact HI3].
    + split; [apply upd_len|]. split; [intros i Ne; now apply nth_error_upd_neq|]. intros k0 H0. rewrite H0 in Hn. injection Hn as ->.
      exists k3. split; [eapply nth_upd; eauto|]. destruct S13 as (V1 & V2 & V3 & V4). do 4 (split; auto).
      intros i Hi. rewrite G3 by lia. rewrite G1. rin. reflexivity.
    + eapply mem_wf_upd; eauto.
Qed.
(** Too small, null, or misaligned: refused, and nothing is written. *)
Lemma create_fixed_none : forall cf (m : mem) a n,
  n <= hdr_size cf \/ is_null a = true \/ (exists z, addr m a = Some z /\ z mod c_ptrbytes cf <> 0) ->
  strbuf_create_fixed cf m a n = Ok (null, m).
Proof.
  intros cf m a n H. unfold strbuf_create_fixed. destruct (hdr_size cf <? n) eqn:E; auto. apply Z.ltb_lt in E.
  destruct H as [H|[H|(z & Ez & Hz)]]; [lia|now rewrite H|]. destruct (negb (is_null a)); auto. cbn [andb].
  rewrite Ez. now rewrite (proj2 (Z.eqb_neq _ 0)).
Qed.
Lemma static_ok : forall cf base cap, wf_cfg cf -> base mod c_ptrbytes cf = 0 -> 0 <= cap <= INT_MAX ->
  buf_in cf (static_buf_block cf base cap) 0 (Buffer [] cap (Alloc 0 None)).
Proof.
  intros cf base cap W Al Hc. pose proof (hdr_size_pos cf W) as Hp. apply buf_in_intro; cbn [static_buf_block b_live b_base b_size b_get]; auto; try lia.
  - now rewrite Z.add_0_r.
  - intros i Hi. cbn [static_buf_block b_get]. rewrite (proj2 (Z.ltb_lt _ _)) by lia. reflexivity.
  - intros i Hi. change (Zlen ([] ++ [0])) with 1 in Hi. replace i with 0 by lia. cbn [static_buf_block b_get].
    rewrite (proj2 (Z.ltb_ge _ _)) by lia. reflexivity.
  - discriminate.
Qed.

(** ** Destruction *)
Lemma free_ok : forall cf w b k a, nth_error (s_mem w) b = Some k -> b_live k = true -> b_owner k = Heap a ->
  alloc_call cf w a (Ptr (PBlk b) 0) 0 = Ok (null, St (kill_at (s_mem w) b) (s_orc w)).
Proof.
  intros cf w b k a Hn L Ow. unfold alloc_call. cbn [is_null p_obj]. unfold owned. cbn [p_obj p_ofs].
  rewrite Hn, L, Ow, alloc_eqb_refl. reflexivity.
Qed.
Lemma freed_kill : forall m b, freed m (kill_at m b) b.
Proof.
  intros m b. unfold kill_at. destruct (nth_error m b) as [k|] eqn:E.
  - split; [apply upd_len|]. split; [intros i Ne; now apply nth_error_upd_neq|].
    intros k' H. rewrite (nth_upd m b k _ E) in H. injection H as <-. reflexivity.
  - split; [auto|]. split; auto. intros k' H. congruence.
Qed.
Lemma destroy_buf_ok : forall cf w p B, wf_cfg cf -> mem_wf (s_mem w) -> no_fail w -> buf_at cf (s_mem w) p B -> dyn B = true ->
  exists b, p_obj p = PBlk b /\ destroy_buf cf w p = Ok (St (kill_at (s_mem w) b) (s_orc w)).
Proof.
  intros cf w p B W Wm Nf HB D. unfold destroy_buf. rewrite (buf_at_load cf (s_mem w) p B W HB). cbn [bind hdr_of h_alloc].
  change (is_dyn (bf_alloc B)) with (dyn B). rewrite D. destruct HB as (b & k & E1 & E2 & L & O & Al & Fi & H & Da & T & By & C & Dy).
  destruct (Dy D) as (O0 & Ow & Sz). exists b. split; auto. destruct p as [po o]. cbn [p_obj p_ofs] in *. subst po o.
  now rewrite (free_ok cf w b k (bf_alloc B)).
Qed.
Lemma destroy_dyn_ok : forall cf w p B, wf_cfg cf -> mem_wf (s_mem w) -> no_fail w -> buf_at cf (s_mem w) p B -> dyn B = true ->
  exists b w', p_obj p = PBlk b /\ strbuf_destroy cf w (Some p) = Ok (Some null, w') /\ freed (s_mem w) (s_mem w') b /\
    mem_wf (s_mem w') /\ no_fail w'.
Proof.
  intros cf w p B W Wm Nf HB D. destruct (destroy_buf_ok cf w p B W Wm Nf HB D) as (b & E1 & E2).
  exists b, (St (kill_at (s_mem w) b) (s_orc w)). split; auto. split; [|split; [|split]]; auto.
  - unfold strbuf_destroy. rewrite (buf_at_nonnull _ _ _ _ HB). unfold buf_is_dynamic. rewrite (buf_at_load cf (s_mem w) p B W HB).
    cbn [bind hdr_of h_alloc]. change (is_dyn (bf_alloc B)) with (dyn B). rewrite D. now rewrite E2.
  - apply freed_kill.
  - now apply mem_wf_kill.
Qed.
Lemma destroy_fixed_ok : forall cf w p B, wf_cfg cf -> buf_at cf (s_mem w) p B -> dyn B = false ->
  strbuf_destroy cf w (Some p) = Ok (Some null, w).
Proof.
  intros cf w p B W HB D. unfold strbuf_destroy. rewrite (buf_at_nonnull _ _ _ _ HB). unfold buf_is_dynamic. rewrite (buf_at_load cf (s_mem w) p B W HB).
  cbn [bind hdr_of h_alloc]. change (is_dyn (bf_alloc B)) with (dyn B). now rewrite D.
Qed.

(** ** Resizing an allocation *)
Lemma resize_ok : forall cf w b k a n, wf_cfg cf -> mem_wf (s_mem w) -> no_fail w -> nth_error (s_mem w) b = Some k ->
  b_live k = true -> b_owner k = Heap a -> 0 < n -> b_base k mod c_ptrbytes cf = 0 ->
  exists b' k' w', alloc_call cf w a (Ptr (PBlk b) 0) n = Ok (Ptr (PBlk b') 0, w') /\
    nth_error (s_mem w') b' = Some k' /\ b_live k' = true /\ b_owner k' = Heap a /\ b_size k' = n /\ b_base k' mod c_ptrbytes cf = 0 /\
    (forall i, b_get k' i = if i <? b_size k then b_get k i else CUndef) /\ mem_wf (s_mem w') /\ no_fail w' /\
    (b' = b /\ s_mem w' = upd (s_mem w) b k' \/ b' = length (s_mem w) /\ s_mem w' = kill_at (s_mem w) b ++ [k']).
Proof.
  intros cf w b k a n W Wm Nf E2 L Ow Hpos Al. unfold alloc_call. cbn [is_null p_obj]. unfold owned. cbn [p_obj p_ofs].
  rewrite E2, L, Ow, alloc_eqb_refl. cbn [Z.eqb andb bind]. rewrite (proj2 (Z.eqb_neq n 0)) by lia. rewrite (Nf O).
  set (m := s_mem w) in *. pose proof (nth_error_lt _ _ _ E2) as Hlt.
  destruct (negb (ch_move (s_orc w 0)) && place_ok cf (kill_at m b) (b_base k) n) eqn:Em.
  - apply andb_true_iff in Em as [_ Ep]. apply place_ok_spec in Ep as [Pb Pd].
    exists b, (resize k n). eexists. split; [reflexivity|]. cbn [s_mem resize b_live b_owner b_size b_base b_get].
    split; [eapply nth_upd; eauto|]. do 5 (split; auto). split; [|split; [|auto]].
    + apply (mem_wf_replace m b k); auto.
      * cbn [resize b_size]. lia.
      * intros i ki Ne Hi Li. unfold apart. cbn [resize b_base b_size].
        rewrite <- (kill_at_neq m b i Ne) in Hi. destruct (Pd ki (nth_error_In _ _ Hi) Li); auto.
    + intros j. apply (Nf (S j)).
  - destruct (place_spec cf m (s_orc w O) n W) as (P1 & P2 & P3).
    set (k' := new_block a (place cf m (s_orc w 0) n) n (fun i => if i <? b_size k then b_get k i else CUndef)).
    exists (length m), k'. eexists. split; [reflexivity|]. cbn [s_mem].
    assert (length (kill_at m b) = length m) as Lk by apply kill_at_len.
    split. { rewrite nth_error_app2 by lia. now rewrite Lk, Nat.sub_diag. }
    do 5 (split; auto). split; [|split; [|auto]].
    + apply mem_wf_snoc; [now apply mem_wf_kill|exact P1|cbn [k' new_block b_size]; lia|].
      intros i ki Hi Li. unfold apart. cbn [k' new_block b_base b_size].
      destruct (Nat.eq_dec i b) as [->|Ne].
      * rewrite (kill_at_some m b k E2) in Hi. rewrite (nth_upd m b k _ E2) in Hi. injection Hi as <-. discriminate Li.
      * rewrite kill_at_neq in Hi by auto. destruct (P3 ki (nth_error_In _ _ Hi) Li); auto.
    + intros j. apply (Nf (S j)).
Qed.

(** ** Conversion to a C string *)
Lemma store_byte_sets : forall (m : mem) b k o z, nth_error m b = Some k -> b_live k = true -> 0 <= o < b_size k ->
  sets m b k (fun i => if inr o 1 i then CByte (z mod 256) else b_get k i) (store_byte m (Ptr (PBlk b) o) z).
Proof. intros m b k o z Hn L Ho. unfold store_byte. apply (store_cells_sets m b k o 1 (fun _ => CByte (z mod 256))); auto; lia. Qed.

Lemma to_cstr_dyn_ok : forall cf w p B, wf_cfg cf -> mem_wf (s_mem w) -> no_fail w -> buf_at cf (s_mem w) p B -> dyn B = true ->
  exists str w', strbuf_to_cstr cf w (Some p) = Ok (str, Some null, w') /\ detached w w' p str (bf_alloc B) (bf_data B).
Proof.
  intros cf w p B W Wm Nf HB D. pose proof (hdr_size_pos cf W) as Hp. pose proof (Zlen_nonneg (bf_data B)) as Z1.
  unfold strbuf_to_cstr. rewrite (on_buf_ok cf (s_mem w) p B) by auto.
  rewrite (buf_at_load cf (s_mem w) p B W HB). cbn [bind hdr_of h_alloc h_size]. change (is_dyn (bf_alloc B)) with (dyn B). rewrite D.
  pose proof (buf_at_bytes cf (s_mem w) p B W HB) as Hby. apply bytes_at_app in Hby as [Hby _].
  pose proof HB as (b & k & E1 & E2 & HI). pose proof HI as (L & O & Al & Fi & H & Da & T & By & C & Dy).
  destruct (Dy D) as (O0 & Ow & Sz). destruct p as [po o]. cbn [p_obj p_ofs] in *. subst po o. rewrite Z.add_0_r in Al.
  destruct (memmove_bytes cf (s_mem w) b k 0 (chars_of cf (Ptr (PBlk b) 0)) (bf_data B) E2 L ltac:(lia) ltac:(lia) Hby) as (k1 & X1 & S1 & G1).
  change (cstr_of cf (Ptr (PBlk b) 0)) with (chars_of cf (Ptr (PBlk b) 0)). rewrite X1. cbn [bind]. pose proof S1 as (U1 & U2 & U3 & U4).
  rewrite Z.mod_small.
  2:{ destruct W as [_ [E|E]]; rewrite E; unfold INT_MAX in *; [change (2 ^ (8 * 4)) with 4294967296|change (2 ^ (8 * 8)) with 18446744073709551616]; lia. }
  assert (nth_error (upd (s_mem w) b k1) b = Some k1) as N1 by (eapply nth_upd; eauto).
  destruct (resize_ok cf (with_mem w (upd (s_mem w) b k1)) b k1 (bf_alloc B) (Zlen (bf_data B) + 1) W) as
    (b' & k2 & w2 & -> & N2 & L2 & Ow2 & Sz2 & Al2 & G2 & Wm2 & Nf2 & Hm2); auto; try congruence; try lia.
  { cbn [with_mem s_mem]. eapply mem_wf_upd; eauto. }
  cbn [bind]. cbn [with_mem s_mem] in Hm2. rewrite upd_len in Hm2.
  assert (padd cf (s_mem w2) (Ptr (PBlk b') 0) (Zlen (bf_data B)) = Ok (Ptr (PBlk b') (Zlen (bf_data B)))) as ->.
  { unfold padd. cbn [p_obj p_ofs]. destruct (c_ptr cf); [reflexivity|]. rewrite (access_ok _ _ _ N2 L2). cbn [bind]. unfold in_block.
    rewrite (proj2 (Z.leb_le 0 _)), (proj2 (Z.leb_le _ (b_size k2))) by lia. reflexivity. }
  cbn [bind]. destruct (store_byte_sets (s_mem w2) b' k2 (Zlen (bf_data B)) 0 N2 L2 ltac:(lia)) as (k3 & X3 & S3 & G3).
  rewrite X3. cbn [bind]. eexists _, _. split; [reflexivity|]. pose proof S3 as (V1 & V2 & V3 & V4).
  pose proof (nth_error_lt _ _ _ E2) as Hlt.
  exists b, b', k3. cbn [with_mem s_mem]. split; auto. split; auto. split; [eapply nth_upd; eauto|].
  split; [congruence|]. split; [congruence|]. split; [congruence|]. split; [|split; [|split; [|split; [|split]]]].
  - apply (chars_bytes _ b' k3); try congruence; try lia.
    + eapply nth_upd; eauto.
    + rewrite Zlen_app, V2. change (Zlen [0]) with 1. lia.
    + apply chars_app. split.
      * intros i Hi. rewrite G3. rin. rewrite G2. rewrite (proj2 (Z.ltb_lt _ (b_size k1))) by lia. rewrite G1. rin. f_equal. f_equal. lia.
      * intros i Hi. change (Zlen [0]) with 1 in Hi. replace i with 0 by lia. rewrite G3. rin. reflexivity.
  - intros i Ne Hi. destruct Hm2 as [[-> Em]|[-> Em]].
    + rewrite Em, upd_upd, upd_upd. now apply nth_error_upd_neq.
    + rewrite nth_error_upd_neq by lia. rewrite Em. rewrite nth_error_app1 by (rewrite kill_at_len, upd_len; lia).
      rewrite kill_at_neq by auto. now apply nth_error_upd_neq.
  - intros i k0 Hi Ne Hk. exfalso. apply nth_error_lt in Hk. rewrite upd_len in Hk. destruct Hm2 as [[-> Em]|[-> Em]]; rewrite Em in Hk.
    + rewrite !upd_len in Hk. lia.
    + rewrite app_length, kill_at_len, upd_len in Hk. cbn in Hk. lia.
  - destruct Hm2 as [[-> Em]|[-> Em]]; auto. right. split; [lia|]. intros k0 Hk. rewrite nth_error_upd_neq in Hk by lia. rewrite Em in Hk.
    rewrite nth_error_app1 in Hk by (rewrite kill_at_len, upd_len; lia). rewrite (kill_at_some _ _ _ N1) in Hk.
    rewrite (nth_upd _ _ _ _ N1) in Hk. injection Hk as <-. reflexivity.
  - eapply mem_wf_upd; eauto.
  - exact Nf2.
Qed.

Lemma to_cstr_fixed_ok : forall cf w p B, wf_cfg cf -> mem_wf (s_mem w) -> no_fail w -> buf_at cf (s_mem w) p B -> dyn B = false ->
  exists w', strbuf_to_cstr cf w (Some p) = Ok (chars_of cf p, Some null, w') /\
    bytes_at (s_mem w') (chars_of cf p) (bf_data B ++ [0]) /\ buf_at cf (s_mem w') p B /\
    touches cf (s_mem w) (s_mem w') p p B /\ mem_wf (s_mem w') /\ no_fail w'.
Proof.
  intros cf w p B W Wm Nf HB D. pose proof (hdr_size_pos cf W) as Hp. pose proof (Zlen_nonneg (bf_data B)) as Z1.
  unfold strbuf_to_cstr. rewrite (on_buf_ok cf (s_mem w) p B) by auto.
  rewrite (buf_at_load cf (s_mem w) p B W HB). cbn [bind hdr_of h_alloc h_size]. change (is_dyn (bf_alloc B)) with (dyn B). rewrite D. cbn [bind].
  pose proof HB as (b & k & E1 & E2 & HI). pose proof HI as (L & O & Al & Fi & H & Da & T & By & C & Dy).
  destruct p as [po o]. cbn [p_obj p_ofs] in *. subst po.
  change (padd cf (s_mem w) (cstr_of cf (Ptr (PBlk b) o)) (Zlen (bf_data B))) with (char_at cf (s_mem w) (Ptr (PBlk b) o) (Zlen (bf_data B))).
  rewrite (char_at_ok cf (s_mem w) b o k) by (auto; lia). cbn [bind].
  destruct (store_byte_sets (s_mem w) b k (o + hdr_size cf + Zlen (bf_data B)) 0 E2 L ltac:(lia)) as (k3 & X3 & S3 & G3).
  rewrite X3. cbn [bind]. eexists. split; [reflexivity|]. cbn [with_mem s_mem].
  assert (forall i, b_get k3 i = b_get k i) as G.
  { intros i. rewrite G3. destruct (inr (o + hdr_size cf + Zlen (bf_data B)) 1 i) eqn:E; auto.
    unfold inr in E. apply andb_true_iff in E as [Ea Eb]. apply Z.leb_le in Ea. apply Z.ltb_lt in Eb.
    replace i with (o + hdr_size cf + Zlen (bf_data B)) by lia. now rewrite T. }
  assert (buf_in cf k3 o B) as HI3.
  { destruct S3 as (V1 & V2 & V3 & V4). unfold buf_in. rewrite V1, V2, V3, V4. repeat split; auto; try tauto; intros; rewrite G; auto. }
  destruct (in_place cf (s_mem w) b o k k3 B B Wm E2 S3 HI3 (fun i _ => G i)) as (Q1 & Q2 & Q3).
  split; [|split; [|split]]; auto. exact (buf_at_bytes cf _ _ B W Q1).
Qed.
