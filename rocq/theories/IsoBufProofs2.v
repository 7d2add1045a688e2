(** Buffer programs under the letter of ISO C: calls and programs. *)
From Verif Require Import Base Mem Libc StrviewModel Spec MemLemmas Alloc StrbufModel BufSpec HistSpec StrbufProofs StrbufProofs2 StrbufProofs3 StrbufProofs4
  StrbufProofs5 StrbufProofs6 StrbufProofs7 StrbufProofs8 StrbufHistory PortSpec PortProg IsoBufSpec IsoBufProofs.

(** ** The object of an argument *)
Lemma arg_obj : forall cf T a vars w s v, wf_cfg cf -> means cf T a vars w -> src_legal T a s -> the_view cf vars w s = Ok v ->
  p_obj (v_data v) = obj_of vars a s.
Proof.
  intros cf T a vars w s v W M Hl E. destruct s as [|v0 l|k b e|k i n]; cbn [the_view obj_of src_legal] in *.
  - injection E as <-. reflexivity.
  - now injection E as <-.
  - destruct Hl as ((Bk & Hk) & Hb & He). pose proof (slot_in a k _ Hk ltac:(congruence)) as Lk.
    pose proof (mn_slot _ _ _ _ _ M k Lk) as HBk. rewrite Hk in HBk |- *. cbn [slot_rel data_of] in *.
    rewrite (view_of_var cf (s_mem w) w (var vars k) Bk W eq_refl HBk) in E. cbn [bind] in E.
    pose proof (cut_ok cf (s_mem w) _ _ b e (buf_at_view cf (s_mem w) _ _ W HBk) Hb He) as Hc.
    destruct (cut (bf_data Bk) b e) as [[[x y] z]|]; [destruct Hc as (_ & Hc)|]; rewrite Hc in E; injection E as <-; reflexivity.
  - destruct Hl as ((Bk & Hk & Hin) & Hi & Hn). pose proof (slot_in a k _ Hk ltac:(congruence)) as Lk.
    pose proof (mn_slot _ _ _ _ _ M k Lk) as HBk. rewrite Hk in HBk. cbn [slot_rel] in HBk.
    destruct (at_cut (bf_data Bk) i n Hi Hn Hin) as (x & y & z & Ed & <- & <- & Ey).
    rewrite (view_at_ok cf w (var vars k) Bk x y z W HBk Ed) in E. injection E as <-. reflexivity.
Qed.
Lemma args_obj : forall cf T a vars w ss vs, wf_cfg cf -> means cf T a vars w -> Forall (src_legal T a) ss -> the_views cf vars w ss = Ok vs ->
  map (fun v => p_obj (v_data v)) vs = map (obj_of vars a) ss.
Proof.
  intros cf T a vars w ss. induction ss as [|s ss IH]; intros vs W M Hl E; cbn [the_views] in E.
  - now injection E as <-.
  - inversion Hl as [|? ? H1 H2]; subst. destruct (the_view cf vars w s) as [v| |] eqn:Ev; try discriminate. cbn [bind] in E.
    destruct (the_views cf vars w ss) as [vs'| |] eqn:Es; try discriminate. injection E as <-. cbn [map]. rewrite (arg_obj cf T a vars w s v) by auto. f_equal. auto.
Qed.
Lemma far_near : forall vars a j s v, p_obj (v_data v) = obj_of vars a s -> far vars a j s = false -> p_obj (v_data v) = p_obj (var vars j).
Proof. intros vars a j s v E F. unfold far in F. apply negb_false_iff in F. apply pobj_eqb_eq in F. congruence. Qed.
Lemma far_far : forall vars a j s v, p_obj (v_data v) = obj_of vars a s -> far vars a j s = true -> pobj_eqb (p_obj (v_data v)) (p_obj (var vars j)) = false.
Proof. intros vars a j s v E F. unfold far in F. apply negb_true_iff in F. now rewrite E. Qed.
Lemma all_near : forall vars a j ss vs, map (fun v => p_obj (v_data v)) vs = map (obj_of vars a) ss -> existsb (far vars a j) ss = false -> Forall (near (var vars j)) vs.
Proof.
  intros vars a j ss. induction ss as [|s ss IH]; intros [|v vs] E H; try discriminate; constructor; cbn [map existsb] in *; apply orb_false_iff in H as [H1 H2]; injection E as E1 E2.
  - eapply far_near; eauto.
  - auto.
Qed.
Lemma some_far : forall vars a j ss vs, map (fun v => p_obj (v_data v)) vs = map (obj_of vars a) ss -> existsb (far vars a j) ss = true ->
  Exists (fun v => pobj_eqb (p_obj (v_data v)) (p_obj (var vars j)) = false) vs.
Proof.
  intros vars a j ss. induction ss as [|s ss IH]; intros [|v vs] E H; try discriminate. cbn [map existsb] in *. injection E as E1 E2.
  destruct (far vars a j s) eqn:F; [left; eapply far_far; eauto|right; auto].
Qed.

(** ** Calls that are undefined *)
Lemma call_ub : forall vars j r u, r = UB u -> exists u', call vars j r = UB u'.
Proof. intros vars j r u ->. cbn. eauto. Qed.
Lemma iso_undefined_ub : forall cf T a vars w o, wf_cfg cf -> c_ptr cf = false -> c_wrapv cf = false -> means cf T a vars w -> legal cf T a o ->
  iso_buf_undefined vars a o = true -> exists u, exec cf vars w o = UB u.
Proof.
  intros cf T a vars w o W Hc Hw M Hl Hu. pose proof (mn_wf _ _ _ _ _ M) as Wm. pose proof (mn_fail _ _ _ _ _ M) as Nf.
  assert (forall j B, slot_of a j = ABuf B -> buf_at cf (s_mem w) (var vars j) B) as HA.
  { intros j B Hj. pose proof (slot_in a _ _ Hj ltac:(congruence)) as Lj. pose proof (mn_slot _ _ _ _ _ M _ Lj) as HB. rewrite Hj in HB. exact HB. }
  destruct o; cbn [iso_buf_undefined legal exec target buf_legal] in *; try discriminate Hu.
  - destruct Hl as (B & Hj & L1 & L2). destruct (arg_ok cf T a vars w j B s W M Hj L1) as (v & Ev & Ca). rewrite Ev. cbn [bind]. eapply call_ub.
    unfold strbuf_append_strview. rewrite (on_buf_ok cf (s_mem w) _ B) by auto. rewrite (buf_at_load cf _ _ B W (HA j B Hj)). cbn [bind].
    rewrite insert_far; [reflexivity|auto|]. eapply far_far; [eapply arg_obj; eauto|auto].
  - destruct Hl as (B & Hj & L1 & L2). destruct (arg_ok cf T a vars w j B s W M Hj L1) as (v & Ev & Ca). rewrite Ev. cbn [bind]. eapply call_ub.
    unfold strbuf_prepend_strview. rewrite (on_buf_ok cf (s_mem w) _ B) by auto.
    rewrite insert_far; [reflexivity|auto|]. eapply far_far; [eapply arg_obj; eauto|auto].
  - destruct Hl as (B & Hj & L1 & L2). destruct (arg_ok cf T a vars w j B s W M Hj L1) as (v & Ev & Ca). rewrite Ev. cbn [bind]. eapply call_ub.
    unfold strbuf_insert_at_index_strview. rewrite (on_buf_ok cf (s_mem w) _ B) by auto.
    rewrite insert_far; [reflexivity|auto|]. eapply far_far; [eapply arg_obj; eauto|auto].
  - (* before *) destruct Hl as (B & Hj & L0 & L1 & L2). destruct (arg_ok cf T a vars w j B s W M Hj L1) as (v & Ev & Ca).
    destruct (arg_ok cf T a vars w j B d W M Hj L0) as (dv & Ed & Cd). rewrite Ev, Ed. cbn [bind]. eapply call_ub.
    unfold strbuf_insert_before_strview. rewrite (on_buf_ok cf (s_mem w) _ B) by auto.
    destruct (far vars a j d) eqn:Fd; [rewrite at_ptr_far; [reflexivity|auto|exact (far_far _ _ _ _ _ (arg_obj cf T a vars w d dv W M L0 Ed) Fd)]|]. cbn [orb] in Hu.
    apply andb_true_iff in Hu as [Hp Hf].
    destruct Cd as [(_ & _ & _ & Pd)|[(_ & _ & _ & Pd)|(_ & x & y & z & E1 & E2 & -> & _ & Pd)]]; rewrite Pd in Hp; try discriminate Hp. cbn [v_data].
    rewrite (insert_at_ptr_in cf w _ B (Zlen x) v (text_of a s)); auto; [|eapply arg_source; eauto|rewrite E1; zl].
    rewrite insert_far; [reflexivity|auto|]. exact (far_far _ _ _ _ _ (arg_obj cf T a vars w s v W M L1 Ev) Hf).
  - (* after *) destruct Hl as (B & Hj & L0 & L1 & L2). destruct (arg_ok cf T a vars w j B s W M Hj L1) as (v & Ev & Ca).
    destruct (arg_ok cf T a vars w j B d W M Hj L0) as (dv & Ed & Cd). rewrite Ev, Ed. cbn [bind]. eapply call_ub.
    unfold strbuf_insert_after_strview. rewrite (on_buf_ok cf (s_mem w) _ B) by auto.
    pose proof (arg_obj cf T a vars w d dv W M L0 Ed) as Od.
    destruct Cd as [(-> & _ & _ & Pd)|[(V1 & V2 & _ & Pd)|(_ & x & y & z & E1 & E2 & -> & _ & Pd)]]; rewrite Pd in Hu; cbn [is_some andb] in Hu.
    + rewrite orb_false_r in Hu. rewrite <- Od in Hu. discriminate Hu.
    + rewrite orb_false_r in Hu. apply andb_true_iff in Hu as [_ Fd]. rewrite (has_view_valid _ _ _ V1).
      pose proof V1 as (Hb & Hsz & _). pose proof (Zlen_nonneg (text_of a d)). rewrite Hsz, (padd_ok cf (s_mem w) (v_data dv) (text_of a d)) by (auto; lia). cbn [bind].
      rewrite at_ptr_far; [reflexivity|auto|]. rewrite shift_obj. eapply far_far; eauto.
    + unfold far in Hu at 1. rewrite <- Od in Hu. cbn [v_data] in Hu. unfold chars_of in Hu. rewrite !shift_obj, pobj_eqb_refl in Hu. rewrite andb_false_r in Hu. cbn [orb negb] in Hu.
      pose proof (HA j B Hj) as HB. destruct (buf_at_cap _ _ _ _ HB) as [C _].
      assert (strview_is_valid (View (shift (chars_of cf (var vars j)) (Zlen x)) (Zlen y)) = true) as ->.
      { unfold strview_is_valid. cbn [v_data]. pose proof HB as (b & k & X1 & _). unfold is_null, chars_of. rewrite !shift_obj, X1. reflexivity. }
      cbn [v_data v_size].
      assert (padd cf (s_mem w) (shift (chars_of cf (var vars j)) (Zlen x)) (Zlen y) = Ok (shift (chars_of cf (var vars j)) (Zlen x + Zlen y))) as ->.
      { pose proof HB as (b & k & X1 & X2 & HI). destruct (var vars j) as [po o]. cbn [p_obj p_ofs] in X1, HI. subst po. destruct HI as (L & O & _ & F & _).
        pose proof (hdr_size_pos cf W). unfold chars_of, shift. cbn [p_obj p_ofs]. rewrite (padd_in cf _ b _ k) by (auto; rewrite E1 in C; zl). do 2 f_equal. lia. }
      cbn [bind]. rewrite (insert_at_ptr_in cf w _ B (Zlen x + Zlen y) v (text_of a s)); auto; [|eapply arg_source; eauto|rewrite E1; zl].
      rewrite insert_far; [reflexivity|auto|]. exact (far_far _ _ _ _ _ (arg_obj cf T a vars w s v W M L1 Ev) Hu).
  - (* cat *) destruct Hl as (B & Hj & L1 & L2). destruct (args_ok cf T a vars w j B ss W M Hj L1) as (vs & Ev & F & E). rewrite Ev. cbn [bind].
    pose proof (args_obj cf T a vars w ss vs W M L1 Ev) as Ov. destruct L2 as [L2|L2]; [congruence|]. change (total (map (text_of a) ss) + c_step cf <= INT_MAX) in L2.
    destruct (existsb (far vars a j) ss) eqn:Ef.
    + unfold strbuf_cat. rewrite (on_buf_ok cf (s_mem w) _ B) by auto. unfold buffer_vcat.
      destruct (measure_far cf (s_mem w) (var vars j) B vs _ W Hc Wm (HA j B Hj) F (some_far _ _ _ _ _ Ov Ef) 0 false false) as (u & ->). cbn. eauto.
    + cbn [orb] in Hu. unfold dynamic in Hu. rewrite Hj, <- E in Hu.
      destruct (cat_temp cf w (var vars j) B vs _ W Hc (all_near _ _ _ _ _ Ov Ef) Wm Nf (HA j B Hj) F L2 Hu) as (u & ->). cbn. eauto.
  - (* init *) destruct Hl as (Hj & Lj & Da & L1 & L2). destruct (arg_alone cf T a vars w s W M L1) as (v & -> & Ca). cbn [bind].
    unfold strbuf_create_init. rewrite Da.
    assert (0 <= v_size v <= INT_MAX) as Hv.
    { destruct Ca as [(-> & _)|((_ & E & E2 & _) & _)]; [cbn; unfold INT_MAX; lia|]. pose proof (Zlen_nonneg (text_of a s)). lia. }
    destruct (create_buf_ok cf w (v_size v) a0 W Wm Nf Da Hv) as (k & w' & -> & _). cbn [bind].
    rewrite insert_far; [cbn; eauto|auto|]. cbn [p_obj]. destruct Ca as [(-> & _)|(HV & b & Eb)]; [reflexivity|]. rewrite Eb. cbn [pobj_eqb].
    apply Nat.eqb_neq. destruct (has_view_block _ _ _ _ HV Eb) as (k0 & K1 & _). pose proof (nth_error_lt _ _ _ K1). lia.
Qed.

(** ** Calls that are defined *)
Lemma iso_buf_call : forall cf T a vars w o B, wf_cfg cf -> c_wrapv cf = false -> means cf T a vars w ->
  slot_of a (target o) = ABuf B -> buf_legal cf T a B o -> refused B o = false -> iso_buf_undefined vars a o = false ->
  match o with OCreate _ _ _ | OInit _ _ _ | ODestroy _ | OToCstr _ | OFree _ _ | OView _ => False | _ => True end ->
  exists r, exec cf vars w o = call vars (target o) r /\ becomes cf w (var vars (target o)) B r (buf_step cf a B o).
Proof.
  intros cf T a vars w o B W Hw M Hj Hl Hr Hu Hk. pose proof (slot_in a _ _ Hj ltac:(congruence)) as Lj.
  pose proof (mn_slot _ _ _ _ _ M _ Lj) as HB. rewrite Hj in HB. cbn [slot_rel] in HB.
  pose proof (mn_wf _ _ _ _ _ M) as Wm. pose proof (mn_fail _ _ _ _ _ M) as Nf.
  destruct o; cbn [exec target buf_legal buf_step refused iso_buf_undefined] in *; try contradiction.
  - (* append *) destruct Hl as (L1 & L2). destruct (arg_ok cf T a vars w j B s W M Hj L1) as (v & Ev & Ca). rewrite Ev. cbn [bind]. eexists. split; [reflexivity|].
    apply append_ok; auto; [right; eapply far_near; [eapply arg_obj; eauto|auto]|]. eapply arg_source; eauto.
  - destruct Hl as (L1 & L2). destruct (arg_ok cf T a vars w j B s W M Hj L1) as (v & Ev & Ca). rewrite Ev. cbn [bind]. eexists. split; [reflexivity|].
    apply prepend_ok; auto; [right; eapply far_near; [eapply arg_obj; eauto|auto]|]. eapply arg_source; eauto.
  - destruct Hl as (L1 & L2 & L3). destruct (arg_ok cf T a vars w j B s W M Hj L1) as (v & Ev & Ca). rewrite Ev. cbn [bind]. eexists. split; [reflexivity|].
    apply insert_at_index_ok; auto; [right; eapply far_near; [eapply arg_obj; eauto|auto]|]. eapply arg_source; eauto.
  - (* before *) destruct Hl as (L0 & L1 & L2). destruct (arg_ok cf T a vars w j B s W M Hj L1) as (v & Ev & Ca).
    destruct (arg_ok cf T a vars w j B d W M Hj L0) as (dv & Ed & Cd). rewrite Ev, Ed. cbn [bind]. eexists. split; [reflexivity|].
    pose proof (arg_source _ _ _ _ _ _ _ _ W HB Ca) as Hs. apply orb_false_iff in Hu as [Fd Fs].
    pose proof (far_near _ _ _ _ _ (arg_obj cf T a vars w d dv W M L0 Ed) Fd) as Nd.
    destruct Cd as [(-> & _ & _ & Pd)|[(V1 & V2 & _ & Pd)|(_ & x & y & z & E1 & E2 & -> & _ & Pd)]]; rewrite Pd in *; cbn [is_some andb] in Fs.
    + destruct HB as (b & k & X & _). rewrite X in Nd. discriminate Nd.
    + destruct (insert_out_near cf w (var vars j) B dv _ v W Wm Nd HB V1 V2) as [-> _]. now apply still.
    + rewrite E1, splice_cut. apply (insert_before_in cf w (var vars j) B x y z v (text_of a s)); auto. right. eapply far_near; [eapply arg_obj; eauto|auto].
  - (* after *) destruct Hl as (L0 & L1 & L2). destruct (arg_ok cf T a vars w j B s W M Hj L1) as (v & Ev & Ca).
    destruct (arg_ok cf T a vars w j B d W M Hj L0) as (dv & Ed & Cd). rewrite Ev, Ed. cbn [bind]. eexists. split; [reflexivity|].
    pose proof (arg_source _ _ _ _ _ _ _ _ W HB Ca) as Hs. apply orb_false_iff in Hu as [Fd Fs].
    pose proof (arg_obj cf T a vars w d dv W M L0 Ed) as Od.
    destruct Cd as [(-> & _ & _ & Pd)|[(V1 & V2 & _ & Pd)|(_ & x & y & z & E1 & E2 & -> & _ & Pd)]]; rewrite Pd in *; cbn [is_some andb] in Fs.
    + unfold strbuf_insert_after_strview. rewrite (on_buf_ok cf (s_mem w) _ B) by auto. cbn [strview_is_valid INVALID v_data is_null null p_obj p_ofs Z.eqb negb].
      rewrite (ret_view_ok cf w _ B W HB). now apply still.
    + assert (pobj_eqb (obj_of vars a d) PNull = false) as En. { rewrite <- Od. destruct V2 as [(b & ->) _]. reflexivity. }
      rewrite En in Fd. cbn [negb andb] in Fd. pose proof (far_near _ _ _ _ _ Od Fd) as Nd.
      destruct (insert_out_near cf w (var vars j) B dv _ v W Wm Nd HB V1 V2) as [_ ->]. now apply still.
    + rewrite E1, <- Zlen_app, app_assoc, splice_cut, <- app_assoc. apply (insert_after_in cf w (var vars j) B x y z v (text_of a s)); auto. right. eapply far_near; [eapply arg_obj; eauto|auto].
  - destruct Hl as (L1 & L2). destruct (arg_ok cf T a vars w j B s W M Hj L1) as (v & -> & Ca). cbn [bind]. eexists. split; [reflexivity|].
    apply assign_ok; auto. eapply arg_source; eauto.
  - (* cat *) destruct Hl as (L1 & L2). destruct (args_ok cf T a vars w j B ss W M Hj L1) as (vs & Ev & F & E). rewrite Ev. cbn [bind]. eexists. split; [reflexivity|].
    apply orb_false_iff in Hu as [Ef Ed]. unfold dynamic in Ed. rewrite Hj, <- E in Ed. destruct L2 as [L2|L2]; [congruence|].
    rewrite <- E. apply cat_near; auto. eapply all_near; eauto. eapply args_obj; eauto.
  - destruct Hl as (L1 & L2). eexists. split; [reflexivity|]. now apply append_char_ok.
  - (* strip *) destruct Hl as (L1 & L2). destruct (arg_ok cf T a vars w j B s W M Hj L1) as (v & -> & Ca). cbn [bind]. eexists. split; [reflexivity|].
    destruct Ca as [(-> & -> & _)|[(V1 & V2 & _)|(Hs & _)]]; [| |destruct s; contradiction].
    + rewrite (strip_invalid cf w (var vars j) B INVALID W HB eq_refl). rewrite without_nil. apply still; auto. now destruct B.
    + apply becomes_at_weak. now apply strip_ok.
  - eexists. split; [reflexivity|]. now apply shrink_ok.
  - destruct (dyn B) eqn:D; [|discriminate]. eexists. split; [reflexivity|]. now apply grow_dyn_ok.
  - destruct Hl as (L1 & L2 & L3). eexists. split; [reflexivity|]. now apply printf_ok.
  - destruct Hl as (L1 & L2 & L3). eexists. split; [reflexivity|]. now apply append_printf_yields.
  - destruct Hl as (L1 & L2 & L3). eexists. split; [reflexivity|]. now apply prnf_ok.
  - destruct Hl as (L1 & L2 & L3). eexists. split; [reflexivity|]. now apply append_prnf_ok.
  - apply negb_false_iff in Hr. rewrite Hr. apply Z.leb_le in Hr. eexists. split; [reflexivity|]. apply becomes_at_weak.
    apply append_using_ok; auto. now apply deliver_ok.
Qed.

Theorem iso_step : forall cf T a vars w o, wf_cfg cf -> c_wrapv cf = false -> means cf T a vars w -> legal cf T a o -> iso_buf_undefined vars a o = false ->
  exists v vars' w', exec cf vars w o = Ok (v, vars', w') /\ read_view (s_mem w') v = Ok (fst (astep cf a o)) /\
    advances cf T a vars w (target o) (snd (astep cf a o)) vars' w'.
Proof.
  intros cf T a vars w o W Hc M Hl Hu. pose proof (mn_wf _ _ _ _ _ M) as Wm. pose proof (mn_fail _ _ _ _ _ M) as Nf.
  assert (forall B, slot_of a (target o) = ABuf B -> buf_legal cf T a B o -> refused B o = false ->
    match o with OCreate _ _ _ | OInit _ _ _ | ODestroy _ | OToCstr _ | OFree _ _ | OView _ => False | _ => True end ->
    exists v vars' w', exec cf vars w o = Ok (v, vars', w') /\ read_view (s_mem w') v = Ok (fst (astep cf a o)) /\
      advances cf T a vars w (target o) (snd (astep cf a o)) vars' w') as Hgen.
  { intros B Hj HB Hr Hk. destruct (iso_buf_call cf T a vars w o B W Hc M Hj HB Hr Hu Hk) as (r & -> & Hb).
    destruct (step_keeps cf a B o) as [K1 K2]. destruct (call_ok cf T a vars w (target o) B r _ W M Hj Hb K1 K2) as (v & vars' & w' & -> & R & V & M').
    rewrite (astep_buf cf a o B Hj) by (destruct o; tauto). rewrite Hr. cbn [fst snd]. exists v, vars', w'. auto. }
  destruct o; cbn [legal] in Hl; try (destruct Hl as (B & Hj & HB); apply (Hgen B Hj HB eq_refl I)).
  - (* grow *) destruct Hl as (B & Hj & HB). destruct (dyn B) eqn:D; [apply (Hgen B Hj HB); auto; cbn [refused]; now rewrite D|].
    pose proof (slot_in a _ _ Hj ltac:(congruence)) as Lj. pose proof (mn_slot _ _ _ _ _ M _ Lj) as HB2. rewrite Hj in HB2. cbn [slot_rel target] in *.
    cbn [exec]. rewrite (grow_fixed_ok cf w (var vars j) B n W HB2 D). cbn [call bind].
    rewrite (astep_buf cf a (OGrow j n) B Hj I). cbn [refused buf_step target fst snd]. rewrite D. cbn [negb fst snd].
    eexists _, _, _. split; [reflexivity|]. split; [reflexivity|]. unfold var at 1. rewrite upd_nth_same. rewrite <- Hj. unfold slot_of. rewrite upd_nth_same. now apply advance_same.
  - (* using *) destruct Hl as (B & Hj & HB). destruct (refused B (OUsing j l)) eqn:Hr; [|now apply (Hgen B Hj HB)].
    pose proof (slot_in a _ _ Hj ltac:(congruence)) as Lj. pose proof (mn_slot _ _ _ _ _ M _ Lj) as HB2. rewrite Hj in HB2. cbn [slot_rel target] in *.
    rewrite (astep_buf cf a (OUsing j l) B Hj I). rewrite Hr. cbn [refused buf_step target fst snd] in *. apply negb_true_iff in Hr. rewrite Hr. apply Z.leb_gt in Hr.
    cbn [exec]. destruct (append_using_bad cf w (var vars j) B (deliver l) (-1) W Wm Nf HB2) as (w' & -> & H1 & H2 & H3 & H4); [now apply deliver_bad|lia|].
    cbn [call bind]. eexists _, _, _. split; [reflexivity|]. split; [reflexivity|].
    apply (means_advance cf T a vars w); auto. rewrite Hj. now apply touches_evolves.
  - (* view *) destruct Hl as (B & Hj & HB). pose proof (slot_in a _ _ Hj ltac:(congruence)) as Lj. pose proof (mn_slot _ _ _ _ _ M _ Lj) as HB2. rewrite Hj in HB2. cbn [slot_rel target] in *.
    cbn [exec]. rewrite (view_of_var cf (s_mem w) w (var vars j) B W eq_refl HB2). cbn [bind]. rewrite (astep_buf cf a (OView j) B Hj I). cbn [refused buf_step target fst snd].
    eexists _, _, _. split; [reflexivity|]. split; [apply read_ok; now apply buf_at_view|]. rewrite <- Hj. unfold slot_of. rewrite upd_nth_same. now apply advance_same.
  - (* create *) destruct Hl as (Hj & Lj & Da & Cc). cbn [exec astep fst snd].
    destruct (create_empty_ok cf w a0 cap None W Wm Nf Da Cc) as (b & w' & -> & H1 & H2 & H3 & H4 & H5 & H6). cbn [made bind].
    eexists _, _, _. split; [reflexivity|]. split; [reflexivity|]. apply (means_advance cf T a vars w); auto.
    pose proof (mn_slot _ _ _ _ _ M _ Lj) as Hn. rewrite Hj in Hn |- *. cbn in Hn. rewrite Hn. now apply created_evolves.
  - discriminate Hu.
  - (* destroy *) destruct Hl as (B & Hj & HB). pose proof (slot_in a _ _ Hj ltac:(congruence)) as Lj. pose proof (mn_slot _ _ _ _ _ M _ Lj) as HB2. rewrite Hj in HB2. cbn [slot_rel target] in *.
    cbn [exec astep fst snd]. destruct (dyn B) eqn:D.
    + destruct (destroy_dyn_ok cf w (var vars j) B W Wm Nf HB2 D) as (b & w' & E & -> & H1 & H2 & H3). cbn [bind].
      eexists _, _, _. split; [reflexivity|]. split; [reflexivity|]. apply (means_advance cf T a vars w); auto; [|reflexivity].
      rewrite Hj. eapply freed_evolves; eauto; congruence.
    + rewrite (destroy_fixed_ok cf w (var vars j) B W HB2 D). cbn [bind].
      eexists _, _, _. split; [reflexivity|]. split; [reflexivity|]. apply (means_advance cf T a vars w); auto; [|reflexivity].
      rewrite Hj. now apply drop_evolves.
  - (* to_cstr *) destruct Hl as (B & Hj & HB). pose proof (slot_in a _ _ Hj ltac:(congruence)) as Lj. pose proof (mn_slot _ _ _ _ _ M _ Lj) as HB2. rewrite Hj in HB2. cbn [slot_rel target] in *.
    cbn [exec astep fst snd]. rewrite Hj. rename HB into D.
    destruct (to_cstr_dyn_ok cf w (var vars j) B W Wm Nf HB2 D) as (str & w' & -> & H1). cbn [bind].
    destruct (detached_evolves cf w w' (var vars j) str B H1 HB2 D) as (E1 & E2 & E3 & E4).
    eexists _, _, _. split; [reflexivity|]. split; [reflexivity|]. apply (means_advance cf T a vars w); auto. now rewrite Hj.
  - (* free *) destruct Hl as (l & Hj). pose proof (slot_in a _ _ Hj ltac:(congruence)) as Lj. pose proof (mn_slot _ _ _ _ _ M _ Lj) as HB2. rewrite Hj in HB2.
    pose proof HB2 as (b & k & E1 & E2 & E3 & E4 & _). cbn [exec astep fst snd]. rewrite E1. rewrite (free_ok cf w b k a0 E2 E3 E4). cbn [bind].
    eexists _, _, _. split; [reflexivity|]. split; [reflexivity|]. apply (means_advance cf T a vars w); auto; cbn [s_mem s_orc].
    + rewrite Hj, E1. eapply freed_evolves; [apply freed_kill|congruence|reflexivity|reflexivity].
    + reflexivity.
    + now apply mem_wf_kill.
Qed.

(** ** The same program on a usual compiler *)
Lemma means_strict : forall cf T a vars w, means cf T a vars w <-> means (strict cf) T a vars w.
Proof. intros cf T a vars w. split; intros [M1 M2 M3 M4 M5 M6 M7]; constructor; auto. Qed.
Lemma astep_strict : forall cf a o, astep (strict cf) a o = astep cf a o.
Proof. intros cf a o. destruct o; reflexivity. Qed.
Lemma strict_wf : forall cf, wf_cfg cf -> wf_cfg (strict cf).
Proof. intros cf W. exact W. Qed.

Theorem iso_buf_exact : forall cf T a vars w o, wf_cfg cf -> means cf T a vars w -> legal (strict cf) T a o ->
  (iso_buf_undefined vars a o = true -> exists u, exec (strict cf) vars w o = UB u) /\
  (iso_buf_undefined vars a o = false -> exec (strict cf) vars w o = exec cf vars w o /\
     exists v vars' w', exec cf vars w o = Ok (v, vars', w') /\ read_view (s_mem w') v = Ok (fst (astep cf a o)) /\ means cf T (snd (astep cf a o)) vars' w').
Proof.
  intros cf T a vars w o W M Hl. apply strict_wf in W as W2. apply means_strict in M as M2. split; intros Hu.
  - exact (iso_undefined_ub (strict cf) T a vars w o W2 eq_refl eq_refl M2 Hl Hu).
  - destruct (iso_step (strict cf) T a vars w o W2 eq_refl M2 Hl Hu) as (v & vars' & w' & E & R & M' & _).
    assert (exec cf vars w o = Ok (v, vars', w')) as E2.
    { destruct (exec_mono (Fewer false false false false) cf vars w o) as [X|(u & X)]; unfold strict in E; congruence. }
    rewrite astep_strict in R, M'. split; [congruence|]. exists v, vars', w'. split; auto. split; auto. now apply means_strict.
Qed.
Theorem iso_buf_program_exact : forall cf T prog a vars w, wf_cfg cf -> means cf T a vars w -> all_legal (strict cf) T a prog ->
  (iso_buf_program cf vars w a prog = true -> run (strict cf) vars w prog = run cf vars w prog /\
     exists vars' w', run cf vars w prog = Ok (fst (arun cf a prog), vars', w') /\ means cf T (snd (arun cf a prog)) vars' w') /\
  (iso_buf_program cf vars w a prog = false -> exists u, run (strict cf) vars w prog = UB u).
Proof.
  intros cf T prog. induction prog as [|o prog IH]; intros a vars w W M Hl; cbn [run arun iso_buf_program].
  - split; [intros _; split; [reflexivity|exists vars, w; auto]|discriminate].
  - destruct Hl as (L1 & L2). rewrite astep_strict in L2. destruct (iso_buf_exact cf T a vars w o W M L1) as [H1 H2].
    destruct (iso_buf_undefined vars a o); cbn [negb andb].
    + split; [discriminate|]. intros _. destruct (H1 eq_refl) as (u & ->). cbn. eauto.
    + destruct (H2 eq_refl) as (E & v & vars' & w' & E2 & R & M'). rewrite E, E2. cbn [bind]. rewrite R. cbn [bind].
      destruct (astep cf a o) as [x a1]. cbn [fst snd] in *. destruct (IH a1 vars' w' W M' L2) as [I1 I2].
      destruct (arun cf a1 prog) as [xs a2]. cbn [fst snd] in *. split; intros Hp.
      * destruct (I1 Hp) as (-> & vars2 & w2 & -> & M2). cbn [bind]. split; auto. exists vars2, w2. auto.
      * destruct (I2 Hp) as (u & ->). cbn. eauto.
Qed.

(** Without those functions there is nothing to avoid. *)
Lemma in_iso_buf_never : forall vars a o, in_iso_buf o = true -> iso_buf_undefined vars a o = false.
Proof. intros vars a o H. destruct o; auto; discriminate. Qed.
Theorem in_iso_buf_program : forall cf T prog a vars w, wf_cfg cf -> means cf T a vars w -> all_legal (strict cf) T a prog -> Forall (fun o => in_iso_buf o = true) prog ->
  iso_buf_program cf vars w a prog = true.
Proof.
  intros cf T prog. induction prog as [|o prog IH]; intros a vars w W M Hl Hf; auto. cbn [iso_buf_program]. inversion Hf as [|? ? F1 F2]; subst.
  destruct Hl as (L1 & L2). rewrite astep_strict in L2. destruct (iso_buf_exact cf T a vars w o W M L1) as [_ H2]. pose proof (in_iso_buf_never vars a o F1) as E. rewrite E in *.
  destruct (H2 eq_refl) as (_ & v & vars' & w' & -> & _ & M'). cbn [negb andb]. eauto.
Qed.

(** A dynamic buffer: only its own parts can be added. *)
Theorem dyn_other : forall cf T a vars w j B s i, wf_cfg cf -> means cf T a vars w -> slot_of a j = ABuf B -> dyn B = true -> src_legal T a s ->
  sums_ok (strict cf) (Zlen (bf_data B) + Zlen (text_of a s)) -> INT_MIN <= i <= INT_MAX -> place_of a j s = None ->
  (exists u, exec (strict cf) vars w (OAppend j s) = UB u) /\ (exists u, exec (strict cf) vars w (OPrepend j s) = UB u) /\
  (exists u, exec (strict cf) vars w (OInsert j i s) = UB u).
Proof.
  intros cf T a vars w j B s i W M Hj D Ls Hs Hi Hp.
  assert (far vars a j s = true) as F.
  { destruct (arg_ok cf T a vars w j B s W M Hj Ls) as (v & Ev & Ca). pose proof (arg_obj cf T a vars w s v W M Ls Ev) as O. unfold far. rewrite <- O.
    pose proof (slot_in a _ _ Hj ltac:(congruence)) as Lj. pose proof (mn_slot _ _ _ _ _ M _ Lj) as HB. rewrite Hj in HB. destruct HB as (b & k & X & _).
    destruct Ca as [(-> & _)|[(V1 & [_ [V2|[V2 _]]] & _)|(_ & x & y & z & _ & _ & _ & _ & P)]]; [rewrite X; reflexivity| |congruence|congruence].
    destruct (pobj_eqb _ _) eqn:E; auto. apply pobj_eqb_eq in E. congruence. }
  split; [|split].
  - apply (iso_buf_exact cf T a vars w (OAppend j s) W M); [exists B; cbn; auto|exact F].
  - apply (iso_buf_exact cf T a vars w (OPrepend j s) W M); [exists B; cbn; auto|exact F].
  - apply (iso_buf_exact cf T a vars w (OInsert j i s) W M); [exists B; cbn; auto|exact F].
Qed.

(** Concatenation into a dynamic buffer: only of nothing. *)
Theorem dyn_cat : forall cf T a vars w j B ss, wf_cfg cf -> means cf T a vars w -> slot_of a j = ABuf B -> dyn B = true -> Forall (src_legal T a) ss ->
  sums_ok (strict cf) (Zlen (concat (map (text_of a) ss))) -> concat (map (text_of a) ss) <> [] ->
  exists u, exec (strict cf) vars w (OCat j ss) = UB u.
Proof.
  intros cf T a vars w j B ss W M Hj D Ls Hs Hne.
  apply (iso_buf_exact cf T a vars w (OCat j ss) W M); [exists B; cbn; auto|].
  destruct (iso_buf_undefined vars a (OCat j ss)) eqn:E; auto. exfalso. apply Hne. cbn [iso_buf_undefined] in E. apply orb_false_iff in E as [E1 E2].
  unfold dynamic in E2. rewrite Hj, D in E2. cbn [andb] in E2.
  destruct (args_ok cf T a vars w j B ss W M Hj Ls) as (vs & Ev & F & Ew). rewrite <- Ew in E2. pose proof (args_obj cf T a vars w ss vs W M Ls Ev) as Ov.
  pose proof (all_near _ _ _ _ _ Ov E1) as Hn. pose proof (slot_in a _ _ Hj ltac:(congruence)) as Lj. pose proof (mn_slot _ _ _ _ _ M _ Lj) as HB. rewrite Hj in HB. cbn [slot_rel] in HB.
  apply (beside_dyn cf (s_mem w) (var vars j) B vs _ D Hn). clear - F Hn E2 HB.
  induction F as [|v l vs ls Hv F IH]; constructor; inversion Hn; subst; cbn [existsb] in E2; apply orb_false_iff in E2 as [E3 E4]; auto. now apply source_beside.
Qed.
