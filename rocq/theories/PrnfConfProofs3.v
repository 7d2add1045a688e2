(** Proofs about the configurations of prnf: whole calls. *)
From Verif Require Import Base Mem Libc StrviewModel Spec MemLemmas StrviewProofs StrviewProofs3 NumSpec StrnumProofs3
  PrnfModel PrnfSpec PrnfSpec2 PrnfProofs PrnfProofs2 PrnfProofs3 PrnfProofs4 PrnfProofs5 PrnfConfModel PrnfConfSpec PrnfConfProofs PrnfConfProofs2.

(** Floating point arguments that are printed must be printable. *)
Definition need (A : fops) (bd : build) : bool -> conv -> dbl A -> Prop := flt_need A bd (flt_fine A).

Lemma core_prnf_b_ok : forall cf A W rd wr bd (I : out W -> Prop) M fmt items o va, wf_cfg cf -> M < INT_MAX ->
  (forall o c o', I o -> 0 <= o_cnt W o < M -> out_char cf W rd wr o c = Ok o' -> I o') ->
  (forall o, I o -> bytes_at (rd (o_st W o)) fmt (format items ++ [0])) -> (forall o, I o -> Forall (item_mem (rd (o_st W o))) items) ->
  items_ok cf (need A bd) items -> Forall (fit bd) items -> I o -> 0 <= o_col W o <= o_cnt W o -> o_cnt W o + Zlen (printed cf (flt A) (o_col W o) (built bd items)) <= M ->
  core_prnf_b cf A W rd wr bd o fmt (arguments cf (built bd items) ++ va) =
    let! o := out_chars cf W rd wr o (printed cf (flt A) (o_col W o) (built bd items)) in let! o := out_terminate W rd wr o in Ok (o_cnt W o, o).
Proof.
  intros cf A W rd wr bd I M fmt items o va Wf HM Is If Ia Hok Hfit Ho Hr Hc. unfold core_prnf_b.
  pose proof (If o Ho) as (k & Ak & K1 & K2 & _). rewrite Ak. cbn [bind].
  rewrite Zlen_app in K2. change (Zlen [0]) with 1 in K2.
  assert (length (format items) < S (Z.to_nat (b_size k)))%nat as Hlen by (unfold Zlen in K2; lia).
  assert (length (format items ++ [0%Z]) <= S (Z.to_nat (b_size k)))%nat as Hlim by (rewrite app_length; cbn [length]; lia).
  rewrite <- (core_ok_b cf A W rd wr bd (flt A) (flt_fine A) (flt_bytes A) (flt_f cf A W rd wr) (flt_e cf A W rd wr) I M HM Is Wf fmt (format items ++ [0]) If
    (S (Z.to_nat (b_size k))) Hlim items [] (S (Z.to_nat (b_size k))) o va eq_refl Hok Hfit Ho Ia Hr Hc Hlen).
  change (Zlen (@nil Z)) with 0. rewrite shift_0. reflexivity.
Qed.

Lemma built_bytes : forall cf A bd, wf_cfg cf -> forall items m col, items_ok cf (need A bd) items -> Forall (item_mem m) items ->
  Forall is_byte (printed cf (flt A) col (built bd items)).
Proof.
  intros cf A bd Wf. induction items as [|i items IH]; intros m col Hok Hm; [constructor|].
  change (built bd (i :: items)) with (read_by bd i ++ built bd items). rewrite printed_app.
  destruct Hok as (Hi & Hok & _). inversion Hm; subst. apply Forall_app. split.
  - eapply (read_bytes cf A bd (flt A) (flt_fine A)); eauto. apply flt_bytes.
  - eapply IH; eauto.
Qed.

Lemma to_array_b_ok : forall cf A bd m dst n fmt items va, wf_cfg cf -> 0 <= n <= INT_MAX ->
  let t := printed cf (flt A) 0 (built bd items) in let w := Z.min n (Zlen t + 1) in Zlen t < INT_MAX ->
  writable m dst w -> bytes_at m fmt (format items ++ [0]) -> clear_of dst w fmt (Zlen (format items) + 1) ->
  items_ok cf (need A bd) items -> Forall (fit bd) items -> Forall (item_mem m) items -> Forall (item_clear dst w) items ->
  exists o, core_prnf_b cf A mem mid mwr bd (Out mem 0 0 n dst None m) fmt (arguments cf (built bd items) ++ va) = Ok (Zlen t, o) /\
    only_wrote m (o_st mem o) dst w /\
    (0 < n -> bytes_at (o_st mem o) dst (firstn (Z.to_nat (n - 1)) t ++ [0])).
Proof.
  intros cf A bd m dst n fmt items va Wf Hsz t w Ht (b & k & Eo & Hn & Hlive & Hd & Hfit) Hf Hfc Hok Hfits Hm Hcl.
  destruct dst as [o d]. cbn [p_obj p_ofs] in *. subst o.
  set (I := fun o => inv m b d n o /\ 0 <= o_col mem o <= o_cnt mem o /\ o_cnt mem o <= Zlen t).
  pose proof (Zlen_nonneg t) as Zt.
  assert (forall o, I o -> forall q l, bytes_at m q l -> clear_of (Ptr (PBlk b) d) w q (Zlen l) -> bytes_at (o_st mem o) q l) as Keep.
  { intros o ((I1 & I2 & I3 & I4 & I5) & R1 & R2) q l Hq Hc. eapply frame_bytes; [exact I5|exact Hq|].
    destruct Hc as [Hc|Hc]; cbn [p_obj p_ofs] in *; [left; exact Hc|right]. unfold w in *. lia. }
  assert (I (Out mem 0 0 n (Ptr (PBlk b) d) None m)) as I0.
  { unfold I, inv. cbn [o_cnt o_col o_st o_limit o_fn o_buf]. replace (Z.min 0 (Z.max 0 (n - 1))) with 0 by lia. rewrite Z.add_0_r.
    split; [|lia]. split; [lia|]. split; auto. split; auto. split; auto. apply frame_refl. }
  rewrite (core_prnf_b_ok cf A mem mid mwr bd I (Zlen t) fmt items).
  - cbn [o_col]. fold t. destruct (chars_ok cf m b k d n Hn Hlive Hd Hsz (Zlen t) Ht Hfit t [] (Out mem 0 0 n (Ptr (PBlk b) d) None m)) as (o1 & E1 & I1 & C1 & B1).
    + apply I0.
    + cbn. lia.
    + reflexivity.
    + change (Zlen (@nil Z)) with 0. lia.
    + eapply built_bytes; eauto.
    + rewrite firstn_nil. exists k. cbn [p_obj p_ofs o_st access]. rewrite Hn, Hlive. change (Zlen (@nil Z)) with 0. unfold w in *. repeat split; auto; lia.
    + rewrite E1. cbn [bind app] in *. change (Zlen (@nil Z)) with 0 in C1. rewrite Z.add_0_l in C1.
      destruct (terminate_ok m b k d n Hn Hlive Hd Hsz (Zlen t) Hfit o1 t) as (o2 & E2 & C2 & F2 & B2); auto; [lia|].
      rewrite E2. cbn [bind]. rewrite C2, C1. eexists. split; [reflexivity|]. split; auto. intros b' Eb. cbn [p_obj p_ofs] in *. injection Eb as <-. exact F2.
  - exact Wf.
  - lia.
  - intros o c o' (Ho & Hcol & HcM) Hc E. destruct (step cf m b k d n Hn Hlive Hd Hsz (Zlen t) Ht Hfit o c Ho ltac:(lia) Hcol) as (o1 & E1 & I1 & C1 & R1 & _).
    rewrite E1 in E. injection E as <-. split; auto. split; auto. lia.
  - intros o Ho. apply (Keep o Ho); auto. rewrite Zlen_app. exact Hfc.
  - intros o Ho. rewrite Forall_forall in *. intros i Hi. specialize (Hm i Hi). specialize (Hcl i Hi). destruct i; cbn [item_mem item_clear] in *; auto.
    destruct Hm as [Hm|(Hb & H1 & H2 & H3)]; [left; exact Hm|right]. split; auto. destruct Hcl as [->|Hcl].
    + destruct Hb as (kk & Ak & _). discriminate.
    + apply (Keep o Ho); auto. rewrite Zlen_app. exact Hcl.
  - exact Hok.
  - exact Hfits.
  - exact I0.
  - cbn. lia.
  - cbn [o_cnt o_col]. fold t. lia.
Qed.

(** ** Formats without floating point arguments that are printed *)
Definition no_floats {D} (bd : build) : bool -> conv -> D -> Prop := fun _ _ _ => b_float bd = false.
Lemma built_plain : forall cf A bd (l : list (item (dbl A))) col, items_ok cf (no_floats bd) l ->
  items_ok cf (need A bd) l /\ printed cf (flt A) col (built bd l) = printed cf (fun _ _ _ => []) col (built bd l).
Proof.
  intros cf A bd. induction l as [|i l IH]; intros col H; [split; [exact Logic.I|reflexivity]|]. destruct H as (Hi & Hl & Hv).
  change (built bd (i :: l)) with (read_by bd i ++ built bd l). rewrite !printed_app.
  assert (item_ok cf (need A bd) i) as K.
  { destruct i; cbn [item_ok] in *; auto; destruct Hi as [H1 H2]; split; auto; intros B; unfold no_floats in H2; congruence. }
  assert (printed cf (flt A) col (read_by bd i) = printed cf (fun _ _ _ => []) col (read_by bd i)) as E.
  { unfold read_by. destruct i; cbn [holder is_float item_ok] in *; rewrite ?andb_false_r; try reflexivity.
    all: try (destruct (negb (b_ll bd) && is_ll c); reflexivity).
    all: try (destruct (b_col bd); reflexivity).
    all: destruct Hi as [_ Hi]; unfold no_floats in Hi; rewrite Hi; cbn [negb andb]; destruct (negb (b_ll bd) && is_ll c); reflexivity. }
  rewrite E. destruct (IH (after cf col (printed cf (fun _ _ _ => []) col (read_by bd i))) Hl) as [I1 I2]. rewrite I2. split; [|reflexivity].
  split; [exact K|]. split; auto.
Qed.

Lemma sn_b_ok : forall cf A bd m dst n fmt items va, wf_cfg cf -> 0 <= n <= INT_MAX ->
  let t := printed cf (fun _ _ _ => []) 0 (built bd items) in let w := Z.min n (Zlen t + 1) in Zlen t < INT_MAX ->
  writable m dst w -> bytes_at m fmt (format items ++ [0]) -> clear_of dst w fmt (Zlen (format items) + 1) ->
  items_ok cf (no_floats bd) items -> Forall (fit bd) items -> Forall (item_mem m) items -> Forall (item_clear dst w) items ->
  exists m', vsnprnf_b cf A mem mid mwr bd m dst n fmt (arguments cf (built bd items) ++ va) = Ok (Zlen t, m') /\
    only_wrote m m' dst w /\ (0 < n -> bytes_at m' dst (firstn (Z.to_nat (n - 1)) t ++ [0])).
Proof.
  intros cf A bd m dst n fmt items va Wf Hn t w Ht Hw Hf Hfc Hok Hfit Hm Hcl.
  destruct (built_plain cf A bd items 0 Hok) as [Hok' Et]. fold t in Et.
  destruct (to_array_b_ok cf A bd m dst n fmt items va Wf Hn) as (o & E & F & B); rewrite ?Et; auto. rewrite Et in *.
  exists (o_st mem o). split; auto. unfold vsnprnf_b. assert (to_int n = n) as -> by (apply to_int_ok; unfold INT_MIN; lia). rewrite E. reflexivity.
Qed.

(** Without an array nothing is stored. *)
Lemma to_null_b_ok : forall cf A bd m n fmt items va, wf_cfg cf ->
  let t := printed cf (flt A) 0 (built bd items) in Zlen t < INT_MAX ->
  bytes_at m fmt (format items ++ [0]) -> items_ok cf (need A bd) items -> Forall (fit bd) items -> Forall (item_mem m) items ->
  vsnprnf_b cf A mem mid mwr bd m null n fmt (arguments cf (built bd items) ++ va) = Ok (Zlen t, m).
Proof.
  intros cf A bd m n fmt items va Wf t Ht Hf Hok Hfits Hm. unfold vsnprnf_b. set (o0 := Out mem 0 0 (to_int n) null None m).
  set (I := fun o => o_buf mem o = null /\ o_fn mem o = None /\ o_st mem o = m /\ 0 <= o_col mem o <= o_cnt mem o).
  assert (forall o c, I o -> o_cnt mem o < INT_MAX -> exists o', out_char cf mem mid mwr o c = Ok o' /\ I o' /\ o_cnt mem o' = o_cnt mem o + 1) as St.
  { intros o c (I1 & I2 & I3 & I4) Hc. unfold out_char. rewrite I1, I2. cbn [is_null null p_obj p_ofs Z.eqb bind].
    assert ((if (c =? 13) || (c =? 10) then Ok 0 else if 31 <? char_int cf c then iadd cf (o_col mem o) 1 else Ok (o_col mem o))
       = Ok (if (c =? 13) || (c =? 10) then 0 else if 31 <? char_int cf c then o_col mem o + 1 else o_col mem o)) as ->.
    { destruct ((c =? 13) || (c =? 10)); auto. destruct (31 <? char_int cf c); auto. apply iadd_ok. unfold INT_MIN. lia. }
    cbn [bind]. rewrite iadd_ok by (unfold INT_MIN; lia). cbn [bind]. eexists. split; [reflexivity|]. split; [|reflexivity].
    unfold I. cbn [o_cnt o_col o_st o_limit o_fn o_buf]. repeat split; auto; destruct ((c =? 13) || (c =? 10)); try lia; destruct (31 <? char_int cf c); lia. }
  rewrite (core_prnf_b_ok cf A mem mid mwr bd I (INT_MAX - 1) fmt items); auto; try lia.
  - cbn [o_col o0]. fold t.
    assert (forall l o, I o -> o_cnt mem o + Zlen l < INT_MAX -> exists o', out_chars cf mem mid mwr o l = Ok o' /\ I o' /\ o_cnt mem o' = o_cnt mem o + Zlen l) as Sl.
    { induction l as [|c l IH]; intros o Ho Hc; cbn [out_chars]; [exists o; change (Zlen (@nil Z)) with 0; rewrite Z.add_0_r; auto|].
      rewrite Zlen_cons in *. pose proof (Zlen_nonneg l). destruct (St o c Ho ltac:(lia)) as (o1 & -> & I1 & C1). cbn [bind].
      destruct (IH o1 I1 ltac:(lia)) as (o2 & E2 & I2 & C2). exists o2. split; auto. split; auto. lia. }
    destruct (Sl t o0) as (o1 & -> & (I1 & I2 & I3 & I4) & C1); [unfold I, o0; cbn; repeat split; auto; lia|cbn; lia|].
    cbn [bind]. unfold out_terminate. rewrite I1. cbn [is_null null p_obj p_ofs Z.eqb negb andb bind]. rewrite C1, I3. reflexivity.
  - intros o c o' Ho Hc E. destruct (St o c Ho ltac:(lia)) as (o1 & E1 & I1 & _). rewrite E1 in E. injection E as <-. exact I1.
  - intros o (_ & _ & -> & _). exact Hf.
  - intros o (_ & _ & -> & _). exact Hm.
  - unfold I, o0. cbn. repeat split; auto; lia.
  - cbn. lia.
  - cbn [o_cnt o_col o0]. fold t. lia.
Qed.

(** ** Arguments that are left over *)
Lemma wrong_kind : forall cf A (i : item (dbl A)) c t al a a' r va, item_conv cf A i = Some (c, t, al) -> conv_args c ++ al = a' :: r -> kind_of a <> kind_of a' ->
  read_varg cf A (ph_raw cf c (type_of t)) (a :: va) = UB UB_varg.
Proof.
  intros cf A i c t al a a' r va E Ea Hk. unfold read_varg, ph_raw, conv_args in *. cbn [ph_wdyn ph_pdyn ph_type ph_size].
  destruct (cv_width c) as [|w|w]; cbn [app] in Ea.
  3:{ injection Ea as <- _. destruct a; cbn [kind_of] in Hk; try congruence; reflexivity. }
  1,2: cbn [bind]; destruct (cv_prec c); cbn [app] in Ea; cbn [ph_pdyn ph_type ph_size bind].
  all: try (injection Ea as <- _; destruct a; cbn [kind_of] in Hk; try congruence; reflexivity).
  all: destruct i; cbn [item_conv] in E; try discriminate; injection E as <- <- <-; try discriminate.
  all: injection Ea as <- <-; unfold int_arg in *; cbn [kind_of] in Hk.
  all: try destruct b; cbn [type_of Z.eqb Pos.eqb orb]; try (match goal with |- context [len_bytes ?cg ?l =? 8] => destruct (len_bytes cg l =? 8) end); destruct a; cbn [kind_of] in Hk; try congruence; reflexivity.
Qed.

Lemma arguments_app : forall D cf (a b : list (item D)), arguments cf (a ++ b) = arguments cf a ++ arguments cf b.
Proof. intros. unfold arguments. rewrite map_app, concat_app. reflexivity. Qed.
Lemma built_app : forall D bd (a b : list (item D)), built bd (a ++ b) = built bd a ++ built bd b.
Proof. intros. unfold built. rewrite map_app, concat_app. reflexivity. Qed.

Lemma unread_arguments : forall cf A bd (f : item (dbl A)) a, item_args cf f = arguments cf (read_by bd f) ++ [a] -> forall pre mids, arguments cf (built bd mids) = [] ->
  built bd pre = pre -> forall x, arguments cf (pre ++ f :: mids ++ x) = arguments cf (built bd (pre ++ f :: mids)) ++ a :: arguments cf mids ++ arguments cf x.
Proof.
  intros cf A bd f a Hf pre mids Hm Hp x. rewrite built_app, !arguments_app, Hp.
  change (built bd (f :: mids)) with (read_by bd f ++ built bd mids). rewrite arguments_app, Hm, app_nil_r, <- app_assoc. f_equal.
  change (arguments cf (f :: mids ++ x)) with (item_args cf f ++ arguments cf (mids ++ x)). rewrite Hf, <- app_assoc, arguments_app. reflexivity.
Qed.

Lemma left_ok : forall cf A bd m n fmt pre f mids i post a a' r va, wf_cfg cf ->
  let front := pre ++ f :: mids in Zlen (printed cf (flt A) 0 (built bd front)) < INT_MAX ->
  bytes_at m fmt (format (front ++ i :: post) ++ [0]) ->
  items_ok cf (need A bd) (front ++ i :: post) -> Forall (fit bd) front -> Forall (item_mem m) front ->
  built bd pre = pre -> item_args cf f = arguments cf (read_by bd f) ++ [a] -> arguments cf (built bd mids) = [] ->
  read_by bd i = [i] -> item_args cf i = a' :: r -> kind_of a <> kind_of a' ->
  vsnprnf_b cf A mem mid mwr bd m null n fmt (arguments cf (front ++ i :: post) ++ va) = UB UB_varg.
Proof.
  intros cf A bd m n fmt pre f mids i post a a' r va Wf front Ht Hf Hok Hfits Hm Hpre Hfa Hmids Hi Hia Hk.
  assert (arguments cf (front ++ i :: post) = arguments cf (built bd front) ++ a :: arguments cf mids ++ arguments cf (i :: post)) as ->.
  { unfold front. rewrite <- (unread_arguments cf A bd f a Hfa pre mids Hmids Hpre). rewrite <- app_assoc. reflexivity. }
  rewrite <- app_assoc. cbn [app]. generalize ((arguments cf mids ++ arguments cf (i :: post)) ++ va). clear va. intros va.
  pose proof (items_ok_then cf A (need A bd) front (i :: post) Hok) as Hthen.
  assert (item_ok cf (need A bd) i) as Hoi.
  { clear - Hok. induction front as [|y l IH]; cbn [app items_ok] in Hok; [apply Hok|]. apply IH. apply Hok. }
  assert (exists c t al, item_conv cf A i = Some (c, t, al)) as (c & t & al & Ec).
  { destruct i; cbn [item_conv item_args] in *; try discriminate; eauto. }
  destruct (item_conv_text cf A (need A bd) i c t al Ec Hoi) as (It & Il & Ia).
  assert (conv_ok c) as Hcv by (destruct i; cbn [item_conv item_ok] in *; try discriminate; injection Ec as <- <- <-; tauto).
  assert (holder i = Some (c, t)) as Hh by (destruct i; cbn [item_conv holder] in *; try discriminate; congruence).
  assert (b_ll bd = true \/ is_ll c = false) as Hll.
  { unfold read_by in Hi. rewrite Hh in Hi. destruct (b_ll bd); [now left|]. destruct (is_ll c); [discriminate|now right]. }
  assert (type_of_b bd t = type_of t) as Ty.
  { unfold read_by in Hi. rewrite Hh in Hi. apply (read_type cf A bd (flt_fine A) i c t al); auto.
    destruct (b_float bd); [now left|]. right. destruct (is_float i) eqn:Ef; auto. exfalso.
    destruct (negb (b_ll bd) && is_ll c); [discriminate|]. cbn [negb andb] in Hi. destruct i; cbn [is_float] in Ef; discriminate. }
  assert (read_varg cf A (ph_raw cf c (type_of_b bd t)) (a :: va) = UB UB_varg) as Hu.
  { rewrite Ty. eapply wrong_kind; eauto. rewrite <- Ia. exact Hia. }
  unfold vsnprnf_b. set (o0 := Out mem 0 0 (to_int n) null None m). set (tx := printed cf (flt A) 0 (built bd front)) in *.
  set (I := fun o => o_buf mem o = null /\ o_fn mem o = None /\ o_st mem o = m /\ 0 <= o_col mem o <= o_cnt mem o).
  assert (forall o c, I o -> o_cnt mem o < INT_MAX -> exists o', out_char cf mem mid mwr o c = Ok o' /\ I o' /\ o_cnt mem o' = o_cnt mem o + 1) as St.
  { intros o x (I1 & I2 & I3 & I4) Hc. unfold out_char. rewrite I1, I2. cbn [is_null null p_obj p_ofs Z.eqb bind].
    assert ((if (x =? 13) || (x =? 10) then Ok 0 else if 31 <? char_int cf x then iadd cf (o_col mem o) 1 else Ok (o_col mem o))
       = Ok (if (x =? 13) || (x =? 10) then 0 else if 31 <? char_int cf x then o_col mem o + 1 else o_col mem o)) as ->.
    { destruct ((x =? 13) || (x =? 10)); auto. destruct (31 <? char_int cf x); auto. apply iadd_ok. unfold INT_MIN. lia. }
    cbn [bind]. rewrite iadd_ok by (unfold INT_MIN; lia). cbn [bind]. eexists. split; [reflexivity|]. split; [|reflexivity].
    unfold I. cbn [o_cnt o_col o_st o_limit o_fn o_buf]. repeat split; auto; destruct ((x =? 13) || (x =? 10)); try lia; destruct (31 <? char_int cf x); lia. }
  assert (forall l o, I o -> o_cnt mem o + Zlen l < INT_MAX -> exists o', out_chars cf mem mid mwr o l = Ok o' /\ I o' /\ o_cnt mem o' = o_cnt mem o + Zlen l) as Sl.
  { induction l as [|x l IH]; intros o Ho Hc; cbn [out_chars]; [exists o; change (Zlen (@nil Z)) with 0; rewrite Z.add_0_r; auto|].
    rewrite Zlen_cons in *. pose proof (Zlen_nonneg l). destruct (St o x Ho ltac:(lia)) as (o1 & -> & I1 & C1). cbn [bind].
    destruct (IH o1 I1 ltac:(lia)) as (o2 & E2 & I2 & C2). exists o2. split; auto. split; auto. lia. }
  assert (I o0) as Io by (unfold I, o0; cbn; repeat split; auto; lia).
  destruct (Sl tx o0 Io ltac:(cbn; lia)) as (o1 & E1 & _).
  unfold core_prnf_b. pose proof Hf as (k & Ak & K1 & K2 & _). assert (access (mid (o_st mem o0)) (p_obj fmt) = Ok k) as -> by exact Ak. cbn [bind].
  assert (format (front ++ i :: post) ++ [0] = format front ++ conv_text c t ++ hd 0 (format post ++ [0]) :: tl (format post ++ [0])) as Efull.
  { unfold format. rewrite map_app, concat_app, <- app_assoc. f_equal. cbn [map concat]. rewrite It, <- app_assoc. f_equal.
    destruct (concat (map item_text post)); reflexivity. }
  assert (length (format (front ++ i :: post) ++ [0%Z]) <= S (Z.to_nat (b_size k)))%nat as Hlim by (unfold Zlen in K2; lia).
  assert (hd 0 (format (i :: post)) = 37) as H37 by (unfold format; cbn [map concat]; rewrite It; reflexivity). rewrite H37 in Hthen.
  rewrite <- (shift_0 fmt).
  rewrite (core_left cf A mem mid mwr bd (flt A) (flt_fine A) (flt_bytes A) (flt_f cf A mem mid mwr) (flt_e cf A mem mid mwr) I (INT_MAX - 1) ltac:(lia)
    ltac:(intros o x o' Ho Hc E; destruct (St o x Ho ltac:(lia)) as (o2 & E2 & I2 & _); rewrite E2 in E; injection E as <-; exact I2)
    Wf fmt (format (front ++ i :: post) ++ [0])
    ltac:(intros o (_ & _ & -> & _); exact Hf) (S (Z.to_nat (b_size k))) Hlim front c t _ _ _ o0 o1 a va Efull); auto.
  - intros o (_ & _ & -> & _). exact Hm.
  - cbn. lia.
  - cbn [o_cnt o_col o0]. fold tx. lia.
  - rewrite Efull, app_length in Hlim. unfold conv_text in Hlim. cbn [length app] in Hlim. lia.
Qed.

Lemma unused_built : forall D bd (l : list (item D)), Forall (unused bd) l -> built bd l = l /\ Forall (fit bd) l.
Proof.
  intros D bd. induction l as [|i l IH]; intros H; [split; constructor|]. inversion H as [|? ? (U1 & U2 & U3) H2]; subst.
  destruct (IH H2) as [E F]. change (built bd (i :: l)) with (read_by bd i ++ built bd l). rewrite E. split.
  - assert (read_by bd i = [i]) as ->; [|reflexivity]. unfold read_by.
    destruct (holder i) as [[c t]|] eqn:Eh.
    + assert (negb (b_ll bd) && is_ll c = false) as ->. { destruct (b_ll bd); [reflexivity|]. now apply U1. }
      assert (negb (b_float bd) && is_float i = false) as ->. { destruct (b_float bd); [reflexivity|]. now apply U2. }
      reflexivity.
    + destruct (b_col bd); destruct i; auto; now destruct (U3 eq_refl).
  - constructor; auto. split; intros B.
    + specialize (U3 B). destruct i; auto; contradiction.
    + specialize (U1 B). destruct i; auto. cbn [holder] in U1. intros K. congruence.
Qed.
Lemma plain_no_floats : forall D cf bd (l : list (item D)), plain_items cf l -> items_ok cf (no_floats bd) l.
Proof.
  intros D cf bd. induction l as [|i l IH]; intros H; [exact I|]. destruct H as (H1 & H2 & H3). split; [|split; auto].
  destruct i; cbn [item_ok] in *; auto; tauto.
Qed.
Lemma front_plain : forall cf A bd (a b : list (item (dbl A))) col, items_ok cf (no_floats bd) (a ++ b) ->
  printed cf (flt A) col (built bd a) = printed cf (fun _ _ _ => []) col (built bd a).
Proof.
  intros cf A bd. induction a as [|i a IH]; intros b col H; [reflexivity|]. destruct H as (Hi & Hl & _). fold (a ++ b) in *.
  change (built bd (i :: a)) with (read_by bd i ++ built bd a). rewrite !printed_app.
  destruct (built_plain cf A bd [i] col) as [_ E].
  { split; [exact Hi|]. split; [exact I|]. destruct i; try exact I; reflexivity. }
  change (built bd [i]) with (read_by bd i ++ []) in E. rewrite app_nil_r in E. rewrite E. f_equal. eapply IH. exact Hl.
Qed.
