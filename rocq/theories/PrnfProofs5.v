(** Proofs about prnf: output to an array and to a character handler. *)
From Verif Require Import Base Mem Libc StrviewModel Spec MemLemmas StrviewProofs StrviewProofs3 NumSpec
  PrnfModel PrnfSpec PrnfProofs PrnfProofs2 PrnfProofs3 PrnfProofs4.

Section Call.
Variable cf : cfg.
Variable A : fops.
Variable W : Type.
Variable rd : W -> mem.
Variable wr : W -> mem -> W.
Notation D := (dbl A).
Notation out := (out W).
Notation out_char := (out_char cf W rd wr).
Notation out_chars := (out_chars cf W rd wr).
Notation memof o := (rd (o_st W o)).
Notation text := (printed cf (flt A)).

(** A whole call, given an invariant of the output. *)
Lemma core_prnf_ok : forall (I : out -> Prop) M fmt items o va, wf_cfg cf -> M < INT_MAX ->
  (forall o c o', I o -> 0 <= o_cnt W o < M -> out_char o c = Ok o' -> I o') ->
  (forall o, I o -> bytes_at (memof o) fmt (format items ++ [0])) -> (forall o, I o -> Forall (item_mem (memof o)) items) ->
  items_ok cf (flt_fine A) items -> I o -> 0 <= o_col W o <= o_cnt W o -> o_cnt W o + Zlen (text (o_col W o) items) <= M ->
  core_prnf cf A W rd wr o fmt (arguments cf items ++ va) =
    let! o := out_chars o (text (o_col W o) items) in let! o := out_terminate W rd wr o in Ok (o_cnt W o, o).
Proof.
  intros I M fmt items o va Wf HM Is If Ia Hok Ho Hr Hc. unfold core_prnf.
  pose proof (If o Ho) as (k & Ak & K1 & K2 & _). rewrite Ak. cbn [bind].
  rewrite Zlen_app in K2. change (Zlen [0]) with 1 in K2.
  assert (length (format items) < S (Z.to_nat (b_size k)))%nat as Hlen by (unfold Zlen in K2; lia).
  assert (length (format items ++ [0%Z]) <= S (Z.to_nat (b_size k)))%nat as Hlim by (rewrite app_length; cbn [length]; lia).
  rewrite <- (core_ok cf A W rd wr (flt A) (flt_fine A) (flt_bytes A) (flt_f cf A W rd wr) (flt_e cf A W rd wr) I M HM Is Wf fmt (format items ++ [0]) If
    (S (Z.to_nat (b_size k))) Hlim items [] (S (Z.to_nat (b_size k))) o va eq_refl Hok Ho Ia Hr Hc Hlen).
  change (Zlen (@nil Z)) with 0. rewrite shift_0. reflexivity.
Qed.

(** A call with a format string that ends inside of a placeholder, at the end of its object. *)
Lemma core_prnf_cut : forall (I : out -> Prop) M fmt items c o o1 va, wf_cfg cf -> M < INT_MAX ->
  (forall o c o', I o -> 0 <= o_cnt W o < M -> out_char o c = Ok o' -> I o') ->
  let f := format (items ++ [Other c 0]) in
  (forall o, I o -> bytes_at (memof o) fmt f /\ exists b, access (memof o) (p_obj fmt) = Ok b /\ b_size b = p_ofs fmt + Zlen f) ->
  (forall o, I o -> Forall (item_mem (memof o)) items) ->
  items_ok cf (flt_fine A) (items ++ [Other c 0]) -> I o -> 0 <= o_col W o <= o_cnt W o -> o_cnt W o + Zlen (text (o_col W o) items) <= M ->
  out_chars o (text (o_col W o) items) = Ok o1 ->
  core_prnf cf A W rd wr o fmt (arguments cf (items ++ [Other c 0]) ++ va) = UB UB_bounds.
Proof.
  intros I M fmt items c o o1 va Wf HM Is f If Ia Hok Ho Hr Hc E. unfold core_prnf.
  destruct (If o Ho) as ((k & Ak & K1 & K2 & _) & _). rewrite Ak. cbn [bind].
  assert (length f < S (Z.to_nat (b_size k)))%nat as Hlen by (unfold Zlen in K2; lia).
  pose proof (core_cut cf A W rd wr (flt A) (flt_fine A) (flt_bytes A) (flt_f cf A W rd wr) (flt_e cf A W rd wr) I M HM Is Wf fmt f (fun o H => proj1 (If o H))
    (S (Z.to_nat (b_size k))) (Nat.lt_le_incl _ _ Hlen) items c [] (S (Z.to_nat (b_size k))) o va o1 eq_refl (fun o H => proj2 (If o H)) Hok Ho Ia Hr Hc Hlen E) as K.
  change (Zlen (@nil Z)) with 0 in K. rewrite shift_0 in K. rewrite K. reflexivity.
Qed.
End Call.

(** ** Characters printed *)
Lemma text_bytes : forall cf A, wf_cfg cf -> forall items m col, items_ok cf (flt_fine A) items -> Forall (item_mem m) items ->
  Forall is_byte (printed cf (flt A) col items).
Proof.
  intros cf A Wf. induction items as [|i items IH]; intros m col Hok Hm; cbn [printed]; [constructor|].
  destruct Hok as (Hi & Hok & _). inversion Hm; subst. apply Forall_app. split.
  - eapply item_bytes; eauto. apply flt_bytes.
  - eapply IH; eauto.
Qed.

(** ** Memory outside of an array *)
Lemma frame_bytes : forall m m' b lo hi q l, frame m m' b lo hi -> bytes_at m q l ->
  (p_obj q <> PBlk b \/ p_ofs q + Zlen l <= lo \/ hi <= p_ofs q) -> bytes_at m' q l.
Proof.
  intros m m' b lo hi q l (_ & F1 & F2) (k & Ak & K1 & K2 & K3) Ho.
  destruct (p_obj q) as [|c|lit] eqn:Eq; cbn [access] in Ak.
  - discriminate.
  - destruct (nth_error m c) as [kc|] eqn:Ec; [|discriminate]. destruct (b_live kc) eqn:El; [|discriminate]. injection Ak as ->.
    destruct (Nat.eq_dec c b) as [->|Ne].
    + destruct Ho as [Ho|Ho]; [congruence|]. destruct (F2 k Ec) as (k' & G1 & G2 & G3 & G4 & G5 & G6).
      exists k'. rewrite Eq. cbn [access]. rewrite G1, G4, El. split; auto. split; auto. split; [lia|]. intros i Hi. rewrite G6 by lia. auto.
    + exists k. rewrite Eq. cbn [access]. rewrite F1 by auto. rewrite Ec, El. auto.
  - exists k. rewrite Eq. auto.
Qed.

Section Array.
Variable cf : cfg.
Notation mid := (fun m : mem => m).
Notation mwr := (fun (_ m : mem) => m).
Notation out := (out mem).
Notation out_char := (out_char cf mem mid mwr).
Notation out_chars := (out_chars cf mem mid mwr).
Variable m0 : mem.
Variable b : nat.
Variable k : block.
Variable d sz : Z.
Hypothesis Hn : nth_error m0 b = Some k.
Hypothesis Hlive : b_live k = true.
Hypothesis Hd : 0 <= d.
Hypothesis Hsz : 0 <= sz <= INT_MAX.
(** Characters that will be printed; the array holds what is kept of them. *)
Variable M : Z.
Hypothesis HM : M < INT_MAX.
Hypothesis Hfit : d + Z.min sz (M + 1) <= b_size k.
(** Number of characters stored after [n] characters were printed. *)
Notation kept n := (Z.min n (Z.max 0 (sz - 1))).

Definition inv (o : out) : Prop :=
  0 <= o_cnt mem o /\ o_limit mem o = sz /\ o_fn mem o = None /\ o_buf mem o = Ptr (PBlk b) (d + kept (o_cnt mem o)) /\
  frame m0 (o_st mem o) b d (d + kept (o_cnt mem o)).

Lemma step : forall o c, inv o -> o_cnt mem o < M -> 0 <= o_col mem o <= o_cnt mem o ->
  exists o', out_char o c = Ok o' /\ inv o' /\ o_cnt mem o' = o_cnt mem o + 1 /\ 0 <= o_col mem o' <= o_cnt mem o' /\
    forall l, Zlen l = o_cnt mem o -> bytes_at (o_st mem o) (Ptr (PBlk b) d) (firstn (Z.to_nat (sz - 1)) l) -> is_byte c ->
      bytes_at (o_st mem o') (Ptr (PBlk b) d) (firstn (Z.to_nat (sz - 1)) (l ++ [c])).
Proof.
  intros o c (I1 & I2 & I3 & I4 & I5) Hc Hcol. unfold PrnfModel.out_char. rewrite I4. cbn [is_null p_obj].
  rewrite iadd_ok by (unfold INT_MIN; lia). cbn [bind]. rewrite I2, I3.
  destruct I5 as (L & O & K). destruct (K k Hn) as (k' & N1 & N2 & N3 & N4 & N5 & N6).
  assert ((if (c =? 13) || (c =? 10) then Ok 0 else if 31 <? char_int cf c then iadd cf (o_col mem o) 1 else Ok (o_col mem o))
     = Ok (if (c =? 13) || (c =? 10) then 0 else if 31 <? char_int cf c then o_col mem o + 1 else o_col mem o)) as Ecol.
  { destruct ((c =? 13) || (c =? 10)); auto. destruct (31 <? char_int cf c); auto. apply iadd_ok. unfold INT_MIN. lia. }
  destruct (o_cnt mem o + 1 <? sz) eqn:E; [apply Z.ltb_lt in E|apply Z.ltb_ge in E].
  - replace (kept (o_cnt mem o)) with (o_cnt mem o) in * by lia.
    unfold store_byte, store_cells. cbn [p_obj access p_ofs]. rewrite N1, N4, Hlive. cbn [bind]. unfold in_block. rewrite N3.
    rewrite (proj2 (Z.leb_le 0 _)), (proj2 (Z.leb_le _ (b_size k))) by lia. cbn [andb bind].
    set (m1 := upd (o_st mem o) b _). 
    assert (frame (o_st mem o) m1 b (d + o_cnt mem o) (d + o_cnt mem o + 1)) as F1 by (apply frame_upd; auto).
    assert (frame m0 m1 b d (d + o_cnt mem o + 1)) as F2.
    { eapply StrviewProofs3.frame_trans; [|exact F1| | | |]; [split; [exact L|split; [exact O|exact K]]|lia|lia|lia|lia]. }
    assert (padd cf m1 (Ptr (PBlk b) (d + o_cnt mem o)) 1 = Ok (Ptr (PBlk b) (d + o_cnt mem o + 1))) as ->.
    { unfold padd. cbn [p_obj p_ofs]. destruct (c_ptr cf); [reflexivity|]. destruct F2 as (_ & _ & F2). destruct (F2 k Hn) as (k2 & M1 & M2 & M3 & M4 & _).
      cbn [access]. rewrite M1, M4, Hlive. cbn [bind]. unfold in_block. rewrite M3. rewrite (proj2 (Z.leb_le 0 _)), (proj2 (Z.leb_le _ (b_size k))) by lia. reflexivity. }
    cbn [bind]. rewrite Ecol. cbn [bind]. eexists. split; [reflexivity|]. cbn [o_cnt o_col o_st o_limit o_fn o_buf].
    split; [|split; [reflexivity|split]].
    + unfold inv. cbn [o_cnt o_col o_st o_limit o_fn o_buf]. replace (kept (o_cnt mem o + 1)) with (o_cnt mem o + 1) by lia.
      split; [lia|]. split; auto. split; auto. rewrite Z.add_assoc. split; auto.
    + destruct ((c =? 13) || (c =? 10)); [lia|]. destruct (31 <? char_int cf c); lia.
    + intros l Hl Hb Hc'. rewrite firstn_all2 in Hb by (unfold Zlen in Hl; lia). rewrite firstn_all2 by (rewrite app_length; unfold Zlen in Hl; cbn; lia).
      destruct Hb as (k1 & A1 & A2 & A3 & A4). cbn [p_obj p_ofs access] in *. rewrite N1, N4, Hlive in A1. injection A1 as <-.
      exists (with_cells k' (d + o_cnt mem o) 1 (fun _ => CByte (c mod 256))).
      assert (b < length (o_st mem o))%nat as Hb by (apply nth_error_Some; congruence).
      unfold m1. cbn [access p_obj p_ofs]. rewrite upd_same by auto. cbn [with_cells b_live b_size b_get]. rewrite N4, Hlive. split; auto. split; auto.
      rewrite Zlen_app. change (Zlen [c]) with 1. split; [lia|]. intros i Hi.
      destruct (Z.eq_dec i (o_cnt mem o)) as [->|Ni].
      * rewrite (proj2 (Z.leb_le _ _)), (proj2 (Z.ltb_lt _ _)) by lia. cbn [andb]. rewrite app_nth2 by (unfold Zlen in Hl; lia).
        replace (Z.to_nat (o_cnt mem o) - length l)%nat with 0%nat by (unfold Zlen in Hl; lia). cbn [nth]. rewrite Z.mod_small by (unfold is_byte in Hc'; lia). reflexivity.
      * rewrite (proj2 (Z.leb_gt (d + o_cnt mem o) (d + i))) by lia. cbn [andb]. rewrite app_nth1 by (unfold Zlen in *; lia). apply A4. lia.
  - cbn [bind]. rewrite Ecol. cbn [bind]. eexists. split; [reflexivity|]. cbn [o_cnt o_col o_st o_limit o_fn o_buf].
    split; [|split; [reflexivity|split]].
    + unfold inv. cbn [o_cnt o_col o_st o_limit o_fn o_buf]. replace (kept (o_cnt mem o + 1)) with (kept (o_cnt mem o)) by lia.
      split; [lia|]. split; auto. split; auto. split; auto. split; [exact L|split; [exact O|exact K]].
    + destruct ((c =? 13) || (c =? 10)); [lia|]. destruct (31 <? char_int cf c); lia.
    + intros l Hl Hb _. rewrite firstn_app. replace (Z.to_nat (sz - 1) - length l)%nat with 0%nat by (unfold Zlen in Hl; lia). cbn [firstn]. rewrite app_nil_r. exact Hb.
Qed.

Lemma chars_ok : forall l done o, inv o -> 0 <= o_col mem o <= o_cnt mem o -> o_cnt mem o = Zlen done -> Zlen done + Zlen l <= M -> Forall is_byte l ->
  bytes_at (o_st mem o) (Ptr (PBlk b) d) (firstn (Z.to_nat (sz - 1)) done) ->
  exists o', out_chars o l = Ok o' /\ inv o' /\ o_cnt mem o' = Zlen done + Zlen l /\
    bytes_at (o_st mem o') (Ptr (PBlk b) d) (firstn (Z.to_nat (sz - 1)) (done ++ l)).
Proof.
  induction l as [|c l IH]; intros done o Ho Hcol Hcnt Hm Hl Hb; cbn [PrnfModel.out_chars].
  - exists o. rewrite app_nil_r. change (Zlen (@nil Z)) with 0. rewrite Z.add_0_r. auto.
  - rewrite Zlen_cons in *. pose proof (Zlen_nonneg l). inversion Hl as [|? ? Hc Hl']; subst.
    destruct (step o c Ho ltac:(lia) Hcol) as (o1 & E1 & I1 & C1 & R1 & B1). rewrite E1. cbn [bind].
    destruct (IH (done ++ [c]) o1) as (o2 & E2 & I2 & C2 & B2); auto.
    { rewrite Zlen_app. change (Zlen [c]) with 1. lia. } { rewrite Zlen_app. change (Zlen [c]) with 1. lia. }
    exists o2. rewrite <- app_assoc in B2. rewrite Zlen_app in C2. change (Zlen [c]) with 1 in C2. split; [exact E2|]. split; [exact I2|]. split; [lia|exact B2].
Qed.

Lemma terminate_ok : forall o l, inv o -> o_cnt mem o = Zlen l -> Zlen l <= M -> bytes_at (o_st mem o) (Ptr (PBlk b) d) (firstn (Z.to_nat (sz - 1)) l) ->
  exists o', out_terminate mem mid mwr o = Ok o' /\ o_cnt mem o' = o_cnt mem o /\
    frame m0 (o_st mem o') b d (d + Z.min sz (Zlen l + 1)) /\
    (0 < sz -> bytes_at (o_st mem o') (Ptr (PBlk b) d) (firstn (Z.to_nat (sz - 1)) l ++ [0])).
Proof.
  intros o l (I1 & I2 & I3 & I4 & I5) Hc HlM Hb. unfold out_terminate. rewrite I4, I2. cbn [is_null p_obj negb andb].
  destruct (sz =? 0) eqn:E; [apply Z.eqb_eq in E|apply Z.eqb_neq in E]; cbn [negb].
  - exists o. split; auto. split; auto. pose proof (Zlen_nonneg l). split; [eapply frame_weak; [exact I5|lia|lia]|lia].
  - pose proof I5 as (L & O & K). destruct (K k Hn) as (k' & N1 & N2 & N3 & N4 & N5 & N6).
    pose proof (Zlen_nonneg l) as Zl. rewrite Hc in *. replace (Z.max 0 (sz - 1)) with (sz - 1) in * by lia. set (n := Z.min (Zlen l) (sz - 1)) in *.
    unfold store_byte, store_cells. cbn [p_obj access p_ofs]. rewrite N1, N4, Hlive. cbn [bind]. unfold in_block. rewrite N3.
    rewrite (proj2 (Z.leb_le 0 _)), (proj2 (Z.leb_le _ (b_size k))) by lia. cbn [andb bind]. eexists. split; [reflexivity|]. cbn [o_cnt o_st]. split; auto.
    split; [|intros _].
    + eapply StrviewProofs3.frame_trans; [exact I5|apply frame_upd; exact N1| | | |]; lia.
    + set (t := firstn (Z.to_nat (sz - 1)) l) in *. assert (Zlen t = n) as Lt by (unfold t, n, Zlen in *; rewrite firstn_length; lia).
      destruct Hb as (k1 & A1 & A2 & A3 & A4). cbn [p_obj p_ofs access] in *. rewrite N1, N4, Hlive in A1. injection A1 as <-.
      exists (with_cells k' (d + n) 1 (fun _ => CByte (0 mod 256))).
      assert (b < length (o_st mem o))%nat as Hb by (apply nth_error_Some; congruence).
      cbn [access p_obj p_ofs]. rewrite upd_same by auto. cbn [with_cells b_live b_size b_get]. rewrite N4, Hlive. split; auto. split; auto.
      rewrite Zlen_app. change (Zlen [0]) with 1. split; [lia|]. intros i Hi.
      destruct (Z.eq_dec i n) as [->|Ni].
      * rewrite (proj2 (Z.leb_le _ _)), (proj2 (Z.ltb_lt _ _)) by lia. cbn [andb]. rewrite app_nth2 by (unfold Zlen in Lt; lia).
        replace (Z.to_nat n - length t)%nat with 0%nat by (unfold Zlen in Lt; lia). reflexivity.
      * rewrite (proj2 (Z.leb_gt (d + n) (d + i))) by lia. cbn [andb]. rewrite app_nth1 by (unfold Zlen in *; lia). apply A4. lia.
Qed.
End Array.

Notation mid := (fun m : mem => m).
Notation mwr := (fun (_ m : mem) => m).

(** The call prints to [dst], keeping less than [n] characters. *)
Lemma to_array_ok : forall cf A m dst n fmt items va, wf_cfg cf -> 0 <= n <= INT_MAX ->
  let t := printed cf (flt A) 0 items in let w := Z.min n (Zlen t + 1) in Zlen t < INT_MAX ->
  writable m dst w -> bytes_at m fmt (format items ++ [0]) -> clear_of dst w fmt (Zlen (format items) + 1) ->
  items_ok cf (flt_fine A) items -> Forall (item_mem m) items -> Forall (item_clear dst w) items ->
  exists o, core_prnf cf A mem mid mwr (Out mem 0 0 n dst None m) fmt (arguments cf items ++ va) = Ok (Zlen t, o) /\
    only_wrote m (o_st mem o) dst w /\
    (0 < n -> bytes_at (o_st mem o) dst (firstn (Z.to_nat (n - 1)) t ++ [0])).
Proof.
  intros cf A m dst n fmt items va Wf Hsz t w Ht (b & k & Eo & Hn & Hlive & Hd & Hfit) Hf Hfc Hok Hm Hcl.
  destruct dst as [o d]. cbn [p_obj p_ofs] in *. subst o.
  set (I := fun o => inv m b d n o /\ 0 <= o_col mem o <= o_cnt mem o /\ o_cnt mem o <= Zlen t).
  pose proof (Zlen_nonneg t) as Zt.
  assert (forall o, I o -> forall q l, bytes_at m q l -> clear_of (Ptr (PBlk b) d) w q (Zlen l) -> bytes_at (o_st mem o) q l) as Keep.
  { intros o ((I1 & I2 & I3 & I4 & I5) & R1 & R2) q l Hq Hc. eapply frame_bytes; [exact I5|exact Hq|].
    destruct Hc as [Hc|Hc]; cbn [p_obj p_ofs] in *; [left; exact Hc|right]. unfold w in *. lia. }
  assert (I (Out mem 0 0 n (Ptr (PBlk b) d) None m)) as I0.
  { unfold I, inv. cbn [o_cnt o_col o_st o_limit o_fn o_buf]. replace (Z.min 0 (Z.max 0 (n - 1))) with 0 by lia. rewrite Z.add_0_r.
    split; [|lia]. split; [lia|]. split; auto. split; auto. split; auto. apply frame_refl. }
  rewrite (core_prnf_ok cf A mem mid mwr I (Zlen t) fmt items).
  - cbn [o_col]. fold t. destruct (chars_ok cf m b k d n Hn Hlive Hd Hsz (Zlen t) Ht Hfit t [] (Out mem 0 0 n (Ptr (PBlk b) d) None m)) as (o1 & E1 & I1 & C1 & B1).
    + apply I0.
    + cbn. lia.
    + reflexivity.
    + change (Zlen (@nil Z)) with 0. lia.
    + eapply text_bytes; eauto.
    + rewrite firstn_nil. exists k. cbn [p_obj p_ofs o_st access]. rewrite Hn, Hlive. change (Zlen (@nil Z)) with 0. unfold w in *. repeat split; auto; lia.
    + rewrite E1. cbn [bind app] in *. change (Zlen (@nil Z)) with 0 in C1. rewrite Z.add_0_l in C1.
      destruct (terminate_ok m b k d n Hn Hlive Hd Hsz (Zlen t) Hfit o1 t) as (o2 & E2 & C2 & F2 & B2); auto; [lia|].
      rewrite E2. cbn [bind]. rewrite C2, C1. eexists. split; [reflexivity|]. split; auto. intros b' Eb. cbn [p_obj p_ofs] in *. injection Eb as <-. exact F2.
  - exact Wf.
  - lia.
  - intros o c o' (Ho & Hcol & HcM) Hc E. destruct (step cf m b k d n Hn Hlive Hd Hsz (Zlen t) Ht Hfit o c Ho ltac:(lia) Hcol) as (o1 & E1 & I1 & C1 & R1 & _).
    rewrite E1 in E. injection E as <-. split; auto. split; auto. lia.
  - intros o Ho. apply (Keep o Ho); auto. rewrite Zlen_app. exact Hfc.
  - intros o Ho. rewrite Forall_forall in *. intros i Hi. specialize (Hm i Hi). specialize (Hcl i Hi). destruct i; cbn [item_mem item_clear] in *; auto.
    destruct Hm as [Hm|(Hb & H1 & H2 & H3)]; [left; exact Hm|right]. split; auto. destruct Hcl as [->|Hcl].
    + destruct Hb as (kk & Ak & _). discriminate.
    + apply (Keep o Ho); auto. rewrite Zlen_app. exact Hcl.
  - exact Hok.
  - exact I0.
  - cbn. lia.
  - cbn [o_cnt o_col]. fold t. lia.
Qed.

Lemma vsnprnf_ok : forall cf A m dst n fmt items va, wf_cfg cf -> 0 <= n <= INT_MAX ->
  let t := printed cf (flt A) 0 items in let w := Z.min n (Zlen t + 1) in Zlen t < INT_MAX ->
  writable m dst w -> bytes_at m fmt (format items ++ [0]) -> clear_of dst w fmt (Zlen (format items) + 1) ->
  items_ok cf (flt_fine A) items -> Forall (item_mem m) items -> Forall (item_clear dst w) items ->
  exists m', vsnprnf cf A mem mid mwr m dst n fmt (arguments cf items ++ va) = Ok (Zlen t, m') /\
    only_wrote m m' dst w /\ (0 < n -> bytes_at m' dst (firstn (Z.to_nat (n - 1)) t ++ [0])).
Proof.
  intros cf A m dst n fmt items va Wf Hn t w Ht Hw Hf Hfc Hok Hm Hcl.
  destruct (to_array_ok cf A m dst n fmt items va Wf Hn Ht Hw Hf Hfc Hok Hm Hcl) as (o & E & F & B).
  exists (o_st mem o). split; auto. unfold vsnprnf. assert (to_int n = n) as -> by (apply to_int_ok; unfold INT_MIN; lia). rewrite E. reflexivity.
Qed.

Lemma vsprnf_ok : forall cf A m dst fmt items va, wf_cfg cf ->
  let t := printed cf (flt A) 0 items in Zlen t < INT_MAX ->
  writable m dst (Zlen t + 1) -> bytes_at m fmt (format items ++ [0]) -> clear_of dst (Zlen t + 1) fmt (Zlen (format items) + 1) ->
  items_ok cf (flt_fine A) items -> Forall (item_mem m) items -> Forall (item_clear dst (Zlen t + 1)) items ->
  exists m', vsprnf cf A mem mid mwr m dst fmt (arguments cf items ++ va) = Ok (Zlen t, m') /\
    only_wrote m m' dst (Zlen t + 1) /\ bytes_at m' dst (t ++ [0]).
Proof.
  intros cf A m dst fmt items va Wf t Ht Hw Hf Hfc Hok Hm Hcl.
  assert (Z.min INT_MAX (Zlen t + 1) = Zlen t + 1) as Ew by lia.
  destruct (to_array_ok cf A m dst INT_MAX fmt items va Wf) as (o & E & F & B); fold t; rewrite ?Ew; auto; [unfold INT_MAX; lia|].
  fold t in E, F, B. rewrite Ew in F.
  exists (o_st mem o). unfold vsprnf. rewrite E. split; [reflexivity|]. split; auto.
  rewrite firstn_all2 in B by (unfold Zlen, INT_MAX in *; lia). apply B. unfold INT_MAX. lia.
Qed.

(** Without an array nothing is stored. *)
Lemma to_null_ok : forall cf A m n fmt items va, wf_cfg cf ->
  let t := printed cf (flt A) 0 items in Zlen t < INT_MAX ->
  bytes_at m fmt (format items ++ [0]) -> items_ok cf (flt_fine A) items -> Forall (item_mem m) items ->
  vsnprnf cf A mem mid mwr m null n fmt (arguments cf items ++ va) = Ok (Zlen t, m).
Proof.
  intros cf A m n fmt items va Wf t Ht Hf Hok Hm. unfold vsnprnf. set (o0 := Out mem 0 0 (to_int n) null None m).
  set (I := fun o => o_buf mem o = null /\ o_fn mem o = None /\ o_st mem o = m /\ 0 <= o_col mem o <= o_cnt mem o).
  assert (forall o c, I o -> o_cnt mem o < INT_MAX -> exists o', out_char cf mem mid mwr o c = Ok o' /\ I o' /\ o_cnt mem o' = o_cnt mem o + 1) as St.
  { intros o c (I1 & I2 & I3 & I4) Hc. unfold out_char. rewrite I1, I2. cbn [is_null null p_obj p_ofs Z.eqb bind].
    assert ((if (c =? 13) || (c =? 10) then Ok 0 else if 31 <? char_int cf c then iadd cf (o_col mem o) 1 else Ok (o_col mem o))
       = Ok (if (c =? 13) || (c =? 10) then 0 else if 31 <? char_int cf c then o_col mem o + 1 else o_col mem o)) as ->.
    { destruct ((c =? 13) || (c =? 10)); auto. destruct (31 <? char_int cf c); auto. apply iadd_ok. unfold INT_MIN. lia. }
    cbn [bind]. rewrite iadd_ok by (unfold INT_MIN; lia). cbn [bind]. eexists. split; [reflexivity|]. split; [|reflexivity].
    unfold I. cbn [o_cnt o_col o_st o_limit o_fn o_buf]. repeat split; auto; destruct ((c =? 13) || (c =? 10)); try lia; destruct (31 <? char_int cf c); lia. }
  rewrite (core_prnf_ok cf A mem mid mwr I (INT_MAX - 1) fmt items); auto; try lia.
  - cbn [o_col o0]. fold t.
    assert (forall l o, I o -> o_cnt mem o + Zlen l < INT_MAX -> exists o', out_chars cf mem mid mwr o l = Ok o' /\ I o' /\ o_cnt mem o' = o_cnt mem o + Zlen l) as Sl.
    { induction l as [|c l IH]; intros o Ho Hc; cbn [out_chars]; [exists o; change (Zlen (@nil Z)) with 0; rewrite Z.add_0_r; auto|].
      rewrite Zlen_cons in *. pose proof (Zlen_nonneg l). destruct (St o c Ho ltac:(lia)) as (o1 & -> & I1 & C1). cbn [bind].
      destruct (IH o1 I1 ltac:(lia)) as (o2 & E2 & I2 & C2). exists o2. split; auto. split; auto. lia. }
    destruct (Sl t o0) as (o1 & -> & (I1 & I2 & I3 & I4) & C1); [unfold I, o0; cbn; repeat split; auto; lia|cbn; lia|].
    cbn [bind]. unfold out_terminate. rewrite I1. cbn [is_null null p_obj p_ofs Z.eqb negb andb bind]. rewrite C1, I3. reflexivity.
  - intros o c o' Ho Hc E. destruct (St o c Ho ltac:(lia)) as (o1 & E1 & I1 & _). rewrite E1 in E. injection E as <-. exact I1.
  - intros o (_ & _ & -> & _). exact Hf.
  - intros o (_ & _ & -> & _). exact Hm.
  - unfold I, o0. cbn. repeat split; auto; lia.
  - cbn. lia.
  - cbn [o_cnt o_col o0]. fold t. lia.
Qed.

(** Appending to a string. *)
Lemma snappf_ok : forall cf A m dst n l0 fmt items va, wf_cfg cf -> 0 < n <= INT_MAX -> c_string m dst l0 -> Zlen l0 < n ->
  let t := printed cf (flt A) 0 items in let at_ := shift dst (Zlen l0) in let room := n - Zlen l0 in
  let w := Z.min room (Zlen t + 1) in Zlen t < INT_MAX ->
  writable m at_ w -> bytes_at m fmt (format items ++ [0]) -> clear_of at_ w fmt (Zlen (format items) + 1) ->
  items_ok cf (flt_fine A) items -> Forall (item_mem m) items -> Forall (item_clear at_ w) items ->
  exists m', snappf cf A mem mid mwr m dst n fmt (arguments cf items ++ va) = Ok (Zlen t, m') /\
    only_wrote m m' at_ w /\ bytes_at m' dst (l0 ++ firstn (Z.to_nat (room - 1)) t ++ [0]).
Proof.
  intros cf A m dst n l0 fmt items va Wf Hn Hs Hl t at_ room w Ht Hw Hf Hfc Hok Hm Hcl.
  pose proof (Zlen_nonneg l0) as Z0.
  destruct (vsnprnf_ok cf A m at_ room fmt items va Wf ltac:(unfold room; lia) Ht Hw Hf Hfc Hok Hm Hcl) as (m' & E & F & B).
  fold t in E, F, B. exists m'. unfold snappf. rewrite (proj2 (Z.eqb_neq n 0)) by lia.
  rewrite (prnf_strlen_ok cf m dst l0) by (right; exact Hs). cbn [bind]. rewrite (proj2 (Z.ltb_ge (n - 1) (Zlen l0))) by lia.
  destruct Hs as (Hb & _). rewrite (padd_ok cf m dst (l0 ++ [0]) (Zlen l0)); auto; [|rewrite Zlen_app; change (Zlen [0]) with 1; lia].
  cbn [bind]. split; [exact E|]. split; auto.
  destruct Hw as (b & k & Eo & Hnk & Hlive & Hd & Hfit). pose proof (F b Eo) as Fr.
  apply bytes_at_app. split.
  - apply bytes_at_app in Hb as [Hb _]. eapply frame_bytes; [exact Fr|exact Hb|]. right. left. unfold at_. cbn [shift p_ofs]. lia.
  - unfold at_ in B. apply B. unfold room. lia.
Qed.

(** ** Sizes above INT_MAX *)
(** With a negative limit no character is kept, but the NUL is stored. *)
Lemma negative_ok : forall cf A m dst lim fmt items va, wf_cfg cf -> lim < 0 ->
  let t := printed cf (flt A) 0 items in Zlen t < INT_MAX ->
  writable m dst 1 -> bytes_at m fmt (format items ++ [0]) -> items_ok cf (flt_fine A) items -> Forall (item_mem m) items ->
  exists o, core_prnf cf A mem mid mwr (Out mem 0 0 lim dst None m) fmt (arguments cf items ++ va) = Ok (Zlen t, o) /\
    only_wrote m (o_st mem o) dst 1 /\ bytes_at (o_st mem o) dst [0].
Proof.
  intros cf A m dst lim fmt items va Wf Hlim t Ht (b & k & Eo & Hn & Hlive & Hd & Hfit) Hf Hok Hm.
  destruct dst as [o d]. cbn [p_obj p_ofs] in *. subst o. set (o0 := Out mem 0 0 lim (Ptr (PBlk b) d) None m).
  set (I := fun o => o_limit mem o = lim /\ o_buf mem o = Ptr (PBlk b) d /\ o_fn mem o = None /\ o_st mem o = m /\ 0 <= o_col mem o <= o_cnt mem o).
  assert (forall o c, I o -> o_cnt mem o < INT_MAX -> exists o', out_char cf mem mid mwr o c = Ok o' /\ I o' /\ o_cnt mem o' = o_cnt mem o + 1) as St.
  { intros o c (I0 & I1 & I2 & I3 & I4) Hc. unfold out_char. rewrite I0, I1, I2. cbn [is_null p_obj].
    rewrite iadd_ok by (unfold INT_MIN; lia). cbn [bind]. rewrite (proj2 (Z.ltb_ge _ lim)) by lia. cbn [bind].
    assert ((if (c =? 13) || (c =? 10) then Ok 0 else if 31 <? char_int cf c then iadd cf (o_col mem o) 1 else Ok (o_col mem o))
       = Ok (if (c =? 13) || (c =? 10) then 0 else if 31 <? char_int cf c then o_col mem o + 1 else o_col mem o)) as ->.
    { destruct ((c =? 13) || (c =? 10)); auto. destruct (31 <? char_int cf c); auto. apply iadd_ok. unfold INT_MIN. lia. }
    cbn [bind]. eexists. split; [reflexivity|]. split; [|reflexivity].
    unfold I. cbn [o_cnt o_col o_st o_limit o_fn o_buf]. repeat split; auto; destruct ((c =? 13) || (c =? 10)); try lia; destruct (31 <? char_int cf c); lia. }
  rewrite (core_prnf_ok cf A mem mid mwr I (INT_MAX - 1) fmt items); auto; try lia.
  - cbn [o_col o0]. fold t.
    assert (forall l o, I o -> o_cnt mem o + Zlen l < INT_MAX -> exists o', out_chars cf mem mid mwr o l = Ok o' /\ I o' /\ o_cnt mem o' = o_cnt mem o + Zlen l) as Sl.
    { induction l as [|c l IH]; intros o Ho Hc; cbn [out_chars]; [exists o; change (Zlen (@nil Z)) with 0; rewrite Z.add_0_r; auto|].
      rewrite Zlen_cons in *. pose proof (Zlen_nonneg l). destruct (St o c Ho ltac:(lia)) as (o1 & -> & I1 & C1). cbn [bind].
      destruct (IH o1 I1 ltac:(lia)) as (o2 & E2 & I2 & C2). exists o2. split; auto. split; auto. lia. }
    destruct (Sl t o0) as (o1 & -> & (I0 & I1 & I2 & I3 & I4) & C1); [unfold I, o0; cbn; repeat split; auto; lia|cbn; lia|].
    cbn [bind]. unfold out_terminate. rewrite I0, I1, I3. cbn [is_null p_obj negb andb]. rewrite (proj2 (Z.eqb_neq lim 0)) by lia. cbn [negb].
    unfold store_byte, store_cells. cbn [p_obj access p_ofs]. rewrite Hn, Hlive. cbn [bind]. unfold in_block.
    rewrite (proj2 (Z.leb_le 0 _)), (proj2 (Z.leb_le _ (b_size k))) by lia. cbn [andb bind]. rewrite C1. eexists. split; [reflexivity|]. cbn [o_st].
    split.
    + intros b' Eb. cbn [p_obj p_ofs] in *. injection Eb as <-. apply frame_upd; exact Hn.
    + assert (b < length m)%nat as Hb by (apply nth_error_Some; congruence).
      exists (with_cells k d 1 (fun _ => CByte (0 mod 256))). cbn [p_obj p_ofs access]. rewrite upd_same by auto. cbn [with_cells b_live b_size b_get]. rewrite Hlive. split; auto. split; auto.
      change (Zlen [0]) with 1. split; [lia|]. intros i Hi. replace i with 0 by lia. rewrite Z.add_0_r. rewrite (proj2 (Z.leb_le _ _)), (proj2 (Z.ltb_lt _ _)) by lia. reflexivity.
  - intros o c o' Ho Hc E. destruct (St o c Ho ltac:(lia)) as (o1 & E1 & I1 & _). rewrite E1 in E. injection E as <-. exact I1.
  - intros o (_ & _ & _ & -> & _). exact Hf.
  - intros o (_ & _ & _ & -> & _). exact Hm.
  - unfold I, o0. cbn. repeat split; auto; lia.
  - cbn. lia.
  - cbn [o_cnt o_col o0]. fold t. lia.
Qed.

(** Every size: it is reduced modulo 2^32. *)
Lemma any_size_ok : forall cf A m dst n fmt items va, wf_cfg cf ->
  let k := n mod 2 ^ 32 in let t := printed cf (flt A) 0 items in let w := if k <=? INT_MAX then Z.min k (Zlen t + 1) else 1 in
  Zlen t < INT_MAX -> writable m dst w -> bytes_at m fmt (format items ++ [0]) -> clear_of dst w fmt (Zlen (format items) + 1) ->
  items_ok cf (flt_fine A) items -> Forall (item_mem m) items -> Forall (item_clear dst w) items ->
  exists m', vsnprnf cf A mem mid mwr m dst n fmt (arguments cf items ++ va) = Ok (Zlen t, m') /\
    only_wrote m m' dst w /\ (0 < k -> bytes_at m' dst (firstn (Z.to_nat ((if k <=? INT_MAX then k else 1) - 1)) t ++ [0])).
Proof.
  intros cf A m dst n fmt items va Wf k t w Ht Hw Hf Hfc Hok Hm Hcl. unfold w in *. clear w.
  pose proof (Z.mod_pos_bound n (2 ^ 32) eq_refl) as Hk. fold k in Hk.
  assert (to_int n = if k <=? INT_MAX then k else k - 2 ^ 32) as Ei.
  { unfold to_int, wrap32. change (2 ^ 32) with 4294967296 in *. pose proof (Z.div_mod n 4294967296 ltac:(lia)) as Q. fold k in Q. unfold INT_MAX, INT_MIN in *.
    destruct (Z.leb_spec k 2147483647).
    - rewrite <- (Z.mod_unique _ 4294967296 (n / 4294967296) (k + 2147483648)); lia.
    - rewrite <- (Z.mod_unique _ 4294967296 (n / 4294967296 + 1) (k - 2147483648)); lia. }
  destruct (Z.leb_spec k INT_MAX) as [L|L].
  - destruct (vsnprnf_ok cf A m dst k fmt items va Wf ltac:(lia) Ht Hw Hf Hfc Hok Hm Hcl) as (m' & E & F & B). exists m'. split; auto.
    unfold vsnprnf in *. rewrite Ei. rewrite to_int_ok in E by (unfold INT_MIN; lia). exact E.
  - destruct (negative_ok cf A m dst (to_int n) fmt items va Wf) as (o & E & F & B); auto; [rewrite Ei; lia|].
    exists (o_st mem o). unfold vsnprnf. rewrite E. split; [reflexivity|]. split; auto.
Qed.

(** ** Formats that end inside of a placeholder *)
Lemma unfinished_ok : forall cf A m n fmt items c va, wf_cfg cf ->
  let f := format (items ++ [Other c 0]) in Zlen (printed cf (flt A) 0 items) < INT_MAX ->
  bytes_at m fmt f -> (exists b, access m (p_obj fmt) = Ok b /\ b_size b = p_ofs fmt + Zlen f) ->
  items_ok cf (flt_fine A) (items ++ [Other c 0]) -> Forall (item_mem m) items ->
  vsnprnf cf A mem mid mwr m null n fmt (arguments cf (items ++ [Other c 0]) ++ va) = UB UB_bounds.
Proof.
  intros cf A m n fmt items c va Wf f Ht Hf Hend Hok Hm. unfold vsnprnf. set (o0 := Out mem 0 0 (to_int n) null None m). set (t := printed cf (flt A) 0 items) in *.
  set (I := fun o => o_buf mem o = null /\ o_fn mem o = None /\ o_st mem o = m /\ 0 <= o_col mem o <= o_cnt mem o).
  assert (forall o c, I o -> o_cnt mem o < INT_MAX -> exists o', out_char cf mem mid mwr o c = Ok o' /\ I o' /\ o_cnt mem o' = o_cnt mem o + 1) as St.
  { intros o x (I1 & I2 & I3 & I4) Hc. unfold out_char. rewrite I1, I2. cbn [is_null null p_obj p_ofs Z.eqb bind].
    assert ((if (x =? 13) || (x =? 10) then Ok 0 else if 31 <? char_int cf x then iadd cf (o_col mem o) 1 else Ok (o_col mem o))
       = Ok (if (x =? 13) || (x =? 10) then 0 else if 31 <? char_int cf x then o_col mem o + 1 else o_col mem o)) as ->.
    { destruct ((x =? 13) || (x =? 10)); auto. destruct (31 <? char_int cf x); auto. apply iadd_ok. unfold INT_MIN. lia. }
    cbn [bind]. rewrite iadd_ok by (unfold INT_MIN; lia). cbn [bind]. eexists. split; [reflexivity|]. split; [|reflexivity].
    unfold I. cbn [o_cnt o_col o_st o_limit o_fn o_buf]. repeat split; auto; destruct ((x =? 13) || (x =? 10)); try lia; destruct (31 <? char_int cf x); lia. }
  assert (forall l o, I o -> o_cnt mem o + Zlen l < INT_MAX -> exists o', out_chars cf mem mid mwr o l = Ok o' /\ I o' /\ o_cnt mem o' = o_cnt mem o + Zlen l) as Sl.
  { induction l as [|x l IH]; intros o Ho Hc; cbn [out_chars]; [exists o; change (Zlen (@nil Z)) with 0; rewrite Z.add_0_r; auto|].
    rewrite Zlen_cons in *. pose proof (Zlen_nonneg l). destruct (St o x Ho ltac:(lia)) as (o1 & -> & I1 & C1). cbn [bind].
    destruct (IH o1 I1 ltac:(lia)) as (o2 & E2 & I2 & C2). exists o2. split; auto. split; auto. lia. }
  assert (I o0) as Io by (unfold I, o0; cbn; repeat split; auto; lia).
  destruct (Sl t o0 Io ltac:(cbn; lia)) as (o1 & E1 & _).
  rewrite (core_prnf_cut cf A mem mid mwr I (INT_MAX - 1) fmt items c o0 o1); auto; try lia.
  - intros o x o' Ho Hc E. destruct (St o x Ho ltac:(lia)) as (o2 & E2 & I2 & _). rewrite E2 in E. injection E as <-. exact I2.
  - intros o (_ & _ & -> & _). auto.
  - intros o (_ & _ & -> & _). exact Hm.
  - cbn. lia.
  - cbn [o_cnt o_col o0]. fold t. lia.
Qed.
