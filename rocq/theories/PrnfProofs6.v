(** Proofs about prnf: output to a dynamic buffer. *)
From Verif Require Import Base Mem Libc StrviewModel Spec MemLemmas StrviewProofs NumSpec Alloc StrbufModel BufSpec
  StrbufProofs StrbufProofs2 StrbufProofs3 StrbufProofs4 StrbufProofs5 StrbufProofs6 StrbufProofs7
  PrnfModel PrnfSpec PrnfProofs PrnfProofs2 PrnfProofs3 PrnfProofs4 PrnfProofs5 PrnfBufModel.

(** Nothing printed is stored in the buffer (or the buffer is fixed and it is outside of it). *)
Definition apart (cf : cfg) (p : ptr) (B : buffer) (q : ptr) (n : Z) : Prop :=
  p_obj q <> p_obj p \/ (dyn B = false /\ (p_ofs q + n <= p_ofs p \/ buf_end cf p B <= p_ofs q)).
Definition item_apart {D} (cf : cfg) (p : ptr) (B : buffer) (i : item D) : Prop :=
  match i with Str _ _ q l => q = null \/ apart cf p B q (Zlen l + 1) | _ => True end.

Lemma append_mod : forall cf w p c, append_char_to_buf cf w p (c mod 256) = append_char_to_buf cf w p c.
Proof.
  intros. unfold append_char_to_buf, set_char, store_byte. rewrite Zmod_mod. reflexivity.
Qed.

Section Handler.
Variable cf : cfg.
Variable A : fops.
Notation out_char := (out_char cf hst h_mem h_set).
Notation out_chars := (out_chars cf hst h_mem h_set).
Notation handler := (Some (char_handler_for_prnf cf)).

Lemma chars_emit : forall l col cnt w p, 0 <= col <= cnt -> cnt + Zlen l <= INT_MAX ->
  (let! o := out_chars (Out hst col cnt 0 null handler (p, w)) l in Ok (o_cnt hst o, o_buf hst o, o_st hst o)) =
  (let! s := emit cf w p l in Ok (cnt + Zlen l, null, s)).
Proof.
  induction l as [|c l IH]; intros col cnt w p Hc Hm; cbn [PrnfModel.out_chars emit].
  - cbn [bind o_cnt o_buf o_st]. change (Zlen (@nil Z)) with 0. now rewrite Z.add_0_r.
  - rewrite Zlen_cons in *. pose proof (Zlen_nonneg l). unfold PrnfModel.out_char at 1. cbn [o_buf is_null null p_obj p_ofs Z.eqb bind o_fn o_st].
    unfold char_handler_for_prnf at 1. cbn [fst snd]. destruct (append_char_to_buf cf w p c) as [[p1 w1]| |]; cbn [bind]; auto.
    cbn [o_col o_cnt].
    set (col1 := if (c =? 13) || (c =? 10) then 0 else if 31 <? char_int cf c then col + 1 else col).
    assert ((if (c =? 13) || (c =? 10) then Ok 0 else if 31 <? char_int cf c then iadd cf col 1 else Ok col) = Ok col1) as ->.
    { unfold col1. destruct ((c =? 13) || (c =? 10)); auto. destruct (31 <? char_int cf c); auto. apply iadd_ok. unfold INT_MIN. lia. }
    cbn [bind]. rewrite iadd_ok by (unfold INT_MIN; lia). cbn [bind o_limit].
    rewrite IH; [|unfold col1; destruct ((c =? 13) || (c =? 10)); [lia|destruct (31 <? char_int cf c); lia]|lia].
    replace (cnt + 1 + Zlen l) with (cnt + (Zlen l + 1)) by lia. reflexivity.
Qed.

Lemma fptr_emit : forall w p B fmt items va, wf_cfg cf -> mem_wf (s_mem w) -> no_fail w -> buf_at cf (s_mem w) p B ->
  bytes_at (s_mem w) fmt (format items ++ [0]) -> apart cf p B fmt (Zlen (format items) + 1) ->
  items_ok cf (flt_fine A) items -> Forall (item_mem (s_mem w)) items -> Forall (item_apart cf p B) items ->
  let t := printed cf (flt A) 0 items in Zlen t < INT_MAX -> sums_ok cf (Zlen (bf_data B) + Zlen t) ->
  vfptrprnf cf A hst h_mem h_set handler (p, w) fmt (arguments cf items ++ va) =
    let! s := emit cf w p t in Ok (Zlen t, s).
Proof.
  intros w p B fmt items va Wf Wm Nf HB Hf Hfa Hok Hm Ha t Ht Hs. unfold vfptrprnf.
  set (I := fun o : out hst => o_buf hst o = null /\ o_fn hst o = handler /\ 0 <= o_col hst o <= o_cnt hst o /\ o_cnt hst o <= Zlen t /\
    exists p1 w1 B1, o_st hst o = (p1, w1) /\ buf_at cf (s_mem w1) p1 B1 /\ touches cf (s_mem w) (s_mem w1) p p1 B /\
      mem_wf (s_mem w1) /\ no_fail w1 /\ dyn B1 = dyn B /\ (dyn B = false -> bf_cap B1 = bf_cap B) /\ Zlen (bf_data B1) <= Zlen (bf_data B) + o_cnt hst o).
  pose proof (Zlen_nonneg t) as Zt.
  assert (I (Out hst 0 0 0 null handler (p, w))) as I0.
  { unfold I. cbn [o_buf o_fn o_col o_cnt o_st]. split; auto. split; auto. split; [lia|]. split; [lia|]. exists p, w, B. split; auto. split; auto.
    split; [now apply touches_refl|]. split; auto. split; auto. split; auto. split; auto. lia. }
  assert (forall o, I o -> forall q l, bytes_at (s_mem w) q l -> apart cf p B q (Zlen l) -> bytes_at (h_mem (o_st hst o)) q l) as Keep.
  { intros o (_ & _ & _ & _ & p1 & w1 & B1 & E & _ & Tc & _) q l Hq Hc. rewrite E. unfold h_mem. cbn [snd]. eapply touches_bytes; eauto. }
  rewrite (core_prnf_ok cf A hst h_mem h_set I (Zlen t) fmt items); auto.
  - cbn [o_col]. fold t. pose proof (chars_emit t 0 0 w p ltac:(lia) ltac:(lia)) as Ce.
    destruct (out_chars (Out hst 0 0 0 null handler (p, w)) t) as [o1| |]; cbn [bind] in *.
    + destruct (emit cf w p t) as [s| |]; cbn [bind] in *; try discriminate. injection Ce as C1 C2 C3.
      unfold out_terminate. rewrite C2. cbn [is_null null p_obj p_ofs Z.eqb negb andb bind]. rewrite C1, C3. reflexivity.
    + destruct (emit cf w p t) as [s| |]; cbn [bind] in *; try discriminate. injection Ce as ->. reflexivity.
    + destruct (emit cf w p t) as [s| |]; cbn [bind] in *; try discriminate. reflexivity.
  - intros o c o' (I1 & I2 & I3 & I4 & p1 & w1 & B1 & E & HB1 & Tc & Wm1 & Nf1 & D1 & F1 & L1) Hc Ho.
    unfold PrnfModel.out_char in Ho. rewrite I1, I2, E in Ho. cbn [is_null null p_obj p_ofs Z.eqb bind] in Ho.
    unfold char_handler_for_prnf in Ho at 1. cbn [fst snd] in Ho.
    destruct (append_char_yields cf w1 p1 B1 (c mod 256) Wf Wm1 Nf1 HB1) as (p2 & w2 & E2 & HB2 & T2 & Wm2 & Nf2).
    { unfold is_byte. pose proof (Z.mod_pos_bound c 256). lia. } { eapply sums_ok_le; [|exact Hs]. lia. }
    rewrite append_mod in E2. rewrite E2 in Ho. cbn [bind] in Ho.
    set (col1 := if (c =? 13) || (c =? 10) then 0 else if 31 <? char_int cf c then o_col hst o + 1 else o_col hst o) in *.
    assert ((if (c =? 13) || (c =? 10) then Ok 0 else if 31 <? char_int cf c then iadd cf (o_col hst o) 1 else Ok (o_col hst o)) = Ok col1) as Ecol.
    { unfold col1. destruct ((c =? 13) || (c =? 10)); auto. destruct (31 <? char_int cf c); auto. apply iadd_ok. unfold INT_MIN. lia. }
    rewrite Ecol in Ho. cbn [bind] in Ho. rewrite iadd_ok in Ho by (unfold INT_MIN; lia). cbn [bind] in Ho. injection Ho as <-.
    unfold I. cbn [o_buf o_fn o_col o_cnt o_st]. split; auto. split; auto.
    split; [unfold col1; destruct ((c =? 13) || (c =? 10)); [lia|destruct (31 <? char_int cf c); lia]|]. split; [lia|].
    exists p2, w2, (put cf B1 (bf_data B1 ++ [c mod 256])). split; auto. split; auto.
    split; [eapply touches_trans; eauto|]. split; auto. split; auto. split; [now rewrite put_dyn|]. split.
    + intros D. rewrite put_fixed_cap by congruence. auto.
    + pose proof (put_data_len cf B1 (bf_data B1 ++ [c mod 256])) as P. rewrite Zlen_app in P. change (Zlen [c mod 256]) with 1 in P. lia.
  - intros o Ho. apply (Keep o Ho); auto. rewrite Zlen_app. exact Hfa.
  - intros o Ho. rewrite Forall_forall in *. intros i Hi. specialize (Hm i Hi). specialize (Ha i Hi). destruct i; cbn [item_mem item_apart] in *; auto.
    destruct Hm as [Hm|(Hb & H1 & H2 & H3)]; [left; exact Hm|right]. split; auto. destruct Ha as [->|Ha].
    + destruct Hb as (kk & Ak & _). discriminate.
    + apply (Keep o Ho); auto. rewrite Zlen_app. exact Ha.
  - cbn. lia.
  - cbn [o_cnt o_col]. fold t. lia.
Qed.

Lemma prnf_format_ok : forall w p B fmt items va, wf_cfg cf -> mem_wf (s_mem w) -> no_fail w -> buf_at cf (s_mem w) p B ->
  bytes_at (s_mem w) fmt (format items ++ [0]) -> apart cf p B fmt (Zlen (format items) + 1) ->
  items_ok cf (flt_fine A) items -> Forall (item_mem (s_mem w)) items -> Forall (item_apart cf p B) items ->
  let t := printed cf (flt A) 0 items in Zlen t < INT_MAX -> sums_ok cf (Zlen t) ->
  strbuf_prnf cf A w (Some p) fmt (arguments cf items ++ va) = strbuf_vprnf cf w (Some p) t.
Proof.
  intros w p B fmt items va Wf Wm Nf HB Hf Hfa Hok Hm Ha t Ht Hs. unfold strbuf_prnf, strbuf_vprnf.
  rewrite !(on_buf_ok cf (s_mem w) p B) by auto.
  destruct (empty_buf_ok cf (s_mem w) p B Wf Wm HB) as (m1 & -> & HB1 & Ht1 & Wm1 & _). cbn [bind].
  set (B1 := Buffer [] (bf_cap B) (bf_alloc B)) in *.
  assert (forall q l, bytes_at (s_mem w) q l -> apart cf p B q (Zlen l) -> bytes_at m1 q l) as Keep.
  { intros q l Hq Hc. eapply touches_bytes; eauto. }
  rewrite (fptr_emit (with_mem w m1) p B1 fmt items va); auto.
  - fold t. rewrite bind_bind. apply bind_ext. intros [p1 w1]. reflexivity.
  - cbn [with_mem s_mem]. apply Keep; auto. rewrite Zlen_app. exact Hfa.
  - cbn [with_mem s_mem]. rewrite Forall_forall in *. intros i Hi. specialize (Hm i Hi). specialize (Ha i Hi). destruct i; cbn [item_mem item_apart] in *; auto.
    destruct Hm as [Hm|(Hb & H1 & H2 & H3)]; [left; exact Hm|right]. split; auto. destruct Ha as [->|Ha].
    + destruct Hb as (kk & Ak & _). discriminate.
    + apply Keep; auto. rewrite Zlen_app. exact Ha.
Qed.

Lemma append_prnf_format_ok : forall w p B fmt items va, wf_cfg cf -> mem_wf (s_mem w) -> no_fail w -> buf_at cf (s_mem w) p B ->
  bytes_at (s_mem w) fmt (format items ++ [0]) -> apart cf p B fmt (Zlen (format items) + 1) ->
  items_ok cf (flt_fine A) items -> Forall (item_mem (s_mem w)) items -> Forall (item_apart cf p B) items ->
  let t := printed cf (flt A) 0 items in Zlen t < INT_MAX -> sums_ok cf (Zlen (bf_data B) + Zlen t) ->
  strbuf_append_prnf cf A w (Some p) fmt (arguments cf items ++ va) = strbuf_append_vprnf cf w (Some p) t.
Proof.
  intros w p B fmt items va Wf Wm Nf HB Hf Hfa Hok Hm Ha t Ht Hs. unfold strbuf_append_prnf, strbuf_append_vprnf.
  rewrite !(on_buf_ok cf (s_mem w) p B) by auto. apply bind_ext. intros h.
  rewrite (fptr_emit w p B fmt items va); auto. fold t. rewrite bind_bind. apply bind_ext. intros [p1 w1]. reflexivity.
Qed.
End Handler.
