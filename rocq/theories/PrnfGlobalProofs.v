(** Proofs about prnf() and the function it prints through. *)
From Verif Require Import Base Mem Libc StrviewModel Spec MemLemmas StrviewProofs StrviewProofs3 NumSpec StrnumProofs3
  PrnfModel PrnfSpec PrnfSpec2 PrnfProofs4 PrnfProofs5 PrnfProofs9 PrnfGlobalModel PrnfGlobalSpec.

(** No function: nothing happens. *)
Lemma fptr_none : forall cf A W (rd : W -> mem) wr s fmt items va, wf_cfg cf ->
  bytes_at (rd s) fmt (format items ++ [0]) -> Forall (item_mem (rd s)) items -> items_ok cf (flt_fine A) items ->
  let t := printed cf (flt A) 0 items in Zlen t < INT_MAX ->
  vfptrprnf cf A W rd wr None s fmt (arguments cf items ++ va) = Ok (Zlen t, s).
Proof.
  intros cf A W rd wr s fmt items va Wf Hf Hm Hok t Ht. unfold vfptrprnf. set (o0 := Out W 0 0 0 null None s).
  set (J := fun o => o_buf W o = null /\ o_fn W o = None /\ o_st W o = s /\ 0 <= o_col W o <= o_cnt W o).
  assert (forall o c, J o -> o_cnt W o < INT_MAX -> exists o', out_char cf W rd wr o c = Ok o' /\ J o' /\ o_cnt W o' = o_cnt W o + 1) as St.
  { intros o c (I1 & I2 & I3 & I4) Hc. unfold out_char. rewrite I1, I2. cbn [is_null null p_obj p_ofs Z.eqb bind].
    assert ((if (c =? 13) || (c =? 10) then Ok 0 else if 31 <? char_int cf c then iadd cf (o_col W o) 1 else Ok (o_col W o))
       = Ok (if (c =? 13) || (c =? 10) then 0 else if 31 <? char_int cf c then o_col W o + 1 else o_col W o)) as ->.
    { destruct ((c =? 13) || (c =? 10)); auto. destruct (31 <? char_int cf c); auto. apply iadd_ok. unfold INT_MIN. lia. }
    cbn [bind]. rewrite iadd_ok by (unfold INT_MIN; lia). cbn [bind]. eexists. split; [reflexivity|]. split; [|reflexivity].
    unfold J. cbn [o_cnt o_col o_st o_limit o_fn o_buf]. repeat split; auto; destruct ((c =? 13) || (c =? 10)); try lia; destruct (31 <? char_int cf c); lia. }
  rewrite (core_prnf_ok cf A W rd wr J (INT_MAX - 1) fmt items); auto; try lia.
  - cbn [o_col o0]. fold t.
    assert (forall l o, J o -> o_cnt W o + Zlen l < INT_MAX -> exists o', out_chars cf W rd wr o l = Ok o' /\ J o' /\ o_cnt W o' = o_cnt W o + Zlen l) as Sl.
    { induction l as [|c l IH]; intros o Ho Hc; cbn [out_chars]; [exists o; change (Zlen (@nil Z)) with 0; rewrite Z.add_0_r; auto|].
      rewrite Zlen_cons in *. pose proof (Zlen_nonneg l). destruct (St o c Ho ltac:(lia)) as (o1 & -> & I1 & C1). cbn [bind].
      destruct (IH o1 I1 ltac:(lia)) as (o2 & E2 & I2 & C2). exists o2. split; auto. split; auto. lia. }
    destruct (Sl t o0) as (o1 & -> & (I1 & I2 & I3 & I4) & C1); [unfold J, o0; cbn; repeat split; auto; lia|cbn; lia|].
    cbn [bind]. unfold out_terminate. rewrite I1. cbn [is_null null p_obj p_ofs Z.eqb negb andb bind]. rewrite C1, I3. reflexivity.
  - intros o c o' Ho Hc E. destruct (St o c Ho ltac:(lia)) as (o1 & E1 & I1 & _). rewrite E1 in E. injection E as <-. exact I1.
  - intros o (_ & _ & -> & _). exact Hf.
  - intros o (_ & _ & -> & _). exact Hm.
  - unfold J, o0. cbn. repeat split; auto; lia.
  - cbn. lia.
  - cbn [o_cnt o_col o0]. fold t. lia.
Qed.

Section Calls.
Variable cf : cfg.
Variable A : fops.
Variable W : Type.
Variable rd : W -> mem.
Variable wr : W -> mem -> W.
Variable H : Type.
Variable run : H -> ptr -> genv W H -> Z -> outcome (genv W H).
Hypothesis Wf : wf_cfg cf.

Lemma fptr_g_ok : forall f x g fmt items va (J : genv W H -> Prop),
  (forall h g c g', f = Some h -> J g -> run h x g c = Ok g' -> J g') ->
  (forall g, J g -> bytes_at (rd (g_user W H g)) fmt (format items ++ [0]) /\ Forall (item_mem (rd (g_user W H g))) items) -> J g ->
  plain_items cf items -> Zlen (plain cf items) < INT_MAX ->
  fptrprnf_g cf A W rd wr H run f x g fmt (arguments cf items ++ va) = let! g := deliver run f x g (plain cf items) in Ok (Zlen (plain cf items), g).
Proof.
  intros f x g fmt items va J Hj Hg Hs Hp Ht. destruct (plain_fine cf A items 0 Hp) as [P1 P2]. unfold plain in *. rewrite <- P2 in *.
  unfold fptrprnf_g, deliver. destruct f as [h|].
  - apply fptr_feed with (J := J); auto. intros g1 c g2 J1 E. eapply Hj; eauto.
  - cbn [bind]. destruct (Hg g Hs) as [G1 G2]. now apply fptr_none.
Qed.

Variable act : H -> ptr -> W -> Z -> outcome W.
Hypothesis tame : forall h x g c, run h x g c = let! w := act h x (g_user W H g) c in Ok (Genv W H (g_out W H g) w).
Lemma feed_tame : forall h x t o w, feed (run h x) (Genv W H o w) t = let! w := feed (act h x) w t in Ok (Genv W H o w).
Proof.
  intros h x. induction t as [|c t IH]; intros o w; cbn [feed]; [reflexivity|]. rewrite tame. cbn [g_user g_out].
  destruct (act h x w c) as [w1| |]; cbn [bind]; [apply IH|reflexivity|reflexivity].
Qed.
Lemma feed_keep : forall (J : W -> Prop) h x, (forall w c w', J w -> act h x w c = Ok w' -> J w') -> forall t w w', J w -> feed (act h x) w t = Ok w' -> J w'.
Proof.
  intros J h x Hj. induction t as [|c t IH]; intros w w' Hw E; cbn [feed] in E; [now injection E as <-|].
  destruct (act h x w c) as [w1| |] eqn:E1; cbn [bind] in E; try discriminate. eauto.
Qed.
Lemma call_tame : forall (J : W -> Prop) f x o w fmt items va, (forall h x w c w', J w -> act h x w c = Ok w' -> J w') ->
  (forall w, J w -> said_ok cf (rd w) (@Say H (dbl A) fmt items)) -> J w ->
  fptrprnf_g cf A W rd wr H run f x (Genv W H o w) fmt (arguments cf items ++ va) =
    let! w := deliver act f x w (plain cf items) in Ok (Zlen (plain cf items), Genv W H o w).
Proof.
  intros J f x o w fmt items va Hj Hs Hw. destruct (Hs w Hw) as (P & L & _).
  rewrite (fptr_g_ok f x (Genv W H o w) fmt items va (fun g => J (g_user W H g))); auto.
  - unfold deliver. destruct f as [h|]; [|reflexivity]. rewrite feed_tame. destruct (feed (act h x) w _) as [w1| |]; reflexivity.
  - intros h g c g' _ Jg E. rewrite tame in E. destruct (act h x (g_user W H g) c) as [w1| |] eqn:E1; cbn [bind] in E; try discriminate. injection E as <-. cbn. eauto.
  - intros g Jg. apply (Hs _ Jg).
Qed.

(** The statement that says it. *)
Definition code (s : said H (dbl A)) : stmt A H :=
  match s with
  | Use f => SAssign A H f
  | Say fmt items => SPrnf A H fmt (arguments cf items)
  | SayTo f x fmt items => SFptr A H f x fmt (arguments cf items)
  end.
Lemma exec_ok : forall (J : W -> Prop) l o w, (forall h x w c w', J w -> act h x w c = Ok w' -> J w') ->
  (forall w, J w -> Forall (said_ok cf (rd w)) l) -> J w ->
  exec cf A W rd wr H run (map code l) (Genv W H o w) = let! (r, (o, w)) := told cf act l o w in Ok (r, Genv W H o w).
Proof.
  intros J l. induction l as [|s l IH]; intros o w Hj Hs Hw; [reflexivity|].
  assert (forall w, J w -> Forall (said_ok cf (rd w)) l) as Hl by (intros w1 J1; exact (Forall_inv_tail (Hs w1 J1))).
  assert (forall f x w1 t, J w -> deliver act f x w t = Ok w1 -> J w1) as Jd.
  { intros f x w1 t Jw E. unfold deliver in E. destruct f as [h|]; [|now injection E as <-]. eapply (feed_keep J h x); eauto. }
  destruct s as [f|fmt items|f x fmt items]; cbn [map code exec told].
  - cbn [g_user]. now apply IH.
  - unfold prnf_g. cbn [g_out]. rewrite <- (app_nil_r (arguments cf items)). rewrite (call_tame J); auto; [|intros w1 J1; exact (Forall_inv (Hs w1 J1))].
    destruct (deliver act o null w (plain cf items)) as [w1| |] eqn:E; cbn [bind]; [|reflexivity|reflexivity]. rewrite IH; [|exact Hj|exact Hl|eauto].
    destruct (told cf act l o w1) as [[r [o1 w2]]| |]; reflexivity.
  - rewrite <- (app_nil_r (arguments cf items)). rewrite (call_tame J); auto; [|intros w1 J1; exact (Forall_inv (Hs w1 J1))].
    destruct (deliver act f x w (plain cf items)) as [w1| |] eqn:E; cbn [bind]; [|reflexivity|reflexivity]. rewrite IH; [|exact Hj|exact Hl|eauto].
    destruct (told cf act l o w1) as [[r [o1 w2]]| |]; reflexivity.
Qed.
End Calls.
