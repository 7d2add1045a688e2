(** Programs that use the accessories under the letter of ISO C. *)
From Verif Require Import Base Mem Libc StrviewModel Spec MemLemmas Alloc StrbufModel BufSpec HistSpec StrbufProofs StrbufProofs2 StrbufProofs3 StrbufProofs4 StrbufProofs5 StrbufProofs6 StrbufProofs7 StrbufProofs8 StrbufHistory IoModel PackModel PackSpec PackProofs
  CryptModel PrnfModel PrnfSpec PrnfSpec2 PrnfBufModel HistSpec2 StrbufHistory2 PortSpec PortProg IsoBufSpec IsoBufProofs IsoBufProofs2 IsoAccSpec.

(** ** Packing *)
Lemma pack_far : forall cf e w p B base t x, wf_cfg cf -> c_ptr cf = false -> buf_at cf (s_mem w) p B -> exists u, STRBUF_PACK cf e w (Some p) base t x = UB u.
Proof.
  intros cf e w p B base t x W Hc HB. unfold STRBUF_PACK.
  destruct (push_local cf w base (to_bytes cf (i_bytes t) (PackModel.conv t (xendian_pack cf e t x)))) as [q w1] eqn:E.
  unfold push_local in E. injection E as Eq Ew.
  assert (buf_at cf (s_mem w1) p B) as HB1 by (rewrite <- Ew; cbn [with_mem s_mem]; now apply buf_at_snoc).
  unfold strbuf_append_strview. rewrite (on_buf_ok cf (s_mem w1) _ B) by auto. rewrite (buf_at_load cf _ _ B W HB1). cbn [bind].
  rewrite insert_far; [cbn; eauto|auto|]. cbn [v_data]. rewrite <- Eq. cbn [p_obj].
  destruct HB as (b & k & E1 & E2 & _). apply nth_error_lt in E2. rewrite E1. cbn [pobj_eqb]. apply Nat.eqb_neq. lia.
Qed.

(** ** Calls *)
Lemma iso_acc_ub : forall cf A T a vars w o, wf_cfg cf -> c_ptr cf = false -> c_wrapv cf = false -> means cf T a vars w -> xlegal cf A T a o ->
  iso_acc_undefined vars a o = true -> exists u, xexec cf A vars w o = UB u.
Proof.
  intros cf A T a vars w o W Hc Hw M Hl Hu. destruct o as [o|j e base t x|j b e t|j r|j r|j base key iv|j base key iv|j fmt ps|j fmt ps]; cbn [iso_acc_undefined] in Hu; try discriminate.
  - destruct (iso_undefined_ub cf T a vars w o W Hc Hw M Hl Hu) as (u & E). cbn [xexec]. rewrite E. cbn. eauto.
  - destruct Hl as (B & Hj & _). cbn [xtarget] in Hj. pose proof (slot_in a j _ Hj ltac:(congruence)) as Lj.
    pose proof (mn_slot _ _ _ _ _ M _ Lj) as HB. rewrite Hj in HB. destruct (pack_far cf e w (var vars j) B base t x W Hc HB) as (u & E). cbn [xexec]. rewrite E. cbn. eauto.
Qed.
Lemma iso_acc_step : forall cf A T a vars w o, wf_cfg cf -> c_wrapv cf = false -> means cf T a vars w -> xlegal cf A T a o -> iso_acc_undefined vars a o = false ->
  exists vars' w', xexec cf A vars w o = Ok (fst (xstep cf A a o), vars', w') /\ advances cf T a vars w (xtarget A o) (snd (xstep cf A a o)) vars' w'.
Proof.
  intros cf A T a vars w o W Hw M Hl Hu. destruct o as [o|j e base t x|j b e t|j r|j r|j base key iv|j base key iv|j fmt ps|j fmt ps]; cbn [iso_acc_undefined] in Hu;
    try discriminate; try (apply xstep_acc; auto; exact I).
  destruct (iso_step cf T a vars w o W Hw M Hl Hu) as (v & vars' & w' & E & R & Ad). cbn [xexec xstep xtarget]. rewrite E. cbn [look bind]. rewrite R. cbn [bind].
  destruct (astep cf a o) as [y a']. cbn [fst snd] in *. eauto.
Qed.

(** ** The same program on a usual compiler *)
Lemma printed_strict : forall cf D f (l : list (item D)) col, printed (strict cf) f col l = printed cf f col l.
Proof.
  intros cf D f l. induction l as [|i l IH]; intros col; cbn [printed]; auto.
  assert (item_out (strict cf) f col i = item_out cf f col i) as -> by (destruct i; reflexivity). now rewrite IH.
Qed.
Lemma wanted_strict : forall cf A a ps, wanted (strict cf) A a ps = wanted cf A a ps.
Proof. intros. apply printed_strict. Qed.
Lemma xstep_strict : forall cf A a o, xstep (strict cf) A a o = xstep cf A a o.
Proof.
  intros cf A a o. destruct o; cbn [xstep]; [rewrite astep_strict; reflexivity|..]; try reflexivity;
    (destruct (slot_of a _); [reflexivity| |reflexivity]); cbn [xseen xbuf_step]; rewrite wanted_strict; reflexivity.
Qed.
Lemma xarun_strict : forall cf A prog a, xarun (strict cf) A a prog = xarun cf A a prog.
Proof. intros cf A prog. induction prog as [|o prog IH]; intros a; cbn [xarun]; auto. rewrite xstep_strict. destruct (xstep cf A a o) as [x a1]. now rewrite IH. Qed.
Theorem iso_acc_exact : forall cf A T a vars w o, wf_cfg cf -> means cf T a vars w -> xlegal (strict cf) A T a o ->
  (iso_acc_undefined vars a o = true -> exists u, xexec (strict cf) A vars w o = UB u) /\
  (iso_acc_undefined vars a o = false -> xexec (strict cf) A vars w o = xexec cf A vars w o /\
     exists vars' w', xexec cf A vars w o = Ok (fst (xstep cf A a o), vars', w') /\ means cf T (snd (xstep cf A a o)) vars' w').
Proof.
  intros cf A T a vars w o W M Hl. apply strict_wf in W as W2. apply means_strict in M as M2. split; intros Hu.
  - exact (iso_acc_ub (strict cf) A T a vars w o W2 eq_refl eq_refl M2 Hl Hu).
  - destruct (iso_acc_step (strict cf) A T a vars w o W2 eq_refl M2 Hl Hu) as (vars' & w' & E & M' & _).
    rewrite xstep_strict in E, M'. assert (xexec cf A vars w o = Ok (fst (xstep cf A a o), vars', w')) as E2.
    { destruct (xexec_mono (Fewer false false false false) cf A vars w o) as [X|(u & X)]; unfold strict in E; congruence. }
    split; [congruence|]. exists vars', w'. split; auto. now apply means_strict.
Qed.
Theorem iso_acc_program_exact : forall cf A T prog a vars w, wf_cfg cf -> means cf T a vars w -> all_xlegal (strict cf) A T a prog ->
  (iso_acc_program cf A vars w a prog = true -> xrun (strict cf) A vars w prog = xrun cf A vars w prog /\
     exists vars' w', xrun cf A vars w prog = Ok (fst (xarun cf A a prog), vars', w') /\ means cf T (snd (xarun cf A a prog)) vars' w') /\
  (iso_acc_program cf A vars w a prog = false -> exists u, xrun (strict cf) A vars w prog = UB u).
Proof.
  intros cf A T prog. induction prog as [|o prog IH]; intros a vars w W M Hl; cbn [xrun xarun iso_acc_program].
  - split; [intros _; split; [reflexivity|exists vars, w; auto]|discriminate].
  - destruct Hl as (L1 & L2). rewrite xstep_strict in L2. destruct (iso_acc_exact cf A T a vars w o W M L1) as [H1 H2].
    destruct (iso_acc_undefined vars a o); cbn [negb andb].
    + split; [discriminate|]. intros _. destruct (H1 eq_refl) as (u & ->). cbn. eauto.
    + destruct (H2 eq_refl) as (E & vars' & w' & E2 & M'). rewrite E, E2. cbn [bind].
      destruct (xstep cf A a o) as [x a1]. cbn [fst snd] in *. destruct (IH a1 vars' w' W M' L2) as [I1 I2].
      destruct (xarun cf A a1 prog) as [xs a2]. cbn [fst snd] in *. split; intros Hp.
      * destruct (I1 Hp) as (-> & vars2 & w2 & -> & M2). cbn [bind]. split; auto. exists vars2, w2. auto.
      * destruct (I2 Hp) as (u & ->). cbn. eauto.
Qed.

(** Without those functions there is nothing to avoid. *)
Theorem in_iso_acc_program : forall cf A T prog a vars w, wf_cfg cf -> means cf T a vars w -> all_xlegal (strict cf) A T a prog -> Forall (fun o => in_iso_acc o = true) prog ->
  iso_acc_program cf A vars w a prog = true.
Proof.
  intros cf A T prog. induction prog as [|o prog IH]; intros a vars w W M Hl Hf; auto. cbn [iso_acc_program]. inversion Hf as [|? ? F1 F2]; subst.
  destruct Hl as (L1 & L2). rewrite xstep_strict in L2. destruct (iso_acc_exact cf A T a vars w o W M L1) as [_ H2].
  assert (iso_acc_undefined vars a o = false) as E by (destruct o; try reflexivity; try discriminate F1; now apply in_iso_buf_never). rewrite E in *.
  destruct (H2 eq_refl) as (_ & vars' & w' & -> & M'). cbn [negb andb]. eauto.
Qed.
