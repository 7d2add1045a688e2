(** Programs on buffers and views under the letter of ISO C. *)
From Verif Require Import Base Mem Libc StrviewModel StrnumModel Spec MemLemmas NumSpec StrviewProofs StrviewProofs2 Alloc StrbufModel BufSpec
  StrbufProofs StrbufProofs2 HistSpec StrbufHistory ViewProg ViewProgProofs ViewProgProofs2 SameSpec SameProofs MixSpec MixProofs MixCheck PortSpec PortProg
  IsoSpec IsoProofs IsoBufSpec IsoBufProofs IsoBufProofs2 IsoMixSpec.

(** ** Correct use *)
Lemma sums_strict : forall cf n, sums_ok (strict cf) n -> sums_ok cf n.
Proof. intros cf n [H|H]; [discriminate H|now right]. Qed.
Lemma legal_strict : forall cf R a o, legal (strict cf) R a o -> legal cf R a o.
Proof.
  intros cf R a o H. destruct o; cbn [legal] in *; try exact H;
    try (destruct H as (B & Hj & H); exists B; split; [exact Hj|]; cbn [buf_legal] in *; intuition (auto using sums_strict)).
  intuition (auto using sums_strict).
Qed.
Lemma mlegal_strict : forall cf ds T R s g o, mlegal (strict cf) ds T R s g o -> mlegal cf ds T R s g o.
Proof. intros cf ds T R s g [o|o ks to|k] H; auto. destruct H as [H1 H2]. split; [exact H1|]. now apply legal_strict. Qed.

Section Run.
Variables (cf : cfg) (T : library) (ds : list ptr) (dls : list (list Z)) (R : texts).
Hypotheses (U : usual cf) (W : wf_cfg cf) (C : covers ds T R dls).

(** ** Calls on a usual compiler *)
Lemma mstep_safe : forall s g o, stands cf T R s g -> mlegal cf ds T R s g o ->
  exists x s', mexec cf ds s o = Ok (x, s') /\ stands cf T R s' (gstep cf ds T s g o x).
Proof.
  intros s g o S L. destruct (mixed_safe cf T ds dls R [o] s g U W C S) as (xs & s' & E & S').
  - cbn [all_mlegal]. split; [exact L|]. destruct (mexec cf ds s o) as [[? ?]|?|]; exact I.
  - cbn [mrun gafter] in E, S'. destruct (mexec cf ds s o) as [[x s1]|u|]; cbn [bind] in E; try discriminate. injection E as _ <-. eauto.
Qed.

(** ** Calls under the letter of ISO C *)
Lemma mview_exact : forall s g o, stands cf T R s g -> mlegal cf ds T R s g (MView o) ->
  (iso_mix_undefined cf T s g (MView o) -> exists u, mexec (strict cf) ds s (MView o) = UB u) /\
  (~ iso_mix_undefined cf T s g (MView o) -> mexec (strict cf) ds s (MView o) = mexec cf ds s (MView o)).
Proof.
  intros [vars views e w] [a ns] o (M & V & He) (Hs & Ht & Hf). cbn [ms_vars ms_views ms_eol ms_st g_slots g_names] in *.
  pose proof (names_get cf T a vars views ns (vo_src o) V) as P. pose proof (names_get cf T a vars views ns (vo_arg o) V) as Q.
  pose proof (name_denotes cf T ds dls R W C _ _ _ _ _ M P Hs) as D. pose proof (name_denotes cf T ds dls R W C _ _ _ _ _ M Q Ht) as A.
  assert (vlegal ds (vo_f o) (vget views (vo_src o)) (vget views (vo_arg o))) as L.
  { destruct (vo_f o); cbn [vlegal] in *; auto.
    destruct (together_at cf cf T T a a vars vars (s_mem w) (s_mem w) _ _ _ _ _ _ P P Q Q Hf) as [[? _]|[[? _]|[? _]]]; auto. }
  destruct (iso_call_exact cf (s_mem w) ds dls (vo_f o) _ _ _ _ e U (mn_wf _ _ _ _ _ M) D A (strings_kept cf T ds dls R C a vars w M) L He) as [K1 K2].
  cbn [iso_mix_undefined mexec ms_views g_slots g_names]. unfold vexec. split; intros H.
  - destruct (K1 H) as [u ->]. exists u. reflexivity.
  - now rewrite (K2 H).
Qed.
Lemma mbuf_exact : forall s g o ks to, stands cf T R s g -> mlegal (strict cf) ds T R s g (MBuf o ks to) ->
  (iso_mix_undefined cf T s g (MBuf o ks to) -> exists u, mexec (strict cf) ds s (MBuf o ks to) = UB u) /\
  (~ iso_mix_undefined cf T s g (MBuf o ks to) -> mexec (strict cf) ds s (MBuf o ks to) = mexec cf ds s (MBuf o ks to)).
Proof.
  intros [vars views e w] [a ns] o ks to (M & V & He) [Hk Hl]. cbn [ms_vars ms_views ms_eol ms_st g_slots g_names iso_mix_undefined mexec] in *.
  set (o' := fill (map (arg_named T views (Ghost a ns)) ks) o) in *.
  assert (forall c, wf_cfg c -> means c R a vars w -> Forall2 (is_view c T a vars) views ns ->
    exec c vars w (fill (map (fun k => SText (vget views k) []) ks) o) = exec c vars w o') as Q.
  { intros c Wc Mc Vc. apply fill_alike. clear - Hk Wc Mc Vc. induction Hk as [|k ks Hk1 Hk IH]; cbn [map]; constructor; auto. exact (arg_alike c T R Wc a vars views ns w k Mc Vc Hk1). }
  rewrite (Q cf W M V), (Q (strict cf) W (proj1 (means_strict _ _ _ _ _) M) V).
  destruct (iso_buf_exact cf R a vars w o' W M Hl) as [K1 K2]. destruct (iso_buf_undefined vars a o').
  - split; [|congruence]. intros _. destruct (K1 eq_refl) as [u ->]. exists u. reflexivity.
  - split; [discriminate|]. intros _. destruct (K2 eq_refl) as [-> _]. reflexivity.
Qed.

Theorem iso_mix_exact : forall s g o, stands cf T R s g -> mlegal (strict cf) ds T R s g o ->
  (iso_mix_undefined cf T s g o -> exists u, mexec (strict cf) ds s o = UB u) /\
  (~ iso_mix_undefined cf T s g o -> mexec (strict cf) ds s o = mexec cf ds s o /\
     exists x s', mexec cf ds s o = Ok (x, s') /\ stands cf T R s' (gstep cf ds T s g o x)).
Proof.
  intros s g o S L. pose proof (mstep_safe s g o S (mlegal_strict _ _ _ _ _ _ _ L)) as (x & s' & E & S').
  assert ((iso_mix_undefined cf T s g o -> exists u, mexec (strict cf) ds s o = UB u) /\ (~ iso_mix_undefined cf T s g o -> mexec (strict cf) ds s o = mexec cf ds s o)) as [K1 K2].
  { destruct o as [o|o ks to|k]; [now apply mview_exact|now apply mbuf_exact|]. split; [intros []|]. intros _. destruct s. reflexivity. }
  split; [exact K1|]. intros H. split; [now apply K2|]. eauto.
Qed.

Theorem iso_mix_program_exact : forall prog s g, stands cf T R s g -> all_iso_legal cf ds T R s g prog ->
  (iso_mix_program cf ds T s g prog -> mrun (strict cf) ds s prog = mrun cf ds s prog /\
     exists xs s', mrun cf ds s prog = Ok (xs, s') /\ stands cf T R s' (gafter cf ds T s g prog)) /\
  (~ iso_mix_program cf ds T s g prog -> exists u, mrun (strict cf) ds s prog = UB u).
Proof.
  induction prog as [|o t IH]; intros s g S L; cbn [mrun gafter iso_mix_program].
  - split; [intros _; split; [reflexivity|]; eauto|]. intros H. exfalso. now apply H.
  - destruct L as [L1 L2]. destruct (iso_mix_exact s g o S L1) as [K1 K2].
    destruct (mstep_safe s g o S (mlegal_strict _ _ _ _ _ _ _ L1)) as (x & s' & E & S'). rewrite E in *. destruct (IH s' _ S' L2) as [I1 I2].
    split.
    + intros [H1 H2]. destruct (K2 H1) as [-> _]. cbn [bind]. destruct (I1 H2) as (-> & xs & s2 & -> & S2). cbn [bind]. split; [reflexivity|]. eauto.
    + intros H. destruct (mexec_mono (Fewer false false false false) cf ds s o) as [B|[u B]]; fold (strict cf) in B; rewrite B; [|exists u; reflexivity]. rewrite E. cbn [bind].
      destruct I2 as [u ->]; [|exists u; reflexivity]. intros H2. apply H. split; [|exact H2]. intros X. destruct (K1 X) as [u Y]. congruence.
Qed.
Theorem iso_mix_decided : forall prog s g, stands cf T R s g -> all_iso_legal cf ds T R s g prog ->
  iso_mix_program cf ds T s g prog \/ exists u, mrun (strict cf) ds s prog = UB u.
Proof.
  induction prog as [|o t IH]; intros s g S L; cbn [mrun iso_mix_program]; [now left|]. destruct L as [L1 L2]. destruct (iso_mix_exact s g o S L1) as [K1 K2].
  destruct (mstep_safe s g o S (mlegal_strict _ _ _ _ _ _ _ L1)) as (x & s' & E & S'). rewrite E in *.
  destruct (mexec_mono (Fewer false false false false) cf ds s o) as [B|[u B]]; fold (strict cf) in B; rewrite B; [|right; exists u; reflexivity]. rewrite E. cbn [bind].
  destruct (IH s' _ S' L2) as [P|[u ->]]; [left|right; exists u; reflexivity]. split; [|exact P]. intros X. destruct (K1 X) as [u Y]. congruence.
Qed.
Theorem in_iso_mix_program : forall prog s g, stands cf T R s g -> all_iso_legal cf ds T R s g prog -> Forall (fun o => in_iso_mix o = true) prog ->
  iso_mix_program cf ds T s g prog.
Proof.
  induction prog as [|o t IH]; intros s g S L F; cbn [iso_mix_program]; auto. inversion F as [|? ? F1 F2]; subst. destruct L as [L1 L2].
  destruct (mstep_safe s g o S (mlegal_strict _ _ _ _ _ _ _ L1)) as (x & s' & E & S'). rewrite E in *. split; [|now apply IH].
  destruct o as [o|o ks to|k]; cbn [in_iso_mix iso_mix_undefined] in *; [now apply in_iso_never| |tauto].
  rewrite in_iso_buf_never; [discriminate|]. clear - F1. destruct o; cbn [fill] in *; auto; destruct (fill_src _ d); exact F1.
Qed.
End Run.

(** ** For the examples *)
(** The sum that must not overflow. *)
Definition sum_of (a : list slot) (o : op) : Z :=
  let n := match slot_of a (target o) with ABuf B => Zlen (bf_data B) | _ => 0 end in
  match o with
  | OAppend _ s | OPrepend _ s | OInsert _ _ s | OBefore _ _ s | OAfter _ _ s => n + Zlen (text_of a s)
  | OAssign _ s | OInit _ s _ => Zlen (text_of a s)
  | OCat _ ss => Zlen (concat (map (text_of a) ss))
  | OChar _ _ => n + 1
  | OPrintf _ l | OPrnf _ l => Zlen l
  | OAppendPrintf _ l | OAppendPrnf _ l => n + Zlen l
  | _ => 0
  end.
Definition roomb (cf : cfg) (T : library) (s : mstate) (g : ghost) (o : mop) : bool :=
  match o with MBuf o ks _ => sum_of (g_slots g) (fill (map (arg_named T (ms_views s) g) ks) o) + c_step cf <=? INT_MAX | _ => true end.
Fixpoint all_roomb (cf : cfg) (ds : list ptr) (T : library) (s : mstate) (g : ghost) (prog : list mop) : bool :=
  match prog with
  | [] => true
  | o :: t => roomb cf T s g o && match mexec cf ds s o with Ok (x, s') => all_roomb cf ds T s' (gstep cf ds T s g o x) t | _ => true end
  end.
Lemma room_legal : forall cf R a o, legal cf R a o -> sum_of a o + c_step cf <= INT_MAX -> legal (strict cf) R a o.
Proof.
  intros cf R a o H Hs. unfold sum_of in Hs.
  assert (forall n, n + c_step cf <= INT_MAX -> sums_ok (strict cf) n) as K by (intros; now right).
  destruct o; cbn [legal target] in *; try exact H;
    try (destruct H as (B & Hj & H); try rewrite Hj in Hs; exists B; split; [exact Hj|]; cbn [buf_legal] in *;
         repeat match goal with H : _ /\ _ |- _ => destruct H end; repeat split; try assumption; try (unfold is_byte in *; lia); apply K; exact Hs).
  destruct H as (H1 & H2 & H3 & H4 & _). repeat split; auto.
Qed.
Lemma all_roomb_ok : forall cf ds T R prog s g, all_mlegal cf ds T R s g prog -> all_roomb cf ds T s g prog = true -> all_iso_legal cf ds T R s g prog.
Proof.
  intros cf ds T R prog. induction prog as [|o t IH]; intros s g L H; cbn [all_mlegal all_roomb all_iso_legal] in *; auto.
  apply andb_true_iff in H as [H1 H2]. destruct L as [L1 L2]. split; [|destruct (mexec cf ds s o) as [[x s']|u|]; auto].
  destruct o as [o|o ks to|k]; auto. destruct L1 as [L0 L1]. split; [exact L0|]. apply room_legal; [exact L1|]. now apply Z.leb_le.
Qed.
