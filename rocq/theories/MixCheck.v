(** Deciding whether a program on buffers and views is correct use, for the examples. *)
From Verif Require Import Base Mem Libc StrviewModel StrnumModel Spec MemLemmas NumSpec Alloc StrbufModel BufSpec HistSpec StrbufHistory ViewProg
  SameProofs MixSpec MixProofs ExampleLib.

Definition intb (x : Z) : bool := (INT_MIN <=? x) && (x <=? INT_MAX).
Definition is_buf (s : slot) : bool := match s with ABuf _ => true | _ => false end.
Definition is_none (s : slot) : bool := match s with ANone => true | _ => false end.
Definition allocb (x y : allocator) : bool :=
  (a_app x =? a_app y) && match a_fn x, a_fn y with Some f, Some g => (f =? g)%nat | None, None => true | _, _ => false end.
Definition srcb (a : list slot) (s : src) : bool :=
  match s with SNone => true | SPart k b e => is_buf (slot_of a k) && intb b && intb e | _ => false end.
Definition own (o : op) : list src :=
  match o with
  | OAppend _ s | OPrepend _ s | OInsert _ _ s | OAssign _ s | OStrip _ s | OInit _ s _ => [s]
  | OBefore _ d s | OAfter _ d s => [d; s]
  | OCat _ ss => ss
  | _ => []
  end.
Definition restb (a : list slot) (o : op) : bool :=
  match o with
  | OCreate j cap al => is_none (slot_of a j) && (j <? length a)%nat && is_dyn al && (0 <=? cap) && (cap <=? INT_MAX)
  | OInit j _ al => is_none (slot_of a j) && (j <? length a)%nat && is_dyn al
  | OFree j al => match slot_of a j with AStr _ al' => allocb al' al | _ => false end
  | o => match slot_of a (target o) with
         | ABuf B => match o with
                     | OInsert _ i _ => intb i
                     | OChar _ c => byteb c
                     | OStrip j s => match s with SPart k _ _ | SAt k _ _ => negb (k =? j)%nat | _ => true end
                     | OGrow _ n => n <=? INT_MAX
                     | OPrintf _ l | OPrnf _ l | OAppendPrintf _ l | OAppendPrnf _ l => forallb byteb l && (Zlen l <=? INT_MAX)
                     | OUsing _ l => forallb byteb l
                     | OToCstr _ => dyn B
                     | _ => true
                     end
         | _ => false
         end
  end.
Definition freshb (x : name) : bool := match x with NStale => false | _ => true end.
Definition togetherb (x y : name) : bool :=
  match x, y with
  | NNone, _ | _, NNone => true
  | NText k _ _, NText k' _ _ => (k =? k')%nat
  | NBuf j _ _, NBuf j' _ _ => (j =? j')%nat
  | _, _ => false
  end.
Definition mlegalb (ds : list ptr) (T : library) (s : mstate) (g : ghost) (o : mop) : bool :=
  match o with
  | MView o =>
      let x := nget (g_names g) (vo_src o) in
      let y := nget (g_names g) (vo_arg o) in
      freshb x && freshb y &&
      match vo_f o with
      | FSub b e => intb b && intb e
      | FIndex i => intb i
      | FDelim _ _ d => (d <? length ds)%nat
      | FAt _ => togetherb x y
      | _ => true
      end
  | MBuf o ks _ => forallb (fun k => freshb (nget (g_names g) k)) ks && forallb (srcb (g_slots g)) (own o) &&
                   restb (g_slots g) (fill (map (arg_named T (ms_views s) g) ks) o)
  | MText k => freshb (nget (g_names g) k)
  end.
Fixpoint all_mlegalb (cf : cfg) (ds : list ptr) (T : library) (s : mstate) (g : ghost) (prog : list mop) : bool :=
  match prog with
  | [] => true
  | o :: t => mlegalb ds T s g o && match mexec cf ds s o with Ok (x, s') => all_mlegalb cf ds T s' (gstep cf ds T s g o x) t | _ => true end
  end.

Lemma freshb_ok : forall x, freshb x = true -> x <> NStale.
Proof. intros [] H; cbn in H; congruence. Qed.
Lemma intb_ok : forall x, intb x = true -> INT_MIN <= x <= INT_MAX.
Proof. intros x H. unfold intb in H. apply andb_true_iff in H as [H1 H2]. apply Z.leb_le in H1, H2. auto. Qed.
Lemma allocb_ok : forall x y, allocb x y = true -> x = y.
Proof.
  intros [x f] [y g] H. unfold allocb in H. cbn in H. apply andb_true_iff in H as [H1 H2]. apply Z.eqb_eq in H1. subst y.
  destruct f, g; try discriminate; auto. apply Nat.eqb_eq in H2. congruence.
Qed.
Lemma srcb_ok : forall R a s, srcb a s = true -> src_legal R a s.
Proof.
  intros R a [] H; cbn in *; try discriminate; auto. apply andb_true_iff in H as [H H3]. apply andb_true_iff in H as [H1 H2].
  split; [destruct (slot_of a k); try discriminate; eauto|]. split; now apply intb_ok.
Qed.
Lemma own_srcs : forall cf R a o, c_wrapv cf = true -> Forall (src_legal R a) (own o) -> restb a o = true -> legal cf R a o.
Proof.
  intros cf R a o Wv Ho Hr.
  assert (forall n, sums_ok cf n) as Hs by (intros; now left).
  assert (forall l, forallb byteb l = true -> Forall is_byte l) as Hb by (intros; now apply byteb_ok).
  destruct o; cbn [own restb legal target] in *;
    try (destruct (slot_of a j) as [|B|l0 al0] eqn:E; try discriminate Hr; exists B; split; [reflexivity|]; cbn [buf_legal];
         repeat match goal with H : Forall _ (_ :: _) |- _ => inversion H; clear H; subst end; auto).
  - split; [assumption|]. split; [auto|]. now apply intb_ok.
  - split; auto. assert (Forall is_byte [c]) as K by (apply Hb; cbn; now rewrite Hr). now inversion K.
  - split; auto. destruct s; auto; apply negb_true_iff, Nat.eqb_neq in Hr; exact Hr.
  - now apply Z.leb_le.
  - apply andb_true_iff in Hr as [Hr1 Hr2]. apply Z.leb_le in Hr2. auto.
  - apply andb_true_iff in Hr as [Hr1 Hr2]. apply Z.leb_le in Hr2. auto.
  - apply andb_true_iff in Hr as [Hr1 Hr2]. apply Z.leb_le in Hr2. auto.
  - apply andb_true_iff in Hr as [Hr1 Hr2]. apply Z.leb_le in Hr2. auto.
  - rewrite !andb_true_iff, !Z.leb_le, Nat.ltb_lt in Hr. destruct Hr as ((((H1 & H2) & H3) & H4) & H5).
    split; [destruct (slot_of a j); try discriminate; reflexivity|]. auto.
  - rewrite !andb_true_iff, Nat.ltb_lt in Hr. destruct Hr as ((H1 & H2) & H3). inversion Ho; subst.
    split; [destruct (slot_of a j); try discriminate; reflexivity|]. auto.
  - destruct (slot_of a j); try discriminate. apply allocb_ok in Hr. subst. eauto.
Qed.
Lemma fill_src_all : forall (P : src -> Prop) ss s, Forall P ss -> P s -> P (fst (fill_src ss s)) /\ Forall P (snd (fill_src ss s)).
Proof. intros P ss s H Hs. destruct H, s; cbn; auto. Qed.
Lemma fill_list_all : forall (P : src -> Prop) l ss, Forall P ss -> Forall P l -> Forall P (fill_list ss l).
Proof.
  intros P l. induction l as [|s l IH]; intros ss H Hl; cbn [fill_list]; auto. inversion Hl; subst.
  destruct (fill_src_all P ss s H) as [K1 K2]; auto. destruct (fill_src ss s). cbn [fst snd] in *. constructor; auto.
Qed.
Lemma fill_all : forall (P : src -> Prop) ss o, Forall P ss -> Forall P (own o) -> Forall P (own (fill ss o)).
Proof.
  intros P ss o H Ho. destruct o; cbn [own fill] in *; auto; try (now apply fill_list_all); inversion Ho as [|? ? H1 H2]; subst;
    try (constructor; [apply (fill_src_all P ss); auto|auto]);
    destruct (fill_src_all P ss d H H1) as [K1 K2]; destruct (fill_src ss d) as [d' ss']; cbn [fst snd own] in *; inversion H2; subst;
    constructor; [exact K1|constructor; [now apply fill_src_all|constructor]|exact K1|constructor; [now apply fill_src_all|constructor]].
Qed.
Lemma mlegalb_ok : forall cf ds dls T R s g o, c_wrapv cf = true -> covers ds T R dls -> stands cf T R s g -> mlegalb ds T s g o = true -> mlegal cf ds T R s g o.
Proof.
  intros cf ds dls T R s g o Wv C S H. destruct o as [o|o ks to|k]; cbn [mlegalb mlegal] in *.
  - apply andb_true_iff in H as [H H3]. apply andb_true_iff in H as [H1 H2]. split; [now apply freshb_ok|]. split; [now apply freshb_ok|].
    destruct (vo_f o); cbn [vlegal]; auto.
    + apply andb_true_iff in H3 as [H3 H4]. auto using intb_ok.
    + now apply Nat.ltb_lt.
    + now apply intb_ok.
    + destruct (nget (g_names g) (vo_src o)), (nget (g_names g) (vo_arg o)); cbn in *; auto; try discriminate; now apply Nat.eqb_eq.
  - apply andb_true_iff in H as [H H3]. apply andb_true_iff in H as [H1 H2].
    assert (Forall (fun k => nget (g_names g) k <> NStale) ks) as Hk.
    { rewrite Forall_forall. intros k Hk. rewrite forallb_forall in H1. apply freshb_ok. auto. }
    split; [exact Hk|]. apply own_srcs; auto. apply fill_all.
    + clear H1 H2 H3. destruct S as (M & V & _). induction Hk as [|k ks Hk1 Hk IH]; cbn [map]; constructor; auto.
      pose proof (names_get cf T _ _ _ _ k V) as Q. unfold arg_named. destruct (nget (g_names g) k) as [|t i n|j i n|]; cbn [src_legal is_view] in *; auto.
      * destruct Q as (s0 & l & E & Hi & Hn & Hl & ->). cbn [named_text]. rewrite (nth_error_nth _ _ _ E). cbn [snd]. apply (proj1 C t s0 l i n E Hi Hn Hl).
      * destruct Q as (B & E & Hi & Hn & Hl & _). eauto 10.
    + rewrite Forall_forall. rewrite forallb_forall in H2. intros x Hx. apply srcb_ok. auto.
  - now apply freshb_ok.
Qed.
Lemma all_mlegalb_ok : forall cf ds dls T R prog s g, usual cf -> wf_cfg cf -> c_wrapv cf = true -> covers ds T R dls -> stands cf T R s g ->
  all_mlegalb cf ds T s g prog = true -> all_mlegal cf ds T R s g prog.
Proof.
  intros cf ds dls T R prog. induction prog as [|o t IH]; intros s g U W Wv C S H; cbn [all_mlegalb all_mlegal] in *; auto.
  apply andb_true_iff in H as [H1 H2]. pose proof (mlegalb_ok cf ds dls T R s g o Wv C S H1) as L. split; [exact L|].
  destruct (mexec cf ds s o) as [[x s']|u|] eqn:E; auto. apply IH; auto.
  destruct (mixed_safe cf T ds dls R [o] s g U W C S) as (xs & s2 & E2 & S2); [cbn [all_mlegal]; rewrite E; auto|].
  cbn [mrun gafter] in E2, S2. rewrite E in E2, S2. cbn [bind] in E2. injection E2 as _ <-. exact S2.
Qed.

(** All parts of texts, and C strings with their terminators. *)
Definition parts (T : library) (ds : list ptr) (dls : list (list Z)) : texts := fun v l =>
  (exists k s t i n, nth_error T k = Some (s, t) /\ 0 <= i /\ 0 <= n /\ i + n <= Zlen t /\ v = subview s i n /\ l = piece i n t) \/
  (exists k d t, nth_error ds k = Some d /\ nth_error dls k = Some t /\ v = View d (Zlen t + 1) /\ l = t ++ [0]).
Lemma parts_cover : forall T ds dls, length ds = length dls -> Forall (fun l => ~ In 0 l) dls -> covers ds T (parts T ds dls) dls.
Proof.
  intros T ds dls Hl H. split.
  - intros k s l i n E Hi Hn Hi2. left. exists k, s, l, i, n. auto 10.
  - assert (forall n, Forall2 (fun d l => ~ In 0 l /\ parts T ds dls (View d (Zlen l + 1)) (l ++ [0])) (skipn n ds) (skipn n dls)) as K; [|apply (K 0%nat)].
    intros n. remember (length ds - n)%nat as q eqn:Eq. revert n Eq. induction q as [|q IH]; intros n Eq.
    + rewrite !skipn_all2 by lia. constructor.
    + destruct (nth_error ds n) as [d|] eqn:E1; [|apply nth_error_None in E1; lia]. destruct (nth_error dls n) as [t|] eqn:E2; [|apply nth_error_None in E2; lia].
      assert (forall {A} (l : list A) n x, nth_error l n = Some x -> skipn n l = x :: skipn (S n) l) as Sk.
      { clear. intros A l. induction l as [|y l IH]; intros [|n] x E; cbn in E; try discriminate; [injection E as ->; reflexivity|]. rewrite !skipn_cons. now apply IH. }
      rewrite (Sk _ ds n d E1), (Sk _ dls n t E2). constructor; [|apply IH; lia]. split; [rewrite Forall_forall in H; apply H; eapply nth_error_In; eauto|].
      right. exists n, d, t. auto.
Qed.
Lemma parts_view : forall m T ds dls v l, stored m T -> Forall2 (c_string m) ds dls ->
  Forall (fun l => Zlen l + 1 <= INT_MAX) dls -> parts T ds dls v l ->
  has_view m v l /\ ((exists k s t, nth_error T k = Some (s, t) /\ p_obj (v_data v) = p_obj (v_data s)) \/ exists k d, nth_error ds k = Some d /\ p_obj (v_data v) = p_obj d).
Proof.
  intros m T ds dls v l S C Z [(k & s & t & i & n & E & Hi & Hn & Hl & -> & ->)|(k & d & t & E1 & E2 & -> & ->)].
  - split; [|left; exists k, s, t; auto]. pose proof (nth_error_In _ _ E) as I. unfold stored in S. rewrite Forall_forall in S. apply S in I. cbn [fst snd] in I.
    destruct (piece_at t i n Hi Hn Hl) as (x & z & Ed & Ei & En). rewrite Ed in I. apply has_view_sub in I. now rewrite Ei, En in I.
  - split; [|right; exists k, d; auto]. revert k E1 E2. induction C as [|d' t' ds' dls' (C1 & C2 & C3 & C4) C IH]; intros [|k] E1 E2; cbn in E1, E2; try discriminate; inversion Z as [|? ? Z1 Z2]; subst; [|eapply IH; eauto].
    injection E1 as ->. injection E2 as ->. split; [exact C1|]. rewrite Zlen_app. change (Zlen [0]) with 1. split; [reflexivity|].
    split; [|apply Forall_app; split; [exact C2|constructor; [unfold is_byte; lia|constructor]]].
    exact Z1.
Qed.
