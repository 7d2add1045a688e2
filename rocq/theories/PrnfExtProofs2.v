(** Proofs about the extension %n of prnf: whole format strings. *)
From Verif Require Import Base Mem Libc Alloc StrviewModel Spec MemLemmas StrviewProofs StrviewProofs3 NumSpec StrnumProofs StrnumProofs2 StrnumProofs3
  PrnfModel PrnfSpec PrnfSpec2 PrnfProofs PrnfProofs2 PrnfProofs3 PrnfProofs4 PrnfProofs5 PrnfExtModel PrnfExtSpec PrnfExtProofs.
From Verif Require StrbufProofs.

(** ** Freed memory *)
Lemma kill_length : forall m c, length (kill_at m c) = length m.
Proof. intros m c. unfold kill_at. destruct (nth_error m c); auto. apply upd_length. Qed.
Lemma kill_other : forall m c b, b <> c -> nth_error (kill_at m c) b = nth_error m b.
Proof. intros m c b H. unfold kill_at. destruct (nth_error m c); auto. now apply upd_other. Qed.
Lemma kill_same : forall m c k, nth_error m c = Some k -> nth_error (kill_at m c) c = Some (kill k).
Proof. intros m c k H. unfold kill_at. rewrite H. apply upd_same. apply nth_error_Some. congruence. Qed.
Lemma kill_bytes : forall m c q l, bytes_at m q l -> p_obj q <> PBlk c -> bytes_at (kill_at m c) q l.
Proof.
  intros m c q l (k & A1 & A2) H. exists k. split; auto. destruct (p_obj q) as [|b|x]; auto. cbn [access] in *. rewrite kill_other by congruence. exact A1.
Qed.
Lemma kill_frame : forall m m' b lo hi c, frame m m' b lo hi -> c <> b -> frame (kill_at m c) (kill_at m' c) b lo hi.
Proof.
  intros m m' b lo hi c (L & O & K) N. split; [now rewrite !kill_length|]. split.
  - intros i Hi. destruct (Nat.eq_dec i c) as [->|Ni]; [|rewrite !kill_other by auto; now apply O].
    unfold kill_at. rewrite (O c Hi). destruct (nth_error m c) as [k|] eqn:E; [|now rewrite O].
    rewrite !upd_same; auto; apply nth_error_Some; [|rewrite O by auto]; congruence.
  - intros k Hk. rewrite kill_other in Hk by auto. rewrite kill_other by auto. now apply K.
Qed.
Lemma released_nil : forall m, released m m [].
Proof. intros m. split; auto. split; [intros b []|auto]. Qed.
Lemma released_cons : forall m m' c k bs, nth_error m c = Some k -> b_live k = true -> ~ In c bs -> released (kill_at m c) m' bs -> released m m' (c :: bs).
Proof.
  intros m m' c k bs Hc Hl Hn (L & D & O). rewrite kill_length in L. split; auto. split.
  - intros b [<-|Hb].
    + exists k, (kill k). rewrite O by auto. rewrite (kill_same m c k Hc). auto.
    + assert (b <> c) as N by (intros ->; tauto). destruct (D b Hb) as (k1 & k2 & K1 & K2 & K3 & K4). rewrite kill_other in K1 by auto. exists k1, k2. auto.
  - intros b Hb. cbn [In] in Hb. rewrite O by tauto. apply kill_other. intros ->. tauto.
Qed.

Notation mid := (fun m : mem => m).
Notation mwr := (fun (_ m : mem) => m).
(** The state of the output [o] with the memory [m]. *)
Definition put_st {W : Type} (wr : W -> mem -> W) (o : out W) (m : mem) : out W := Out W (o_col W o) (o_cnt W o) (o_limit W o) (o_buf W o) (o_fn W o) (wr (o_st W o) m).

Lemma shown_app : forall {D} cf (flt : bool -> conv -> D -> list Z) a b col,
  shown cf flt col (a ++ b) = shown cf flt col a ++ shown cf flt (after cf col (shown cf flt col a)) b.
Proof.
  intros D cf flt. induction a as [|i a IH]; intros b col; cbn [app shown]; [reflexivity|]. rewrite IH, after_app, app_assoc. reflexivity.
Qed.

(** Pieces followed by the character [x]. *)
Fixpoint pieces_then (cf : cfg) (A : fops) (flt_ok : bool -> conv -> dbl A -> Prop) (x : Z) (l : list (piece (dbl A))) : Prop :=
  match l with
  | [] => True
  | y :: t => piece_ok cf flt_ok y /\ pieces_then cf A flt_ok x t /\ match y with Item i => next_ok cf A i (hd x (format_of t)) | Given _ _ _ => True end
  end.
Lemma format_of_bytes : forall cf A flt_ok (l : list (piece (dbl A))), pieces_ok cf flt_ok l -> Forall is_byte (format_of l).
Proof.
  intros cf A flt_ok. induction l as [|x l IH]; [constructor|]. intros (Hx & Hok & _). change (format_of (x :: l)) with (piece_text x ++ format_of l).
  apply Forall_app. split; auto. destruct x as [i|c p t]; cbn [piece_text piece_ok] in *.
  - assert (Forall is_byte (format [i])) as K.
    { eapply format_bytes with (flt_ok := flt_ok) (cf := cf). split; [apply Hx|]. split; [exact Logic.I|]. destruct i; reflexivity || exact Logic.I. }
    unfold format in K. cbn [map concat] in K. now rewrite app_nil_r in K.
  - apply conv_bytes; [tauto|unfold is_byte; lia].
Qed.
Lemma pieces_ok_then : forall cf A flt_ok (a b : list (piece (dbl A))), pieces_ok cf flt_ok (a ++ b) -> pieces_then cf A flt_ok (hd 0 (format_of b)) a.
Proof.
  intros cf A flt_ok. induction a as [|x a IH]; intros b H; [exact Logic.I|]. destruct H as (H1 & H2 & H3). fold (a ++ b) in *. cbn [pieces_then]. split; auto. split; [now apply IH|].
  assert (hd (hd 0 (format_of b)) (format_of a) = hd 0 (format_of (a ++ b))) as E.
  { unfold format_of. rewrite map_app, concat_app. destruct (concat (map piece_text a)); reflexivity. }
  rewrite E. unfold next_ok. destruct x as [i|]; auto. destruct i; auto. split; auto. apply format_of_bytes in H2. destruct (format_of (a ++ b)); [unfold is_byte; cbn; lia|now inversion H2].
Qed.

Section Sink.
Variable cf : cfg.
Variable A : fops.
Variable heap : allocator.
Hypothesis wf : wf_cfg cf.
Variable W : Type.
Variable rd : W -> mem.
Variable wr : W -> mem -> W.
Hypothesis wr_rd : forall s, wr s (rd s) = s.
Notation D := (dbl A).
Notation out_char := (out_char cf W rd wr).
Notation out_chars := (out_chars cf W rd wr).
Notation core_loop := (core_loop_n cf A W rd wr heap).
Notation shown := (shown cf (flt A)).
(** Where the characters go: the memory without them, what is kept of them, where the call must
    not read and what it must not free. *)
Variable J : mem -> out W -> Prop.
Variable Q : list Z -> out W -> Prop.
Variable safe : ptr -> Z -> Prop.
Variable fixed_block : nat -> Prop.
Variable M : Z.
Hypothesis M_max : M < INT_MAX.
Hypothesis H_step : forall m o c, J m o -> o_cnt W o < M -> 0 <= o_col W o <= o_cnt W o ->
  exists o', out_char o c = Ok o' /\ J m o' /\ o_cnt W o' = o_cnt W o + 1 /\ 0 <= o_col W o' <= o_cnt W o' /\
    forall l, Zlen l = o_cnt W o -> Q l o -> is_byte c -> Q (l ++ [c]) o'.
Hypothesis H_keep : forall m o q l, J m o -> o_cnt W o <= M -> bytes_at m q l -> safe q (Zlen l) -> bytes_at (rd (o_st W o)) q l.
Hypothesis H_same : forall m o c, J m o -> ~ fixed_block c -> nth_error (rd (o_st W o)) c = nth_error m c.
Hypothesis H_kill : forall m o c, J m o -> ~ fixed_block c -> J (kill_at m c) (put_st wr o (kill_at (rd (o_st W o)) c)).
Hypothesis H_killQ : forall l o c, Q l o -> ~ fixed_block c -> Q l (put_st wr o (kill_at (rd (o_st W o)) c)).

Variable fmt : ptr.
Variable full : list Z.
Hypothesis fmt_safe : safe fmt (Zlen full).

Definition piece_safe (x : piece D) : Prop :=
  match x with
  | Item (Str _ _ p l) => p = null \/ safe p (Zlen l + 1)
  | Item _ => True
  | Given _ p l => p = null \/ safe p (Zlen l + 1) /\ forall b, p_obj p = PBlk b -> ~ fixed_block b
  end.

Definition I (m : mem) (o : out W) : Prop := J m o /\ 0 <= o_col W o <= o_cnt W o /\ o_cnt W o <= M.
Lemma I_step : forall m o c o', I m o -> 0 <= o_cnt W o < M -> out_char o c = Ok o' -> I m o'.
Proof.
  intros m o c o' (Ho & Hcol & HcM) Hc E. destruct (H_step m o c Ho ltac:(lia) Hcol) as (o1 & E1 & I1 & C1 & R1 & _).
  rewrite E1 in E. injection E as <-. split; auto. split; auto. lia.
Qed.
Lemma sink_chars : forall m l done o, I m o -> o_cnt W o = Zlen done -> Zlen done + Zlen l <= M -> Forall is_byte l -> Q done o ->
  exists o', out_chars o l = Ok o' /\ I m o' /\ o_cnt W o' = Zlen (done ++ l) /\ o_col W o' = after cf (o_col W o) l /\ Q (done ++ l) o'.
Proof.
  intros m l done o Ho Hcnt Hm Hl HQ.
  assert (exists o', out_chars o l = Ok o' /\ I m o' /\ Q (done ++ l) o') as (o' & E & H1 & H2).
  { revert done o Ho Hcnt Hm Hl HQ. induction l as [|c l IH]; intros done o Ho Hcnt Hm Hl HQ; cbn [PrnfModel.out_chars].
    - exists o. rewrite app_nil_r. auto.
    - rewrite Zlen_cons in *. pose proof (Zlen_nonneg l). inversion Hl as [|? ? Hc Hl']; subst. destruct Ho as (Ho & Hcol & HcM).
      destruct (H_step m o c Ho ltac:(lia) Hcol) as (o1 & E1 & I1 & C1 & R1 & B1). rewrite E1. cbn [bind].
      destruct (IH (done ++ [c]) o1) as (o2 & E2 & I2 & B2); auto.
      { split; auto. split; auto. lia. } { rewrite Zlen_app. change (Zlen [c]) with 1. lia. } { rewrite Zlen_app. change (Zlen [c]) with 1. lia. }
      exists o2. rewrite <- app_assoc in B2. auto. }
  exists o'. split; auto. split; auto. destruct Ho as (_ & Hcol & _). destruct (out_chars_col cf W rd wr l o o') as (C1 & C2 & _); auto; try lia.
  split; [rewrite Zlen_app; lia|]. auto.
Qed.

Lemma given_bytes : forall m c p l, handed heap m p l -> Forall is_byte (given_text c l) /\ string_arg m p l.
Proof.
  intros m c p l H. split.
  - apply bytes_pad; [unfold is_byte; lia|]. assert (Forall is_byte l) as K by (destruct H as [[_ ->]|[(_ & H & _) _]]; [constructor|exact H]).
    unfold str_body. destruct (prec_of c); auto. now apply Forall_firstn'.
  - destruct H as [H|[H _]]; [left|right]; exact H.
Qed.
Lemma string_keep : forall m o p l, I m o -> string_arg m p l -> p = null \/ safe p (Zlen l + 1) -> string_arg (rd (o_st W o)) p l.
Proof.
  intros m o p l (HJ & Hcol & HM) [H|(Hb & H1 & H2 & H3)] Hs; [left; exact H|right]. split; auto. destruct Hs as [->|Hs].
  - destruct Hb as (kk & Ak & _). discriminate.
  - apply (H_keep m o p); auto. rewrite Zlen_app. exact Hs.
Qed.
Lemma item_keep : forall m o i, I m o -> item_mem m i -> piece_safe (Item i) -> item_mem (rd (o_st W o)) i.
Proof. intros m o i Ho Hm Hs. destruct i; auto. cbn [item_mem piece_safe] in *. eapply string_keep; eauto. Qed.

Lemma uses_mem : forall m c (x : piece D), ~ uses c x -> piece_mem heap m x -> piece_mem heap (kill_at m c) x.
Proof.
  intros m c x Hu Hm. destruct x as [i|cv p l]; cbn [piece_mem uses] in *.
  - destruct i; auto. cbn [item_mem uses] in *. destruct Hm as [Hm|(Hb & Hr)]; [left; exact Hm|right]. split; auto. now apply kill_bytes.
  - destruct Hm as [Hm|((Hb & Hr) & b & k & E1 & E2 & E3)]; [left; exact Hm|right]. split; [split; auto; now apply kill_bytes|].
    exists b, k. split; auto. rewrite kill_other; auto. intros ->. apply Hu. rewrite E1. reflexivity.
Qed.
Lemma uses_not_given : forall b (l : list (piece D)), Forall (fun y => ~ uses b y) l -> ~ In b (given_away l).
Proof.
  intros b. induction l as [|x l IH]; intros H; [exact (fun K => K)|]. inversion H as [|? ? Hx Hl]; subst. unfold given_away. cbn [map concat]. intros K.
  apply in_app_or in K as [K|K]; [|now apply (IH Hl)]. destruct x as [i|c [[|c'|lit] ofs] t]; cbn in K; try tauto. destruct K as [->|[]]. apply Hx. reflexivity.
Qed.

Lemma pieces_run : forall limit, (length full <= limit)%nat -> forall l m pre x rest fuel o done va,
  full = pre ++ format_of l ++ x :: rest -> pieces_then cf A (flt_fine A) x l -> once l ->
  Forall (piece_mem heap m) l -> Forall piece_safe l -> bytes_at m fmt full -> (forall b, In b (given_away l) -> p_obj fmt <> PBlk b) ->
  I m o -> o_cnt W o = Zlen done -> Zlen done + Zlen (shown (o_col W o) l) <= M -> Q done o -> (length (format_of l) < fuel)%nat ->
  exists fuel' o' m', (fuel <= fuel' + length (format_of l))%nat /\
    core_loop fuel limit o (shift fmt (Zlen pre)) (args_of cf l ++ va) = core_loop fuel' limit o' (shift fmt (Zlen (pre ++ format_of l))) va /\
    released m m' (given_away l) /\ I m' o' /\ bytes_at m' fmt full /\ o_cnt W o' = Zlen (done ++ shown (o_col W o) l) /\ Q (done ++ shown (o_col W o) l) o'.
Proof.
  intros limit Hlim. induction l as [|y l IH]; intros m pre x rest fuel o done va Efull Hok Honce Hmem Hsafe Hfmt Hff Ho Hcnt Hc HQ Hf.
  - exists fuel, o, m. unfold format_of, args_of, given_away. cbn [map concat length app PrnfExtSpec.shown]. rewrite !app_nil_r. split; [lia|]. split; [reflexivity|]. split; [apply released_nil|]. auto.
  - change (format_of (y :: l)) with (piece_text y ++ format_of l) in *. change (args_of cf (y :: l)) with (piece_args cf y ++ args_of cf l).
    change (given_away (y :: l)) with (gives y ++ given_away l) in *. cbn [PrnfExtSpec.shown] in *.
    destruct Hok as (Hy & Hok & Hx). destruct Honce as (Hu & Honce). pose proof (Forall_inv Hmem) as Hmy. pose proof (Forall_inv_tail Hmem) as Hml.
    pose proof (Forall_inv Hsafe) as Hsy. pose proof (Forall_inv_tail Hsafe) as Hsl. set (s := piece_out cf (flt A) (o_col W o) y) in *.
    rewrite Zlen_app in Hc. rewrite app_length in Hf. pose proof (Zlen_nonneg s) as Zs. pose proof (Zlen_nonneg (shown (after cf (o_col W o) s) l)) as Zp. pose proof (Zlen_nonneg done) as Zd.
    assert (exists z r, format_of l ++ x :: rest = z :: r /\ hd x (format_of l) = z) as (z & r & Ez & Hz).
    { destruct (format_of l) as [|z r]; [exists x, rest|exists z, (r ++ x :: rest)]; auto. }
    assert (forall o, I m o -> bytes_at (rd (o_st W o)) fmt full) as Fat by (intros o1 (J1 & _ & J2); apply (H_keep m o1); auto).
    destruct Ho as (HJ & Hcol & HcM). assert (I m o) as Ho by (split; auto).
    destruct y as [i|c p t]; cbn [piece_text piece_args gives app piece_ok piece_mem piece_out] in *.
    + destruct Hy as [Hi Hnn].
      destruct (item_step_n cf A W rd wr heap (flt A) (flt_fine A) (flt_bytes A) (flt_f cf A W rd wr) (flt_e cf A W rd wr) (I m) M M_max (I_step m) wf fmt full Fat
        limit Hlim i pre z r fuel o (args_of cf l ++ va)) as (f1 & F1 & E1); auto.
      { rewrite Efull, <- app_assoc, Ez. reflexivity. } { now rewrite <- Hz. } { eapply item_keep; eauto. } { intros o1 Ho1. apply item_mem_still. eapply item_keep; eauto. } { fold s. lia. } { lia. }
      fold s in E1. destruct (sink_chars m s done o Ho Hcnt ltac:(lia)) as (o1 & E2 & I1 & C1 & C2 & Q1); auto.
      { unfold s. eapply item_bytes; eauto. apply flt_bytes. }
      rewrite E2 in E1. cbn [bind] in E1. rewrite <- app_assoc, E1.
      destruct (IH m (pre ++ item_text i) x rest f1 o1 (done ++ s) va) as (f2 & o2 & m2 & G1 & G2 & G3 & G4 & G5 & G6 & G7); auto.
      { rewrite Efull, <- !app_assoc. reflexivity. } { rewrite C2, Zlen_app. lia. } { lia. }
      rewrite C2, <- app_assoc in G6, G7. rewrite <- app_assoc in G2. exists f2, o2, m2. rewrite app_length. split; [lia|]. repeat (split; [assumption|]). assumption.
    + destruct Hy as [Hcv Hpr]. destruct fuel as [|fuel]; [lia|]. assert (2 <= length (conv_text c 110))%nat as Lt by (pose proof (conv_text_len c 110) as Lt; unfold Zlen in Lt; lia).
      rewrite <- app_assoc. rewrite (given_step cf A W rd wr heap (I m) fmt full Fat limit c p pre z r); auto.
      2:{ rewrite Efull, <- app_assoc, Ez. reflexivity. }
      unfold print_nstr. rewrite !bind_bind. destruct (given_bytes m c p t Hmy) as [Bt St].
      assert (p = null \/ safe p (Zlen t + 1)) as Sp by (cbn [piece_safe] in Hsy; tauto).
      assert (forall o, I m o -> string_arg (rd (o_st W o)) p t) as Sk by (intros o1 Ho1; eapply string_keep; eauto).
      rewrite (nstr_item cf W rd wr (I m) M M_max (I_step m) o c p t Hcv Hpr Ho); auto; try lia; try (change (given_text c t) with s; lia).
      2:{ intros o1 Ho1. apply (item_mem_still A (rd (o_st W o1)) (Str false c p t)). exact (Sk o1 Ho1). }
      fold s. destruct (sink_chars m s done o Ho Hcnt ltac:(lia)) as (o1 & E2 & I1 & C1 & C2 & Q1); auto. rewrite E2. cbn [bind].
      destruct Hmy as [[-> ->]|(Hcs & b & k & -> & Hk & Hown)].
      * change (prnf_free heap (rd (o_st W o1)) null) with (Ok (rd (o_st W o1))). cbn [bind].
        rewrite wr_rd.
        replace (Out W (o_col W o1) (o_cnt W o1) (o_limit W o1) (o_buf W o1) (o_fn W o1) (o_st W o1)) with o1 by (destruct o1; reflexivity).
        destruct (IH m (pre ++ conv_text c 110) x rest fuel o1 (done ++ s) va) as (f2 & o2 & m2 & G1 & G2 & G3 & G4 & G5 & G6 & G7); auto.
        { rewrite Efull, <- !app_assoc. reflexivity. } { rewrite C2, Zlen_app. lia. } { lia. }
        rewrite C2, <- app_assoc in G6, G7. rewrite <- app_assoc in G2. exists f2, o2, m2. rewrite app_length. split; [lia|]. repeat (split; [assumption|]). assumption.
      * cbn [gives app] in *. assert (~ fixed_block b) as Nf by (destruct Hsy as [Hsy|[_ Hsy]]; [discriminate|now apply Hsy]).
        pose proof (Forall_inv Hu) as Hub. cbn beta in Hub.
        assert (b_live k = true) as Lk.
        { destruct Hcs as ((k1 & A1 & _) & _). cbn [p_obj access] in A1. rewrite Hk in A1. destruct (b_live k); [reflexivity|discriminate]. }
        assert (prnf_free heap (rd (o_st W o1)) (Ptr (PBlk b) 0) = Ok (kill_at (rd (o_st W o1)) b)) as ->.
        { unfold prnf_free. cbn [is_null p_obj]. unfold owned. cbn [p_obj p_ofs]. rewrite (H_same m o1 b (proj1 I1) Nf), Hk, Lk, Hown. cbn [Z.eqb andb].
          rewrite StrbufProofs.alloc_eqb_refl. reflexivity. }
        cbn [bind]. change (Out W (o_col W o1) (o_cnt W o1) (o_limit W o1) (o_buf W o1) (o_fn W o1) (wr (o_st W o1) (kill_at (rd (o_st W o1)) b))) with (put_st wr o1 (kill_at (rd (o_st W o1)) b)).
        destruct (IH (kill_at m b) (pre ++ conv_text c 110) x rest fuel (put_st wr o1 (kill_at (rd (o_st W o1)) b)) (done ++ s) va) as (f2 & o2 & m2 & G1 & G2 & G3 & G4 & G5 & G6 & G7); auto.
        { rewrite Efull, <- !app_assoc. reflexivity. }
        { rewrite Forall_forall in *. intros y Hin. apply uses_mem; auto. }
        { apply kill_bytes; auto. apply Hff. now left. }
        { intros b' Hb'. apply Hff. now right. }
        { destruct I1 as (J1 & J2 & J3). split; [now apply H_kill|]. auto. }
        { cbn [put_st o_col]. rewrite C2, Zlen_app. lia. }
        { lia. }
        cbn [put_st o_col] in *. rewrite C2, <- app_assoc in G6, G7. rewrite <- app_assoc in G2. exists f2, o2, m2. rewrite app_length. split; [lia|]. split; [assumption|]. split.
        { eapply released_cons; eauto. now apply uses_not_given. } repeat (split; [assumption|]). assumption.
Qed.
End Sink.
