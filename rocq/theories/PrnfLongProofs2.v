(** Proofs about prnf without long long where long has 32 bits, continued: whole calls. *)
From Coq Require Import Lia.
From Verif Require Import Base Mem Libc StrviewModel Spec MemLemmas StrviewProofs StrviewProofs3 NumSpec StrnumProofs3
  PrnfModel PrnfSpec PrnfSpec2 PrnfConfModel PrnfConfSpec PrnfConfProofs PrnfLongModel PrnfLongSpec PrnfLongProofs.

Section Calls.
Variable cf : cfg.
Variable A : fops.
Variable col : bool.
Hypothesis long32 : c_long64 cf = false.
Notation bd := (no_long_long col).

(** Some byte of the object is one of these. *)
Definition found (m : mem) (ob : pobj) (l : list Z) : Prop := exists i c, load_byte m (Ptr ob i) = Ok c /\ In c l.
Lemma found_at : forall m p c l, load_byte m p = Ok c -> In c l -> found m (p_obj p) l.
Proof. intros m [ob i] c l H Hc. exists i, c. auto. Qed.

Lemma parse_facts : forall fuel m p ph q, parse_placeholder_b cf bd fuel m p = Ok (ph, q) ->
  p_obj q = p_obj p /\ (ph_pspec ph = true -> found m (p_obj p) [46]) /\
  (small (ph_size ph) \/ ph_size ph = c_ptrbytes cf /\ found m (p_obj p) [116; 122]) /\
  exists c, found m (p_obj p) [c] /\ ph_type ph = type_of_b bd c.
Proof.
  intros fuel m p ph q H. unfold parse_placeholder_b in H.
  destruct (parse_flags cf fuel m p false false 0) as [[r p1]| |] eqn:E1; cbn [bind] in H; try discriminate. destruct r as [[a b] s].
  apply flags_obj in E1. rewrite <- E1. clear E1.
  destruct (load_byte m p1) as [c| |]; cbn [bind] in H; try discriminate.
  match type of H with bind ?X _ = _ => destruct X as [[r p2]| |] eqn:E2 end; cbn [bind] in H; try discriminate. destruct r as [wd w].
  assert (p_obj p2 = p_obj p1) as <-.
  { destruct (c =? 42).
    - destruct (padd cf m p1 1) as [x| |] eqn:E; cbn [bind] in E2; try discriminate. injection E2 as _ _ <-. apply padd_obj in E as ->. reflexivity.
    - destruct (prnf_atoi cf fuel m p1 0) as [[x y]| |] eqn:E; cbn [bind] in E2; try discriminate. injection E2 as _ _ <-. now apply atoi_obj in E. }
  clear E2. destruct (load_byte m p2) as [c2| |] eqn:L2; cbn [bind] in H; try discriminate.
  match type of H with bind ?X _ = _ => destruct X as [[r p3]| |] eqn:E2 end; cbn [bind] in H; try discriminate. destruct r as [[ps pd] pr].
  assert (p_obj p3 = p_obj p2 /\ (ps = true -> found m (p_obj p2) [46])) as [E3 Hp].
  { destruct (Z.eqb_spec c2 46) as [->|]; [|injection E2 as <- _ _ <-; split; [reflexivity|discriminate]].
    split; [|intros _; eapply found_at; [exact L2|now left]].
    destruct (padd cf m p2 1) as [x| |] eqn:E; cbn [bind] in E2; try discriminate. apply padd_obj in E as ->.
    match type of E2 with bind ?X _ = _ => destruct X as [c3| |] end; cbn [bind] in E2; try discriminate. destruct (c3 =? 42).
    - match type of E2 with bind ?X _ = _ => destruct X as [x| |] eqn:E end; cbn [bind] in E2; try discriminate. injection E2 as _ _ _ <-. apply padd_obj in E as ->. reflexivity.
    - match type of E2 with bind ?X _ = _ => destruct X as [[x y]| |] eqn:E end; cbn [bind] in E2; try discriminate. injection E2 as _ _ _ <-. apply atoi_obj in E. exact E. }
  rewrite <- E3 in *. clear E2. unfold parse_size_b in H. destruct (load_byte m p3) as [c3| |] eqn:L3; cbn [bind] in H; try discriminate.
  assert (forall size q3, p_obj q3 = p_obj p3 -> (small size \/ size = c_ptrbytes cf /\ found m (p_obj p3) [116; 122]) ->
    (let! c := load_byte m q3 in let! f := padd cf m q3 1 in Ok (Ph a b s ps w pr pd wd size (type_of_b bd c), f)) = Ok (ph, q) ->
    p_obj q = p_obj p3 /\ (ph_pspec ph = true -> found m (p_obj p3) [46]) /\
    (small (ph_size ph) \/ ph_size ph = c_ptrbytes cf /\ found m (p_obj p3) [116; 122]) /\
    exists c, found m (p_obj p3) [c] /\ ph_type ph = type_of_b bd c) as T.
  { intros size q3 Eq Hs E. destruct (load_byte m q3) as [t| |] eqn:L; cbn [bind] in E; try discriminate. destruct (padd cf m q3 1) as [x| |] eqn:Ex; cbn [bind] in E; try discriminate.
    injection E as <- <-. apply padd_obj in Ex as ->. cbn [p_obj ph_pspec ph_size ph_type]. split; [exact Eq|]. split; [exact Hp|]. split; [exact Hs|].
    exists t. split; [|reflexivity]. rewrite <- Eq. eapply found_at; [exact L|now left]. }
  destruct (c3 =? 104).
  { destruct (padd cf m p3 1) as [y| |] eqn:E; cbn [bind] in H; try discriminate. apply padd_obj in E as ->. destruct (load_byte m (Ptr (p_obj p3) (p_ofs p3 + 1))) as [c4| |]; cbn [bind] in H; try discriminate. destruct (c4 =? 104).
    - destruct (padd cf m _ 1) as [y| |] eqn:E; cbn [bind] in H; try discriminate. apply padd_obj in E as ->. apply (T 1) in H; [exact H|reflexivity|left; now left].
    - cbn [bind] in H. apply (T 2) in H; [exact H|reflexivity|left; right; now left]. }
  destruct (c3 =? 108).
  { destruct (padd cf m p3 1) as [y| |] eqn:E; cbn [bind] in H; try discriminate. apply padd_obj in E as ->. cbn [b_ll no_long_long bind] in H.
    apply (T (sizeof_long cf)) in H; [exact H|reflexivity|]. left. unfold sizeof_long. rewrite long32. right. now right. }
  destruct ((c3 =? 116) || (c3 =? 122)) eqn:C.
  - destruct (padd cf m p3 1) as [y| |] eqn:E; cbn [bind] in H; try discriminate. apply padd_obj in E as ->. apply (T (c_ptrbytes cf)) in H; [exact H|reflexivity|].
    right. split; [reflexivity|]. eapply found_at; [exact L3|]. apply orb_true_iff in C as [C|C]; apply Z.eqb_eq in C; subst c3; cbn; auto.
  - cbn [bind] in H. apply (T 4) in H; [exact H|reflexivity|]. left. right. now right.
Qed.

Lemma lacks_found : forall m ob l l', lacks m ob l -> found m ob l' -> incl l' l -> False.
Proof. intros m ob l l' H (i & c & L & Hc) I. exact (H i c L (I c Hc)). Qed.
Lemma parse_narrow : forall fuel m p ph q va, narrow_format cf m (p_obj p) -> negatable cf m (p_obj p) va ->
  parse_placeholder_b cf bd fuel m p = Ok (ph, q) -> ph_narrow cf A ph va.
Proof.
  intros fuel m p ph q va [H1 H2] H3 E. apply parse_facts in E as (_ & F1 & F2 & c & F3 & F4).
  assert (forall l, lacks m (p_obj p) l -> ~ In c l) as N.
  { intros l Hl Hc. eapply lacks_found; [exact Hl|exact F3|]. intros x [<-|[]]. exact Hc. }
  split; [|split; [|split; [|split]]].
  - destruct F2 as [F2|[F2 F2']]; auto. destruct H1 as [H1|H1]; [rewrite F2, H1; right; now right|]. exfalso. exact (lacks_found _ _ _ _ H1 F2' (incl_refl _)).
  - intros Hp. destruct H2 as [H2|H2]; [exfalso; exact (lacks_found _ _ _ _ H2 (F1 Hp) (incl_refl _))|]. apply N in H2. cbn [In] in H2. rewrite F4. unfold type_of_b. cbn [b_float no_long_long andb].
    assert ((c =? 111) = false) as -> by (apply Z.eqb_neq; intros ->; tauto). assert ((c =? 120) = false) as -> by (apply Z.eqb_neq; intros ->; tauto).
    assert ((c =? 88) = false) as -> by (apply Z.eqb_neq; intros ->; tauto). cbn [orb].
    repeat match goal with |- context [if ?b then _ else _] => destruct b end; split; discriminate.
  - intros Ht. destruct H3 as [H3|[H3|H3]]; auto. exfalso. apply N in H3. cbn [In] in H3. rewrite F4 in Ht. unfold type_of_b in Ht.
    assert ((c =? 100) = false) as Ea by (apply Z.eqb_neq; intros ->; tauto). assert ((c =? 105) = false) as Eb by (apply Z.eqb_neq; intros ->; tauto).
    rewrite Ea, Eb in Ht. cbn [orb b_float no_long_long andb] in Ht. repeat match type of Ht with context [if ?b then _ else _] => destruct b end; discriminate.
  - rewrite F4. unfold type_of_b. cbn [b_float no_long_long andb]. repeat match goal with |- context [if ?b then _ else _] => destruct b end; discriminate.
  - rewrite F4. unfold type_of_b. cbn [b_float no_long_long andb]. repeat match goal with |- context [if ?b then _ else _] => destruct b end; discriminate.
Qed.

Variable W : Type.
Variable rd : W -> mem.
Variable wr : W -> mem -> W.
Variable I : out W -> Prop.
Hypothesis I_char : forall o c o', I o -> out_char cf W rd wr o c = Ok o' -> I o'.
Variable ob : pobj.
Variable all : list (arg (dbl A)).
Hypothesis Hall : Forall int_bits all.
Hypothesis I_fmt : forall o, I o -> narrow_format cf (rd (o_st W o)) ob /\ negatable cf (rd (o_st W o)) ob all.

Lemma negatable_incl : forall {D} m (l l' : list (arg D)), incl l' l -> negatable cf m ob l -> negatable cf m ob l'.
Proof. intros D m l l' H [N|[N|N]]; [now left|right; now left|]. right. right. intros X. apply N, H, X. Qed.
Lemma loop32_same : forall fuel limit o p va, I o -> p_obj p = ob -> incl va all ->
  core_loop_32 cf A W rd wr col fuel limit o p va = core_loop_b cf A W rd wr bd fuel limit o p va.
Proof.
  induction fuel as [|fuel IH]; intros limit o p va Ho Hp Hv; cbn [core_loop_32 core_loop_b]; [reflexivity|].
  destruct (I_fmt o Ho) as [U N]. destruct (load_byte _ p) as [c| |] eqn:L; cbn [bind]; [|reflexivity|reflexivity].
  destruct (c =? 0); [reflexivity|]. destruct (c =? 37).
  - destruct (padd cf _ p 1) as [q| |] eqn:E; cbn [bind]; [|reflexivity|reflexivity]. apply padd_obj in E. assert (p_obj q = ob) as Hq by (subst q; exact Hp). clear E.
    destruct (load_byte _ q) as [c2| |]; cbn [bind]; [|reflexivity|reflexivity]. destruct (c2 =? 37).
    + destruct (out_char _ _ _ _ _ _) as [o1| |] eqn:E1; cbn [bind]; [|reflexivity|reflexivity]. destruct (padd cf _ q 1) as [q1| |] eqn:E; cbn [bind]; [|reflexivity|reflexivity].
      apply IH; [eauto| |exact Hv]. apply padd_obj in E as ->. exact Hq.
    + destruct (parse_placeholder_b cf bd limit _ q) as [[ph q1]| |] eqn:E; cbn [bind]; [|reflexivity|reflexivity].
      assert (p_obj q1 = ob) as Hq1 by (apply parse_facts in E; destruct E; congruence).
      apply (placeholder_same cf A W rd wr ph va o (fun o va => core_loop_32 cf A W rd wr col fuel limit o q1 va) (fun o va => core_loop_b cf A W rd wr bd fuel limit o q1 va)).
      * apply Forall_forall. intros x Hx. rewrite Forall_forall in Hall. auto.
      * eapply parse_narrow; [| |exact E]; rewrite Hq; [exact U|]. eapply negatable_incl; eauto.
      * intros o1 va1 ph1 v I1 E1. apply IH; [eapply (keeps_placeholder cf A W rd wr I I_char); eauto|exact Hq1|eapply incl_tran; eauto].
  - change (b_col bd) with col. destruct (col && (c =? 11)).
    + destruct (padd cf _ p 1) as [q| |] eqn:E; cbn [bind]; [|reflexivity|reflexivity]. apply padd_obj in E. assert (p_obj q = ob) as Hq by (subst q; exact Hp). clear E.
      destruct (print_col_alignment _ _ _ _ _ _ _) as [[o1 q1]| |] eqn:E1; cbn [bind]; [|reflexivity|reflexivity]. apply IH; [| |exact Hv].
      * eapply (keeps_column cf W rd wr I I_char); eauto.
      * apply column_obj in E1. congruence.
    + destruct (out_char _ _ _ _ _ _) as [o1| |] eqn:E1; cbn [bind]; [|reflexivity|reflexivity]. destruct (padd cf _ p 1) as [q1| |] eqn:E; cbn [bind]; [|reflexivity|reflexivity].
      apply IH; [eauto| |exact Hv]. apply padd_obj in E as ->. exact Hp.
Qed.
Lemma core32_same : forall o p, I o -> p_obj p = ob -> core_prnf_32 cf A W rd wr col o p all = core_prnf_b cf A W rd wr bd o p all.
Proof.
  intros o p Ho Hp. unfold core_prnf_32, core_prnf_b. destruct (access _ _) as [b| |]; cbn [bind]; [|reflexivity|reflexivity]. rewrite loop32_same by auto using incl_refl. reflexivity.
Qed.
End Calls.

(** Calls that store into another object than the one the format string lies in. *)
Lemma lacks_same : forall m m' ob l, (forall i, load_byte m' (Ptr ob i) = load_byte m (Ptr ob i)) -> lacks m ob l -> lacks m' ob l.
Proof. intros m m' ob l H L i c E. rewrite H in E. eauto. Qed.
Lemma narrow_same : forall cf D m m' ob (va : list (arg D)), (forall i, load_byte m' (Ptr ob i) = load_byte m (Ptr ob i)) ->
  narrow_format cf m ob /\ negatable cf m ob va -> narrow_format cf m' ob /\ negatable cf m' ob va.
Proof.
  intros cf D m m' ob va H [[[H1|H1] [H2|H2]] N]; (split; [split; eauto using lacks_same|]).
  all: destruct N as [N|[N|N]]; [now left|right; left; eauto using lacks_same|right; now right].
Qed.
Lemma sn32_same : forall cf A col m dst n fmt va, c_long64 cf = false -> Forall int_bits va ->
  narrow_format cf m (p_obj fmt) -> negatable cf m (p_obj fmt) va -> p_obj fmt <> p_obj dst ->
  vsnprnf_32 cf A mem (fun m => m) (fun _ m => m) col m dst n fmt va = vsnprnf_b cf A mem (fun m => m) (fun _ m => m) (no_long_long col) m dst n fmt va /\
  vsprnf_32 cf A mem (fun m => m) (fun _ m => m) col m dst fmt va = vsprnf_b cf A mem (fun m => m) (fun _ m => m) (no_long_long col) m dst fmt va.
Proof.
  intros cf A col m dst n fmt va L32 Hv U N Hd. unfold vsnprnf_32, vsnprnf_b, vsprnf_32, vsprnf_b.
  assert (forall k, core_prnf_32 cf A mem (fun m => m) (fun _ m => m) col (Out mem 0 0 k dst None m) fmt va =
    core_prnf_b cf A mem (fun m => m) (fun _ m => m) (no_long_long col) (Out mem 0 0 k dst None m) fmt va) as K.
  { intros k. apply (core32_same cf A col L32 mem (fun m => m) (fun _ m => m)
      (fun o => o_fn mem o = None /\ p_obj (o_buf mem o) = p_obj dst /\ (narrow_format cf (o_st mem o) (p_obj fmt) /\ negatable cf (o_st mem o) (p_obj fmt) va))) with (ob := p_obj fmt); auto.
    - intros o c o' (H1 & H2 & H3) E. unfold out_char in E.
      match type of E with bind ?X _ = _ => destruct X as [d| |] end; cbn [bind] in E; try discriminate.
      match type of E with bind ?X _ = _ => destruct X as [[b s]| |] eqn:Es end; cbn [bind] in E; try discriminate.
      match type of E with bind ?X _ = _ => destruct X as [cl| |] end; cbn [bind] in E; try discriminate.
      match type of E with bind ?X _ = _ => destruct X as [cnt| |] end; cbn [bind] in E; try discriminate.
      injection E as <-. cbn [o_fn o_buf o_st]. split; auto. destruct d.
      + destruct (store_byte _ _ _) as [m1| |] eqn:E1; cbn [bind] in Es; try discriminate.
        destruct (padd _ _ _ _) as [b1| |] eqn:E2; cbn [bind] in Es; try discriminate. injection Es as <- <-. apply padd_obj in E2 as ->. cbn [p_obj]. split; auto.
        apply store_other in E1 as (b0 & Eb & Hb). rewrite H2 in Eb.
        apply (narrow_same cf (dbl A) (o_st mem o) m1); [|exact H3]. intros i. apply (load_other (o_st mem o) m1 b0); auto. cbn [p_obj]. congruence.
      + rewrite H1 in Es. injection Es as <- <-. auto.
    - intros o (_ & _ & H). exact H. }
  rewrite !K. auto.
Qed.
(** A handler of characters that leaves the format string alone. *)
Lemma fptr32_same : forall cf A col W (rd : W -> mem) wr fn (J : W -> Prop) s fmt va, c_long64 cf = false -> Forall int_bits va -> J s ->
  (forall s c s', J s -> fn s c = Ok s' -> J s') -> (forall s, J s -> narrow_format cf (rd s) (p_obj fmt) /\ negatable cf (rd s) (p_obj fmt) va) ->
  vfptrprnf_32 cf A W rd wr col (Some fn) s fmt va = vfptrprnf_b cf A W rd wr (no_long_long col) (Some fn) s fmt va.
Proof.
  intros cf A col W rd wr fn J s fmt va L32 Hv Hs Hj Hn. unfold vfptrprnf_32, vfptrprnf_b.
  rewrite (core32_same cf A col L32 W rd wr (fun o => o_fn W o = Some fn /\ is_null (o_buf W o) = true /\ J (o_st W o))) with (ob := p_obj fmt); auto.
  - intros o c o' (H1 & H2 & H3) E. unfold out_char in E. rewrite H2 in E. cbn [negb andb] in E.
    match type of E with bind ?X _ = _ => destruct X as [d| |] eqn:Ed end; cbn [bind] in E; try discriminate.
    match type of E with bind ?X _ = _ => destruct X as [[b s1]| |] eqn:Es end; cbn [bind] in E; try discriminate.
    match type of E with bind ?X _ = _ => destruct X as [cl| |] end; cbn [bind] in E; try discriminate.
    match type of E with bind ?X _ = _ => destruct X as [cnt| |] end; cbn [bind] in E; try discriminate.
    injection E as <-. cbn [o_fn o_buf o_st]. split; auto.
    assert (d = false) as -> by (try congruence). rewrite H1 in Es. destruct (fn (o_st W o) c) as [s2| |] eqn:Ef; cbn [bind] in Es; try discriminate.
    injection Es as <- <-. eauto.
  - intros o (_ & _ & H). auto.
Qed.

(** Arguments of items are values of their types. *)
Lemma args_bits : forall D cf (l : list (item D)) va, Forall int_bits va -> Forall int_bits (arguments cf l ++ va).
Proof.
  intros D cf l va Hv. apply Forall_app. split; [|exact Hv]. unfold arguments. induction l as [|i l IH]; cbn [map concat]; [constructor|]. apply Forall_app. split; [|exact IH].
  assert (forall x, int_bits (A32 (x mod 2 ^ 32) : arg D)) as M by (intros x; cbn [int_bits]; apply Z.mod_pos_bound; lia).
  assert (forall c, Forall int_bits (conv_args c : list (arg D))) as C.
  { intros c. unfold conv_args. apply Forall_app. split; [destruct (cv_width c)|destruct (cv_prec c)]; repeat constructor; apply M. }
  assert (forall n x, int_bits (int_arg cf n x : arg D)) as N by (intros n x; unfold int_arg; destruct (_ =? 8); [exact Logic.I|apply M]).
  destruct i; cbn [item_args]; first [apply C|apply Forall_nil|apply Forall_app; split; [apply C|apply Forall_cons; [first [apply N|apply M|exact Logic.I]|apply Forall_nil]]].
Qed.
