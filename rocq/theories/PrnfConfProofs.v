(** Proofs about the configurations of prnf: formats that do not use what was switched off. *)
From Verif Require Import Base Mem Libc StrviewModel Spec MemLemmas StrviewProofs StrviewProofs3 NumSpec StrnumProofs3 PrnfModel PrnfSpec PrnfSpec2 PrnfConfModel PrnfConfSpec.

(** ** What printing preserves *)
Section Keep.
Variable cf : cfg.
Variable A : fops.
Variable W : Type.
Variable rd : W -> mem.
Variable wr : W -> mem -> W.
Variable I : out W -> Prop.
Hypothesis I_char : forall o c o', I o -> out_char cf W rd wr o c = Ok o' -> I o'.
Definition keeps (x : outcome (out W)) : Prop := forall o', x = Ok o' -> I o'.

Lemma keeps_ok : forall o, I o -> keeps (Ok o).
Proof. intros o H o' E. now injection E as <-. Qed.
Lemma keeps_char : forall o c, I o -> keeps (out_char cf W rd wr o c).
Proof. intros o c H o' E. eauto. Qed.
Lemma keeps_bind : forall {B} (x : outcome B) f, (forall a, keeps (f a)) -> keeps (bind x f).
Proof. intros B x f H o' E. destruct x as [a| |]; cbn [bind] in E; try discriminate. exact (H a o' E). Qed.
Lemma keeps_then : forall (x : outcome (out W)) f, keeps x -> (forall o, I o -> keeps (f o)) -> keeps (bind x f).
Proof. intros x f Hx H o' E. destruct x as [a| |]; cbn [bind] in E; try discriminate. exact (H a (Hx a eq_refl) o' E). Qed.
Lemma keeps_if : forall (b : bool) x y, keeps x -> keeps y -> keeps (if b then x else y).
Proof. intros [] x y Hx Hy; auto. Qed.
Lemma keeps_ub : forall u, keeps (UB u).
Proof. intros u o' E. discriminate. Qed.
Lemma keeps_fuel : keeps Fuel.
Proof. intros o' E. discriminate. Qed.
Hint Resolve keeps_ok keeps_char keeps_ub keeps_fuel : keep.
Ltac keep := repeat first [ solve [eauto with keep] | apply keeps_if | (apply keeps_then; [|intros ? ?]) | (apply keeps_bind; intros ?) ].

Lemma keeps_chars : forall l o, I o -> keeps (out_chars cf W rd wr o l).
Proof. induction l as [|c l IH]; intros o H; cbn [out_chars]; keep. Qed.
Lemma keeps_rep : forall n o x, I o -> keeps (out_rep cf W rd wr n o x).
Proof. induction n as [|n IH]; intros o x H; cbn [out_rep]; keep. Qed.
Hint Resolve keeps_chars keeps_rep : keep.
Lemma keeps_prepad : forall o ph n, I o -> keeps (prepad cf W rd wr o ph n).
Proof. intros o ph n H. unfold prepad. keep. Qed.
Lemma keeps_postpad : forall o ph n, I o -> keeps (postpad cf W rd wr o ph n).
Proof. intros o ph n H. unfold postpad. keep. Qed.
Hint Resolve keeps_prepad keeps_postpad : keep.
Lemma keeps_dec : forall o ph v, I o -> keeps (print_dec cf W rd wr o ph v).
Proof. intros o ph v H. unfold print_dec. apply keeps_bind. intros [u s]. keep. Qed.
Lemma keeps_bin_loop : forall n o u b, I o -> keeps (bin_loop cf W rd wr n o u b).
Proof. induction n as [|n IH]; intros o u b H; cbn [bin_loop]; keep. Qed.
Lemma keeps_hex_loop : forall n o u b, I o -> keeps (hex_loop cf W rd wr n o u b).
Proof. induction n as [|n IH]; intros o u b H; cbn [hex_loop]; cbv zeta; keep. Qed.
Lemma keeps_str_loop : forall n o p, I o -> keeps (str_loop cf W rd wr n o p).
Proof. induction n as [|n IH]; intros o p H; cbn [str_loop]; keep. Qed.
Lemma keeps_float_loop : forall l o r, I o -> keeps (float_loop cf W rd wr o r l).
Proof. induction l as [|c l IH]; intros o r H; cbn [float_loop]; keep. Qed.
Hint Resolve keeps_dec keeps_bin_loop keeps_hex_loop keeps_str_loop keeps_float_loop : keep.
Lemma keeps_bin : forall o ph v, I o -> keeps (print_bin cf W rd wr o ph v).
Proof. intros o ph v H. unfold print_bin. cbv zeta. keep. Qed.
Lemma keeps_hex : forall o ph v, I o -> keeps (print_hex cf W rd wr o ph v).
Proof. intros o ph v H. unfold print_hex. cbv zeta. keep. Qed.
Lemma keeps_str : forall o ph v, I o -> keeps (print_str cf W rd wr o ph v).
Proof. intros o ph v H. unfold print_str. keep. Qed.
Lemma keeps_float : forall o ph v x, I o -> keeps (print_float cf A W rd wr o ph v x).
Proof.
  intros o ph v x H. unfold print_float. destruct (determine_float_msg A ph v).
  - unfold print_float_special. cbv zeta. keep.
  - unfold print_float_normal. do 3 (apply keeps_bind; intros ?). destruct (get_prec ph =? 0); cbv zeta; keep.
Qed.
Hint Resolve keeps_bin keeps_hex keeps_str keeps_float : keep.
Lemma keeps_placeholder : forall o v ph, I o -> keeps (print_placeholder cf A W rd wr o v ph).
Proof.
  intros o v ph H. unfold print_placeholder. destruct (ph_type ph), v; auto with keep. destruct (get_eng A v) as [x p]. auto with keep.
Qed.
Lemma keeps_col_loop : forall n o c p, I o -> keeps (col_loop cf W rd wr n o c p).
Proof. induction n as [|n IH]; intros o c p H; cbn [col_loop]; keep. Qed.
Lemma keeps_column : forall n o fmt o' fmt', I o -> print_col_alignment cf W rd wr n o fmt = Ok (o', fmt') -> I o'.
Proof.
  intros n o fmt o' fmt' H E. unfold print_col_alignment in E.
  destruct (load_byte _ fmt) as [c| |]; cbn [bind] in E; try discriminate.
  destruct (prnf_atoi _ _ _ _ _) as [[col f]| |]; cbn [bind] in E; try discriminate.
  destruct (load_byte _ f) as [pad| |]; cbn [bind] in E; try discriminate.
  destruct (negb (prnf_is_digit c)).
  - destruct (out_char _ _ _ _ _ _) as [o1| |] eqn:E1; cbn [bind] in E; try discriminate. injection E as <- <-. eauto.
  - destruct (negb _).
    + destruct (col_loop _ _ _ _ _ _ _ _) as [o1| |] eqn:E1; cbn [bind] in E; try discriminate.
      destruct (padd _ _ _ _); cbn [bind] in E; try discriminate. injection E as <- <-. eapply keeps_col_loop; eauto.
    + now injection E as <- <-.
Qed.
End Keep.

(** ** Formats that do not use what was switched off *)
Section Same.
Variable cf : cfg.
Variable bd : build.

Lemma padd_obj : forall m p k q, padd cf m p k = Ok q -> q = Ptr (p_obj p) (p_ofs p + k).
Proof.
  intros m p k q H. unfold padd in H. change (Ptr (p_obj p) (p_ofs p + k)) with (shift p k).
  destruct (p_obj p) as [|b|l].
  - repeat match type of H with (if ?b then _ else _) = _ => destruct b end; congruence.
  - destruct (c_ptr cf); [congruence|]. destruct (access m (PBlk b)) as [x| |]; cbn [bind] in H; try discriminate. destruct (in_block _ _ _); congruence.
  - destruct (c_ptr cf); [congruence|]. destruct (access m (PLit l)) as [x| |]; cbn [bind] in H; try discriminate. destruct (in_block _ _ _); congruence.
Qed.
Lemma atoi_obj : forall fuel m p v w q, prnf_atoi cf fuel m p v = Ok (w, q) -> p_obj q = p_obj p.
Proof.
  induction fuel as [|n IH]; intros m p v w q H; cbn [prnf_atoi] in H; [discriminate|].
  destruct (load_byte m p) as [c| |]; cbn [bind] in H; try discriminate. destruct (prnf_is_digit c); [|now injection H as <- <-].
  destruct (int_res cf (v * 10)) as [x| |]; cbn [bind] in H; try discriminate.
  destruct (iadd cf x _) as [y| |]; cbn [bind] in H; try discriminate.
  destruct (padd cf m p 1) as [r| |] eqn:E; cbn [bind] in H; try discriminate. apply padd_obj in E as ->. apply IH in H. exact H.
Qed.
Lemma flags_obj : forall fuel m p a b s r q, parse_flags cf fuel m p a b s = Ok (r, q) -> p_obj q = p_obj p.
Proof.
  induction fuel as [|n IH]; intros m p a b s r q H; cbn [parse_flags] in H; [discriminate|].
  destruct (load_byte m p) as [c| |]; cbn [bind] in H; try discriminate.
  match type of H with bind ?X _ = _ => destruct X as [nx| |] eqn:E end; cbn [bind] in H; try discriminate.
  assert (p_obj nx = p_obj p) as <-.
  { destruct (_ || _); [apply padd_obj in E as ->; reflexivity|now injection E as <-]. }
  repeat match type of H with (if ?b then _ else _) = _ => destruct b end; eauto.
  injection H as _ <-. destruct (_ || _) eqn:D in E; [|now injection E as <-].
  apply padd_obj in E as ->. reflexivity.
Qed.

Lemma type_same : forall c, (b_float bd = false -> ~ In c [102; 70; 101; 69]) -> type_of_b bd c = type_of c.
Proof.
  intros c H. unfold type_of_b, type_of. destruct (b_float bd); [reflexivity|]. specialize (H eq_refl). cbn [In andb] in *.
  rewrite (proj2 (Z.eqb_neq c 102)), (proj2 (Z.eqb_neq c 70)), (proj2 (Z.eqb_neq c 101)), (proj2 (Z.eqb_neq c 69)) by (intros ->; tauto). reflexivity.
Qed.
Lemma parse_same : forall fuel m p, untouched bd m (p_obj p) -> parse_placeholder_b cf bd fuel m p = parse_placeholder cf fuel m p.
Proof.
  intros fuel m p U. unfold parse_placeholder_b, parse_placeholder.
  destruct (parse_flags cf fuel m p false false 0) as [[r p1]| |] eqn:E1; cbn [bind]; auto. destruct r as [[a b] s].
  apply flags_obj in E1. rewrite <- E1 in U. clear E1.
  destruct (load_byte m p1) as [c| |]; cbn [bind]; auto.
  match goal with |- bind ?X _ = _ => destruct X as [[r p2]| |] eqn:E2 end; cbn [bind]; auto. destruct r as [wd w].
  assert (p_obj p2 = p_obj p1) as E3.
  { destruct (c =? 42).
    - destruct (padd cf m p1 1) as [x| |] eqn:E; cbn [bind] in E2; try discriminate. injection E2 as _ _ <-. apply padd_obj in E as ->. reflexivity.
    - destruct (prnf_atoi cf fuel m p1 0) as [[x y]| |] eqn:E; cbn [bind] in E2; try discriminate. injection E2 as _ _ <-. now apply atoi_obj in E. }
  rewrite <- E3 in U. clear E2 E3. destruct (load_byte m p2) as [c2| |]; cbn [bind]; auto.
  match goal with |- bind ?X _ = _ => destruct X as [[r p3]| |] eqn:E2 end; cbn [bind]; auto. destruct r as [[ps pd] pr].
  assert (p_obj p3 = p_obj p2) as E3.
  { destruct (c2 =? 46); [|now injection E2 as _ _ _ <-].
    destruct (padd cf m p2 1) as [x| |] eqn:E; cbn [bind] in E2; try discriminate. apply padd_obj in E as ->.
    destruct (load_byte m _) as [c3| |]; cbn [bind] in E2; try discriminate. destruct (c3 =? 42).
    - destruct (padd cf m _ 1) as [x| |] eqn:E; cbn [bind] in E2; try discriminate. injection E2 as _ _ _ <-. apply padd_obj in E as ->. reflexivity.
    - destruct (prnf_atoi cf fuel m _ 0) as [[x y]| |] eqn:E; cbn [bind] in E2; try discriminate. injection E2 as _ _ _ <-. apply atoi_obj in E. exact E. }
  rewrite <- E3 in U. clear E2 E3.
  assert (forall size q, p_obj q = p_obj p3 ->
    (let! c := load_byte m q in let! f := padd cf m q 1 in Ok (Ph a b s ps w pr pd wd size (type_of_b bd c), f)) =
    (let! c := load_byte m q in let! f := padd cf m q 1 in Ok (Ph a b s ps w pr pd wd size (type_of c), f))) as T.
  { intros size q Eq. destruct (load_byte m q) as [t| |] eqn:L; cbn [bind]; auto. rewrite type_same; auto.
    destruct q as [ob i]. cbn [p_obj] in Eq. subst ob. intros Hf. exact (proj1 (proj2 (U i t L)) Hf). }
  unfold parse_size_b, parse_size. destruct (load_byte m p3) as [c3| |] eqn:L3; cbn [bind]; auto.
  destruct (c3 =? 104).
  { destruct (padd cf m p3 1) as [q| |] eqn:E; cbn [bind]; auto. apply padd_obj in E. destruct (load_byte m q) as [c4| |]; cbn [bind]; auto. destruct (c4 =? 104).
    - destruct (padd cf m q 1) as [q2| |] eqn:Eq2; cbn [bind]; auto. apply padd_obj in Eq2. apply T. subst. reflexivity.
    - cbn [bind]. apply T. subst. reflexivity. }
  destruct (c3 =? 108) eqn:C3.
  { destruct (padd cf m p3 1) as [q| |] eqn:E; cbn [bind]; auto. apply padd_obj in E. destruct (b_ll bd) eqn:Bl.
    - destruct (load_byte m q) as [c4| |]; cbn [bind]; auto. destruct (c4 =? 108).
      + destruct (padd cf m q 1) as [q2| |] eqn:Eq2; cbn [bind]; auto. apply padd_obj in Eq2. apply T. subst. reflexivity.
      + cbn [bind]. apply T. subst. reflexivity.
    - apply Z.eqb_eq in C3. subst c3. destruct p3 as [ob i]. cbn [p_obj p_ofs] in *. destruct (U i 108 L3) as (_ & _ & U3). specialize (U3 Bl eq_refl). subst q.
      cbn [bind]. destruct (load_byte m (Ptr ob (i + 1))) as [c4| |] eqn:L4; cbn [bind]; rewrite ?L4; auto.
      assert ((c4 =? 108) = false) as -> by (apply Z.eqb_neq; congruence). cbn [bind].
      pose proof (T (sizeof_long cf) (Ptr ob (i + 1)) eq_refl) as T1. rewrite L4 in T1. cbn [bind] in T1. rewrite L4. cbn [bind]. exact T1. }
  destruct (_ || _).
  - destruct (padd cf m p3 1) as [q| |] eqn:E; cbn [bind]; auto. apply padd_obj in E. apply T. subst. reflexivity.
  - cbn [bind]. apply T. reflexivity.
Qed.

Lemma parse_obj : forall fuel m p ph q, parse_placeholder cf fuel m p = Ok (ph, q) -> p_obj q = p_obj p.
Proof.
  intros fuel m p ph q H. unfold parse_placeholder in H.
  destruct (parse_flags cf fuel m p false false 0) as [[r p1]| |] eqn:E1; cbn [bind] in H; try discriminate. destruct r as [[a b] s].
  apply flags_obj in E1. rewrite <- E1. clear E1.
  destruct (load_byte m p1) as [c| |]; cbn [bind] in H; try discriminate.
  match type of H with bind ?X _ = _ => destruct X as [[r p2]| |] eqn:E2 end; cbn [bind] in H; try discriminate. destruct r as [wd w].
  assert (p_obj p2 = p_obj p1) as <-.
  { destruct (c =? 42).
    - destruct (padd cf m p1 1) as [x| |] eqn:E; cbn [bind] in E2; try discriminate. injection E2 as _ _ <-. apply padd_obj in E as ->. reflexivity.
    - destruct (prnf_atoi cf fuel m p1 0) as [[x y]| |] eqn:E; cbn [bind] in E2; try discriminate. injection E2 as _ _ <-. now apply atoi_obj in E. }
  clear E2. destruct (load_byte m p2) as [c2| |]; cbn [bind] in H; try discriminate.
  match type of H with bind ?X _ = _ => destruct X as [[r p3]| |] eqn:E2 end; cbn [bind] in H; try discriminate. destruct r as [[ps pd] pr].
  assert (p_obj p3 = p_obj p2) as <-.
  { destruct (c2 =? 46); [|now injection E2 as _ _ _ <-].
    destruct (padd cf m p2 1) as [x| |] eqn:E; cbn [bind] in E2; try discriminate. apply padd_obj in E as ->.
    destruct (load_byte m _) as [c3| |]; cbn [bind] in E2; try discriminate. destruct (c3 =? 42).
    - destruct (padd cf m _ 1) as [x| |] eqn:E; cbn [bind] in E2; try discriminate. injection E2 as _ _ _ <-. apply padd_obj in E as ->. reflexivity.
    - destruct (prnf_atoi cf fuel m _ 0) as [[x y]| |] eqn:E; cbn [bind] in E2; try discriminate. injection E2 as _ _ _ <-. apply atoi_obj in E. exact E. }
  clear E2. unfold parse_size in H. destruct (load_byte m p3) as [c3| |]; cbn [bind] in H; try discriminate.
  assert (forall size q3, (let! c := load_byte m q3 in let! f := padd cf m q3 1 in Ok (Ph a b s ps w pr pd wd size (type_of c), f)) = Ok (ph, q) -> p_obj q = p_obj q3) as T.
  { intros size q3 E. destruct (load_byte m q3); cbn [bind] in E; try discriminate. destruct (padd cf m q3 1) as [x| |] eqn:E3; cbn [bind] in E; try discriminate.
    injection E as _ <-. apply padd_obj in E3 as ->. reflexivity. }
  destruct (c3 =? 104).
  { destruct (padd cf m p3 1) as [y| |] eqn:E; cbn [bind] in H; try discriminate. apply padd_obj in E as ->. destruct (load_byte m _) as [c4| |]; cbn [bind] in H; try discriminate. destruct (c4 =? 104).
    - destruct (padd cf m _ 1) as [y| |] eqn:E; cbn [bind] in H; try discriminate. apply padd_obj in E as ->. apply T in H. exact H.
    - cbn [bind] in H. apply T in H. exact H. }
  destruct (c3 =? 108).
  { destruct (padd cf m p3 1) as [y| |] eqn:E; cbn [bind] in H; try discriminate. apply padd_obj in E as ->. destruct (load_byte m _) as [c4| |]; cbn [bind] in H; try discriminate. destruct (c4 =? 108).
    - destruct (padd cf m _ 1) as [y| |] eqn:E; cbn [bind] in H; try discriminate. apply padd_obj in E as ->. apply T in H. exact H.
    - cbn [bind] in H. apply T in H. exact H. }
  destruct (_ || _).
  - destruct (padd cf m p3 1) as [y| |] eqn:E; cbn [bind] in H; try discriminate. apply padd_obj in E as ->. apply T in H. exact H.
  - cbn [bind] in H. apply T in H. exact H.
Qed.

Variable A : fops.
Variable W : Type.
Variable rd : W -> mem.
Variable wr : W -> mem -> W.
Variable I : out W -> Prop.
Hypothesis I_char : forall o c o', I o -> out_char cf W rd wr o c = Ok o' -> I o'.
Variable ob : pobj.
Hypothesis I_fmt : forall o, I o -> untouched bd (rd (o_st W o)) ob.

Lemma column_obj : forall n o fmt o' fmt', print_col_alignment cf W rd wr n o fmt = Ok (o', fmt') -> p_obj fmt' = p_obj fmt.
Proof.
  intros n o fmt o' fmt' E. unfold print_col_alignment in E.
  destruct (load_byte _ fmt) as [c| |]; cbn [bind] in E; try discriminate.
  destruct (prnf_atoi _ _ _ _ _) as [[col f]| |] eqn:Ea; cbn [bind] in E; try discriminate. apply atoi_obj in Ea. rewrite <- Ea.
  destruct (load_byte _ f) as [pad| |]; cbn [bind] in E; try discriminate.
  destruct (negb (prnf_is_digit c)).
  - destruct (out_char _ _ _ _ _ _) as [o1| |] eqn:E1; cbn [bind] in E; try discriminate. now injection E as <- <-.
  - destruct (negb _).
    + destruct (col_loop _ _ _ _ _ _ _ _) as [o1| |] eqn:E1; cbn [bind] in E; try discriminate.
      destruct (padd _ _ _ _) eqn:E2; cbn [bind] in E; try discriminate. injection E as <- <-. apply padd_obj in E2 as ->. reflexivity.
    + now injection E as <- <-.
Qed.

Lemma loop_same : forall fuel limit o p va, I o -> p_obj p = ob ->
  core_loop_b cf A W rd wr bd fuel limit o p va = core_loop cf A W rd wr fuel limit o p va.
Proof.
  induction fuel as [|fuel IH]; intros limit o p va Ho Hp; cbn [core_loop_b core_loop]; [reflexivity|].
  pose proof (I_fmt o Ho) as U. destruct (load_byte _ p) as [c| |] eqn:L; cbn [bind]; auto.
  destruct (c =? 0); auto. destruct (c =? 37).
  - destruct (padd cf _ p 1) as [q| |] eqn:E; cbn [bind]; auto. apply padd_obj in E. assert (p_obj q = ob) as Hq by (subst q; exact Hp). clear E.
    destruct (load_byte _ q) as [c2| |]; cbn [bind]; auto. destruct (c2 =? 37).
    + destruct (out_char _ _ _ _ _ _) as [o1| |] eqn:E1; cbn [bind]; auto. destruct (padd cf _ q 1) as [q1| |] eqn:E; cbn [bind]; auto.
      apply IH; [eauto|]. apply padd_obj in E as ->. exact Hq.
    + rewrite parse_same by (rewrite Hq; exact U). destruct (parse_placeholder cf limit _ q) as [[ph q1]| |] eqn:E; cbn [bind]; auto. apply parse_obj in E.
      destruct (read_varg cf A ph va) as [[[ph1 v] va1]| |]; cbn [bind]; auto.
      destruct (print_placeholder _ _ _ _ _ _ _ _) as [o1| |] eqn:E1; cbn [bind]; auto. apply IH; [|congruence].
      eapply (keeps_placeholder cf A W rd wr I I_char); eauto.
  - destruct (c =? 11) eqn:C.
    + apply Z.eqb_eq in C. subst c. destruct (b_col bd) eqn:B.
      * cbn [andb]. destruct (padd cf _ p 1) as [q| |] eqn:E; cbn [bind]; auto. apply padd_obj in E. assert (p_obj q = ob) as Hq by (subst q; exact Hp). clear E.
        destruct (print_col_alignment _ _ _ _ _ _ _) as [[o1 q1]| |] eqn:E1; cbn [bind]; auto. apply IH.
        -- eapply (keeps_column cf W rd wr I I_char); eauto.
        -- apply column_obj in E1. congruence.
      * exfalso. destruct p as [ob' i]. cbn [p_obj] in Hp. subst ob'. destruct (U i 11 L) as (U1 & _). now apply U1.
    + rewrite andb_false_r. destruct (out_char _ _ _ _ _ _) as [o1| |] eqn:E1; cbn [bind]; auto. destruct (padd cf _ p 1) as [q1| |] eqn:E; cbn [bind]; auto.
      apply IH; [eauto|]. apply padd_obj in E as ->. exact Hp.
Qed.
Lemma core_same : forall o p va, I o -> p_obj p = ob -> core_prnf_b cf A W rd wr bd o p va = core_prnf cf A W rd wr o p va.
Proof.
  intros o p va Ho Hp. unfold core_prnf_b, core_prnf. destruct (access _ _) as [b| |]; cbn [bind]; auto. now rewrite loop_same.
Qed.
End Same.

Lemma core_shipped : forall cf A W rd wr o p va, core_prnf_b cf A W rd wr shipped o p va = core_prnf cf A W rd wr o p va.
Proof.
  intros cf A W rd wr o p va. apply (core_same cf shipped A W rd wr (fun _ => True) ltac:(auto) (p_obj p)); auto.
  intros o1 _ i c _. cbn. split; [discriminate|]. split; discriminate.
Qed.

(** Calls that store into another object than the one the format string lies in. *)
Lemma load_other : forall m m' b p, (forall b', b' <> b -> nth_error m' b' = nth_error m b') -> p_obj p <> PBlk b -> load_byte m' p = load_byte m p.
Proof.
  intros m m' b p H Hp. unfold load_byte, load_cell. assert (access m' (p_obj p) = access m (p_obj p)) as ->; [|reflexivity].
  destruct (p_obj p) as [|b1|l]; cbn [access]; auto. rewrite H by congruence. reflexivity.
Qed.
Lemma store_other : forall m p x m', store_byte m p x = Ok m' -> exists b, p_obj p = PBlk b /\ forall b', b' <> b -> nth_error m' b' = nth_error m b'.
Proof.
  intros m p x m' H. unfold store_byte, store_cells in H. destruct (p_obj p) as [|b|l] eqn:E; try discriminate.
  exists b. split; auto. intros b' Nb. destruct (access m (PBlk b)) as [k| |]; cbn [bind] in H; try discriminate.
  destruct (in_block _ _ _); try discriminate. injection H as <-. apply upd_other. congruence.
Qed.
Lemma sn_same : forall cf A bd m dst n fmt va, untouched bd m (p_obj fmt) -> p_obj fmt <> p_obj dst ->
  vsnprnf_b cf A mem (fun m => m) (fun _ m => m) bd m dst n fmt va = vsnprnf cf A mem (fun m => m) (fun _ m => m) m dst n fmt va.
Proof.
  intros cf A bd m dst n fmt va U Hd. unfold vsnprnf_b, vsnprnf.
  rewrite (core_same cf bd A mem (fun m => m) (fun _ m => m)
    (fun o => o_fn mem o = None /\ p_obj (o_buf mem o) = p_obj dst /\ untouched bd (o_st mem o) (p_obj fmt))) with (ob := p_obj fmt); auto.
  - intros o c o' (H1 & H2 & H3) E. unfold out_char in E.
    match type of E with bind ?X _ = _ => destruct X as [d| |] end; cbn [bind] in E; try discriminate.
    match type of E with bind ?X _ = _ => destruct X as [[b s]| |] eqn:Es end; cbn [bind] in E; try discriminate.
    match type of E with bind ?X _ = _ => destruct X as [col| |] end; cbn [bind] in E; try discriminate.
    match type of E with bind ?X _ = _ => destruct X as [cnt| |] end; cbn [bind] in E; try discriminate.
    injection E as <-. cbn [o_fn o_buf o_st]. split; auto. destruct d.
    + destruct (store_byte _ _ _) as [m1| |] eqn:E1; cbn [bind] in Es; try discriminate.
      destruct (padd _ _ _ _) as [b1| |] eqn:E2; cbn [bind] in Es; try discriminate. injection Es as <- <-. apply padd_obj in E2 as ->. cbn [p_obj]. split; auto.
      apply store_other in E1 as (b0 & Eb & Hb). rewrite H2 in Eb.
      intros i x Hx. rewrite (load_other (o_st mem o) m1 b0) in Hx by (auto; cbn [p_obj]; congruence).
      rewrite (load_other (o_st mem o) m1 b0) by (auto; cbn [p_obj]; congruence). exact (H3 i x Hx).
    + rewrite H1 in Es. injection Es as <- <-. auto.
  - intros o (_ & _ & H). exact H.
Qed.
