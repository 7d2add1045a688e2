(** Withdrawing a compiler's promises changes an outcome only into an undefined one: prnf.
    The state of the output carries the character handler, which may itself depend on the
    platform, so the two runs are related by [relb] instead of [below]. *)
From Verif Require Import Base Mem Libc StrviewModel Alloc StrbufModel PrnfModel PrnfBufModel PortSpec
  PortView PortBuf.

Definition relb {A B} (R : A -> B -> Prop) (x : outcome A) (y : outcome B) : Prop :=
  (exists u, x = UB u) \/ (x = Fuel /\ y = Fuel) \/ (exists a b, x = Ok a /\ y = Ok b /\ R a b).

Lemma relb_below A (x y : outcome A) : relb eq x y <-> below x y.
Proof.
  unfold relb, below. split.
  - intros [H|[[-> ->]|(a & b & -> & -> & ->)]]; auto.
  - intros [<- | H]; [|auto]. destruct x; [right; right|left|right; left]; eauto.
Qed.

Lemma relb_bind A B C D (R : A -> B -> Prop) (S : C -> D -> Prop) x y f g :
  relb R x y -> (forall a b, R a b -> relb S (f a) (g b)) -> relb S (bind x f) (bind y g).
Proof.
  intros [[u ->]|[[-> ->]|(a & b & -> & -> & H)]] K; cbn [bind].
  - left; eauto.
  - right; left; auto.
  - auto.
Qed.

Lemma relb_bind_eq A C D (S : C -> D -> Prop) (x y : outcome A) f g :
  below x y -> (forall a, relb S (f a) (g a)) -> relb S (bind x f) (bind y g).
Proof.
  intros H K. apply relb_bind with (R := eq); [now apply relb_below|now intros a ? <-].
Qed.

(** prnf itself only reads the format string: no handler involved. *)
Lemma wrapv_eq fw cf : c_wrapv (restrict fw cf) = f_wrapv fw && c_wrapv cf.
Proof. reflexivity. Qed.
Lemma loops_mono fw cf : forall n, below (loops (restrict fw cf) n) (loops cf n).
Proof.
  intros; unfold loops; cbn [c_wrapv restrict].
  destruct (0 <=? n), (f_wrapv fw), (c_wrapv cf); cbn [andb]; mono.
Qed.
Lemma prnf_strlen_mono fw cf : forall m str,
  below (prnf_strlen (restrict fw cf) m str) (prnf_strlen cf m str).
Proof. intros; unfold prnf_strlen; mono. Qed.
Lemma read_varg_mono fw cf A : forall ph va,
  below (read_varg (restrict fw cf) A ph va) (read_varg cf A ph va).
Proof. intros; unfold read_varg; mono. Qed.
Lemma prnf_atoi_mono fw cf : forall fuel m fmt value,
  below (prnf_atoi (restrict fw cf) fuel m fmt value) (prnf_atoi cf fuel m fmt value).
Proof. induction fuel; intros; cbn [prnf_atoi]; mono. Qed.
Lemma parse_flags_mono fw cf : forall fuel m fmt minus zero sign,
  below (parse_flags (restrict fw cf) fuel m fmt minus zero sign)
        (parse_flags cf fuel m fmt minus zero sign).
Proof. induction fuel; intros; cbn [parse_flags]; mono. Qed.
Lemma sizeof_long_eq fw cf : sizeof_long (restrict fw cf) = sizeof_long cf.
Proof. reflexivity. Qed.
Global Hint Rewrite sizeof_long_eq : mono.
Lemma parse_size_mono fw cf : forall m fmt,
  below (parse_size (restrict fw cf) m fmt) (parse_size cf m fmt).
Proof. intros; unfold parse_size; mono. Qed.
Global Hint Resolve loops_mono prnf_strlen_mono read_varg_mono prnf_atoi_mono parse_flags_mono
  parse_size_mono : mono.
Lemma parse_placeholder_mono fw cf : forall fuel m fmt,
  below (parse_placeholder (restrict fw cf) fuel m fmt) (parse_placeholder cf fuel m fmt).
Proof. intros; unfold parse_placeholder; mono. Qed.
Global Hint Resolve parse_placeholder_mono : mono.

Section Run.
Variables (fw : fewer) (cf : cfg) (A : fops) (W : Type) (rd : W -> mem) (wr : W -> mem -> W).
Variables f1 f2 : option (W -> Z -> outcome W).
Hypothesis handlers : match f1, f2 with
  | Some a, Some b => forall s x, below (a s x) (b s x)
  | None, None => True
  | _, _ => False
  end.

Definition with_fn (f : option (W -> Z -> outcome W)) (o : out W) : out W :=
  Out W (o_col W o) (o_cnt W o) (o_limit W o) (o_buf W o) f (o_st W o).
Lemma with_col f o : o_col W (with_fn f o) = o_col W o. Proof. reflexivity. Qed.
Lemma with_cnt f o : o_cnt W (with_fn f o) = o_cnt W o. Proof. reflexivity. Qed.
Lemma with_limit f o : o_limit W (with_fn f o) = o_limit W o. Proof. reflexivity. Qed.
Lemma with_buf f o : o_buf W (with_fn f o) = o_buf W o. Proof. reflexivity. Qed.
Lemma with_fun f o : o_fn W (with_fn f o) = f. Proof. reflexivity. Qed.
Lemma with_st f o : o_st W (with_fn f o) = o_st W o. Proof. reflexivity. Qed.

Definition same (a b : out W) : Prop := exists o, a = with_fn f1 o /\ b = with_fn f2 o.
Definition same_l (T : Type) (a b : out W * T) : Prop := same (fst a) (fst b) /\ snd a = snd b.
Definition same_r (T : Type) (a b : T * out W) : Prop := fst a = fst b /\ same (snd a) (snd b).

Lemma same_ok o : relb same (Ok (with_fn f1 o)) (Ok (with_fn f2 o)).
Proof. right; right. exists (with_fn f1 o), (with_fn f2 o). repeat split. now exists o. Qed.

Lemma same_l_ok T o (t : T) : relb (same_l T) (Ok (with_fn f1 o, t)) (Ok (with_fn f2 o, t)).
Proof.
  right; right. exists (with_fn f1 o, t), (with_fn f2 o, t).
  split; [reflexivity|]. split; [reflexivity|]. split; [now exists o|reflexivity].
Qed.

Lemma same_r_ok T o (t : T) : relb (same_r T) (Ok (t, with_fn f1 o)) (Ok (t, with_fn f2 o)).
Proof.
  right; right. exists (t, with_fn f1 o), (t, with_fn f2 o).
  split; [reflexivity|]. split; [reflexivity|]. split; [reflexivity|now exists o].
Qed.

Lemma same_out col cnt limit buf s :
  relb same (Ok (Out W col cnt limit buf f1 s)) (Ok (Out W col cnt limit buf f2 s)).
Proof. apply (same_ok (Out W col cnt limit buf None s)). Qed.

Ltac relb1 :=
  match goal with
  | |- relb same (Ok (with_fn _ _)) _ => apply same_ok
  | |- relb same (Ok (Out _ _ _ _ _ _ _)) _ => apply same_out
  | |- relb (same_l _) (Ok _) _ => apply same_l_ok
  | |- relb (same_r _) (Ok _) _ => apply same_r_ok
  | |- relb _ (UB ?u) _ => left; exists u; reflexivity
  | |- relb _ Fuel Fuel => right; left; split; reflexivity
  | |- relb _ (@bind (out W) _ _ _) _ =>
      apply relb_bind with (R := same); [|intros ? ? (? & -> & ->)]
  | |- relb _ (@bind (out W * ?T) _ _ _) _ =>
      apply relb_bind with (R := same_l T); [|intros [? ?] [? ?] [(? & H1 & H2) H3]; cbn in H1, H2, H3; subst]
  | |- relb _ (@bind (?T * out W) _ _ _) _ =>
      apply relb_bind with (R := same_r T); [|intros [? ?] [? ?] [H3 (? & H1 & H2)]; cbn in H1, H2, H3; subst]
  | |- relb _ (bind _ _) _ => apply relb_bind_eq; [|intro]
  | |- relb _ (match ?x with _ => _ end) (match ?x with _ => _ end) => destruct x
  | |- relb _ _ _ => solve [auto 2 with mono nocore]
  end.
Ltac prel := repeat (cbv zeta; autorewrite with mono;
  rewrite ?with_col, ?with_cnt, ?with_limit, ?with_buf, ?with_fun, ?with_st;
  first [relb1 | mono1]).

Notation c1 := (restrict fw cf).

Lemma out_char_rel o x :
  relb same (out_char c1 W rd wr (with_fn f1 o) x) (out_char cf W rd wr (with_fn f2 o) x).
Proof.
  unfold out_char. prel.
  destruct f1 as [a|], f2 as [b|]; try contradiction; prel.
Qed.
Hint Resolve out_char_rel : mono.

Lemma out_terminate_rel o :
  relb same (out_terminate W rd wr (with_fn f1 o)) (out_terminate W rd wr (with_fn f2 o)).
Proof. unfold out_terminate. prel. Qed.
Hint Resolve out_terminate_rel : mono.

Lemma out_chars_rel : forall o l,
  relb same (out_chars c1 W rd wr (with_fn f1 o) l)
       (out_chars cf W rd wr (with_fn f2 o) l).
Proof. intros o l; revert o; induction l; intros; cbn [out_chars]; prel. Qed.
Hint Resolve out_chars_rel : mono.

Lemma out_rep_rel : forall n o x,
  relb same (out_rep c1 W rd wr n (with_fn f1 o) x)
       (out_rep cf W rd wr n (with_fn f2 o) x).
Proof. induction n; intros; cbn [out_rep]; prel. Qed.
Hint Resolve out_rep_rel : mono.

Lemma prepad_rel : forall o ph source_len,
  relb same (prepad c1 W rd wr (with_fn f1 o) ph source_len)
       (prepad cf W rd wr (with_fn f2 o) ph source_len).
Proof. intros; unfold prepad; prel. Qed.
Hint Resolve prepad_rel : mono.

Lemma postpad_rel : forall o ph source_len,
  relb same (postpad c1 W rd wr (with_fn f1 o) ph source_len)
       (postpad cf W rd wr (with_fn f2 o) ph source_len).
Proof. intros; unfold postpad; prel. Qed.
Hint Resolve postpad_rel : mono.

Lemma print_dec_rel : forall o ph value,
  relb same (print_dec c1 W rd wr (with_fn f1 o) ph value)
       (print_dec cf W rd wr (with_fn f2 o) ph value).
Proof.
  intros; unfold print_dec. rewrite wrapv_eq.
  destruct (f_wrapv fw), (c_wrapv cf); cbn [andb negb]; rewrite ?andb_true_r, ?andb_false_r; prel;
    destruct (value =? LLONG_MIN); prel.
Qed.
Hint Resolve print_dec_rel : mono.

Lemma bin_loop_rel : forall fuel o uvalue bit,
  relb same (bin_loop c1 W rd wr fuel (with_fn f1 o) uvalue bit)
       (bin_loop cf W rd wr fuel (with_fn f2 o) uvalue bit).
Proof. induction fuel; intros; cbn [bin_loop]; prel. Qed.
Hint Resolve bin_loop_rel : mono.

Lemma print_bin_rel : forall o ph uvalue,
  relb same (print_bin c1 W rd wr (with_fn f1 o) ph uvalue)
       (print_bin cf W rd wr (with_fn f2 o) ph uvalue).
Proof. intros; unfold print_bin; prel. Qed.
Hint Resolve print_bin_rel : mono.

Lemma hex_loop_rel : forall fuel o uvalue offset,
  relb same (hex_loop c1 W rd wr fuel (with_fn f1 o) uvalue offset)
       (hex_loop cf W rd wr fuel (with_fn f2 o) uvalue offset).
Proof. induction fuel; intros; cbn [hex_loop]; prel. Qed.
Hint Resolve hex_loop_rel : mono.

Lemma print_hex_rel : forall o ph uvalue,
  relb same (print_hex c1 W rd wr (with_fn f1 o) ph uvalue)
       (print_hex cf W rd wr (with_fn f2 o) ph uvalue).
Proof. intros; unfold print_hex; prel. Qed.
Hint Resolve print_hex_rel : mono.

Lemma str_loop_rel : forall n o str,
  relb same (str_loop c1 W rd wr n (with_fn f1 o) str)
       (str_loop cf W rd wr n (with_fn f2 o) str).
Proof. induction n; intros; cbn [str_loop]; prel. Qed.
Hint Resolve str_loop_rel : mono.

Lemma print_str_rel : forall o ph str,
  relb same (print_str c1 W rd wr (with_fn f1 o) ph str)
       (print_str cf W rd wr (with_fn f2 o) ph str).
Proof. intros; unfold print_str; prel. Qed.
Hint Resolve print_str_rel : mono.

Lemma float_loop_rel : forall o radix_pos l,
  relb same (float_loop c1 W rd wr (with_fn f1 o) radix_pos l)
       (float_loop cf W rd wr (with_fn f2 o) radix_pos l).
Proof. intros o radix_pos l; revert o radix_pos; induction l; intros; cbn [float_loop]; prel. Qed.
Hint Resolve float_loop_rel : mono.

Lemma print_float_normal_rel : forall o ph v postpend,
  relb same (print_float_normal c1 A W rd wr (with_fn f1 o) ph v postpend)
       (print_float_normal cf A W rd wr (with_fn f2 o) ph v postpend).
Proof. intros; unfold print_float_normal; prel. Qed.
Hint Resolve print_float_normal_rel : mono.

Lemma print_float_special_rel : forall o ph msg v,
  relb same (print_float_special c1 A W rd wr (with_fn f1 o) ph msg v)
       (print_float_special cf A W rd wr (with_fn f2 o) ph msg v).
Proof. intros; unfold print_float_special; prel. Qed.
Hint Resolve print_float_special_rel : mono.

Lemma print_float_rel : forall o ph v postpend,
  relb same (print_float c1 A W rd wr (with_fn f1 o) ph v postpend)
       (print_float cf A W rd wr (with_fn f2 o) ph v postpend).
Proof. intros; unfold print_float; prel. Qed.
Hint Resolve print_float_rel : mono.

Lemma print_placeholder_rel : forall o v ph,
  relb same (print_placeholder c1 A W rd wr (with_fn f1 o) v ph)
       (print_placeholder cf A W rd wr (with_fn f2 o) v ph).
Proof. intros; unfold print_placeholder; prel. Qed.
Hint Resolve print_placeholder_rel : mono.

Lemma col_loop_rel : forall fuel o col pad,
  relb same (col_loop c1 W rd wr fuel (with_fn f1 o) col pad)
       (col_loop cf W rd wr fuel (with_fn f2 o) col pad).
Proof. induction fuel; intros; cbn [col_loop]; prel. Qed.
Hint Resolve col_loop_rel : mono.

Lemma print_col_alignment_rel : forall fuel o fmt,
  relb (same_l ptr) (print_col_alignment c1 W rd wr fuel (with_fn f1 o) fmt)
       (print_col_alignment cf W rd wr fuel (with_fn f2 o) fmt).
Proof. intros; unfold print_col_alignment; prel. Qed.
Hint Resolve print_col_alignment_rel : mono.

Lemma core_loop_rel : forall fuel limit o fmt va,
  relb same (core_loop c1 A W rd wr fuel limit (with_fn f1 o) fmt va)
       (core_loop cf A W rd wr fuel limit (with_fn f2 o) fmt va).
Proof. induction fuel; intros; cbn [core_loop]; prel. Qed.
Hint Resolve core_loop_rel : mono.

Lemma core_prnf_rel : forall o fmt va,
  relb (same_r Z) (core_prnf c1 A W rd wr (with_fn f1 o) fmt va)
       (core_prnf cf A W rd wr (with_fn f2 o) fmt va).
Proof. intros; unfold core_prnf; prel. Qed.
Hint Resolve core_prnf_rel : mono.

Lemma vfptrprnf_rel : forall s fmt va,
  below (vfptrprnf c1 A W rd wr f1 s fmt va) (vfptrprnf cf A W rd wr f2 s fmt va).
Proof.
  intros; unfold vfptrprnf. apply relb_below.
  apply relb_bind with (R := same_r Z).
  - exact (core_prnf_rel (Out W 0 0 0 null None s) fmt va).
  - intros [n1 o1] [n2 o2] [E (o & H1 & H2)]; cbn in E, H1, H2; subst. apply relb_below, below_refl.
Qed.

End Run.
Global Hint Resolve vfptrprnf_rel : mono.

Lemma vsnprnf_mono fw cf A W rd wr : forall s dst n fmt va,
  below (vsnprnf (restrict fw cf) A W rd wr s dst n fmt va) (vsnprnf cf A W rd wr s dst n fmt va).
Proof.
  intros; unfold vsnprnf. apply relb_below.
  apply relb_bind with (R := same_r W None None Z).
  - exact (core_prnf_rel fw cf A W rd wr None None I (Out W 0 0 (to_int n) dst None s) fmt va).
  - intros [n1 o1] [n2 o2] [E (o & H1 & H2)]; cbn in E, H1, H2; subst. apply relb_below, below_refl.
Qed.
Global Hint Resolve vsnprnf_mono : mono.

Lemma vsprnf_mono fw cf A W rd wr : forall s dst fmt va,
  below (vsprnf (restrict fw cf) A W rd wr s dst fmt va) (vsprnf cf A W rd wr s dst fmt va).
Proof.
  intros; unfold vsprnf. apply relb_below.
  apply relb_bind with (R := same_r W None None Z).
  - exact (core_prnf_rel fw cf A W rd wr None None I (Out W 0 0 INT_MAX dst None s) fmt va).
  - intros [n1 o1] [n2 o2] [E (o & H1 & H2)]; cbn in E, H1, H2; subst. apply relb_below, below_refl.
Qed.

Lemma snappf_mono fw cf A W rd wr : forall s dst n fmt va,
  below (snappf (restrict fw cf) A W rd wr s dst n fmt va) (snappf cf A W rd wr s dst n fmt va).
Proof. intros; unfold snappf; mono. Qed.
Global Hint Resolve vsprnf_mono snappf_mono : mono.

Lemma char_handler_for_prnf_mono fw cf : forall s c,
  below (char_handler_for_prnf (restrict fw cf) s c) (char_handler_for_prnf cf s c).
Proof. intros; exact (append_char_to_buf_mono fw cf (snd s) (fst s) c). Qed.

Lemma handler_run_mono fw cf A s fmt va :
  below (vfptrprnf (restrict fw cf) A hst h_mem h_set (Some (char_handler_for_prnf (restrict fw cf))) s fmt va)
        (vfptrprnf cf A hst h_mem h_set (Some (char_handler_for_prnf cf)) s fmt va).
Proof. apply vfptrprnf_rel. apply char_handler_for_prnf_mono. Qed.
Global Hint Resolve handler_run_mono : mono.

Lemma strbuf_prnf_format_mono fw cf A : forall w bp fmt va,
  below (PrnfBufModel.strbuf_prnf (restrict fw cf) A w bp fmt va)
        (PrnfBufModel.strbuf_prnf cf A w bp fmt va).
Proof. intros; unfold PrnfBufModel.strbuf_prnf; mono. Qed.
Lemma strbuf_append_prnf_format_mono fw cf A : forall w bp fmt va,
  below (PrnfBufModel.strbuf_append_prnf (restrict fw cf) A w bp fmt va)
        (PrnfBufModel.strbuf_append_prnf cf A w bp fmt va).
Proof. intros; unfold PrnfBufModel.strbuf_append_prnf; mono. Qed.
Global Hint Resolve strbuf_prnf_format_mono strbuf_append_prnf_format_mono : mono.
