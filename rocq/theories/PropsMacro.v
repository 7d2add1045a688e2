(** Property theorems for the macros of the headers (C131 - C135), each with a concrete instance. *)
From Coq Require Import String.
From Verif Require Import Base Mem Libc StrviewModel Spec MemLemmas StrviewProofs StrnumModel NumSpec Alloc StrbufModel BufSpec HistSpec
  StrbufProofs StrbufProofs2 StrbufProofs3 StrbufProofs4 StrbufProofs5 StrbufProofs6 StrbufProofs7 StrbufProofs8 StrbufHistory StrbufProofs9
  ExampleLib BufExample MacroModel MacroProofs.
From Verif Require PropsView PropsBuf PropsBuf2 PropsNum StrnumProofs3 FloatSpec.
Import PropsBuf(ready, dyn_ready, fix_ready, starts_at).
Local Open Scope string_scope.
Local Open Scope list_scope.
Local Open Scope Z_scope.

(** ** C131: strbuf_cat with any number of arguments *)
Theorem C131_cat_partial : forall cf w p B args ls, ready cf w p B -> c_ptr cf = true ->
  (1 <= length args <= 127)%nat ->
  Forall2 (source cf (s_mem w) p B) args ls -> sums_ok cf (Zlen (concat ls)) ->
  dyn B = true \/ Forall (fun v => ~ starts_at cf p B v) args ->
  exists r, strbuf_cat_macro cf w (Some p) args = Some r /\ becomes cf w p B r (put cf B (concat ls)).
Proof. intros. eexists. split; [now apply cat_macro_ok|]. now apply PropsBuf.C39_cat. Qed.
Print Assumptions C131_cat_partial.
(** No buffer: the invalid view. *)
Theorem C131_no_buffer : forall cf w bp args, (1 <= length args <= 127)%nat -> (bp = None \/ bp = Some null) ->
  strbuf_cat_macro cf w bp args = Some (Ok (INVALID, bp, w)).
Proof. intros cf w bp args H [-> | ->]; now rewrite cat_macro_ok. Qed.
Print Assumptions C131_no_buffer.
(** A call with 128 or more arguments, or with none, does not compile. *)
Theorem C131_limit : forall cf w bp args, strbuf_cat_macro cf w bp args = None <-> ~ (1 <= length args <= 127)%nat.
Proof.
  intros cf w bp args. split; intro H.
  - intro K. rewrite cat_macro_ok in H by exact K. discriminate.
  - apply cat_macro_many. lia.
Qed.
Print Assumptions C131_limit.
(** So the number of views is not arbitrary. *)
Theorem C131_any_number_refuted : exists w p B args ls, ready gcc64 w p B /\ Forall2 (source gcc64 (s_mem w) p B) args ls /\
  args <> [] /\ dyn B = true /\ sums_ok gcc64 (Zlen (concat ls)) /\ strbuf_cat_macro gcc64 w (Some p) args = None.
Proof.
  exists w_move, pdyn, b_hello, (repeat INVALID 128), (repeat [] 128). split; [exact dyn_ready|].
  split; [|split; [discriminate|split; [reflexivity|split; [apply any_sums|reflexivity]]]].
  generalize 128%nat. induction n; cbn [repeat]; constructor; auto. constructor.
Qed.
Print Assumptions C131_any_number_refuted.
Example C131_ex : ready gcc64 w_move pdyn b_hello /\
  Forall2 (source gcc64 (s_mem w_move) pdyn b_hello) (repeat (vw 0 25 3) 127) (repeat (bs "ell") 127) /\
  match strbuf_cat_macro gcc64 w_move (Some pdyn) (repeat (vw 0 25 3) 127) with
  | Some r => shows gcc64 r = Some (Some (concat (repeat (bs "ell") 127)), 384) | None => False end /\
  match strbuf_cat_macro gcc64 w_move (Some pdyn) [vw 0 25 3; wide] with
  | Some r => shows gcc64 r = Some (Some (bs "ellwide"), 8) | None => False end.
Proof.
  split; [exact dyn_ready|]. split.
  - generalize 127%nat. induction n; cbn [repeat]; constructor; auto. exact ell_src.
  - split; vm_compute; reflexivity.
Qed.

(** ** C132: a C string or a view *)
(** The argument [a] stands for the view [v] with contents [o]: a view itself, or a C string;
    the NULL pointer stands for the invalid view. *)
Definition text_arg (m : mem) (a : targ) (v : view) (o : option (list Z)) : Prop :=
  match a with
  | AView u => v = u /\ denotes m v o
  | AConst p | AChar p => (p = null /\ v = INVALID /\ o = None) \/ (exists l, o = Some l /\ c_string m p l /\ v = View p (Zlen l))
  | AOther => False
  end.
Lemma text_view : forall m a v o, text_arg m a v o -> is_view m a v.
Proof.
  intros m [p|p|u|] v o H; cbn [text_arg is_view] in *; [| |tauto|tauto].
  all: destruct H as [(-> & -> & _)|(l & _ & Hc & ->)]; [reflexivity|apply (cstr_ok m p l Hc)].
Qed.
Lemma text_denotes : forall m a v o, text_arg m a v o -> denotes m v o.
Proof.
  intros m [p|p|u|] v o H; cbn [text_arg] in *; [| |tauto|tauto].
  all: destruct H as [(-> & -> & ->)|(l & -> & Hc & ->)]; [reflexivity|apply (cstr_ok m p l Hc)].
Qed.
Ltac sel M F := intros; unfold M; eapply generic_ok; [eassumption|]; intros q Hq; unfold F; rewrite Hq; auto.
Lemma sel_view : forall cf m s a v, is_view m a v ->
  is_match_macro cf m s a = Some (strview_is_match cf m s v) /\
  is_match_nocase_macro cf m s a = Some (strview_is_match_nocase cf m s v) /\
  starts_with_macro cf m s a = Some (strview_starts_with cf m s v) /\
  starts_with_nocase_macro cf m s a = Some (strview_starts_with_nocase cf m s v) /\
  trim_macro cf m s a = Some (strview_trim cf m s v) /\
  trim_start_macro cf m s a = Some (strview_trim_start cf m s v) /\
  trim_end_macro cf m s a = Some (strview_trim_end cf m s v) /\
  find_first_macro cf m s a = Some (strview_find_first cf m s v) /\
  find_first_nocase_macro cf m s a = Some (strview_find_first_nocase cf m s v) /\
  find_last_macro cf m s a = Some (strview_find_last cf m s v) /\
  find_last_nocase_macro cf m s a = Some (strview_find_last_nocase cf m s v).
Proof.
  intros cf m s a v H.
  split; [sel is_match_macro strview_is_match_cstr|].
  split; [sel is_match_nocase_macro strview_is_match_nocase_cstr|].
  split; [sel starts_with_macro strview_starts_with_cstr|].
  split; [sel starts_with_nocase_macro strview_starts_with_nocase_cstr|].
  split; [sel trim_macro strview_trim_cstr|].
  split; [sel trim_start_macro strview_trim_start_cstr|].
  split; [sel trim_end_macro strview_trim_end_cstr|].
  split; [sel find_first_macro strview_find_first_cstr|].
  split; [sel find_first_nocase_macro strview_find_first_nocase_cstr|].
  split; [sel find_last_macro strview_find_last_cstr|].
  sel find_last_nocase_macro strview_find_last_nocase_cstr.
Qed.
Lemma sel_buf : forall cf w bp i d a v, is_view (s_mem w) a v ->
  append_macro cf w bp a = Some (strbuf_append_strview cf w bp v) /\
  prepend_macro cf w bp a = Some (strbuf_prepend_strview cf w bp v) /\
  insert_at_index_macro cf w bp i a = Some (strbuf_insert_at_index_strview cf w bp i v) /\
  insert_before_macro cf w bp d a = Some (strbuf_insert_before_strview cf w bp d v) /\
  insert_after_macro cf w bp d a = Some (strbuf_insert_after_strview cf w bp d v) /\
  strip_macro cf w bp a = Some (strbuf_strip_strview cf w bp v).
Proof.
  intros cf w bp i d a v H.
  split; [sel append_macro strbuf_append_cstr|].
  split; [sel prepend_macro strbuf_prepend_cstr|].
  split; [sel insert_at_index_macro strbuf_insert_at_index_cstr|].
  split; [sel insert_before_macro strbuf_insert_before_cstr|].
  split; [sel insert_after_macro strbuf_insert_after_cstr|].
  sel strip_macro strbuf_strip_cstr.
Qed.
Theorem C132_match : forall cf m s l a v l2, mem_wf m -> has_view m s l -> text_arg m a v (Some l2) ->
  (exists r, is_match_macro cf m s a = Some (Ok r) /\ (r = true <-> l = l2)) /\
  (exists r, is_match_nocase_macro cf m s a = Some (Ok r) /\ (r = true <-> map upper l = map upper l2)) /\
  (exists r, starts_with_macro cf m s a = Some (Ok r) /\ (r = true <-> prefix_of l2 l)) /\
  (exists r, starts_with_nocase_macro cf m s a = Some (Ok r) /\ (r = true <-> prefix_of (map upper l2) (map upper l))).
Proof.
  intros cf m s l a v l2 W Hs Ha. pose proof (text_denotes _ _ _ _ Ha) as Hv. cbn [denotes] in Hv.
  destruct (sel_view cf m s a v (text_view _ _ _ _ Ha)) as (-> & -> & -> & -> & _).
  split; [destruct (PropsView.C06_is_match cf m s v l l2 W Hs Hv) as (r & -> & K); eauto|].
  split; [destruct (PropsView.C06_is_match_nocase cf m s v l l2 W Hs Hv) as (r & -> & K); eauto|].
  split; [destruct (PropsView.C08_starts_with cf m s v l l2 W Hs Hv) as (r & -> & K); eauto|].
  destruct (PropsView.C08_starts_with_nocase cf m s v l l2 W Hs Hv) as (r & -> & K); eauto.
Qed.
Print Assumptions C132_match.
Theorem C132_trim : forall cf m s l a v o, has_view m s l -> text_arg m a v o -> set_ok cf o ->
  (exists x y z, l = x ++ y ++ z /\ Forall (fun c => In c (contents o)) x /\ Forall (fun c => In c (contents o)) z /\
     (forall c t, y = c :: t -> ~ In c (contents o)) /\ (forall t c, y = t ++ [c] -> ~ In c (contents o)) /\
     trim_macro cf m s a = Some (Ok (subview s (Zlen x) (Zlen y)))) /\
  (exists x y, l = x ++ y /\ Forall (fun c => In c (contents o)) x /\ (forall c t, y = c :: t -> ~ In c (contents o)) /\
     trim_start_macro cf m s a = Some (Ok (subview s (Zlen x) (Zlen y)))) /\
  (exists y z, l = y ++ z /\ Forall (fun c => In c (contents o)) z /\ (forall t c, y = t ++ [c] -> ~ In c (contents o)) /\
     trim_end_macro cf m s a = Some (Ok (subview s 0 (Zlen y)))).
Proof.
  intros cf m s l a v o Hs Ha Ho. pose proof (text_denotes _ _ _ _ Ha) as Hv.
  destruct (sel_view cf m s a v (text_view _ _ _ _ Ha)) as (_ & _ & _ & _ & -> & -> & -> & _).
  split; [|split].
  - destruct (PropsView.C05_trim cf m s v l o Hs Hv Ho) as (x & y & z & H1 & H2 & H3 & H4 & H5 & -> & _). exists x, y, z. auto 6.
  - destruct (PropsView.C05_trim_start cf m s v l o Hs Hv Ho) as (x & y & H1 & H2 & H3 & -> & _). exists x, y. auto.
  - destruct (PropsView.C05_trim_end cf m s v l o Hs Hv Ho) as (x & y & H1 & H2 & H3 & -> & _). exists x, y. auto.
Qed.
Print Assumptions C132_trim.
Theorem C132_find : forall cf m s l a v n, has_view m s l -> text_arg m a v (Some n) ->
  ((exists k, is_least (occurs l n) k /\ find_first_macro cf m s a = Some (Ok (subview s (Z.of_nat k) (Zlen n)))) \/
   ((forall k, ~ occurs l n k) /\ find_first_macro cf m s a = Some (Ok INVALID))) /\
  ((exists k, is_least (occurs (map upper l) (map upper n)) k /\
      find_first_nocase_macro cf m s a = Some (Ok (subview s (Z.of_nat k) (Zlen n)))) \/
   ((forall k, ~ occurs (map upper l) (map upper n) k) /\ find_first_nocase_macro cf m s a = Some (Ok INVALID))).
Proof.
  intros cf m s l a v n Hs Ha. pose proof (text_denotes _ _ _ _ Ha) as Hv. cbn [denotes] in Hv.
  destruct (sel_view cf m s a v (text_view _ _ _ _ Ha)) as (_ & _ & _ & _ & _ & _ & _ & -> & -> & _).
  split.
  - destruct (PropsView.C02_find_first cf m s v l n Hs Hv) as [(k & K & ->)|(K & ->)]; eauto.
  - destruct (PropsView.C02_find_first_nocase cf m s v l n Hs Hv) as [(k & K & ->)|(K & ->)]; eauto.
Qed.
Print Assumptions C132_find.
Theorem C132_find_last : forall cf m s l a v n, c_ptr cf = true -> has_view m s l -> text_arg m a v (Some n) ->
  ((exists k, is_greatest (occurs l n) k /\ find_last_macro cf m s a = Some (Ok (subview s (Z.of_nat k) (Zlen n)))) \/
   ((forall k, ~ occurs l n k) /\ find_last_macro cf m s a = Some (Ok INVALID))) /\
  ((exists k, is_greatest (occurs (map upper l) (map upper n)) k /\
      find_last_nocase_macro cf m s a = Some (Ok (subview s (Z.of_nat k) (Zlen n)))) \/
   ((forall k, ~ occurs (map upper l) (map upper n) k) /\ find_last_nocase_macro cf m s a = Some (Ok INVALID))).
Proof.
  intros cf m s l a v n Hc Hs Ha. pose proof (text_denotes _ _ _ _ Ha) as Hv. cbn [denotes] in Hv.
  destruct (sel_view cf m s a v (text_view _ _ _ _ Ha)) as (_ & _ & _ & _ & _ & _ & _ & _ & _ & -> & ->).
  split.
  - destruct (PropsView.C03_find_last cf m s v l n Hc Hs Hv) as [(k & K & ->)|(K & ->)]; eauto.
  - destruct (PropsView.C03_find_last_nocase cf m s v l n Hc Hs Hv) as [(k & K & ->)|(K & ->)]; eauto.
Qed.
Print Assumptions C132_find_last.
Lemma padd_flat : forall cf m p n, c_ptr cf = true -> padd cf m p n = Ok (shift p n).
Proof. intros cf m p n H. unfold padd. rewrite H, orb_true_r. destruct (p_obj p); try reflexivity. now destruct ((p_ofs p =? 0) && (n =? 0)). Qed.
(** Nothing is found with a NULL pointer or an invalid view. *)
Theorem C132_find_invalid : forall cf m s a v, text_arg m a v None ->
  find_first_macro cf m s a = Some (Ok INVALID) /\ find_first_nocase_macro cf m s a = Some (Ok INVALID) /\
  (c_ptr cf = true -> find_last_macro cf m s a = Some (Ok INVALID) /\ find_last_nocase_macro cf m s a = Some (Ok INVALID)).
Proof.
  intros cf m s a v Ha. pose proof (text_denotes _ _ _ _ Ha) as Hv. cbn [denotes] in Hv. subst v.
  destruct (sel_view cf m s a INVALID (text_view _ _ _ _ Ha)) as (_ & _ & _ & _ & _ & _ & _ & -> & -> & -> & ->).
  destruct (PropsView.C02_find_first_invalid cf m s INVALID (or_intror eq_refl)) as [-> ->].
  split; [reflexivity|]. split; [reflexivity|]. intro Hc.
  unfold strview_find_last, strview_find_last_nocase, find_last. cbn [v_data v_size INVALID].
  rewrite padd_flat by exact Hc. cbn [bind]. change (is_null null) with true. cbn [negb]. rewrite andb_false_r. auto.
Qed.
Print Assumptions C132_find_invalid.
Theorem C132_insert : forall cf w p B i a v o l, ready cf w p B -> comparable cf p v ->
  text_arg (s_mem w) a v o -> source cf (s_mem w) p B v l -> INT_MIN <= i <= INT_MAX -> sums_ok cf (Zlen (bf_data B) + Zlen l) ->
  (exists r, append_macro cf w (Some p) a = Some r /\ becomes cf w p B r (put cf B (bf_data B ++ l))) /\
  (exists r, prepend_macro cf w (Some p) a = Some r /\ becomes cf w p B r (put cf B (l ++ bf_data B))) /\
  (exists r, insert_at_index_macro cf w (Some p) i a = Some r /\ becomes cf w p B r (put cf B (insert (bf_data B) i l))).
Proof.
  intros cf w p B i a v o l R C Ha Hs Hi Hn.
  destruct (sel_buf cf w (Some p) i INVALID a v (text_view _ _ _ _ Ha)) as (-> & -> & -> & _).
  split; [|split]; (eexists; split; [reflexivity|]).
  - now apply PropsBuf.C36_append.
  - now apply PropsBuf.C36_prepend.
  - now apply PropsBuf.C36_insert_at_index.
Qed.
Print Assumptions C132_insert.
Theorem C132_insert_at_view : forall cf w p B x d c a v o l, ready cf w p B -> comparable cf p v ->
  text_arg (s_mem w) a v o -> source cf (s_mem w) p B v l -> bf_data B = x ++ d ++ c -> sums_ok cf (Zlen (bf_data B) + Zlen l) ->
  (exists r, insert_before_macro cf w (Some p) (View (shift (chars_of cf p) (Zlen x)) (Zlen d)) a = Some r /\
     becomes cf w p B r (put cf B (x ++ l ++ d ++ c))) /\
  (exists r, insert_after_macro cf w (Some p) (View (shift (chars_of cf p) (Zlen x)) (Zlen d)) a = Some r /\
     becomes cf w p B r (put cf B (x ++ d ++ l ++ c))).
Proof.
  intros cf w p B x d c a v o l R C Ha Hs Hd Hn.
  destruct (sel_buf cf w (Some p) 0 (View (shift (chars_of cf p) (Zlen x)) (Zlen d)) a v (text_view _ _ _ _ Ha)) as (_ & _ & _ & -> & -> & _).
  split; (eexists; split; [reflexivity|]); [now apply PropsBuf.C37_insert_before|now apply PropsBuf.C37_insert_after].
Qed.
Print Assumptions C132_insert_at_view.
Theorem C132_strip : forall cf w p B a v set, ready cf w p B -> text_arg (s_mem w) a v (Some set) -> outside cf p B v set ->
  exists r, strip_macro cf w (Some p) a = Some r /\
    becomes_at cf w p B r (Buffer (without set (bf_data B)) (bf_cap B) (bf_alloc B)).
Proof.
  intros cf w p B a v set R Ha Ho. pose proof (text_denotes _ _ _ _ Ha) as Hv. cbn [denotes] in Hv.
  destruct (sel_buf cf w (Some p) 0 INVALID a v (text_view _ _ _ _ Ha)) as (_ & _ & _ & _ & _ & ->).
  eexists. split; [reflexivity|]. now apply PropsBuf2.C48_strip.
Qed.
Print Assumptions C132_strip.
(** An argument of any other type does not compile, whatever the macro. *)
Theorem C132_other : forall cf m s w bp i d,
  is_match_macro cf m s AOther = None /\ is_match_nocase_macro cf m s AOther = None /\ starts_with_macro cf m s AOther = None /\
  starts_with_nocase_macro cf m s AOther = None /\ trim_macro cf m s AOther = None /\ trim_start_macro cf m s AOther = None /\
  trim_end_macro cf m s AOther = None /\ find_first_macro cf m s AOther = None /\ find_first_nocase_macro cf m s AOther = None /\
  find_last_macro cf m s AOther = None /\ find_last_nocase_macro cf m s AOther = None /\ append_macro cf w bp AOther = None /\
  prepend_macro cf w bp AOther = None /\ insert_at_index_macro cf w bp i AOther = None /\ insert_before_macro cf w bp d AOther = None /\
  insert_after_macro cf w bp d AOther = None /\ strip_macro cf w bp AOther = None.
Proof. intros. do 16 (split; [reflexivity|]). reflexivity. Qed.
Print Assumptions C132_other.
Definition lo : ptr := Ptr (PBlk 3) 0.
Example C132_ex : ready gcc64 w_move pdyn b_hello /\
  text_arg xm (AConst lo) (vw 3 0 2) (Some (bs "lo")) /\ text_arg xm (AChar lo) (vw 3 0 2) (Some (bs "lo")) /\
  text_arg xm (AView wide) wide (Some (bs "wide")) /\ text_arg xm (AChar null) INVALID None /\
  source gcc64 xm pdyn b_hello (vw 3 0 2) (bs "lo") /\
  find_first_macro gcc64 xm (vw 0 24 5) (AConst lo) = Some (Ok (vw 0 27 2)) /\
  is_match_macro gcc64 xm (vw 0 27 2) (AChar lo) = Some (Ok true) /\
  trim_end_macro gcc64 xm (vw 0 24 5) (AChar lo) = Some (Ok (vw 0 24 2)) /\
  match append_macro gcc64 w_move (Some pdyn) (AChar lo), strip_macro gcc64 w_move (Some pdyn) (AConst lo) with
  | Some r, Some r' => shows gcc64 r = Some (Some (bs "hellolo"), 8) /\ shows gcc64 r' = Some (Some (bs "he"), 8)
  | _, _ => False end.
Proof.
  split; [exact dyn_ready|].
  split; [right; exists (bs "lo"); split; [reflexivity|split; [cstr_check|reflexivity]]|].
  split; [right; exists (bs "lo"); split; [reflexivity|split; [cstr_check|reflexivity]]|].
  split; [split; [reflexivity|view_check]|]. split; [left; auto|].
  split; [apply src_outside; [view_check|split; [eexists; reflexivity|left; discriminate]]|].
  do 3 (split; [vm_compute; reflexivity|]). vm_compute. auto.
Qed.

(** ** C133: strnum_value *)
(** The C types of the destination, and the numeric types of the parsers. *)
Definition int_type (t : dtype) : option ity :=
  match t with
  | DUchar => Some TUchar | DUshort => Some TUshort | DUint => Some TUint | DUlong => Some TUlong | DUllong => Some TUllong
  | DChar => Some TChar | DShort => Some TShort | DInt => Some TInt | DLong => Some TLong | DLlong => Some TLlong
  | _ => None
  end.
(** The text [l] given for a destination of type [t] is read by the grammar of C23 and C24 in the range of [t]. *)
Theorem C133_integers : forall cf A32 A64 A80 t it, int_type t = Some it ->
  exists f, strnum_value_macro cf A32 A64 A80 false t = Some (PInt f) /\
  forall m s l opt dst, mem_wf m -> has_view m s l -> ctype_safe cf l ->
    (it_base (read_int (ty_signed it) opt l) = 2 -> no_b0 l) ->
    result_of dst s l (parse_int (ty_signed it) opt (ty_lo cf it) (ty_hi cf it) l) (f m dst (Some s) opt).
Proof.
  intros cf A32 A64 A80 t it Ht.
  assert (K : exists f, strnum_value_macro cf A32 A64 A80 false t = Some (PInt f) /\ consumer cf it = Some f).
  { unfold strnum_value_macro. rewrite value_assocs_parse.
    destruct t; cbn in Ht; try discriminate; inversion Ht; subst it; eexists; (split; reflexivity). }
  destruct K as (f & K1 & K2). exists f. split; [exact K1|].
  intros m s l opt dst Hw Hv Hc Hb. exact (StrnumProofs3.consumer_ok cf m s l opt Hw Hv Hc it f dst K2 Hb).
Qed.
Print Assumptions C133_integers.
(** The ranges are those of the destination types. *)
Theorem C133_ranges : forall cf,
  (ty_lo cf TUchar, ty_hi cf TUchar) = (0, 255) /\ (ty_lo cf TUshort, ty_hi cf TUshort) = (0, 65535) /\
  (ty_lo cf TUint, ty_hi cf TUint) = (0, 4294967295) /\ (ty_lo cf TUllong, ty_hi cf TUllong) = (0, 18446744073709551615) /\
  (ty_lo cf TShort, ty_hi cf TShort) = (-32768, 32767) /\ (ty_lo cf TInt, ty_hi cf TInt) = (-2147483648, 2147483647) /\
  (ty_lo cf TLlong, ty_hi cf TLlong) = (-9223372036854775808, 9223372036854775807).
Proof. intro cf. repeat split. Qed.
Print Assumptions C133_ranges.
(** Floating point destinations get the parser of C29 in their own arithmetic. *)
Definition is_float_parser (cf : cfg) (A : arith) (x : option parser) : Prop :=
  exists f, x = Some (PFlt A f) /\ PropsNum.float_parser cf A f.
Theorem C133_floats : forall cf A32 A64 A80,
  is_float_parser cf A32 (strnum_value_macro cf A32 A64 A80 false DFloat) /\
  is_float_parser cf A64 (strnum_value_macro cf A32 A64 A80 false DDouble) /\
  is_float_parser cf A80 (strnum_value_macro cf A32 A64 A80 false DLdouble).
Proof.
  intros. unfold strnum_value_macro. rewrite value_assocs_parse.
  split; [|split]; (eexists; split; [reflexivity|]); [left|right|right]; reflexivity.
Qed.
Print Assumptions C133_floats.
(** A pointer to signed char (int8_t) or bool does not compile. *)
Theorem C133_all_types_refuted : forall cf A32 A64 A80,
  strnum_value_macro cf A32 A64 A80 false DSchar = None /\ strnum_value_macro cf A32 A64 A80 false DBool = None.
Proof. intros. unfold strnum_value_macro. rewrite value_assocs_parse. split; reflexivity. Qed.
Print Assumptions C133_all_types_refuted.
(** Without floating point the macro never compiles: its list of associations ends with a comma. *)
Theorem C133_nofloat_refuted : forall cf A32 A64 A80 t, strnum_value_macro cf A32 A64 A80 true t = None.
Proof. reflexivity. Qed.
Print Assumptions C133_nofloat_refuted.
Example C133_ex : has_view PropsNum.numm PropsNum.v2 PropsNum.n2 /\
  match strnum_value_macro gcc64 FloatSpec.exact FloatSpec.exact FloatSpec.exact false DUchar, strnum_value_macro gcc64 FloatSpec.exact FloatSpec.exact FloatSpec.exact false DUshort with
  | Some (PInt f), Some (PInt g) => f PropsNum.numm true (Some PropsNum.v2) 0 = Ok (Parsed ERANGE None None) /\
      g PropsNum.numm true (Some PropsNum.v2) 0 = Ok (Parsed NoErr (Some 4095) (Some (vw 1 5 1)))
  | _, _ => False end.
Proof. split; [view_check|]. vm_compute. auto. Qed.

(** ** C134: strbuf_create *)
Theorem C134_size : forall cf w dflt n a, wf_cfg cf -> mem_wf (s_mem w) -> no_fail w ->
  is_dyn (chosen dflt a) = true -> 0 <= n <= INT_MAX ->
  (exists r, create_macro cf w dflt (ISize n) a = Some r /\ created cf w r (Buffer [] n (chosen dflt a))) /\
  (exists r, create_macro cf w dflt (IInt n) a = Some r /\ created cf w r (Buffer [] n (chosen dflt a))).
Proof.
  intros cf w dflt n a W Hw Hf Hd Hn. split; (eexists; split; [reflexivity|]); [now apply PropsBuf.C34_create_empty|].
  rewrite Z.mod_small; [now apply PropsBuf.C34_create_empty|].
  unfold INT_MAX in Hn. destruct W as [_ W]. destruct W as [-> | ->]; lia.
Qed.
Print Assumptions C134_size.
(** A negative int or a size beyond the limit gives no buffer and calls no allocator. *)
Theorem C134_too_large : forall cf w dflt n a, wf_cfg cf ->
  (INT_MAX < n -> create_macro cf w dflt (ISize n) a = Some (Ok (null, w))) /\
  (INT_MIN <= n < 0 -> create_macro cf w dflt (IInt n) a = Some (Ok (null, w))).
Proof.
  intros cf w dflt n a W. cbn [create_macro]. split; intro H; f_equal; apply PropsBuf.C34_create_none; right; [exact H|].
  unfold INT_MIN, INT_MAX in *.
  destruct W as [_ W]. destruct W as [-> | ->];
    match goal with |- _ < _ mod ?k => rewrite <- (Z.mod_unique n k (-1) (n + k)) by (change k with (k); lia) end; lia.
Qed.
Print Assumptions C134_too_large.
Theorem C134_view : forall cf w dflt v l a, wf_cfg cf -> c_ptr cf = true -> mem_wf (s_mem w) -> no_fail w ->
  is_dyn (chosen dflt a) = true ->
  (v = INVALID /\ l = [] \/ has_view (s_mem w) v l /\ exists b, p_obj (v_data v) = PBlk b) ->
  sums_ok cf (Zlen l) ->
  exists r, create_macro cf w dflt (IView v) a = Some r /\ created cf w r (Buffer l (Zlen l) (chosen dflt a)).
Proof. intros. eexists. split; [reflexivity|]. now apply PropsBuf.C34_create_init. Qed.
Print Assumptions C134_view.
(** Any other type, such as unsigned int, long or const char pointer, does not compile. *)
Theorem C134_other : forall cf w dflt a, create_macro cf w dflt IOther a = None.
Proof. reflexivity. Qed.
Print Assumptions C134_other.
Example C134_ex : wf_cfg gcc64 /\ mem_wf (s_mem w_move) /\ no_fail w_move /\ is_dyn (chosen heapA None) = true /\
  match create_macro gcc64 w_move heapA (IInt 5) None, create_macro gcc64 w_move heapA (IInt (-5)) None,
        create_macro gcc64 w_move heapA (IView wide) None with
  | Some (Ok (p, w)), Some (Ok (q, _)), Some (Ok (r, w')) =>
      is_null p = false /\ is_null q = true /\ strbuf_view gcc64 w (Some p) = Ok (View (Ptr (PBlk 5) 24) 0) /\
      match strbuf_view gcc64 w' (Some r) with Ok v => read_view (s_mem w') v = Ok (Some (bs "wide")) | _ => False end
  | _, _, _ => False end.
Proof. destruct dyn_ready as (H1 & H2 & H3 & _). do 3 (split; [assumption|]). split; [reflexivity|]. vm_compute. auto. Qed.

(** ** C135: cstr_SL *)
Lemma in_split_first : forall l : list Z, In 0 l -> exists a b, l = a ++ 0 :: b /\ ~ In 0 a.
Proof.
  induction l as [|x l IH]; intro H; [destruct H|]. destruct (Z.eq_dec x 0) as [->|N]; [exists [], l; auto|].
  destruct IH as (a & b & -> & Ha); [destruct H; [congruence|assumption]|]. exists (x :: a), b. split; [reflexivity|]. intros [E|E]; auto.
Qed.
(** A string literal with the characters [l] is an array with a NUL behind them: the view shows all of [l]. *)
Theorem C135_literal : forall m p l, bytes_at m p (l ++ [0]) -> Forall is_byte l -> Zlen l <= INT_MAX ->
  has_view m (cstr_sl p (Zlen (l ++ [0]))) l.
Proof.
  intros m p l Hb Hf Hl. pose proof (Zlen_nonneg l) as Hn. unfold cstr_sl. rewrite Zlen_app. change (Zlen [0]) with 1.
  rewrite Z.add_simpl_r, to_int_ok by (unfold INT_MIN; lia).
  split; [apply bytes_at_app in Hb; apply Hb|]. split; [reflexivity|]. auto.
Qed.
Print Assumptions C135_literal.
(** It is the view given by cstr() exactly if the literal has no NUL inside; otherwise cstr() stops at the first one. *)
Theorem C135_cstr : forall m p l, bytes_at m p (l ++ [0]) -> Forall is_byte l -> Zlen l <= INT_MAX ->
  (cstr m p = Ok (cstr_sl p (Zlen (l ++ [0]))) <-> ~ In 0 l) /\
  (forall a b, l = a ++ 0 :: b -> ~ In 0 a -> cstr m p = Ok (View p (Zlen a))).
Proof.
  intros m p l Hb Hf Hl. pose proof (Zlen_nonneg l) as Hn.
  assert (K : forall a b, l = a ++ 0 :: b -> ~ In 0 a -> cstr m p = Ok (View p (Zlen a))).
  { intros a b -> Ha. refine (proj1 (cstr_ok m p a _)). rewrite Zlen_app in Hl. pose proof (Zlen_nonneg (0 :: b)).
    split; [|split; [apply Forall_app in Hf; apply Hf|split; [exact Ha|lia]]].
    replace ((a ++ 0 :: b) ++ [0]) with ((a ++ [0]) ++ b ++ [0]) in Hb by (rewrite <- !app_assoc; reflexivity).
    apply bytes_at_app in Hb. apply Hb. }
  split; [|exact K]. unfold cstr_sl. rewrite Zlen_app. change (Zlen [0]) with 1.
  rewrite Z.add_simpl_r, to_int_ok by (unfold INT_MIN; lia). split.
  - intros E Hi. destruct (in_split_first l Hi) as (a & b & -> & Ha). rewrite (K a b eq_refl Ha) in E. injection E as E.
    rewrite Zlen_app in E. unfold Zlen in E. cbn [length] in E. lia.
  - intro Hi. apply (cstr_ok m p l). split; [exact Hb|]. auto.
Qed.
Print Assumptions C135_cstr.
(** Given a pointer instead, the length is that of the pointer, whatever the text. *)
Theorem C135_pointer : forall cf m p l, wf_cfg cf -> bytes_at m p (l ++ [0]) -> Forall is_byte l -> Zlen l <= INT_MAX ->
  has_view m (cstr_sl p (c_ptrbytes cf)) l <-> Zlen l = c_ptrbytes cf - 1.
Proof.
  intros cf m p l [_ W] Hb Hf Hl. unfold cstr_sl. assert (E : to_int (c_ptrbytes cf - 1) = c_ptrbytes cf - 1) by (destruct W as [-> | ->]; reflexivity).
  rewrite E. split.
  - intros (_ & H & _). cbn [v_size] in H. lia.
  - intro H. split; [apply bytes_at_app in Hb; apply Hb|]. split; [cbn [v_size]; lia|]. auto.
Qed.
Print Assumptions C135_pointer.
Definition lits : mem := [blk 4096 (bs "My" ++ [0] ++ bs "Title" ++ [0]); blk 8192 (bs "My Title" ++ [0])].
Example C135_ex : bytes_at lits (Ptr (PBlk 0) 0) ((bs "My" ++ [0] ++ bs "Title") ++ [0]) /\
  bytes_at lits (Ptr (PBlk 1) 0) (bs "My Title" ++ [0]) /\
  read_view lits (cstr_sl (Ptr (PBlk 0) 0) 9) = Ok (Some (bs "My" ++ [0] ++ bs "Title")) /\
  cstr lits (Ptr (PBlk 0) 0) = Ok (vw 0 0 2) /\ cstr lits (Ptr (PBlk 1) 0) = Ok (cstr_sl (Ptr (PBlk 1) 0) 9) /\
  read_view lits (cstr_sl (Ptr (PBlk 1) 0) (c_ptrbytes gcc64)) = Ok (Some (bs "My Titl")).
Proof.
  split; [apply bytes_atb_ok; vm_compute; reflexivity|]. split; [apply bytes_atb_ok; vm_compute; reflexivity|].
  vm_compute. auto 6.
Qed.
