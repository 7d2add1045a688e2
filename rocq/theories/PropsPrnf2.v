(** Property theorems about prnf, continued: exactly what happens where a documented claim
    fails (C95, C99, C101-C103), placeholders of unsupported types and columns without a
    character to fill them with (C136, C137). *)
From Coq Require Import String.
From Verif Require Import Base Mem Libc StrviewModel Spec MemLemmas StrviewProofs NumSpec PrnfModel PrnfSpec PrnfSpec2 PrnfProofs4 PrnfProofs5 PrnfProofs9
  ExampleLib BufExample PropsPrnf.
Local Open Scope string_scope.
Local Open Scope list_scope.
Local Open Scope Z_scope.

(** Closes the goals of [plain_items] for literal items. *)
Ltac items_check2 :=
  unfold plain_items, item_ok, conv_ok, meaningless; cbn -[Z.lt Z.le In counts]; repeat (split || constructor); cbv; try intuition discriminate; try reflexivity.

(** ** C95: %c prints one character, whatever flags, width and precision are given *)
Theorem C95_char_partial : forall cf A m dst n fmt c v va, wf_cfg cf -> 1 < n <= INT_MAX ->
  let i := Chr c v : item (dbl A) in plain_items cf [i] -> writable m dst 2 -> given m fmt [i] -> elsewhere dst 2 fmt [i] ->
  exists m', snprnf cf A m dst n fmt (arguments cf [i] ++ va) = Ok (1, m') /\ only_wrote m m' dst 2 /\ bytes_at m' dst [v mod 256; 0].
Proof.
  intros cf A m dst n fmt c v va Wf Hn i Hp Hw Hg He. assert (plain cf [i] = [v mod 256]) as Et by reflexivity.
  destruct (C86_snprnf cf A m dst n fmt [i] va Wf ltac:(lia) Hp) as (m' & E & F & B); rewrite ?Et; change (Zlen [v mod 256]) with 1 in *; auto.
  - unfold INT_MAX; lia.
  - replace (Z.min n (1 + 1)) with 2 by lia. exact Hw.
  - replace (Z.min n (1 + 1)) with 2 by lia. exact He.
  - rewrite Et in *. change (Zlen [v mod 256]) with 1 in *. replace (Z.min n (1 + 1)) with 2 in F by lia. exists m'. split; auto. split; auto.
    specialize (B ltac:(lia)). rewrite firstn_all2 in B by (cbn; lia). exact B.
Qed.
Print Assumptions C95_char_partial.
Example C95_char_ex : forall A, let i := Chr (Conv [FZero; FMinus] (WNum 5) (PNum 3) Lint) 65 : item (dbl A) in
  plain_items gcc64 [i] /\ given (xmem (bs "%0-5.3c" ++ [0]) []) xfmt [i] /\ writable (xmem (bs "%0-5.3c" ++ [0]) []) xdst 2 /\ elsewhere xdst 2 xfmt [i]
  /\ seen (snprnf gcc64 A (xmem (bs "%0-5.3c" ++ [0]) []) xdst 10 xfmt (arguments gcc64 [i])) 2 = Some (1, bs "A" ++ [0]).
Proof.
  intros A. cbv zeta. split; [items_check|]. split; [split; [apply bytes_atb_ok; vm_compute; reflexivity|repeat constructor]|].
  split; [apply xdst_writable; lia|]. split; [split; [left; discriminate|repeat constructor]|]. vm_compute. reflexivity.
Qed.

(** ** C99: unsigned conversions ignore the flags + and space *)
(** The text without width and precision. *)
Definition unsigned_shown (cf : cfg) (t : Z) (l : len) (v : Z) : list Z :=
  if t =? 117 then show 10 v else if t =? 111 then PrnfSpec.fixed 2 (Z.to_nat (8 * len_bytes cf l)) v else PrnfSpec.fixed 16 (Z.to_nat (2 * len_bytes cf l)) v.
Theorem C99_unsigned_partial : forall cf A m dst fmt (i : item (dbl A)) fl l v va, wf_cfg cf ->
  let c := Conv fl WNone PNone l in i = Uns c v \/ i = Bin c v \/ i = Hex false c v \/ i = Hex true c v -> unsigned_ok cf l v ->
  let t := unsigned_shown cf (last (item_text i) 0) l v in
  writable m dst (Zlen t + 1) -> given m fmt [i] -> elsewhere dst (Zlen t + 1) fmt [i] ->
  exists m', sprnf cf A m dst fmt (arguments cf [i] ++ va) = Ok (Zlen t, m') /\ bytes_at m' dst (t ++ [0]).
Proof.
  intros cf A m dst fmt i fl l v va Wf c Hi Hv t Hw Hg He.
  assert (forall x, last (conv_text c x) 0 = x) as La.
  { intros x. unfold conv_text. rewrite !app_assoc. change (37 :: ?a ++ [x]) with ((37 :: a) ++ [x]). rewrite app_comm_cons. apply last_last. }
  assert (1 <= len_bytes cf l <= 8) as Hb by (apply PrnfProofs3.len_bytes_range; exact Wf).
  assert (plain cf [i] = t /\ plain_items cf [i]) as [Et Hp].
  { unfold t, plain. destruct Hi as [->|[->|[->| ->]]]; cbn [printed item_text item_out]; rewrite app_nil_r, La; (split; [|cbn; repeat split; auto; apply Hv]);
      rewrite pad_none by reflexivity; reflexivity. }
  assert (Zlen t < INT_MAX) as Hl.
  { unfold t, unsigned_shown. pose proof (PrnfProofs3.unsigned_range cf l v Hv) as R. pose proof (PrnfProofs4.Zlen_show_le v R) as B.
    destruct (last _ 0 =? 117); [unfold INT_MAX; lia|]. destruct (last _ 0 =? 111); rewrite PrnfProofs9.fixed_len; unfold INT_MAX; lia. }
  destruct (C87_sprnf cf A m dst fmt [i] va Wf Hp) as (m' & E & _ & Bt); rewrite ?Et; auto. rewrite Et in *. eauto.
Qed.
Print Assumptions C99_unsigned_partial.
Example C99_unsigned_ex : forall A, let i := Uns (Conv [FPlus; FSpace] WNone PNone Ll) 1234 : item (dbl A) in
  let j := Hex true (Conv [FPlus] WNone PNone Lhh) 171 : item (dbl A) in
  unsigned_ok gcc64 Ll 1234 /\ given (xmem (bs "%+ lu" ++ [0]) []) xfmt [i] /\ writable (xmem (bs "%+ lu" ++ [0]) []) xdst 5 /\ elsewhere xdst 5 xfmt [i]
  /\ unsigned_shown gcc64 (last (item_text i) 0) Ll 1234 = bs "1234"
  /\ seen (sprnf gcc64 A (xmem (bs "%+ lu" ++ [0]) []) xdst xfmt (arguments gcc64 [i])) 5 = Some (4, bs "1234" ++ [0])
  /\ unsigned_shown gcc64 (last (item_text j) 0) Lhh 171 = bs "AB"
  /\ seen (sprnf gcc64 A (xmem (bs "%+hhX" ++ [0]) []) xdst xfmt (arguments gcc64 [j])) 3 = Some (2, bs "AB" ++ [0]).
Proof.
  intros A. cbv zeta. split; [split; vm_compute; [discriminate|reflexivity]|]. split; [split; [apply bytes_atb_ok; vm_compute; reflexivity|repeat constructor]|].
  split; [apply xdst_writable; lia|]. split; [split; [left; discriminate|repeat constructor]|]. repeat split; vm_compute; reflexivity.
Qed.

(** With any width and precision: the text is the one without these flags. *)
Definition no_signs (c : conv) : conv :=
  Conv (filter (fun f => match f with FPlus | FSpace => false | _ => true end) (cv_flags c)) (cv_width c) (cv_prec c) (cv_len c).
Theorem C99_same_text_partial : forall cf A m dst n fmt (k : conv -> item (dbl A)) c v va, wf_cfg cf -> 0 <= n <= INT_MAX ->
  k = (fun c => Uns c v) \/ k = (fun c => Bin c v) \/ k = (fun c => Hex false c v) \/ k = (fun c => Hex true c v) ->
  plain_items cf [k c] -> let t := plain cf [k (no_signs c)] in Zlen t < INT_MAX ->
  let w := Z.min n (Zlen t + 1) in writable m dst w -> given m fmt [k c] -> elsewhere dst w fmt [k c] ->
  exists m', snprnf cf A m dst n fmt (arguments cf [k c] ++ va) = Ok (Zlen t, m') /\
    only_wrote m m' dst w /\ (0 < n -> bytes_at m' dst (firstn (Z.to_nat (n - 1)) t ++ [0])).
Proof.
  intros cf A m dst n fmt k c v va Wf Hn Hk Hp.
  assert (forall f, f <> FPlus -> f <> FSpace -> has_flag f (no_signs c) = has_flag f c) as Hf.
  { intros f N1 N2. unfold has_flag, no_signs. cbn [cv_flags]. induction (cv_flags c) as [|g l IH]; [reflexivity|]. cbn [filter existsb]. destruct f, g; cbn [existsb orb]; congruence. }
  assert (plain cf [k (no_signs c)] = plain cf [k c]) as ->; [|now apply C86_snprnf].
  unfold plain. destruct Hk as [->|[->|[->| ->]]]; cbn [printed item_out]; f_equal; unfold pad, left_aligned, int_fill; rewrite !Hf by discriminate; reflexivity.
Qed.
Print Assumptions C99_same_text_partial.
Example C99_same_text_ex : forall A, let i := Uns (Conv [FPlus; FZero] (WNum 6) PNone Lint) 42 : item (dbl A) in
  plain_items gcc64 [i] /\ given (xmem (bs "%+06u" ++ [0]) []) xfmt [i] /\ writable (xmem (bs "%+06u" ++ [0]) []) xdst 7 /\ elsewhere xdst 7 xfmt [i]
  /\ seen (snprnf gcc64 A (xmem (bs "%+06u" ++ [0]) []) xdst 20 xfmt (arguments gcc64 [i])) 7 = Some (6, bs "000042" ++ [0]).
Proof.
  intros A. cbv zeta. split; [items_check|]. split; [split; [apply bytes_atb_ok; vm_compute; reflexivity|repeat constructor]|].
  split; [apply xdst_writable; lia|]. split; [split; [left; discriminate|repeat constructor]|]. vm_compute. reflexivity.
Qed.

(** ** C101: a format that ends inside of a placeholder *)
(** The format string is that of some items, then a percent sign, flags, width, precision and length. *)
Lemma cut_format : forall D (a b : list (item D)) c, format (a ++ Other c 0 :: b) = format a ++ unfinished c ++ 0 :: format b.
Proof. intros D a b c. unfold format. rewrite map_app, concat_app. cbn [map concat item_text]. unfold conv_text, unfinished. cbn [app]. rewrite <- !app_assoc. reflexivity. Qed.
(** If its NUL is the last byte of its object, the object is read out of bounds. *)
Theorem C101_unfinished_refuted : forall cf A m n fmt (items : list (item (dbl A))) c va b, wf_cfg cf ->
  plain_items cf (items ++ [Other c 0]) -> Zlen (plain cf items) < INT_MAX -> Forall (item_mem m) items ->
  let f := format items ++ unfinished c in bytes_at m fmt (f ++ [0]) -> access m (p_obj fmt) = Ok b -> b_size b = p_ofs fmt + Zlen f + 1 ->
  snprnf cf A m null n fmt (arguments cf items ++ conv_args c ++ va) = UB UB_bounds.
Proof.
  intros cf A m n fmt items c va b Wf Hp Ht Hm f Hf Hb Hs. destruct (plain_fine cf A _ 0 Hp) as [P1 P2].
  assert (plain_items cf items) as Hq.
  { clear - Hp. unfold plain_items in *. induction items as [|i l IH]; [exact I|]. destruct Hp as (H1 & H2 & H3). fold (l ++ [Other (D := dbl A) c 0]) in *. split; auto. split; [now apply IH|].
    assert (hd 0 (format l) = hd 0 (format (l ++ [Other (D := dbl A) c 0])) \/ format l = []) as [->|El]; auto.
    { rewrite cut_format. destruct (format l); auto. }
    rewrite cut_format, El in H3. rewrite El. destruct i; auto. }
  destruct (plain_fine cf A items 0 Hq) as [P3 P4].
  assert (format (items ++ [Other c 0]) = f ++ [0]) as Ef by (rewrite cut_format; unfold f; rewrite <- app_assoc; reflexivity).
  assert (arguments cf (items ++ [Other c 0]) = arguments cf items ++ conv_args c) as Ea by (unfold arguments; rewrite map_app, concat_app; cbn [map concat item_args]; now rewrite app_nil_r).
  rewrite app_assoc, <- Ea. apply unfinished_ok; auto.
  - rewrite P4. exact Ht.
  - rewrite Ef. exact Hf.
  - rewrite Ef. exists b. split; auto. rewrite Zlen_app. change (Zlen [0]) with 1. lia.
Qed.
Print Assumptions C101_unfinished_refuted.
(** Otherwise the placeholder prints nothing and printing continues with the bytes behind the NUL. *)
Theorem C101_reads_on_refuted : forall cf A m dst fmt (a b : list (item (dbl A))) c va, wf_cfg cf ->
  let items := a ++ Other c 0 :: b in plain_items cf items -> Zlen (plain cf items) < INT_MAX ->
  bytes_at m fmt (format a ++ unfinished c ++ 0 :: format b ++ [0]) -> Forall (item_mem m) items ->
  writable m dst (Zlen (plain cf items) + 1) -> elsewhere dst (Zlen (plain cf items) + 1) fmt items ->
  exists m', sprnf cf A m dst fmt (arguments cf a ++ conv_args c ++ arguments cf b ++ va) = Ok (Zlen (plain cf (a ++ b)), m') /\
    bytes_at m' dst (plain cf (a ++ b) ++ [0]).
Proof.
  intros cf A m dst fmt a b c va Wf items Hp Ht Hf Hm Hw He.
  assert (plain cf items = plain cf (a ++ b)) as Et by (unfold plain, items; rewrite !printed_app; reflexivity).
  assert (arguments cf items = arguments cf a ++ conv_args c ++ arguments cf b) as Ea by (unfold arguments, items; rewrite map_app, concat_app; reflexivity).
  destruct (C87_sprnf cf A m dst fmt items va Wf Hp Ht Hw) as (m' & E & _ & B); auto.
  - split; auto. unfold items. rewrite cut_format, <- !app_assoc. exact Hf.
  - exists m'. rewrite Ea, <- !app_assoc in E. rewrite Et in *. auto.
Qed.
Print Assumptions C101_reads_on_refuted.
(** 50%-5 at the end of its object, and in front of other text. *)
Definition cut_mem (behind : list Z) : mem := xmem (bs "50%-5" ++ [0] ++ behind) [].
Definition cut_conv : conv := Conv [FMinus] (WNum 5) PNone Lint.
Example C101_unfinished_ex : forall A, let a := [Text (bs "50")] : list (item (dbl A)) in let b := [Text (bs "secret")] in
  plain_items gcc64 (a ++ [Other cut_conv 0]) /\ format a ++ unfinished cut_conv = bs "50%-5"
  /\ bytes_at (cut_mem []) xfmt ((format a ++ unfinished cut_conv) ++ [0])
  /\ (exists k, access (cut_mem []) (p_obj xfmt) = Ok k /\ b_size k = p_ofs xfmt + 5 + 1)
  /\ snprnf gcc64 A (cut_mem []) null 0 xfmt [] = UB UB_bounds
  /\ plain_items gcc64 (a ++ Other cut_conv 0 :: b)
  /\ bytes_at (cut_mem (bs "secret" ++ [0])) xfmt (format a ++ unfinished cut_conv ++ 0 :: format b ++ [0])
  /\ elsewhere xdst 9 xfmt (a ++ Other cut_conv 0 :: b)
  /\ seen (sprnf gcc64 A (cut_mem (bs "secret" ++ [0])) xdst xfmt []) 9 = Some (8, bs "50secret" ++ [0]).
Proof.
  intros A. cbv zeta. split; [items_check2|]. split; [vm_compute; reflexivity|]. split; [apply bytes_atb_ok; vm_compute; reflexivity|].
  split; [eexists; split; vm_compute; reflexivity|]. split; [vm_compute; reflexivity|]. split; [items_check2|].
  split; [apply bytes_atb_ok; vm_compute; reflexivity|]. split; [split; [left; discriminate|repeat constructor]|]. vm_compute. reflexivity.
Qed.

(** ** C102: the size is taken modulo 2^32, and a size from 2^31 on keeps nothing *)
Theorem C102_any_size : forall cf A m dst n fmt items va, wf_cfg cf -> plain_items cf items ->
  let k := n mod 2 ^ 32 in let keep := if k <=? INT_MAX then k else 1 in
  let t := plain cf items in let w := Z.min keep (Zlen t + 1) in Zlen t < INT_MAX ->
  writable m dst w -> given m fmt items -> elsewhere dst w fmt items ->
  exists m', snprnf cf A m dst n fmt (arguments cf items ++ va) = Ok (Zlen t, m') /\
    only_wrote m m' dst w /\ (0 < k -> bytes_at m' dst (firstn (Z.to_nat (keep - 1)) t ++ [0])).
Proof.
  intros cf A m dst n fmt items va Wf Hp. destruct (plain_fine cf A items 0 Hp) as [P1 P2]. cbv zeta. unfold plain. rewrite <- P2.
  intros Ht Hw [G1 G2] [E1 E2]. set (k := n mod 2 ^ 32) in *. set (t := printed cf (flt A) 0 items) in *.
  assert (Z.min (if k <=? INT_MAX then k else 1) (Zlen t + 1) = if k <=? INT_MAX then Z.min k (Zlen t + 1) else 1) as Ew.
  { pose proof (Zlen_nonneg t). destruct (k <=? INT_MAX); lia. }
  rewrite Ew in *. now apply any_size_ok.
Qed.
Print Assumptions C102_any_size.
(** The size 4294967300 is taken as 4, 2147483648 as 1. *)
Example C102_ex : forall A, plain_items gcc64 ([Text (bs "abcdef")] : list (item (dbl A))) /\ given (xmem (bs "abcdef" ++ [0]) []) xfmt ([Text (bs "abcdef")] : list (item (dbl A)))
  /\ writable (xmem (bs "abcdef" ++ [0]) []) xdst 4 /\ elsewhere xdst 4 xfmt ([Text (bs "abcdef")] : list (item (dbl A)))
  /\ 4294967300 mod 2 ^ 32 = 4 /\ seen (snprnf gcc64 A (xmem (bs "abcdef" ++ [0]) []) xdst 4294967300 xfmt []) 4 = Some (6, bs "abc" ++ [0])
  /\ 2147483648 mod 2 ^ 32 > INT_MAX /\ seen (snprnf gcc64 A (xmem (bs "abcdef" ++ [0]) []) xdst 2147483648 xfmt []) 1 = Some (6, [0]).
Proof.
  intros A. split; [items_check|]. split; [split; [apply bytes_atb_ok; vm_compute; reflexivity|repeat constructor]|]. split; [apply xdst_writable; lia|].
  split; [split; [left; discriminate|repeat constructor]|]. repeat split; vm_compute; reflexivity.
Qed.

(** ** C103: which bytes count as columns *)
(** What is behind the last line end. *)
Definition line_end (x : Z) : bool := (x =? 13) || (x =? 10).
Fixpoint last_line (l : list Z) : list Z :=
  match l with
  | [] => []
  | x :: t => if existsb line_end t then last_line t else if line_end x then t else x :: t
  end.
(** Bytes from 32 to 127, and those above where char is unsigned. *)
Definition columns (cf : cfg) (l : list Z) : Z :=
  Zlen (filter (fun x => (32 <=? x) && ((x <=? 127) || negb (c_char_signed cf))) (last_line l)).
Lemma after_columns : forall cf l, after cf 0 l = columns cf l.
Proof.
  intros cf. assert (forall l col, existsb line_end l = false -> after cf col l = col + Zlen (filter (counts cf) l)) as N.
  { induction l as [|x l IH]; intros col H; [change (Zlen (@nil Z)) with 0; unfold after; cbn [fold_left filter]; change (Zlen (@nil Z)) with 0; lia|].
    cbn [existsb] in H. apply orb_false_iff in H as [H1 H2]. unfold after. cbn [fold_left filter]. fold (after cf (step_col cf col x) l). rewrite IH by auto.
    unfold step_col. unfold line_end in H1. rewrite H1. destruct (counts cf x); [rewrite Zlen_cons; lia|lia]. }
  assert (forall l col, existsb line_end l = true -> after cf col l = Zlen (filter (counts cf) (last_line l))) as Y.
  { induction l as [|x l IH]; intros col H; [discriminate|]. cbn [last_line]. unfold after. cbn [fold_left]. fold (after cf (step_col cf col x) l).
    destruct (existsb line_end l) eqn:E; [now apply IH|]. cbn [existsb] in H. rewrite E, orb_false_r in H. rewrite H, N by auto. unfold step_col. unfold line_end in H. rewrite H. reflexivity. }
  assert (forall l, existsb line_end l = false -> last_line l = l) as L.
  { intros [|x l] H; [reflexivity|]. cbn [existsb last_line] in *. apply orb_false_iff in H as [-> ->]. reflexivity. }
  assert (forall l, filter (counts cf) l = filter (fun x => (32 <=? x) && ((x <=? 127) || negb (c_char_signed cf))) l) as Fe.
  { intros l. apply filter_ext. intros x. unfold counts. replace (x <? 128) with (x <=? 127); auto. destruct (Z.leb_spec x 127), (Z.ltb_spec x 128); auto; lia. }
  intros l. unfold columns. rewrite <- Fe. destruct (existsb line_end l) eqn:E; [now apply Y|]. rewrite N by auto. rewrite (L l E). lia.
Qed.
Theorem C103_columns_partial : forall cf A m dst fmt (pre post : list (item (dbl A))) n x va, wf_cfg cf ->
  let items := pre ++ Column n x :: post in plain_items cf items ->
  let at_ := columns cf (plain cf pre) in
  Zlen (plain cf items) < INT_MAX -> writable m dst (Zlen (plain cf items) + 1) -> given m fmt items ->
  elsewhere dst (Zlen (plain cf items) + 1) fmt items ->
  exists m' rest, sprnf cf A m dst fmt (arguments cf items ++ va) = Ok (Zlen (plain cf items), m') /\
    bytes_at m' dst (plain cf pre ++ copies x (n - at_) ++ rest ++ [0]) /\
    columns cf (plain cf pre ++ copies x (n - at_)) = Z.max n at_.
Proof.
  intros cf A m dst fmt pre post n x va Wf items Hp at_ Ht Hw Hg He.
  destruct (C87_sprnf cf A m dst fmt items va Wf Hp Ht Hw Hg He) as (m' & E & _ & B).
  assert (plain cf items = plain cf pre ++ copies x (n - at_) ++ printed cf (fun _ _ _ => []) (after cf at_ (copies x (n - at_))) post) as Et.
  { unfold plain at 1, items. rewrite printed_app. fold (plain cf pre). rewrite after_columns. reflexivity. }
  assert (counts cf x = true) as Hx.
  { clear - Hp. unfold plain_items, items in Hp. induction pre as [|i pre IH]; cbn [app items_ok] in Hp; [apply Hp|apply IH; apply Hp]. }
  eexists m', _. split; [exact E|]. rewrite Et, <- !app_assoc in B. split; [exact B|].
  rewrite <- after_columns, PrnfProofs3.after_app, after_columns. fold at_. rewrite after_visible by (apply copies_visible, Hx). rewrite copies_len.
  assert (0 <= at_) by apply Zlen_nonneg. lia.
Qed.
Print Assumptions C103_columns_partial.
(** An accented letter in UTF-8 (two bytes), a tab and a letter: one column where char is signed, three otherwise. *)
Example C103_columns_ex : forall A, let pre := [Text (bs "x" ++ [10; 195; 169; 9] ++ bs "a")] : list (item (dbl A)) in
  plain_items gcc64 (pre ++ [Column 4 46]) /\ columns gcc64 (plain gcc64 pre) = 1 /\ columns unsigned_char (plain unsigned_char pre) = 3
  /\ given (xmem (bs "x" ++ [10; 195; 169; 9] ++ bs "a" ++ [11] ++ bs "4." ++ [0]) []) xfmt (pre ++ [Column 4 46]) /\ elsewhere xdst 10 xfmt (pre ++ [Column 4 46])
  /\ seen (sprnf gcc64 A (xmem (bs "x" ++ [10; 195; 169; 9] ++ bs "a" ++ [11] ++ bs "4." ++ [0]) []) xdst xfmt []) 10 = Some (9, bs "x" ++ [10; 195; 169; 9] ++ bs "a..." ++ [0]).
Proof.
  intros A. cbv zeta. split; [items_check|]. split; [vm_compute; reflexivity|]. split; [vm_compute; reflexivity|].
  split; [split; [apply bytes_atb_ok; vm_compute; reflexivity|repeat constructor]|]. split; [split; [left; discriminate|repeat constructor]|]. vm_compute. reflexivity.
Qed.

(** ** C136: placeholders of unsupported types *)
(** They print nothing, and consume nothing but the arguments of their own stars. *)
Theorem C136_unsupported : forall cf A m dst n fmt (a b : list (item (dbl A))) c x va, wf_cfg cf -> 0 <= n <= INT_MAX ->
  let items := a ++ Other c x :: b in plain_items cf items -> let t := plain cf (a ++ b) in Zlen t < INT_MAX ->
  let w := Z.min n (Zlen t + 1) in writable m dst w -> given m fmt items -> elsewhere dst w fmt items ->
  exists m', snprnf cf A m dst n fmt (arguments cf a ++ conv_args c ++ arguments cf b ++ va) = Ok (Zlen t, m') /\
    only_wrote m m' dst w /\ (0 < n -> bytes_at m' dst (firstn (Z.to_nat (n - 1)) t ++ [0])).
Proof.
  intros cf A m dst n fmt a b c x va Wf Hn items Hp t Ht w Hw Hg He.
  assert (plain cf items = t) as Et by (unfold items, t, plain; rewrite !printed_app; reflexivity).
  assert (arguments cf items = arguments cf a ++ conv_args c ++ arguments cf b) as Ea by (unfold arguments, items; rewrite map_app, concat_app; reflexivity).
  pose proof (C86_snprnf cf A m dst n fmt items va Wf Hn Hp) as K. cbv zeta in K. rewrite Et, Ea, <- !app_assoc in K. apply K; auto.
Qed.
Print Assumptions C136_unsupported.
(** %p takes no argument; the next placeholder takes the pointer, %d of a pointer being undefined. *)
Definition p_mem : mem := xmem (bs "<%-8p|%d>" ++ [0]) [].
Example C136_ex : forall A, let a := [Text (bs "<")] : list (item (dbl A)) in let b := [Text (bs "|"); Dec false (Conv [] WNone PNone Lint) 7; Text (bs ">")] in
  let items := a ++ Other (Conv [FMinus] (WNum 8) PNone Lint) 112 :: b in
  plain_items gcc64 items /\ given p_mem xfmt items /\ plain gcc64 (a ++ b) = bs "<|7>" /\ writable p_mem xdst 5 /\ elsewhere xdst 5 xfmt items
  /\ seen (snprnf gcc64 A p_mem xdst 20 xfmt (arguments gcc64 b)) 5 = Some (4, bs "<|7>" ++ [0])
  /\ snprnf gcc64 A p_mem xdst 20 xfmt (AP xdst :: arguments gcc64 b) = UB UB_varg.
Proof.
  intros A. cbv zeta. split; [items_check2|]. split; [split; [apply bytes_atb_ok; vm_compute; reflexivity|repeat constructor]|].
  split; [vm_compute; reflexivity|]. split; [apply xdst_writable; lia|]. split; [split; [left; discriminate|repeat constructor]|]. split; vm_compute; reflexivity.
Qed.

(** ** C137: characters that do not fill columns *)
(** Followed by a control character, by the end of the format or (where char is signed) by a
    byte above 127, a column prints nothing; the character is printed as text. *)
Theorem C137_no_fill_partial : forall cf A m dst n fmt (a b : list (item (dbl A))) col va, wf_cfg cf -> 0 <= n <= INT_MAX ->
  let items := a ++ Bare col :: b in plain_items cf items -> let t := plain cf (a ++ b) in Zlen t < INT_MAX ->
  let w := Z.min n (Zlen t + 1) in writable m dst w -> given m fmt items -> elsewhere dst w fmt items ->
  exists m', snprnf cf A m dst n fmt (arguments cf (a ++ b) ++ va) = Ok (Zlen t, m') /\
    only_wrote m m' dst w /\ (0 < n -> bytes_at m' dst (firstn (Z.to_nat (n - 1)) t ++ [0])).
Proof.
  intros cf A m dst n fmt a b col va Wf Hn items Hp t Ht w Hw Hg He.
  assert (plain cf items = t) as Et by (unfold items, t, plain; rewrite !printed_app; reflexivity).
  assert (arguments cf items = arguments cf (a ++ b)) as Ea by (unfold arguments, items; rewrite !map_app, !concat_app; reflexivity).
  pose proof (C86_snprnf cf A m dst n fmt items va Wf Hn Hp) as K. cbv zeta in K. rewrite Et, Ea in K. apply K; auto.
Qed.
Print Assumptions C137_no_fill_partial.
Example C137_ex : forall A, let a := [Text (bs "ab")] : list (item (dbl A)) in let b := [Text ([9] ++ bs "c")] in let items := a ++ Bare 8 :: b in
  let m := xmem (bs "ab" ++ [11] ++ bs "8" ++ [9] ++ bs "c" ++ [0]) [] in
  plain_items gcc64 items /\ given m xfmt items /\ writable m xdst 5 /\ elsewhere xdst 5 xfmt items
  /\ seen (snprnf gcc64 A m xdst 20 xfmt []) 5 = Some (4, bs "ab" ++ [9] ++ bs "c" ++ [0]).
Proof.
  intros A. cbv zeta. split; [items_check|]. split; [split; [apply bytes_atb_ok; vm_compute; reflexivity|repeat constructor]|].
  split; [apply xdst_writable; lia|]. split; [split; [left; discriminate|repeat constructor]|]. vm_compute. reflexivity.
Qed.
(** The character used for padding is not always the first one behind the number: with a tab
    the text does not start on the column requested. *)
Theorem C137_any_fill_refuted : forall A, exists m (items : list (item (dbl A))), plain_items gcc64 items /\ given m xfmt items /\
  format items = bs "ab" ++ [11] ++ bs "8" ++ [9] ++ bs "c" /\ seen (snprnf gcc64 A m xdst 20 xfmt []) 5 = Some (4, bs "ab" ++ [9] ++ bs "c" ++ [0]).
Proof.
  intros A. exists (xmem (bs "ab" ++ [11] ++ bs "8" ++ [9] ++ bs "c" ++ [0]) []), [Text (bs "ab"); Bare 8; Text ([9] ++ bs "c")]. split; [items_check|].
  split; [split; [apply bytes_atb_ok; vm_compute; reflexivity|repeat constructor]|]. split; vm_compute; reflexivity.
Qed.
Print Assumptions C137_any_fill_refuted.
