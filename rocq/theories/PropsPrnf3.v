(** Property theorems about prnf, continued: the meaning of all format strings (C138) and the
    precisions that binary and hexadecimal numbers do not support (C97), views as arguments (C139). *)
From Coq Require Import String.
From Verif Require Import Base Mem Libc StrviewModel Spec MemLemmas NumSpec PrnfModel PrnfSpec PrnfSpec2 PrnfFormat PrnfFormat2 PrnfView BufSpec StrbufProofs StrbufProofs2 PrnfProofs4 PrnfProofs5
  ExampleLib BufExample PropsBuf PropsBuf2 PropsPrnf PropsPrnf2.
Local Open Scope string_scope.
Local Open Scope list_scope.
Local Open Scope Z_scope.

(** ** C138: every format string *)
(** A sequence of the items whose meaning C86 - C107 and C136 tell, for suitable arguments, possibly followed by
    a placeholder without a type, a number beyond INT_MAX or an unsupported number of digits. *)
Theorem C138_every_format : forall cf (D : Type) (d0 : D) f, Forall (fun x => 0 < x < 256) f ->
  exists (items : list (item D)) tail, f = format items ++ tail /\
    items_before cf (fun _ _ _ => True) (hd 0 tail) items /\ (forall m, Forall (item_mem m) items) /\
    (tail = [] \/ (exists c, conv_ok c /\ tail = unfinished c) \/ overflows tail \/ bad_digits tail).
Proof. intros cf D d0 f H. exact (every_format cf D d0 f H). Qed.
Print Assumptions C138_every_format.
(** Leading zeros, length modifiers in a wrong order and flags in a wrong place. *)
Example C138_every_ex :
  let a := [ColumnZ 2 8 46; Dec false (Conv [] WNone (PNumZ 1 5) Lint) 0; Other (Conv [] WNone PNone Lh) 108; Text (bs "d"); Other (Conv [] (WNum 5) PNone Lint) 45; Text (bs "d")] : list (item Z) in
  format a = [11] ++ bs "008.%.05d%hld%5-d" /\ items_before gcc64 (fun _ _ _ => True) 0 a
  /\ overflows ([11] ++ bs "002147483648.") /\ overflows (bs "%- 2147483648d") /\ overflows (bs "%*.99999999999d")
  /\ bad_digits (bs "%.017lX") /\ bad_digits (bs "%-8.o").
Proof.
  cbv zeta. split; [reflexivity|]. split.
  { unfold item_ok, conv_ok, meaningless; cbn -[Z.lt Z.le In counts]. repeat (split || constructor); cbv; try intuition discriminate; try reflexivity. }
  assert (forall l, Forall (fun x => digit x = true) l -> forall r, INT_MAX < num_val 10 l -> huge (l ++ r)) as Hu by (intros l F r G; exists l, r; auto).
  split; [left; exists (bs "002147483648."); split; [reflexivity|]; apply (Hu (bs "002147483648") ltac:(repeat constructor) (bs ".")); reflexivity|].
  split; [right; left; exists [FMinus; FSpace], (bs "2147483648d"); split; [reflexivity|]; split; [apply (Hu (bs "2147483648") ltac:(repeat constructor) (bs "d")); reflexivity|discriminate]|].
  split; [right; right; exists [], (WStar 0), (bs "99999999999d"); split; [reflexivity|]; split; [unfold INT_MAX; lia|]; apply (Hu (bs "99999999999") ltac:(repeat constructor) (bs "d")); reflexivity|].
  split.
  - exists (Conv [] WNone (PNumZ 1 17) Ll), 88, [], 17. split; [reflexivity|]. split; [split; cbn; unfold INT_MAX; lia|]. split; [reflexivity|]. split; [discriminate|]. left. split; [auto|lia].
  - exists (Conv [FMinus] (WNum 8) PDot Lint), 111, [], 0. split; [reflexivity|]. split; [split; cbn; unfold INT_MAX; lia|]. split; [reflexivity|]. split; [discriminate|]. right. split; [auto|lia].
Qed.

(** Numbers beyond INT_MAX are undefined behaviour, wherever they are in the format (where signed overflow is). *)
Theorem C138_too_big_refuted : forall cf A m n fmt (items : list (item (dbl A))) b rest va, wf_cfg cf -> c_wrapv cf = false -> overflows b ->
  Zlen (plain cf items) < INT_MAX -> items_before cf (fun _ _ _ => False) (hd 0 b) items -> Forall (item_mem m) items -> bytes_at m fmt (format items ++ b ++ rest) ->
  snprnf cf A m null n fmt (arguments cf items ++ va) = UB UB_overflow.
Proof. intros cf A. exact (overflow_ub cf A). Qed.
Print Assumptions C138_too_big_refuted.
Example C138_too_big_ex : forall A, let a := [Text (bs "x="); Uns (Conv [] (WNum 5) PNone Lint) 7] : list (item (dbl A)) in
  let f := bs "x=%5u%-2147483648d" ++ [0] in
  wf_cfg nowrap /\ c_wrapv nowrap = false /\ overflows (bs "%-2147483648d") /\ Zlen (plain nowrap a) = 7 /\ items_before nowrap (fun _ _ _ => False) 37 a
  /\ Forall (item_mem (xmem f [])) a /\ bytes_at (xmem f []) xfmt (format a ++ bs "%-2147483648d" ++ [0])
  /\ snprnf nowrap A (xmem f []) null 0 xfmt [A32 7; A32 1] = UB UB_overflow
  /\ snprnf nowrap A (xmem (bs "%-2147483647d" ++ [0]) []) null 0 xfmt [] = UB UB_varg.
Proof.
  intros A. cbv zeta. split; [split; [cbn; lia|auto]|]. split; [reflexivity|].
  split; [right; left; exists [FMinus], (bs "2147483648d"); split; [reflexivity|]; split; [exists (bs "2147483648"), (bs "d"); split; [reflexivity|]; split; [repeat constructor|reflexivity]|discriminate]|].
  split; [reflexivity|]. split; [unfold items_before, item_ok, conv_ok; cbn -[Z.lt Z.le In counts]; repeat (split || constructor); cbv; try intuition discriminate; try reflexivity; try (left; reflexivity)|]. split; [repeat constructor|]. split; [apply bytes_atb_ok; vm_compute; reflexivity|]. split; vm_compute; reflexivity.
Qed.

(** ** C97: unsupported numbers of digits are undefined behaviour in every format *)
(** %x takes the precision modulo 64. *)
Theorem C97_unsupported_refuted : forall cf A m n fmt (items : list (item (dbl A))) c t p v rest va, wf_cfg cf -> conv_ok c -> prec_of c = Some p ->
  ((t = 120 \/ t = 88) /\ ~ 1 <= p mod 64 <= 16 /\ INT_MIN <= p * 4 <= INT_MAX \/ t = 111 /\ ~ 1 <= p <= 64) ->
  Zlen (plain cf items) + width_of c - Z.min 0 p < INT_MAX -> items_before cf (fun _ _ _ => False) 37 items -> Forall (item_mem m) items ->
  bytes_at m fmt (format items ++ conv_text c t ++ rest) -> unsigned_ok cf (cv_len c) v ->
  snprnf cf A m null n fmt (arguments cf items ++ conv_args c ++ int_arg cf (cv_len c) v :: va) = UB UB_shift.
Proof. intros cf A. exact (digits_ub cf A). Qed.
Print Assumptions C97_unsupported_refuted.
Example C97_unsupported_ex : forall A, let a := [Text (bs "x=")] : list (item (dbl A)) in let c := Conv [FMinus] (WNum 8) (PStar 80) Ll in let d := Conv [FMinus] (WNum 8) (PStar 81) Ll in
  let f := bs "x=%-8.*lx" ++ [0] in
  conv_ok d /\ prec_of d = Some 81 /\ ~ 1 <= 81 mod 64 <= 16 /\ Zlen (plain gcc64 a) + width_of d = 10 /\ items_before gcc64 (fun _ _ _ => False) 37 a
  /\ Forall (item_mem (xmem f [])) a /\ bytes_at (xmem f []) xfmt (format a ++ conv_text d 120 ++ [0]) /\ unsigned_ok gcc64 Ll 5
  /\ snprnf gcc64 A (xmem f []) null 0 xfmt (conv_args d ++ [int_arg gcc64 Ll 5]) = UB UB_shift
  /\ seen (snprnf gcc64 A (xmem f []) xdst 40 xfmt (conv_args c ++ [int_arg gcc64 Ll 5])) 19 = Some (18, bs "x=0000000000000005" ++ [0]).
Proof.
  intros A. cbv zeta. split; [split; cbn; unfold INT_MIN, INT_MAX; lia|]. split; [reflexivity|]. split; [vm_compute; intuition discriminate|]. split; [reflexivity|].
  split; [unfold items_before, item_ok, conv_ok; cbn -[Z.lt Z.le In counts]; repeat (split || constructor); cbv; try intuition discriminate; try reflexivity|]. split; [repeat constructor|]. split; [apply bytes_atb_ok; vm_compute; reflexivity|]. split; [split; vm_compute; [discriminate|reflexivity]|].
  split; vm_compute; reflexivity.
Qed.

(** ** C139: views as arguments *)
(** strview.h:36, 49: the placeholder %.*s with the size and the address of the view. *)
Definition view_place : list Z := bs "%.*s".
Definition view_args {D} (v : view) : list (arg D) := [A32 (v_size v mod 2 ^ 32); AP (v_data v)].
(** The characters [l] of a view (none of an invalid one) that [r] and a NUL follow in memory. *)
Definition followed (m : mem) (v : view) (l r : list Z) : Prop := v_size v = Zlen l /\ string_arg m (v_data v) (l ++ r).
(** Prints as if the characters of the view were in the format, if a NUL follows somewhere behind the view. *)
Lemma view_item : forall cf A (a b : list (item (dbl A))) m v l r, wf_cfg cf -> followed m v l r ->
  plain_items cf (a ++ Percent :: b) -> Forall (item_mem m) (a ++ b) -> exists i : item (dbl A), i = Str false (Conv [] WNone (PStar (Zlen l)) Lint) (v_data v) (l ++ r) /\
  plain_items cf (a ++ i :: b) /\ Forall (item_mem m) (a ++ i :: b) /\ format (a ++ i :: b) = format a ++ view_place ++ format b /\
  plain cf (a ++ i :: b) = plain cf (a ++ Text l :: b) /\ arguments cf (a ++ i :: b) = arguments cf a ++ view_args v ++ arguments cf b.
Proof.
  intros cf A a b m v l r Wf (V2 & Hs) O1 O2. pose proof (Zlen_nonneg l) as Zl.
  assert (Zlen l <= INT_MAX) as V3 by (destruct Hs as [[_ E]|(_ & _ & _ & L)]; [destruct l; [cbn; unfold INT_MAX; lia|discriminate E]|rewrite Zlen_app in L; pose proof (Zlen_nonneg r); lia]).
  eexists. split; [reflexivity|]. set (i := Str _ _ _ _).
  split; [|split; [|split; [|split]]].
  - assert (item_ok cf (fun (_ : bool) (_ : conv) (_ : dbl A) => False) i) as Hi by (unfold i; cbn [item_ok]; unfold conv_ok, trim_ok, INT_MIN, INT_MAX in *; cbn [cv_width cv_prec prec_of]; split; [lia|right; lia]). clear - O1 Hi. unfold plain_items in *.
    induction a as [|x a IH]; cbn [app] in *.
    + destruct O1 as (_ & O1 & _). cbn [items_ok]. split; [exact Hi|]. split; [exact O1|]. exact Logic.I.
    + destruct O1 as (O1 & O2 & O3). fold (a ++ Percent (D := dbl A) :: b) in *. split; auto. split; [now apply IH|].
      assert (hd 0 (format (a ++ i :: b)) = hd 0 (format (a ++ Percent :: b))) as Eh by (unfold format; rewrite !map_app, !concat_app; destruct (concat (map item_text a)); reflexivity).
      fold (a ++ i :: b). rewrite Eh. exact O3.
  - apply Forall_app in O2 as [O2 O3]. apply Forall_app. split; [exact O2|]. constructor; [exact Hs|exact O3].
  - unfold format. rewrite map_app, concat_app. reflexivity.
  - assert (forall col, item_out cf (fun _ _ _ => []) col i = l) as Eo.
    { intros col. unfold i. cbn [item_out]. unfold str_text, centred. cbn [cv_prec andb]. rewrite PrnfProofs9.pad_none by reflexivity. unfold str_body. cbn [prec_of cv_prec].
      destruct (Z.ltb_spec (Zlen l) 0); [lia|]. unfold Zlen. rewrite Nat2Z.id, firstn_app, firstn_all, Nat.sub_diag. apply app_nil_r. }
    unfold plain. rewrite !PrnfProofs9.printed_app. f_equal. cbn [printed]. now rewrite Eo.
  - unfold arguments. rewrite map_app, concat_app. cbn [map concat]. unfold view_args. rewrite V2. reflexivity.
Qed.
Theorem C139_view_partial : forall cf A m dst n fmt (a b : list (item (dbl A))) v l r va, wf_cfg cf -> 0 <= n <= INT_MAX ->
  followed m v l r -> plain_items cf (a ++ Percent :: b) -> Forall (item_mem m) (a ++ b) ->
  let t := plain cf (a ++ Text l :: b) in Zlen t < INT_MAX -> let w := Z.min n (Zlen t + 1) in
  let f := format a ++ view_place ++ format b in bytes_at m fmt (f ++ [0]) -> writable m dst w ->
  clear_of dst w fmt (Zlen f + 1) -> (v = INVALID \/ clear_of dst w (v_data v) (Zlen (l ++ r) + 1)) -> Forall (item_clear dst w) (a ++ b) ->
  exists m', snprnf cf A m dst n fmt (arguments cf a ++ view_args v ++ arguments cf b ++ va) = Ok (Zlen t, m') /\
    only_wrote m m' dst w /\ (0 < n -> bytes_at m' dst (firstn (Z.to_nat (n - 1)) t ++ [0])).
Proof.
  intros cf A m dst n fmt a b v l r va Wf Hn Hv O1 O2 t Ht w f Hf Hw C1 C2 C3.
  destruct (view_item cf A a b m v l r Wf Hv O1 O2) as (i & Ei & Hp & Hm & Ef & Et & Ea). fold t in Et. fold f in Ef.
  destruct (C86_snprnf cf A m dst n fmt (a ++ i :: b) va Wf Hn Hp) as (m' & E & F & B); rewrite ?Et; auto.
  - split; [now rewrite Ef|exact Hm].
  - split; [now rewrite Ef|]. apply Forall_app in C3 as [C3 C4]. apply Forall_app. split; auto. constructor; auto. rewrite Ei. destruct C2 as [E|C2]; [left; now rewrite E|right; exact C2].
  - rewrite Et in *. rewrite Ea, <- !app_assoc in E. eauto.
Qed.
Print Assumptions C139_view_partial.
(** Every part of a buffer is followed by a NUL. *)
Theorem C139_buffer_partial : forall cf A m n fmt (a b : list (item (dbl A))) p B x l y va, wf_cfg cf ->
  buf_at cf m p B -> bf_data B = x ++ l ++ y -> ~ In 0 l -> let v := View (shift (chars_of cf p) (Zlen x)) (Zlen l) in
  plain_items cf (a ++ Percent :: b) -> Forall (item_mem m) (a ++ b) ->
  let t := plain cf (a ++ Text l :: b) in Zlen t < INT_MAX -> bytes_at m fmt ((format a ++ view_place ++ format b) ++ [0]) ->
  snprnf cf A m null n fmt (arguments cf a ++ view_args v ++ arguments cf b ++ va) = Ok (Zlen t, m).
Proof.
  intros cf A m n fmt a b p B x l y va Wf HB Ed Hn v O1 O2 t Ht Hf. destruct (buf_at_cap _ _ _ _ HB) as [Hc Fl]. rewrite Ed in Hc, Fl.
  pose proof (buf_at_bytes cf m p B Wf HB) as Hb. rewrite Ed, <- !app_assoc in Hb. apply bytes_at_app in Hb as [_ Hb].
  apply Forall_app in Fl as [_ Fl]. apply Forall_app in Fl as [Fl Fy]. rewrite !Zlen_app in Hc. pose proof (Zlen_nonneg x). pose proof (Zlen_nonneg y). pose proof (Zlen_nonneg l).
  destruct (upto_nul (y ++ [0])) as (r & z & Er & Nr); [apply in_or_app; right; now left|].
  assert (Zlen r + Zlen z = Zlen y) as Lr by (apply (f_equal Zlen) in Er; rewrite !Zlen_app, !Zlen_cons in Er; change (Zlen (@nil Z)) with 0 in Er; lia). pose proof (Zlen_nonneg z). pose proof (Zlen_nonneg r).
  assert (followed m v l r) as Hv.
  { split; [reflexivity|]. right. split; [|split; [|split]].
    - rewrite Er in Hb. change (0 :: z) with ([0] ++ z) in Hb. rewrite !app_assoc in Hb. apply bytes_at_app in Hb as [Hb _]. exact Hb.
    - apply Forall_app. split; auto. assert (Forall is_byte (y ++ [0])) as Fz by (apply Forall_app; split; auto; repeat constructor; unfold is_byte; lia). rewrite Er in Fz. now apply Forall_app in Fz.
    - intros X. apply in_app_or in X as [X|X]; auto.
    - rewrite Zlen_app. lia. }
  destruct (view_item cf A a b m v l r Wf Hv O1 O2) as (i & Ei & Hp & Hm & Ef & Et & Ea). fold t in Et.
  pose proof (C89_measure cf A m n fmt (a ++ i :: b) va Wf Hp) as Q. rewrite Et, Ea, <- !app_assoc in Q. apply Q; auto. split; [now rewrite Ef|exact Hm].
Qed.
Print Assumptions C139_buffer_partial.
(** A view at the end of its object that is not followed by a NUL is read out of bounds, whatever its size. *)
Theorem C139_unterminated_refuted : forall cf A m n fmt (items : list (item (dbl A))) v l r b rest va, wf_cfg cf ->
  has_view m v l -> bytes_at m (v_data v) (l ++ r) -> ~ In 0 (l ++ r) -> access m (p_obj (v_data v)) = Ok b -> b_size b = p_ofs (v_data v) + Zlen (l ++ r) ->
  Zlen (plain cf items) < INT_MAX -> items_before cf (fun _ _ _ => False) 37 items -> Forall (item_mem m) items ->
  bytes_at m fmt (format items ++ view_place ++ rest) ->
  snprnf cf A m null n fmt (arguments cf items ++ view_args v ++ va) = UB UB_bounds.
Proof.
  intros cf A m n fmt items v l r b rest va Wf (V1 & V2 & V3 & V4) Hb Hn Ha Hs Ht Hi Hm Hf. pose proof (Zlen_nonneg l).
  set (c := Conv [] WNone (PStar (Zlen l)) Lint). pose proof (unterminated_ub cf A m n fmt items c 115 (v_data v) (l ++ r) b rest va Wf) as U.
  unfold view_args. rewrite V2. apply U; auto. unfold c, conv_ok. cbn [cv_width cv_prec]. unfold INT_MIN, INT_MAX in *. lia.
Qed.
Print Assumptions C139_unterminated_refuted.
(** The word "quick" in the middle of a string; without a NUL behind it. *)
Definition view_mem (s : list Z) : mem := xmem (bs "<%.*s|%u>" ++ [0]) s.
Definition quick : view := View (Ptr (PBlk 2) 4) 5.
Example C139_ex : forall A, let a := [Text (bs "<")] : list (item (dbl A)) in let b := [Text (bs "|"); Uns (Conv [] WNone PNone Lint) 7; Text (bs ">")] in let m := view_mem (bs "the quick fox" ++ [0]) in
  followed m quick (bs "quick") (bs " fox") /\ plain_items gcc64 (a ++ Percent :: b) /\ Forall (item_mem m) (a ++ b)
  /\ plain gcc64 (a ++ Text (bs "quick") :: b) = bs "<quick|7>" /\ bytes_at m xfmt ((format a ++ view_place ++ format b) ++ [0])
  /\ writable m xdst 10 /\ clear_of xdst 10 xfmt 10 /\ clear_of xdst 10 (v_data quick) 10 /\ Forall (item_clear xdst 10) (a ++ b)
  /\ seen (snprnf gcc64 A m xdst 40 xfmt (view_args quick ++ [A32 7])) 10 = Some (9, bs "<quick|7>" ++ [0])
  /\ seen (snprnf gcc64 A m xdst 40 xfmt (view_args INVALID ++ [A32 7])) 5 = Some (4, bs "<|7>" ++ [0])
  /\ (let u := view_mem (bs "the quick") in has_view u quick (bs "quick") /\ bytes_at u (v_data quick) (bs "quick" ++ []) /\ ~ In 0 (bs "quick" ++ [])
      /\ (exists k, access u (p_obj (v_data quick)) = Ok k /\ b_size k = p_ofs (v_data quick) + 5) /\ items_before gcc64 (fun _ _ _ => False) 37 a
      /\ bytes_at u xfmt (format a ++ view_place ++ bs "|%u>" ++ [0]) /\ snprnf gcc64 A u null 0 xfmt (view_args quick ++ [A32 7]) = UB UB_bounds).
Proof.
  intros A. cbv zeta. split; [split; [reflexivity|]; right; cstr_check|]. split; [items_check|]. split; [repeat constructor|]. split; [vm_compute; reflexivity|].
  split; [apply bytes_atb_ok; vm_compute; reflexivity|]. split; [apply xdst_writable; lia|]. split; [left; discriminate|]. split; [left; discriminate|]. split; [repeat constructor|].
  split; [vm_compute; reflexivity|]. split; [vm_compute; reflexivity|]. split; [view_check|]. split; [apply bytes_atb_ok; vm_compute; reflexivity|].
  split; [vm_compute; intuition discriminate|]. split; [eexists; split; [reflexivity|reflexivity]|]. split; [cbn; repeat (split || constructor); discriminate|].
  split; [apply bytes_atb_ok; vm_compute; reflexivity|]. vm_compute. reflexivity.
Qed.
Example C139_buffer_ex : forall A, let a := [] : list (item (dbl A)) in
  buf_at gcc64 (Alloc.s_mem w_move) pdyn b_hello /\ bf_data b_hello = bs "h" ++ bs "ell" ++ bs "o" /\ ~ In 0 (bs "ell") /\ plain_items gcc64 (a ++ Percent :: a).
Proof. intros A. cbv zeta. split; [apply PropsBuf.dyn_ready|]. split; [reflexivity|]. split; [vm_compute; intuition discriminate|]. cbn. auto. Qed.
