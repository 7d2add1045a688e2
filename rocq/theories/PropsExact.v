(** Property theorems: the documented claims that fail, with every case in which they fail instead of one
    witness (C18, C20, C32, C33, C62 - C67, C71, C96, C98, C100). *)
From Coq Require Import String SpecFloat.
From Verif Require Import Base Mem Libc StrviewModel Spec MemLemmas StrviewProofs StrviewProofs3 StrnumModel NumSpec NumSpec2 FloatSpec StrnumProofs3 Alloc StrbufModel BufSpec
  StrbufProofs StrbufProofs2 PackModel PackSpec PrnfModel PrnfSpec PrnfSpec2 PrnfProofs PrnfPadProofs PrnfView ExactProofs ExactProofs2 StrictNum
  ExampleLib BufExample PropsView PropsNum PropsBuf PropsBuf2 PropsPrnf.
Local Open Scope string_scope.
Local Open Scope list_scope.
Local Open Scope Z_scope.

(** ** C18: the source is modified whenever it begins with the second half of a terminator *)
Theorem C18_pending_refuted : forall cf m s l e, has_view m s l -> e = 10 \/ e = 13 -> hd 0 l = other_eol e ->
  (forall x, In x (tl l) -> is_eol x = false) ->
  exists s', strview_split_line cf m (Some s) (Some e) = Ok (INVALID, Some s', Some e) /\ has_view m s' (tl l) /\ s' <> s.
Proof.
  intros cf m s l e Hv He Hh Hn.
  destruct (split_line_pending cf m s l e Hv) as (s' & E & V).
  - unfold pend_ok. tauto.
  - lia.
  - exact Hh.
  - destruct l as [|x l]; [destruct He as [-> | ->]; discriminate|]. cbn [hd tl] in *. subst x. unfold next_line.
    assert (until_eol l = None) as U.
    { clear -Hn. induction l as [|y l IH]; auto. cbn. rewrite (Hn y) by (cbn; auto). rewrite IH; auto. intros z Hz; apply Hn; cbn; auto. }
    destruct He as [-> | ->]; cbn; now rewrite U.
  - exists s'. split; auto. split; auto. intros ->. apply has_view_size in V. rewrite (has_view_size _ _ _ Hv) in V.
    destruct l as [|x l]; [destruct He as [-> | ->]; discriminate|]. cbn [tl] in V. rewrite Zlen_cons in V. lia.
Qed.
Print Assumptions C18_pending_refuted.
Example C18_pending_ex : has_view [blk 4096 (10 :: bs "abc")] (vw 0 0 4) (10 :: bs "abc") /\ hd 0 (10 :: bs "abc") = other_eol 13
  /\ strview_split_line gcc64 [blk 4096 (10 :: bs "abc")] (Some (vw 0 0 4)) (Some 13) = Ok (INVALID, Some (vw 0 1 3), Some 13).
Proof. split; [view_check|]. split; vm_compute; reflexivity. Qed.

(** ** C20: every text that begins and ends with the same character loses characters at both ends *)
Theorem C20_equal_ends_refuted : forall cf m v l, has_view m v l -> 1 < Zlen l -> hd 0 l = last l 0 ->
  exists k r, 0 < k /\ strview_dequote cf m v = Ok (subview v k (Zlen r)) /\ has_view m (subview v k (Zlen r)) r /\ Zlen r + 2 * k = Zlen l.
Proof. exact dequote_equal_ends. Qed.
Print Assumptions C20_equal_ends_refuted.
Example C20_equal_ex : has_view [blk 4096 (bs "arena")] (vw 0 0 5) (bs "arena") /\ hd 0 (bs "arena") = last (bs "arena") 0
  /\ strview_dequote gcc64 [blk 4096 (bs "arena")] (vw 0 0 5) = Ok (vw 0 1 3).
Proof. split; [view_check|]. split; vm_compute; reflexivity. Qed.

(** ** C32: every zero with an exponent whose power of ten is infinite is not a number *)
Theorem C32_infinite_power_refuted : forall prec emax pow10 cf m s l opt t, mem_wf m -> has_view m s l -> ctype_safe cf l ->
  read_float_exact opt l = FGood t -> ft_special t = NoSpecial ->
  Forall (fun c => c = 48) (ft_int t) -> Forall (fun c => c = 48) (ft_frac t) ->
  (exists a e, pow10 0 = S754_finite false a e) -> pow10 (ft_exp t) = S754_infinity false ->
  exists rest, strnum_consume_double cf (ieee prec emax pow10) m true (Some s) opt = Ok (Parsed NoErr (Some S754_nan) rest).
Proof. exact zero_times_infinity. Qed.
Print Assumptions C32_infinite_power_refuted.
Definition zm : mem := [blk 4096 (bs "-000.00e+999;")].
Example C32_infinite_ex : mem_wf zm /\ has_view zm (vw 0 0 13) (bs "-000.00e+999;")
  /\ read_float_exact 0 (bs "-000.00e+999;") = FGood (FloatText true NoSpecial (bs "000") (bs "00") 999 (bs ";")).
Proof. split; [wf_check|]. split; [view_check|]. vm_compute. reflexivity. Qed.

(** ** C33: strnum_consume_float writes through a NULL source for every format and every power function *)
Theorem C33_null_float_always_refuted : forall cf prec emax pow10 m dst opt, strnum_consume_float cf (ieee prec emax pow10) m dst None opt = UB UB_null.
Proof.
  intros cf prec emax pow10 m dst opt. unfold strnum_consume_float, finish_float, make_float. cbn [fc_special fc_int fc_frac fc_exp v_size INVALID].
  cbn. destruct (pow10 0) as [[|]|[|]| |[|]]; reflexivity.
Qed.
Print Assumptions C33_null_float_always_refuted.

(** ** C62: every search that does not succeed in a haystack at the start of its object *)
Theorem C62_not_found_refuted : forall cf m hay needle hl nl, c_ptr cf = false -> has_view m hay hl -> has_view m needle nl ->
  p_ofs (v_data hay) = 0 /\ (forall k, ~ occurs hl nl k) \/ p_ofs (v_data hay) < Zlen nl - Zlen hl ->
  strview_find_last cf m hay needle = UB UB_ptr.
Proof.
  intros cf m hay needle hl nl C H1 H2 H. apply (find_last_ub cf _ _ m hay needle hl nl C (memcmp_ok cf) H1 H2). now rewrite !map_id.
Qed.
Print Assumptions C62_not_found_refuted.
Theorem C62_not_found_nocase_refuted : forall cf m hay needle hl nl, c_ptr cf = false -> has_view m hay hl -> has_view m needle nl ->
  p_ofs (v_data hay) = 0 /\ (forall k, ~ occurs (map upper hl) (map upper nl) k) \/ p_ofs (v_data hay) < Zlen nl - Zlen hl ->
  strview_find_last_nocase cf m hay needle = UB UB_ptr.
Proof. intros cf m hay needle hl nl C H1 H2 H. exact (find_last_ub cf _ _ m hay needle hl nl C (memcmp_nocase_ok cf) H1 H2 H). Qed.
Print Assumptions C62_not_found_nocase_refuted.
(** Together with C62_*_partial: for views [hay] at the start of their object a search is defined if and only if it succeeds. *)
Theorem C62_at_start : forall cf m hay needle hl nl, c_ptr cf = false -> has_view m hay hl -> has_view m needle nl -> p_ofs (v_data hay) = 0 ->
  ((exists k, occurs hl nl k) <-> exists v, strview_find_last cf m hay needle = Ok v).
Proof.
  intros cf m hay needle hl nl C H1 H2 H0.
  assert (forall k, occurs hl nl k -> Zlen nl <= Zlen hl) as L.
  { intros k (a & b & -> & _). rewrite !Zlen_app. pose proof (Zlen_nonneg a). pose proof (Zlen_nonneg b). lia. }
  split.
  - intros [k K]. destruct (C62_find_last_strict_partial cf m hay needle hl nl H1 H2) as [(j & _ & E)|(_ & E)]; eauto.
    specialize (L k K). lia.
  - intros [v E]. destruct (Z_lt_ge_dec (Zlen hl) (Zlen nl)) as [G|G].
    + rewrite (C62_not_found_refuted cf m hay needle hl nl) in E; auto; [discriminate|]. right. lia.
    + assert (forall l n (f : nat -> Prop), (forall k, f k \/ ~ f k) -> (forall k, f k -> (k <= n)%nat) -> l = n -> (exists k, f k) \/ forall k, ~ f k) as Dec.
      { intros _ n f D B _. assert (forall j, (exists k, f k) \/ forall k, (k < j)%nat -> ~ f k) as K.
        { induction j as [|j [IH|IH]]; [right; lia|now left|]. destruct (D j) as [X|X]; [left; eauto|]. right. intros k Hk.
          destruct (Nat.eq_dec k j) as [-> |N]; auto. apply IH. lia. }
        destruct (K (S n)) as [X|X]; auto. right. intros k Fk. apply (X k); auto. specialize (B k Fk). lia. }
      destruct (Dec (length hl) (length hl) (occurs hl nl)) as [X|X]; auto.
      * intros k. destruct (le_dec (k + length nl) (length hl)) as [L1|L1]; [|right; intro X; apply occurs_iff in X; tauto].
        destruct (list_eq_dec Z.eq_dec (firstn (length nl) (skipn k hl)) nl) as [L2|L2]; [left; now apply occurs_iff|right; intro X; apply occurs_iff in X; tauto].
      * intros k (a & b & -> & <-). rewrite app_length. lia.
      * rewrite (C62_not_found_refuted cf m hay needle hl nl) in E; auto. discriminate.
Qed.
Print Assumptions C62_at_start.
Example C62_not_found_ex : has_view exm whole txt /\ p_ofs (v_data whole) = 0 /\ c_ptr iso64 = false
  /\ strview_find_last iso64 exm whole (vw 1 0 4) = UB UB_ptr /\ strview_find_last_nocase iso64 exm (vw 1 0 4) whole = UB UB_ptr.
Proof. split; [view_check|]. repeat (split; [reflexivity|]). vm_compute. reflexivity. Qed.

(** ** C63: every text at the start of its object *)
Theorem C63_at_start_refuted : forall cf m s p l dl exq, c_ptr cf = false -> has_view m s l -> c_string m p dl -> l <> [] -> p_ofs (v_data s) = 0 ->
  strview_split_last_delim cf m (Some s) p exq = UB UB_ptr.
Proof.
  intros cf m s p l dl exq C H Hp Hl H0. destruct (cstr_ok m p dl Hp) as [E V].
  unfold strview_split_last_delim. rewrite E; cbn [bind]. now rewrite (split_last_ub cf m s _ l dl exq C H V Hl H0).
Qed.
Print Assumptions C63_at_start_refuted.
Example C63_at_start_ex : has_view exm whole txt /\ p_ofs (v_data whole) = 0 /\ c_string exm (Ptr (PBlk 2) 0) (bs ",;").
Proof. split; [view_check|]. split; [reflexivity|cstr_check]. Qed.

(** ** C64: which texts a strict reading of isdigit() leaves undefined, for signed char *)
(** The digits are followed by a byte of 128..254, are not binary and did not overflow before: undefined.
    All other texts are parsed as on any other platform. *)
Theorem C64_strict_exact : forall cf m s l opt t f dst, c_char_signed cf = true -> c_ctype cf = false -> mem_wf m -> has_view m s l ->
  consumer cf t = Some f ->
  let i := read_int_exact (ty_signed t) opt l in
  let bad := it_base i <> 2 /\ num_val (it_base i) (it_digits i) <= ULLONG_MAX /\ exists h r, it_rest i = h :: r /\ 128 <= h <= 254 in
  (bad -> f m dst (Some s) opt = UB UB_ctype) /\
  (~ bad -> result_of dst s l (parse_int_exact (ty_signed t) opt (ty_lo cf t) (ty_hi cf t) l) (f m dst (Some s) opt)).
Proof. exact consumer_strict. Qed.
Print Assumptions C64_strict_exact.
Definition cm : mem := [blk 4096 (bs "0x1f" ++ [200]); blk 8192 (bs "99999999999999999999" ++ [200]); blk 12288 (bs "0b1" ++ [200]); blk 16384 (bs "12;" ++ [200])].
Example C64_strict_ex : mem_wf cm /\ has_view cm (vw 0 0 5) (bs "0x1f" ++ [200])
  /\ strnum_consume_int iso64 cm true (Some (vw 0 0 5)) 0 = UB UB_ctype
  /\ strnum_consume_int iso64 cm true (Some (vw 1 0 21)) 0 = Ok (Parsed ERANGE None None)
  /\ strnum_consume_int iso64 cm true (Some (vw 2 0 4)) 0 = Ok (Parsed NoErr (Some 1) (Some (vw 2 3 1)))
  /\ strnum_consume_int iso64 cm true (Some (vw 3 0 4)) 0 = Ok (Parsed NoErr (Some 12) (Some (vw 3 2 2))).
Proof. split; [wf_check|]. split; [view_check|]. repeat (split; [vm_compute; reflexivity|]). vm_compute. reflexivity. Qed.

(** ** C65: what the float parsers leave in the source: INVALID exactly after a special word at the end of the text *)
Theorem C65_float_exact : forall cf A m dst s l opt d s', mem_wf m -> has_view m s l -> ctype_safe cf l ->
  strnum_consume_double cf A m dst (Some s) opt = Ok (Parsed NoErr d (Some s')) ->
  exists t, read_float_exact opt l = FGood t /\
    (ft_special t <> NoSpecial /\ ft_rest t = [] /\ s' = INVALID \/
     (ft_special t = NoSpecial \/ ft_rest t <> []) /\ has_view m s' (ft_rest t)).
Proof. exact float_rest. Qed.
Print Assumptions C65_float_exact.
Example C65_float_ex : forall A, mem_wf numm /\ has_view numm (vw 5 0 4) (bs "-INF") /\ read_float_exact 0 (bs "-INF") = FGood (FloatText true SpInf [] [] 0 [])
  /\ exists d, strnum_consume_double gcc64 A numm true (Some (vw 5 0 4)) 0 = Ok (Parsed NoErr d (Some INVALID)).
Proof. intros A. split; [exact numm_wf|]. split; [view_check|]. split; [vm_compute; reflexivity|]. eexists. vm_compute. reflexivity. Qed.

(** ** C66: every view of another object *)
Theorem C66_other_object_refuted : forall cf w p B v i, c_ptr cf = false -> wf_cfg cf -> buf_at cf (s_mem w) p B -> p_obj (v_data v) <> p_obj p ->
  strbuf_append_strview cf w (Some p) v = UB UB_ptr /\ strbuf_prepend_strview cf w (Some p) v = UB UB_ptr /\
  strbuf_insert_at_index_strview cf w (Some p) i v = UB UB_ptr.
Proof.
  intros cf w p B v i C Wf H No. pose proof (buf_at_load cf _ p B Wf H) as L. pose proof (buf_at_nonnull _ _ _ _ H) as N.
  assert (forall j, insert_strview_into_buf cf w p j v = UB UB_ptr) as K.
  { intros j. unfold insert_strview_into_buf, buf_contains_str, ple, pdiff. rewrite C.
    destruct (pobj_eqb (p_obj (cstr_of cf p)) (p_obj (v_data v))) eqn:E; [|reflexivity].
    apply pobj_eqb_eq in E. cbn [cstr_of shift p_obj] in E. congruence. }
  unfold strbuf_append_strview, strbuf_prepend_strview, strbuf_insert_at_index_strview, on_buf. rewrite N. rewrite L. cbn [bind]. rewrite !K. auto.
Qed.
Print Assumptions C66_other_object_refuted.
Example C66_other_ex : ready iso64 w_move pfix b_fixed /\ p_obj (v_data wide) <> p_obj pfix /\ c_ptr iso64 = false.
Proof. split; [exact (conj gcc64_wf (conj xm_wf (conj move_ok pfix_ok)))|]. split; [discriminate|reflexivity]. Qed.

(** ** C67: the capacity is what was asked for *)
Theorem C67_create_exact : forall cf w dflt cap a, wf_cfg cf -> mem_wf (s_mem w) -> no_fail w ->
  is_dyn (chosen dflt a) = true -> 0 <= cap <= INT_MAX ->
  exists p w' h, strbuf_create_empty cf w dflt cap a = Ok (p, w') /\ load_hdr cf (s_mem w') p = Ok h /\ h_cap h = cap.
Proof.
  intros cf w dflt cap a Wf Wm Nf D Hc. destruct (C34_create_empty cf w dflt cap a Wf Wm Nf D Hc) as (b & w' & E & _ & Hb & _).
  exists (Ptr (PBlk b) 0), w'. eexists. split; [exact E|]. split; [exact (buf_at_load cf _ _ _ Wf Hb)|reflexivity].
Qed.
Print Assumptions C67_create_exact.
Theorem C67_grow_exact : forall cf w p B n, ready cf w p B -> dyn B = true -> bf_cap B < n <= INT_MAX ->
  exists v p' w' h, strbuf_grow cf w (Some p) n = Ok (v, Some p', w') /\ load_hdr cf (s_mem w') p' = Ok h /\ h_cap h = n.
Proof.
  intros cf w p B n R D Hn. destruct (C45_shrink_grow cf w p B n R) as [K _]; [lia|]. destruct (K D) as [_ (p' & w' & E & Hb & _)].
  do 4 eexists. split; [exact E|]. split; [exact (buf_at_load cf _ _ _ (proj1 R) Hb)|]. cbn. lia.
Qed.
Print Assumptions C67_grow_exact.
Example C67_exact_ex : ready gcc64 w_move pdyn b_hello /\ dyn b_hello = true /\ bf_cap b_hello < 33 <= INT_MAX /\ 33 mod c_step gcc64 <> 0 /\ is_dyn (chosen heapA None) = true.
Proof. split; [exact dyn_ready|]. split; [reflexivity|]. split; [cbn; unfold INT_MAX; lia|]. split; [discriminate|reflexivity]. Qed.

(** ** C71: every view that is shorter than the type and ends with its object *)
Theorem C71_end_of_object_refuted : forall cf o m t v l b, has_view m v l -> access m (p_obj (v_data v)) = Ok b -> b_size b = p_ofs (v_data v) + Zlen l ->
  8 * Zlen l < bits_of t -> STRVIEW_UNPACK cf o m t v = UB UB_bounds.
Proof.
  intros cf o m t v l b (Hb & _) Ha Hs Hl. unfold STRVIEW_UNPACK. rewrite (load_bytes_short m b (i_bytes t) l); auto.
  unfold Zlen, bits_of in Hl. unfold i_bytes. destruct t as [sg [| | |]]; cbn [i_width bytes_of] in *; lia.
Qed.
Print Assumptions C71_end_of_object_refuted.
Example C71_end_ex : has_view [blk 4096 (bs "x123456")] (vw 0 1 6) (bs "123456") /\ 8 * Zlen (bs "123456") < bits_of (Ity true W64)
  /\ STRVIEW_UNPACK gcc64 LE [blk 4096 (bs "x123456")] (Ity true W64) (vw 0 1 6) = UB UB_bounds.
Proof. split; [view_check|]. split; vm_compute; reflexivity. Qed.

(** ** C96: every number with a sign and zeros in front of it is read back as 0 *)
Theorem C96_zeros_before_sign_refuted : forall cf A m dst n fmt b c v x t f va, wf_cfg cf -> mem_wf m ->
  let i := Dec b c v in let sign := if v <? 0 then [45] else plus_sign (cv_flags c) in let k := Zlen (plain cf [i]) in
  plain_items cf [i] -> left_aligned c = false -> int_fill c = 48 -> sign = [x] -> Zlen (x :: dec_digits c (Z.abs v)) < width_of c ->
  consumer cf t = Some f ->
  k < n <= INT_MAX -> writable m dst (k + 1) -> given m fmt [i] -> elsewhere dst (k + 1) fmt [i] ->
  exists m' s', snprnf cf A m dst n fmt (arguments cf [i] ++ va) = Ok (k, m') /\
    f m' true (Some (View dst k)) 0 = Ok (Parsed NoErr (Some 0) (Some s')) /\ has_view m' s' (x :: dec_digits c (Z.abs v)).
Proof.
  intros cf A m dst n fmt b c v x t f va Wf Wm i sign k Hp Hl Hfi Hs Hwd Hf Hk Hw Hg He.
  destruct (printed_view cf A m dst n fmt [i] va Wf Wm Hp Hk Hw Hg He) as (m' & E & Wm' & V).
  assert (2 ^ 63 = 9223372036854775808 /\ 2 ^ 31 = 2147483648 /\ 2 ^ 64 = 18446744073709551616 /\ 2 ^ 32 = 4294967296) as (P1 & P2 & P3 & P4) by (vm_compute; auto).
  assert (0 <= Z.abs v < two64') as Hv.
  { unfold i in Hp. unfold two64'. destruct Hp as ((_ & [U _]) & _). unfold arg_bits in U; destruct (len_bytes cf (cv_len c) =? 8);
      cbn [Z.sub Z.add Z.opp Z.pos_sub Pos.pred_double Pos.sub Z.succ_double Z.pred_double] in U; rewrite ?P1, ?P2, ?P3, ?P4 in U; lia. }
  assert (plain cf [i] = pad c (int_fill c) ([x] ++ dec_digits c (Z.abs v))) as Et.
  { rewrite <- Hs. unfold plain, i, sign. cbn [printed]. rewrite app_nil_r. reflexivity. }
  assert (x = 43 \/ x = 45 \/ x = 32) as Hx.
  { unfold sign in Hs. destruct (v <? 0); [injection Hs as <-; auto|]. revert Hs. clear. induction (cv_flags c) as [|y l IH]; cbn [plus_sign]; [discriminate|].
    destruct (plus_sign l) as [|z r]; [|exact IH]. destruct y; intro Hs; try discriminate; injection Hs as <-; auto. }
  destruct (zeros_in_front c x (Z.abs v) Hv Hl Hfi Hx Hwd) as (j & Ep & F). change (Zlen (plain cf [i])) with k in V. rewrite Et, Ep in V.
  destruct (reads_zero cf t f m' (View dst k) j x (dec_digits c (Z.abs v)) Hf Wm' V) as (s' & Es & Vs).
  - right. right. eapply Forall_impl; [|exact F]. cbn; auto.
  - exact Hx.
  - exists m', s'. auto.
Qed.
Print Assumptions C96_zeros_before_sign_refuted.
Example C96_zeros_ex : forall A, let i := Dec false (Conv [FZero; FPlus] (WNum 9) PNone Lint) 42 : item (dbl A) in
  let m := xmem (bs "%0+9d" ++ [0]) [] in
  plain_items gcc64 [i] /\ plain gcc64 [i] = bs "000000+42" /\ given m xfmt [i] /\ elsewhere xdst 10 xfmt [i] /\ writable m xdst 10
  /\ left_aligned (Conv [FZero; FPlus] (WNum 9) PNone Lint) = false /\ int_fill (Conv [FZero; FPlus] (WNum 9) PNone Lint) = 48 /\ plus_sign [FZero; FPlus] = [43]
  /\ consumer gcc64 TUchar = Some (strnum_consume_uchar gcc64).
Proof.
  intros A. cbv zeta. split; [items_check|]. split; [vm_compute; reflexivity|].
  split; [split; [apply bytes_atb_ok; vm_compute; reflexivity|repeat constructor]|].
  split; [split; [left; discriminate|repeat constructor]|]. split; [apply xdst_writable; lia|]. repeat (split; [reflexivity|]). reflexivity.
Qed.

(** ** C98: every string without a NUL, whatever the precision *)
Theorem C98_unterminated_refuted : forall cf A m n fmt (items : list (item (dbl A))) c t q l b rest va, wf_cfg cf -> conv_ok c -> t = 115 \/ t = 83 ->
  bytes_at m q l -> ~ In 0 l -> access m (p_obj q) = Ok b -> b_size b = p_ofs q + Zlen l ->
  Zlen (plain cf items) < INT_MAX -> items_before cf (fun _ _ _ => False) 37 items -> Forall (item_mem m) items ->
  bytes_at m fmt (format items ++ conv_text c t ++ rest) ->
  snprnf cf A m null n fmt (arguments cf items ++ conv_args c ++ AP q :: va) = UB UB_bounds.
Proof. exact unterminated_ub. Qed.
Print Assumptions C98_unterminated_refuted.
Example C98_unterminated_ex : forall A, let m := xmem (bs "%5.*s|" ++ [0]) (bs "abc") in
  bytes_at m (Ptr (PBlk 2) 0) (bs "abc") /\ ~ In 0 (bs "abc")
  /\ bytes_at m xfmt (format ([] : list (item (dbl A))) ++ conv_text (Conv [] (WNum 5) (PStar 2) Lint) 115 ++ bs "|" ++ [0])
  /\ (exists b, access m (PBlk 2) = Ok b /\ b_size b = 3).
Proof.
  intros A. cbv zeta. split; [apply bytes_atb_ok; vm_compute; reflexivity|]. split; [cbn; intuition discriminate|].
  split; [apply bytes_atb_ok; vm_compute; reflexivity|]. eexists. split; vm_compute; reflexivity.
Qed.

(** ** C100: the most negative long, anywhere in a format *)
Theorem C100_anywhere_refuted : forall cf A m n fmt (items : list (item (dbl A))) c t rest va, wf_cfg cf -> c_wrapv cf = false -> conv_ok c -> t = 100 \/ t = 105 ->
  len_bytes cf (cv_len c) = 8 -> Zlen (plain cf items) < INT_MAX -> items_before cf (fun _ _ _ => False) 37 items -> Forall (item_mem m) items ->
  bytes_at m fmt (format items ++ conv_text c t ++ rest) ->
  snprnf cf A m null n fmt (arguments cf items ++ conv_args c ++ int_arg cf (cv_len c) LLONG_MIN :: va) = UB UB_overflow.
Proof. exact negation_ub. Qed.
Print Assumptions C100_anywhere_refuted.
Example C100_anywhere_ex : forall A, let m := xmem (bs "n=%+20lli;" ++ [0]) [] in
  bytes_at m xfmt (format ([Text (bs "n=")] : list (item (dbl A))) ++ conv_text (Conv [FPlus] (WNum 20) PNone Lll) 105 ++ bs ";" ++ [0])
  /\ items_before iso64 (fun _ _ _ => False) 37 [Text (bs "n=") : item (dbl A)] /\ len_bytes iso64 Lll = 8 /\ c_wrapv iso64 = false.
Proof.
  intros A. cbv zeta. split; [apply bytes_atb_ok; vm_compute; reflexivity|]. split; [|split; reflexivity].
  unfold items_before, item_ok, conv_ok; cbn -[Z.lt Z.le In counts]; repeat (split || constructor); cbv; try intuition discriminate; try reflexivity.
Qed.
