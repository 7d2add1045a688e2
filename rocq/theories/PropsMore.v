(** What does hold of properties that were refuted in general: strbuf (C49, C51, C69, C70)
    and prnf (C96, C99-C101). *)
From Coq Require Import String.
From Verif Require Import Base Mem Libc StrviewModel Spec MemLemmas StrviewProofs StrviewProofs3 StrnumModel NumSpec StrnumProofs3 Alloc StrbufModel BufSpec BufSpec2
  StrbufProofs StrbufProofs7 StrbufProofs10 PrnfModel PrnfSpec PrnfSpec2 PrnfProofs PrnfProofs9 PrnfPadProofs
  ExampleLib BufExample PropsNum PropsBuf PropsBuf2 PropsPrnf.
Local Open Scope string_scope.
Local Open Scope list_scope.
Local Open Scope Z_scope.

(** ** C49: stripping with text of the buffer itself *)
(** The set is not constant: deleting a character moves the text behind it, and with it the characters in the place
    of the set.  [strip_window] (BufSpec2.v) says exactly what is left. *)
Theorem C49_strip_own : forall cf w p B x l y, ready cf w p B -> bf_data B = x ++ l ++ y ->
  becomes_at cf w p B (strbuf_strip_strview cf w (Some p) (View (shift (chars_of cf p) (Zlen x)) (Zlen l)))
    (Buffer (strip_window (length x) (length l) [] (bf_data B) []) (bf_cap B) (bf_alloc B)).
Proof. intros cf w p B x l y (H1 & H2 & H3 & H4) E. destruct (strip_own_ok cf w p B x l y H1 H2 H3 H4 E) as (r & R & <-). exact R. Qed.
Print Assumptions C49_strip_own.
(** It is what the buffer held with some characters left out, and nothing remains from the place of the set on. *)
Theorem C49_loses_the_rest : forall x l y,
  subseq (strip_window (length x) (length l) [] (x ++ l ++ y) []) (x ++ l ++ y) /\
  (l <> [] -> (length (strip_window (length x) (length l) [] (x ++ l ++ y) []) <= length x)%nat) /\
  (l = [] -> strip_window (length x) (length l) [] (x ++ l ++ y) [] = x ++ l ++ y).
Proof.
  intros x l y. split; [apply strip_window_subseq|]. split.
  - intro Hl. apply (strip_window_short (length x) (length l) _ [] []); [destruct l; [congruence|cbn; lia]|cbn; lia].
  - intros ->. apply strip_window_empty.
Qed.
Print Assumptions C49_loses_the_rest.
(** If the text in front of the set has none of its characters, exactly that text remains: the result
    is right only if everything behind was to be deleted anyway. *)
Theorem C49_strip_own_partial : forall cf w p B x l y, ready cf w p B -> bf_data B = x ++ l ++ y -> l <> [] -> (forall c, In c x -> ~ In c l) ->
  becomes_at cf w p B (strbuf_strip_strview cf w (Some p) (View (shift (chars_of cf p) (Zlen x)) (Zlen l))) (Buffer x (bf_cap B) (bf_alloc B)) /\
  (without l (bf_data B) = x <-> (forall c, In c y -> In c l)).
Proof.
  intros cf w p B x l y R E Hl Hx. split.
  - pose proof (C49_strip_own cf w p B x l y R E) as K. rewrite E in K.
    change (length x) with (length (@nil Z) + length x)%nat in K. now rewrite strip_window_prefix in K.
  - rewrite E. unfold without. rewrite !filter_app.
    assert (filter (fun c => negb (existsb (Z.eqb c) l)) x = x) as ->.
    { clear -Hx. induction x as [|a x IH]; cbn [filter]; [reflexivity|]. destruct (existsb (Z.eqb a) l) eqn:Ea.
      - apply existsb_exists in Ea as (d & D1 & D2). apply Z.eqb_eq in D2. subst d. exfalso. apply (Hx a); [now left|exact D1].
      - cbn [negb]. rewrite IH; auto. intros c Hc. apply Hx. now right. }
    assert (forall u v, (forall c, In c u -> In c v) -> filter (fun c => negb (existsb (Z.eqb c) v)) u = []) as F.
    { intros u v. induction u as [|a u IH]; intro H; cbn [filter]; [reflexivity|]. assert (existsb (Z.eqb a) v = true) as -> by (apply existsb_exists; exists a; split; [apply H; now left|apply Z.eqb_refl]).
      cbn [negb]. apply IH. intros c Hc. apply H. now right. }
    rewrite (F l l) by auto. cbn [app]. split.
    + intros K c Hc. assert (filter (fun c => negb (existsb (Z.eqb c) l)) y = []) as Ky by (apply (app_inv_head x); now rewrite app_nil_r).
      destruct (existsb (Z.eqb c) l) eqn:Ec; [apply existsb_exists in Ec as (d & D1 & D2); apply Z.eqb_eq in D2; now subst d|].
      assert (In c (filter (fun c => negb (existsb (Z.eqb c) l)) y)) as A by (apply filter_In; split; [exact Hc|now rewrite Ec]). rewrite Ky in A. destruct A.
    + intro K. rewrite (F y l K). apply app_nil_r.
Qed.
Print Assumptions C49_strip_own_partial.
Example C49_partial_ex : ready gcc64 w_move pdyn b_hello /\ bf_data b_hello = bs "h" ++ bs "el" ++ bs "lo"
  /\ (forall c, In c (bs "h") -> ~ In c (bs "el"))
  /\ shows gcc64 (strbuf_strip_strview gcc64 w_move (Some pdyn) (vw 0 25 2)) = Some (Some (bs "h"), 8)
  /\ strip_window 1 2 [] (bs "hello") [] = bs "h" /\ without (bs "el") (bs "hello") = bs "ho"
  /\ strip_window 3 1 [] (bs "hello") [] = bs "hel".
Proof.
  split; [exact dyn_ready|]. split; [reflexivity|]. split; [|vm_compute; auto].
  intros c [<-|[]] [H|[H|[]]]; discriminate H.
Qed.

(** ** C51: a formatter error *)
(** Nothing but the size in the header changes, which drops by one; the allocator is not called. *)
Theorem C51_error_effect_partial : forall cf w p B, ready cf w p B ->
  exists b w', p_obj p = PBlk b /\
    strbuf_append_vprintf cf w (Some p) FmtError = Ok (View (chars_of cf p) (Zlen (bf_data B) - 1), Some p, w') /\
    load_hdr cf (s_mem w') p = Ok (Hdr (Zlen (bf_data B) - 1) (bf_cap B) (bf_alloc B)) /\
    frame (s_mem w) (s_mem w') b (p_ofs p) (p_ofs p + hdr_size cf) /\ s_orc w' = s_orc w.
Proof. intros cf w p B (H1 & H2 & H3 & H4). destruct (printf_error cf w p B H1 H2 H4) as (b & k & w' & E & _ & R). exists b, w'. auto. Qed.
Print Assumptions C51_error_effect_partial.
Example C51_partial_ex : ready gcc64 w_move pdyn b_hello.
Proof. exact dyn_ready. Qed.

(** ** C69: the size check in strict ISO C *)
Theorem C69_size_check_partial : forall cf w p B v l i, ready cf w p B -> comparable cf p v -> source cf (s_mem w) p B v l ->
  INT_MIN <= i <= INT_MAX -> Zlen (bf_data B) + Zlen l + c_step cf <= INT_MAX ->
  becomes cf w p B (strbuf_append_strview cf w (Some p) v) (put cf B (bf_data B ++ l)) /\
  becomes cf w p B (strbuf_prepend_strview cf w (Some p) v) (put cf B (l ++ bf_data B)) /\
  becomes cf w p B (strbuf_insert_at_index_strview cf w (Some p) i v) (put cf B (insert (bf_data B) i l)).
Proof.
  intros cf w p B v l i R Hc Hs Hi Hn. assert (sums_ok cf (Zlen (bf_data B) + Zlen l)) as S by (now right).
  split; [now apply C36_append|]. split; [now apply C36_prepend|now apply C36_insert_at_index].
Qed.
Print Assumptions C69_size_check_partial.
Example C69_partial_ex : ready nowrap w_move pdyn b_hello /\ c_wrapv nowrap = false /\ source nowrap (s_mem w_move) pdyn b_hello (vw 0 25 3) (bs "ell")
  /\ Zlen (bf_data b_hello) + Zlen (bs "ell") + c_step nowrap <= INT_MAX
  /\ shows nowrap (strbuf_append_strview nowrap w_move (Some pdyn) (vw 0 25 3)) = Some (Some (bs "helloell"), 8).
Proof.
  split; [exact dyn_ready|]. split; [reflexivity|].
  split; [exact (src_inside nowrap (s_mem w_move) pdyn b_hello (bs "h") (bs "ell") (bs "o") eq_refl)|].
  split; [vm_compute; discriminate|]. vm_compute. reflexivity.
Qed.

(** ** C70: allocators that fail *)
(** Any buffer of any world: growing it uses the NULL an allocator returns. *)
Theorem C70_growth_refuted : forall cf w p B v l, wf_cfg cf -> comparable cf p v -> mem_wf (s_mem w) -> buf_at cf (s_mem w) p B ->
  source cf (s_mem w) p B v l -> dyn B = true -> bf_cap B < Zlen (bf_data B) + Zlen l <= INT_MAX -> sums_ok cf (Zlen (bf_data B) + Zlen l) ->
  ch_fail (s_orc w O) = true -> strbuf_append_strview cf w (Some p) v = UB UB_null.
Proof. exact append_fails. Qed.
Print Assumptions C70_growth_refuted.
Theorem C70_creation_refuted : forall cf w dflt cap a, wf_cfg cf -> is_dyn (match a with Some a => a | None => dflt end) = true -> 0 <= cap <= INT_MAX ->
  ch_fail (s_orc w O) = true -> strbuf_create_empty cf w dflt cap a = UB UB_null.
Proof. exact create_fails. Qed.
Print Assumptions C70_creation_refuted.
(** An operation whose result fits, and every operation on a fixed buffer, does not call the
    allocator and is right whatever the allocator would have done. *)
Definition fits (B : buffer) (n : Z) : Prop := dyn B = false \/ n <= bf_cap B.
Theorem C70_no_call_partial : forall cf w p B v l i c, wf_cfg cf -> mem_wf (s_mem w) -> buf_at cf (s_mem w) p B ->
  comparable cf p v -> source cf (s_mem w) p B v l -> INT_MIN <= i <= INT_MAX -> is_byte c ->
  (sums_ok cf (Zlen (bf_data B) + Zlen l) -> fits B (Zlen (bf_data B) + Zlen l) ->
   becomes_alone cf w p B (strbuf_append_strview cf w (Some p) v) (put cf B (bf_data B ++ l)) /\
   becomes_alone cf w p B (strbuf_prepend_strview cf w (Some p) v) (put cf B (l ++ bf_data B)) /\
   becomes_alone cf w p B (strbuf_insert_at_index_strview cf w (Some p) i v) (put cf B (insert (bf_data B) i l))) /\
  (fits B (Zlen l) -> becomes_alone cf w p B (strbuf_assign cf w (Some p) v) (put cf B l)) /\
  (sums_ok cf (Zlen (bf_data B) + 1) -> fits B (Zlen (bf_data B) + 1) ->
   becomes_alone cf w p B (strbuf_append_char cf w (Some p) c) (put cf B (bf_data B ++ [c]))).
Proof.
  intros cf w p B v l i c W Wm HB Hc Hs Hi Hb. repeat apply conj; intros.
  - repeat apply conj; [now apply append_alone|now apply prepend_alone|now apply insert_alone].
  - now apply assign_alone.
  - now apply append_char_alone.
Qed.
Print Assumptions C70_no_call_partial.
Theorem C70_printf_no_call_partial : forall cf w p B l, wf_cfg cf -> mem_wf (s_mem w) -> buf_at cf (s_mem w) p B -> Forall is_byte l -> Zlen l <= INT_MAX ->
  sums_ok cf (Zlen (bf_data B) + Zlen l) -> fits B (Zlen (bf_data B) + Zlen l) ->
  becomes_alone cf w p B (strbuf_append_vprintf cf w (Some p) (FmtText l)) (put cf B (bf_data B ++ l)).
Proof. intros. now apply append_printf_alone. Qed.
Print Assumptions C70_printf_no_call_partial.
(** The allocator of this world always fails. *)
Example C70_partial_ex : ch_fail (s_orc w_fail O) = true /\ wf_cfg gcc64 /\ mem_wf (s_mem w_fail) /\ buf_at gcc64 (s_mem w_fail) pdyn b_hello
  /\ source gcc64 (s_mem w_fail) pdyn b_hello (vw 0 25 3) (bs "ell") /\ fits b_hello 8
  /\ shows gcc64 (strbuf_append_strview gcc64 w_fail (Some pdyn) (vw 0 25 3)) = Some (Some (bs "helloell"), 8)
  /\ strbuf_append_strview gcc64 w_fail (Some pdyn) (vw 0 24 5) = UB UB_null
  /\ shows gcc64 (strbuf_append_strview gcc64 w_fail (Some pfix) (vw 0 24 5)) = Some (Some [], 10).
Proof.
  split; [reflexivity|]. split; [exact gcc64_wf|]. split; [exact (proj1 (proj2 dyn_ready))|]. split; [exact pdyn_ok|]. split; [exact ell_src|].
  split; [right; vm_compute; discriminate|]. split; [vm_compute; reflexivity|]. split; vm_compute; reflexivity.
Qed.

(** ** C96: padded numbers are read back *)
(** Every conversion by d, i or u with any width, precision and flags, except zeros in front of
    a sign.  Only spaces are left over. *)
Theorem C96_padded_partial : forall cf A m dst n fmt (u b : bool) c v t f va, wf_cfg cf -> mem_wf m ->
  let i := if u then Uns c v else Dec b c v in
  let sign := if u then [] else if v <? 0 then [45] else plus_sign (cv_flags c) in
  let k := Zlen (plain cf [i]) in
  plain_items cf [i] -> left_aligned c = true \/ int_fill c = 32 \/ sign = [] ->
  consumer cf t = Some f -> ty_lo cf t <= v <= ty_hi cf t -> (sign = [43] -> ty_signed t = true) ->
  k < n <= INT_MAX -> writable m dst (k + 1) -> given m fmt [i] -> elsewhere dst (k + 1) fmt [i] ->
  exists m' s' r, snprnf cf A m dst n fmt (arguments cf [i] ++ va) = Ok (k, m') /\
    f m' true (Some (View dst k)) 0 = Ok (Parsed NoErr (Some v) (Some s')) /\ has_view m' s' (copies 32 r).
Proof.
  intros cf A m dst n fmt u b c v t f va Wf Wm i sign k Hp Hz Hf Hr Hs Hk Hw Hg He.
  destruct (printed_view cf A m dst n fmt [i] va Wf Wm Hp Hk Hw Hg He) as (m' & E & Wm' & V).
  assert (2 ^ 63 = 9223372036854775808 /\ 2 ^ 31 = 2147483648 /\ 2 ^ 64 = 18446744073709551616 /\ 2 ^ 32 = 4294967296) as (P1 & P2 & P3 & P4) by (vm_compute; auto).
  assert (0 <= Z.abs v < two64' /\ (u = true -> 0 <= v)) as [Hv Hu].
  { unfold i in Hp. unfold two64'. destruct u; destruct Hp as ((_ & U) & _); [unfold unsigned_ok in U|destruct U as [U _]]; unfold arg_bits in U; destruct (len_bytes cf (cv_len c) =? 8);
      cbn [Z.sub Z.add Z.opp Z.pos_sub Pos.pred_double Pos.sub Z.succ_double Z.pred_double] in U; rewrite ?P1, ?P2, ?P3, ?P4 in U; split; intros; try lia; discriminate. }
  assert (plain cf [i] = pad c (int_fill c) (sign ++ dec_digits c (Z.abs v))) as Et.
  { unfold plain, i, sign. cbn [printed]. rewrite app_nil_r. destruct u; cbn [item_out app]; [rewrite Z.abs_eq by auto|]; reflexivity. }
  assert (sign = [] \/ sign = [45] \/ sign = [43] \/ sign = [32]) as Hsg.
  { unfold sign. destruct u; auto. destruct (v <? 0); auto. clear. induction (cv_flags c) as [|x l IH]; cbn [plus_sign]; auto.
    destruct (plus_sign l) as [|y r]; [destruct x; auto|exact IH]. }
  destruct (pad_shape c sign (Z.abs v) Hv Hz Hsg) as (a & s' & ds & r & Ep & D1 & D2 & D3 & S1 & S2 & _).
  change (Zlen (plain cf [i])) with k in V. rewrite Et, Ep in V.
  assert (v < 0 -> sign = [45] /\ u = false) as Hneg.
  { intros L. unfold sign. destruct u; [specialize (Hu eq_refl); lia|]. rewrite (proj2 (Z.ltb_lt _ _)) by lia. auto. }
  assert (sign = [45] -> v < 0) as Hneg2.
  { unfold sign. destruct u; [discriminate|]. destruct (v <? 0) eqn:L; [intros _; now apply Z.ltb_lt|]. clear. intro X. exfalso.
    induction (cv_flags c) as [|x l IH]; cbn [plus_sign] in X; [discriminate|]. destruct (plus_sign l) as [|y q]; [destruct x; discriminate|auto]. }
  assert (v < 0 -> ty_signed t = true) as Hts.
  { intros L. unfold ty_lo in Hr. destruct t; cbn [ty_neg ty_signed] in Hr |- *; auto; lia. }
  assert (match s' with [45] => - num_val 10 ds | _ => num_val 10 ds end = v) as Ev.
  { rewrite D3. destruct (Z.lt_ge_cases v 0) as [L|L].
    - destruct (Hneg L) as [N _]. destruct S1 as [-> | [S1 _]]; [rewrite N; lia|rewrite N in S1; discriminate].
    - assert (s' <> [45]) as Ns by (intros X; subst s'; destruct S1 as [S1|[_ S1]]; [specialize (Hneg2 (eq_sym S1)); lia|discriminate]).
      destruct Hsg as [Q|[Q|[Q|Q]]]; destruct S1 as [S1|[S1 S1']]; try congruence; subst s'; try (rewrite Q in *); try lia; congruence. }
  destruct (reads_padded cf t f m' (View dst k) a s' ds r Hf Wm' V D1 D2) as (q & Eq & Vq).
  - destruct S1 as [-> | [_ ->]]; auto. destruct Hsg as [Q|[Q|[Q|Q]]]; auto; congruence.
  - rewrite Ev. exact Hr.
  - rewrite Ev in Eq. exists m', q, r. auto.
Qed.
Print Assumptions C96_padded_partial.
Example C96_partial_ex : forall A,
  let i := Dec false (Conv [FZero] (WNum 7) PNone Lint) 42 : item (dbl A) in
  let j := Dec false (Conv [FPlus] (WNum 7) (PNum 4) Lint) 42 : item (dbl A) in
  plain_items gcc64 [i] /\ plain gcc64 [i] = bs "0000042" /\ given (xmem (bs "%07d" ++ [0]) []) xfmt [i]
  /\ plain_items gcc64 [j] /\ plain gcc64 [j] = bs "  +0042" /\ int_fill (Conv [FPlus] (WNum 7) (PNum 4) Lint) = 32
  /\ elsewhere xdst 8 xfmt [i] /\ writable (xmem (bs "%07d" ++ [0]) []) xdst 8.
Proof.
  intros A. cbv zeta. split; [items_check|]. split; [vm_compute; reflexivity|].
  split; [split; [apply bytes_atb_ok; vm_compute; reflexivity|repeat constructor]|]. split; [items_check|]. split; [vm_compute; reflexivity|]. split; [reflexivity|].
  split; [split; [left; discriminate|repeat constructor]|]. apply xdst_writable. lia.
Qed.

(** ** C99: plus and space for signed conversions *)
Theorem C99_signed_partial : forall cf A m dst fmt b fl s l v va, wf_cfg cf -> 0 <= v -> signed_ok cf l v -> plus_sign fl = [s] ->
  let i := Dec b (Conv fl WNone PNone l) v : item (dbl A) in let t := s :: show 10 v in
  writable m dst (Zlen t + 1) -> given m fmt [i] -> elsewhere dst (Zlen t + 1) fmt [i] ->
  exists m', sprnf cf A m dst fmt (arguments cf [i] ++ va) = Ok (Zlen t, m') /\ bytes_at m' dst (t ++ [0]) /\ (s = 43 \/ s = 32).
Proof.
  intros cf A m dst fmt b fl s l v va Wf H0 Hv Hs i t Hw Hg He.
  assert (plain cf [i] = t) as Et.
  { unfold plain, i, t. cbn [printed]. rewrite app_nil_r. cbn [item_out cv_flags]. rewrite Hs, (proj2 (Z.ltb_ge _ _)) by lia.
    rewrite pad_none by reflexivity. unfold dec_digits. cbn [prec_of cv_prec app]. now rewrite Z.abs_eq. }
  assert (plain_items cf [i]) as Hp by (unfold i; cbn; repeat split; try exact I; apply Hv).
  assert (Zlen t < INT_MAX) as Hl.
  { unfold t. rewrite Zlen_cons. destruct (show10_facts v) as (_ & _ & _ & B); [|unfold INT_MAX; lia].
    destruct Hv as [U _]. unfold arg_bits, two64' in *. destruct (len_bytes cf l =? 8); cbn in U; lia. }
  destruct (C87_sprnf cf A m dst fmt [i] va Wf Hp) as (m' & E & _ & Bt); rewrite ?Et; auto. rewrite Et in *.
  exists m'. split; auto. split; auto. clear - Hs. revert s Hs. induction fl as [|x fl IH]; cbn [plus_sign]; intros s Hs; [discriminate|].
  destruct (plus_sign fl) as [|y q]; [destruct x; try discriminate; injection Hs as <-; auto|]. now apply IH.
Qed.
Print Assumptions C99_signed_partial.
Example C99_partial_ex : forall A, let i := Dec false (Conv [FMinus; FPlus] WNone PNone Ll) 1234 : item (dbl A) in
  given (xmem (bs "%-+ld" ++ [0]) []) xfmt [i] /\ plus_sign [FMinus; FPlus] = [43]
  /\ seen (sprnf gcc64 A (xmem (bs "%-+ld" ++ [0]) []) xdst xfmt (arguments gcc64 [i])) 6 = Some (5, bs "+1234" ++ [0]).
Proof. intros A. cbv zeta. split; [split; [apply bytes_atb_ok; vm_compute; reflexivity|repeat constructor]|]. split; vm_compute; reflexivity. Qed.

(** ** C100: every other integer, in strict ISO C *)
Theorem C100_others_partial : forall cf A m dst fmt b l v va, wf_cfg cf -> - 2 ^ (arg_bits cf l - 1) <= v < 2 ^ (arg_bits cf l - 1) -> v <> LLONG_MIN ->
  let i := Dec b (bare l) v : item (dbl A) in let t := show_signed 10 v in
  writable m dst (Zlen t + 1) -> given m fmt [i] -> elsewhere dst (Zlen t + 1) fmt [i] ->
  exists m', sprnf cf A m dst fmt (arguments cf [i] ++ va) = Ok (Zlen t, m') /\ bytes_at m' dst (t ++ [0]).
Proof.
  intros cf A m dst fmt b l v va Wf Hv Hn i t Hw Hg He.
  assert (plain cf [i] = t) as Et by (apply plain_dec).
  assert (plain_items cf [i]) as Hp by (unfold i; cbn; repeat split; try exact I; [apply Hv|apply Hv|auto]).
  assert (Zlen t < INT_MAX) as Hl.
  { unfold t, show_signed. assert (0 <= Z.abs v < two64') as B by (unfold arg_bits, two64' in *; destruct (len_bytes cf l =? 8); cbn in Hv; lia).
    destruct (Z.ltb_spec v 0).
    - rewrite Z.abs_neq in B by lia. destruct (show10_facts _ B) as (_ & _ & _ & L). rewrite Zlen_cons. unfold INT_MAX. lia.
    - rewrite Z.abs_eq in B by lia. destruct (show10_facts _ B) as (_ & _ & _ & L). unfold INT_MAX. lia. }
  destruct (C87_sprnf cf A m dst fmt [i] va Wf Hp) as (m' & E & _ & Bt); rewrite ?Et; auto. rewrite Et in *. eauto.
Qed.
Print Assumptions C100_others_partial.
Example C100_partial_ex : forall A, let i := Dec false (bare Ll) (- 2 ^ 63 + 1) : item (dbl A) in
  given (xmem (bs "%ld" ++ [0]) []) xfmt [i] /\ - 2 ^ (arg_bits iso64 Ll - 1) <= - 2 ^ 63 + 1
  /\ seen (sprnf iso64 A (xmem (bs "%ld" ++ [0]) []) xdst xfmt (arguments iso64 [i])) 21 = Some (20, bs "-9223372036854775807" ++ [0]).
Proof. intros A. cbv zeta. split; [split; [apply bytes_atb_ok; vm_compute; reflexivity|repeat constructor]|]. split; vm_compute; [discriminate|reflexivity]. Qed.

(** ** C101: complete formats are read up to their NUL and no further *)
(** Nothing is assumed of the memory after the NUL, which may be the last byte of its object. *)
Theorem C101_complete_partial : forall cf A m fmt items va, wf_cfg cf -> plain_items cf items -> Zlen (plain cf items) < INT_MAX ->
  c_string m fmt (format items) -> Forall (item_mem m) items ->
  exists k, snprnf cf A m null 0 fmt (arguments cf items ++ va) = Ok (k, m).
Proof.
  intros cf A m fmt items va Wf Hp Hl Hs Hm. eexists. apply C89_measure; auto. split; auto. apply Hs.
Qed.
Print Assumptions C101_complete_partial.
Example C101_partial_ex : forall A, plain_items gcc64 [Text (bs "100"); Percent : item (dbl A)] /\ c_string (xmem (bs "100%%" ++ [0]) []) xfmt (format [Text (bs "100"); Percent : item (dbl A)])
  /\ snprnf gcc64 A (xmem (bs "100%%" ++ [0]) []) null 0 xfmt [] = Ok (4, xmem (bs "100%%" ++ [0]) []).
Proof. intros A. split; [items_check|]. split; [cstr_check|]. vm_compute. reflexivity. Qed.
