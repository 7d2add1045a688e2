(** Property theorems about formatted output by prnf (C86-C103), formats without floating
    point.  With floating point: PropsPrnfIeee. *)
From Coq Require Import String.
From Verif Require Import Base Mem Libc StrviewModel Spec MemLemmas StrviewProofs StrviewProofs3 StrnumModel NumSpec StrnumProofs3 Alloc StrbufModel BufSpec
  StrbufProofs StrbufProofs7 CryptProofs3 PrnfModel PrnfSpec PrnfSpec2 PrnfBufModel PrnfProofs4 PrnfProofs5 PrnfProofs6 PrnfProofs9
  ExampleLib BufExample PropsNum PropsBuf PropsBuf2.
Local Open Scope string_scope.
Local Open Scope list_scope.
Local Open Scope Z_scope.

(** The functions on memory. *)
Notation snprnf cf A := (vsnprnf cf A mem mid mwr).
Notation sprnf cf A := (vsprnf cf A mem mid mwr).
Notation snappf cf A := (snappf cf A mem mid mwr).

(** The format string and the strings to print are in memory, *)
Definition given {D} (m : mem) (fmt : ptr) (items : list (item D)) : Prop :=
  bytes_at m fmt (format items ++ [0]) /\ Forall (item_mem m) items.
(** and not among the [w] bytes at [dst]. *)
Definition elsewhere {D} (dst : ptr) (w : Z) (fmt : ptr) (items : list (item D)) : Prop :=
  clear_of dst w fmt (Zlen (format items) + 1) /\ Forall (item_clear dst w) items.

(** A row of a table. *)
Definition row {D} : list (item D) :=
  [ Text (bs "id"); Dec false (Conv [FPlus] (WNum 6) PNone Lint) (-42); Column 12 46;
    Str false (Conv [FMinus] (WNum 6) (PNum 3) Lint) (Ptr (PBlk 2) 0) (bs "abcdef");
    Hex true (Conv [] WNone (PStar 4) Ll) 48879; Percent; Uns (Conv [FZero] (WStar 4) PNone Lint) 7 ].
Definition row_text : list Z := bs "id   -42....abc   BEEF%0007".
Definition xdst : ptr := Ptr (PBlk 0) 0.
Definition xfmt : ptr := Ptr (PBlk 1) 0.
Definition xmem (fmt s : list Z) : mem := [Block 4096 64 true Static (fun _ => CUndef); blk 8192 fmt; blk 12288 s].
Definition row_mem : mem := xmem (bs "id%+6d" ++ [11] ++ bs "12.%-6.3s%.*lX%%%0*u" ++ [0]) (bs "abcdef" ++ [0]).
Lemma row_format : forall D, format (@row D) = bs "id%+6d" ++ [11] ++ bs "12.%-6.3s%.*lX%%%0*u".
Proof. intros D. vm_compute. reflexivity. Qed.
Lemma row_plain : forall D, plain gcc64 (@row D) = row_text.
Proof. intros D. vm_compute. reflexivity. Qed.
Ltac each_item t := repeat (apply Forall_cons; [first [exact I|right; t]|]); apply Forall_nil.
Ltac items_check :=
  vm_compute; repeat split; try discriminate;
  try (repeat (apply Forall_cons; [repeat split; discriminate|]); apply Forall_nil); try (left; reflexivity); try (right; first [exact I | discriminate]).
Lemma row_ok : forall D, plain_items gcc64 (@row D).
Proof.
  intros D. items_check.
Qed.
Lemma row_given : forall D, given row_mem xfmt (@row D).
Proof.
  intros D. split; [rewrite row_format; apply bytes_atb_ok; vm_compute; reflexivity|].
  each_item cstr_check.
Qed.
Lemma row_elsewhere : forall D n, elsewhere xdst n xfmt (@row D).
Proof. intros D n. split; [left; discriminate|]. each_item ltac:(left; discriminate). Qed.
Lemma xdst_writable : forall f s n, 0 <= n <= 64 -> writable (xmem f s) xdst n.
Proof. intros f s n H. exists 0%nat, (Block 4096 64 true Static (fun _ => CUndef)). repeat split; cbn; lia. Qed.
(** Return value and the first characters stored. *)
Definition seen (o : outcome (Z * mem)) (n : Z) : option (Z * list Z) :=
  match o with
  | Ok (k, m) => match load_bytes m xdst (Z.to_nat n) with Ok l => Some (k, l) | _ => None end
  | _ => None
  end.

(** ** C86 *)
Theorem C86_snprnf : forall cf A m dst n fmt items va, wf_cfg cf -> 0 <= n <= INT_MAX -> plain_items cf items ->
  let t := plain cf items in let w := Z.min n (Zlen t + 1) in Zlen t < INT_MAX ->
  writable m dst w -> given m fmt items -> elsewhere dst w fmt items ->
  exists m', snprnf cf A m dst n fmt (arguments cf items ++ va) = Ok (Zlen t, m') /\
    only_wrote m m' dst w /\ (0 < n -> bytes_at m' dst (firstn (Z.to_nat (n - 1)) t ++ [0])).
Proof.
  intros cf A m dst n fmt items va Wf Hn Hp. destruct (plain_fine cf A items 0 Hp) as [P1 P2]. cbv zeta. unfold plain. rewrite <- P2.
  intros Ht Hw [G1 G2] [E1 E2]. now apply vsnprnf_ok.
Qed.
Print Assumptions C86_snprnf.
Example C86_ex : forall A, wf_cfg gcc64 /\ plain_items gcc64 (@row (dbl A)) /\ plain gcc64 (@row (dbl A)) = row_text
  /\ writable row_mem xdst (Z.min 20 (Zlen row_text + 1)) /\ given row_mem xfmt (@row (dbl A)) /\ elsewhere xdst (Z.min 20 (Zlen row_text + 1)) xfmt (@row (dbl A))
  /\ seen (snprnf gcc64 A row_mem xdst 20 xfmt (arguments gcc64 row)) 20 = Some (27, bs "id   -42....abc   B" ++ [0]).
Proof.
  intros A. split; [exact gcc64_wf|]. split; [apply row_ok|]. split; [apply row_plain|]. split; [apply xdst_writable; vm_compute; split; discriminate|].
  split; [apply row_given|]. split; [apply row_elsewhere|vm_compute; reflexivity].
Qed.

(** ** C87 *)
Theorem C87_sprnf : forall cf A m dst fmt items va, wf_cfg cf -> plain_items cf items ->
  let t := plain cf items in Zlen t < INT_MAX ->
  writable m dst (Zlen t + 1) -> given m fmt items -> elsewhere dst (Zlen t + 1) fmt items ->
  exists m', sprnf cf A m dst fmt (arguments cf items ++ va) = Ok (Zlen t, m') /\
    only_wrote m m' dst (Zlen t + 1) /\ bytes_at m' dst (t ++ [0]).
Proof.
  intros cf A m dst fmt items va Wf Hp. destruct (plain_fine cf A items 0 Hp) as [P1 P2]. cbv zeta. unfold plain. rewrite <- P2.
  intros Ht Hw [G1 G2] [E1 E2]. now apply vsprnf_ok.
Qed.
Print Assumptions C87_sprnf.
Example C87_ex : forall A, plain_items gcc64 (@row (dbl A)) /\ writable row_mem xdst (Zlen row_text + 1) /\ given row_mem xfmt (@row (dbl A))
  /\ elsewhere xdst (Zlen row_text + 1) xfmt (@row (dbl A))
  /\ seen (sprnf gcc64 A row_mem xdst xfmt (arguments gcc64 row)) 28 = Some (27, row_text ++ [0]).
Proof.
  intros A. split; [apply row_ok|]. split; [apply xdst_writable; vm_compute; split; discriminate|].
  split; [apply row_given|]. split; [apply row_elsewhere|vm_compute; reflexivity].
Qed.

(** ** C88 *)
Theorem C88_snappf : forall cf A m dst n l0 fmt items va, wf_cfg cf -> 0 < n <= INT_MAX -> c_string m dst l0 -> Zlen l0 < n ->
  plain_items cf items ->
  let t := plain cf items in let at_ := shift dst (Zlen l0) in let room := n - Zlen l0 in
  let w := Z.min room (Zlen t + 1) in Zlen t < INT_MAX ->
  writable m at_ w -> given m fmt items -> elsewhere at_ w fmt items ->
  exists m', snappf cf A m dst n fmt (arguments cf items ++ va) = Ok (Zlen t, m') /\
    only_wrote m m' at_ w /\ bytes_at m' dst (l0 ++ firstn (Z.to_nat (room - 1)) t ++ [0]).
Proof.
  intros cf A m dst n l0 fmt items va Wf Hn Hs Hl Hp. destruct (plain_fine cf A items 0 Hp) as [P1 P2]. cbv zeta. unfold plain. rewrite <- P2.
  intros Ht Hw [G1 G2] [E1 E2]. now apply snappf_ok.
Qed.
Print Assumptions C88_snappf.
(** A string is appended to twice; the second time there is no room. *)
Definition app_mem : mem :=
  [Block 4096 64 true Static (fun i => CByte (nth (Z.to_nat i) (bs "abc" ++ [0]) 0)); blk 8192 (bs "%s" ++ [0]); blk 12288 (bs "wxyz" ++ [0])].
Example C88_ex : forall A, c_string app_mem xdst (bs "abc")
  /\ plain_items gcc64 ([Str false (Conv [] WNone PNone Lint) (Ptr (PBlk 2) 0) (bs "wxyz")] : list (item (dbl A)))
  /\ writable app_mem (shift xdst 3) 3
  /\ seen (snappf gcc64 A app_mem xdst 6 xfmt [AP (Ptr (PBlk 2) 0)]) 6 = Some (4, bs "abcwx" ++ [0])
  /\ seen (snappf gcc64 A app_mem xdst 8 xfmt [AP (Ptr (PBlk 2) 0)]) 8 = Some (4, bs "abcwxyz" ++ [0]).
Proof.
  intros A. split; [cstr_check|]. split; [items_check|].
  split; [exists 0%nat; eexists; repeat split; discriminate|]. split; vm_compute; reflexivity.
Qed.

(** ** C89: measuring first *)
Theorem C89_measure : forall cf A m n fmt items va, wf_cfg cf -> plain_items cf items ->
  let t := plain cf items in Zlen t < INT_MAX -> given m fmt items ->
  snprnf cf A m null n fmt (arguments cf items ++ va) = Ok (Zlen t, m).
Proof.
  intros cf A m n fmt items va Wf Hp. destruct (plain_fine cf A items 0 Hp) as [P1 P2]. cbv zeta. unfold plain. rewrite <- P2.
  intros Ht [G1 G2]. now apply to_null_ok.
Qed.
Print Assumptions C89_measure.
(** An array one larger than measured holds all of the text. *)
Theorem C89_enough : forall cf A m dst fmt items va k m1, wf_cfg cf -> plain_items cf items ->
  Zlen (plain cf items) < INT_MAX -> given m fmt items ->
  snprnf cf A m null 0 fmt (arguments cf items ++ va) = Ok (k, m1) -> k < INT_MAX ->
  writable m dst (k + 1) -> elsewhere dst (k + 1) fmt items ->
  m1 = m /\ exists m', snprnf cf A m dst (k + 1) fmt (arguments cf items ++ va) = Ok (k, m') /\ bytes_at m' dst (plain cf items ++ [0]).
Proof.
  intros cf A m dst fmt items va k m1 Wf Hp Ht G E Hk Hw He. rewrite C89_measure in E by auto. injection E as <- <-. split; auto.
  pose proof (Zlen_nonneg (plain cf items)) as Z0. set (t := plain cf items) in *.
  destruct (C86_snprnf cf A m dst (Zlen t + 1) fmt items va) as (m' & E & _ & B); fold t; rewrite ?Z.min_id; auto; [lia|].
  exists m'. split; auto. fold t in B. rewrite firstn_all2 in B by (unfold Zlen; lia). apply B. lia.
Qed.
Print Assumptions C89_enough.
Example C89_ex : forall A, plain_items gcc64 (@row (dbl A)) /\ given row_mem xfmt (@row (dbl A))
  /\ snprnf gcc64 A row_mem null 0 xfmt (arguments gcc64 row) = Ok (27, row_mem)
  /\ writable row_mem xdst 28 /\ elsewhere xdst 28 xfmt (@row (dbl A)).
Proof.
  intros A. split; [apply row_ok|]. split; [apply row_given|]. split; [vm_compute; reflexivity|].
  split; [apply xdst_writable; lia|apply row_elsewhere].
Qed.

(** ** C90: a handler of single characters; [J] is what the handler keeps intact *)
Theorem C90_handler : forall cf A W (rd : W -> mem) wr fn (J : W -> Prop) s fmt items va, wf_cfg cf ->
  (forall s c s', J s -> fn s c = Ok s' -> J s') -> (forall s, J s -> given (rd s) fmt items) -> J s ->
  plain_items cf items -> Zlen (plain cf items) < INT_MAX ->
  vfptrprnf cf A W rd wr (Some fn) s fmt (arguments cf items ++ va) =
    let! s := feed fn s (plain cf items) in Ok (Zlen (plain cf items), s).
Proof.
  intros cf A W rd wr fn J s fmt items va Wf Hj Hg Hs Hp Ht. destruct (plain_fine cf A items 0 Hp) as [P1 P2].
  unfold plain in *. rewrite <- P2 in *. apply fptr_feed with (J := J); auto.
Qed.
Print Assumptions C90_handler.
(** The handler keeps a log. *)
Definition log_char (s : list Z) (c : Z) : outcome (list Z) := Ok (s ++ [c]).
Example C90_ex : forall A, plain_items gcc64 (@row (dbl A))
  /\ vfptrprnf gcc64 A (list Z) (fun _ => row_mem) (fun s _ => s) (Some log_char) (bs ">") xfmt (arguments gcc64 row) = Ok (27, bs ">" ++ row_text)
  /\ feed log_char (bs ">") row_text = Ok (bs ">" ++ row_text).
Proof. intros A. split; [apply row_ok|]. split; vm_compute; reflexivity. Qed.

(** ** C91: integers printed and read back *)
Definition bare (l : len) : conv := Conv [] WNone PNone l.
Lemma printed_view : forall cf A m dst n fmt (items : list (item (dbl A))) va, wf_cfg cf -> mem_wf m -> plain_items cf items ->
  let k := Zlen (plain cf items) in
  k < n <= INT_MAX -> writable m dst (k + 1) -> given m fmt items -> elsewhere dst (k + 1) fmt items ->
  exists m', snprnf cf A m dst n fmt (arguments cf items ++ va) = Ok (k, m') /\ mem_wf m' /\ has_view m' (View dst k) (plain cf items).
Proof.
  intros cf A m dst n fmt items va Wf Wm Hp k Hk Hw Hg He.
  assert (0 <= k) as K0 by apply Zlen_nonneg.
  pose proof (C86_snprnf cf A m dst n fmt items va Wf ltac:(lia) Hp) as Q. cbv zeta in Q. fold k in Q.
  rewrite Z.min_r in Q by lia. destruct (Q ltac:(lia) Hw Hg He) as (m' & E & F & B).
  rewrite firstn_all2 in B by (unfold k, Zlen in *; lia). specialize (B ltac:(lia)).
  destruct Hw as (bb & kb & W1 & W2 & W3 & W4 & W5). pose proof (mem_wf_frame _ _ _ _ _ (F bb W1) Wm) as Wm'.
  assert (Forall is_byte (plain cf items)) as Fb.
  { unfold plain. destruct (plain_fine cf A items 0 Hp) as [P1 P2]. rewrite <- P2. eapply text_bytes; eauto. apply Hg. }
  exists m'. split; auto. split; auto. apply bytes_at_app in B as [B _]. split; [exact B|]. split; [reflexivity|]. split; [fold k; lia|exact Fb].
Qed.
Lemma reads_back : forall cf A m dst n fmt (items : list (item (dbl A))) v t f va, wf_cfg cf -> mem_wf m -> plain_items cf items ->
  plain cf items = show_signed 10 v -> consumer cf t = Some f -> ty_lo cf t <= v <= ty_hi cf t ->
  let k := Zlen (show_signed 10 v) in
  k < n <= INT_MAX -> writable m dst (k + 1) -> given m fmt items -> elsewhere dst (k + 1) fmt items ->
  exists m' s', snprnf cf A m dst n fmt (arguments cf items ++ va) = Ok (k, m') /\
    f m' true (Some (View dst k)) 0 = Ok (Parsed NoErr (Some v) (Some s')) /\ has_view m' s' [].
Proof.
  intros cf A m dst n fmt items v t f va Wf Wm Hp Et Hf Hr k Hk Hw Hg He. unfold k in *. rewrite <- Et in *.
  destruct (printed_view cf A m dst n fmt items va Wf Wm Hp Hk Hw Hg He) as (m' & E & Wm' & V). rewrite Et in V at 2.
  destruct (C27_decimal_round_trip cf t f m' _ v Hf Hr Wm' V) as (s' & E1 & E2). exists m', s'. auto.
Qed.
Theorem C91_signed : forall cf A m dst n fmt b l v t f va, wf_cfg cf -> mem_wf m -> signed_ok cf l v ->
  consumer cf t = Some f -> ty_lo cf t <= v <= ty_hi cf t ->
  let items := [Dec b (bare l) v] in let k := Zlen (show_signed 10 v) in
  k < n <= INT_MAX -> writable m dst (k + 1) -> given m fmt items -> elsewhere dst (k + 1) fmt items ->
  exists m' s', snprnf cf A m dst n fmt (arguments cf items ++ va) = Ok (k, m') /\
    f m' true (Some (View dst k)) 0 = Ok (Parsed NoErr (Some v) (Some s')) /\ has_view m' s' [].
Proof.
  intros cf A m dst n fmt b l v t f va Wf Wm Hv Hf Hr. apply reads_back with (t := t); auto.
  - cbn. repeat split; try exact I; apply Hv.
  - apply plain_dec.
Qed.
Print Assumptions C91_signed.
Theorem C91_unsigned : forall cf A m dst n fmt l v t f va, wf_cfg cf -> mem_wf m -> unsigned_ok cf l v ->
  consumer cf t = Some f -> ty_lo cf t <= v <= ty_hi cf t ->
  let items := [Uns (bare l) v] in let k := Zlen (show_signed 10 v) in
  k < n <= INT_MAX -> writable m dst (k + 1) -> given m fmt items -> elsewhere dst (k + 1) fmt items ->
  exists m' s', snprnf cf A m dst n fmt (arguments cf items ++ va) = Ok (k, m') /\
    f m' true (Some (View dst k)) 0 = Ok (Parsed NoErr (Some v) (Some s')) /\ has_view m' s' [].
Proof.
  intros cf A m dst n fmt l v t f va Wf Wm Hv Hf Hr. apply reads_back with (t := t); auto.
  - cbn. repeat split; try exact I; apply Hv.
  - apply plain_uns. apply Hv.
Qed.
Print Assumptions C91_unsigned.
(** Hexadecimal and binary, with the digits of the whole argument or a precision. *)
Definition digits_of cf (hex : bool) c : Z :=
  match prec_of c with Some p => p | None => (if hex then 2 else 8) * len_bytes cf (cv_len c) end.
Theorem C91_other_bases : forall cf A m dst n fmt (hex b : bool) c v t f va, wf_cfg cf -> mem_wf m ->
  let i := if hex then Hex b c v else Bin c v in let base := if hex then 16 else 2 in let k := digits_of cf hex c in
  plain_items cf [i] -> width_of c = 0 -> v < base ^ k -> consumer cf t = Some f -> ty_lo cf t <= v <= ty_hi cf t ->
  k < n <= INT_MAX -> writable m dst (k + 1) -> given m fmt [i] -> elsewhere dst (k + 1) fmt [i] ->
  exists m' s', snprnf cf A m dst n fmt (arguments cf [i] ++ va) = Ok (k, m') /\
    f m' true (Some (View dst k)) (if hex then STRNUM_BASE_HEX else STRNUM_BASE_BIN) = Ok (Parsed NoErr (Some v) (Some s')) /\ has_view m' s' [].
Proof.
  intros cf A m dst n fmt hex b c v t f va Wf Wm i base k Hp Hc Hv Hf Hr Hk Hw Hg He.
  assert (0 <= v /\ 1 <= k) as [V0 K0].
  { destruct Wf as [_ Wf]. assert (1 <= len_bytes cf (cv_len c)) by (destruct (cv_len c); cbn [len_bytes]; try destruct (c_long64 cf); lia).
    unfold k, digits_of, i in *. destruct hex; destruct Hp as ((_ & U & P) & _); (split; [apply U|]); destruct (prec_of c); lia. }
  assert (plain cf [i] = PrnfSpec.fixed base (Z.to_nat k) v) as Et.
  { unfold plain, i, base, k, digits_of. cbn [printed]. rewrite app_nil_r. destruct hex; cbn [item_out]; rewrite pad_none by auto; reflexivity. }
  assert (Zlen (plain cf [i]) = k) as Ek by (rewrite Et, fixed_len; lia).
  pose proof (printed_view cf A m dst n fmt [i] va Wf Wm Hp) as Q. cbv zeta in Q. rewrite Ek, Et in Q.
  destruct (Q Hk Hw Hg He) as (m' & E & Wm' & V).
  assert (2 <= base <= 16) as B by (unfold base; destruct hex; lia).
  destruct (fixed_ok base (Z.to_nat k) v B V0) as [D1 D2]. rewrite Z2Nat.id, Z.mod_small in D2 by lia.
  set (opt := if hex then STRNUM_BASE_HEX else STRNUM_BASE_BIN).
  assert (opt = STRNUM_BASE_HEX /\ base = 16 \/ opt = STRNUM_BASE_BIN /\ base = 2) as Ho by (unfold opt, base; destruct hex; auto).
  set (ds := PrnfSpec.fixed base (Z.to_nat k) v) in *. pose proof (read_digits (ty_signed t) opt base ds Ho D1) as R.
  assert (Forall (fun x => x < 128) ds) as Small.
  { eapply Forall_impl; [|exact D1]. intros x Hx. cbv beta in Hx. unfold isdig in Hx. apply andb_true_iff in Hx as [Hx _].
    apply orb_true_iff in Hx as [Hx|Hx]; [apply orb_true_iff in Hx as [Hx|Hx]|]; apply andb_true_iff in Hx as [_ X2]; apply Z.leb_le in X2; lia. }
  assert (result_of true (View dst k) ds (parse_int (ty_signed t) opt (ty_lo cf t) (ty_hi cf t) ds) (f m' true (Some (View dst k)) opt)) as K.
  { apply consumer_ok; auto.
    - right; right. eapply Forall_impl; [|exact Small]. intros x Hx. cbv beta in Hx. lia.
    - intros _. rewrite Forall_forall in Small. split; intro I; apply Small in I; lia. }
  unfold parse_int in K. rewrite R in K. unfold int_value in K. cbn [it_digits it_neg it_base it_rest] in K. rewrite D2 in K.
  assert (ds <> []) as Nz. { intro X. rewrite X in D1, Et. rewrite Et in Ek. change (Zlen (@nil Z)) with 0 in Ek. lia. }
  destruct ds as [|x ds]; [congruence|].
  rewrite (proj2 (Z.leb_le (ty_lo cf t) v)), (proj2 (Z.leb_le v (ty_hi cf t))) in K by lia. cbn [andb] in K.
  destruct K as (a & Ea & _ & K). rewrite app_nil_r in Ea. subst a. exists m'. eexists. split; [exact E|]. split; [exact K|].
  apply has_view_suffix. rewrite app_nil_r. exact V.
Qed.
Print Assumptions C91_other_bases.
Definition min_mem : mem := xmem (bs "%ld" ++ [0]) [].
Example C91_ex : forall A, signed_ok gcc64 Ll (- 2 ^ 63) /\ mem_wf min_mem /\ given min_mem xfmt ([Dec false (bare Ll) (- 2 ^ 63)] : list (item (dbl A)))
  /\ writable min_mem xdst 21 /\ consumer gcc64 TLong = Some (strnum_consume_long gcc64)
  /\ match snprnf gcc64 A min_mem xdst 30 xfmt (arguments gcc64 [Dec false (bare Ll) (- 2 ^ 63)]) with
     | Ok (20, m') => strnum_consume_long gcc64 m' true (Some (vw 0 0 20)) 0 = Ok (Parsed NoErr (Some (- 2 ^ 63)) (Some (vw 0 20 0)))
     | _ => False
     end.
Proof.
  intros A. split; [split; [vm_compute; split; [discriminate|reflexivity]|left; reflexivity]|]. split; [wf_check|].
  split; [split; [apply bytes_atb_ok; vm_compute; reflexivity|repeat constructor]|].
  split; [apply xdst_writable; lia|]. split; [reflexivity|]. vm_compute. reflexivity.
Qed.

Definition hex_mem : mem := xmem (bs "%hx" ++ [0]) [].
Example C91_ex2 : forall A, plain_items gcc64 ([Hex false (bare Lh) 2748] : list (item (dbl A))) /\ mem_wf hex_mem
  /\ given hex_mem xfmt ([Hex false (bare Lh) 2748] : list (item (dbl A))) /\ digits_of gcc64 true (bare Lh) = 4
  /\ writable hex_mem xdst 5
  /\ match snprnf gcc64 A hex_mem xdst 30 xfmt (arguments gcc64 [Hex false (bare Lh) 2748]) with
     | Ok (4, m') => load_bytes m' xdst 5 = Ok (bs "0ABC" ++ [0]) /\
         strnum_consume_long gcc64 m' true (Some (vw 0 0 4)) STRNUM_BASE_HEX = Ok (Parsed NoErr (Some 2748) (Some (vw 0 4 0)))
     | _ => False
     end.
Proof.
  intros A. split; [items_check|]. split; [wf_check|].
  split; [split; [apply bytes_atb_ok; vm_compute; reflexivity|repeat constructor]|]. split; [reflexivity|].
  split; [apply xdst_writable; lia|]. vm_compute. split; reflexivity.
Qed.

(** ** C92: columns *)
(** [a] has been printed, its last line is [l] (without control characters). *)
Theorem C92_column : forall cf A m dst fmt (pre post : list (item (dbl A))) n x a l va, wf_cfg cf ->
  let items := pre ++ Column n x :: post in plain_items cf items ->
  plain cf pre = l \/ plain cf pre = a ++ 10 :: l -> visible cf l ->
  Zlen (plain cf items) < INT_MAX -> writable m dst (Zlen (plain cf items) + 1) -> given m fmt items ->
  elsewhere dst (Zlen (plain cf items) + 1) fmt items ->
  exists m', sprnf cf A m dst fmt (arguments cf items ++ va) = Ok (Zlen (plain cf items), m') /\
    bytes_at m' dst (plain cf pre ++ copies x (n - Zlen l) ++ printed cf (fun _ _ _ => []) (Z.max n (Zlen l)) post ++ [0]) /\
    Zlen (l ++ copies x (n - Zlen l)) = Z.max n (Zlen l).
Proof.
  intros cf A m dst fmt pre post n x a l va Wf items Hp Hl Hv Ht Hw Hg He.
  destruct (C87_sprnf cf A m dst fmt items va Wf Hp Ht Hw Hg He) as (m' & E & _ & B).
  assert (after cf 0 (plain cf pre) = Zlen l) as Ec.
  { destruct Hl as [-> | ->]; [now rewrite after_visible|now apply after_line]. }
  assert (counts cf x = true) as Hx.
  { clear - Hp. unfold plain_items, items in Hp. induction pre as [|i pre IH]; cbn [app items_ok] in Hp; [apply Hp|apply IH; apply Hp]. }
  pose proof (Zlen_nonneg l) as L0.
  assert (after cf (Zlen l) (copies x (n - Zlen l)) = Z.max n (Zlen l)) as Ea.
  { rewrite after_visible by (apply copies_visible, Hx). rewrite copies_len. lia. }
  assert (plain cf items = plain cf pre ++ copies x (n - Zlen l) ++ printed cf (fun _ _ _ => []) (Z.max n (Zlen l)) post) as Et.
  { unfold plain at 1, items. rewrite printed_app. fold (plain cf pre). rewrite Ec. cbn [printed item_out]. rewrite Ea. reflexivity. }
  rewrite Et in B. rewrite <- !app_assoc in B. exists m'. split; [exact E|]. split; [exact B|].
  rewrite Zlen_app, copies_len. lia.
Qed.
Print Assumptions C92_column.
(** Two lines, the second column starts at 4 in both. *)
Definition two_lines {D} : list (item D) := [Text (bs "a"); Column 4 32; Text (bs "b" ++ [10] ++ bs "xyz"); Column 4 32; Text (bs "w")].
Definition two_mem : mem := xmem (bs "a" ++ [11] ++ bs "4 b" ++ [10] ++ bs "xyz" ++ [11] ++ bs "4 w" ++ [0]) [].
Example C92_ex : forall A, plain_items gcc64 (@two_lines (dbl A))
  /\ plain gcc64 ([Text (bs "a"); Column 4 32; Text (bs "b" ++ [10] ++ bs "xyz")] : list (item (dbl A))) = (bs "a   b") ++ 10 :: bs "xyz"
  /\ visible gcc64 (bs "xyz") /\ given two_mem xfmt (@two_lines (dbl A)) /\ writable two_mem xdst 12
  /\ seen (sprnf gcc64 A two_mem xdst xfmt []) 12 = Some (11, bs "a   b" ++ [10] ++ bs "xyz w" ++ [0]).
Proof.
  intros A. split.
  { items_check. }
  split; [vm_compute; reflexivity|]. split; [repeat constructor|].
  split; [split; [apply bytes_atb_ok; vm_compute; reflexivity|repeat constructor]|]. split; [apply xdst_writable; lia|]. vm_compute. reflexivity.
Qed.

(** ** C93, C94: buffers *)
Theorem C93_prnf : forall cf A w p B fmt items va, ready cf w p B -> plain_items cf items -> given (s_mem w) fmt items ->
  apart cf p B fmt (Zlen (format items) + 1) -> Forall (item_apart cf p B) items ->
  let t := plain cf items in Zlen t < INT_MAX -> sums_ok cf (Zlen t) ->
  becomes cf w p B (strbuf_prnf cf A w (Some p) fmt (arguments cf items ++ va)) (put_all cf B t).
Proof.
  intros cf A w p B fmt items va (H1 & H2 & H3 & H4) Hp [G1 G2] A1 A2. destruct (plain_fine cf A items 0 Hp) as [P1 P2]. cbv zeta. unfold plain. rewrite <- P2.
  intros Ht Hs. rewrite (prnf_format_ok cf A w p B) by auto. apply prnf_ok; auto; [|lia]. eapply text_bytes; eauto.
Qed.
Print Assumptions C93_prnf.
Theorem C94_append_prnf : forall cf A w p B fmt items va, ready cf w p B -> plain_items cf items -> given (s_mem w) fmt items ->
  apart cf p B fmt (Zlen (format items) + 1) -> Forall (item_apart cf p B) items ->
  let t := plain cf items in Zlen t < INT_MAX -> sums_ok cf (Zlen (bf_data B) + Zlen t) ->
  becomes cf w p B (strbuf_append_prnf cf A w (Some p) fmt (arguments cf items ++ va)) (put_all cf B (bf_data B ++ t)).
Proof.
  intros cf A w p B fmt items va (H1 & H2 & H3 & H4) Hp [G1 G2] A1 A2. destruct (plain_fine cf A items 0 Hp) as [P1 P2]. cbv zeta. unfold plain. rewrite <- P2.
  intros Ht Hs. rewrite (append_prnf_format_ok cf A w p B) by auto. apply append_prnf_ok; auto; [|lia]. eapply text_bytes; eauto.
Qed.
Print Assumptions C94_append_prnf.
(** Block 3 of the example memory holds the string lo. *)
Definition lit_row {D} : list (item D) := [Text (bs "<"); Str false (Conv [] (WNum 4) PNone Lint) (Ptr (PBlk 3) 0) (bs "lo"); Text (bs ">")].
Definition lfmt : ptr := Ptr (PLit (bs "<%4s>" ++ [0])) 0.
Example C94_ex : forall A, ready gcc64 w_move pdyn b_hello /\ plain_items gcc64 (@lit_row (dbl A)) /\ given (s_mem w_move) lfmt (@lit_row (dbl A))
  /\ apart gcc64 pdyn b_hello lfmt 6 /\ Forall (item_apart gcc64 pdyn b_hello) (@lit_row (dbl A))
  /\ shows gcc64 (strbuf_prnf gcc64 A w_move (Some pdyn) lfmt (arguments gcc64 lit_row)) = Some (Some (bs "<  lo>"), 8)
  /\ shows gcc64 (strbuf_append_prnf gcc64 A w_move (Some pdyn) lfmt (arguments gcc64 lit_row)) = Some (Some (bs "hello<  lo>"), 16)
  /\ shows gcc64 (strbuf_append_prnf gcc64 A w_move (Some pfix) lfmt (arguments gcc64 lit_row)) = Some (Some [], 10).
Proof.
  intros A. split; [exact dyn_ready|]. split; [items_check|].
  split; [split; [apply bytes_atb_ok; vm_compute; reflexivity|each_item cstr_check]|].
  split; [left; discriminate|]. split; [each_item ltac:(left; discriminate)|]. do 2 (split; [vm_compute; reflexivity|]). vm_compute. reflexivity.
Qed.

(** ** C95: the width is the minimum number of characters *)
Definition conv_of {D} (i : item D) : option conv :=
  match i with Dec _ c _ | Uns c _ | Hex _ c _ | Bin c _ | Str _ c _ _ => Some c | _ => None end.
Theorem C95_width_partial : forall cf A m n fmt i c va, wf_cfg cf -> plain_items cf [i] -> conv_of i = Some c ->
  given m fmt [i] -> Zlen (plain cf [i]) < INT_MAX ->
  exists k, snprnf cf A m null n fmt (arguments cf [i] ++ va) = Ok (k, m) /\ width_of c <= k.
Proof.
  intros cf A m n fmt i c va Wf Hp Hc Hg Ht. eexists. split; [now apply C89_measure|]. unfold plain. cbn [printed]. rewrite app_nil_r.
  destruct i; try discriminate; injection Hc as ->; cbn [item_out]; try (rewrite pad_len; lia).
  unfold str_text. destruct (centred c); [|rewrite pad_len; lia]. rewrite !Zlen_app, !copies_len. pose proof (Zlen_nonneg l).
  assert (0 <= width_of c - Zlen l \/ width_of c - Zlen l < 0) as [Q|Q] by lia; [|lia].
  assert (0 <= (width_of c - Zlen l) / 2 <= width_of c - Zlen l) by (split; [apply Z.div_pos; lia|apply Z.div_le_upper_bound; lia]). lia.
Qed.
Print Assumptions C95_width_partial.
Example C95_ex : forall A, plain_items gcc64 ([Str false (Conv [] (WNum 7) PDot Lint) (Ptr (PBlk 2) 0) (bs "ab")] : list (item (dbl A)))
  /\ seen (sprnf gcc64 A (xmem (bs "%7.s" ++ [0]) (bs "ab" ++ [0])) xdst xfmt [AP (Ptr (PBlk 2) 0)]) 8 = Some (7, bs "  ab   " ++ [0]).
Proof. intros A. split; [items_check|]. vm_compute. reflexivity. Qed.
(** The width of %c is ignored. *)
Theorem C95_width_of_char_refuted : forall A, exists m (i : item (dbl A)) c, plain_items gcc64 [i] /\ i = Chr c 65 /\ width_of c = 5 /\
  given m xfmt [i] /\ snprnf gcc64 A m null 0 xfmt (arguments gcc64 [i]) = Ok (1, m).
Proof.
  intros A. exists (xmem (bs "%5c" ++ [0]) []). eexists. exists (Conv [] (WNum 5) PNone Lint). split; [|split; [reflexivity|]].
  - items_check.
  - split; [reflexivity|]. split; [split; [apply bytes_atb_ok; vm_compute; reflexivity|repeat constructor]|]. vm_compute. reflexivity.
Qed.
Print Assumptions C95_width_of_char_refuted.

(** ** C96: zeros are put in front of the sign *)
Theorem C96_zero_padded_refuted : forall A, exists m m' (i : item (dbl A)), plain_items gcc64 [i] /\
  i = Dec false (Conv [FZero] (WNum 5) PNone Lint) (-42) /\ given m xfmt [i] /\
  snprnf gcc64 A m xdst 10 xfmt (arguments gcc64 [i]) = Ok (5, m') /\ bytes_at m' xdst (bs "00-42") /\
  strnum_consume_int gcc64 m' true (Some (View xdst 5)) 0 = Ok (Parsed NoErr (Some 0) (Some (vw 0 2 3))).
Proof.
  intros A. exists (xmem (bs "%05d" ++ [0]) []). eexists. eexists. split; [|split; [reflexivity|]].
  - items_check.
  - split; [split; [apply bytes_atb_ok; vm_compute; reflexivity|repeat constructor]|]. split; [vm_compute; reflexivity|].
    split; [apply bytes_atb_ok; vm_compute; reflexivity|]. vm_compute. reflexivity.
Qed.
Print Assumptions C96_zero_padded_refuted.

(** ** C97: exact number of digits of binary and hexadecimal numbers *)
Theorem C97_digits_partial : forall cf A m dst fmt (hex b : bool) c p v va, wf_cfg cf ->
  let i := if hex then Hex b c v else Bin c v in let base := if hex then 16 else 2 in
  plain_items cf [i] -> prec_of c = Some p -> width_of c = 0 -> 1 <= p <= (if hex then 16 else 64) ->
  writable m dst (p + 1) -> given m fmt [i] -> elsewhere dst (p + 1) fmt [i] ->
  exists m' ds, sprnf cf A m dst fmt (arguments cf [i] ++ va) = Ok (p, m') /\ bytes_at m' dst (ds ++ [0]) /\
    Zlen ds = p /\ Forall (fun x => isdig base x = true) ds /\ num_val base ds = v mod base ^ p.
Proof.
  intros cf A m dst fmt hex b c p v va Wf i base Hp Hc Hw Hr Hd Hg He.
  assert (0 <= v) as V0 by (unfold i in Hp; destruct hex; destruct Hp as ((_ & U & _) & _); apply U).
  assert (plain cf [i] = PrnfSpec.fixed base (Z.to_nat p) v) as Et.
  { unfold plain, i, base. cbn [printed]. rewrite app_nil_r. destruct hex; cbn [item_out]; rewrite pad_none by auto; unfold fixed_digits; rewrite Hc; reflexivity. }
  assert (Zlen (plain cf [i]) = p) as Ek by (rewrite Et, fixed_len; lia).
  pose proof (C87_sprnf cf A m dst fmt [i] va Wf Hp) as Q. cbv zeta in Q. rewrite Ek, Et in Q.
  destruct Q as (m' & E & _ & B); auto; [unfold INT_MAX; destruct hex; lia|].
  assert (2 <= base <= 16) as Hb by (unfold base; destruct hex; lia).
  destruct (fixed_ok base (Z.to_nat p) v Hb V0) as [D1 D2]. rewrite Z2Nat.id in D2 by lia.
  exists m'. eexists. split; [exact E|]. split; [exact B|]. rewrite <- Et. split; [exact Ek|]. rewrite Et. auto.
Qed.
Print Assumptions C97_digits_partial.
Example C97_ex : forall A, plain_items gcc64 ([Bin (Conv [] WNone (PNum 3) Lint) 5] : list (item (dbl A)))
  /\ seen (sprnf gcc64 A (xmem (bs "%.3o%.1X" ++ [0]) []) xdst xfmt [A32 5; A32 171]) 5 = Some (4, bs "101B" ++ [0]).
Proof. intros A. split; [items_check|]. vm_compute. reflexivity. Qed.
(** No digits, or more than 64 bits: undefined shift. *)
Theorem C97_digits_refuted : forall A,
  snprnf gcc64 A (xmem (bs "%.0x" ++ [0]) []) null 0 xfmt [A32 5] = UB UB_shift /\
  snprnf gcc64 A (xmem (bs "%.17x" ++ [0]) []) null 0 xfmt [A32 5] = UB UB_shift /\
  snprnf gcc64 A (xmem (bs "%.0o" ++ [0]) []) null 0 xfmt [A32 5] = UB UB_shift /\
  snprnf gcc64 A (xmem (bs "%.65o" ++ [0]) []) null 0 xfmt [A32 5] = UB UB_shift.
Proof. intros A. repeat split; vm_compute; reflexivity. Qed.
Print Assumptions C97_digits_refuted.

(** ** C98: the precision does not limit how much of a string is read *)
Theorem C98_string_precision_refuted : forall A, exists m, bytes_at m (Ptr (PBlk 2) 0) (bs "abc") /\ bytes_at m xfmt (bs "%.3s" ++ [0]) /\
  snprnf gcc64 A m null 0 xfmt [AP (Ptr (PBlk 2) 0)] = UB UB_bounds.
Proof.
  intros A. exists (xmem (bs "%.3s" ++ [0]) (bs "abc")). split; [apply bytes_atb_ok; vm_compute; reflexivity|].
  split; [apply bytes_atb_ok; vm_compute; reflexivity|]. vm_compute. reflexivity.
Qed.
Print Assumptions C98_string_precision_refuted.
(** Of a terminated string at most that many characters are printed. *)
Theorem C98_string_partial : forall cf A m n fmt b c p q l va, wf_cfg cf -> conv_ok c -> prec_of c = Some p -> 0 <= p -> width_of c = 0 ->
  string_arg m q l -> bytes_at m fmt (format [Str b c q l : item (dbl A)] ++ [0]) -> Zlen l < INT_MAX ->
  snprnf cf A m null n fmt (arguments cf [Str b c q l] ++ va) = Ok (Z.min p (Zlen l), m).
Proof.
  intros cf A m n fmt b c p q l va Wf Hc Hp P0 Hw Hs Hf Hl.
  assert (Zlen (plain cf [Str b c q l : item (dbl A)]) = Z.min p (Zlen l)) as E.
  { unfold plain. cbn [printed item_out]. rewrite app_nil_r. unfold str_text, centred. rewrite Hw. cbn [Z.eqb negb]. rewrite andb_false_r, pad_len, Hw.
    unfold str_body. rewrite Hp. pose proof (Zlen_nonneg l). unfold Zlen in *. rewrite firstn_length. lia. }
  pose proof (Zlen_nonneg l). rewrite <- E. apply C89_measure; auto.
  - cbn. repeat split; try apply Hc. right. rewrite Hp. exact P0.
  - rewrite E. lia.
  - split; auto.
Qed.
Print Assumptions C98_string_partial.
Example C98_ex : forall A, c_string row_mem (Ptr (PBlk 2) 0) (bs "abcdef")
  /\ seen (sprnf gcc64 A (xmem (bs "%.*s" ++ [0]) (bs "abcdef" ++ [0])) xdst xfmt [A32 2; AP (Ptr (PBlk 2) 0)]) 3 = Some (2, bs "ab" ++ [0]).
Proof. intros A. split; [cstr_check|]. vm_compute. reflexivity. Qed.

(** ** C99: the plus flag has no effect on unsigned numbers *)
Theorem C99_plus_refuted : forall A, exists m m' (i : item (dbl A)), plain_items gcc64 [i] /\ i = Uns (Conv [FPlus] WNone PNone Lint) 5 /\ given m xfmt [i] /\
  snprnf gcc64 A m xdst 10 xfmt (arguments gcc64 [i]) = Ok (1, m') /\ bytes_at m' xdst (bs "5" ++ [0]).
Proof.
  intros A. exists (xmem (bs "%+u" ++ [0]) []). eexists. eexists. split; [|split; [reflexivity|]].
  - items_check.
  - split; [split; [apply bytes_atb_ok; vm_compute; reflexivity|repeat constructor]|]. split; [vm_compute; reflexivity|]. apply bytes_atb_ok; vm_compute; reflexivity.
Qed.
Print Assumptions C99_plus_refuted.

(** ** C100: strict ISO C, the most negative number *)
Theorem C100_most_negative_refuted : forall A, exists m, bytes_at m xfmt (bs "%ld" ++ [0]) /\
  snprnf iso64 A m null 0 xfmt [int_arg iso64 Ll (- 2 ^ 63)] = UB UB_overflow.
Proof. intros A. exists (xmem (bs "%ld" ++ [0]) []). split; [apply bytes_atb_ok; vm_compute; reflexivity|]. vm_compute. reflexivity. Qed.
Print Assumptions C100_most_negative_refuted.

(** ** C101: a format that ends inside of a placeholder *)
Theorem C101_ends_in_percent_refuted : forall A, exists m, c_string m xfmt (bs "100%") /\ snprnf gcc64 A m null 0 xfmt [] = UB UB_bounds.
Proof. intros A. exists (xmem (bs "100%" ++ [0]) []). split; [cstr_check|]. vm_compute. reflexivity. Qed.
Print Assumptions C101_ends_in_percent_refuted.

(** ** C102: sizes above INT_MAX *)
Theorem C102_large_size_refuted : forall A, exists m m', bytes_at m xfmt (bs "abc" ++ [0]) /\
  snprnf gcc64 A m xdst 2147483648 xfmt [] = Ok (3, m') /\ bytes_at m' xdst [0].
Proof.
  intros A. exists (xmem (bs "abc" ++ [0]) []). eexists. split; [apply bytes_atb_ok; vm_compute; reflexivity|].
  split; [vm_compute; reflexivity|]. apply bytes_atb_ok; vm_compute; reflexivity.
Qed.
Print Assumptions C102_large_size_refuted.

(** ** C103: columns of text in UTF-8 *)
(** An accented letter, two bytes in UTF-8, then column 4 filled with dots.  The letter does
    not count where char is signed, and counts twice where it is not. *)
Definition unsigned_char : cfg := Cfg false true true true true true false 16 8.
Theorem C103_utf8_columns_refuted : forall A, exists m (items : list (item (dbl A))),
  items = [Text [195; 169]; Column 4 46; Text (bs "|")] /\ plain_items gcc64 items /\ given m xfmt items /\
  seen (snprnf gcc64 A m xdst 20 xfmt []) 8 = Some (7, [195; 169] ++ bs "....|" ++ [0]) /\
  seen (snprnf unsigned_char A m xdst 20 xfmt []) 6 = Some (5, [195; 169] ++ bs "..|" ++ [0]).
Proof.
  intros A. exists (xmem ([195; 169; 11] ++ bs "4.|" ++ [0]) []). eexists. split; [reflexivity|]. split; [items_check|].
  split; [split; [apply bytes_atb_ok; vm_compute; reflexivity|repeat constructor]|]. split; vm_compute; reflexivity.
Qed.
Print Assumptions C103_utf8_columns_refuted.
