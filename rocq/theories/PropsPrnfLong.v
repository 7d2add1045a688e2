(** Property theorems about prnf without long long and without floating point where long has
    32 bits (C163). *)
From Coq Require Import String.
From Verif Require Import Base Mem Libc StrviewModel Spec MemLemmas StrviewProofs StrviewProofs3 NumSpec StrnumProofs3
  PrnfModel PrnfSpec PrnfSpec2 PrnfProofs4 PrnfProofs5 PrnfProofs9 PrnfConfModel PrnfConfSpec PrnfConfProofs PrnfConfProofs2 PrnfConfProofs3 PrnfConfProofs4
  PrnfLongModel PrnfLongSpec PrnfLongProofs PrnfLongProofs2 ExampleLib BufExample PropsNum PropsBuf PropsBuf2 PropsPrnf PropsPrnfConf.
Local Open Scope string_scope.
Local Open Scope list_scope.
Local Open Scope Z_scope.

(** The build with 32 bits, with column alignment if [col]. *)
Notation snprnf_32 cf A col := (vsnprnf_32 cf A mem (fun m : mem => m) (fun _ m => m) col).
Notation sprnf_32 cf A col := (vsprnf_32 cf A mem (fun m : mem => m) (fun _ m => m) col).
(** A 32 bit machine, and a 64 bit machine with 32 bit long read strictly. *)
Definition gcc32 : cfg := Cfg true true true true true false false 16 4.
Definition iso_long32 : cfg := Cfg true false false false false false false 16 8.

(** ** The same as with 64 bits *)
(** Whatever the arguments are, of a format that asks for nothing wider. *)
Theorem C163_same_outcome : forall cf A col m dst n fmt va, c_long64 cf = false -> Forall int_bits va ->
  untouched (Build false false col) m (p_obj fmt) -> narrow_format cf m (p_obj fmt) -> negatable cf m (p_obj fmt) va -> p_obj fmt <> p_obj dst ->
  snprnf_32 cf A col m dst n fmt va = snprnf cf A m dst n fmt va.
Proof.
  intros cf A col m dst n fmt va L Hb U N Ng Hd. destruct (sn32_same cf A col m dst n fmt va L Hb N Ng Hd) as [-> _]. now apply sn_same.
Qed.
Print Assumptions C163_same_outcome.

(** The text, of formats that may use what was switched off. *)
Theorem C163_snprnf : forall cf A col m dst n fmt items va, wf_cfg cf -> c_long64 cf = false -> 0 <= n <= INT_MAX ->
  let bd := Build false false col in items_ok cf (fun _ _ _ => b_float bd = false) items -> Forall (fit bd) items ->
  let args := arguments cf (built bd items) ++ va in
  Forall int_bits va -> narrow_format cf m (p_obj fmt) -> negatable cf m (p_obj fmt) args -> p_obj fmt <> p_obj dst ->
  let t := plain cf (built bd items) in let w := Z.min n (Zlen t + 1) in Zlen t < INT_MAX ->
  writable m dst w -> given m fmt items -> elsewhere dst w fmt items ->
  exists m', snprnf_32 cf A col m dst n fmt args = Ok (Zlen t, m') /\
    only_wrote m m' dst w /\ (0 < n -> bytes_at m' dst (firstn (Z.to_nat (n - 1)) t ++ [0])).
Proof.
  intros cf A col m dst n fmt items va Wf L Hn bd Hok Hfit args Hb Nf Ng Hd t w Ht Hw Hg He.
  destruct (sn32_same cf A col m dst n fmt args L (args_bits _ cf (built bd items) va Hb) Nf Ng Hd) as [-> _].
  now apply C158_snprnf.
Qed.
Print Assumptions C163_snprnf.
Theorem C163_sprnf : forall cf A col m dst fmt items va, wf_cfg cf -> c_long64 cf = false ->
  let bd := Build false false col in items_ok cf (fun _ _ _ => b_float bd = false) items -> Forall (fit bd) items ->
  let args := arguments cf (built bd items) ++ va in
  Forall int_bits va -> narrow_format cf m (p_obj fmt) -> negatable cf m (p_obj fmt) args -> p_obj fmt <> p_obj dst ->
  let t := plain cf (built bd items) in let w := Zlen t + 1 in Zlen t < INT_MAX ->
  writable m dst w -> given m fmt items -> elsewhere dst w fmt items ->
  exists m', sprnf_32 cf A col m dst fmt args = Ok (Zlen t, m') /\ only_wrote m m' dst w /\ bytes_at m' dst (t ++ [0]).
Proof.
  intros cf A col m dst fmt items va Wf L bd Hok Hfit args Hb Nf Ng Hd t w Ht Hw Hg He.
  destruct (sn32_same cf A col m dst 0 fmt args L (args_bits _ cf (built bd items) va Hb) Nf Ng Hd) as [_ ->].
  now apply C158_sprnf.
Qed.
Print Assumptions C163_sprnf.
(** A handler of single characters is called with the characters of the text. *)
Theorem C163_handler : forall cf A col W (rd : W -> mem) wr fn (J : W -> Prop) s fmt items va, wf_cfg cf -> c_long64 cf = false ->
  (forall s c s', J s -> fn s c = Ok s' -> J s') ->
  let bd := Build false false col in items_ok cf (fun _ _ _ => b_float bd = false) items -> Forall (fit bd) items ->
  let args := arguments cf (built bd items) ++ va in
  Forall int_bits va -> (forall s, J s -> given (rd s) fmt items /\ narrow_format cf (rd s) (p_obj fmt) /\ negatable cf (rd s) (p_obj fmt) args) ->
  let t := plain cf (built bd items) in Zlen t < INT_MAX -> J s ->
  vfptrprnf_32 cf A W rd wr col (Some fn) s fmt args = let! s := feed fn s t in Ok (Zlen t, s).
Proof.
  intros cf A col W rd wr fn J s fmt items va Wf L Hj bd Hok Hfit args Hb Hg t Ht Hs.
  rewrite (fptr32_same cf A col W rd wr fn J s fmt args L (args_bits _ cf (built bd items) va Hb) Hs Hj) by (intros s1 H1; apply Hg, H1).
  apply (C158_handler cf A bd W rd wr fn J); auto. intros s1 H1. now apply Hg.
Qed.
Print Assumptions C163_handler.

(** "%u|%5ld|%hx|%lld", of which %lld is an unknown placeholder and the text d. *)
Definition row_32 {D} : list (item D) :=
  [Uns (Conv [] WNone PNone Lint) 4294967295; Text (bs "|"); Dec false (Conv [] (WNum 5) PNone Ll) (-7); Text (bs "|"); Hex false (Conv [] WNone PNone Lh) 171; Text (bs "|");
   Dec false (Conv [] WNone PNone Lll) (-9)].
Definition row_32_mem : mem := xmem (bs "%u|%5ld|%hx|%lld" ++ [0]) [].
(** Bytes of a format string, and of nothing else. *)
Lemma only_bytes : forall l i c, load_byte (xmem l []) (Ptr (PBlk 1) i) = Ok c -> In c l.
Proof.
  intros l i c H. unfold load_byte, load_cell in H. change (access (xmem l []) (p_obj (Ptr (PBlk 1) i))) with (Ok (blk 8192 l)) in H. cbn [bind p_ofs] in H.
  unfold in_block in H. change (b_size (blk 8192 l)) with (Zlen l) in H. destruct ((0 <=? i) && (i + 1 <=? Zlen l)) eqn:E; [|discriminate]. cbn in H. injection H as <-.
  apply andb_true_iff in E as [E1 E2]. apply nth_In. unfold Zlen in E2. lia.
Qed.
Ltac no_byte := let i := fresh "i" in let c := fresh "c" in let H := fresh "H" in let K := fresh "K" in
  intros i c H K; apply only_bytes in H; revert H; vm_compute in K; vm_compute; intuition congruence.
Lemma row_32_narrow : forall cf, narrow_format cf row_32_mem (PBlk 1).
Proof. intros cf. split; [right|left]; no_byte. Qed.
Example C163_ex : forall A, let bd := Build false false true in c_long64 gcc32 = false /\ wf_cfg gcc32
  /\ items_ok gcc32 (fun _ _ _ => b_float bd = false) (@row_32 (dbl A)) /\ Forall (fit bd) (@row_32 (dbl A))
  /\ arguments gcc32 (built bd (@row_32 (dbl A))) = [A32 4294967295; A32 4294967289; A32 171]
  /\ narrow_format iso_long32 row_32_mem (p_obj xfmt) /\ negatable iso_long32 row_32_mem (p_obj xfmt) (arguments iso_long32 (built bd (@row_32 (dbl A))))
  /\ writable row_32_mem xdst 24 /\ given row_32_mem xfmt (@row_32 (dbl A)) /\ elsewhere xdst 24 xfmt (@row_32 (dbl A))
  /\ plain gcc32 (built bd (@row_32 (dbl A))) = bs "4294967295|   -7|00AB|d"
  /\ seen (snprnf_32 gcc32 A true row_32_mem xdst 40 xfmt [A32 4294967295; A32 4294967289; A32 171]) 24 = Some (23, bs "4294967295|   -7|00AB|d" ++ [0])
  /\ seen (sprnf_32 iso_long32 A true row_32_mem xdst xfmt [A32 4294967295; A32 4294967289; A32 171]) 24 = Some (23, bs "4294967295|   -7|00AB|d" ++ [0])
  /\ vfptrprnf_32 gcc32 A (list Z) (fun _ => row_32_mem) (fun s _ => s) true (Some (fun s c => Ok (s ++ [c]))) [] xfmt [A32 4294967295; A32 4294967289; A32 171]
     = Ok (23, bs "4294967295|   -7|00AB|d").
Proof.
  intros A bd. split; [reflexivity|]. split; [split; cbn; lia|]. split; [items_check|]. split; [repeat (apply Forall_cons; [split; intros; try exact I; discriminate|]); apply Forall_nil|].
  split; [reflexivity|]. split; [apply row_32_narrow|]. split; [right; right; vm_compute; intuition congruence|]. split; [apply xdst_writable; lia|].
  split; [split; [apply bytes_atb_ok; vm_compute; reflexivity|each_item idtac]|].
  split; [split; [left; discriminate|each_item idtac]|]. repeat split; vm_compute; reflexivity.
Qed.
(** "%i|%s" with a NULL, cut to fit; and without its last argument. *)
Definition is_mem : mem := xmem (bs "%i|%s" ++ [0]) [].
Example C163_same_outcome_ex : forall A, let va := [A32 (2 ^ 32 - 12); AP null] : list (arg (dbl A)) in
  Forall int_bits va /\ untouched (Build false false false) is_mem (p_obj xfmt) /\ narrow_format iso_long32 is_mem (p_obj xfmt)
  /\ negatable iso_long32 is_mem (p_obj xfmt) va /\ p_obj xfmt <> p_obj xdst
  /\ seen (snprnf_32 iso_long32 A false is_mem xdst 3 xfmt va) 3 = Some (4, bs "-1" ++ [0])
  /\ snprnf_32 iso_long32 A false is_mem xdst 3 xfmt [A32 5] = UB UB_varg.
Proof.
  intros A va. split; [repeat constructor; cbn; lia|]. split.
  { intros i c H. apply only_bytes in H. vm_compute in H. split; [intros _ ->; intuition discriminate|]. split; [intros _ K; vm_compute in K; intuition congruence|]. intros _ ->. intuition discriminate. }
  split; [split; [right|left]; no_byte|]. split; [right; right; vm_compute; intuition congruence|]. split; [discriminate|]. split; vm_compute; reflexivity.
Qed.

(** ** Where it differs *)
(** The claim that such a build prints every int, long and size_t as the shipped build does is
    false.  The least int is negated as a long, where it overflows. *)
Theorem C163_min_refuted : forall A, exists m m' va, bytes_at m xfmt (bs "%d" ++ [0]) /\ va = [A32 (2 ^ 31)] /\
  snprnf iso_long32 A m xdst 20 xfmt va = Ok (11, m') /\ bytes_at m' xdst (bs "-2147483648" ++ [0]) /\
  snprnf_32 iso_long32 A true m xdst 20 xfmt va = UB UB_overflow.
Proof.
  intros A. set (m := xmem (bs "%d" ++ [0]) []). set (va := [A32 (2 ^ 31)] : list (arg (dbl A))).
  destruct (snprnf iso_long32 A m xdst 20 xfmt va) as [[k m']| |] eqn:E; [|vm_compute in E; discriminate|vm_compute in E; discriminate].
  exists m, m', va. split; [apply bytes_atb_ok; vm_compute; reflexivity|]. split; [reflexivity|].
  assert (k = 11 /\ bytes_atb m' xdst (bs "-2147483648" ++ [0]) = true) as [-> B].
  { assert (match snprnf iso_long32 A m xdst 20 xfmt va with Ok (k, m') => (k =? 11) && bytes_atb m' xdst (bs "-2147483648" ++ [0]) | _ => false end = true) as K by (vm_compute; reflexivity).
    rewrite E in K. apply andb_true_iff in K as [K1 K2]. apply Z.eqb_eq in K1. auto. }
  split; [exact E|]. split; [now apply bytes_atb_ok|vm_compute; reflexivity].
Qed.
Print Assumptions C163_min_refuted.
(** More hexadecimal digits than the type has are shifted out of it, also where ints wrap. *)
Theorem C163_digits_refuted : forall A, exists m m' va, bytes_at m xfmt (bs "%.9x" ++ [0]) /\ va = [A32 255] /\
  snprnf gcc32 A m xdst 20 xfmt va = Ok (9, m') /\ bytes_at m' xdst (bs "0000000FF" ++ [0]) /\
  snprnf_32 gcc32 A true m xdst 20 xfmt va = UB UB_shift.
Proof.
  intros A. set (m := xmem (bs "%.9x" ++ [0]) []). set (va := [A32 255] : list (arg (dbl A))).
  destruct (snprnf gcc32 A m xdst 20 xfmt va) as [[k m']| |] eqn:E; [|vm_compute in E; discriminate|vm_compute in E; discriminate].
  exists m, m', va. split; [apply bytes_atb_ok; vm_compute; reflexivity|]. split; [reflexivity|].
  assert (k = 9 /\ bytes_atb m' xdst (bs "0000000FF" ++ [0]) = true) as [-> B].
  { assert (match snprnf gcc32 A m xdst 20 xfmt va with Ok (k, m') => (k =? 9) && bytes_atb m' xdst (bs "0000000FF" ++ [0]) | _ => false end = true) as K by (vm_compute; reflexivity).
    rewrite E in K. apply andb_true_iff in K as [K1 K2]. apply Z.eqb_eq in K1. auto. }
  split; [exact E|]. split; [now apply bytes_atb_ok|vm_compute; reflexivity].
Qed.
Print Assumptions C163_digits_refuted.
(** So are more binary digits. *)
Theorem C163_bits_refuted : forall A, exists m m' va, bytes_at m xfmt (bs "%.33o" ++ [0]) /\ va = [A32 5] /\
  snprnf gcc32 A m xdst 40 xfmt va = Ok (33, m') /\ bytes_at m' xdst (bs "000000000000000000000000000000101" ++ [0]) /\
  snprnf_32 gcc32 A true m xdst 40 xfmt va = UB UB_shift.
Proof.
  intros A. set (m := xmem (bs "%.33o" ++ [0]) []). set (va := [A32 5] : list (arg (dbl A))).
  destruct (snprnf gcc32 A m xdst 40 xfmt va) as [[k m']| |] eqn:E; [|vm_compute in E; discriminate|vm_compute in E; discriminate].
  exists m, m', va. split; [apply bytes_atb_ok; vm_compute; reflexivity|]. split; [reflexivity|].
  assert (k = 33 /\ bytes_atb m' xdst (bs "000000000000000000000000000000101" ++ [0]) = true) as [-> B].
  { assert (match snprnf gcc32 A m xdst 40 xfmt va with Ok (k, m') => (k =? 33) && bytes_atb m' xdst (bs "000000000000000000000000000000101" ++ [0]) | _ => false end = true) as K by (vm_compute; reflexivity).
    rewrite E in K. apply andb_true_iff in K as [K1 K2]. apply Z.eqb_eq in K1. auto. }
  split; [exact E|]. split; [now apply bytes_atb_ok|vm_compute; reflexivity].
Qed.
Print Assumptions C163_bits_refuted.
(** A size_t of 64 bits is read as an int. *)
Theorem C163_size_refuted : forall A, exists m m' va, bytes_at m xfmt (bs "%zu" ++ [0]) /\ va = [A64 12] /\
  snprnf iso_long32 A m xdst 20 xfmt va = Ok (2, m') /\ bytes_at m' xdst (bs "12" ++ [0]) /\
  snprnf_32 iso_long32 A true m xdst 20 xfmt va = UB UB_varg.
Proof.
  intros A. set (m := xmem (bs "%zu" ++ [0]) []). set (va := [A64 12] : list (arg (dbl A))).
  destruct (snprnf iso_long32 A m xdst 20 xfmt va) as [[k m']| |] eqn:E; [|vm_compute in E; discriminate|vm_compute in E; discriminate].
  exists m, m', va. split; [apply bytes_atb_ok; vm_compute; reflexivity|]. split; [reflexivity|].
  assert (k = 2 /\ bytes_atb m' xdst (bs "12" ++ [0]) = true) as [-> B].
  { assert (match snprnf iso_long32 A m xdst 20 xfmt va with Ok (k, m') => (k =? 2) && bytes_atb m' xdst (bs "12" ++ [0]) | _ => false end = true) as K by (vm_compute; reflexivity).
    rewrite E in K. apply andb_true_iff in K as [K1 K2]. apply Z.eqb_eq in K1. auto. }
  split; [exact E|]. split; [now apply bytes_atb_ok|vm_compute; reflexivity].
Qed.
Print Assumptions C163_size_refuted.
