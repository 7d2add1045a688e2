(** Property theorems: formatted text that contains the text of the buffer it is written to (C142). *)
From Coq Require Import String.
From Verif Require Import Base Mem Libc StrviewModel Spec MemLemmas Alloc StrbufModel BufSpec BufSpec2 NumSpec PrnfModel PrnfSpec PrnfSpec2 PrnfOwnSpec
  PrnfProofs4 PrnfBufModel PrnfProofs6 PrnfOwn PrnfOwn2 ExampleLib BufExample PropsBuf PropsPrnf.
Local Open Scope string_scope.
Local Open Scope list_scope.
Local Open Scope Z_scope.

(** ** C142 *)
(** strbuf_append_prnf with enough capacity: each placeholder whose argument points into the buffer
    prints what the buffer contains when the placeholder is reached. *)
Theorem C142_append_partial : forall cf A w p B fmt (xs : list (piece (dbl A))) va, wf_cfg cf -> mem_wf (s_mem w) -> buf_at cf (s_mem w) p B ->
  let its := map (now cf p (bf_data B)) xs in
  bytes_at (s_mem w) fmt (format its ++ [0]) -> apart cf p B fmt (Zlen (format its) + 1) ->
  plain_items cf its -> Forall (piece_given cf A w p B) xs -> Forall (points_into (bf_data B)) xs ->
  let t := unrolled cf (fun _ _ _ => []) p 0 (bf_data B) xs in
  Zlen t < INT_MAX -> sums_ok cf (Zlen (bf_data B) + Zlen t) -> Zlen (bf_data B) + Zlen t <= bf_cap B ->
  becomes_alone cf w p B (strbuf_append_prnf cf A w (Some p) fmt (arguments cf its ++ va)) (Buffer (bf_data B ++ t) (bf_cap B) (bf_alloc B)).
Proof. intros cf A w p B fmt xs va Wf. now apply append_own_plain. Qed.
Print Assumptions C142_append_partial.
(** If only the first part of the format refers to the buffer, it is the text from before the call. *)
Theorem C142_first_partial : forall cf A w p B fmt b c k (its : list (item (dbl A))) va, wf_cfg cf -> mem_wf (s_mem w) -> buf_at cf (s_mem w) p B ->
  (k <= List.length (bf_data B))%nat ->
  let all := Str b c (shift (chars_of cf p) (Z.of_nat k)) (to_nul (skipn k (bf_data B))) :: its in
  bytes_at (s_mem w) fmt (format all ++ [0]) -> apart cf p B fmt (Zlen (format all) + 1) ->
  plain_items cf all -> Forall (item_mem (s_mem w)) its -> Forall (item_apart cf p B) its ->
  let t := plain cf all in Zlen t < INT_MAX -> sums_ok cf (Zlen (bf_data B) + Zlen t) -> Zlen (bf_data B) + Zlen t <= bf_cap B ->
  becomes_alone cf w p B (strbuf_append_prnf cf A w (Some p) fmt (arguments cf all ++ va)) (Buffer (bf_data B ++ t) (bf_cap B) (bf_alloc B)).
Proof. intros cf A w p B fmt b c k its va Wf. now apply append_own_first. Qed.
Print Assumptions C142_first_partial.
(** strbuf_prnf begins with an empty buffer. *)
Theorem C142_prnf_partial : forall cf A w p B fmt (xs : list (piece (dbl A))) va, wf_cfg cf -> mem_wf (s_mem w) -> buf_at cf (s_mem w) p B ->
  let its := map (now cf p []) xs in
  bytes_at (s_mem w) fmt (format its ++ [0]) -> apart cf p B fmt (Zlen (format its) + 1) ->
  plain_items cf its -> Forall (piece_given cf A w p B) xs -> Forall (points_into []) xs ->
  let t := unrolled cf (fun _ _ _ => []) p 0 [] xs in
  Zlen t < INT_MAX -> sums_ok cf (Zlen t) -> Zlen t <= bf_cap B ->
  becomes_alone cf w p B (strbuf_prnf cf A w (Some p) fmt (arguments cf its ++ va)) (Buffer t (bf_cap B) (bf_alloc B)).
Proof. intros cf A w p B fmt xs va Wf. now apply prnf_own_plain. Qed.
Print Assumptions C142_prnf_partial.
Definition lit (t : list Z) : ptr := Ptr (PLit (t ++ [0])) 0.
Definition own_at (p : ptr) (k : Z) : ptr := shift (chars_of gcc64 p) k.
Definition plain_s : conv := Conv [] WNone PNone Lint.
Definition own_row {D} : list (piece D) := [Given (Text (bs "x")); Own false plain_s 4].
Definition own_first {D} : list (item D) := [Text (bs "/"); Str false plain_s (Ptr (PBlk 3) 0) (bs "lo")].
Example C142_ex : forall A, ready gcc64 w_move pdyn b_hello
  /\ format (map (now gcc64 pdyn (bf_data b_hello)) (@own_row (dbl A))) = bs "x%s"
  /\ arguments gcc64 (map (now gcc64 pdyn (bf_data b_hello)) (@own_row (dbl A))) = [AP (own_at pdyn 4)]
  /\ plain_items gcc64 (map (now gcc64 pdyn (bf_data b_hello)) (@own_row (dbl A)))
  /\ Forall (piece_given gcc64 A w_move pdyn b_hello) own_row /\ Forall (points_into (bf_data b_hello)) (@own_row (dbl A))
  /\ unrolled gcc64 (fun _ _ _ => []) pdyn 0 (bf_data b_hello) (@own_row (dbl A)) = bs "xox"
  /\ shows gcc64 (strbuf_append_prnf gcc64 A w_move (Some pdyn) (lit (bs "x%s")) [AP (own_at pdyn 4)]) = Some (Some (bs "helloxox"), 8)
  /\ shows gcc64 (strbuf_append_prnf gcc64 A w_move (Some pfix) (lit (bs "%s%s")) [AP (own_at pfix 4); AP (own_at pfix 6)]) = Some (Some (bs "abcdefefef"), 10)
  /\ shows gcc64 (strbuf_prnf gcc64 A w_move (Some pfix) (lit (bs "<%s|%s>")) [AP (own_at pfix 0); AP (own_at pfix 0)]) = Some (Some (bs "<<|<<|>"), 10).
Proof.
  intros A. split; [exact dyn_ready|]. do 2 (split; [vm_compute; reflexivity|]). split; [items_check|].
  split; [repeat constructor|]. split; [repeat constructor|]. do 3 (split; [vm_compute; reflexivity|]). vm_compute. reflexivity.
Qed.
Example C142_first_ex : forall A, ready gcc64 w_move pfix b_fixed
  /\ (let all := Str false plain_s (own_at pfix 5) (to_nul (skipn 5 (bf_data b_fixed))) :: @own_first (dbl A) in
      format all = bs "%s/%s" /\ plain_items gcc64 all /\ plain gcc64 all = bs "f/lo")
  /\ Forall (item_mem (s_mem w_move)) (@own_first (dbl A)) /\ Forall (item_apart gcc64 pfix b_fixed) (@own_first (dbl A))
  /\ shows gcc64 (strbuf_append_prnf gcc64 A w_move (Some pfix) (lit (bs "%s/%s")) [AP (own_at pfix 5); AP (Ptr (PBlk 3) 0)]) = Some (Some (bs "abcdeff/lo"), 10).
Proof.
  intros A. split; [exact fix_ready|]. split; [cbv zeta; split; [vm_compute; reflexivity|]; split; [items_check|vm_compute; reflexivity]|].
  split; [each_item cstr_check|]. split; [each_item ltac:(left; discriminate)|]. vm_compute. reflexivity.
Qed.

(** Behind any text x, the buffer's text is not the text from before the call: x is in it too. *)
Theorem C142_behind_refuted : forall cf A w p B fmt x va, wf_cfg cf -> mem_wf (s_mem w) -> buf_at cf (s_mem w) p B -> ~ In 0 (bf_data B) ->
  Forall (fun x => 0 < x < 256 /\ x <> 37 /\ x <> 11) x ->
  bytes_at (s_mem w) fmt (x ++ [37; 115; 0]) -> apart cf p B fmt (Zlen x + 3) ->
  let l := bf_data B ++ x in Zlen x + Zlen l < INT_MAX -> sums_ok cf (Zlen l + Zlen l) -> Zlen l + Zlen l <= bf_cap B ->
  becomes_alone cf w p B (strbuf_append_prnf cf A w (Some p) fmt (AP (chars_of cf p) :: va)) (Buffer (l ++ l) (bf_cap B) (bf_alloc B)) /\
  (x <> [] -> l ++ l <> bf_data B ++ x ++ bf_data B).
Proof.
  intros cf A w p B fmt x va Wf Wm HB Hn Hx Hf Ha l Ht Hs Hr. split; [now apply append_own_behind|].
  intros Hx0 E. apply Hx0. apply (f_equal (@List.length Z)) in E. unfold l in E. rewrite !app_length in E. destruct x; [reflexivity|]. cbn [List.length] in E. lia.
Qed.
Print Assumptions C142_behind_refuted.
(** strbuf_prnf(&b, "%s", b->cstr) empties every buffer. *)
Theorem C142_emptied_refuted : forall cf A w p B fmt va, wf_cfg cf -> mem_wf (s_mem w) -> buf_at cf (s_mem w) p B ->
  bytes_at (s_mem w) fmt [37; 115; 0] -> apart cf p B fmt 3 -> sums_ok cf 0 ->
  becomes_alone cf w p B (strbuf_prnf cf A w (Some p) fmt (AP (chars_of cf p) :: va)) (Buffer [] (bf_cap B) (bf_alloc B)).
Proof. intros cf A w p B fmt va Wf. now apply prnf_own_empty. Qed.
Print Assumptions C142_emptied_refuted.
(** The buffer has to grow while its own text is printed and the allocator moves it: at least one
    more character is read from the old place, which does not exist any more. *)
Theorem C142_moved_refuted : forall cf A w p B fmt (xs : list (piece (dbl A))) c t k rest va, wf_cfg cf -> mem_wf (s_mem w) -> buf_at cf (s_mem w) p B ->
  no_fail w -> ch_move (s_orc w 0%nat) = true -> dyn B = true -> conv_ok c -> cv_width c = WNone -> cv_prec c = PNone -> t = 115 \/ t = 83 ->
  (k <= List.length (bf_data B))%nat ->
  let its := map (now cf p (bf_data B)) xs in let f := format its ++ conv_text c t ++ rest in
  bytes_at (s_mem w) fmt f -> apart cf p B fmt (Zlen f) ->
  items_before cf (fun _ _ _ => False) 37 its -> Forall (piece_given cf A w p B) xs -> Forall (points_into (bf_data B)) xs ->
  let l := bf_data B ++ unrolled cf (fun _ _ _ => []) p 0 (bf_data B) xs in let own := to_nul (skipn k l) in
  Zlen l <= bf_cap B -> bf_cap B + 1 < Zlen l + Zlen own -> bf_cap B < INT_MAX -> sums_ok cf (bf_cap B + 1) ->
  strbuf_append_prnf cf A w (Some p) fmt (arguments cf its ++ conv_args c ++ AP (shift (chars_of cf p) (Z.of_nat k)) :: va) = UB UB_dead.
Proof. intros cf A w p B fmt xs c t k rest va Wf. now apply append_own_moved_plain. Qed.
Print Assumptions C142_moved_refuted.
Definition b_ab : buffer := Buffer (bs "ab") 8 heapA.
Definition w_ab : st := St [bufblk gcc64 4096 b_ab] (fun _ => Choice false true 0).
Example C142_refuted_ex : forall A, mem_wf (s_mem w_ab) /\ buf_at gcc64 (s_mem w_ab) pdyn b_ab /\ ~ In 0 (bf_data b_ab)
  /\ bytes_at (s_mem w_ab) (lit (bs "x%s")) (bs "x" ++ [37; 115; 0]) /\ apart gcc64 pdyn b_ab (lit (bs "x%s")) 4
  /\ shows gcc64 (strbuf_append_prnf gcc64 A w_ab (Some pdyn) (lit (bs "x%s")) [AP (chars_of gcc64 pdyn)]) = Some (Some (bs "abxabx"), 8)
  /\ shows gcc64 (strbuf_append_prnf gcc64 A w_ab (Some pdyn) (lit (bs "%s%s")) [AP (chars_of gcc64 pdyn); AP (chars_of gcc64 pdyn)]) = Some (Some (bs "abababab"), 8)
  /\ shows gcc64 (strbuf_prnf gcc64 A w_ab (Some pdyn) (lit (bs "%s")) [AP (chars_of gcc64 pdyn)]) = Some (Some [], 8).
Proof.
  intros A. split; [wf_check|]. split; [buf_check 4096|]. split; [cbn; intuition discriminate|].
  split; [apply bytes_atb_ok; vm_compute; reflexivity|]. split; [left; discriminate|]. do 2 (split; [vm_compute; reflexivity|]). vm_compute. reflexivity.
Qed.
Example C142_moved_ex : forall A, ready gcc64 w_move pdyn b_hello /\ ch_move (s_orc w_move 0%nat) = true /\ dyn b_hello = true /\ conv_ok plain_s
  /\ items_before gcc64 (fun _ _ _ => False) 37 (map (now gcc64 pdyn (bf_data b_hello)) [Given (Text (bs "+")) : piece (dbl A)])
  /\ bytes_at (s_mem w_move) (lit (bs "+%s")) (bs "+" ++ conv_text plain_s 115 ++ [0])
  /\ to_nul (skipn 1 (bs "hello" ++ unrolled gcc64 (fun _ _ _ => []) pdyn 0 (bs "hello") [Given (Text (bs "+")) : piece (dbl A)])) = bs "ello+"
  /\ strbuf_append_prnf gcc64 A w_move (Some pdyn) (lit (bs "+%s")) [AP (own_at pdyn 1)] = UB UB_dead
  /\ shows gcc64 (strbuf_append_prnf gcc64 A w_stay (Some pdyn) (lit (bs "+%s")) [AP (own_at pdyn 1)]) = Some (Some (bs "hello+ello+"), 16).
Proof.
  intros A. split; [exact dyn_ready|]. do 2 (split; [reflexivity|]). split; [split; exact Logic.I|].
  split. { unfold items_before, item_ok, conv_ok; cbn -[Z.lt Z.le In counts]; repeat (split || constructor); cbv; try intuition discriminate; try reflexivity. }
  split; [apply bytes_atb_ok; vm_compute; reflexivity|]. do 2 (split; [vm_compute; reflexivity|]). vm_compute. reflexivity.
Qed.
