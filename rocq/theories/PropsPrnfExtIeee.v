(** Property theorems about prnf with PRNF_SUPPORT_EXTENSIONS (C159, C160): strings handed over
    with %n next to floating point numbers in IEEE-754 arithmetic. *)
From Coq Require Import String ZArith Reals.
From Flocq Require Import Core BinarySingleNaN.
From Verif Require Import Base Mem Libc Alloc StrviewModel Spec MemLemmas NumSpec IeeeSpec StrbufModel BufSpec
  PrnfModel PrnfSpec PrnfSpec2 PrnfIeee PrnfProofs4 PrnfProofs6 PrnfProofs9 PrnfBufModel PrnfExtModel PrnfExtSpec PrnfExtProofs3 PrnfExtBufModel PrnfExtProofs4
  ExampleLib BufExample PropsNum PropsBuf PropsPrnf PropsPrnfIeee PropsPrnfExt PropsPrnfExtBuf.
From Verif Require StrbufProofs7.
Local Open Scope string_scope.
Local Open Scope list_scope.
Local Open Scope Z_scope.

(** [t] is an acceptable text of the pieces: numbers as in C104, strings handed over cut and padded. *)
Fixpoint pieces_print {D} (cf : cfg) (ft : bool -> conv -> D -> list Z -> Prop) (col : Z) (l : list (piece D)) (t : list Z) : Prop :=
  match l with
  | [] => t = []
  | x :: l => exists s r, t = s ++ r /\ match x with Item i => item_prints cf ft col i s | Given c _ g => s = given_text c g end /\
                          pieces_print cf ft (after cf col s) l r
  end.
Lemma ieee_shown : forall cf (l : list (piece b64)) col, pieces_ok cf float_ok l ->
  pieces_ok cf (flt_fine ieee) l /\ pieces_print cf ieee_text col l (PrnfExtSpec.shown cf (flt ieee) col l).
Proof.
  intros cf. induction l as [|x l IH]; intros col H; [split; [exact Logic.I|reflexivity]|]. destruct H as (Hx & Hl & Hv). cbn [PrnfExtSpec.shown pieces_print].
  set (s := piece_out cf (flt ieee) col x). destruct (IH (after cf col s) Hl) as [I1 I2].
  assert (piece_ok cf (flt_fine ieee) x /\ match x with Item i => item_prints cf ieee_text col i s | Given c _ g => s = given_text c g end) as [E1 E2].
  { destruct x as [i|c p g]; [|split; [exact Hx|reflexivity]]. destruct Hx as [Hi Ht].
    assert (items_ok cf float_ok [i] -> item_ok cf (flt_fine ieee) i /\ item_prints cf ieee_text col i s) as K.
    { intros H. apply (printed_prints cf ieee ieee_text float_ok) with (col := col) in H.
      - destruct H as [(H & _) (s1 & r1 & P1 & P2 & P3)]. cbn [prints] in P3. subst r1. cbn [printed] in P1. rewrite !app_nil_r in P1. rewrite <- P1 in P2. auto.
      - clear. intros e c d Hc _. split; [now apply PrnfProofs7.ieee_flt_fine|]. pose proof (PrnfProofs4.flt_prec_range c e) as Hp.
        destruct e; [now apply PrnfProofs8.eng_text_ok|now apply PrnfProofs8.flt_text_ok]. }
    destruct K as [K1 K2]; [|cbn [piece_ok]; auto]. cbn [items_ok format map concat hd]. repeat split; auto. destruct i; auto. }
  split; [repeat split; auto|eauto].
Qed.

(** ** snprnf prints the text and frees the strings, each of them and nothing else *)
Theorem C159_numbers : forall cf (l : list (piece b64)), wf_cfg cf -> pieces_ok cf float_ok l -> once l ->
  exists t, pieces_print cf ieee_text 0 l t /\ (Zlen t < INT_MAX ->
    (forall heap m dst n fmt va, 0 <= n <= INT_MAX -> let w := Z.min n (Zlen t + 1) in writable m dst w -> on_heap heap m fmt l -> away_from dst w fmt l ->
     exists m1 m', snprnf_n cf ieee heap m dst n fmt (args_of cf l ++ va) = Ok (Zlen t, m') /\
       released m m1 (given_away l) /\ only_wrote m1 m' dst w /\ (0 < n -> bytes_at m' dst (firstn (Z.to_nat (n - 1)) t ++ [0]))) /\
    (forall heap m n fmt va, on_heap heap m fmt l ->
     exists m', snprnf_n cf ieee heap m null n fmt (args_of cf l ++ va) = Ok (Zlen t, m') /\ released m m' (given_away l))).
Proof.
  intros cf l Wf Hp Ho. destruct (ieee_shown cf l 0 Hp) as [K E]. eexists. split; [exact E|]. intros Ht. split.
  - intros heap m dst n fmt va Hn w Hw (G1 & G2 & G3) (E1 & E2). now apply (sn_n_ok cf ieee).
  - intros heap m n fmt va (G1 & G2 & G3). now apply (null_n_ok cf ieee).
Qed.
Print Assumptions C159_numbers.

(** ** strbuf_prnf and strbuf_append_prnf *)
Theorem C160_numbers : forall cf (l : list (piece b64)), pieces_ok cf float_ok l -> once l ->
  exists t, pieces_print cf ieee_text 0 l t /\ (Zlen t < INT_MAX ->
    forall heap w p B fmt va, ready cf w p B -> on_heap heap (s_mem w) fmt l -> off_buffer cf p B fmt l ->
    (sums_ok cf (Zlen t) -> exists m1, released (s_mem w) m1 (given_away l) /\
       becomes cf (with_mem w m1) p B (strbuf_prnf_n cf ieee heap w (Some p) fmt (args_of cf l ++ va)) (put_all cf B t)) /\
    (sums_ok cf (Zlen (bf_data B) + Zlen t) -> exists m1, released (s_mem w) m1 (given_away l) /\
       becomes cf (with_mem w m1) p B (strbuf_append_prnf_n cf ieee heap w (Some p) fmt (args_of cf l ++ va)) (put_all cf B (bf_data B ++ t)))).
Proof.
  intros cf l Hp Ho. destruct (ieee_shown cf l 0 Hp) as [K E]. eexists. split; [exact E|].
  intros Ht heap w p B fmt va (H1 & H2 & H3 & H4) (G1 & G2 & G3) (E1 & E2). split; intros Hs.
  - now apply (prnf_n_ok cf ieee).
  - now apply (append_prnf_n_ok cf ieee).
Qed.
Print Assumptions C160_numbers.

(** "%n=%+7.2f or %.1e%-6n|" with the strings pi and about from the heap. *)
Definition pi_pieces : list (piece b64) :=
  [Given nc (Ptr (PBlk 2) 0) (bs "pi"); Item (Text (bs "=")); Item (Flt false (Conv [FPlus] (WNum 7) (PNum 2) Lint) (dbl_of 201 (-6)));
   Item (Text (bs " or ")); Item (Eng false (Conv [] WNone (PNum 1) Lint) (dbl_of 12345 0));
   Given (Conv [FMinus] (WNum 6) PNone Lint) (Ptr (PBlk 3) 0) (bs "abc"); Item (Text (bs "|"))].
Definition pi_heap : mem := nmem (bs "%n=%+7.2f or %.1e%-6n|") (bs "pi") (bs "abc").
Ltac pi_heap_check :=
  split; [repeat (apply Forall_cons; [first [exact Logic.I | right; split; [cstr_check|eexists _, _; split; [reflexivity|split; reflexivity]]]|]); apply Forall_nil|
          intros b Hb; cbn in Hb; repeat destruct Hb as [<-|Hb]; try discriminate; contradiction].
Example C159_numbers_ex : pieces_ok gcc64 float_ok pi_pieces /\ once pi_pieces /\ on_heap lib pi_heap xfmt pi_pieces /\ given_away pi_pieces = [2; 3]%nat
  /\ writable pi_heap xdst 27 /\ away_from xdst 27 xfmt pi_pieces
  /\ seen (snprnf_n gcc64 ieee lib pi_heap xdst 64 xfmt (args_of gcc64 pi_pieces)) 27 = Some (26, bs "pi=  +3.14 or 12.3kabc   |" ++ [0])
  /\ alive (snprnf_n gcc64 ieee lib pi_heap xdst 64 xfmt (args_of gcc64 pi_pieces)) = Some [true; true; false; false].
Proof.
  split; [items_check|]. split.
  { cbn. repeat (split; try exact Logic.I; try apply Forall_nil; try (apply Forall_cons; [repeat (apply Forall_cons; [intros K; cbn in K; try congruence; contradiction|]); apply Forall_nil|apply Forall_nil])). }
  split; [split; [rewrite (ltac:(vm_compute; reflexivity) : format_of pi_pieces = bs "%n=%+7.2f or %.1e%-6n|"); apply bytes_atb_ok; vm_compute; reflexivity|]; pi_heap_check|].
  split; [reflexivity|]. split. { exists 0%nat, (Block 4096 64 true Static (fun _ => CUndef)). repeat split; cbn; lia. }
  split. { split; [left; discriminate|]. repeat (apply Forall_cons; [first [exact Logic.I | right; discriminate]|]). apply Forall_nil. }
  split; vm_compute; reflexivity.
Qed.

(** "<%n|%.2f>" on a dynamic buffer that moves and on a fixed buffer that is too small. *)
Definition two_pieces : list (piece b64) :=
  [Item (Text (bs "<")); Given nc (Ptr (PBlk 5) 0) (bs "LOTS"); Item (Text (bs "|")); Item (Flt false (Conv [] WNone (PNum 2) Lint) (dbl_of 201 (-6))); Item (Text (bs ">"))].
Definition two_fmt : ptr := Ptr (PLit (bs "<%n|%.2f>" ++ [0])) 0.
Example C160_numbers_ex : pieces_ok gcc64 float_ok two_pieces /\ once two_pieces /\ on_heap lib gm two_fmt two_pieces
  /\ ready gcc64 g_move pdyn b_hello /\ off_buffer gcc64 pdyn b_hello two_fmt two_pieces
  /\ shows gcc64 (strbuf_append_prnf_n gcc64 ieee lib g_move (Some pdyn) two_fmt (args_of gcc64 two_pieces)) = Some (Some (bs "hello<LOTS|3.14>"), 16)
  /\ alive_b (strbuf_append_prnf_n gcc64 ieee lib g_move (Some pdyn) two_fmt (args_of gcc64 two_pieces)) = Some [false; true; true; true; true; false; true]
  /\ shows gcc64 (strbuf_append_prnf_n gcc64 ieee lib g_move (Some pfix) two_fmt (args_of gcc64 two_pieces)) = Some (Some [], 10)
  /\ alive_b (strbuf_append_prnf_n gcc64 ieee lib g_move (Some pfix) two_fmt (args_of gcc64 two_pieces)) = Some [true; true; true; true; true; false; true].
Proof.
  split; [items_check|]. split.
  { cbn. repeat (split; try exact Logic.I; try apply Forall_nil; try (apply Forall_cons; [repeat (apply Forall_cons; [intros K; cbn in K; try congruence; contradiction|]); apply Forall_nil|apply Forall_nil])). }
  split; [split; [rewrite (ltac:(vm_compute; reflexivity) : format_of two_pieces = bs "<%n|%.2f>"); apply bytes_atb_ok; vm_compute; reflexivity|]; pi_heap_check|].
  split. { split; [exact gcc64_wf|]. split; [wf_check|]. split; [intros n; reflexivity|]. buf_check 4096. }
  split; [split; [left; discriminate|]; repeat (apply Forall_cons; [first [exact Logic.I | right; discriminate]|]); apply Forall_nil|].
  repeat split; vm_compute; reflexivity.
Qed.
