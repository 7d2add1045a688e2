(** Property theorems about prnf with PRNF_SUPPORT_EXTENSIONS (C159): %n prints a string from
    the heap and frees it. *)
From Coq Require Import String.
From Verif Require Import Base Mem Libc Alloc StrviewModel Spec MemLemmas StrviewProofs StrviewProofs3 NumSpec StrnumProofs3
  PrnfModel PrnfSpec PrnfSpec2 PrnfProofs4 PrnfProofs5 PrnfProofs9 PrnfExtModel PrnfExtSpec PrnfExtProofs PrnfExtProofs2 PrnfExtProofs3
  ExampleLib BufExample PropsNum PropsBuf PropsBuf2 PropsPrnf.
From Verif Require StrbufProofs7.
Local Open Scope string_scope.
Local Open Scope list_scope.
Local Open Scope Z_scope.

(** snprnf of the build with extensions; [heap] is the allocator of prnf_free(). *)
Notation snprnf_n cf A heap := (vsnprnf_n cf A mem (fun m : mem => m) (fun _ m => m) heap).
(** Formats without floating point arguments, and their text. *)
Definition plain_pieces {D} (cf : cfg) (l : list (piece D)) : Prop := pieces_ok cf (fun _ _ _ => False) l.
Definition text_of {D} (cf : cfg) (l : list (piece D)) : list Z := shown cf (fun _ _ _ => []) 0 l.
(** The format and the strings are in memory, the format is not in a block that is freed. *)
Definition on_heap {D} (heap : allocator) (m : mem) (fmt : ptr) (l : list (piece D)) : Prop :=
  bytes_at m fmt (format_of l ++ [0]) /\ Forall (piece_mem heap m) l /\ forall b, In b (given_away l) -> p_obj fmt <> PBlk b.
Definition away_from {D} (dst : ptr) (w : Z) (fmt : ptr) (l : list (piece D)) : Prop :=
  clear_of dst w fmt (Zlen (format_of l) + 1) /\ Forall (piece_clear dst w) l.

(** ** The text is printed and the strings are freed, each of them and nothing else *)
Theorem C159_snprnf : forall cf A heap m dst n fmt l va, wf_cfg cf -> 0 <= n <= INT_MAX -> plain_pieces cf l -> once l ->
  let t := text_of cf l in let w := Z.min n (Zlen t + 1) in Zlen t < INT_MAX -> writable m dst w -> on_heap heap m fmt l -> away_from dst w fmt l ->
  exists m1 m', snprnf_n cf A heap m dst n fmt (args_of cf l ++ va) = Ok (Zlen t, m') /\
    released m m1 (given_away l) /\ only_wrote m1 m' dst w /\ (0 < n -> bytes_at m' dst (firstn (Z.to_nat (n - 1)) t ++ [0])).
Proof.
  intros cf A heap m dst n fmt l va Wf Hn Hp Ho t w Ht Hw (G1 & G2 & G3) (E1 & E2). destruct (pieces_plain cf A l 0 Hp) as [K E].
  unfold w, t, text_of in *. rewrite <- E in *. now apply sn_n_ok.
Qed.
Print Assumptions C159_snprnf.

(** sprnf prints the whole text. *)
Notation sprnf_n cf A heap := (vsprnf_n cf A mem (fun m : mem => m) (fun _ m => m) heap).
Theorem C159_sprnf : forall cf A heap m dst fmt l va, wf_cfg cf -> plain_pieces cf l -> once l ->
  let t := text_of cf l in let w := Zlen t + 1 in Zlen t < INT_MAX -> writable m dst w -> on_heap heap m fmt l -> away_from dst w fmt l ->
  exists m1 m', sprnf_n cf A heap m dst fmt (args_of cf l ++ va) = Ok (Zlen t, m') /\
    released m m1 (given_away l) /\ only_wrote m1 m' dst w /\ bytes_at m' dst (t ++ [0]).
Proof.
  intros cf A heap m dst fmt l va Wf Hp Ho t w Ht Hw Hh He. pose proof (C159_snprnf cf A heap m dst INT_MAX fmt l va Wf ltac:(unfold INT_MAX; lia) Hp Ho) as K. cbv zeta in K. fold t in K.
  assert (Z.min INT_MAX (Zlen t + 1) = Zlen t + 1) as Ew by (unfold INT_MAX in *; lia).
  assert (firstn (Z.to_nat (INT_MAX - 1)) t = t) as Ef by (apply firstn_all2; unfold Zlen, INT_MAX in *; lia).
  rewrite Ew, Ef in K. destruct (K Ht Hw Hh He) as (m1 & m' & E & R & O & B). exists m1, m'. split; [exact E|]. split; auto. split; auto. apply B. unfold INT_MAX. lia.
Qed.
Print Assumptions C159_sprnf.

(** A call that only measures frees the strings as well. *)
Theorem C159_measure_frees : forall cf A heap m n fmt l va, wf_cfg cf -> plain_pieces cf l -> once l ->
  let t := text_of cf l in Zlen t < INT_MAX -> on_heap heap m fmt l ->
  exists m', snprnf_n cf A heap m null n fmt (args_of cf l ++ va) = Ok (Zlen t, m') /\ released m m' (given_away l).
Proof.
  intros cf A heap m n fmt l va Wf Hp Ho t Ht (G1 & G2 & G3). destruct (pieces_plain cf A l 0 Hp) as [K E].
  unfold t, text_of in *. rewrite <- E in *. now apply null_n_ok.
Qed.
Print Assumptions C159_measure_frees.

(** "Fred has %n and Bob has %-8.5n|%5d" with two strings from the heap. *)
Definition lib : allocator := Alloc 0 (Some 7%nat).
Definition hblk (base : Z) (l : list Z) : block := Block base (Zlen l) true (Heap lib) (fun i => CByte (nth (Z.to_nat i) l 0)).
Definition nmem (fmt s1 s2 : list Z) : mem := [Block 4096 64 true Static (fun _ => CUndef); blk 8192 (fmt ++ [0]); hblk 12288 (s1 ++ [0]); hblk 16384 (s2 ++ [0])].
Definition nc : conv := Conv [] WNone PNone Lint.
Definition bananas {D} : list (piece D) :=
  [Item (Text (bs "Fred has ")); Given nc (Ptr (PBlk 2) 0) (bs "LOTS"); Item (Text (bs " and Bob has "));
   Given (Conv [FMinus] (WNum 8) (PNum 5) Lint) (Ptr (PBlk 3) 0) (bs "A few bananas"); Item (Text (bs "|")); Item (Dec false (Conv [] (WNum 5) PNone Lint) (-7))].
Definition bananas_mem : mem := nmem (bs "Fred has %n and Bob has %-8.5n|%5d") (bs "LOTS") (bs "A few bananas").
Definition bananas_args {D} : list (arg D) := [AP (Ptr (PBlk 2) 0); AP (Ptr (PBlk 3) 0); A32 (2 ^ 32 - 7)].
(** Which blocks are alive after the call. *)
Definition alive (o : outcome (Z * mem)) : option (list bool) := match o with Ok (_, m) => Some (map b_live m) | _ => None end.
Ltac on_heap_check :=
  split; [apply bytes_atb_ok; vm_compute; reflexivity|];
  split; [repeat (apply Forall_cons; [first [exact Logic.I | right; split; [cstr_check|eexists _, _; split; [reflexivity|split; reflexivity]]]|]); apply Forall_nil|
          intros b Hb; cbn in Hb; repeat destruct Hb as [<-|Hb]; try discriminate; contradiction].
Lemma bananas_heap : forall D, on_heap lib bananas_mem xfmt (@bananas D).
Proof. intros D. on_heap_check. Qed.
Lemma bananas_plain : forall D, plain_pieces gcc64 (@bananas D) /\ once (@bananas D) /\ text_of gcc64 (@bananas D) = bs "Fred has LOTS and Bob has A few   |   -7".
Proof.
  intros D. split; [items_check; auto|]. split; [|vm_compute; reflexivity].
  cbn. repeat (split; try exact Logic.I; try apply Forall_nil; try (apply Forall_cons; [repeat (apply Forall_cons; [intros K; cbn in K; try congruence; contradiction|]); apply Forall_nil|apply Forall_nil])).
Qed.
Example C159_ex : forall A, plain_pieces gcc64 (@bananas (dbl A)) /\ once (@bananas (dbl A)) /\ writable bananas_mem xdst 41
  /\ on_heap lib bananas_mem xfmt (@bananas (dbl A)) /\ away_from xdst 41 xfmt (@bananas (dbl A))
  /\ args_of gcc64 (@bananas (dbl A)) = bananas_args /\ given_away (@bananas (dbl A)) = [2; 3]%nat
  /\ seen (snprnf_n gcc64 A lib bananas_mem xdst 64 xfmt bananas_args) 41 = Some (40, bs "Fred has LOTS and Bob has A few   |   -7" ++ [0])
  /\ alive (snprnf_n gcc64 A lib bananas_mem xdst 64 xfmt bananas_args) = Some [true; true; false; false]
  /\ seen (snprnf_n gcc64 A lib bananas_mem xdst 12 xfmt bananas_args) 12 = Some (40, bs "Fred has LO" ++ [0])
  /\ alive (snprnf_n gcc64 A lib bananas_mem xdst 12 xfmt bananas_args) = Some [true; true; false; false]
  /\ alive (snprnf_n gcc64 A lib bananas_mem null 0 xfmt bananas_args) = Some [true; true; false; false]
  /\ seen (sprnf_n gcc64 A lib bananas_mem xdst xfmt bananas_args) 41 = Some (40, bs "Fred has LOTS and Bob has A few   |   -7" ++ [0]).
Proof.
  intros A. destruct (bananas_plain (dbl A)) as (H1 & H2 & _). split; auto. split; auto.
  split. { exists 0%nat, (Block 4096 64 true Static (fun _ => CUndef)). repeat split; cbn; lia. }
  split; [apply bananas_heap|]. split.
  { split; [left; discriminate|]. repeat (apply Forall_cons; [first [exact Logic.I | right; discriminate]|]). apply Forall_nil. }
  repeat split; vm_compute; reflexivity.
Qed.
(** NULL prints nothing and frees nothing. *)
Example C159_null_ex : forall A, on_heap lib (nmem (bs "[%4n]") [] []) xfmt [Item (Text (bs "[")); Given (D := dbl A) (Conv [] (WNum 4) PNone Lint) null []; Item (Text (bs "]"))]
  /\ seen (snprnf_n gcc64 A lib (nmem (bs "[%4n]") [] []) xdst 64 xfmt [AP null]) 7 = Some (6, bs "[    ]" ++ [0])
  /\ alive (snprnf_n gcc64 A lib (nmem (bs "[%4n]") [] []) xdst 64 xfmt [AP null]) = Some [true; true; true; true].
Proof.
  intros A. split; [|split; vm_compute; reflexivity].
  split; [apply bytes_atb_ok; vm_compute; reflexivity|]. split; [|intros b []].
  apply Forall_cons; [exact Logic.I|]. apply Forall_cons; [left; auto|]. apply Forall_cons; [exact Logic.I|apply Forall_nil].
Qed.

(** ** "%n is accepted as a C string, like %s" *)
(** The items of a call that prints the same strings with %s. *)
Definition with_s {D} (x : piece D) : item D := match x with Item i => i | Given c p l => Str false c p l end.
Definition not_centred {D} (x : piece D) : Prop := match x with Item _ => True | Given c _ _ => centred c = false end.
Lemma shown_with_s : forall D cf flt (l : list (piece D)) col, Forall not_centred l -> shown cf flt col l = printed cf flt col (map with_s l).
Proof.
  intros D cf flt. induction l as [|x l IH]; intros col H; [reflexivity|]. cbn [shown map printed]. apply Forall_inv in H as Hx. apply Forall_inv_tail in H as Hl.
  assert (piece_out cf flt col x = item_out cf flt col (with_s x)) as ->.
  { destruct x as [i|c p t]; [reflexivity|]. cbn [piece_out with_s item_out not_centred] in *. unfold str_text. now rewrite Hx. }
  now rewrite IH.
Qed.
(** It is for placeholders that do not ask for centring: the text is the one of the same call with %s. *)
Theorem C159_like_s_partial : forall cf A heap m dst n fmt l va, wf_cfg cf -> 0 <= n <= INT_MAX -> plain_pieces cf l -> once l -> Forall not_centred l ->
  let t := plain cf (map with_s l) in let w := Z.min n (Zlen t + 1) in Zlen t < INT_MAX -> writable m dst w -> on_heap heap m fmt l -> away_from dst w fmt l ->
  exists m1 m', snprnf_n cf A heap m dst n fmt (args_of cf l ++ va) = Ok (Zlen t, m') /\
    released m m1 (given_away l) /\ only_wrote m1 m' dst w /\ (0 < n -> bytes_at m' dst (firstn (Z.to_nat (n - 1)) t ++ [0])).
Proof.
  intros cf A heap m dst n fmt l va Wf Hn Hp Ho Hc t w Ht Hw G E. pose proof (shown_with_s _ cf (fun _ _ _ => []) l 0 Hc) as K.
  unfold w, t, plain in *. rewrite <- K in *. now apply C159_snprnf.
Qed.
Print Assumptions C159_like_s_partial.
Example C159_like_s_ex : forall D, Forall not_centred (@bananas D) /\ plain gcc64 (map with_s (@bananas D)) = bs "Fred has LOTS and Bob has A few   |   -7".
Proof. intros D. split; [repeat (apply Forall_cons; [first [exact Logic.I | reflexivity]|]); apply Forall_nil|vm_compute; reflexivity]. Qed.
(** It is not for %10.0n: %10.0s centres the string, %10.0n prints ten blanks. *)
Definition wide : conv := Conv [] (WNum 10) (PNum 0) Lint.
Theorem C159_like_s_refuted : forall A, ~ (forall cf heap m dst n fmt l va, wf_cfg cf -> 0 <= n <= INT_MAX -> plain_pieces cf l -> once l ->
  let t := plain cf (map with_s l) in let w := Z.min n (Zlen t + 1) in Zlen t < INT_MAX -> writable m dst w -> on_heap heap m fmt l -> away_from dst w fmt l ->
  exists m1 m', snprnf_n cf A heap m dst n fmt (args_of cf l ++ va) = Ok (Zlen t, m') /\
    released m m1 (given_away l) /\ only_wrote m1 m' dst w /\ (0 < n -> bytes_at m' dst (firstn (Z.to_nat (n - 1)) t ++ [0]))).
Proof.
  intros A H. set (l := [Given (D := dbl A) wide (Ptr (PBlk 2) 0) (bs "abc")]).
  destruct (H gcc64 lib (nmem (bs "%10.0n") (bs "abc") []) xdst 11 xfmt l []) as (m1 & m' & E & _ & _ & B).
  - exact gcc64_wf.
  - unfold INT_MAX. lia.
  - unfold l. items_check.
  - repeat split; apply Forall_cons; [apply Forall_nil|apply Forall_nil].
  - vm_compute. reflexivity.
  - exists 0%nat, (Block 4096 64 true Static (fun _ => CUndef)). repeat split; vm_compute; congruence.
  - unfold l. on_heap_check.
  - split; [left; discriminate|]. apply Forall_cons; [right; discriminate|apply Forall_nil].
  - specialize (B ltac:(lia)). apply load_bytes_ok in B. assert (seen (Ok (10, m')) 11 = Some (10, bs "   abc    " ++ [0])) as K.
    { unfold seen. change (Z.to_nat 11) with (length (firstn (Z.to_nat (11 - 1)) (plain gcc64 (map with_s l)) ++ [0])). rewrite B. reflexivity. }
    assert (seen (snprnf_n gcc64 A lib (nmem (bs "%10.0n") (bs "abc") []) xdst 11 xfmt (args_of gcc64 l ++ [])) 11 = Some (10, bs "          " ++ [0])) as R by (vm_compute; reflexivity).
    rewrite E in R. change (Zlen (plain gcc64 (map with_s l))) with 10 in R. rewrite R in K. vm_compute in K. discriminate.
Qed.
Print Assumptions C159_like_s_refuted.

(** ** Strings that may not be handed over *)
(** Using a string again after %n, with %n or with %s, reads freed memory; [y] is the piece that
    does so, wherever the text goes. *)
Theorem C159_used_again_undefined : forall cf A heap m dst n fmt l y post b va, wf_cfg cf -> plain_pieces cf (l ++ y :: post) -> once l ->
  In b (given_away l) -> uses b y ->
  let t := text_of cf l in let w := Z.min n (Zlen t + 1) in Zlen t < INT_MAX -> (dst = null \/ 0 <= n <= INT_MAX /\ writable m dst w) ->
  bytes_at m fmt (format_of (l ++ y :: post) ++ [0]) -> Forall (piece_mem heap m) l -> (forall b, In b (given_away l) -> p_obj fmt <> PBlk b) ->
  clear_of dst w fmt (Zlen (format_of (l ++ y :: post) ++ [0])) -> Forall (piece_clear dst w) l ->
  snprnf_n cf A heap m dst n fmt (args_of cf (l ++ y :: post) ++ va) = UB UB_dead.
Proof.
  intros cf A heap m dst n fmt l y post b va Wf Hp Ho Hb Hu t w Ht Hd Hf Hm Hff Hc Hcl. destruct (pieces_plain cf A (l ++ y :: post) 0 Hp) as [K _].
  assert (t = shown cf (flt A) 0 l) as E. { symmetry. apply pieces_plain. clear - Hp. unfold plain_pieces in Hp. revert Hp. induction l as [|x l IH]; [intros _; exact Logic.I|].
    intros (H1 & H2 & H3). fold (l ++ y :: post) in *. split; auto. split; [now apply IH|]. destruct x as [i|]; auto. destruct i; auto;
    (assert (hd 0 (format_of (l ++ y :: post)) = hd (hd 0 (format_of (y :: post))) (format_of l)) as Eh by (rewrite format_app; destruct (format_of l); reflexivity);
     rewrite Eh in H3; destruct (format_of l); [vm_compute; destruct cf; reflexivity|exact H3]). }
  unfold w in *. rewrite E in *. eapply again_ok; eauto.
Qed.
Print Assumptions C159_used_again_undefined.

(** "%n%n" and "%n%s" with one string; measuring and then printing. *)
Definition measured (A : fops) (m : mem) (va : list (arg (dbl A))) : outcome (Z * mem) :=
  let! (n, m1) := snprnf_n gcc64 A lib m null 0 xfmt va in snprnf_n gcc64 A lib m1 xdst (n + 1) xfmt va.
Example C159_used_again_ex : forall A, let l := [Given (D := dbl A) nc (Ptr (PBlk 2) 0) (bs "LOTS")] in
  plain_pieces gcc64 (l ++ [Given nc (Ptr (PBlk 2) 0) (bs "LOTS")]) /\ once l /\ In 2%nat (given_away l) /\ uses 2 (Given (D := dbl A) nc (Ptr (PBlk 2) 0) (bs "LOTS"))
  /\ Forall (piece_mem lib (nmem (bs "%n%n") (bs "LOTS") [])) l
  /\ snprnf_n gcc64 A lib (nmem (bs "%n%n") (bs "LOTS") []) null 0 xfmt [AP (Ptr (PBlk 2) 0); AP (Ptr (PBlk 2) 0)] = UB UB_dead
  /\ snprnf_n gcc64 A lib (nmem (bs "%n%s") (bs "LOTS") []) xdst 64 xfmt [AP (Ptr (PBlk 2) 0); AP (Ptr (PBlk 2) 1)] = UB UB_dead
  /\ measured A bananas_mem bananas_args = UB UB_dead.
Proof.
  intros A l. split; [items_check|]. split; [repeat split; repeat (apply Forall_cons; [apply Forall_nil|]); apply Forall_nil|]. split; [now left|]. split; [reflexivity|].
  split; [apply Forall_cons; [right; split; [cstr_check|eexists _, _; split; [reflexivity|split; reflexivity]]|apply Forall_nil]|]. repeat split; vm_compute; reflexivity.
Qed.

(** A string that is not the start of a block of the allocator may be printed but not freed. *)
Theorem C159_not_heap_undefined : forall cf A heap m dst n fmt l c p s post va, wf_cfg cf -> let y := Given c p s in
  plain_pieces cf (l ++ y :: post) -> once (l ++ [y]) -> c_string m p s ->
  p <> null -> (forall b k, p = Ptr (PBlk b) 0 -> nth_error m b = Some k -> b_owner k <> Heap heap) ->
  let t := text_of cf (l ++ [y]) in let w := Z.min n (Zlen t + 1) in Zlen t < INT_MAX -> (dst = null \/ 0 <= n <= INT_MAX /\ writable m dst w) ->
  bytes_at m fmt (format_of (l ++ y :: post) ++ [0]) -> Forall (piece_mem heap m) l -> (forall b, In b (given_away l) -> p_obj fmt <> PBlk b) ->
  clear_of dst w fmt (Zlen (format_of (l ++ y :: post) ++ [0])) -> Forall (piece_clear dst w) (l ++ [y]) ->
  snprnf_n cf A heap m dst n fmt (args_of cf (l ++ y :: post) ++ va) = UB UB_alloc.
Proof.
  intros cf A heap m dst n fmt l c p s post va Wf y Hp Ho Hs Hn Hb t w Ht Hd Hf Hm Hff Hc Hcl. destruct (pieces_plain cf A (l ++ y :: post) 0 Hp) as [K _].
  assert (t = shown cf (flt A) 0 (l ++ [y])) as E. { symmetry. apply pieces_plain. unfold plain_pieces in Hp. clear - Hp. revert Hp. induction l as [|x l IH].
    - intros (H1 & _ & _). split; auto. split; exact Logic.I.
    - intros (H1 & H2 & H3). fold (l ++ y :: post) in *. cbn [app]. split; auto. split; [now apply IH|].
      assert (hd 0 (format_of (l ++ [y])) = hd 0 (format_of (l ++ y :: post))) as Eh; [|now rewrite Eh].
      rewrite !format_app. destruct (format_of l); reflexivity. }
  unfold w in *. rewrite E in *. eapply foreign_ok; eauto. split; auto.
Qed.
Print Assumptions C159_not_heap_undefined.
(** A literal, and the middle of a block. *)
Example C159_not_heap_ex : forall A, c_string (nmem (bs "<%n>") (bs "LOTS") []) (Ptr (PBlk 2) 1) (bs "OTS")
  /\ snprnf_n gcc64 A lib (nmem (bs "<%n>") (bs "LOTS") []) xdst 64 xfmt [AP (Ptr (PBlk 2) 1)] = UB UB_alloc
  /\ snprnf_n gcc64 A lib (nmem (bs "<%n>") (bs "LOTS") []) null 0 xfmt [AP xfmt] = UB UB_alloc.
Proof. intros A. split; [cstr_check|]. split; vm_compute; reflexivity. Qed.

(** ** Formats that do not use the extension: as in the build as shipped (C86) *)
Theorem C159_unchanged : forall cf A heap m dst n fmt items va, wf_cfg cf -> 0 <= n <= INT_MAX -> plain_items cf items -> (forall c, ~ In (Other c 110) items) ->
  let t := plain cf items in let w := Z.min n (Zlen t + 1) in Zlen t < INT_MAX -> writable m dst w -> given m fmt items -> elsewhere dst w fmt items ->
  exists m', snprnf_n cf A heap m dst n fmt (arguments cf items ++ va) = Ok (Zlen t, m') /\
    only_wrote m m' dst w /\ (0 < n -> bytes_at m' dst (firstn (Z.to_nat (n - 1)) t ++ [0])).
Proof.
  intros cf A heap m dst n fmt items va Wf Hn Hp Ho t w Ht Hw [G1 G2] [E1 E2]. set (l := map Item items).
  assert (format_of l = format items) as Ef by (unfold l, format_of, format; rewrite map_map; reflexivity).
  assert (args_of cf l = arguments cf items) as Ea by (unfold l, args_of, arguments; rewrite map_map; reflexivity).
  assert (map with_s l = items) as Es by (unfold l; rewrite map_map; cbn [with_s]; apply map_id).
  assert (given_away l = []) as Eg. { unfold l, given_away. rewrite map_map. cbn [gives]. clear. induction items; cbn; auto. }
  rewrite <- Ea. destruct (C159_like_s_partial cf A heap m dst n fmt l va) as (m1 & m' & R1 & R2 & R3 & R4); rewrite ?Es; auto.
  - unfold l. clear - Hp Ho. induction items as [|i items IH]; [exact Logic.I|]. destruct Hp as (H1 & H2 & H3). cbn [map]. split; [|split].
    + split; auto. destruct i; auto. intros ->. apply (Ho c). now left.
    + apply IH; auto. intros c K. apply (Ho c). now right.
    + assert (format_of (map Item items) = format items) as -> by (unfold format_of, format; rewrite map_map; reflexivity). destruct i; auto.
  - unfold l. clear. induction items; [exact Logic.I|]. split; [apply Forall_nil|auto].
  - unfold l. rewrite Forall_map. rewrite Forall_forall. intros x _. exact Logic.I.
  - split; [now rewrite Ef|]. split; [unfold l; rewrite Forall_map; exact G2|]. rewrite Eg. intros b [].
  - split; [now rewrite Ef|]. unfold l. rewrite Forall_map. exact E2.
  - exists m'. rewrite Es in *. split; auto. rewrite Eg in R2. destruct R2 as (L & _ & R2). assert (m1 = m) as ->; auto.
    apply StrbufProofs7.nth_error_ext. intros i. apply R2. exact (fun K => K).
Qed.
Print Assumptions C159_unchanged.
Example C159_unchanged_ex : forall A, plain_items gcc64 (@row (dbl A)) /\ (forall c, ~ In (Other c 110) (@row (dbl A)))
  /\ seen (snprnf_n gcc64 A lib row_mem xdst 64 xfmt (arguments gcc64 row)) (Zlen row_text + 1) = Some (Zlen row_text, row_text ++ [0]).
Proof.
  intros A. split; [apply row_ok|]. split; [|vm_compute; reflexivity].
  intros c K. unfold row in K. repeat (destruct K as [K|K]; [discriminate|]). exact K.
Qed.
