(** Property theorems about the configurations of prnf (C158): builds without long long,
    without floating point or without column alignment. *)
From Coq Require Import String.
From Verif Require Import Base Mem Libc StrviewModel Spec MemLemmas StrviewProofs StrviewProofs3 NumSpec StrnumProofs3
  PrnfModel PrnfSpec PrnfSpec2 PrnfProofs4 PrnfProofs5 PrnfProofs9 PrnfConfModel PrnfConfSpec PrnfConfProofs PrnfConfProofs2 PrnfConfProofs3 PrnfConfProofs4
  ExampleLib BufExample PropsNum PropsBuf PropsBuf2 PropsPrnf.
Local Open Scope string_scope.
Local Open Scope list_scope.
Local Open Scope Z_scope.

(** snprnf of a build. *)
Notation snprnf_of cf A bd := (vsnprnf_b cf A mem (fun m : mem => m) (fun _ m => m) bd).
Notation sprnf_of cf A bd := (vsprnf_b cf A mem (fun m : mem => m) (fun _ m => m) bd).
(** All three switched off, or one of them. *)
Definition bare_build : build := Build false false false.
Definition no_ll : build := Build false true true.
Definition no_float : build := Build true false true.
Definition no_col : build := Build true true false.

(** ** Formats that do not use what was switched off *)
(** Nothing in the object of the format string: the same outcome, whatever the arguments are. *)
Theorem C158_same_outcome : forall cf A bd m dst n fmt va, untouched bd m (p_obj fmt) -> p_obj fmt <> p_obj dst ->
  snprnf_of cf A bd m dst n fmt va = snprnf cf A m dst n fmt va.
Proof. exact sn_same. Qed.
Print Assumptions C158_same_outcome.
(** The build as shipped. *)
Theorem C158_shipped : forall cf A m dst n fmt va, snprnf_of cf A shipped m dst n fmt va = snprnf cf A m dst n fmt va.
Proof. intros. unfold vsnprnf_b, vsnprnf. rewrite core_shipped. reflexivity. Qed.
Print Assumptions C158_shipped.
(** No item uses it: the same text. *)
Theorem C158_same_text : forall cf A bd m dst n fmt items va, wf_cfg cf -> 0 <= n <= INT_MAX -> plain_items cf items -> Forall (unused bd) items ->
  let t := plain cf items in let w := Z.min n (Zlen t + 1) in Zlen t < INT_MAX ->
  writable m dst w -> given m fmt items -> elsewhere dst w fmt items ->
  exists m', snprnf_of cf A bd m dst n fmt (arguments cf items ++ va) = Ok (Zlen t, m') /\
    only_wrote m m' dst w /\ (0 < n -> bytes_at m' dst (firstn (Z.to_nat (n - 1)) t ++ [0])).
Proof.
  intros cf A bd m dst n fmt items va Wf Hn Hp Hu t w Ht Hw [G1 G2] [E1 E2]. destruct (unused_built _ bd items Hu) as [B F].
  pose proof (sn_b_ok cf A bd m dst n fmt items va Wf Hn) as K. rewrite B in K. apply K; auto. now apply plain_no_floats.
Qed.
Print Assumptions C158_same_text.

(** "key:%5d|%s" does not use any of them; it contains an e. *)
Definition key_row {D} : list (item D) := [Text (bs "key:"); Dec false (Conv [] (WNum 5) PNone Lint) (-7); Text (bs "|"); Str false (Conv [] WNone PNone Lint) (Ptr (PBlk 2) 0) (bs "abc")].
Definition key_mem : mem := xmem (bs "key:%5d|%s" ++ [0]) (bs "abc" ++ [0]).
Example C158_same_text_ex : forall A, plain_items gcc64 (@key_row (dbl A)) /\ Forall (unused bare_build) (@key_row (dbl A))
  /\ writable key_mem xdst 14 /\ given key_mem xfmt (@key_row (dbl A)) /\ elsewhere xdst 14 xfmt (@key_row (dbl A))
  /\ plain gcc64 (@key_row (dbl A)) = bs "key:   -7|abc"
  /\ seen (snprnf_of gcc64 A bare_build key_mem xdst 20 xfmt (arguments gcc64 key_row)) 14 = Some (13, bs "key:   -7|abc" ++ [0]).
Proof.
  intros A. split; [items_check|]. split; [repeat (apply Forall_cons; [repeat split; intros; try reflexivity; exact I|]); apply Forall_nil|].
  split; [apply xdst_writable; lia|]. split; [split; [apply bytes_atb_ok; vm_compute; reflexivity|each_item cstr_check]|].
  split; [split; [left; discriminate|each_item ltac:(left; discriminate)]|]. split; vm_compute; reflexivity.
Qed.
(** "%d|" has nothing of it in its bytes, and is undefined without its argument in every build. *)
Lemma d_untouched : untouched bare_build (xmem (bs "%d|" ++ [0]) []) (PBlk 1).
Proof.
  intros i c H. assert (In c (bs "%d|" ++ [0])) as K.
  { assert (i = 0 \/ i = 1 \/ i = 2 \/ i = 3 \/ (i < 0 \/ 4 <= i)) as [->|[->|[->|[->|Hi]]]] by lia.
    all: try (vm_compute in H; injection H as <-; cbn; tauto).
    exfalso. revert H. unfold load_byte, load_cell.
    change (access (xmem (bs "%d|" ++ [0]) []) (p_obj (Ptr (PBlk 1) i))) with (Ok (blk 8192 (bs "%d|" ++ [0]))). cbn [bind p_ofs].
    unfold in_block. change (b_size (blk 8192 (bs "%d|" ++ [0]))) with 4.
    destruct ((0 <=? i) && (i + 1 <=? 4)) eqn:Eb; [|discriminate]. apply andb_true_iff in Eb as [E1 E2]. lia. }
  cbn in K. split; [intros _ ->; lia|]. split; [intros _ L; cbn in L; lia|]. intros _ ->. lia.
Qed.
Example C158_same_outcome_ex : forall A, untouched bare_build (xmem (bs "%d|" ++ [0]) []) (p_obj xfmt) /\ p_obj xfmt <> p_obj xdst
  /\ snprnf_of gcc64 A bare_build (xmem (bs "%d|" ++ [0]) []) xdst 8 xfmt [] = UB UB_varg
  /\ seen (snprnf_of gcc64 A bare_build (xmem (bs "%d|" ++ [0]) []) xdst 8 xfmt [A32 12]) 4 = Some (3, bs "12|" ++ [0]).
Proof. intros A. split; [exact d_untouched|]. split; [discriminate|]. split; vm_compute; reflexivity. Qed.

(** ** Formats that do use it *)
Theorem C158_snprnf : forall cf A bd m dst n fmt items va, wf_cfg cf -> 0 <= n <= INT_MAX ->
  items_ok cf (fun _ _ _ => b_float bd = false) items -> Forall (fit bd) items ->
  let t := plain cf (built bd items) in let w := Z.min n (Zlen t + 1) in Zlen t < INT_MAX ->
  writable m dst w -> given m fmt items -> elsewhere dst w fmt items ->
  exists m', snprnf_of cf A bd m dst n fmt (arguments cf (built bd items) ++ va) = Ok (Zlen t, m') /\
    only_wrote m m' dst w /\ (0 < n -> bytes_at m' dst (firstn (Z.to_nat (n - 1)) t ++ [0])).
Proof. intros cf A bd m dst n fmt items va Wf Hn Hok Hfit t w Ht Hw [G1 G2] [E1 E2]. now apply sn_b_ok. Qed.
Print Assumptions C158_snprnf.
Theorem C158_sprnf : forall cf A bd m dst fmt items va, wf_cfg cf ->
  items_ok cf (fun _ _ _ => b_float bd = false) items -> Forall (fit bd) items ->
  let t := plain cf (built bd items) in let w := Zlen t + 1 in Zlen t < INT_MAX ->
  writable m dst w -> given m fmt items -> elsewhere dst w fmt items ->
  exists m', sprnf_of cf A bd m dst fmt (arguments cf (built bd items) ++ va) = Ok (Zlen t, m') /\ only_wrote m m' dst w /\ bytes_at m' dst (t ++ [0]).
Proof.
  intros cf A bd m dst fmt items va Wf Hok Hfit t w Ht Hw Hg He. pose proof (C158_snprnf cf A bd m dst INT_MAX fmt items va Wf ltac:(unfold INT_MAX; lia) Hok Hfit) as K. cbv zeta in K. fold t in K.
  assert (Z.min INT_MAX (Zlen t + 1) = Zlen t + 1) as Ew by (unfold INT_MAX in *; lia).
  assert (firstn (Z.to_nat (INT_MAX - 1)) t = t) as Ef by (apply firstn_all2; unfold Zlen, INT_MAX in *; lia).
  rewrite Ew, Ef in K. destruct (K Ht Hw Hg He) as (m' & E & O & B). exists m'. split; [exact E|]. split; auto. apply B. unfold INT_MAX. lia.
Qed.
Print Assumptions C158_sprnf.
(** A handler of single characters is called with the characters of the text. *)
Theorem C158_handler : forall cf A bd W (rd : W -> mem) wr fn (J : W -> Prop) s fmt items va, wf_cfg cf -> (forall s c s', J s -> fn s c = Ok s' -> J s') ->
  items_ok cf (fun _ _ _ => b_float bd = false) items -> Forall (fit bd) items ->
  let t := plain cf (built bd items) in Zlen t < INT_MAX -> (forall s, J s -> given (rd s) fmt items) -> J s ->
  vfptrprnf_b cf A W rd wr bd (Some fn) s fmt (arguments cf (built bd items) ++ va) = let! s := feed fn s t in Ok (Zlen t, s).
Proof.
  intros cf A bd W rd wr fn J s fmt items va Wf Hj Hok Hfit t Ht Hg Hs. destruct (built_plain cf A bd items 0 Hok) as [K E].
  unfold t, plain in *. rewrite <- E in *. now apply (fptr_b_ok cf A bd W rd wr fn J).
Qed.
Print Assumptions C158_handler.
Theorem C158_measure : forall cf A bd m n fmt items va, wf_cfg cf ->
  items_ok cf (fun _ _ _ => b_float bd = false) items -> Forall (fit bd) items ->
  let t := plain cf (built bd items) in Zlen t < INT_MAX -> given m fmt items ->
  snprnf_of cf A bd m null n fmt (arguments cf (built bd items) ++ va) = Ok (Zlen t, m).
Proof.
  intros cf A bd m n fmt items va Wf Hok Hfit t Ht [G1 G2]. destruct (built_plain cf A bd items 0 Hok) as [K E].
  unfold t, plain in *. rewrite <- E in *. now apply to_null_b_ok.
Qed.
Print Assumptions C158_measure.

(** "%d|%lld|%f|<VT>8.x": each build prints it in its own way. *)
Definition mixed (A : fops) (d : dbl A) : list (item (dbl A)) :=
  [Dec false (Conv [] WNone PNone Lint) 5; Text (bs "|"); Dec false (Conv [] WNone PNone Lll) (-9); Text (bs "|"); Flt false (Conv [] WNone PNone Lint) d;
   Text (bs "|"); Column 8 46; Text (bs "x")].
Definition mixed_mem : mem := xmem (bs "%d|%lld|%f|" ++ [11] ++ bs "8.x" ++ [0]) [].
Example C158_ex : forall A d, items_ok gcc64 (fun _ _ _ => b_float bare_build = false) (mixed A d) /\ Forall (fit bare_build) (mixed A d)
  /\ writable mixed_mem xdst 20 /\ given mixed_mem xfmt (mixed A d) /\ elsewhere xdst 20 xfmt (mixed A d)
  /\ arguments gcc64 (built bare_build (mixed A d)) = [A32 5]
  /\ plain gcc64 (built bare_build (mixed A d)) = bs "5|d||" ++ [11] ++ bs "8.x"
  /\ seen (snprnf_of gcc64 A bare_build mixed_mem xdst 20 xfmt [A32 5]) 10 = Some (9, bs "5|d||" ++ [11] ++ bs "8.x" ++ [0])
  /\ seen (sprnf_of gcc64 A bare_build mixed_mem xdst xfmt [A32 5]) 10 = Some (9, bs "5|d||" ++ [11] ++ bs "8.x" ++ [0])
  /\ vfptrprnf_b gcc64 A (list Z) (fun _ => mixed_mem) (fun s _ => s) bare_build (Some (fun s c => Ok (s ++ [c]))) [] xfmt [A32 5] = Ok (9, bs "5|d||" ++ [11] ++ bs "8.x")
  /\ seen (snprnf_of gcc64 A no_float mixed_mem xdst 20 xfmt [A32 5; A64 (2 ^ 64 - 9)]) 10 = Some (9, bs "5|-9||..x" ++ [0]).
Proof.
  intros A d. split; [items_check|]. split; [repeat (apply Forall_cons; [split; intros; try exact I; discriminate|]); apply Forall_nil|].
  split; [apply xdst_writable; lia|]. split; [split; [apply bytes_atb_ok; vm_compute; reflexivity|each_item idtac]|].
  split; [split; [left; discriminate|each_item idtac]|]. repeat split; vm_compute; reflexivity.
Qed.

(** ** Arguments that are left over *)
(** [a] is the value of a placeholder [f] the build does not print.  The next placeholder that
    takes an argument finds [a]; of another kind than it expects, that is undefined. *)
Theorem C158_argument_left : forall cf A bd m n fmt pre f mids i post a a' r va, wf_cfg cf ->
  built bd pre = pre -> item_args cf f = arguments cf (read_by bd f) ++ [a] -> arguments cf (built bd mids) = [] ->
  read_by bd i = [i] -> item_args cf i = a' :: r -> kind_of a <> kind_of a' ->
  let items := (pre ++ f :: mids) ++ i :: post in
  items_ok cf (fun _ _ _ => b_float bd = false) items -> Forall (fit bd) (pre ++ f :: mids) ->
  Zlen (plain cf (built bd (pre ++ f :: mids))) < INT_MAX -> given m fmt items ->
  snprnf_of cf A bd m null n fmt (arguments cf items ++ va) = UB UB_varg.
Proof.
  intros cf A bd m n fmt pre f mids i post a a' r va Wf Hp Hf Hm Hi Ha Hk items Hok Hfit Ht [G1 G2].
  destruct (built_plain cf A bd items 0 Hok) as [K _]. pose proof (front_plain cf A bd (pre ++ f :: mids) (i :: post) 0 Hok) as E.
  eapply left_ok; eauto; [unfold plain in Ht; rewrite E; exact Ht|]. apply Forall_app in G2. apply G2.
Qed.
Print Assumptions C158_argument_left.

(** printf("%f %d", 1.5, 3) with the build without floating point. *)
Definition f_then_d (A : fops) (d : dbl A) : list (item (dbl A)) :=
  ([] ++ Flt false (Conv [] WNone PNone Lint) d :: [Text (bs " ")]) ++ [Dec false (Conv [] WNone PNone Lint) 3].
Definition fd_mem : mem := xmem (bs "%f %d" ++ [0]) [].
Example C158_left_ex : forall A d, let f : item (dbl A) := Flt false (Conv [] WNone PNone Lint) d in let i : item (dbl A) := Dec false (Conv [] WNone PNone Lint) 3 in
  item_args gcc64 f = arguments gcc64 (read_by no_float f) ++ [AD d]
  /\ arguments gcc64 (built no_float ([Text (bs " ")] : list (item (dbl A)))) = [] /\ read_by no_float i = [i] /\ item_args gcc64 i = A32 3 :: []
  /\ kind_of (AD d) <> kind_of (A32 3 : arg (dbl A))
  /\ items_ok gcc64 (fun _ _ _ => b_float no_float = false) (f_then_d A d) /\ given fd_mem xfmt (f_then_d A d)
  /\ snprnf_of gcc64 A no_float fd_mem null 0 xfmt (arguments gcc64 (f_then_d A d)) = UB UB_varg.
Proof.
  intros A d. cbv zeta. split; [reflexivity|]. split; [reflexivity|]. split; [reflexivity|]. split; [reflexivity|]. split; [discriminate|].
  split; [items_check|]. split; [split; [apply bytes_atb_ok; vm_compute; reflexivity|each_item idtac]|vm_compute; reflexivity].
Qed.
(** The claim that the switches only choose what is printed of a call is false: a call that is
    fine with the build as shipped is undefined with the build without long long. *)
Theorem C158_other_build_undefined : forall A, exists m m' va, bytes_at m xfmt (bs "%lld %d" ++ [0]) /\
  snprnf_of gcc64 A shipped m xdst 20 xfmt va = Ok (4, m') /\ bytes_at m' xdst (bs "-9 3" ++ [0]) /\
  snprnf_of gcc64 A no_ll m xdst 20 xfmt va = UB UB_varg.
Proof.
  intros A. set (m := xmem (bs "%lld %d" ++ [0]) []). set (va := [A64 (2 ^ 64 - 9); A32 3] : list (arg (dbl A))).
  destruct (snprnf_of gcc64 A shipped m xdst 20 xfmt va) as [[k m']| |] eqn:E; [|vm_compute in E; discriminate|vm_compute in E; discriminate].
  exists m, m', va. split; [apply bytes_atb_ok; vm_compute; reflexivity|].
  assert (k = 4 /\ bytes_atb m' xdst (bs "-9 3" ++ [0]) = true) as [-> B].
  { assert (match snprnf_of gcc64 A shipped m xdst 20 xfmt va with Ok (k, m') => (k =? 4) && bytes_atb m' xdst (bs "-9 3" ++ [0]) | _ => false end = true) as K by (vm_compute; reflexivity).
    rewrite E in K. apply andb_true_iff in K as [K1 K2]. apply Z.eqb_eq in K1. auto. }
  split; [exact E|]. split; [now apply bytes_atb_ok|vm_compute; reflexivity].
Qed.
Print Assumptions C158_other_build_undefined.
