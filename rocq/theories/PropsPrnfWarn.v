(** Property theorems about prnf with a warning handler (C166). *)
From Coq Require Import String.
From Verif Require Import Base Mem Libc StrviewModel Spec MemLemmas StrviewProofs StrviewProofs3 NumSpec StrnumProofs3
  PrnfModel PrnfSpec PrnfSpec2 PrnfProofs4 PrnfProofs5 PrnfProofs9 PrnfFormat2 PrnfWarnModel PrnfWarnSpec PrnfWarnProofs
  ExampleLib BufExample PropsNum PropsBuf PropsBuf2 PropsPrnf PropsPrnf2 PropsPrnfAssert.
Local Open Scope string_scope.
Local Open Scope list_scope.
Local Open Scope Z_scope.

(** snprnf and sprnf with the handler: the return value, the number of calls of the handler, the memory. *)
Notation snprnf_w cf A := (vsnprnf_w cf A mem (fun m : mem => m) (fun _ m => m)).
Notation sprnf_w cf A := (vsprnf_w cf A mem (fun m : mem => m) (fun _ m => m)).

(** ** Any format string and any arguments *)
(** Apart from the calls of the handler the outcome is that of the build as shipped. *)
Theorem C166_shipped : forall cf A,
  (forall m dst n fmt va, (let! (k, _, m) := snprnf_w cf A m dst n fmt va in Ok (k, m)) = snprnf cf A m dst n fmt va) /\
  (forall m dst fmt va, (let! (k, _, m) := sprnf_w cf A m dst fmt va in Ok (k, m)) = sprnf cf A m dst fmt va) /\
  (forall W (rd : W -> mem) wr fn s fmt va, (let! (k, _, s) := vfptrprnf_w cf A W rd wr fn s fmt va in Ok (k, s)) = vfptrprnf cf A W rd wr fn s fmt va).
Proof.
  intros cf A.
  assert (forall W (rd : W -> mem) wr o fmt va, (let! (k, _, o) := core_prnf_w cf A W rd wr o fmt va in Ok (k, o_st W o)) = (let! (k, o) := core_prnf cf A W rd wr o fmt va in Ok (k, o_st W o))) as Q.
  { intros W rd wr o fmt va. rewrite <- (core_w cf A W rd wr o fmt va).
    destruct (core_prnf_w _ _ _ _ _ _ _ _) as [[[k n] o1]| |]; reflexivity. }
  unfold vsnprnf_w, vsnprnf, vsprnf_w, vsprnf, vfptrprnf_w, vfptrprnf. repeat split; intros; rewrite <- Q;
    match goal with |- context [core_prnf_w ?a ?b ?c ?d ?e ?f ?g ?h] => destruct (core_prnf_w a b c d e f g h) as [[[k n1] o1]| |]; reflexivity end.
Qed.
Print Assumptions C166_shipped.
(** ** Formats of placeholders *)
(** Every # and every ' among the flags is reported and does not change the text. *)
Theorem C166_count : forall cf A m dst n fmt items va, wf_cfg cf -> 0 <= n <= INT_MAX -> plain_items cf items ->
  let t := plain cf items in let w := Z.min n (Zlen t + 1) in Zlen t < INT_MAX ->
  writable m dst w -> given m fmt items -> elsewhere dst w fmt items ->
  exists m', snprnf_w cf A m dst n fmt (arguments cf items ++ va) = Ok (Zlen t, total_warnings items, m') /\
    only_wrote m m' dst w /\ (0 < n -> bytes_at m' dst (firstn (Z.to_nat (n - 1)) t ++ [0])).
Proof.
  intros cf A m dst n fmt items va Wf Hn Hp. destruct (plain_fine cf A items 0 Hp) as [P1 P2]. cbv zeta. unfold plain. rewrite <- P2.
  intros Ht Hw [G1 G2] [E1 E2]. now apply vsnprnf_w_ok.
Qed.
Print Assumptions C166_count.
Theorem C166_handler : forall cf A W (rd : W -> mem) wr fn (J : W -> Prop) s fmt items va, wf_cfg cf ->
  (forall s c s', J s -> fn s c = Ok s' -> J s') -> (forall s, J s -> given (rd s) fmt items) -> J s ->
  plain_items cf items -> Zlen (plain cf items) < INT_MAX ->
  vfptrprnf_w cf A W rd wr (Some fn) s fmt (arguments cf items ++ va) =
    let! s := feed fn s (plain cf items) in Ok (Zlen (plain cf items), total_warnings items, s).
Proof.
  intros cf A W rd wr fn J s fmt items va Wf Hj Hg Hs Hp Ht. destruct (plain_fine cf A items 0 Hp) as [P1 P2].
  unfold plain in *. rewrite <- P2 in *. now apply vfptrprnf_w_ok with (J := J).
Qed.
Print Assumptions C166_handler.
(** It is not called for placeholders without # and ', and for no others. *)
Theorem C166_silent : forall D (items : list (item D)), total_warnings items = 0 <-> Forall no_unsupported items.
Proof.
  intros D. assert (forall c, 0 <= conv_warnings c /\ (conv_warnings c = 0 <-> ~ In FHash (cv_flags c) /\ ~ In FQuote (cv_flags c))) as C.
  { intros c. unfold conv_warnings. split; [apply Zlen_nonneg|]. induction (cv_flags c) as [|f l IH]; [cbn; tauto|].
    cbn [filter In]. pose proof (Zlen_nonneg (filter unsupported_flag l)) as N.
    destruct f; cbn [unsupported_flag]; rewrite ?Zlen_cons; try (rewrite IH; intuition discriminate).
    all: split; [lia|intros [? ?]; exfalso; intuition]. }
  assert (forall i : item D, 0 <= warnings i /\ (warnings i = 0 <-> no_unsupported i)) as K.
  { intros i. destruct i; cbn [warnings no_unsupported]; try apply C; split; try lia; tauto. }
  assert (forall l : list (item D), 0 <= total_warnings l) as T0 by (induction l as [|i l IH]; cbn [total_warnings]; [lia|destruct (K i); lia]).
  induction items as [|i l IH]; cbn [total_warnings]; [split; auto|]. specialize (T0 l). destruct (K i) as [K0 K1]. split.
  - intros E. constructor; [apply K1; lia|apply IH; lia].
  - intros F. inversion F; subst. rewrite (proj2 K1), (proj2 IH); auto.
Qed.
Print Assumptions C166_silent.

(** The flags have no other effect: with them left out the same arguments print the same text. *)
Theorem C166_ignored : forall cf A m dst n fmt fmt2 items va, wf_cfg cf -> 0 <= n <= INT_MAX ->
  plain_items cf items -> plain_items cf (map left_out items) ->
  let t := plain cf items in let w := Z.min n (Zlen t + 1) in Zlen t < INT_MAX ->
  writable m dst w -> given m fmt items -> elsewhere dst w fmt items -> given m fmt2 (map left_out items) -> elsewhere dst w fmt2 (map left_out items) ->
  exists m1 m2,
    snprnf_w cf A m dst n fmt (arguments cf items ++ va) = Ok (Zlen t, total_warnings items, m1) /\
    snprnf_w cf A m dst n fmt2 (arguments cf items ++ va) = Ok (Zlen t, 0, m2) /\
    only_wrote m m1 dst w /\ only_wrote m m2 dst w /\
    (0 < n -> forall m', m' = m1 \/ m' = m2 -> bytes_at m' dst (firstn (Z.to_nat (n - 1)) t ++ [0])).
Proof.
  intros cf A m dst n fmt fmt2 items va Wf Hn Hp Hp2 t w Ht Hw G E G2 E2.
  destruct (C166_count cf A m dst n fmt items va Wf Hn Hp Ht Hw G E) as (m1 & R1 & O1 & B1).
  pose proof (C166_count cf A m dst n fmt2 (map left_out items) va Wf Hn Hp2) as C. cbv zeta in C.
  rewrite plain_without, args_without, warnings_without in C. fold t w in C. destruct (C Ht Hw G2 E2) as (m2 & R2 & O2 & B2).
  exists m1, m2. do 4 (split; [assumption|]). intros N m' [-> | ->]; auto.
Qed.
Print Assumptions C166_ignored.

(** "%#x %'5d%0#'#4u%#k|": six unsupported flags, one of them of an unsupported placeholder. *)
Definition flagged {D} : list (item D) :=
  [Hex false (Conv [FHash] WNone PNone Lint) 255; Text (bs " "); Dec false (Conv [FQuote] (WNum 5) PNone Lint) 1000;
   Uns (Conv [FZero; FHash; FQuote; FHash] (WNum 4) PNone Lint) 7; Other (Conv [FHash] WNone PNone Lint) 107; Text (bs "|")].
Definition flagged_mem : mem := xmem (bs "%#x %'5d%0#'#4u%#k|" ++ [0]) [].
Definition seen_w (o : outcome (Z * Z * mem)) (n : Z) : option (Z * Z * list Z) :=
  match o with
  | Ok (k, c, m) => match load_bytes m xdst (Z.to_nat n) with Ok l => Some (k, c, l) | _ => None end
  | _ => None
  end.
Example C166_ex : forall A, plain_items gcc64 (@flagged (dbl A)) /\ given flagged_mem xfmt (@flagged (dbl A)) /\ total_warnings (@flagged (dbl A)) = 6
  /\ writable flagged_mem xdst 20 /\ elsewhere xdst 20 xfmt (@flagged (dbl A)) /\ plain gcc64 (@flagged (dbl A)) = bs "000000FF  10000007|"
  /\ arguments gcc64 (@flagged (dbl A)) = [A32 255; A32 1000; A32 7]
  /\ seen_w (snprnf_w gcc64 A flagged_mem xdst 20 xfmt [A32 255; A32 1000; A32 7]) 20 = Some (19, 6, bs "000000FF  10000007|" ++ [0])
  /\ seen_w (sprnf_w gcc64 A flagged_mem xdst xfmt [A32 255; A32 1000; A32 7]) 20 = Some (19, 6, bs "000000FF  10000007|" ++ [0])
  /\ seen_w (snprnf_w gcc64 A row_mem xdst 20 xfmt (arguments gcc64 row)) 20 = Some (27, 0, bs "id   -42....abc   B" ++ [0])
  /\ vfptrprnf_w gcc64 A (list Z) (fun _ => flagged_mem) (fun s _ => s) (Some log_char) (bs ">") xfmt [A32 255; A32 1000; A32 7] = Ok (19, 6, bs ">000000FF  10000007|")
  /\ snprnf_w gcc64 A pc_mem xdst 20 xfmt [] = UB UB_bounds.
Proof.
  intros A. split.
  { unfold plain_items, items_ok, item_ok, conv_ok, flagged; cbn -[Z.lt Z.le In counts]; repeat (split || constructor); cbv; try intuition discriminate; try reflexivity. }
  split. { split; [rewrite (ltac:(vm_compute; reflexivity) : format (@flagged (dbl A)) = bs "%#x %'5d%0#'#4u%#k|"); apply bytes_atb_ok; vm_compute; reflexivity|repeat constructor]. }
  split; [reflexivity|]. split; [apply xdst_writable; lia|]. split; [split; [left; discriminate|repeat constructor]|].
  repeat split; vm_compute; reflexivity.
Qed.
(** "%#x|%'5d" and "%x|%5d" in the same memory. *)
Definition quoted {D} : list (item D) := [Hex false (Conv [FHash] WNone PNone Lint) 255; Text (bs "|"); Dec false (Conv [FQuote] (WNum 5) PNone Lint) 1000].
Definition quoted_fmt2 : ptr := shift xfmt 9.
Definition quoted_mem : mem := xmem (bs "%#x|%'5d" ++ [0] ++ bs "%x|%5d" ++ [0]) [].
Example C166_ignored_ex : forall A, plain_items gcc64 (@quoted (dbl A)) /\ plain_items gcc64 (map left_out (@quoted (dbl A)))
  /\ writable quoted_mem xdst 15 /\ given quoted_mem xfmt (@quoted (dbl A)) /\ elsewhere xdst 15 xfmt (@quoted (dbl A))
  /\ given quoted_mem quoted_fmt2 (map left_out (@quoted (dbl A))) /\ elsewhere xdst 15 quoted_fmt2 (map left_out (@quoted (dbl A)))
  /\ seen_w (snprnf_w gcc64 A quoted_mem xdst 20 xfmt [A32 255; A32 1000]) 15 = Some (14, 2, bs "000000FF| 1000" ++ [0])
  /\ seen_w (snprnf_w gcc64 A quoted_mem xdst 20 quoted_fmt2 [A32 255; A32 1000]) 15 = Some (14, 0, bs "000000FF| 1000" ++ [0]).
Proof.
  intros A.
  split. { unfold plain_items, items_ok, item_ok, conv_ok, quoted; cbn -[Z.lt Z.le In counts]; repeat (split || constructor); cbv; try intuition discriminate; try reflexivity. }
  split. { unfold plain_items, items_ok, item_ok, conv_ok, quoted; cbn -[Z.lt Z.le In counts]; repeat (split || constructor); cbv; try intuition discriminate; try reflexivity. }
  split; [apply xdst_writable; lia|].
  split. { split; [rewrite (ltac:(vm_compute; reflexivity) : format (@quoted (dbl A)) = bs "%#x|%'5d"); apply bytes_atb_ok; vm_compute; reflexivity|repeat constructor]. }
  split; [split; [left; discriminate|repeat constructor]|].
  split. { split; [rewrite (ltac:(vm_compute; reflexivity) : format (map left_out (@quoted (dbl A))) = bs "%x|%5d"); apply bytes_atb_ok; vm_compute; reflexivity|repeat constructor]. }
  split; [split; [left; discriminate|repeat constructor]|].
  split; vm_compute; reflexivity.
Qed.
