(** Property theorems about prnf with an assertion handler that returns (C165). *)
From Coq Require Import String.
From Verif Require Import Base Mem Libc StrviewModel Spec MemLemmas StrviewProofs StrviewProofs3 NumSpec StrnumProofs3
  PrnfModel PrnfSpec PrnfSpec2 PrnfProofs4 PrnfProofs5 PrnfProofs9 PrnfFormat2 PrnfAssertModel PrnfAssertSpec PrnfAssertProofs
  PrnfReturnModel PrnfReturnSpec PrnfReturnProofs PrnfReturnProofs2
  ExampleLib BufExample PropsNum PropsBuf PropsBuf2 PropsPrnf PropsPrnf2 PropsPrnfAssert.
Local Open Scope string_scope.
Local Open Scope list_scope.
Local Open Scope Z_scope.

(** snprnf and sprnf with the handler: the return value, the number of calls of the handler, the memory. *)
Notation snprnf_r cf A := (vsnprnf_r cf A mem (fun m : mem => m) (fun _ m => m)).
Notation sprnf_r cf A := (vsprnf_r cf A mem (fun m : mem => m) (fun _ m => m)).

(** ** Any format string and any arguments *)
(** Apart from the calls of the handler the outcome is that of the build as shipped. *)
Theorem C165_shipped : forall cf A,
  (forall m dst n fmt va, (let! (k, _, m) := snprnf_r cf A m dst n fmt va in Ok (k, m)) = snprnf cf A m dst n fmt va) /\
  (forall m dst fmt va, (let! (k, _, m) := sprnf_r cf A m dst fmt va in Ok (k, m)) = sprnf cf A m dst fmt va) /\
  (forall W (rd : W -> mem) wr fn s fmt va, (let! (k, _, s) := vfptrprnf_r cf A W rd wr fn s fmt va in Ok (k, s)) = vfptrprnf cf A W rd wr fn s fmt va).
Proof.
  intros cf A.
  assert (forall W (rd : W -> mem) wr o fmt va, (let! (k, _, o) := core_prnf_r cf A W rd wr o fmt va in Ok (k, o_st W o)) = (let! (k, o) := core_prnf cf A W rd wr o fmt va in Ok (k, o_st W o))) as Q.
  { intros W rd wr o fmt va. pose proof (core_r cf A W rd wr o fmt va) as H.
    destruct (core_prnf_r _ _ _ _ _ _ _ _) as [[[k n] o1]| |]; [destruct H as [-> _]|rewrite H|rewrite H]; reflexivity. }
  unfold vsnprnf_r, vsnprnf, vsprnf_r, vsprnf, vfptrprnf_r, vfptrprnf. repeat split; intros; rewrite <- Q;
    match goal with |- context [core_prnf_r ?a ?b ?c ?d ?e ?f ?g ?h] => destruct (core_prnf_r a b c d e f g h) as [[[k n1] o1]| |]; reflexivity end.
Qed.
Print Assumptions C165_shipped.
(** The handler is called if and only if a handler that stops the program would have stopped it. *)
Theorem C165_called : forall cf A m dst n fmt va k calls m', snprnf_r cf A m dst n fmt va = Ok (k, calls, m') ->
  calls = 0 /\ snprnf_a cf A m dst n fmt va = Ok (Some k, m') \/
  0 < calls /\ exists m1, snprnf_a cf A m dst n fmt va = Ok (None, m1).
Proof.
  intros cf A m dst n fmt va k calls m'. unfold vsnprnf_r, vsnprnf_a.
  pose proof (core_r cf A mem (fun m : mem => m) (fun _ m => m) (Out mem 0 0 (to_int n) dst None m) fmt va) as H.
  destruct (core_prnf_r _ _ _ _ _ _ _ _) as [[[k1 n1] o1]| |]; cbn [bind]; try discriminate. intros E. injection E as <- <- <-. destruct H as (_ & H1 & H2).
  destruct (core_prnf_a _ _ _ _ _ _ _ _) as [[[k2|] o2]| |]; cbn [bind]; try contradiction.
  - destruct H2 as (-> & -> & ->). now left.
  - right. eauto.
Qed.
Print Assumptions C165_called.

(** ** Formats of supported and unsupported placeholders *)
(** Unsupported placeholders print nothing; each is reported once, or twice if it is %L or %j. *)
Theorem C165_count : forall cf A m dst n fmt items va, wf_cfg cf -> 0 <= n <= INT_MAX -> plain_items cf items ->
  let t := plain cf items in let w := Z.min n (Zlen t + 1) in Zlen t < INT_MAX ->
  writable m dst w -> given m fmt items -> elsewhere dst w fmt items ->
  exists m', snprnf_r cf A m dst n fmt (arguments cf items ++ va) = Ok (Zlen t, total_calls A items, m') /\
    only_wrote m m' dst w /\ (0 < n -> bytes_at m' dst (firstn (Z.to_nat (n - 1)) t ++ [0])).
Proof.
  intros cf A m dst n fmt items va Wf Hn Hp. destruct (plain_fine cf A items 0 Hp) as [P1 P2]. cbv zeta. unfold plain. rewrite <- P2.
  intros Ht Hw [G1 G2] [E1 E2]. now apply vsnprnf_r_ok.
Qed.
Print Assumptions C165_count.
Theorem C165_handler : forall cf A W (rd : W -> mem) wr fn (J : W -> Prop) s fmt items va, wf_cfg cf ->
  (forall s c s', J s -> fn s c = Ok s' -> J s') -> (forall s, J s -> given (rd s) fmt items) -> J s ->
  plain_items cf items -> Zlen (plain cf items) < INT_MAX ->
  vfptrprnf_r cf A W rd wr (Some fn) s fmt (arguments cf items ++ va) =
    let! s := feed fn s (plain cf items) in Ok (Zlen (plain cf items), total_calls A items, s).
Proof.
  intros cf A W rd wr fn J s fmt items va Wf Hj Hg Hs Hp Ht. destruct (plain_fine cf A items 0 Hp) as [P1 P2].
  unfold plain in *. rewrite <- P2 in *. now apply vfptrprnf_r_ok with (J := J).
Qed.
Print Assumptions C165_handler.
(** It is not called for formats of supported placeholders only, and for no others. *)
Theorem C165_silent : forall cf A (items : list (item (dbl A))), plain_items cf items -> (total_calls A items = 0 <-> Forall supported items).
Proof.
  intros cf A. assert (forall i, 0 <= calls A i) as C0.
  { intros i. destruct i; cbn [calls]; unfold decimals_calls; try lia; repeat (match goal with |- context [if ?b then _ else _] => destruct b end); try lia.
    all: destruct (cv_len c); lia. }
  assert (forall l : list (item (dbl A)), 0 <= total_calls A l) as T0 by (induction l as [|i l IH]; cbn [total_calls]; [lia|specialize (C0 i); lia]).
  induction items as [|i l IH]; intros H; cbn [total_calls]; [split; auto|]. destruct H as (Hi & Hl & _). specialize (IH Hl). specialize (T0 l).
  assert (calls A i = 0 <-> supported i) as K.
  { destruct i; cbn [calls supported item_ok] in *; try tauto. split; [|tauto]. destruct (cv_len c); try discriminate. destruct (_ || _); discriminate. }
  specialize (C0 i). split.
  - intros E. constructor; [apply K; lia|apply IH; lia].
  - intros F. inversion F; subst. rewrite (proj2 K), (proj2 IH); auto.
Qed.
Print Assumptions C165_silent.

(** "%Ld%d%lL%k|": the d behind %L is text. *)
Definition odd {D} : list (item D) :=
  [Other no_conv 76; Text (bs "d"); Dec false (bare Lint) 42; Other (Conv [] WNone PNone Ll) 76; Other no_conv 107; Text (bs "|")].
Definition odd_mem : mem := xmem (bs "%Ld%d%lL%k|" ++ [0]) [].
Definition seen_r (o : outcome (Z * Z * mem)) (n : Z) : option (Z * Z * list Z) :=
  match o with
  | Ok (k, c, m) => match load_bytes m xdst (Z.to_nat n) with Ok l => Some (k, c, l) | _ => None end
  | _ => None
  end.
Example C165_ex : forall A, plain_items gcc64 (@odd (dbl A)) /\ given odd_mem xfmt (@odd (dbl A)) /\ total_calls A odd = 4
  /\ writable odd_mem xdst 5 /\ elsewhere xdst 5 xfmt (@odd (dbl A)) /\ plain gcc64 (@odd (dbl A)) = bs "d42|"
  /\ seen_r (snprnf_r gcc64 A odd_mem xdst 20 xfmt [A32 42]) 5 = Some (4, 4, bs "d42|" ++ [0])
  /\ seen_r (sprnf_r gcc64 A odd_mem xdst xfmt [A32 42]) 5 = Some (4, 4, bs "d42|" ++ [0])
  /\ seen_r (snprnf_r gcc64 A row_mem xdst 20 xfmt (arguments gcc64 row)) 20 = Some (27, 0, bs "id   -42....abc   B" ++ [0])
  /\ vfptrprnf_r gcc64 A (list Z) (fun _ => odd_mem) (fun s _ => s) (Some log_char) (bs ">") xfmt [A32 42] = Ok (4, 4, bs ">d42|")
  /\ snprnf_r gcc64 A pc_mem xdst 20 xfmt [] = UB UB_bounds.
Proof.
  intros A. split.
  { unfold plain_items, items_ok, item_ok, conv_ok, odd; cbn -[Z.lt Z.le In counts]; repeat (split || constructor); cbv; try intuition discriminate; try reflexivity. }
  split. { split; [rewrite (ltac:(vm_compute; reflexivity) : format (@odd (dbl A)) = bs "%Ld%d%lL%k|"); apply bytes_atb_ok; vm_compute; reflexivity|repeat constructor]. }
  split; [reflexivity|]. split; [apply xdst_writable; lia|]. split; [split; [left; discriminate|repeat constructor]|].
  repeat split; vm_compute; reflexivity.
Qed.
