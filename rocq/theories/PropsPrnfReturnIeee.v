(** Property theorems about prnf with an assertion handler that returns, in IEEE-754 arithmetic (C165). *)
From Coq Require Import String ZArith Reals.
From Flocq Require Import Core BinarySingleNaN.
From Verif Require Import Base Mem Libc StrviewModel Spec MemLemmas IeeeSpec NumSpec PrnfModel PrnfSpec PrnfSpec2 PrnfIeee PrnfProofs4 PrnfProofs5 PrnfProofs7 PrnfProofs8
  PrnfProofs9 PrnfAssertModel PrnfAssertSpec PrnfAssertProofs PrnfAssertProofs2 PrnfReturnModel PrnfReturnSpec PrnfReturnProofs PrnfReturnProofs2
  ExampleLib BufExample PropsBuf PropsBuf2 PropsPrnf PropsPrnfIeee PropsPrnfAssert PropsPrnfAssertIeee PropsPrnfReturn.
Local Open Scope string_scope.
Local Open Scope list_scope.
Local Open Scope Z_scope.

(** Numbers with too many decimals are printed with 19; they are reported twice, or once if 19
    decimals have no room. *)
Theorem C165_numbers : forall cf (items : list (item b64)), wf_cfg cf -> items_ok cf float_ok items ->
  exists t, prints cf ieee_text 0 items t /\ (Zlen t < INT_MAX ->
    (forall m dst n fmt va, let w := Z.min n (Zlen t + 1) in
      0 <= n <= INT_MAX -> writable m dst w -> given m fmt items -> elsewhere dst w fmt items ->
      exists m', snprnf_r cf ieee m dst n fmt (arguments cf items ++ va) = Ok (Zlen t, total_calls ieee items, m') /\
        only_wrote m m' dst w /\ (0 < n -> bytes_at m' dst (firstn (Z.to_nat (n - 1)) t ++ [0]))) /\
    (forall W (rd : W -> mem) wr fn (J : W -> Prop) s fmt va,
      (forall s c s', J s -> fn s c = Ok s' -> J s') -> (forall s, J s -> given (rd s) fmt items) -> J s ->
      vfptrprnf_r cf ieee W rd wr (Some fn) s fmt (arguments cf items ++ va) = let! s := feed fn s t in Ok (Zlen t, total_calls ieee items, s))).
Proof.
  intros cf items Wf Hi. destruct (ieee_printed cf items Hi) as [P1 P2]. exists (printed cf (flt ieee) 0 items). split; [exact P2|].
  intros Ht. split.
  - intros m dst n fmt va w Hn Hw [G1 G2] [E1 E2]. now apply vsnprnf_r_ok.
  - intros W rd wr fn J s fmt va Hj Hg Hs. now apply vfptrprnf_r_ok with (J := J).
Qed.
Print Assumptions C165_numbers.
(** The formats the handler is not called for. *)
Theorem C165_calm : forall items : list (item b64), total_calls ieee items = 0 <-> Forall calm items.
Proof.
  assert (forall i : item b64, 0 <= calls ieee i /\ (calls ieee i = 0 <-> trips ieee i = false)) as C0.
  { intros i. destruct i; cbn [calls trips]; unfold decimals_calls; try (split; [lia|tauto]).
    1,2: match goal with |- context [if ?b then _ else 0] => destruct b end; [|split; [lia|tauto]];
      match goal with |- context [if ?b then 1 else 2] => destruct b end; split; try lia; split; discriminate.
    destruct (cv_len c); try (split; [lia|split; discriminate]). destruct (_ || _); split; try lia; split; discriminate. }
  assert (forall i, trips ieee i = false <-> calm i) as K.
  { intros i. rewrite trips_ieee. destruct i; cbn [calm]; try tauto; try (split; [discriminate|tauto]).
    all: rewrite <- many_ok; destruct (is_finite (narrow d)), (many_decimals c); cbn [andb]; split; auto; try discriminate; intros H; exfalso; now apply H. }
  induction items as [|i l IH]; cbn [total_calls]; [split; auto|]. destruct (C0 i) as [C1 C2].
  assert (0 <= total_calls ieee l) as T0 by (clear - C0; induction l as [|j l IHl]; cbn [total_calls]; [lia|destruct (C0 j); lia]).
  split.
  - intros E. constructor; [apply K, C2; lia|apply IH; lia].
  - intros F. inversion F; subst. rewrite (proj2 C2), (proj2 IH); auto. now apply K.
Qed.
Print Assumptions C165_calm.
(** "%.25f %.25f %.25f" of 1, 64 and infinity: 64 has no room. *)
Definition three : list (item b64) := [Flt false c25 (dbl_of 1 0); Text (bs " "); Flt false c25 (dbl_of 64 0); Text (bs " "); Flt false c25 (dbl_of 1 200)].
Definition three_mem : mem := xmem (bs "%.25f %.25f %.25f" ++ [0]) [].
Example C165_numbers_ex : items_ok gcc64 float_ok three /\ given three_mem xfmt three /\ total_calls ieee three = 3
  /\ writable three_mem xdst 31 /\ elsewhere xdst 31 xfmt three
  /\ seen_r (snprnf_r gcc64 ieee three_mem xdst 64 xfmt (arguments gcc64 three)) 31 = Some (30, 3, bs "0.9999999980506447872 OVER INF" ++ [0]).
Proof.
  split; [items_check|]. split; [split; [rewrite (ltac:(vm_compute; reflexivity) : format three = bs "%.25f %.25f %.25f"); apply bytes_atb_ok; vm_compute; reflexivity|repeat constructor]|].
  split; [vm_compute; reflexivity|]. split; [apply xdst_writable; lia|]. split; [split; [left; discriminate|repeat constructor]|]. vm_compute. reflexivity.
Qed.
