(** Property theorems about the configurations of prnf (C158): formats with floating point
    numbers in IEEE-754 arithmetic, in builds without long long or without column alignment. *)
From Coq Require Import String ZArith Reals.
From Flocq Require Import Core BinarySingleNaN.
From Verif Require Import Base Mem Libc StrviewModel Spec MemLemmas NumSpec IeeeSpec
  PrnfModel PrnfSpec PrnfSpec2 PrnfIeee PrnfProofs4 PrnfProofs5 PrnfProofs7 PrnfProofs8 PrnfProofs9 PrnfConfModel PrnfConfSpec PrnfConfProofs3 PrnfConfProofs4
  ExampleLib BufExample PropsNum PropsBuf PropsPrnf PropsPrnfIeee PropsPrnfConf.
Local Open Scope string_scope.
Local Open Scope list_scope.
Local Open Scope Z_scope.

Lemma ieee_built : forall cf bd (l : list (item b64)), items_ok cf float_ok l ->
  items_ok cf (need ieee bd) l /\ prints cf ieee_text 0 (built bd l) (printed cf (flt ieee) 0 (built bd l)).
Proof.
  intros cf bd l H. apply (built_prints cf ieee bd ieee_text float_ok); auto. intros e c d Hc _.
  split; [now apply ieee_flt_fine|]. pose proof (flt_prec_range c e) as Hp. destruct e; [now apply eng_text_ok|now apply flt_text_ok].
Qed.

(** Any format: the text is an acceptable text of what the format means to the build. *)
Theorem C158_numbers : forall cf bd (items : list (item b64)), wf_cfg cf -> items_ok cf float_ok items -> Forall (fit bd) items ->
  exists t, prints cf ieee_text 0 (built bd items) t /\ (Zlen t < INT_MAX ->
    (forall m dst n fmt va, let w := Z.min n (Zlen t + 1) in
       0 <= n <= INT_MAX -> writable m dst w -> given m fmt items -> elsewhere dst w fmt items ->
       exists m', snprnf_of cf ieee bd m dst n fmt (arguments cf (built bd items) ++ va) = Ok (Zlen t, m') /\
         only_wrote m m' dst w /\ (0 < n -> bytes_at m' dst (firstn (Z.to_nat (n - 1)) t ++ [0]))) /\
    (forall m n fmt va, given m fmt items -> snprnf_of cf ieee bd m null n fmt (arguments cf (built bd items) ++ va) = Ok (Zlen t, m)) /\
    (forall W (rd : W -> mem) wr fn (J : W -> Prop) s fmt va, (forall s c s', J s -> fn s c = Ok s' -> J s') -> (forall s, J s -> given (rd s) fmt items) -> J s ->
       vfptrprnf_b cf ieee W rd wr bd (Some fn) s fmt (arguments cf (built bd items) ++ va) = let! s := feed fn s t in Ok (Zlen t, s))).
Proof.
  intros cf bd items Wf Hi Hfit. destruct (ieee_built cf bd items Hi) as [P1 P2]. eexists. split; [exact P2|]. intros Ht. split; [|split].
  - intros m dst n fmt va w Hn Hw [G1 G2] [E1 E2]. destruct (to_array_b_ok cf ieee bd m dst n fmt items va Wf Hn) as (o & E & F & B); auto.
    exists (o_st mem o). split; auto. unfold vsnprnf_b. assert (to_int n = n) as -> by (apply to_int_ok; unfold INT_MIN; lia). exact (f_equal (fun r => let! (k, o) := r in Ok (k, o_st mem o)) E).
  - intros m n fmt va [G1 G2]. now apply to_null_b_ok.
  - intros W rd wr fn J s fmt va Hj Hg Hs. now apply (fptr_b_ok cf ieee bd W rd wr fn J).
Qed.
Print Assumptions C158_numbers.

(** "%+.2f|%lld" without long long: the number is printed and the rest is read as an unknown type. *)
Definition pi_ll : list (item b64) := [Flt false (Conv [FPlus] WNone (PNum 2) Lint) (dbl_of 201 (-6)); Text (bs "|"); Dec false (Conv [] WNone PNone Lll) 7].
Definition pi_ll_mem : mem := xmem (bs "%+.2f|%lld" ++ [0]) [].
Example C158_numbers_ex : items_ok gcc64 float_ok pi_ll /\ Forall (fit no_ll) pi_ll /\ given pi_ll_mem xfmt pi_ll
  /\ writable pi_ll_mem xdst 20 /\ elsewhere xdst 20 xfmt pi_ll
  /\ seen (snprnf_of gcc64 ieee no_ll pi_ll_mem xdst 20 xfmt (arguments gcc64 (built no_ll pi_ll))) 8 = Some (7, bs "+3.14|d" ++ [0]).
Proof.
  split; [items_check|]. split; [repeat (apply Forall_cons; [split; intros; exact Logic.I|]); apply Forall_nil|].
  split; [split; [rewrite (ltac:(vm_compute; reflexivity) : format pi_ll = bs "%+.2f|%lld"); apply bytes_atb_ok; vm_compute; reflexivity|repeat constructor]|].
  split; [apply xdst_writable; lia|]. split; [split; [left; discriminate|repeat constructor]|]. vm_compute. reflexivity.
Qed.
