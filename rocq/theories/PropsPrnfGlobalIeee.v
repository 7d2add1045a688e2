(** Property theorems about prnf() and the function it prints through, for formats with floating
    point numbers in IEEE-754 arithmetic (C164). *)
From Coq Require Import String ZArith Reals.
From Flocq Require Import Core BinarySingleNaN.
From Verif Require Import Base Mem Libc StrviewModel Spec MemLemmas IeeeSpec NumSpec PrnfModel PrnfSpec PrnfSpec2 PrnfIeee PrnfProofs4 PrnfProofs5 PrnfProofs7 PrnfProofs8
  PrnfProofs9 PrnfGlobalModel PrnfGlobalSpec PrnfGlobalProofs ExampleLib BufExample PropsBuf PropsBuf2 PropsPrnf PropsPrnfIeee PropsPrnfGlobal.
Local Open Scope string_scope.
Local Open Scope list_scope.
Local Open Scope Z_scope.

(** The text is that of C104; it is the same for every function, and without one it is counted. *)
Theorem C164_numbers : forall cf (items : list (item b64)), wf_cfg cf -> items_ok cf float_ok items ->
  exists t, prints cf ieee_text 0 items t /\ (Zlen t < INT_MAX ->
    forall W (rd : W -> mem) wr H run (J : genv W H -> Prop) fmt va,
    (forall g, J g -> given (rd (g_user W H g)) fmt items) ->
    (forall f x g, (forall h g1 c g2, f = Some h -> J g1 -> run h x g1 c = Ok g2 -> J g2) -> J g ->
       fptrprnf_g cf ieee W rd wr H run f x g fmt (arguments cf items ++ va) = let! g := deliver run f x g t in Ok (Zlen t, g)) /\
    (forall g, (forall h g1 c g2, g_out W H g = Some h -> J g1 -> run h null g1 c = Ok g2 -> J g2) -> J g ->
       prnf_g cf ieee W rd wr H run g fmt (arguments cf items ++ va) = let! g := deliver run (g_out W H g) null g t in Ok (Zlen t, g))).
Proof.
  intros cf items Wf Hi. destruct (ieee_printed cf items Hi) as [P1 P2]. exists (printed cf (flt ieee) 0 items). split; [exact P2|].
  intros Ht W rd wr H run J fmt va Hg.
  assert (forall f x g, (forall h g1 c g2, f = Some h -> J g1 -> run h x g1 c = Ok g2 -> J g2) -> J g ->
       fptrprnf_g cf ieee W rd wr H run f x g fmt (arguments cf items ++ va) =
         let! g := deliver run f x g (printed cf (flt ieee) 0 items) in Ok (Zlen (printed cf (flt ieee) 0 items), g)) as Q.
  { intros f x g Hj Hs. unfold fptrprnf_g, deliver. destruct f as [h|].
    - apply fptr_feed with (J := J); auto. intros g1 c g2 J1 E. eapply Hj; eauto.
    - cbn [bind]. destruct (Hg g Hs) as [G1 G2]. now apply fptr_none. }
  split; [exact Q|]. intros g Hj Hs. unfold prnf_g. now apply Q.
Qed.
Print Assumptions C164_numbers.
Example C164_numbers_ex : items_ok gcc64 float_ok pi_items /\ given pi_mem xfmt pi_items
  /\ prnf_g gcc64 ieee _ (fun _ => pi_mem) (fun w _ => w) fn2 run3 (Genv _ _ (Some Term) ([], [])) xfmt (arguments gcc64 pi_items)
       = Ok (19, Genv _ _ (Some Disp) (bs "x=    +3.14...12.3k", []))
  /\ prnf_g gcc64 ieee _ (fun _ => pi_mem) (fun w _ => w) fn2 run3 (started _ _ ([], [])) xfmt (arguments gcc64 pi_items) = Ok (19, started _ _ ([], [])).
Proof. destruct C104_ex as (E1 & E2 & _). split; [exact E1|]. split; [exact E2|]. split; vm_compute; reflexivity. Qed.
