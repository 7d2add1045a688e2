(** Property theorems about prnf with a warning handler, in IEEE-754 arithmetic (C166). *)
From Coq Require Import String ZArith Reals.
From Flocq Require Import Core BinarySingleNaN.
From Verif Require Import Base Mem Libc StrviewModel Spec MemLemmas IeeeSpec NumSpec PrnfModel PrnfSpec PrnfSpec2 PrnfIeee PrnfProofs4 PrnfProofs5 PrnfProofs7 PrnfProofs8
  PrnfProofs9 PrnfWarnModel PrnfWarnSpec PrnfWarnProofs
  ExampleLib BufExample PropsBuf PropsBuf2 PropsPrnf PropsPrnfIeee PropsPrnfWarn.
Local Open Scope string_scope.
Local Open Scope list_scope.
Local Open Scope Z_scope.

(** Placeholders of floating point numbers report # and ' like the others. *)
Theorem C166_numbers : forall cf (items : list (item b64)), wf_cfg cf -> items_ok cf float_ok items ->
  exists t, prints cf ieee_text 0 items t /\ (Zlen t < INT_MAX ->
    (forall m dst n fmt va, let w := Z.min n (Zlen t + 1) in
      0 <= n <= INT_MAX -> writable m dst w -> given m fmt items -> elsewhere dst w fmt items ->
      exists m', snprnf_w cf ieee m dst n fmt (arguments cf items ++ va) = Ok (Zlen t, total_warnings items, m') /\
        only_wrote m m' dst w /\ (0 < n -> bytes_at m' dst (firstn (Z.to_nat (n - 1)) t ++ [0]))) /\
    (forall W (rd : W -> mem) wr fn (J : W -> Prop) s fmt va,
      (forall s c s', J s -> fn s c = Ok s' -> J s') -> (forall s, J s -> given (rd s) fmt items) -> J s ->
      vfptrprnf_w cf ieee W rd wr (Some fn) s fmt (arguments cf items ++ va) = let! s := feed fn s t in Ok (Zlen t, total_warnings items, s))).
Proof.
  intros cf items Wf Hi. destruct (ieee_printed cf items Hi) as [P1 P2]. exists (printed cf (flt ieee) 0 items). split; [exact P2|].
  intros Ht. split.
  - intros m dst n fmt va w Hn Hw [G1 G2] [E1 E2]. now apply vsnprnf_w_ok.
  - intros W rd wr fn J s fmt va Hj Hg Hs. now apply vfptrprnf_w_ok with (J := J).
Qed.
Print Assumptions C166_numbers.
(** "%#.2f|%'#e" *)
Definition flagged_flt : list (item b64) := [Flt false (Conv [FHash] WNone (PNumZ 0 2) Lint) (dbl_of 5 (-1)); Text (bs "|"); Eng false (Conv [FQuote; FHash] WNone PNone Lint) (dbl_of 64 0)].
Definition flagged_flt_mem : mem := xmem (bs "%#.2f|%'#e" ++ [0]) [].
Example C166_numbers_ex : items_ok gcc64 float_ok flagged_flt /\ given flagged_flt_mem xfmt flagged_flt /\ total_warnings flagged_flt = 3
  /\ writable flagged_flt_mem xdst 8 /\ elsewhere xdst 8 xfmt flagged_flt
  /\ seen_w (snprnf_w gcc64 ieee flagged_flt_mem xdst 64 xfmt (arguments gcc64 flagged_flt)) 8 = Some (7, 3, bs "2.50|64" ++ [0]).
Proof.
  split; [items_check|]. split; [split; [rewrite (ltac:(vm_compute; reflexivity) : format flagged_flt = bs "%#.2f|%'#e"); apply bytes_atb_ok; vm_compute; reflexivity|repeat constructor]|].
  split; [vm_compute; reflexivity|]. split; [apply xdst_writable; lia|]. split; [split; [left; discriminate|repeat constructor]|]. vm_compute. reflexivity.
Qed.

(** Without these flags the same arguments print the same text: floating point numbers too. *)
Theorem C166_ignored_numbers : forall cf (items : list (item b64)), wf_cfg cf -> items_ok cf float_ok items -> items_ok cf float_ok (map left_out items) ->
  exists t, prints cf ieee_text 0 items t /\ (Zlen t < INT_MAX ->
    forall m dst n fmt fmt2 va, let w := Z.min n (Zlen t + 1) in 0 <= n <= INT_MAX -> writable m dst w ->
      given m fmt items -> elsewhere dst w fmt items -> given m fmt2 (map left_out items) -> elsewhere dst w fmt2 (map left_out items) ->
      exists m1 m2,
        snprnf_w cf ieee m dst n fmt (arguments cf items ++ va) = Ok (Zlen t, total_warnings items, m1) /\
        snprnf_w cf ieee m dst n fmt2 (arguments cf items ++ va) = Ok (Zlen t, 0, m2) /\
        only_wrote m m1 dst w /\ only_wrote m m2 dst w /\
        (0 < n -> forall m', m' = m1 \/ m' = m2 -> bytes_at m' dst (firstn (Z.to_nat (n - 1)) t ++ [0]))).
Proof.
  intros cf items Wf Hi Hi2. destruct (ieee_printed cf items Hi) as [P1 P2]. destruct (ieee_printed cf _ Hi2) as [Q1 _].
  exists (printed cf (flt ieee) 0 items). split; [exact P2|].
  intros Ht m dst n fmt fmt2 va w Hn Hw [G1 G2] [E1 E2] [K1 K2] [L1 L2].
  destruct (vsnprnf_w_ok cf ieee m dst n fmt items va Wf Hn Ht Hw G1 E1 P1 G2 E2) as (m1 & R1 & O1 & B1).
  pose proof (vsnprnf_w_ok cf ieee m dst n fmt2 (map left_out items) va Wf Hn) as C. cbv zeta in C.
  rewrite (printed_without cf ieee), args_without, warnings_without in C. destruct (C Ht Hw K1 L1 Q1 K2 L2) as (m2 & R2 & O2 & B2).
  exists m1, m2. do 4 (split; [assumption|]). intros N m' [-> | ->]; auto.
Qed.
Print Assumptions C166_ignored_numbers.
(** "%#.2f|%'#e" and "%.2f|%e" in the same memory. *)
Definition twice_mem : mem := xmem (bs "%#.2f|%'#e" ++ [0] ++ bs "%.2f|%e" ++ [0]) [].
Example C166_ignored_numbers_ex : items_ok gcc64 float_ok (map left_out flagged_flt)
  /\ given twice_mem xfmt flagged_flt /\ elsewhere xdst 8 xfmt flagged_flt /\ writable twice_mem xdst 8
  /\ given twice_mem (shift xfmt 11) (map left_out flagged_flt) /\ elsewhere xdst 8 (shift xfmt 11) (map left_out flagged_flt)
  /\ seen_w (snprnf_w gcc64 ieee twice_mem xdst 64 (shift xfmt 11) (arguments gcc64 flagged_flt)) 8 = Some (7, 0, bs "2.50|64" ++ [0]).
Proof.
  split; [items_check|]. split; [split; [rewrite (ltac:(vm_compute; reflexivity) : format flagged_flt = bs "%#.2f|%'#e"); apply bytes_atb_ok; vm_compute; reflexivity|repeat constructor]|].
  split; [split; [left; discriminate|repeat constructor]|]. split; [apply xdst_writable; lia|].
  split; [split; [rewrite (ltac:(vm_compute; reflexivity) : format (map left_out flagged_flt) = bs "%.2f|%e"); apply bytes_atb_ok; vm_compute; reflexivity|repeat constructor]|].
  split; [split; [left; discriminate|repeat constructor]|]. vm_compute. reflexivity.
Qed.
