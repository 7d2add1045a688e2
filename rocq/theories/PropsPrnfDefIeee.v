(** Property theorems about prnf with other default precisions, in IEEE-754 arithmetic (C162). *)
From Coq Require Import String ZArith Reals.
From Flocq Require Import Core BinarySingleNaN.
From Verif Require Import Base Mem Libc StrviewModel Spec MemLemmas IeeeSpec NumSpec PrnfModel PrnfSpec PrnfSpec2 PrnfIeee PrnfProofs4 PrnfProofs5 PrnfProofs7 PrnfProofs8
  PrnfProofs9 PrnfDefModel PrnfDefSpec PrnfDefProofs ExampleLib BufExample PropsBuf PropsBuf2 PropsPrnf PropsPrnfIeee PropsPrnfDef.
Local Open Scope string_scope.
Local Open Scope list_scope.
Local Open Scope Z_scope.

(** The precisions that are left out, written out. *)
Notation full_format df items := (map (written_out (d_eng df) (d_flt df)) items).
Definition defaults_ok (df : defaults) : Prop := 0 <= d_eng df <= INT_MAX /\ 0 <= d_flt df <= INT_MAX.

Lemma def_fine : forall cf df (items : list (item b64)), defaults_ok df -> items_ok cf float_ok items ->
  items_ok cf any_flt items /\ Forall (fun i => item_ok cf (flt_fine ieee) (written_out (d_eng df) (d_flt df) i)) items /\ items_ok cf float_ok (full_format df items).
Proof.
  intros cf df items [He Hf] H. destruct (wo_items_ok _ cf float_ok float_ok _ _ items He Hf ltac:(intros; exact Logic.I) H) as [K1 K2]. split; auto. split; auto.
  clear - He Hf H. induction items as [|i items IH]; [constructor|]. destruct H as (H1 & H2 & _). constructor; auto.
  eapply wo_item_ok; eauto. intros e c d Hc. now apply ieee_flt_fine.
Qed.

(** What is printed is an acceptable text of the format with the precisions written out; so it is
    by the build as shipped, given that format: the two texts are the same. *)
Theorem C162_written_out : forall cf df (items : list (item b64)), wf_cfg cf -> defaults_ok df -> items_ok cf float_ok items ->
  exists t, prints cf ieee_text 0 (full_format df items) t /\ (Zlen t < INT_MAX ->
    (forall m dst n fmt va, let w := Z.min n (Zlen t + 1) in
       0 <= n <= INT_MAX -> writable m dst w -> given m fmt items -> elsewhere dst w fmt items ->
       exists m', snprnf_d cf ieee df m dst n fmt (arguments cf items ++ va) = Ok (Zlen t, m') /\
         only_wrote m m' dst w /\ (0 < n -> bytes_at m' dst (firstn (Z.to_nat (n - 1)) t ++ [0]))) /\
    (forall m dst n fmt va, let w := Z.min n (Zlen t + 1) in
       0 <= n <= INT_MAX -> writable m dst w -> given m fmt (full_format df items) -> elsewhere dst w fmt (full_format df items) ->
       exists m', snprnf cf ieee m dst n fmt (arguments cf items ++ va) = Ok (Zlen t, m') /\
         only_wrote m m' dst w /\ (0 < n -> bytes_at m' dst (firstn (Z.to_nat (n - 1)) t ++ [0])))).
Proof.
  intros cf df items Wf Hd Hi. destruct (def_fine cf df items Hd Hi) as (H1 & H2 & H3). destruct (ieee_printed cf _ H3) as [P1 P2].
  exists (printed cf (flt ieee) 0 (full_format df items)). split; [exact P2|]. intros Ht. split.
  - intros m dst n fmt va w Hn Hw [G1 G2] [E1 E2]. apply vsnprnf_d_ok; auto.
  - intros m dst n fmt va w Hn Hw [G1 G2] [E1 E2]. rewrite <- (wo_args _ cf (d_eng df) (d_flt df) items). apply vsnprnf_ok; auto.
Qed.
Print Assumptions C162_written_out.
(** sprnf prints the whole text. *)
Theorem C162_sprnf : forall cf df (items : list (item b64)), wf_cfg cf -> defaults_ok df -> items_ok cf float_ok items ->
  exists t, prints cf ieee_text 0 (full_format df items) t /\ (Zlen t < INT_MAX ->
    forall m dst fmt va, let w := Zlen t + 1 in writable m dst w -> given m fmt items -> elsewhere dst w fmt items ->
      exists m', sprnf_d cf ieee df m dst fmt (arguments cf items ++ va) = Ok (Zlen t, m') /\ only_wrote m m' dst w /\ bytes_at m' dst (t ++ [0])).
Proof.
  intros cf df items Wf Hd Hi. destruct (C162_written_out cf df items Wf Hd Hi) as (t & P & K). exists t. split; auto. intros Ht m dst fmt va w Hw Hg He.
  pose proof (proj1 (K Ht) m dst INT_MAX fmt va) as K1. cbv zeta in K1.
  assert (Z.min INT_MAX (Zlen t + 1) = Zlen t + 1) as Ew by (unfold INT_MAX in *; lia).
  assert (firstn (Z.to_nat (INT_MAX - 1)) t = t) as Ef by (apply firstn_all2; unfold Zlen, INT_MAX in *; lia).
  rewrite Ew, Ef in K1. destruct K1 as (m' & E & O & B); auto; [unfold INT_MAX; lia|]. exists m'. split; [exact E|]. split; auto. apply B. unfold INT_MAX. lia.
Qed.
Print Assumptions C162_sprnf.

(** A handler of single characters is called with the characters of such a text. *)
Theorem C162_handler : forall cf df (items : list (item b64)), wf_cfg cf -> defaults_ok df -> items_ok cf float_ok items ->
  exists t, prints cf ieee_text 0 (full_format df items) t /\ (Zlen t < INT_MAX ->
    forall W (rd : W -> mem) wr fn (J : W -> Prop) s fmt va, (forall s c s', J s -> fn s c = Ok s' -> J s') -> (forall s, J s -> given (rd s) fmt items) -> J s ->
    vfptrprnf_d cf ieee W rd wr df (Some fn) s fmt (arguments cf items ++ va) = let! s := feed fn s t in Ok (Zlen t, s)).
Proof.
  intros cf df items Wf Hd Hi. destruct (def_fine cf df items Hd Hi) as (H1 & H2 & H3). destruct (ieee_printed cf _ H3) as [P1 P2].
  exists (printed cf (flt ieee) 0 (full_format df items)). split; [exact P2|]. intros Ht W rd wr fn J s fmt va Hj Hm Hs. eapply vfptrprnf_d_ok; eauto.
Qed.
Print Assumptions C162_handler.

(** A single number without precision: the default modulo 256, at most 19 decimals. *)
Theorem C162_decimals : forall cf df b c d, wf_cfg cf -> defaults_ok df -> conv_ok c -> cv_prec c = PNone ->
  exists r, float_reading d (Z.min (d_flt df mod 256) 19) r /\ let t := flt_text false (with_default (d_flt df) c) [] r in
  forall m dst fmt va n, let w := Z.min n (Zlen t + 1) in Zlen t < INT_MAX -> 0 <= n <= INT_MAX -> writable m dst w -> given m fmt [Flt b c d] -> elsewhere dst w fmt [Flt b c d] ->
  exists m', snprnf_d cf ieee df m dst n fmt (conv_args c ++ AD d :: va) = Ok (Zlen t, m') /\ only_wrote m m' dst w /\ (0 < n -> bytes_at m' dst (firstn (Z.to_nat (n - 1)) t ++ [0])).
Proof.
  intros cf df b c d Wf Hd Hc Hp. assert (items_ok cf float_ok [Flt b c d]) as Hi by (cbn; unfold float_ok; auto).
  destruct (C162_written_out cf df _ Wf Hd Hi) as (t & (s & r & -> & (rd & -> & R) & Hr) & H). cbn [map prints] in Hr. subst r. rewrite app_nil_r in H.
  exists rd. split.
  - unfold flt_prec, with_default in R. rewrite Hp in R. exact R.
  - intros t m dst fmt va n w Ht Hn Hw Hg He. destruct (H Ht) as [K _]. specialize (K m dst n fmt va Hn Hw Hg He).
    unfold arguments in K. cbn [map concat item_args] in K.
    replace (((conv_args c ++ [AD d]) ++ []) ++ va) with (conv_args c ++ AD d :: va) in K by (rewrite app_nil_r, <- app_assoc; reflexivity).
    exact K.
Qed.
Print Assumptions C162_decimals.

(** "%f|%8e|%.1f" of 3.5, 12345 and 3.5 where the defaults are 2 for %e and 5 for %f. *)
Definition c_plain : conv := Conv [] WNone PNone Lint.
Definition def_items : list (item b64) := [Flt false c_plain (dbl_of 7 (-1)); Text (bs "|"); Eng false (Conv [] (WNum 8) PNone Lint) (dbl_of 12345 0); Text (bs "|");
  Flt false (Conv [] WNone (PNum 1) Lint) (dbl_of 7 (-1))].
Definition def_mem : mem := xmem (bs "%f|%8e|%.1f" ++ [0]) [].
Example C162_ex : items_ok gcc64 float_ok def_items /\ defaults_ok (Defaults 2 5) /\ format def_items = bs "%f|%8e|%.1f" /\
  format (full_format (Defaults 2 5) def_items) = bs "%.5f|%8.2e|%.1f"
  /\ seen (snprnf_d gcc64 ieee (Defaults 2 5) def_mem xdst 30 xfmt (arguments gcc64 def_items)) 21 = Some (20, bs "3.50000|  12.35k|3.5" ++ [0])
  /\ seen (snprnf gcc64 ieee def_mem xdst 30 xfmt (arguments gcc64 def_items)) 19 = Some (18, bs "3.500|     12k|3.5" ++ [0])
  /\ seen (sprnf_d gcc64 ieee (Defaults 2 5) def_mem xdst xfmt (arguments gcc64 def_items)) 21 = Some (20, bs "3.50000|  12.35k|3.5" ++ [0])
  /\ seen (snprnf_d gcc64 ieee (Defaults 2 256) (one_mem "%f") xdst 30 xfmt [AD (dbl_of 7 (-1))]) 2 = Some (1, bs "4" ++ [0]).
Proof.
  split; [items_check|]. split; [unfold defaults_ok, INT_MAX; cbn [d_eng d_flt]; lia|]. repeat split; vm_compute; reflexivity.
Qed.
