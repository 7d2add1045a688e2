(** Specification of prnf with other default precisions: the precision that is left out, written out. *)
From Verif Require Import Base Mem Spec NumSpec PrnfSpec.

(** [c] with the precision [p] if it has none. *)
Definition with_default (p : Z) (c : conv) : conv :=
  match cv_prec c with PNone => Conv (cv_flags c) (cv_width c) (PNum p) (cv_len c) | _ => c end.
(** %e has the default precision [pe], %f has [pf]. *)
Definition written_out {D} (pe pf : Z) (i : item D) : item D :=
  match i with
  | Flt b c d => Flt b (with_default pf c) d
  | Eng b c d => Eng b (with_default pe c) d
  | _ => i
  end.
