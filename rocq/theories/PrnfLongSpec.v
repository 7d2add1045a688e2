(** Specification of what a prnf whose widest integer has 32 bits can be given. *)
From Verif Require Import Base Mem Spec NumSpec PrnfModel PrnfSpec.

(** None of the characters is in the object. *)
Definition lacks (m : mem) (ob : pobj) (l : list Z) : Prop := forall i c, load_byte m (Ptr ob i) = Ok c -> ~ In c l.

(** The object that holds the format string asks for no integer wider than 32 bits (z and t, where
    pointers have 64) and for no number of hexadecimal or binary digits. *)
Definition narrow_format (cf : cfg) (m : mem) (ob : pobj) : Prop :=
  (c_ptrbytes cf = 4 \/ lacks m ob [116; 122]) /\ (lacks m ob [46] \/ lacks m ob [120; 88; 111]).

(** Values of int arguments. *)
Definition int_bits {D} (a : arg D) : Prop := match a with A32 b => 0 <= b < 2 ^ 32 | _ => True end.
(** Nothing is negated whose negative is no long: either negation wraps, or no placeholder is signed,
    or the least int is not among the arguments. *)
Definition negatable {D} (cf : cfg) (m : mem) (ob : pobj) (va : list (arg D)) : Prop :=
  c_wrapv cf = true \/ lacks m ob [100; 105] \/ ~ In (A32 (2 ^ 31)) va.
