(** Specification of prnf with an assertion handler: the placeholders that stop the program. *)
From Verif Require Import Base Mem Spec NumSpec PrnfModel PrnfSpec.

(** More than 19 decimals are asked for; the precision is reduced modulo 256. *)
Definition many_decimals (c : conv) : bool := match prec_of c with Some p => 19 <? p mod 256 | None => false end.
(** Neither not a number nor beyond the largest float. *)
Definition finite (A : fops) (v : fl A) : bool :=
  f_eq A v v && negb (f_lt A (f_max A) (if f_lt A v (f_int A 0) then f_neg A v else v)).
(** An unsupported placeholder, or a number with too many decimals; %e scales the number first. *)
Definition trips (A : fops) (i : item (dbl A)) : bool :=
  match i with
  | Other _ _ => true
  | Flt _ c d => finite A (f_of_dbl A d) && many_decimals c
  | Eng _ c d => finite A (fst (get_eng A (f_of_dbl A d))) && many_decimals c
  | _ => false
  end.
