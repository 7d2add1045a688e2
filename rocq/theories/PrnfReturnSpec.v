(** Specification of prnf with an assertion handler that returns: how often it is called. *)
From Verif Require Import Base Mem Spec NumSpec PrnfModel PrnfSpec PrnfAssertSpec.

(** With 19 decimals the number has no room in an unsigned long long. *)
Definition oversize (A : fops) (v : fl A) : bool :=
  let a := f_mul A (if f_lt A v (f_int A 0) then f_neg A v else v) (f_pow10 A 19) in
  f_lt A (f_int A ULLONG_MAX) a || f_eq A (f_int A ULLONG_MAX) a.
(** Too many decimals are reported twice, or once if the number is not printed. *)
Definition decimals_calls (A : fops) (c : conv) (v : fl A) : Z :=
  if finite A v && many_decimals c then if oversize A v then 1 else 2 else 0.
(** An unsupported placeholder is reported once, L and j in the place of a length twice. *)
Definition calls (A : fops) (i : item (dbl A)) : Z :=
  match i with
  | Other c x => match cv_len c with Lint => if (x =? 76) || (x =? 106) then 2 else 1 | _ => 1 end
  | Flt _ c d => decimals_calls A c (f_of_dbl A d)
  | Eng _ c d => decimals_calls A c (fst (get_eng A (f_of_dbl A d)))
  | _ => 0
  end.
Fixpoint total_calls (A : fops) (l : list (item (dbl A))) : Z :=
  match l with [] => 0 | i :: t => calls A i + total_calls A t end.
