(** Specification: ways to spell a floating point number that do not change the number. *)
From Verif Require Import Base Mem StrviewModel StrnumModel Spec NumSpec.
Open Scope Z_scope.

(** An optional sign, and whether it is a minus sign. *)
Definition sign_chars (s : option bool) : list Z := match s with None => [] | Some true => [45] | Some false => [43] end.
Definition is_minus (s : option bool) : bool := match s with Some true => true | _ => false end.

(** How a number is written: spaces, a sign, [sp_zeros] leading zeros and the digits of the integral part; optionally
    a point, the digits of the fraction and trailing zeros; optionally the letter e in either case, a sign, leading
    zeros and the digits of the exponent. *)
Record spelling : Type := Spelling {
  sp_spaces : nat; sp_sign : option bool; sp_zeros : nat; sp_int : list Z;
  sp_frac : option (list Z * nat);
  sp_exp : option (bool * option bool * nat * list Z) }.
Definition int_chars (p : spelling) : list Z := repeat 48 (sp_zeros p) ++ sp_int p.
Definition frac_digits (p : spelling) : list Z := match sp_frac p with Some (f, k) => f ++ repeat 48 k | None => [] end.
Definition frac_chars (p : spelling) : list Z := match sp_frac p with Some _ => 46 :: frac_digits p | None => [] end.
Definition exp_chars (p : spelling) : list Z :=
  match sp_exp p with
  | Some (upper, s, k, ds) => (if upper : bool then 69 else 101) :: sign_chars s ++ repeat 48 k ++ ds
  | None => []
  end.
Definition spelled (p : spelling) : list Z :=
  repeat 32 (sp_spaces p) ++ sign_chars (sp_sign p) ++ int_chars p ++ frac_chars p ++ exp_chars p.

(** The value of the exponent. *)
Definition exp_of (p : spelling) : Z :=
  match sp_exp p with
  | Some (_, s, _, ds) => if is_minus s then - num_val 10 ds else num_val 10 ds
  | None => 0
  end.
(** The digits of the fraction before the trailing zeros. *)
Definition frac_of (p : spelling) : list Z := match sp_frac p with Some (f, _) => f | None => [] end.

(** It is a number: there are digits before or behind the point, the exponent has digits and fits an int. *)
Definition spelling_ok (p : spelling) : Prop :=
  Forall (fun c => isdig 10 c = true) (sp_int p) /\ Forall (fun c => isdig 10 c = true) (frac_of p) /\
  int_chars p ++ frac_digits p <> [] /\
  match sp_exp p with
  | Some (_, _, k, ds) => Forall (fun c => isdig 10 c = true) ds /\ repeat 48 k ++ ds <> [] /\ INT_MIN <= exp_of p <= INT_MAX
  | None => True
  end.
(** The text that follows does not continue the number. *)
Definition ends_here (p : spelling) (rest : list Z) : Prop :=
  match rest with
  | [] => True
  | c :: _ => isdig 10 c = false /\ (sp_exp p = None -> c <> 101 /\ c <> 69)
              /\ (sp_exp p = None -> sp_frac p = None -> c <> 46)
  end.

(** The same number: the same sign, the same digits but for leading zeros of the integral part and trailing zeros of
    the fraction, and the same exponent. *)
Definition same_number (p q : spelling) : Prop :=
  is_minus (sp_sign p) = is_minus (sp_sign q) /\ sp_int p = sp_int q /\ frac_of p = frac_of q /\ exp_of p = exp_of q.

(** Adding an integral part of zero to nothing leaves nothing: (0 + 0) * 10^0 is 0 in the arithmetic of the type. *)
Definition zero_is_nothing (A : arith) : Prop :=
  a_mul A (a_add A (a_zero A) (a_of_ull A 0)) (a_pow10 A 0) = a_zero A.
(** Either both numbers have digits before the point, or neither has, or it does not matter. *)
Definition both_whole (A : arith) (p q : spelling) : Prop := (int_chars p = [] <-> int_chars q = []) \/ zero_is_nothing A.

(** Both parse in the same way: the same code, the same value, and the text behind the number is left. *)
Definition parses_alike {T} (dst : bool) (m1 m2 : mem) (rest1 rest2 : list Z) (a b : outcome (parsed T)) : Prop :=
  exists e v r1 r2, a = Ok (Parsed e v r1) /\ b = Ok (Parsed e v r2) /\
    match e with
    | NoErr => (exists x, v = if dst then Some x else None) /\
        exists s1 s2, r1 = Some s1 /\ r2 = Some s2 /\ has_view m1 s1 rest1 /\ has_view m2 s2 rest2
    | e => e = ERANGE /\ v = None /\ r1 = None /\ r2 = None
    end.
