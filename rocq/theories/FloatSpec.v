(** Values of decimal texts, exact rational arithmetic and IEEE-754 arithmetic as
    instances of the parser's arithmetic. *)
From Coq Require Import QArith SpecFloat.
From Verif Require Import Base Mem StrviewModel StrnumModel NumSpec.
Open Scope Z_scope.

(** ** The rational number written by a decimal text *)
Definition ten : Q := 10 # 1.
Definition float_value (t : float_text) : Q :=
  ((inject_Z (num_val 10 (ft_int t)) + inject_Z (num_val 10 (ft_frac t)) * Qpower ten (- Zlen (ft_frac t)))
   * Qpower ten (ft_exp t))%Q.

(** ** Exact arithmetic: rationals plus infinity and not-a-number (which never arise from
    finite operands). *)
Inductive xq : Type := Fin (q : Q) | XInf (neg : bool) | XNan.
Definition xadd (a b : xq) : xq := match a, b with Fin p, Fin q => Fin (p + q)%Q | _, _ => XNan end.
Definition xmul (a b : xq) : xq := match a, b with Fin p, Fin q => Fin (p * q)%Q | _, _ => XNan end.
Definition xneg (a : xq) : xq := match a with Fin p => Fin (- p)%Q | XInf b => XInf (negb b) | XNan => XNan end.
Definition exact : arith :=
  Arith xq (Fin 0) (XInf false) XNan xadd xmul xneg
        (fun z => Fin (inject_Z z)) (fun n => Fin (Qpower ten n))
        (fun a => match a with XInf false => true | _ => false end)
        (fun a => match a with XNan => true | _ => false end).

(** ** IEEE-754 binary arithmetic, round to nearest even; pow(10, n) is given. *)
Definition ieee (prec emax : Z) (pow10 : Z -> spec_float) : arith :=
  Arith spec_float (S754_zero false) (S754_infinity false) S754_nan
        (SFadd prec emax) (SFmul prec emax) SFopp
        (fun z => binary_normalize prec emax z 0 false) pow10
        (fun a => match a with S754_infinity false => true | _ => false end)
        (fun a => match a with S754_nan => true | _ => false end).
