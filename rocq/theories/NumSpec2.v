(** Exact specification of the integers the parsers read, without the assumption that the text has no
    byte 0xB0 or 0xB1. On plain byte lists; the only difference with NumSpec is [read_digit]. *)
From Verif Require Import Base Mem StrviewModel StrnumModel Spec NumSpec.

(** The digit a byte is read as: in base 2 the top bit of the byte is ignored for the two bytes that
    differ from 0 and 1 in that bit only. *)
Definition read_digit (base c : Z) : Z :=
  if base =? 2 then (if c =? 176 then 48 else if c =? 177 then 49 else c) else c.
Definition is_read_digit (base c : Z) : bool := isdig base (read_digit base c).

(** Syntax of an integer: as [read_int], with the digits replaced by the digits they are read as. *)
Definition read_int_exact (signed : bool) (opt : Z) (l : list Z) : int_text :=
  let l1 := if flag opt STRNUM_NOSPACE then l else snd (span (Z.eqb 32) l) in
  let (neg, l2) := if signed && negb (flag opt STRNUM_NOSIGN) then read_sign l1 else (false, l1) in
  let (base, l3) := read_prefix opt l2 in
  let (ds, rest) := span (is_read_digit base) l3 in
  IntText neg base (map (read_digit base) ds) rest.

(** What a parser for the range [lo, hi] answers on the text [l], whatever the bytes of the text. *)
Definition parse_int_exact (signed : bool) (opt lo hi : Z) (l : list Z) : answer :=
  let t := read_int_exact signed opt l in
  match it_digits t with
  | [] => Bad EINVAL
  | _ => if (lo <=? int_value t) && (int_value t <=? hi) then Good (int_value t) (it_rest t) else Bad ERANGE
  end.

(** Syntax of a floating point number on every text. A text that starts with the misspelt word is an infinity
    and loses the seven characters of the word and, if there is one, the character after them. *)
Definition read_float_exact (opt : Z) (l : list Z) : fanswer :=
  match strip_word w_infinty (snd (float_body opt l)) with
  | Some r => FGood (FloatText (fst (float_body opt l)) SpInf [] [] 0 (tl r))
  | None => read_float opt l
  end.

(** The text has a mantissa followed by an exponent that is a number outside the range of int. *)
Definition exponent_out_of_range (opt : Z) (l : list Z) : Prop :=
  exists pre c t, l = pre ++ c :: t /\ (c = 101 \/ c = 69) /\ flag opt STRNUM_NOEXP = false /\
    let e := read_int true (STRNUM_NOSPACE + STRNUM_NOBX) t in
    it_digits e <> [] /\ ~ (INT_MIN <= int_value e <= INT_MAX).
