(** Specification of number syntax and number values, on plain byte lists.
    Independent of the parser model except for the error and option codes. *)
From Verif Require Import Base Mem StrviewModel StrnumModel Spec.

(** Value of a digit character (decimal digits, A-F, a-f). *)
Definition dval (c : Z) : Z :=
  if c <=? 57 then c - 48 else if c <=? 70 then c - 55 else c - 87.
(** [c] is a digit of the given base (2, 10 or 16). *)
Definition isdig (base c : Z) : bool :=
  (((48 <=? c) && (c <=? 57)) || ((65 <=? c) && (c <=? 70)) || ((97 <=? c) && (c <=? 102)))
  && (dval c <? base).

(** Longest prefix of characters satisfying [p], and the rest. *)
Fixpoint span (p : Z -> bool) (l : list Z) : list Z * list Z :=
  match l with
  | [] => ([], [])
  | x :: t => if p x then let (a, b) := span p t in (x :: a, b) else ([], l)
  end.

(** Positional value of a digit string. *)
Definition num_val (base : Z) (ds : list Z) : Z := fold_left (fun acc x => acc * base + dval x) ds 0.

(** Optional sign: is it negative, and the rest. *)
Definition read_sign (l : list Z) : bool * list Z :=
  match l with
  | x :: t => if x =? 45 then (true, t) else if x =? 43 then (false, t) else (false, l)
  | [] => (false, [])
  end.

(** The base asked for by the options, and the base selected by a 0b or 0x prefix. *)
Definition opt_base (opt : Z) : Z := if flag opt STRNUM_BASE_BIN then 2 else if flag opt STRNUM_BASE_HEX then 16 else 10.
Definition read_prefix (opt : Z) (l : list Z) : Z * list Z :=
  match l with
  | z :: b :: t =>
      if (z =? 48) && ((b =? 98) || (b =? 66)) && negb (flag opt STRNUM_NOBX) && negb (flag opt STRNUM_BASE_HEX)
      then (2, t)
      else if (z =? 48) && ((b =? 120) || (b =? 88)) && negb (flag opt STRNUM_NOBX) && negb (flag opt STRNUM_BASE_BIN)
      then (16, t)
      else (opt_base opt, l)
  | _ => (opt_base opt, l)
  end.

(** Syntax of an integer: sign, base, digits, rest of the text. *)
Record int_text : Type := IntText { it_neg : bool; it_base : Z; it_digits : list Z; it_rest : list Z }.
Definition read_int (signed : bool) (opt : Z) (l : list Z) : int_text :=
  let l1 := if flag opt STRNUM_NOSPACE then l else snd (span (Z.eqb 32) l) in
  let (neg, l2) := if signed && negb (flag opt STRNUM_NOSIGN) then read_sign l1 else (false, l1) in
  let (base, l3) := read_prefix opt l2 in
  let (ds, rest) := span (isdig base) l3 in
  IntText neg base ds rest.
Definition int_value (t : int_text) : Z :=
  if it_neg t then - num_val (it_base t) (it_digits t) else num_val (it_base t) (it_digits t).

(** What a parser for the range [lo, hi] must answer on the text [l]. *)
Inductive answer : Type := Bad (e : errno) | Good (v : Z) (rest : list Z).
Definition parse_int (signed : bool) (opt lo hi : Z) (l : list Z) : answer :=
  let t := read_int signed opt l in
  match it_digits t with
  | [] => Bad EINVAL
  | _ => if (lo <=? int_value t) && (int_value t <=? hi) then Good (int_value t) (it_rest t) else Bad ERANGE
  end.

(** isdigit() and isxdigit() may be called on every character of the text. *)
Definition ctype_safe (cf : cfg) (l : list Z) : Prop :=
  c_ctype cf = true \/ c_char_signed cf = false \/ Forall (fun b => b < 128 \/ b = 255) l.
(** No character that the binary digit test confuses with 0 or 1. *)
Definition no_b0 (l : list Z) : Prop := ~ In 176 l /\ ~ In 177 l.

(** ** The C integer types with a parser: signedness and range *)
Inductive ity : Type := TUchar | TUshort | TUint | TUlong | TUllong | TChar | TShort | TInt | TLong | TLlong
  | TI8 | TI16 | TI32 | TI64 | TU8 | TU16 | TU32 | TU64.
Definition ty_signed (t : ity) : bool :=
  match t with
  | TChar | TShort | TInt | TLong | TLlong | TI8 | TI16 | TI32 | TI64 => true
  | _ => false
  end.
Definition ty_bits (cf : cfg) (t : ity) : Z :=
  match t with
  | TUchar | TChar | TI8 | TU8 => 8
  | TUshort | TShort | TI16 | TU16 => 16
  | TUint | TInt | TI32 | TU32 => 32
  | TUllong | TLlong | TI64 | TU64 => 64
  | TUlong | TLong => if c_long64 cf then 64 else 32
  end.
(** Range of the type; plain char may be unsigned. *)
Definition ty_neg (cf : cfg) (t : ity) : bool :=
  match t with TChar => c_char_signed cf | _ => ty_signed t end.
Definition ty_lo (cf : cfg) (t : ity) : Z := if ty_neg cf t then - 2 ^ (ty_bits cf t - 1) else 0.
Definition ty_hi (cf : cfg) (t : ity) : Z := if ty_neg cf t then 2 ^ (ty_bits cf t - 1) - 1 else 2 ^ ty_bits cf t - 1.

(** Printing a number in a base, most significant digit first, lower case. *)
Definition digit_char (d : Z) : Z := if d <? 10 then 48 + d else 87 + d.
Fixpoint show_fuel (fuel : nat) (base n : Z) : list Z :=
  match fuel with
  | O => []
  | S f => if n <? base then [digit_char n] else show_fuel f base (n / base) ++ [digit_char (n mod base)]
  end.
(** 64 digits are enough for any 64-bit number in any base. *)
Definition show (base n : Z) : list Z := show_fuel 64 base n.
Definition show_signed (base v : Z) : list Z := if v <? 0 then 45 :: show base (- v) else show base v.

(** A character that cannot continue a number. *)
Definition alnum (c : Z) : bool :=
  ((48 <=? c) && (c <=? 57)) || ((65 <=? c) && (c <=? 90)) || ((97 <=? c) && (c <=? 122)).
Definition stops (rest : list Z) : Prop := match rest with [] => True | c :: _ => alnum c = false end.

(** ** Floating point syntax *)
Record float_text : Type := FloatText {
  ft_neg : bool; ft_special : special; ft_int : list Z; ft_frac : list Z; ft_exp : Z; ft_rest : list Z }.
Inductive fanswer : Type := FBad (e : errno) | FGood (t : float_text).

Definition lower (c : Z) : Z := if (65 <=? c) && (c <=? 90) then c + 32 else c.
(** [l] starts with [w] (lower case) ignoring case: the rest. *)
Fixpoint strip_word (w l : list Z) : option (list Z) :=
  match w, l with
  | [], _ => Some l
  | x :: w', y :: l' => if lower y =? x then strip_word w' l' else None
  | _, [] => None
  end.
Definition w_inf : list Z := [105; 110; 102].
Definition w_nan : list Z := [110; 97; 110].
(** The misspelt word the implementation looks for. *)
Definition w_infinty : list Z := [105; 110; 102; 105; 110; 116; 121].
Definition w_infinity : list Z := [105; 110; 102; 105; 110; 105; 116; 121].

(** Optional exponent after the mantissa: value and rest, or out of range.
    A letter e that is not followed by a number is not part of the number. *)
Definition read_exp (opt : Z) (l : list Z) : answer :=
  match l with
  | c :: t =>
      if (lower c =? 101) && negb (flag opt STRNUM_NOEXP) then
        match parse_int true (STRNUM_NOSPACE + STRNUM_NOBX) INT_MIN INT_MAX t with
        | Good v r => Good v r
        | Bad EINVAL => Good 0 l
        | Bad e => Bad e
        end
      else Good 0 l
  | [] => Good 0 []
  end.

(** Sign and text after optional spaces and sign. *)
Definition float_body (opt : Z) (l : list Z) : bool * list Z :=
  let l1 := if flag opt STRNUM_NOSPACE then l else snd (span (Z.eqb 32) l) in
  if flag opt STRNUM_NOSIGN then (false, l1) else read_sign l1.

Definition read_float (opt : Z) (l : list Z) : fanswer :=
  let (neg, l2) := float_body opt l in
  match strip_word w_inf l2, strip_word w_nan l2 with
  | Some r, _ => FGood (FloatText neg SpInf [] [] 0 r)
  | _, Some r => FGood (FloatText neg SpNan [] [] 0 r)
  | None, None =>
      let (ip, l3) := span (isdig 10) l2 in
      let (fp, l4) := match l3 with 46 :: t => span (isdig 10) t | _ => ([], l3) end in
      match ip, fp with
      | [], [] => FBad EINVAL
      | _, _ => match read_exp opt l4 with
                | Good v r => FGood (FloatText neg NoSpecial ip fp v r)
                | Bad e => FBad e
                end
      end
  end.

(** ** The public parsers by type (strnum.h:83-143 strnum_value is this dispatch) *)
Definition consumer (cf : cfg) (t : ity) : option (mem -> bool -> option view -> Z -> outcome (parsed Z)) :=
  match t with
  | TUchar => Some (strnum_consume_uchar cf) | TUshort => Some (strnum_consume_ushort cf)
  | TUint => Some (strnum_consume_uint cf) | TUlong => Some (strnum_consume_ulong cf)
  | TUllong => Some (strnum_consume_ullong cf)
  | TChar => Some (strnum_consume_char cf) | TShort => Some (strnum_consume_short cf)
  | TInt => Some (strnum_consume_int cf) | TLong => Some (strnum_consume_long cf)
  | TLlong => Some (strnum_consume_llong cf)
  | _ => None
  end.
Definition default_parser (cf : cfg) (t : ity) : mem -> view -> Z -> Z -> outcome Z :=
  match t with
  | TUchar => strnum_uchar cf | TUshort => strnum_ushort cf | TUint => strnum_uint cf
  | TUlong => strnum_ulong cf | TUllong => strnum_ullong cf
  | TChar => strnum_char cf | TShort => strnum_short cf | TInt => strnum_int cf
  | TLong => strnum_long cf | TLlong => strnum_llong cf
  | TI8 => strnum_i8 cf | TI16 => strnum_i16 cf | TI32 => strnum_i32 cf | TI64 => strnum_i64 cf
  | TU8 => strnum_u8 cf | TU16 => strnum_u16 cf | TU32 => strnum_u32 cf | TU64 => strnum_u64 cf
  end.

(** A parser answered [ans] on the view [s] of the text [l]: on failure it writes nothing;
    on success it stores the value if there is a destination, and the source becomes the
    part of [s] after the consumed text. *)
Definition result_of (dst : bool) (s : view) (l : list Z) (ans : answer) (r : outcome (parsed Z)) : Prop :=
  match ans with
  | Bad e => r = Ok (Parsed e None None)
  | Good v rest => exists a, l = a ++ rest /\ a <> [] /\
      r = Ok (Parsed NoErr (if dst then Some v else None) (Some (subview s (Zlen a) (Zlen rest))))
  end.

