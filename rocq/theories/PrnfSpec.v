(** Specification of text formatting: format strings as lists of items, how they are written
    and which text they stand for (/repo/test/prnf.h:24-110 and the section on column
    alignment).  Independent of the model except for the types of arguments. *)
From Verif Require Import Base Mem Spec NumSpec PrnfModel.

(** ** Syntax *)
Inductive flg : Type := FZero | FMinus | FPlus | FSpace | FHash | FQuote.
Inductive wid : Type := WNone | WNum (n : Z) | WStar (n : Z).
(** A number may be written with [z] leading zeros. *)
Inductive prc : Type := PNone | PDot | PNumZ (z : nat) (n : Z) | PStar (n : Z).
Notation PNum := (PNumZ O).
Inductive len : Type := Lint | Lhh | Lh | Ll | Lll | Lz | Lt.
Record conv : Type := Conv { cv_flags : list flg; cv_width : wid; cv_prec : prc; cv_len : len }.

(** A piece of a format string together with the arguments it consumes.  The boolean selects
    the second of two spellings: d/i, x/X, s/S, f/F, e/E.  [Bare] is a column that is not
    followed by a visible character, [Other] a placeholder that ends in a character without
    meaning (a NUL, for instance, or the p of %p).  The number of a column may have [z]
    leading zeros. *)
Inductive item (D : Type) : Type :=
| Text (l : list Z)
| Percent
| Vtab
| ColumnZ (z : nat) (n pad : Z)
| BareZ (z : nat) (n : Z)
| Dec (b : bool) (c : conv) (v : Z)
| Uns (c : conv) (v : Z)
| Hex (b : bool) (c : conv) (v : Z)
| Bin (c : conv) (v : Z)
| Chr (c : conv) (v : Z)
| Str (b : bool) (c : conv) (p : ptr) (l : list Z)
| Flt (b : bool) (c : conv) (d : D)
| Eng (b : bool) (c : conv) (d : D)
| Other (c : conv) (t : Z).
Arguments Text {D} l.
Arguments Percent {D}.
Arguments Vtab {D}.
Arguments ColumnZ {D} z n pad.
Arguments BareZ {D} z n.
Arguments Dec {D} b c v.
Arguments Uns {D} c v.
Arguments Hex {D} b c v.
Arguments Bin {D} c v.
Arguments Chr {D} c v.
Arguments Str {D} b c p l.
Arguments Flt {D} b c d.
Arguments Eng {D} b c d.
Arguments Other {D} c t.
Notation Column := (ColumnZ O).
Notation Bare := (BareZ O).

Definition flg_char (f : flg) : Z :=
  match f with FZero => 48 | FMinus => 45 | FPlus => 43 | FSpace => 32 | FHash => 35 | FQuote => 39 end.
Definition wid_text (w : wid) : list Z := match w with WNone => [] | WNum n => show 10 n | WStar _ => [42] end.
Definition num_text (z : nat) (n : Z) : list Z := repeat 48 z ++ show 10 n.
Definition prc_text (p : prc) : list Z :=
  match p with PNone => [] | PDot => [46] | PNumZ z n => 46 :: num_text z n | PStar _ => [46; 42] end.
Definition len_text (l : len) : list Z :=
  match l with Lint => [] | Lhh => [104; 104] | Lh => [104] | Ll => [108] | Lll => [108; 108] | Lz => [122] | Lt => [116] end.
Definition conv_text (c : conv) (t : Z) : list Z :=
  37 :: map flg_char (cv_flags c) ++ wid_text (cv_width c) ++ prc_text (cv_prec c) ++ len_text (cv_len c) ++ [t].
Definition item_text {D} (i : item D) : list Z :=
  match i with
  | Text l => l
  | Percent => [37; 37]
  | Vtab => [11]
  | ColumnZ z n pad => 11 :: num_text z n ++ [pad]
  | BareZ z n => 11 :: num_text z n
  | Dec b c _ => conv_text c (if b then 105 else 100)
  | Uns c _ => conv_text c 117
  | Hex b c _ => conv_text c (if b then 88 else 120)
  | Bin c _ => conv_text c 111
  | Chr c _ => conv_text c 99
  | Str b c _ _ => conv_text c (if b then 83 else 115)
  | Flt b c _ => conv_text c (if b then 70 else 102)
  | Eng b c _ => conv_text c (if b then 69 else 101)
  | Other c t => conv_text c t
  end.
(** The format string. *)
Definition format {D} (l : list (item D)) : list Z := concat (map item_text l).

(** ** Arguments *)
(** Size of the argument selected by the length modifier; hh and h arguments are promoted to int. *)
Definition len_bytes (cf : cfg) (l : len) : Z :=
  match l with
  | Lint => 4 | Lhh => 1 | Lh => 2 | Ll => if c_long64 cf then 8 else 4 | Lll => 8 | Lz | Lt => c_ptrbytes cf
  end.
Definition int_arg {D} (cf : cfg) (l : len) (v : Z) : arg D :=
  if len_bytes cf l =? 8 then A64 (v mod 2 ^ 64) else A32 (v mod 2 ^ 32).
Definition conv_args {D} (c : conv) : list (arg D) :=
  match cv_width c with WStar n => [A32 (n mod 2 ^ 32)] | _ => [] end ++
  match cv_prec c with PStar n => [A32 (n mod 2 ^ 32)] | _ => [] end.
Definition item_args {D} (cf : cfg) (i : item D) : list (arg D) :=
  match i with
  | Text _ | Percent | Vtab | ColumnZ _ _ _ | BareZ _ _ => []
  | Dec _ c v | Uns c v | Hex _ c v | Bin c v => conv_args c ++ [int_arg cf (cv_len c) v]
  | Chr c v => conv_args c ++ [A32 (v mod 2 ^ 32)]
  | Str _ c p _ => conv_args c ++ [AP p]
  | Flt _ c d | Eng _ c d => conv_args c ++ [AD d]
  | Other c _ => conv_args c
  end.
Definition arguments {D} (cf : cfg) (l : list (item D)) : list (arg D) := concat (map (item_args cf) l).

(** ** Meaning *)
Definition has_flag (f : flg) (c : conv) : bool :=
  existsb (fun g => match f, g with
                    | FZero, FZero | FMinus, FMinus | FPlus, FPlus | FSpace, FSpace | FHash, FHash | FQuote, FQuote => true
                    | _, _ => false end) (cv_flags c).
(** Character shown in front of numbers that are not negative: the last of + and space. *)
Fixpoint plus_sign (l : list flg) : list Z :=
  match l with
  | [] => []
  | f :: t => match plus_sign t with
              | [] => match f with FPlus => [43] | FSpace => [32] | _ => [] end
              | s => s
              end
  end.
Definition width_of (c : conv) : Z := match cv_width c with WNone => 0 | WNum n => n | WStar n => Z.abs n end.
Definition left_aligned (c : conv) : bool :=
  has_flag FMinus c || match cv_width c with WStar n => n <? 0 | _ => false end.
Definition prec_of (c : conv) : option Z :=
  match cv_prec c with PNone => None | PDot => Some 0 | PNumZ _ n => Some n | PStar n => Some n end.

(** [n] copies of a character (none if [n] is negative) *)
Definition copies (x n : Z) : list Z := repeat x (Z.to_nat n).
(** The text [t] padded to the width. *)
Definition pad (c : conv) (fill : Z) (t : list Z) : list Z :=
  if left_aligned c then t ++ copies 32 (width_of c - Zlen t) else copies fill (width_of c - Zlen t) ++ t.
(** The zero flag is ignored for integers with a precision. *)
Definition int_fill (c : conv) : Z :=
  match prec_of c with Some _ => 32 | None => if has_flag FZero c then 48 else 32 end.
Definition flt_fill (c : conv) : Z := if has_flag FZero c then 48 else 32.

(** Digits with at least as many digits as the precision. *)
Definition dec_digits (c : conv) (n : Z) : list Z :=
  let ds := show 10 n in
  match prec_of c with Some p => copies 48 (p - Zlen ds) | None => [] end ++ ds.
(** Exactly [k] digits of [n], upper case. *)
Definition upper_digit (d : Z) : Z := if d <? 10 then 48 + d else 55 + d.
Fixpoint fixed (base : Z) (k : nat) (n : Z) : list Z :=
  match k with
  | O => []
  | S k' => fixed base k' (n / base) ++ [upper_digit (n mod base)]
  end.
Definition fixed_digits (cf : cfg) (base per_byte : Z) (c : conv) (v : Z) : list Z :=
  fixed base (Z.to_nat match prec_of c with Some p => p | None => per_byte * len_bytes cf (cv_len c) end) v.

(** Strings are cut to the precision; a literal precision of 0 with a width centres instead. *)
Definition centred (c : conv) : bool :=
  match cv_prec c with PDot => true | PNumZ _ n => n =? 0 | _ => false end && negb (width_of c =? 0).
Definition str_body (c : conv) (l : list Z) : list Z :=
  match prec_of c with Some p => firstn (Z.to_nat p) l | None => l end.
Definition str_text (c : conv) (l : list Z) : list Z :=
  if centred c
  then let n := width_of c - Zlen l in copies 32 (n / 2) ++ l ++ copies 32 (n - n / 2)
  else pad c 32 (str_body c l).

(** Column after printing: line ends return to column 0, other control characters do not
    count.  If char is signed, characters above 127 do not count either. *)
Definition counts (cf : cfg) (x : Z) : bool := (32 <=? x) && ((x <? 128) || negb (c_char_signed cf)).
Definition step_col (cf : cfg) (col x : Z) : Z :=
  if (x =? 13) || (x =? 10) then 0 else if counts cf x then col + 1 else col.
Definition after (cf : cfg) (col : Z) (l : list Z) : Z := fold_left (step_col cf) l col.

(** Text printed for a floating point argument: [flt eng c d]. *)
Definition item_out {D} (cf : cfg) (flt : bool -> conv -> D -> list Z) (col : Z) (i : item D) : list Z :=
  match i with
  | Text l => l
  | Percent => [37]
  | Vtab => [11]
  | ColumnZ _ n x => copies x (n - col)
  | BareZ _ _ => []
  | Dec _ c v => pad c (int_fill c) ((if v <? 0 then [45] else plus_sign (cv_flags c)) ++ dec_digits c (Z.abs v))
  | Uns c v => pad c (int_fill c) (dec_digits c v)
  | Hex _ c v => pad c (int_fill c) (fixed_digits cf 16 2 c v)
  | Bin c v => pad c (int_fill c) (fixed_digits cf 2 8 c v)
  | Chr _ v => [v mod 256]
  | Str _ c _ l => str_text c l
  | Flt _ c d => flt false c d
  | Eng _ c d => flt true c d
  | Other _ _ => []
  end.
(** The text a list of items stands for, printed from column [col]. *)
Fixpoint printed {D} (cf : cfg) (flt : bool -> conv -> D -> list Z) (col : Z) (l : list (item D)) : list Z :=
  match l with
  | [] => []
  | i :: t => let s := item_out cf flt col i in s ++ printed cf flt (after cf col s) t
  end.

(** ** Valid calls *)
Definition digit (c : Z) : bool := (48 <=? c) && (c <=? 57).
Definition conv_ok (c : conv) : Prop :=
  match cv_width c with WNone => True | WNum n => 0 < n <= INT_MAX | WStar n => - INT_MAX <= n <= INT_MAX end /\
  match cv_prec c with PNone | PDot => True | PNumZ _ n => 0 <= n <= INT_MAX | PStar n => INT_MIN <= n <= INT_MAX end.
(** A string cannot be cut to a negative length; a centred string is not cut. *)
Definition trim_ok (c : conv) : Prop := centred c = true \/ match prec_of c with Some p => 0 <= p | None => True end.
(** Range of values of an integer argument. *)
Definition arg_bits (cf : cfg) (l : len) : Z := if len_bytes cf l =? 8 then 64 else 32.
Definition signed_ok (cf : cfg) (l : len) (v : Z) : Prop :=
  - 2 ^ (arg_bits cf l - 1) <= v < 2 ^ (arg_bits cf l - 1) /\ (c_wrapv cf = true \/ v <> LLONG_MIN).
Definition unsigned_ok (cf : cfg) (l : len) (v : Z) : Prop := 0 <= v < 2 ^ arg_bits cf l.
(** A %s argument: NULL stands for the empty string. *)
Definition string_arg (m : mem) (p : ptr) (l : list Z) : Prop := (p = null /\ l = []) \/ c_string m p l.

(** Not a type. *)
Definition meaningless (t : Z) : Prop := 0 <= t < 256 /\ ~ In t [100; 105; 117; 120; 88; 111; 99; 115; 83; 102; 70; 101; 69].
(** A character that would be a part of the flags, the width, the precision or the length. *)
Definition flag_char (t : Z) : bool := (t =? 48) || (t =? 45) || (t =? 43) || (t =? 32) || (t =? 35) || (t =? 39).
Definition longer_width (c : conv) (t : Z) : bool :=
  match cv_width c with
  | WNone => digit t || flag_char t || (t =? 42) || (t =? 37) && match cv_flags c with [] => true | _ => false end
  | WNum _ => digit t
  | WStar _ => false
  end.
Definition longer_prec (c : conv) (t : Z) : bool :=
  match cv_prec c with
  | PNone => (t =? 46) || longer_width c t
  | PDot => digit t || (t =? 42)
  | PNumZ _ _ => digit t
  | PStar _ => false
  end.
Definition longer (c : conv) (t : Z) : bool :=
  match cv_len c with
  | Lint => (t =? 104) || (t =? 108) || (t =? 116) || (t =? 122) || longer_prec c t
  | Lh => t =? 104
  | Ll => t =? 108
  | _ => false
  end.

Definition item_ok {D} (cf : cfg) (flt_ok : bool -> conv -> D -> Prop) (i : item D) : Prop :=
  match i with
  | Text l => Forall (fun x => 0 < x < 256 /\ x <> 37 /\ x <> 11) l
  | Percent | Vtab => True
  | ColumnZ _ n x => 0 <= n <= INT_MAX /\ 0 <= x < 256 /\ counts cf x = true /\ digit x = false
  | BareZ _ n => 0 <= n <= INT_MAX
  | Dec _ c v => conv_ok c /\ signed_ok cf (cv_len c) v
  | Uns c v => conv_ok c /\ unsigned_ok cf (cv_len c) v
  | Hex _ c v => conv_ok c /\ unsigned_ok cf (cv_len c) v /\ match prec_of c with Some p => 1 <= p <= 16 | None => True end
  | Bin c v => conv_ok c /\ unsigned_ok cf (cv_len c) v /\ match prec_of c with Some p => 1 <= p <= 64 | None => True end
  | Chr c v => conv_ok c /\ INT_MIN <= v <= INT_MAX
  | Str _ c _ _ => conv_ok c /\ trim_ok c
  | Flt _ c d => conv_ok c /\ flt_ok false c d
  | Eng _ c d => conv_ok c /\ flt_ok true c d
  | Other c t => conv_ok c /\ meaningless t /\ longer c t = false
  end.
(** The strings the items refer to are in memory. *)
Definition item_mem {D} (m : mem) (i : item D) : Prop := match i with Str _ _ p l => string_arg m p l | _ => True end.
(** A vertical tab followed by a digit would be a column, a column is filled with the visible
    character behind it. *)
Fixpoint items_ok {D} (cf : cfg) (flt_ok : bool -> conv -> D -> Prop) (l : list (item D)) : Prop :=
  match l with
  | [] => True
  | i :: t => item_ok cf flt_ok i /\ items_ok cf flt_ok t /\
              match i with
              | Vtab => digit (hd 0 (format t)) = false
              | BareZ _ _ => counts cf (hd 0 (format t)) = false
              | _ => True
              end
  end.

(** ** Floating point text *)
(** What is shown of a number: a message, or [n] / 10^precision with a sign. *)
Inductive reading : Type := RNan | RInf (neg : bool) | ROver (neg : bool) | RNum (neg : bool) (n : Z).
(** At most 19 decimals; 3 by default, 0 in engineering notation.  The precision is reduced modulo 256. *)
Definition flt_prec (eng : bool) (c : conv) : Z :=
  match prec_of c with Some p => Z.min (p mod 256) 19 | None => if eng then 0 else 3 end.
(** [n] / 10^[prec] in decimal with [prec] decimals. *)
Definition point_text (prec n : Z) : list Z :=
  show 10 (n / 10 ^ prec) ++ (if prec =? 0 then [] else 46 :: fixed 10 (Z.to_nat prec) (n mod 10 ^ prec)).
Definition flt_sign (c : conv) (neg : bool) : list Z := if neg then [45] else plus_sign (cv_flags c).
(** [prefix] is the SI prefix ([] if none), not shown for zero. *)
Definition flt_text (eng : bool) (c : conv) (prefix : list Z) (r : reading) : list Z :=
  match r with
  | RNan => pad c 32 [78; 65; 78]
  | RInf neg => pad c 32 (flt_sign c neg ++ [73; 78; 70])
  | ROver neg => pad c 32 (flt_sign c neg ++ [79; 86; 69; 82])
  | RNum neg n => pad c (flt_fill c) (flt_sign c neg ++ point_text (flt_prec eng c) n ++ (if n =? 0 then [] else prefix))
  end.

(** ** Output to memory *)
(** The [k] bytes at [q] are not among the [n] bytes at [dst]. *)
Definition clear_of (dst : ptr) (n : Z) (q : ptr) (k : Z) : Prop :=
  p_obj q <> p_obj dst \/ p_ofs q + k <= p_ofs dst \/ p_ofs dst + n <= p_ofs q.
(** Strings printed are not stored in the [n] bytes at [dst]. *)
Definition item_clear {D} (dst : ptr) (n : Z) (i : item D) : Prop :=
  match i with Str _ _ p l => p = null \/ clear_of dst n p (Zlen l + 1) | _ => True end.
(** [n] bytes can be written at [dst]. *)
Definition writable (m : mem) (dst : ptr) (n : Z) : Prop :=
  exists b k, p_obj dst = PBlk b /\ nth_error m b = Some k /\ b_live k = true /\ 0 <= p_ofs dst /\ p_ofs dst + n <= b_size k.
(** Only (some of) the [n] bytes at [dst] have changed. *)
Definition only_wrote (m m' : mem) (dst : ptr) (n : Z) : Prop :=
  forall b, p_obj dst = PBlk b -> frame m m' b (p_ofs dst) (p_ofs dst + n).
