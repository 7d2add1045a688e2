(** Specification of precisions passed as arguments. *)
From Verif Require Import Base Mem Spec NumSpec PrnfModel PrnfSpec PrnfSpec2.

(** The conversion of a placeholder. *)
Definition placeholder_of {D} (i : item D) : option conv :=
  match i with
  | Dec _ c _ | Uns c _ | Hex _ c _ | Bin c _ | Chr c _ | Str _ c _ _ | Flt _ c _ | Eng _ c _ | Other c _ => Some c
  | Text _ | Percent | Vtab | ColumnZ _ _ _ | BareZ _ _ => None
  end.
(** The same placeholder with another precision. *)
Definition set_prec (p : prc) (c : conv) : conv := Conv (cv_flags c) (cv_width c) p (cv_len c).
Definition with_prec {D} (p : prc) (i : item D) : item D :=
  match i with
  | Dec b c v => Dec b (set_prec p c) v
  | Uns c v => Uns (set_prec p c) v
  | Hex b c v => Hex b (set_prec p c) v
  | Bin c v => Bin (set_prec p c) v
  | Chr c v => Chr (set_prec p c) v
  | Str b c q l => Str b (set_prec p c) q l
  | Flt b c d => Flt b (set_prec p c) d
  | Eng b c d => Eng b (set_prec p c) d
  | Other c t => Other (set_prec p c) t
  | _ => i
  end.
Definition is_float {D} (i : item D) : Prop := match i with Flt _ _ _ | Eng _ _ _ => True | _ => False end.
Definition is_decimal {D} (i : item D) : Prop := match i with Dec _ _ _ | Uns _ _ => True | _ => False end.
(** A literal precision of 0 centres a string that has a width. *)
Definition no_centring {D} (i : item D) : Prop := match i with Str _ c _ _ => width_of c = 0 | _ => True end.
(** The flags without 0. *)
Definition no_zero (l : list flg) : list flg := filter (fun f => match f with FZero => false | _ => true end) l.
Definition without_zero {D} (i : item D) : item D :=
  match i with
  | Dec b c v => Dec b (Conv (no_zero (cv_flags c)) (cv_width c) (cv_prec c) (cv_len c)) v
  | Uns c v => Uns (Conv (no_zero (cv_flags c)) (cv_width c) (cv_prec c) (cv_len c)) v
  | _ => i
  end.

(** The items are printed as [t]. *)
Definition outputs (cf : cfg) (A : fops) (l : list (item (dbl A))) (t : list Z) : Prop :=
  Zlen t < INT_MAX -> forall m dst n fmt va, let w := Z.min n (Zlen t + 1) in
  0 <= n <= INT_MAX -> writable m dst w ->
  bytes_at m fmt (format l ++ [0]) /\ Forall (item_mem m) l ->
  clear_of dst w fmt (Zlen (format l) + 1) /\ Forall (item_clear dst w) l ->
  exists m', vsnprnf cf A mem (fun m => m) (fun _ m => m) m dst n fmt (arguments cf l ++ va) = Ok (Zlen t, m') /\
    only_wrote m m' dst w /\ (0 < n -> bytes_at m' dst (firstn (Z.to_nat (n - 1)) t ++ [0])).
Definition same_output (cf : cfg) (A : fops) (l l' : list (item (dbl A))) : Prop := exists t, outputs cf A l t /\ outputs cf A l' t.
