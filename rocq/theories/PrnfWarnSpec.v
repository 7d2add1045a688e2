(** Specification of prnf with a warning handler: how often it is called. *)
From Verif Require Import Base Mem Spec NumSpec PrnfModel PrnfSpec.

(** The flags that are accepted and have no effect. *)
Definition unsupported_flag (f : flg) : bool := match f with FHash | FQuote => true | _ => false end.
Definition conv_warnings (c : conv) : Z := Zlen (filter unsupported_flag (cv_flags c)).
(** Each such flag of a placeholder is reported, repeated ones too. *)
Definition warnings {D : Type} (i : item D) : Z :=
  match i with
  | Dec _ c _ | Uns c _ | Hex _ c _ | Bin c _ | Chr c _ | Str _ c _ _ | Flt _ c _ | Eng _ c _ | Other c _ => conv_warnings c
  | _ => 0
  end.
Fixpoint total_warnings {D : Type} (l : list (item D)) : Z :=
  match l with [] => 0 | i :: t => warnings i + total_warnings t end.
(** A placeholder without such flags. *)
Definition no_unsupported {D : Type} (i : item D) : Prop :=
  match i with
  | Dec _ c _ | Uns c _ | Hex _ c _ | Bin c _ | Chr c _ | Str _ c _ _ | Flt _ c _ | Eng _ c _ | Other c _ => ~ In FHash (cv_flags c) /\ ~ In FQuote (cv_flags c)
  | _ => True
  end.
(** The same placeholders with these flags left out. *)
Definition without (c : conv) : conv := Conv (filter (fun f => negb (unsupported_flag f)) (cv_flags c)) (cv_width c) (cv_prec c) (cv_len c).
Definition left_out {D : Type} (i : item D) : item D :=
  match i with
  | Dec b c v => Dec b (without c) v
  | Uns c v => Uns (without c) v
  | Hex b c v => Hex b (without c) v
  | Bin c v => Bin (without c) v
  | Chr c v => Chr (without c) v
  | Str b c p l => Str b (without c) p l
  | Flt b c d => Flt b (without c) d
  | Eng b c d => Eng b (without c) d
  | Other c t => Other (without c) t
  | i => i
  end.
