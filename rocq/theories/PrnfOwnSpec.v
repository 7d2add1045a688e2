(** Formatted text that contains the text of the buffer it is written to. *)
From Verif Require Import Base Mem StrviewModel StrbufModel BufSpec PrnfModel PrnfSpec.

(** The C string that begins with the first of the characters [l] of a buffer. *)
Fixpoint to_nul (l : list Z) : list Z :=
  match l with
  | [] => []
  | x :: t => if x =? 0 then [] else x :: to_nul t
  end.

(** A part of a format string and its argument; [Own b c k]: %s (%S if [b]) with a pointer to
    character [k] of the buffer that is written to. *)
Inductive piece (D : Type) : Type :=
| Given (i : item D)
| Own (b : bool) (c : conv) (k : nat).
Arguments Given {D}. Arguments Own {D}.

(** What the part means while the contents of the buffer at [p] are [l]. *)
Definition now {D} (cf : cfg) (p : ptr) (l : list Z) (x : piece D) : item D :=
  match x with
  | Given i => i
  | Own b c k => Str b c (shift (chars_of cf p) (Z.of_nat k)) (to_nul (skipn k l))
  end.

(** The text if every part is printed behind [l], with what the buffer contains at that moment. *)
Fixpoint unrolled {D} (cf : cfg) (flt : bool -> conv -> D -> list Z) (p : ptr) (col : Z) (l : list Z) (xs : list (piece D)) : list Z :=
  match xs with
  | [] => []
  | x :: t => let s := item_out cf flt col (now cf p l x) in s ++ unrolled cf flt p (after cf col s) (l ++ s) t
  end.

(** Pointers into the contents [l]. *)
Definition points_into {D} (l : list Z) (x : piece D) : Prop := match x with Given _ => True | Own _ _ k => (k <= length l)%nat end.
