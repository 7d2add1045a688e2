(** Specification of receiving lines: the lines of a text are those of [lines_of] (Spec.v). *)
From Verif Require Import Base Mem StrviewModel Spec Alloc BufSpec.

(** No [n + 1] characters in a row without a CR or a LF among them. *)
Definition short_lines (n : Z) (l : list Z) : Prop :=
  forall x y z, l = x ++ y ++ z -> Forall (fun c => c <> 13 /\ c <> 10) y -> Zlen y <= n.

(** Events at which something is ready. *)
Definition is_ready (ev : option nat) : bool := match ev with Some (S _) => true | _ => false end.
Definition count_ready (evs : list (option nat)) : nat := length (filter is_ready evs).

(** No complete line is in the buffer. *)
Definition no_line (e : Z) (l : list Z) : Prop := until_eol (drop_half e l) = None.

(** Enough room: a buffer which can grow, or a fixed one with two characters more than the longest line. *)
Definition line_room (cf : cfg) (B : buffer) (l : list Z) : Prop :=
  if dyn B then sums_ok cf (Zlen l) /\ Zlen l <= INT_MAX else exists n, short_lines n l /\ n + 2 <= bf_cap B /\ sums_ok cf (bf_cap B).
