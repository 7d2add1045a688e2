(** Programs whose buffers have enough room. *)
From Verif Require Import Base Mem Libc StrviewModel Spec Alloc StrbufModel BufSpec HistSpec.
Local Open Scope Z_scope.

(** A fixed buffer, or one with room for [n] characters. *)
Definition room_for (B : buffer) (n : Z) : Prop := dyn B = false \/ n <= bf_cap B.

(** The call finds the room it needs.  Concatenating parts of a dynamic buffer into the same buffer needs a
    temporary one and is not allowed here, nor are creating, destroying and shrinking. *)
Definition enough (a : list slot) (B : buffer) (o : op) : Prop :=
  match o with
  | OAppend _ s | OPrepend _ s | OInsert _ _ s | OBefore _ _ s | OAfter _ _ s => room_for B (Zlen (bf_data B) + Zlen (text_of a s))
  | OAssign _ s => room_for B (Zlen (text_of a s))
  | OCat j ss => dyn B = false \/ existsb (starts_in a j) ss = false /\ Zlen (concat (map (text_of a) ss)) <= bf_cap B
  | OChar _ _ => room_for B (Zlen (bf_data B) + 1)
  | OGrow _ n => room_for B n
  | OPrintf _ l | OPrnf _ l => room_for B (Zlen l)
  | OAppendPrintf _ l | OAppendPrnf _ l => room_for B (Zlen (bf_data B) + Zlen l)
  | OStrip _ _ | OUsing _ _ | OView _ => True
  | OShrink _ => dyn B = false \/ bf_cap B = Zlen (bf_data B)
  | _ => False
  end.
Definition has_room (a : list slot) (o : op) : Prop := exists B, slot_of a (target o) = ABuf B /\ enough a B o.

Fixpoint all_room (cf : cfg) (a : list slot) (prog : list op) : Prop :=
  match prog with
  | [] => True
  | o :: t => has_room a o /\ all_room cf (snd (astep cf a o)) t
  end.

(** Calls that change or show the contents of a buffer. *)
Definition edits (o : op) : Prop :=
  match o with OCreate _ _ _ | OInit _ _ _ | ODestroy _ | OToCstr _ | OFree _ _ => False | _ => True end.
