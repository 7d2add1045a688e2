(** How often a program calls the allocator to get or to resize memory. *)
From Verif Require Import Base Mem Libc StrviewModel Spec Alloc StrbufModel BufSpec HistSpec.
Local Open Scope Z_scope.

(** The decisions of the allocator are taken in order: after [k] calls that ask for memory the next one
    is number [k].  (Calls that free memory have no decision to take and are not counted.) *)
Definition asked (w w' : st) (k : nat) : Prop := forall n, s_orc w' n = s_orc w (k + n)%nat.

(** Number of steps of size [s] needed to come from [c] to [d]: a step goes to the next multiple of [s]. *)
Definition steps (s c d : Z) : nat := Z.to_nat ((d + s - 1) / s - c / s).

(** The number of such calls of one API call that turns [B] into [B']. *)
Definition one_if (b : bool) : nat := if b then 1%nat else 0%nat.
Definition resized (B B' : buffer) : bool := negb (bf_cap B' =? bf_cap B).
Definition calls_of (cf : cfg) (a : list slot) (o : op) : nat :=
  match o with
  | OCreate _ _ _ | OInit _ _ _ | OToCstr _ => 1
  | ODestroy _ | OFree _ _ => 0
  | _ =>
      match slot_of a (target o) with
      | ABuf B =>
          let B' := buf_step cf a B o in
          match o with
          | OPrnf _ _ | OAppendPrnf _ _ => if resized B B' then steps (c_step cf) (bf_cap B) (bf_cap B') else 0
          | OCat j ss => (one_if (dyn B && existsb (starts_in a j) ss && fits B (concat (map (text_of a) ss))) + one_if (resized B B'))%nat
          | _ => one_if (resized B B')
          end
      | _ => 0
      end
  end.
Fixpoint all_calls (cf : cfg) (a : list slot) (prog : list op) : nat :=
  match prog with
  | [] => 0
  | o :: t => (calls_of cf a o + all_calls cf (snd (astep cf a o)) t)%nat
  end.

(** A capacity in steps; the last step may be incomplete. *)
Definition in_steps (s c : Z) : Z := if c =? INT_MAX then (c + s - 1) / s else c / s.
(** Calls that may get memory although the capacity is not used up: strbuf_grow, and concatenations that
    read the buffer they write. *)
Fixpoint extras (cf : cfg) (a : list slot) (prog : list op) : Z :=
  match prog with
  | [] => 0
  | o :: t => (match o with OGrow _ _ => 1 | OCat j ss => if existsb (starts_in a j) ss then 1 else 0 | _ => 0 end) + extras cf (snd (astep cf a o)) t
  end.
(** Calls on buffer [j] that do not give memory back. *)
Definition keeps (j : nat) (o : op) : Prop :=
  target o = j /\ match o with OShrink _ | OCreate _ _ _ | OInit _ _ _ | ODestroy _ | OToCstr _ | OFree _ _ => False | _ => True end.
