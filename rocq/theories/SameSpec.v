(** When two programs on two platforms are the same but for capacities, allocators and places in memory. *)
From Verif Require Import Base Mem Libc StrviewModel Spec Alloc StrbufModel BufSpec HistSpec.

(** Variables with the same text; the capacity of a fixed buffer counts, that of a dynamic one does not. *)
Definition same_slot (s1 s2 : slot) : Prop :=
  match s1, s2 with
  | ANone, ANone => True
  | AStr l1 _, AStr l2 _ => l1 = l2
  | ABuf B1, ABuf B2 => bf_data B1 = bf_data B2 /\ dyn B1 = dyn B2 /\ (dyn B1 = false -> bf_cap B1 = bf_cap B2)
  | _, _ => False
  end.

(** An argument without its place, a call without its capacity and allocator.  Calls of strbuf_shrink and strbuf_grow count
    for nothing. *)
Definition bare_src (s : src) : src := match s with SText _ l => SText INVALID l | s => s end.
Definition bare (o : op) : op :=
  match o with
  | OAppend j s => OAppend j (bare_src s)
  | OPrepend j s => OPrepend j (bare_src s)
  | OInsert j i s => OInsert j i (bare_src s)
  | OBefore j d s => OBefore j (bare_src d) (bare_src s)
  | OAfter j d s => OAfter j (bare_src d) (bare_src s)
  | OAssign j s => OAssign j (bare_src s)
  | OCat j ss => OCat j (map bare_src ss)
  | OStrip j s => OStrip j (bare_src s)
  | OCreate j _ _ => OCreate j 0 (Alloc 0 (Some 0%nat))
  | OInit j s _ => OInit j (bare_src s) (Alloc 0 (Some 0%nat))
  | OFree j _ => OFree j (Alloc 0 (Some 0%nat))
  | o => o
  end.
Definition resizes (o : op) : bool := match o with OShrink _ | OGrow _ _ => true | _ => false end.
Definition bare_prog (p : list op) : list op := map bare (filter (fun o => negb (resizes o)) p).
(** strbuf_append_using offers the free capacity to its callback, which may depend on it. *)
Definition offers (o : op) : bool := match o with OUsing _ _ => true | _ => false end.
(** What is read through the views that the other calls return. *)
Fixpoint noticed (p : list op) (xs : list (option (list Z))) : list (option (list Z)) :=
  match p, xs with
  | o :: p, x :: xs => if resizes o then noticed p xs else x :: noticed p xs
  | _, _ => []
  end.
