(** Further specifications for strbuf: operations that do not call the allocator, subsequences. *)
From Verif Require Import Base Mem StrviewModel Spec Alloc BufSpec.

(** The buffer has become [B'] in place, and the allocator was not called. *)
Definition becomes_alone (cf : cfg) (w : st) (p : ptr) (B : buffer) (r : outcome (view * option ptr * st)) (B' : buffer) : Prop :=
  exists w', r = Ok (buf_view cf p B', Some p, w') /\ buf_at cf (s_mem w') p B' /\
    touches cf (s_mem w) (s_mem w') p p B /\ mem_wf (s_mem w') /\ s_orc w' = s_orc w.

(** [r] is [l] with some elements left out. *)
Inductive subseq : list Z -> list Z -> Prop :=
| sub_nil : subseq [] []
| sub_keep : forall c r l, subseq r l -> subseq (c :: r) (c :: l)
| sub_drop : forall c r l, subseq r l -> subseq r (c :: l).

(** Stripping by a window of the contents themselves: [k] characters from position [i] of what the buffer holds at
    the moment, NULs behind its end.  [kept] has been looked at, [rest] has not, [z] are the NULs left behind. *)
Fixpoint strip_window (i k : nat) (kept rest z : list Z) : list Z :=
  match rest with
  | [] => []
  | c :: rest' =>
      if existsb (Z.eqb c) (firstn k (skipn i (kept ++ rest ++ 0 :: z)))
      then strip_window i k kept rest' (0 :: z)
      else c :: strip_window i k (kept ++ [c]) rest' z
  end.
