(** What a compiler may promise beyond ISO C, and how two readings of the same program relate.
    [restrict r cf] is the platform [cf] with some of its promises withdrawn: the integer sizes,
    the byte order and the signedness of char stay.  [below] compares the outcomes: the outcome
    under the weaker promises is the same or is undefined. *)
From Verif Require Import Base.

Record fewer : Type := Fewer {
  f_wrapv : bool;   (* keep: signed overflow wraps *)
  f_mem0  : bool;   (* keep: mem*() with length 0 and NULL allowed *)
  f_ctype : bool;   (* keep: isdigit() of a negative char allowed *)
  f_ptr   : bool    (* keep: flat address space *)
}.

(** Not a model of code: the relation between two configurations (Base.v cfg). *)
Definition restrict (r : fewer) (cf : cfg) : cfg :=
  Cfg (c_char_signed cf) (f_wrapv r && c_wrapv cf) (f_mem0 r && c_mem0 cf)
      (f_ctype r && c_ctype cf) (f_ptr r && c_ptr cf)
      (c_long64 cf) (c_big_endian cf) (c_step cf) (c_ptrbytes cf).

Definition below {A} (x y : outcome A) : Prop := x = y \/ exists u, x = UB u.

(** Not a model of code: the same machine as [cf] under the letter of ISO C. *)
Definition strict (cf : cfg) : cfg := restrict (Fewer false false false false) cf.

(** ** The claim *)
(** Two compilers for the same machine, built with the same STRBUF_CAPACITY_GROW_STEP. *)
Definition same_machine (cf1 cf2 : cfg) : Prop :=
  c_char_signed cf1 = c_char_signed cf2 /\ c_long64 cf1 = c_long64 cf2 /\
  c_big_endian cf1 = c_big_endian cf2 /\ c_step cf1 = c_step cf2 /\ c_ptrbytes cf1 = c_ptrbytes cf2.
(** Everything the first compiler promises beyond ISO C the second promises too. *)
Definition promises_more (cf1 cf2 : cfg) : Prop :=
  (c_wrapv cf1 = true -> c_wrapv cf2 = true) /\ (c_mem0 cf1 = true -> c_mem0 cf2 = true) /\
  (c_ctype cf1 = true -> c_ctype cf2 = true) /\ (c_ptr cf1 = true -> c_ptr cf2 = true).

(** A run that is defined stays the same if the compiler promises more, and two compilers for
    which it is defined give the same, whatever they promise. *)
Definition portable {A} (run : cfg -> outcome A) : Prop :=
  (forall cf1 cf2 x, same_machine cf1 cf2 -> promises_more cf1 cf2 -> run cf1 = Ok x -> run cf2 = Ok x) /\
  (forall cf1 cf2 x y, same_machine cf1 cf2 -> run cf1 = Ok x -> run cf2 = Ok y -> x = y).
