(** Outcomes, configuration and C integer arithmetic used by the model. *)
From Coq Require Export ZArith List Bool Lia.
Export ListNotations.
Open Scope Z_scope.

(** Kinds of undefined behaviour distinguished by the model. *)
Inductive ub : Type :=
| UB_null      (* access through NULL *)
| UB_bounds    (* access outside of an object *)
| UB_dead      (* access to a freed object *)
| UB_uninit    (* use of an indeterminate value *)
| UB_ptr       (* out-of-bounds pointer formed, or cross-object comparison/subtraction *)
| UB_overflow  (* signed integer overflow *)
| UB_overlap   (* memcpy on overlapping objects *)
| UB_ctype     (* isdigit/isxdigit argument not representable as unsigned char nor EOF *)
| UB_alloc     (* realloc/free of a pointer not obtained from that allocator *)
| UB_align     (* misaligned access to a strbuf_t header *)
| UB_const     (* write to a string literal *)
| UB_shift     (* shift by a negative amount or by the width of the type or more *)
| UB_varg      (* va_arg without a matching argument *)
| UB_float.    (* conversion of a floating point value that the integer type cannot represent *)

(** Result of a run: a value, undefined behaviour, or a loop bound of the model reached. No counterpart in /repo. *)
Inductive outcome (A : Type) : Type :=
| Ok (a : A)
| UB (u : ub)
| Fuel.        (* the loop bound of the model was reached *)
Arguments Ok {A} a.
Arguments UB {A} u.
Arguments Fuel {A}.

(** Sequencing; no counterpart in /repo *)
Definition bind {A B} (x : outcome A) (f : A -> outcome B) : outcome B :=
  match x with
  | Ok a => f a
  | UB u => UB u
  | Fuel => Fuel
  end.

Notation "'let!' x ':=' e 'in' k" := (bind e (fun x => k))
  (at level 200, x pattern at level 0, e at level 200, k at level 200).

(** The run ends with a value; no counterpart in /repo *)
Definition is_ok {A} (x : outcome A) : Prop := exists a, x = Ok a.

(** Platform/compiler configuration; every theorem is universally quantified
    over it, with hypotheses on single flags where the code relies on them. *)
(** No counterpart in /repo except c_step, which is STRBUF_CAPACITY_GROW_STEP (strbuf.h:123-124, strbuf.c:762-767). *)
Record cfg : Type := Cfg {
  c_char_signed : bool;   (* plain char is signed *)
  c_wrapv       : bool;   (* signed overflow wraps; otherwise it is UB *)
  c_mem0        : bool;   (* mem*() with length 0 and NULL, and NULL+0, are allowed *)
  c_ctype       : bool;   (* isdigit()/isxdigit() accept negative char values *)
  c_ptr         : bool;   (* flat address space: cross-object <,<=,- and out-of-bounds pointers allowed *)
  c_long64      : bool;   (* long is 64 bits wide, otherwise 32 *)
  c_big_endian  : bool;   (* host byte order *)
  c_step        : Z;      (* STRBUF_CAPACITY_GROW_STEP *)
  c_ptrbytes    : Z       (* sizeof(void pointer) *)
}.

(** Platforms considered; no counterpart in /repo *)
Definition wf_cfg (cf : cfg) : Prop :=
  0 < c_step cf <= 1073741824 /\ (c_ptrbytes cf = 4 \/ c_ptrbytes cf = 8).

(** The usual gcc/clang x86-64 configuration. *)
Definition gcc64 : cfg := Cfg true true true true true true false 16 8.
(** Strict ISO C17 reading of the same machine. *)
Definition iso64 : cfg := Cfg true false false false false true false 16 8.

(** limits.h *)
(** Used at strbuf.c:131, 769 and strnum.c:520. *)
Definition INT_MAX : Z := 2147483647.
(** limits.h, used at strnum.c:156, 253 *)
Definition INT_MIN : Z := -2147483648.
(** limits.h, used at strnum.c:103, 288, 751 *)
Definition UINT_MAX : Z := 4294967295.
(** limits.h, used at strnum.c:177, 267, 635 *)
Definition LLONG_MAX : Z := 9223372036854775807.
(** limits.h, used at strnum.c:177, 267, 630 *)
Definition LLONG_MIN : Z := -9223372036854775808.
(** limits.h, used at strnum.c:124, 302, 753, 784 *)
Definition ULLONG_MAX : Z := 18446744073709551615.

(** The number is a value of int; no counterpart in /repo *)
Definition in_int (z : Z) : bool := (INT_MIN <=? z) && (z <=? INT_MAX).

(** Conversion of an out-of-range value to int (implementation defined, wraps). *)
(** As at strview.c:360. *)
Definition wrap32 (z : Z) : Z :=
  (z - INT_MIN) mod 4294967296 + INT_MIN.

(** Conversion to int, as the cast at strview.c:360 *)
Definition to_int (z : Z) : Z := wrap32 z.

(** Result of a signed int operation whose mathematical value is [z]. *)
(** ISO C; no counterpart in /repo, int arithmetic of all files. *)
Definition int_res (cf : cfg) (z : Z) : outcome Z :=
  if in_int z then Ok z else if c_wrapv cf then Ok (wrap32 z) else UB UB_overflow.

(** The operator + of int, as at strbuf.c:666 *)
Definition iadd (cf : cfg) (a b : Z) : outcome Z := int_res cf (a + b).
(** The operator - of int, as at strbuf.c:681 *)
Definition isub (cf : cfg) (a b : Z) : outcome Z := int_res cf (a - b).

(** Values of unsigned char; no counterpart in /repo *)
Definition is_byte (b : Z) : Prop := 0 <= b < 256.

(** Value of a plain char holding byte [b] after promotion to int. *)
(** As at strview.c:310, 319. *)
Definition char_int (cf : cfg) (b : Z) : Z :=
  if c_char_signed cf && (128 <=? b) then b - 256 else b.

(** Length of a list; no counterpart in /repo *)
Definition Zlen {A} (l : list A) : Z := Z.of_nat (length l).
