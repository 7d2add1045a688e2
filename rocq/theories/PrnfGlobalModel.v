(** Model of prnf() and the function pointer it prints through (/repo/test/prnf.c:167, 307-311), and
    of programs that assign the pointer and print (/repo/test/prnf.h:128-158, 197-222). *)
From Verif Require Import Base Mem Libc StrviewModel PrnfModel.

Section Global.
Variable cf : cfg.
Variable A : fops.
(** State of the program apart from prnf_out_fptr, in which the memory is. *)
Variable W : Type.
Variable rd : W -> mem.
Variable wr : W -> mem -> W.
(** The functions of the program that handle a character. *)
Variable H : Type.

(** prnf.c:167 prnf_out_fptr, NULL or a function, and the rest of the state *)
Record genv : Type := Genv { g_out : option H; g_user : W }.
(** prnf.c:167 the initial value *)
Definition started (w : W) : genv := Genv None w.
(** Memory of the program; no counterpart in /repo. *)
Definition g_rd (g : genv) : mem := rd (g_user g).
(** Memory of the program replaced; no counterpart in /repo. *)
Definition g_wr (g : genv) (m : mem) : genv := Genv (g_out g) (wr (g_user g) m).

(** prnf.h:128-136 what a function does with its void* and a character; it may also assign the pointer *)
Variable run : H -> ptr -> genv -> Z -> outcome genv.

(** prnf.c:325-329 vfptrprnf (and 296-305 fptrprnf) *)
Definition fptrprnf_g (f : option H) (x : ptr) (g : genv) (fmt : ptr) (va : list (arg (dbl A))) : outcome (Z * genv) :=
  vfptrprnf cf A genv g_rd g_wr (match f with Some h => Some (run h x) | None => None end) g fmt va.
(** prnf.c:307-311 vprnf (and 241-250 prnf): the pointer is read once, at the start; dst_fptr_vars is NULL *)
Definition prnf_g (g : genv) (fmt : ptr) (va : list (arg (dbl A))) : outcome (Z * genv) := fptrprnf_g (g_out g) null g fmt va.

(** Statements of a program: prnf.h:141 an assignment, prnf.h:376 a call of prnf, prnf.h:154 a call of fptrprnf *)
Inductive stmt : Type :=
| SAssign (f : option H)
| SPrnf (fmt : ptr) (va : list (arg (dbl A)))
| SFptr (f : option H) (x fmt : ptr) (va : list (arg (dbl A))).
(** prnf.h:139-158 statements one after the other; the results of the calls are collected *)
Fixpoint exec (l : list stmt) (g : genv) : outcome (list Z * genv) :=
  match l with
  | [] => Ok ([], g)
  | SAssign f :: t => exec t (Genv f (g_user g))
  | SPrnf fmt va :: t => let! (n, g) := prnf_g g fmt va in let! (r, g) := exec t g in Ok (n :: r, g)
  | SFptr f x fmt va :: t => let! (n, g) := fptrprnf_g f x g fmt va in let! (r, g) := exec t g in Ok (n :: r, g)
  end.
(** prnf.h:213-219 lcd_prnf, a variadic function of a module with its own handler; the result is dropped *)
Definition lcd_prnf (h : H) (g : genv) (fmt : ptr) (va : list (arg (dbl A))) : outcome genv :=
  let! (_, g) := fptrprnf_g (Some h) null g fmt va in Ok g.
End Global.
