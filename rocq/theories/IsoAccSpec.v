(** Which calls of programs that also use the accessories ISO C leaves undefined (see IsoBufSpec). *)
From Verif Require Import Base Mem Libc StrviewModel Spec Alloc StrbufModel BufSpec HistSpec IoModel PackModel CryptModel PrnfModel PrnfBufModel HistSpec2 IsoBufSpec.

(** Not a model of code: packing appends the bytes of a local variable, which is another object (strbuf_pack.h:19, 22). *)
Definition iso_acc_undefined {D} (vars : list ptr) (a : list slot) (o : xop D) : bool :=
  match o with
  | XOp o => iso_buf_undefined vars a o
  | XPack _ _ _ _ _ => true
  | _ => false
  end.

(** A program makes no such call: its variables before each call are those of its run on the usual compiler [cf]. *)
Fixpoint iso_acc_program (cf : cfg) (A : fops) (vars : list ptr) (w : st) (a : list slot) (prog : list (xop (dbl A))) : bool :=
  match prog with
  | [] => true
  | o :: t => negb (iso_acc_undefined vars a o) &&
              match xexec cf A vars w o with Ok (_, vars', w') => iso_acc_program cf A vars' w' (snd (xstep cf A a o)) t | _ => false end
  end.

(** Functions without such calls. *)
Definition in_iso_acc {D} (o : xop D) : bool :=
  match o with
  | XOp o => in_iso_buf o
  | XPack _ _ _ _ _ => false
  | _ => true
  end.
