(** Which calls of programs on buffers and views ISO C leaves undefined: those of IsoSpec and of IsoBufSpec, with the texts and
    places that the variables of the program have at the time. *)
From Verif Require Import Base Mem Libc StrviewModel StrnumModel Spec NumSpec Alloc StrbufModel BufSpec HistSpec ViewProg MixSpec PortSpec IsoSpec IsoBufSpec.

(** Not a model of code. *)
Definition iso_mix_undefined (cf : cfg) (T : library) (s : mstate) (g : ghost) (o : mop) : Prop :=
  match o with
  | MView o => iso_undefined (c_char_signed cf) (vo_f o) (vget (ms_views s) (vo_src o))
                 (named_text T (g_slots g) (nget (g_names g) (vo_src o))) (named_text T (g_slots g) (nget (g_names g) (vo_arg o)))
  | MBuf o ks _ => iso_buf_undefined (ms_vars s) (g_slots g) (fill (map (arg_named T (ms_views s) g) ks) o) = true
  | MText _ => False
  end.

(** A program makes no such call, in its run on the usual compiler [cf]. *)
Fixpoint iso_mix_program (cf : cfg) (ds : list ptr) (T : library) (s : mstate) (g : ghost) (prog : list mop) : Prop :=
  match prog with
  | [] => True
  | o :: t => ~ iso_mix_undefined cf T s g o /\
              match mexec cf ds s o with Ok (x, s') => iso_mix_program cf ds T s' (gstep cf ds T s g o x) t | _ => False end
  end.

(** Correct use as in MixSpec, but without relying on wrapping arithmetic. *)
Fixpoint all_iso_legal (cf : cfg) (ds : list ptr) (T : library) (R : texts) (s : mstate) (g : ghost) (prog : list mop) : Prop :=
  match prog with
  | [] => True
  | o :: t => mlegal (strict cf) ds T R s g o /\ match mexec cf ds s o with Ok (x, s') => all_iso_legal cf ds T R s' (gstep cf ds T s g o x) t | _ => True end
  end.

(** Functions without such calls. *)
Definition in_iso_mix (o : mop) : bool := match o with MView o => in_iso (vo_f o) | MBuf o _ _ => in_iso_buf o | MText _ => true end.
