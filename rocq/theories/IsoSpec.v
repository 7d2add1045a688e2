(** Which calls of the view functions ISO C leaves undefined, although every usual compiler defines them. *)
From Verif Require Import Base Mem Libc StrviewModel StrnumModel Spec NumSpec NumSpec2 ViewProg.

(** The types that have a parser of their own. *)
Definition has_parser (t : ity) : bool :=
  match t with
  | TUchar | TUshort | TUint | TUlong | TUllong | TChar | TShort | TInt | TLong | TLlong => true
  | _ => false
  end.
(** The text of a number is followed by a char that is negative where char is signed (other than -1), unless the number is
    binary or already too large for every type. *)
Definition negative_after (t : ity) (opt : Z) (l : list Z) : Prop :=
  let i := read_int_exact (ty_signed t) opt l in
  it_base i <> 2 /\ num_val (it_base i) (it_digits i) <= ULLONG_MAX /\ exists h r, it_rest i = h :: r /\ 128 <= h <= 254.
(** The views start where their object starts. *)
Definition at_front (s : view) : Prop := p_ofs (v_data s) = 0.
Definition absent (nocase : bool) (l n : list Z) : Prop :=
  ~ exists k, if nocase then occurs (map upper l) (map upper n) k else occurs l n k.

(** Not a model of code: the calls to avoid.  [o] and [oa] are the contents of the views [s] and the other argument, None for
    an invalid view; [signed] says whether char is signed.
    - Trimming takes the end of the set of characters, NULL + 0 for an invalid one.
    - A search from the end starts at the end of the text less the length of what is looked for, and steps down to the place
      before the text if there is no match.
    - A split at the last delimiter compares with the place before the text.
    - A split at an index takes NULL + 0 if the view is invalid.
    - memcmp() gets NULL where an invalid view meets an empty one.
    - isdigit() and isxdigit() get the char behind the digits of a number. *)
Definition iso_undefined (signed : bool) (f : vfun) (s : view) (o oa : option (list Z)) : Prop :=
  match f, o, oa with
  | FTrim _, Some (_ :: _), None => True
  | FFind true _, None, _ => True
  | FFind true nocase, Some l, Some n => p_ofs (v_data s) < Zlen n - Zlen l \/ at_front s /\ absent nocase l n
  | FDelim true _ _, Some (_ :: _), _ => at_front s
  | FIndex _, None, _ => True
  | FMatch false, Some [], None => True
  | FMatch false, None, Some [] => True
  | FStarts false, None, Some [] => True
  | FNum t opt, Some l, _ => signed = true /\ has_parser t = true /\ negative_after t opt l
  | _, _, _ => False
  end.

(** A program makes no such call: its variables before each call are those of its run on the usual compiler [cf]. *)
Section Run.
Variables (cf : cfg) (m : mem) (ds : list ptr).
Definition iso_call (f : vfun) (s a : view) : Prop :=
  forall o oa, denotes m s o -> denotes m a oa -> ~ iso_undefined (c_char_signed cf) f s o oa.
Fixpoint iso_program (vars : list view) (e : Z) (prog : list vop) : Prop :=
  match prog with
  | [] => True
  | o :: t => iso_call (vo_f o) (vget vars (vo_src o)) (vget vars (vo_arg o)) /\
              match vexec cf m ds vars e o with Ok (_, vars', e') => iso_program vars' e' t | _ => False end
  end.
End Run.

(** Functions without such calls. *)
Definition in_iso (f : vfun) : bool :=
  match f with
  | FCopy | FSub _ _ | FFind false _ | FDelim false _ _ | FAt _ | FPop | FLine _ | FDequote
  | FMatch true | FStarts true | FContains _ | FCompare => true
  | _ => false
  end.
