(** Programs that use any number of views of any number of texts: what they do in the model, and where their views may be. *)
From Verif Require Import Base Mem Libc StrviewModel StrnumModel Spec NumSpec.

(** ** Programs *)
Inductive side : Type := AtStart | AtEnd | AtBoth.
(** A function of strview.h (or strnum_value for an integer type) with its arguments that are not views; [d] numbers a C string.
    [FAt] is strview_split_left or, if [right], strview_split_right; [FLine keep] is strview_split_line with a pointer to the
    program's eol variable, or with NULL. *)
Inductive vfun : Type :=
| FCopy | FSub (b e : Z) | FTrim (sd : side) | FFind (last nocase : bool) | FDelim (last exq : bool) (d : nat)
| FIndex (i : Z) | FAt (right : bool) | FPop | FLine (keep : bool) | FDequote
| FMatch (nocase : bool) | FStarts (nocase : bool) | FContains (nocase : bool) | FCompare | FNum (t : ity) (opt : Z).
(** Call the function on variable [vo_src] (its address, where a function modifies its source) and the value of variable
    [vo_arg], and store the returned view, if any, in variable [vo_to]. *)
Record vop : Type := VOp { vo_f : vfun; vo_to : option nat; vo_src : nat; vo_arg : nat }.

Section Exec.
Variables (cf : cfg) (m : mem) (ds : list ptr).

Definition truth (b : bool) : Z := if b then 1 else 0.
Definition only_view (s : view) (e : Z) (r : outcome view) : outcome (list Z * view * view * Z) :=
  let! v := r in Ok ([], v, s, e).
Definition only_bool (s : view) (e : Z) (r : outcome bool) : outcome (list Z * view * view * Z) :=
  let! b := r in Ok ([truth b], INVALID, s, e).
Definition both (s : view) (e : Z) (r : outcome (view * option view)) : outcome (list Z * view * view * Z) :=
  let! (v, s') := r in Ok ([], v, match s' with Some s' => s' | None => s end, e).

(** What the program sees that is not a view, the returned view, the source variable after the call, the eol variable.
    Of the result of strview_compare a program sees only the sign. *)
Definition vcall (f : vfun) (s a : view) (e : Z) : outcome (list Z * view * view * Z) :=
  match f with
  | FCopy => Ok ([], s, s, e)
  | FSub b n => only_view s e (strview_sub cf m s b n)
  | FTrim AtStart => only_view s e (strview_trim_start cf m s a)
  | FTrim AtEnd => only_view s e (strview_trim_end cf m s a)
  | FTrim AtBoth => only_view s e (strview_trim cf m s a)
  | FFind false false => only_view s e (strview_find_first cf m s a)
  | FFind false true => only_view s e (strview_find_first_nocase cf m s a)
  | FFind true false => only_view s e (strview_find_last cf m s a)
  | FFind true true => only_view s e (strview_find_last_nocase cf m s a)
  | FDelim false exq d => both s e (strview_split_first_delim cf m (Some s) (nth d ds null) exq)
  | FDelim true exq d => both s e (strview_split_last_delim cf m (Some s) (nth d ds null) exq)
  | FIndex i => both s e (strview_split_index cf m (Some s) i)
  | FAt false => both s e (strview_split_left cf m (Some s) a)
  | FAt true => both s e (strview_split_right cf m (Some s) a)
  | FPop => let! (c, s') := strview_pop_first_char cf m (Some s) in
            Ok ([c], INVALID, match s' with Some s' => s' | None => s end, e)
  | FLine keep =>
      let! (v, s', e') := strview_split_line cf m (Some s) (if keep then Some e else None) in
      Ok ([], v, match s' with Some s' => s' | None => s end, match e' with Some e' => e' | None => e end)
  | FDequote => only_view s e (strview_dequote cf m s)
  | FMatch false => only_bool s e (strview_is_match cf m s a)
  | FMatch true => only_bool s e (strview_is_match_nocase cf m s a)
  | FStarts false => only_bool s e (strview_starts_with cf m s a)
  | FStarts true => only_bool s e (strview_starts_with_nocase cf m s a)
  | FContains false => only_bool s e (strview_contains cf m s a)
  | FContains true => only_bool s e (strview_contains_nocase cf m s a)
  | FCompare => let! c := strview_compare cf m s a in Ok ([Z.sgn c], INVALID, s, e)
  | FNum t opt =>
      match consumer cf t with
      | Some f => let! p := f m true (Some s) opt in
                  let (err, v, s') := p in
                  Ok ([match err with NoErr => 0 | ERANGE => 1 | EINVAL => 2 end; match v with Some v => v | None => 0 end], INVALID,
                      match s' with Some s' => s' | None => s end, e)
      | None => Ok ([], INVALID, s, e)
      end
  end.

Definition vget (vars : list view) (j : nat) : view := nth j vars INVALID.
Definition vset (vars : list view) (k : option nat) (v : view) : list view := match k with Some k => upd vars k v | None => vars end.
Definition vexec (vars : list view) (e : Z) (o : vop) : outcome (list Z * list view * Z) :=
  let! (x, r, s, e') := vcall (vo_f o) (vget vars (vo_src o)) (vget vars (vo_arg o)) e in
  Ok (x, vset (upd vars (vo_src o) s) (vo_to o) r, e').
Fixpoint vrun (vars : list view) (e : Z) (prog : list vop) : outcome (list (list Z) * list view * Z) :=
  match prog with
  | [] => Ok ([], vars, e)
  | o :: t =>
      let! (x, vars', e') := vexec vars e o in
      let! (xs, vars2, e2) := vrun vars' e' t in
      Ok (x :: xs, vars2, e2)
  end.

(** Arguments are ints, C strings exist, and positions to split at are views of the same object. *)
Definition vlegal (f : vfun) (s a : view) : Prop :=
  match f with
  | FSub b e => INT_MIN <= b <= INT_MAX /\ INT_MIN <= e <= INT_MAX
  | FIndex i => INT_MIN <= i <= INT_MAX
  | FDelim _ _ d => (d < length ds)%nat
  | FAt _ => s = INVALID \/ a = INVALID \/ p_obj (v_data s) = p_obj (v_data a)
  | _ => True
  end.
Fixpoint all_vlegal (vars : list view) (e : Z) (prog : list vop) : Prop :=
  match prog with
  | [] => True
  | o :: t => vlegal (vo_f o) (vget vars (vo_src o)) (vget vars (vo_arg o)) /\
              match vexec vars e o with Ok (_, vars', e') => all_vlegal vars' e' t | _ => True end
  end.
End Exec.

(** ** Where views may be *)
(** Texts with the views of them that a program starts with. *)
Definition library : Type := list (view * list Z).
Definition stored (m : mem) (T : library) : Prop := Forall (fun t => has_view m (fst t) (snd t)) T.
(** Invalid, or a part of one of the texts. *)
Definition inside (T : library) (v : view) : Prop :=
  v = INVALID \/ exists s l i n, In (s, l) T /\ 0 <= i /\ 0 <= n /\ i + n <= Zlen l /\ v = subview s i n.
(** The texts are in different objects. *)
Definition apart (T : library) : Prop :=
  forall i j s t, nth_error T i = Some s -> nth_error T j = Some t -> p_obj (v_data (fst s)) = p_obj (v_data (fst t)) -> i = j.
(** Both invalid, or the same part of the same text. *)
Definition same_part (T1 T2 : library) (v1 v2 : view) : Prop :=
  v1 = INVALID /\ v2 = INVALID \/
  exists k s1 s2 l i n, nth_error T1 k = Some (s1, l) /\ nth_error T2 k = Some (s2, l) /\
    0 <= i /\ 0 <= n /\ i + n <= Zlen l /\ v1 = subview s1 i n /\ v2 = subview s2 i n.
(** A usual compiler: a flat address space, no trap for sizes of zero, and isspace() and the like defined for every char. *)
Definition usual (cf : cfg) : Prop := c_ptr cf = true /\ c_mem0 cf = true /\ c_ctype cf = true.
(** The integer types a program parses have the same range on both platforms. *)
Definition same_range (cf1 cf2 : cfg) (o : vop) : Prop :=
  match vo_f o with FNum t _ => ty_lo cf1 t = ty_lo cf2 t /\ ty_hi cf1 t = ty_hi cf2 t | _ => True end.
