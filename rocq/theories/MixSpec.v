(** Programs that use buffers and views of texts and of buffers at the same time: what they do in the model, and which views
    they may still use. *)
From Verif Require Import Base Mem Libc StrviewModel StrnumModel Spec NumSpec Alloc StrbufModel BufSpec HistSpec ViewProg SameSpec.

(** ** Programs *)
(** A function on views; a call on buffers (see HistSpec) in which the absent arguments are taken, in order, from the view
    variables [ks], and which stores the returned view in the view variable [to]; reading the text of a view variable. *)
Inductive mop : Type := MView (o : vop) | MBuf (o : op) (ks : list nat) (to : option nat) | MText (k : nat).

(** An operation with its absent arguments filled in. *)
Definition fill_src (ss : list src) (s : src) : src * list src :=
  match s, ss with SNone, x :: t => (x, t) | _, _ => (s, ss) end.
Fixpoint fill_list (ss : list src) (l : list src) : list src :=
  match l with [] => [] | s :: t => let (x, ss') := fill_src ss s in x :: fill_list ss' t end.
Definition fill (ss : list src) (o : op) : op :=
  match o with
  | OAppend j s => OAppend j (fst (fill_src ss s))
  | OPrepend j s => OPrepend j (fst (fill_src ss s))
  | OInsert j i s => OInsert j i (fst (fill_src ss s))
  | OBefore j d s => let (d', ss') := fill_src ss d in OBefore j d' (fst (fill_src ss' s))
  | OAfter j d s => let (d', ss') := fill_src ss d in OAfter j d' (fst (fill_src ss' s))
  | OAssign j s => OAssign j (fst (fill_src ss s))
  | OCat j l => OCat j (fill_list ss l)
  | OStrip j s => OStrip j (fst (fill_src ss s))
  | OInit j s al => OInit j (fst (fill_src ss s)) al
  | o => o
  end.

(** ** Execution in the model *)
(** Buffer variables, view variables, the eol variable, memory and allocator. *)
Record mstate : Type := MState { ms_vars : list ptr; ms_views : list view; ms_eol : Z; ms_st : st }.
(** What the program sees of a call: numbers, or the text of a view. *)
Inductive seen : Type := Saw (x : list Z) | Read (x : option (list Z)).

Section Exec.
Variables (cf : cfg) (ds : list ptr).

Definition mexec (s : mstate) (o : mop) : outcome (seen * mstate) :=
  let (vars, views, e, w) := s in
  match o with
  | MView o =>
      let! (x, views', e') := vexec cf (s_mem w) ds views e o in
      Ok (Saw x, MState vars views' e' w)
  | MBuf o ks to =>
      let! (v, vars', w') := exec cf vars w (fill (map (fun k => SText (vget views k) []) ks) o) in
      let! x := read_view (s_mem w') v in
      Ok (Read x, MState vars' (vset views to v) e w')
  | MText k => let! x := read_view (s_mem w) (vget views k) in Ok (Read x, s)
  end.
Fixpoint mrun (s : mstate) (prog : list mop) : outcome (list seen * mstate) :=
  match prog with
  | [] => Ok ([], s)
  | o :: t => let! (x, s') := mexec s o in let! (xs, s2) := mrun s' t in Ok (x :: xs, s2)
  end.

(** ** What a view is a view of *)
(** Nothing; [n] characters from character [i] on of text [k]; the same of buffer [j]; a buffer that was changed since. *)
Inductive name : Type := NNone | NText (k : nat) (i n : Z) | NBuf (j : nat) (i n : Z) | NStale.
Variable T : library.

Definition nget (ns : list name) (k : nat) : name := nth k ns NNone.
Definition nset (ns : list name) (k : option nat) (x : name) : list name := match k with Some k => upd ns k x | None => ns end.
(** The text of a view. *)
Definition piece (i n : Z) (l : list Z) : list Z := firstn (Z.to_nat n) (skipn (Z.to_nat i) l).
Definition named_text (a : list slot) (x : name) : option (list Z) :=
  match x with
  | NText k i n => Some (piece i n (snd (nth k T (INVALID, []))))
  | NBuf j i n => Some (piece i n (data_of (slot_of a j)))
  | _ => None
  end.
(** The place of a view. *)
Definition is_view (a : list slot) (vars : list ptr) (v : view) (x : name) : Prop :=
  match x with
  | NNone => v = INVALID
  | NText k i n => exists s l, nth_error T k = Some (s, l) /\ 0 <= i /\ 0 <= n /\ i + n <= Zlen l /\ v = subview s i n
  | NBuf j i n => exists B, slot_of a j = ABuf B /\ 0 <= i /\ 0 <= n /\ i + n <= Zlen (bf_data B) /\ v = subview (buf_view cf (var vars j) B) i n
  | NStale => True
  end.
(** A view that a function got from a view [s] is of the same thing. *)
Definition rename (s : view) (x : name) (v : view) : name :=
  if strview_is_valid v then
    let d := p_ofs (v_data v) - p_ofs (v_data s) in
    match x with
    | NText k i _ => NText k (i + d) (v_size v)
    | NBuf j i _ => NBuf j (i + d) (v_size v)
    | x => x
    end
  else NNone.
(** Every call that changes buffer [j] makes the views of it stale. *)
Definition spoil (j : nat) (x : name) : name := match x with NBuf k _ _ => if (k =? j)%nat then NStale else x | _ => x end.
Definition changes (o : op) : bool := match o with OView _ => false | _ => true end.

(** The meaning of the buffer variables and of the view variables. *)
Record ghost : Type := Ghost { g_slots : list slot; g_names : list name }.
Definition arg_named (views : list view) (g : ghost) (k : nat) : src :=
  match nget (g_names g) k with
  | NText _ _ _ as x => SText (vget views k) (match named_text (g_slots g) x with Some l => l | None => [] end)
  | NBuf j i n => SAt j i n
  | _ => SNone
  end.
Definition gstep (s : mstate) (g : ghost) (o : mop) (x : seen) : ghost :=
  match o with
  | MView o =>
      let v := vget (ms_views s) (vo_src o) in
      let y := nget (g_names g) (vo_src o) in
      match vcall cf (s_mem (ms_st s)) ds (vo_f o) v (vget (ms_views s) (vo_arg o)) (ms_eol s) with
      | Ok (_, r, v', _) => Ghost (g_slots g) (nset (upd (g_names g) (vo_src o) (rename v y v')) (vo_to o) (rename v y r))
      | _ => g
      end
  | MBuf o ks to =>
      let ns := if changes o then map (spoil (target o)) (g_names g) else g_names g in
      Ghost (snd (astep cf (g_slots g) (fill (map (arg_named (ms_views s) g) ks) o)))
            (nset ns to (match x with Read (Some l) => NBuf (target o) 0 (Zlen l) | _ => NNone end))
  | MText _ => g
  end.
Fixpoint gafter (s : mstate) (g : ghost) (prog : list mop) : ghost :=
  match prog with
  | [] => g
  | o :: t => match mexec s o with Ok (x, s') => gafter s' (gstep s g o x) t | _ => g end
  end.

(** ** Correct use *)
(** Two views of the same thing. *)
Definition together (x y : name) : Prop :=
  match x, y with
  | NNone, _ | _, NNone => True
  | NText k _ _, NText k' _ _ => k = k'
  | NBuf j _ _, NBuf j' _ _ => j = j'
  | _, _ => False
  end.
(** Stale views are not used; buffers are used as in C43; positions to split at are in the text to be split. *)
Definition mlegal (R : texts) (s : mstate) (g : ghost) (o : mop) : Prop :=
  match o with
  | MView o =>
      let x := nget (g_names g) (vo_src o) in
      let y := nget (g_names g) (vo_arg o) in
      x <> NStale /\ y <> NStale /\
      match vo_f o with FAt _ => together x y | f => vlegal ds f INVALID INVALID end
  | MBuf o ks to => Forall (fun k => nget (g_names g) k <> NStale) ks /\
                    legal cf R (g_slots g) (fill (map (arg_named (ms_views s) g) ks) o)
  | MText k => nget (g_names g) k <> NStale
  end.
Fixpoint all_mlegal (R : texts) (s : mstate) (g : ghost) (prog : list mop) : Prop :=
  match prog with
  | [] => True
  | o :: t => mlegal R s g o /\ match mexec s o with Ok (x, s') => all_mlegal R s' (gstep s g o x) t | _ => True end
  end.

(** The texts that calls may use include all parts of the library, and the C strings with their terminators. *)
Definition covers (R : texts) (dls : list (list Z)) : Prop :=
  (forall k s l i n, nth_error T k = Some (s, l) -> 0 <= i -> 0 <= n -> i + n <= Zlen l -> R (subview s i n) (piece i n l)) /\
  Forall2 (fun d l => ~ In 0 l /\ R (View d (Zlen l + 1)) (l ++ [0])) ds dls.

(** The state has this meaning. *)
Definition stands (R : texts) (s : mstate) (g : ghost) : Prop :=
  means cf R (g_slots g) (ms_vars s) (ms_st s) /\ Forall2 (is_view (g_slots g) (ms_vars s)) (ms_views s) (g_names g) /\ pend_ok (ms_eol s).
End Exec.

(** The same program on two platforms: the same but for capacities, allocators and places of texts, and integer types have the
    same range.  strbuf_append_using is left out. *)
Definition same_mop (cf1 cf2 : cfg) (o1 o2 : mop) : Prop :=
  match o1, o2 with
  | MView o1, MView o2 => o1 = o2 /\ same_range cf1 cf2 o1
  | MBuf o1 ks1 to1, MBuf o2 ks2 to2 => bare o1 = bare o2 /\ ks1 = ks2 /\ to1 = to2 /\ offers o1 = false
  | MText k1, MText k2 => k1 = k2
  | _, _ => False
  end.
