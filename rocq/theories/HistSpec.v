(** Programs using any number of buffers at the same time: what they do in the model
    (a sequence of API calls on pointer variables) and what they mean (a sequence of
    operations on byte strings). *)
From Verif Require Import Base Mem Libc StrviewModel Spec Alloc StrbufModel BufSpec.

(** ** Programs *)
(** A source argument: an invalid view, a text that is not in a buffer,
    strview_sub(strbuf_view(&var k), b, e), or a view of [n] characters from character [i] of a buffer on, which the
    caller got from any functions on views. *)
Inductive src : Type := SNone | SText (v : view) (l : list Z) | SPart (k : nat) (b e : Z) | SAt (k : nat) (i n : Z).

(** API calls on the buffer variable number [j]. *)
Inductive op : Type :=
| OAppend (j : nat) (s : src) | OPrepend (j : nat) (s : src) | OInsert (j : nat) (i : Z) (s : src)
| OBefore (j : nat) (d s : src) | OAfter (j : nat) (d s : src)
| OAssign (j : nat) (s : src) | OCat (j : nat) (ss : list src) | OChar (j : nat) (c : Z) | OStrip (j : nat) (s : src)
| OShrink (j : nat) | OGrow (j : nat) (n : Z)
| OPrintf (j : nat) (l : list Z) | OAppendPrintf (j : nat) (l : list Z)
| OPrnf (j : nat) (l : list Z) | OAppendPrnf (j : nat) (l : list Z) | OUsing (j : nat) (l : list Z)
| OView (j : nat)
| OCreate (j : nat) (cap : Z) (a : allocator) | OInit (j : nat) (s : src) (a : allocator)
| ODestroy (j : nat) | OToCstr (j : nat) | OFree (j : nat) (a : allocator).

(** ** Execution in the model *)
Section Exec.
Variable cf : cfg.

Definition var (vars : list ptr) (j : nat) : ptr := nth j vars null.

Definition the_view (vars : list ptr) (w : st) (s : src) : outcome view :=
  match s with
  | SNone => Ok INVALID
  | SText v _ => Ok v
  | SPart k b e => let! v := strbuf_view cf w (Some (var vars k)) in strview_sub cf (s_mem w) v b e
  | SAt k i n => let! v := strbuf_view cf w (Some (var vars k)) in let! d := padd cf (s_mem w) (v_data v) i in Ok (View d n)
  end.
Fixpoint the_views (vars : list ptr) (w : st) (ss : list src) : outcome (list view) :=
  match ss with
  | [] => Ok []
  | s :: t => let! v := the_view vars w s in let! vs := the_views vars w t in Ok (v :: vs)
  end.

(** A callback that delivers the bytes [l] if there is room, and reports failure otherwise. *)
Definition deliver (l : list Z) (m : mem) (dst : ptr) (n : Z) : outcome (Z * mem) :=
  if Zlen l <=? n then
    let! m1 := store_cells m dst (Zlen l) (fun i => CByte (nth (Z.to_nat i) l 0)) in Ok (Zlen l, m1)
  else Ok (-1, m).

(** The variable after the call, the state, and the returned view. *)
Definition call (vars : list ptr) (j : nat) (r : outcome (view * option ptr * st)) : outcome (view * list ptr * st) :=
  let! (v, p, w) := r in
  match p with Some p => Ok (v, upd vars j p, w) | None => Ok (v, vars, w) end.
Definition made (vars : list ptr) (j : nat) (r : outcome (ptr * st)) : outcome (view * list ptr * st) :=
  let! (p, w) := r in Ok (INVALID, upd vars j p, w).

Definition exec (vars : list ptr) (w : st) (o : op) : outcome (view * list ptr * st) :=
  match o with
  | OAppend j s => let! v := the_view vars w s in call vars j (strbuf_append_strview cf w (Some (var vars j)) v)
  | OPrepend j s => let! v := the_view vars w s in call vars j (strbuf_prepend_strview cf w (Some (var vars j)) v)
  | OInsert j i s => let! v := the_view vars w s in call vars j (strbuf_insert_at_index_strview cf w (Some (var vars j)) i v)
  | OBefore j d s => let! dv := the_view vars w d in let! v := the_view vars w s in
                     call vars j (strbuf_insert_before_strview cf w (Some (var vars j)) dv v)
  | OAfter j d s => let! dv := the_view vars w d in let! v := the_view vars w s in
                    call vars j (strbuf_insert_after_strview cf w (Some (var vars j)) dv v)
  | OAssign j s => let! v := the_view vars w s in call vars j (strbuf_assign cf w (Some (var vars j)) v)
  | OCat j ss => let! vs := the_views vars w ss in call vars j (strbuf_cat cf w (Some (var vars j)) vs)
  | OChar j c => call vars j (strbuf_append_char cf w (Some (var vars j)) c)
  | OStrip j s => let! v := the_view vars w s in call vars j (strbuf_strip_strview cf w (Some (var vars j)) v)
  | OShrink j => call vars j (strbuf_shrink cf w (Some (var vars j)))
  | OGrow j n => call vars j (strbuf_grow cf w (Some (var vars j)) n)
  | OPrintf j l => call vars j (strbuf_vprintf cf w (Some (var vars j)) (FmtText l))
  | OAppendPrintf j l => call vars j (strbuf_append_vprintf cf w (Some (var vars j)) (FmtText l))
  | OPrnf j l => call vars j (strbuf_vprnf cf w (Some (var vars j)) l)
  | OAppendPrnf j l => call vars j (strbuf_append_vprnf cf w (Some (var vars j)) l)
  | OUsing j l => call vars j (strbuf_append_using cf w (Some (var vars j)) (deliver l))
  | OView j => let! v := strbuf_view cf w (Some (var vars j)) in Ok (v, vars, w)
  | OCreate j cap a => made vars j (strbuf_create_empty cf w a cap None)
  | OInit j s a => let! v := the_view vars w s in made vars j (strbuf_create_init cf w a v None)
  | ODestroy j => let! (p, w') := strbuf_destroy cf w (Some (var vars j)) in
                  match p with Some p => Ok (INVALID, upd vars j p, w') | None => Ok (INVALID, vars, w') end
  | OToCstr j => let! (s, _, w') := strbuf_to_cstr cf w (Some (var vars j)) in Ok (INVALID, upd vars j s, w')
  | OFree j a => let! (_, w') := alloc_call cf w a (var vars j) 0 in Ok (INVALID, upd vars j null, w')
  end.

(** What the caller reads through the returned view. *)
Definition read_view (m : mem) (v : view) : outcome (option (list Z)) :=
  if strview_is_valid v then let! l := load_bytes m (v_data v) (Z.to_nat (v_size v)) in Ok (Some l) else Ok None.

Fixpoint run (vars : list ptr) (w : st) (prog : list op) : outcome (list (option (list Z)) * list ptr * st) :=
  match prog with
  | [] => Ok ([], vars, w)
  | o :: t =>
      let! (v, vars', w') := exec vars w o in
      let! x := read_view (s_mem w') v in
      let! (xs, vars2, w2) := run vars' w' t in
      Ok (x :: xs, vars2, w2)
  end.

(** ** Meaning *)
(** A variable: NULL, a buffer, or (after strbuf_to_cstr of a dynamic buffer) a C string
    the caller has to free with that allocator. *)
Inductive slot : Type := ANone | ABuf (B : buffer) | AStr (l : list Z) (a : allocator).
Definition slot_of (a : list slot) (j : nat) : slot := nth j a ANone.

(** Python slice of [l]: what is before, in and after it. *)
Definition cut (l : list Z) (b e : Z) : option (list Z * list Z * list Z) :=
  if Zlen l =? 0 then Some ([], [], [])
  else
    let b1 := py_index (Zlen l) b in
    let e1 := py_index (Zlen l) e in
    if (b1 <=? e1) && (b1 <? Zlen l) && (0 <=? e1) then
      let x := Z.to_nat (Z.max 0 b1) in
      let y := Z.to_nat (Z.min (Zlen l) e1) in
      Some (firstn x l, firstn (y - x) (skipn x l), skipn y l)
    else None.

(** Contents of the buffer in a slot. *)
Definition data_of (s : slot) : list Z := match s with ABuf B => bf_data B | _ => [] end.

Definition text_of (a : list slot) (s : src) : list Z :=
  match s with
  | SNone => []
  | SText _ l => l
  | SPart k b e => match cut (data_of (slot_of a k)) b e with Some (_, l, _) => l | None => [] end
  | SAt k i n => firstn (Z.to_nat n) (skipn (Z.to_nat i) (data_of (slot_of a k)))
  end.

(** Does the argument start at a character of buffer [j]? *)
Definition starts_in (a : list slot) (j : nat) (s : src) : bool :=
  match s with
  | SPart k b e => (k =? j)%nat && match cut (data_of (slot_of a k)) b e with
                                   | Some (x, _, _) => Zlen x <? Zlen (data_of (slot_of a k))
                                   | None => false end
  | SAt k i _ => (k =? j)%nat && (i <? Zlen (data_of (slot_of a k)))
  | _ => false
  end.

(** Offsets of the part of buffer [j] selected by [d], if it is one. *)
Definition place_of (a : list slot) (j : nat) (d : src) : option (Z * Z) :=
  match d with
  | SPart k b e => if (k =? j)%nat then match cut (data_of (slot_of a k)) b e with
                                        | Some (x, l, _) => Some (Zlen x, Zlen x + Zlen l)
                                        | None => None end
                   else None
  | SAt k i n => if (k =? j)%nat then Some (i, i + n) else None
  | _ => None
  end.

Definition splice (c : list Z) (i : Z) (l : list Z) : list Z := firstn (Z.to_nat i) c ++ l ++ skipn (Z.to_nat i) c.

(** The buffer after the call; the returned text is its contents, except where noted. *)
Definition buf_step (a : list slot) (B : buffer) (o : op) : buffer :=
  match o with
  | OAppend _ s => put cf B (bf_data B ++ text_of a s)
  | OPrepend _ s => put cf B (text_of a s ++ bf_data B)
  | OInsert _ i s => put cf B (insert (bf_data B) i (text_of a s))
  | OBefore j d s => match place_of a j d with
                     | Some (i, _) => put cf B (splice (bf_data B) i (text_of a s)) | None => B end
  | OAfter j d s => match place_of a j d with
                    | Some (_, i) => put cf B (splice (bf_data B) i (text_of a s)) | None => B end
  | OAssign _ s => put cf B (text_of a s)
  | OCat j ss => if negb (dyn B) && existsb (starts_in a j) ss then Buffer [] (bf_cap B) (bf_alloc B)
                 else put cf B (concat (map (text_of a) ss))
  | OChar _ c => put cf B (bf_data B ++ [c])
  | OStrip _ s => Buffer (without (text_of a s) (bf_data B)) (bf_cap B) (bf_alloc B)
  | OShrink _ => if dyn B then Buffer (bf_data B) (Zlen (bf_data B)) (bf_alloc B) else B
  | OGrow _ n => if dyn B then Buffer (bf_data B) (Z.max (bf_cap B) n) (bf_alloc B) else B
  | OPrintf _ l => put cf B l
  | OAppendPrintf _ l => put cf B (bf_data B ++ l)
  | OPrnf _ l => put_all cf B l
  | OAppendPrnf _ l => put_all cf B (bf_data B ++ l)
  | OUsing _ l => if Zlen (bf_data B) + Zlen l <=? bf_cap B then Buffer (bf_data B ++ l) (bf_cap B) (bf_alloc B)
                  else Buffer [] (bf_cap B) (bf_alloc B)
  | _ => B
  end.

(** Calls that report failure by an invalid view. *)
Definition refused (B : buffer) (o : op) : bool :=
  match o with
  | OGrow _ _ => negb (dyn B)
  | OUsing _ l => negb (Zlen (bf_data B) + Zlen l <=? bf_cap B)
  | _ => false
  end.

Definition target (o : op) : nat :=
  match o with
  | OAppend j _ | OPrepend j _ | OInsert j _ _ | OBefore j _ _ | OAfter j _ _ | OAssign j _ | OCat j _ | OChar j _
  | OStrip j _ | OShrink j | OGrow j _ | OPrintf j _ | OAppendPrintf j _ | OPrnf j _ | OAppendPrnf j _ | OUsing j _
  | OView j | OCreate j _ _ | OInit j _ _ | ODestroy j | OToCstr j | OFree j _ => j
  end.

(** The slots after the call and the text read through the returned view. *)
Definition astep (a : list slot) (o : op) : option (list Z) * list slot :=
  match o with
  | OCreate j cap al => (None, upd a j (ABuf (Buffer [] cap al)))
  | OInit j s al => (None, upd a j (ABuf (Buffer (text_of a s) (Zlen (text_of a s)) al)))
  | ODestroy j | OFree j _ => (None, upd a j ANone)
  | OToCstr j => (None, upd a j (match slot_of a j with ABuf B => AStr (bf_data B) (bf_alloc B) | s => s end))
  | _ => match slot_of a (target o) with
         | ABuf B => (if refused B o then None else Some (bf_data (buf_step a B o)), upd a (target o) (ABuf (buf_step a B o)))
         | _ => (None, a)
         end
  end.

Fixpoint arun (a : list slot) (prog : list op) : list (option (list Z)) * list slot :=
  match prog with
  | [] => ([], a)
  | o :: t => let (x, a1) := astep a o in let (xs, a2) := arun a1 t in (x :: xs, a2)
  end.

(** ** Correct use *)
(** The text arguments that may be used: readable memory apart from every buffer. *)
Definition texts : Type := view -> list Z -> Prop.

Definition src_legal (T : texts) (a : list slot) (s : src) : Prop :=
  match s with
  | SNone => True
  | SText v l => T v l
  | SPart k b e => (exists B, slot_of a k = ABuf B) /\ INT_MIN <= b <= INT_MAX /\ INT_MIN <= e <= INT_MAX
  | SAt k i n => (exists B, slot_of a k = ABuf B /\ i + n <= Zlen (bf_data B)) /\ 0 <= i /\ 0 <= n
  end.

(** What the caller has to respect: the variable holds a buffer, arguments are bytes, sizes
    are computed without undefined behaviour (always, with wrapping arithmetic), the strip
    set is not in the same buffer; constructors are applied to unused variables. *)
Definition buf_legal (T : texts) (a : list slot) (B : buffer) (o : op) : Prop :=
  match o with
  | OAppend _ s | OPrepend _ s => src_legal T a s /\ sums_ok cf (Zlen (bf_data B) + Zlen (text_of a s))
  | OInsert _ i s => src_legal T a s /\ sums_ok cf (Zlen (bf_data B) + Zlen (text_of a s)) /\ INT_MIN <= i <= INT_MAX
  | OBefore _ d s | OAfter _ d s =>
      src_legal T a d /\ src_legal T a s /\ sums_ok cf (Zlen (bf_data B) + Zlen (text_of a s))
  | OAssign _ s => src_legal T a s /\ sums_ok cf (Zlen (text_of a s))
  | OCat _ ss => Forall (src_legal T a) ss /\ sums_ok cf (Zlen (concat (map (text_of a) ss)))
  | OChar _ c => is_byte c /\ sums_ok cf (Zlen (bf_data B) + 1)
  | OStrip j s => src_legal T a s /\ match s with SPart k _ _ | SAt k _ _ => k <> j | _ => True end
  | OGrow _ n => n <= INT_MAX
  | OPrintf _ l | OPrnf _ l => Forall is_byte l /\ Zlen l <= INT_MAX /\ sums_ok cf (Zlen l)
  | OAppendPrintf _ l | OAppendPrnf _ l => Forall is_byte l /\ Zlen l <= INT_MAX /\ sums_ok cf (Zlen (bf_data B) + Zlen l)
  | OUsing _ l => Forall is_byte l
  | OToCstr _ => dyn B = true
  | _ => True
  end.

Definition legal (T : texts) (a : list slot) (o : op) : Prop :=
  match o with
  | OCreate j cap al => slot_of a j = ANone /\ (j < length a)%nat /\ is_dyn al = true /\ 0 <= cap <= INT_MAX
  | OInit j s al => slot_of a j = ANone /\ (j < length a)%nat /\ is_dyn al = true /\ src_legal T a s /\ sums_ok cf (Zlen (text_of a s))
  | OFree j al => exists l, slot_of a j = AStr l al
  | _ => exists B, slot_of a (target o) = ABuf B /\ buf_legal T a B o
  end.

Fixpoint all_legal (T : texts) (a : list slot) (prog : list op) : Prop :=
  match prog with
  | [] => True
  | o :: t => legal T a o /\ all_legal T (snd (astep a o)) t
  end.

(** ** Memory and meaning *)
Definition slot_rel (m : mem) (s : slot) (p : ptr) : Prop :=
  match s with
  | ANone => p = null
  | ABuf B => buf_at cf m p B
  | AStr l a => exists b k, p = Ptr (PBlk b) 0 /\ nth_error m b = Some k /\ b_live k = true /\ b_owner k = Heap a /\
                  b_size k = Zlen l + 1 /\ bytes_at m p (l ++ [0])
  end.

Definition owns (s : slot) : bool := match s with ABuf B => dyn B | AStr _ _ => true | ANone => false end.

(** Two variables do not share memory. *)
Definition apart (s1 : slot) (p1 : ptr) (s2 : slot) (p2 : ptr) : Prop :=
  match s1, s2 with
  | ANone, _ | _, ANone => True
  | ABuf B1, ABuf B2 => p_obj p1 <> p_obj p2 \/
      (dyn B1 = false /\ dyn B2 = false /\ (buf_end cf p1 B1 <= p_ofs p2 \/ buf_end cf p2 B2 <= p_ofs p1))
  | _, _ => p_obj p1 <> p_obj p2
  end.

(** A text is not in the memory of a variable. *)
Definition text_apart (s : slot) (p : ptr) (v : view) (l : list Z) : Prop :=
  match s with
  | ANone => True
  | ABuf B => outside cf p B v l
  | AStr _ _ => p_obj (v_data v) <> p_obj p
  end.

Record means (T : texts) (a : list slot) (vars : list ptr) (w : st) : Prop := Means {
  mn_len : length vars = length a;
  mn_slot : forall i, (i < length a)%nat -> slot_rel (s_mem w) (slot_of a i) (var vars i);
  mn_apart : forall i j, i <> j -> (i < length a)%nat -> (j < length a)%nat ->
    apart (slot_of a i) (var vars i) (slot_of a j) (var vars j);
  (* every live allocation belongs to a variable *)
  mn_heap : forall b k al, nth_error (s_mem w) b = Some k -> b_live k = true -> b_owner k = Heap al ->
    exists i, (i < length a)%nat /\ owns (slot_of a i) = true /\ p_obj (var vars i) = PBlk b;
  mn_text : forall v l, T v l -> has_view (s_mem w) v l /\ (exists b, p_obj (v_data v) = PBlk b) /\
    forall i, (i < length a)%nat -> text_apart (slot_of a i) (var vars i) v l;
  mn_wf : mem_wf (s_mem w);
  mn_fail : no_fail w
}.

End Exec.
