(** Specification vocabulary for buffers: what a strbuf_t in memory represents, which
    memory an operation may change, and the list-level effect of operations. *)
From Verif Require Import Base Mem StrviewModel Spec Alloc.

(** A buffer as the user sees it. *)
Record buffer : Type := Buffer { bf_data : list Z; bf_cap : Z; bf_alloc : allocator }.

(** Dynamic buffers have an allocator function. *)
Definition dyn (B : buffer) : bool := match a_fn (bf_alloc B) with Some _ => true | None => false end.

Definition hdr_of (B : buffer) : hdr := Hdr (Zlen (bf_data B)) (bf_cap B) (bf_alloc B).

(** A strbuf_t at offset [o] of block [k]: header, contents, NUL terminator, all inside the
    object; a dynamic buffer fills exactly one allocation of its own allocator. *)
Definition buf_in (cf : cfg) (k : block) (o : Z) (B : buffer) : Prop :=
  b_live k = true /\ 0 <= o /\ (b_base k + o) mod c_ptrbytes cf = 0 /\
  o + hdr_size cf + bf_cap B + 1 <= b_size k /\
  (forall i, 0 <= i < hdr_size cf -> b_get k (o + i) = CHdr (hdr_of B) i) /\
  (forall i, 0 <= i < Zlen (bf_data B) -> b_get k (o + hdr_size cf + i) = CByte (nth (Z.to_nat i) (bf_data B) 0)) /\
  b_get k (o + hdr_size cf + Zlen (bf_data B)) = CByte 0 /\
  Forall is_byte (bf_data B) /\ Zlen (bf_data B) <= bf_cap B <= INT_MAX /\
  (dyn B = true -> o = 0 /\ b_owner k = Heap (bf_alloc B) /\ b_size k = hdr_size cf + bf_cap B + 1).

(** The pointer [p] points to the buffer [B]. *)
Definition buf_at (cf : cfg) (m : mem) (p : ptr) (B : buffer) : Prop :=
  exists b k, p_obj p = PBlk b /\ nth_error m b = Some k /\ buf_in cf k (p_ofs p) B.

(** Offsets of the memory of a buffer. *)
Definition buf_end (cf : cfg) (p : ptr) (B : buffer) : Z := p_ofs p + hdr_size cf + bf_cap B + 1.

(** Where the characters are. *)
Definition chars_of (cf : cfg) (p : ptr) : ptr := shift p (hdr_size cf).
Definition buf_view (cf : cfg) (p : ptr) (B : buffer) : view := View (chars_of cf p) (Zlen (bf_data B)).

(** The view [v] is outside of the memory of the buffer: in another object, or, for a buffer
    placed inside a larger object, before or after it. *)
Definition outside (cf : cfg) (p : ptr) (B : buffer) (v : view) (l : list Z) : Prop :=
  (exists b, p_obj (v_data v) = PBlk b) /\
  (p_obj (v_data v) <> p_obj p \/
   (dyn B = false /\ (p_ofs (v_data v) + Zlen l <= p_ofs p \/ buf_end cf p B <= p_ofs (v_data v)))).

(** A source argument with contents [l]: invalid (nothing), text elsewhere, a part of the
    contents of the buffer itself, or an empty view anywhere in the buffer. *)
Inductive source (cf : cfg) (m : mem) (p : ptr) (B : buffer) : view -> list Z -> Prop :=
| src_invalid : source cf m p B INVALID []
| src_outside : forall v l, has_view m v l -> outside cf p B v l -> source cf m p B v l
| src_inside : forall a l c, bf_data B = a ++ l ++ c ->
    source cf m p B (View (shift (chars_of cf p) (Zlen a)) (Zlen l)) l
| src_empty : forall q, 0 <= q <= bf_cap B -> source cf m p B (View (shift (chars_of cf p) q) 0) [].

(** Pointers to the source and to the buffer may be compared: the address space is flat, or both
    point into the same object (ISO C 6.5.6, 6.5.8). *)
Definition comparable (cf : cfg) (p : ptr) (v : view) : Prop := c_ptr cf = true \/ p_obj (v_data v) = p_obj p.

(** The memory outside of the buffer is unchanged: a fixed buffer keeps its place and changes
    only its own bytes; a dynamic buffer keeps its allocation or moves to a new one, freeing
    the old one; no other live allocation appears or disappears. *)
Definition touches (cf : cfg) (m m' : mem) (p p' : ptr) (B : buffer) : Prop :=
  exists b b', p_obj p = PBlk b /\ p_obj p' = PBlk b' /\ p_ofs p' = p_ofs p /\
    (b < length m)%nat /\ (b' < length m')%nat /\ (length m <= length m')%nat /\
    (forall i, i <> b -> (i < length m)%nat -> nth_error m' i = nth_error m i) /\
    (forall i k, (length m <= i)%nat -> i <> b' -> nth_error m' i = Some k -> b_live k = false) /\
    (b' = b \/ (dyn B = true /\ (length m <= b')%nat /\ forall k, nth_error m' b = Some k -> b_live k = false)) /\
    (dyn B = false -> frame m m' b (p_ofs p) (buf_end cf p B)).

(** No allocation fails (strbuf.h:211: a failed allocation has to be caught by the allocator). *)
Definition no_fail (w : st) : Prop := forall n, ch_fail (s_orc w n) = false.

(** Sums up to [n] are computed without undefined behaviour: wrapping arithmetic, or no
    overflow including the rounding step. *)
Definition sums_ok (cf : cfg) (n : Z) : Prop := c_wrapv cf = true \/ n + c_step cf <= INT_MAX.

(** Next multiple of the growth step, at most INT_MAX. *)
Definition rounded (cf : cfg) (n : Z) : Z := Z.min INT_MAX ((n + c_step cf - 1) / c_step cf * c_step cf).

(** The buffer after a capacity request of [n] bytes. *)
Definition grown (cf : cfg) (B : buffer) (n : Z) : buffer :=
  Buffer (bf_data B) (if dyn B && (bf_cap B <? n) then rounded cf n else bf_cap B) (bf_alloc B).

(** The contents are replaced by [c], or emptied if [c] cannot fit. *)
Definition fits (B : buffer) (c : list Z) : bool :=
  if dyn B then Zlen c <=? INT_MAX else Zlen c <=? bf_cap B.
Definition put (cf : cfg) (B : buffer) (c : list Z) : buffer :=
  if fits B c then Buffer c (bf_cap (grown cf B (Zlen c))) (bf_alloc B)
  else Buffer [] (bf_cap B) (bf_alloc B).

(** Insertion position: negative counts from the end, clamped to the contents. *)
Definition position (c : list Z) (i : Z) : Z :=
  if i <? 0 then Z.max 0 (Zlen c + i) else Z.min i (Zlen c).
Definition insert (c : list Z) (i : Z) (l : list Z) : list Z :=
  firstn (Z.to_nat (position c i)) c ++ l ++ skipn (Z.to_nat (position c i)) c.

(** The outcome [r] of an operation on the buffer [B] at [p]: the buffer is now [B'] (its
    pointer may have changed), the returned view shows its contents, nothing else changed. *)
Definition becomes (cf : cfg) (w : st) (p : ptr) (B : buffer) (r : outcome (view * option ptr * st)) (B' : buffer) : Prop :=
  exists p' w', r = Ok (buf_view cf p' B', Some p', w') /\ buf_at cf (s_mem w') p' B' /\
    touches cf (s_mem w) (s_mem w') p p' B /\ mem_wf (s_mem w') /\ no_fail w'.
(** As before, the caller's buffer pointer is still valid. *)
Definition becomes_at (cf : cfg) (w : st) (p : ptr) (B : buffer) (r : outcome (view * option ptr * st)) (B' : buffer) : Prop :=
  exists w', r = Ok (buf_view cf p B', Some p, w') /\ buf_at cf (s_mem w') p B' /\
    touches cf (s_mem w) (s_mem w') p p B /\ mem_wf (s_mem w') /\ no_fail w'.

(** A new buffer: in an allocation of its own; nothing that existed has changed. *)
Definition created (cf : cfg) (w : st) (r : outcome (ptr * st)) (B : buffer) : Prop :=
  exists b w', r = Ok (Ptr (PBlk b) 0, w') /\ (length (s_mem w) <= b)%nat /\ buf_at cf (s_mem w') (Ptr (PBlk b) 0) B /\
    (forall i, (i < length (s_mem w))%nat -> nth_error (s_mem w') i = nth_error (s_mem w) i) /\
    (forall i k, (length (s_mem w) <= i)%nat -> i <> b -> nth_error (s_mem w') i = Some k -> b_live k = false) /\
    mem_wf (s_mem w') /\ no_fail w'.

(** The allocation of block [b] has ended, nothing else has changed. *)
Definition freed (m m' : mem) (b : nat) : Prop :=
  length m' = length m /\ (forall i, i <> b -> nth_error m' i = nth_error m i) /\
  (forall k, nth_error m' b = Some k -> b_live k = false).

(** A dynamic buffer was turned into a plain C string [l] in an allocation of exactly the
    needed size at [str], which the caller may free with the allocator of the buffer. *)
Definition detached (w w' : st) (p str : ptr) (a : allocator) (l : list Z) : Prop :=
  exists b b' k, p_obj p = PBlk b /\ str = Ptr (PBlk b') 0 /\ nth_error (s_mem w') b' = Some k /\
    b_live k = true /\ b_owner k = Heap a /\ b_size k = Zlen l + 1 /\ bytes_at (s_mem w') str (l ++ [0]) /\
    (forall i, i <> b -> (i < length (s_mem w))%nat -> nth_error (s_mem w') i = nth_error (s_mem w) i) /\
    (forall i k0, (length (s_mem w) <= i)%nat -> i <> b' -> nth_error (s_mem w') i = Some k0 -> b_live k0 = false) /\
    (b' = b \/ ((length (s_mem w) <= b')%nat /\ forall k0, nth_error (s_mem w') b = Some k0 -> b_live k0 = false)) /\
    mem_wf (s_mem w') /\ no_fail w'.

(** The allocator used by a constructor: the one given, or else the default. *)
Definition chosen (dflt : allocator) (a : option allocator) : allocator := match a with Some a => a | None => dflt end.

(** As [put]; a dynamic buffer that had to be emptied keeps the largest capacity. *)
Definition put_all (cf : cfg) (B : buffer) (c : list Z) : buffer :=
  if fits B c then put cf B c else Buffer [] (if dyn B then INT_MAX else bf_cap B) (bf_alloc B).

(** A callback offered [n] bytes at [dst] that stores the bytes [l] there (possibly using
    the rest of the offered space as scratch), writes nowhere else and returns [r]. *)
Definition fetches (fetch : mem -> ptr -> Z -> outcome (Z * mem)) (m : mem) (dst : ptr) (n r : Z) (l : list Z) : Prop :=
  exists b m', p_obj dst = PBlk b /\ fetch m dst n = Ok (r, m') /\ frame m m' b (p_ofs dst) (p_ofs dst + n) /\ bytes_at m' dst l.

(** The characters of [l] that are not in [set], in order. *)
Definition without (set : list Z) (l : list Z) : list Z := filter (fun c => negb (existsb (Z.eqb c) set)) l.
