(** Memory model: blocks with base addresses, provenance-carrying pointers,
    explicit undefined behaviour. *)
From Verif Require Import Base.

(** An object a pointer can refer to: nothing (NULL), a block of the memory,
    or a string literal appearing in the library source itself.
    Simplification: literals are immutable and have no numeric address. *)
(** ISO C; no counterpart in /repo, pointers of all files. *)
Inductive pobj : Type :=
| PNull
| PBlk (b : nat)
| PLit (l : list Z).

(** A pointer: object and offset. ISO C; no counterpart in /repo, pointers of all files, such as strview.h:58 data *)
Record ptr : Type := Ptr { p_obj : pobj; p_ofs : Z }.

(** NULL (strview.h:82) *)
Definition null : ptr := Ptr PNull 0.

(** p == NULL, as strview.c:56 *)
Definition is_null (p : ptr) : bool :=
  match p_obj p with PNull => p_ofs p =? 0 | _ => false end.

(** strbuf.h:50-55 strbuf_allocator_t: app_data and function pointer (None = NULL). *)
Record allocator : Type := Alloc { a_app : Z; a_fn : option nat }.

(** strbuf.h:57-63 strbuf_t without the trailing character array. *)
Record hdr : Type := Hdr { h_size : Z; h_cap : Z; h_alloc : allocator }.

(** A memory cell: indeterminate, a byte, or byte number [i] of a stored strbuf_t header.
    Simplification: the byte representation of the header is not modelled; using
    such a cell as a character is UB_uninit, overwriting one destroys the header. *)
Inductive cell : Type :=
| CUndef
| CByte (z : Z)
| CHdr (h : hdr) (i : Z).

(** Who owns the storage of an object: nobody, or an allocator (the application data and function of strbuf.h:217-227) *)
Inductive owner : Type := Static | Heap (a : allocator).

(** An object of the memory: address, size, liveness, owner, contents. ISO C; no counterpart in /repo, all files. *)
Record block : Type := Block {
  b_base : Z;
  b_size : Z;
  b_live : bool;
  b_owner : owner;
  b_get : Z -> cell
}.

(** The memory: all objects so far. ISO C; no counterpart in /repo, all files. *)
Definition mem : Type := list block.

(** The object of a string literal, as those at strnum.c:484, 508, 517, 522, 527 *)
Definition lit_block (l : list Z) : block :=
  Block 0 (Zlen l + 1) true Static (fun i => CByte (nth (Z.to_nat i) l 0)).

(** The object a pointer refers to, if it may be accessed. *)
(** ISO C; no counterpart in /repo, every access through a pointer. *)
Definition access (m : mem) (o : pobj) : outcome block :=
  match o with
  | PNull => UB UB_null
  | PBlk b => match nth_error m b with
              | Some blk => if b_live blk then Ok blk else UB UB_dead
              | None => UB UB_dead
              end
  | PLit l => Ok (lit_block l)
  end.

(** The bytes of an access lie inside of the object. ISO C; no counterpart in /repo, every access through a pointer. *)
Definition in_block (blk : block) (ofs n : Z) : bool :=
  (0 <=? ofs) && (ofs + n <=? b_size blk).

(** Reading a byte that may be uninitialised (memmove, strbuf.c:681) *)
Definition load_cell (m : mem) (p : ptr) : outcome cell :=
  let! blk := access m (p_obj p) in
  if in_block blk (p_ofs p) 1 then Ok (b_get blk (p_ofs p)) else UB UB_bounds.

(** Read one char (as unsigned byte value). *)
(** As at strview.c:380 or strnum.c:762. *)
Definition load_byte (m : mem) (p : ptr) : outcome Z :=
  let! c := load_cell m p in
  match c with CByte z => Ok z | _ => UB UB_uninit end.

(** Pointer to another byte of the same object, without a check; no counterpart in /repo *)
Definition shift (p : ptr) (n : Z) : ptr := Ptr (p_obj p) (p_ofs p + n).

(** Reading several bytes one after the other, as memcmp at strview.c:68 does *)
Fixpoint load_bytes (m : mem) (p : ptr) (n : nat) : outcome (list Z) :=
  match n with
  | O => Ok []
  | S n' => let! z := load_byte m p in
            let! l := load_bytes m (shift p 1) n' in
            Ok (z :: l)
  end.

(** List with one element replaced; no counterpart in /repo, used for memory *)
Fixpoint upd {A} (l : list A) (n : nat) (x : A) : list A :=
  match l, n with
  | [], _ => []
  | _ :: t, O => x :: t
  | h :: t, S n' => h :: upd t n' x
  end.

(** Object with other contents; no counterpart in /repo *)
Definition with_cells (blk : block) (ofs n : Z) (f : Z -> cell) : block :=
  Block (b_base blk) (b_size blk) (b_live blk) (b_owner blk)
        (fun i => if (ofs <=? i) && (i <? ofs + n) then f (i - ofs) else b_get blk i).

(** Overwrite [n] cells at [p] with [f 0], [f 1], ... *)
(** As memmove at strbuf.c:406 does. *)
Definition store_cells (m : mem) (p : ptr) (n : Z) (f : Z -> cell) : outcome mem :=
  match p_obj p with
  | PBlk b =>
      let! blk := access m (PBlk b) in
      if in_block blk (p_ofs p) n
      then Ok (upd m b (with_cells blk (p_ofs p) n f))
      else UB UB_bounds
  | PNull => UB UB_null
  | PLit _ => UB UB_const
  end.

(** Write one char; the value is converted to a byte. *)
(** As at strbuf.c:408. *)
Definition store_byte (m : mem) (p : ptr) (z : Z) : outcome mem :=
  store_cells m p 1 (fun _ => CByte (z mod 256)).

(** Numeric address of a pointer (used only where pointers to different objects meet). *)
(** For the comparisons at strbuf.c:487, 510, 777 and strview.c:342, 358. *)
Definition addr (m : mem) (p : ptr) : option Z :=
  match p_obj p with
  | PNull => Some (p_ofs p)
  | PBlk b => match nth_error m b with
              | Some blk => Some (b_base blk + p_ofs p)
              | None => None
              end
  | PLit _ => None
  end.

(** Equality of byte lists; no counterpart in /repo *)
Fixpoint list_eqb (a b : list Z) : bool :=
  match a, b with
  | [], [] => true
  | x :: a', y :: b' => (x =? y) && list_eqb a' b'
  | _, _ => false
  end.

(** Two pointers refer to the same object; no counterpart in /repo *)
Definition pobj_eqb (a b : pobj) : bool :=
  match a, b with
  | PNull, PNull => true
  | PBlk x, PBlk y => Nat.eqb x y
  | PLit x, PLit y => list_eqb x y
  | _, _ => false
  end.

(** p + n.  Strictly only pointers into (or one past) a live object may be formed. *)
(** As at strview.c:357, 358 or strbuf.c:678. *)
Definition padd (cf : cfg) (m : mem) (p : ptr) (n : Z) : outcome ptr :=
  match p_obj p with
  | PNull =>
      if (p_ofs p =? 0) && (n =? 0)
      then if c_mem0 cf || c_ptr cf then Ok (shift p n) else UB UB_ptr
      else if c_ptr cf then Ok (shift p n) else UB UB_ptr
  | o =>
      if c_ptr cf then Ok (shift p n)
      else let! blk := access m o in
           if in_block blk (p_ofs p + n) 0 then Ok (shift p n) else UB UB_ptr
  end.

(** p == q.  Different objects compare by address. *)
(** As at strview.c:68. *)
Definition peq (m : mem) (p q : ptr) : bool :=
  if pobj_eqb (p_obj p) (p_obj q) then p_ofs p =? p_ofs q
  else match addr m p, addr m q with
       | Some a, Some b => a =? b
       | _, _ => false
       end.

(** Difference p - q as used by the relational operators and by subtraction. *)
(** As at strview.c:342-343, 358-360. *)
Definition pdiff (cf : cfg) (m : mem) (p q : ptr) : outcome Z :=
  if pobj_eqb (p_obj p) (p_obj q) then Ok (p_ofs p - p_ofs q)
  else if c_ptr cf
       then match addr m p, addr m q with
            | Some a, Some b => Ok (a - b)
            | _, _ => UB UB_ptr
            end
       else UB UB_ptr.

(** As at strview.c:358 or strbuf.c:487: p <= q *)
Definition ple (cf : cfg) (m : mem) (p q : ptr) : outcome bool :=
  let! d := pdiff cf m p q in Ok (d <=? 0).
(** As at strbuf.c:777: p < q *)
Definition plt (cf : cfg) (m : mem) (p q : ptr) : outcome bool :=
  let! d := pdiff cf m p q in Ok (d <? 0).
