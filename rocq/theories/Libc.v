(** The parts of the C library used by the code (ISO C semantics, C locale). *)
From Verif Require Import Base Mem.

(** Is a zero-length access through [p] allowed? *)
(** ISO C; no counterpart in /repo, used by the calls at strview.c:48, 68, 93, 126 and strbuf.c:406, 681, 692, 695. *)
Definition zero_ok (cf : cfg) (m : mem) (p : ptr) : bool :=
  c_mem0 cf ||
  match access m (p_obj p) with
  | Ok blk => in_block blk (p_ofs p) 0
  | _ => false
  end.

(** First difference of two byte lists, as memcmp reports it. *)
(** The value of the calls at strview.c:68, 93, 126. *)
Fixpoint list_cmp (a b : list Z) : Z :=
  match a, b with
  | x :: a', y :: b' => if x =? y then list_cmp a' b' else x - y
  | _, _ => 0
  end.

(** string.h memcmp.  Simplification: the magnitude of a non-zero result (which ISO C
    leaves open) is the byte difference; all [n] bytes must be readable.
    Here and below a negative [n] becomes a size_t beyond every object. *)
Definition memcmp (cf : cfg) (m : mem) (a b : ptr) (n : Z) : outcome Z :=
  if n <=? 0
  then if n <? 0 then UB UB_bounds
       else if zero_ok cf m a && zero_ok cf m b then Ok 0 else UB UB_null
  else let! la := load_bytes m a (Z.to_nat n) in
       let! lb := load_bytes m b (Z.to_nat n) in
       Ok (list_cmp la lb).

(** Two ranges of bytes have one in common (for the memcpy at strbuf.c:692, 695) *)
Definition ranges_overlap (p q : ptr) (n : Z) : bool :=
  pobj_eqb (p_obj p) (p_obj q) && (p_ofs p <? p_ofs q + n) && (p_ofs q <? p_ofs p + n).

(** string.h memmove; cells are copied as they are (also uninitialised ones). *)
(** Called at strbuf.c:378, 406, 538, 681. *)
Definition memmove (cf : cfg) (m : mem) (dst src : ptr) (n : Z) : outcome mem :=
  if n <=? 0
  then if n <? 0 then UB UB_bounds
       else if zero_ok cf m dst && zero_ok cf m src then Ok m else UB UB_null
  else let! sblk := access m (p_obj src) in
       if in_block sblk (p_ofs src) n
       then store_cells m dst n (fun i => b_get sblk (p_ofs src + i))
       else UB UB_bounds.

(** string.h memcpy: as memmove, but overlapping ranges are undefined. *)
(** Called at strview.c:48, strbuf.c:692, 695, strbuf_crypt.c:128, 131, strview_unpack.h:22, 30. *)
Definition memcpy (cf : cfg) (m : mem) (dst src : ptr) (n : Z) : outcome mem :=
  if (0 <? n) && ranges_overlap dst src n then UB UB_overlap
  else memmove cf m dst src n.

(** string.h memset *)
(** Called at strbuf_crypt.c:102. *)
Definition memset (cf : cfg) (m : mem) (dst : ptr) (c n : Z) : outcome mem :=
  if n <=? 0
  then if n <? 0 then UB UB_bounds
       else if zero_ok cf m dst then Ok m else UB UB_null
  else store_cells m dst n (fun _ => CByte (c mod 256)).

(** string.h strlen *)
(** Called at strview.c:36. *)
Fixpoint strlen_loop (fuel : nat) (m : mem) (p : ptr) (acc : Z) : outcome Z :=
  match fuel with
  | O => Fuel
  | S f => let! c := load_byte m p in
           if c =? 0 then Ok acc else strlen_loop f m (shift p 1) (acc + 1)
  end.

(** Called at strview.c:36 *)
Definition strlen (m : mem) (p : ptr) : outcome Z :=
  let! blk := access m (p_obj p) in
  strlen_loop (S (Z.to_nat (b_size blk))) m p 0.

(** ctype.h toupper on an unsigned char value *)
(** Called at strview.c:394. *)
Definition toupper (c : Z) : Z := if (97 <=? c) && (c <=? 122) then c - 32 else c.

(** ISO C; no counterpart in /repo, argument of isdigit and isxdigit at strnum.c:762, 815, 896 *)
Definition ctype_ok (cf : cfg) (c : Z) : bool := ((-1 <=? c) && (c <=? 255)) || c_ctype cf.

(** The decimal digits (ISO C 7.4.1.5) *)
Definition isdigit_c (c : Z) : bool := (48 <=? c) && (c <=? 57).
(** The hexadecimal digits (ISO C 7.4.1.12) *)
Definition isxdigit_c (c : Z) : bool :=
  isdigit_c c || ((65 <=? c) && (c <=? 70)) || ((97 <=? c) && (c <=? 102)).

(** ctype.h isdigit / isxdigit on a promoted char *)
(** Called at strnum.c:762, 770, 776, 782, 896, 900. *)
Definition isdigit (cf : cfg) (c : Z) : outcome bool :=
  if ctype_ok cf c then Ok (isdigit_c c) else UB UB_ctype.
(** Called at strnum.c:815, 823 *)
Definition isxdigit (cf : cfg) (c : Z) : outcome bool :=
  if ctype_ok cf c then Ok (isxdigit_c c) else UB UB_ctype.
