(** The allocator contract (strbuf.h:217-227) and access to strbuf_t headers. *)
From Verif Require Import Base Mem.

(** What an allocator decides in one call: to fail, to move a resized block, where to put it. *)
(** The environment of the calls at strbuf.c:379, 566, 708, 723. *)
Record choice : Type := Choice { ch_fail : bool; ch_move : bool; ch_base : Z }.

(** Program state: memory and the decisions of all future allocator calls. *)
(** No counterpart in /repo. *)
Record st : Type := St { s_mem : mem; s_orc : nat -> choice }.
(** The decision for the next allocator call, and those after it; no counterpart in /repo *)
Definition next_orc (o : nat -> choice) : nat -> choice := fun n => o (S n).
(** State with another memory; no counterpart in /repo *)
Definition with_mem (w : st) (m : mem) : st := St m (s_orc w).

(** Equality of optional numbers; no counterpart in /repo *)
Definition opt_eqb (a b : option nat) : bool :=
  match a, b with Some x, Some y => Nat.eqb x y | None, None => true | _, _ => false end.
(** Equality of allocators (strbuf.h:217-227) *)
Definition alloc_eqb (a b : allocator) : bool := (a_app a =? a_app b) && opt_eqb (a_fn a) (a_fn b).
(** Equality of headers (strbuf.h:235-240) *)
Definition hdr_eqb (a b : hdr) : bool :=
  (h_size a =? h_size b) && (h_cap a =? h_cap b) && alloc_eqb (h_alloc a) (h_alloc b).

(** May [n] bytes be placed at [base]?  Non-null, aligned, disjoint from every live object. *)
(** ISO C; no counterpart in /repo, result of an allocator (strbuf.h:205-212). *)
Definition place_ok (cf : cfg) (m : mem) (base n : Z) : bool :=
  (0 <? base) && (base mod c_ptrbytes cf =? 0) &&
  forallb (fun k => negb (b_live k) || (base + n <=? b_base k) || (b_base k + b_size k <=? base)) m.

(** A place beyond every object, used when the decision of the allocator is not acceptable:
    quantifying over all decisions quantifies over all acceptable placements. *)
(** No counterpart in /repo. *)
Definition top (m : mem) : Z := fold_right (fun k acc => Z.max (b_base k + b_size k) acc) 0 m.
(** An aligned address beyond every object; no counterpart in /repo *)
Definition fresh_base (cf : cfg) (m : mem) : Z := (top m / c_ptrbytes cf + 1) * c_ptrbytes cf.
(** The address of a new object: the chosen one if possible; no counterpart in /repo *)
Definition place (cf : cfg) (m : mem) (c : choice) (n : Z) : Z :=
  if place_ok cf m (ch_base c) n then ch_base c else fresh_base cf m.

(** An object whose life has ended (free, strbuf.c:69) *)
Definition kill (k : block) : block := Block (b_base k) (b_size k) false (b_owner k) (b_get k).
(** Memory in which object number i is dead (free, strbuf.c:69) *)
Definition kill_at (m : mem) (b : nat) : mem :=
  match nth_error m b with Some k => upd m b (kill k) | None => m end.
(** Contents after realloc to n bytes (strbuf.c:71): the old ones, then uninitialised bytes *)
Definition resize (k : block) (n : Z) : block :=
  Block (b_base k) n (b_live k) (b_owner k) (fun i => if i <? b_size k then b_get k i else CUndef).
(** A new object of n uninitialised bytes (realloc of NULL, strbuf.c:71) *)
Definition new_block (a : allocator) (base n : Z) (f : Z -> cell) : block := Block base n true (Heap a) f.

(** The block [p] may be resized or freed by allocator [a]. *)
(** Required of ptr_to_free by strbuf.h:223. *)
Definition owned (m : mem) (a : allocator) (p : ptr) : outcome (nat * block) :=
  match p_obj p with
  | PBlk b =>
      match nth_error m b with
      | Some k =>
          if b_live k && (p_ofs p =? 0) && match b_owner k with Heap a' => alloc_eqb a a' | Static => false end
          then Ok (b, k) else UB UB_alloc
      | None => UB UB_alloc
      end
  | _ => UB UB_alloc
  end.

(** The call allocator(&a, p, n): new memory for p = NULL, free for n = 0, otherwise resize.
    New bytes are uninitialised; a moved block leaves the old one dead.
    Simplification: a block that moves does not overlap its old place. *)
(** strbuf.h:217-227 strbuf_allocator_t; called at strbuf.c:379, 566, 708, 723 and strbuf_crypt.c:69, 71. *)
Definition alloc_call (cf : cfg) (w : st) (a : allocator) (p : ptr) (n : Z) : outcome (ptr * st) :=
  let m := s_mem w in
  let c := s_orc w O in
  let o := next_orc (s_orc w) in
  if is_null p then
    if n =? 0 then Ok (null, w)
    else if ch_fail c then Ok (null, St m o)
    else Ok (Ptr (PBlk (length m)) 0, St (m ++ [new_block a (place cf m c n) n (fun _ => CUndef)]) o)
  else
    let! (b, k) := owned m a p in
    if n =? 0 then Ok (null, St (kill_at m b) (s_orc w))
    else if ch_fail c then Ok (null, St m o)
    else if negb (ch_move c) && place_ok cf (kill_at m b) (b_base k) n
    then Ok (p, St (upd m b (resize k n)) o)
    else Ok (Ptr (PBlk (length m)) 0,
             St (kill_at m b ++ [new_block a (place cf m c n) n (fun i => if i <? b_size k then b_get k i else CUndef)]) o).

(** sizeof(strbuf_t): two ints and two pointers (strbuf.h:235-241) *)
Definition hdr_size (cf : cfg) : Z := 8 + 2 * c_ptrbytes cf.

(** Every byte of a complete, aligned header. *)
(** strbuf.h:235-241 strbuf_t. *)
Definition hdr_cells (cf : cfg) (k : block) (o : Z) (h : hdr) : bool :=
  forallb (fun i => match b_get k (o + Z.of_nat i) with
                    | CHdr h' j => hdr_eqb h h' && (j =? Z.of_nat i)
                    | _ => false end) (seq 0 (Z.to_nat (hdr_size cf))).

(** Reading the members of *p.  Simplification: members are read together. *)
(** As at strbuf.c:211 or 782. *)
Definition load_hdr (cf : cfg) (m : mem) (p : ptr) : outcome hdr :=
  let! k := access m (p_obj p) in
  if negb ((b_base k + p_ofs p) mod c_ptrbytes cf =? 0) then UB UB_align
  else if negb (in_block k (p_ofs p) (hdr_size cf)) then UB UB_bounds
  else match b_get k (p_ofs p) with
       | CHdr h 0 => if hdr_cells cf k (p_ofs p) h then Ok h else UB UB_uninit
       | _ => UB UB_uninit
       end.

(** Writing all members of *p. *)
(** As at strbuf.c:131-132 or 567-569. *)
Definition store_hdr (cf : cfg) (m : mem) (p : ptr) (h : hdr) : outcome mem :=
  let! k := access m (p_obj p) in
  if negb ((b_base k + p_ofs p) mod c_ptrbytes cf =? 0) then UB UB_align
  else store_cells m p (hdr_size cf) (fun i => CHdr h i).
