(** Model of the default allocator (strbuf.c:62-78) and of the example programs in examples/.
    The C library heap (malloc family) is modelled as in ISO C 7.22.3: where a new object is put,
    whether a resized one moves and whether an allocation fails are the decisions of the oracle
    of the state.
    Simplifications: string literals of the programs are passed as pointers to NUL terminated
    objects of the memory; the fixed words printed around the text, and DBG lines, are not
    modelled; automatic objects are blocks that end when the function returns. *)
From Coq Require Import String.
From Verif Require Import Base Mem Libc StrviewModel StrnumModel Alloc StrbufModel.
Local Open Scope list_scope.
Local Open Scope Z_scope.

(** ** The heap of the C library *)
(** A block that free and realloc accept: a live object of the heap, given by its start (ISO C 7.22.3.3, 7.22.3.5). *)
Definition heap_block (m : mem) (p : ptr) : outcome (nat * block) :=
  match p_obj p with
  | PBlk b =>
      match nth_error m b with
      | Some k => match b_owner k with
                  | Heap _ => if b_live k && (p_ofs p =? 0) then Ok (b, k) else UB UB_alloc
                  | Static => UB UB_alloc
                  end
      | None => UB UB_alloc
      end
  | _ => UB UB_alloc
  end.

(** ISO C 7.22.3.3 free *)
Definition c_free (w : st) (p : ptr) : outcome st :=
  if is_null p then Ok w
  else let! (b, _) := heap_block (s_mem w) p in Ok (with_mem w (kill_at (s_mem w) b)).

(** ISO C 7.22.3.4 malloc of [n] > 0 bytes.  [tag] is not part of the C object: it records for which
    allocator structure the object was made. *)
Definition c_malloc (cf : cfg) (w : st) (tag : allocator) (n : Z) : ptr * st :=
  let c := s_orc w O in
  if ch_fail c then (null, St (s_mem w) (next_orc (s_orc w)))
  else (Ptr (PBlk (length (s_mem w))) 0,
        St (s_mem w ++ [new_block tag (place cf (s_mem w) c n) n (fun _ => CUndef)]) (next_orc (s_orc w))).

(** ISO C 7.22.3.5 realloc to [n] > 0 bytes; malloc for NULL.  In place if there is room and the heap
    likes to, otherwise a new object with the contents up to the lesser size; NULL if that fails. *)
Definition c_realloc (cf : cfg) (w : st) (tag : allocator) (p : ptr) (n : Z) : outcome (ptr * st) :=
  if is_null p then Ok (c_malloc cf w tag n)
  else
    let! (b, k) := heap_block (s_mem w) p in
    let c := s_orc w O in
    if ch_fail c then Ok (null, St (s_mem w) (next_orc (s_orc w)))
    else if negb (ch_move c) && place_ok cf (kill_at (s_mem w) b) (b_base k) n
    then Ok (p, St (upd (s_mem w) b (resize k n)) (next_orc (s_orc w)))
    else Ok (Ptr (PBlk (length (s_mem w))) 0,
             St (kill_at (s_mem w) b ++
                 [new_block tag (place cf (s_mem w) c n) n (fun i => if i <? b_size k then b_get k i else CUndef)])
                (next_orc (s_orc w))).

(** strbuf.c:62-78 allocfunc_stdlib, examples/custom_allocator/custom-alloc.c:64-75 allocator,
    examples/default_custom_allocator/default-custom-alloc.c:63-74 allocator.
    [asserting]: assert(size==0 || result) is compiled in (STRBUF_ASSERT_DEFAULT_ALLOCATOR_STDLIB; always
    in the examples).  The result None is abort(). *)
Definition allocfunc (cf : cfg) (asserting : bool) (w : st) (this : allocator) (ptr_to_free : ptr) (size : Z)
  : outcome (option (ptr * st)) :=
  let! (result, w1) :=
    if size =? 0 then let! w1 := c_free w ptr_to_free in Ok (null, w1)
    else c_realloc cf w this ptr_to_free size in
  if asserting && negb ((size =? 0) || negb (is_null result)) then Ok None
  else Ok (Some (result, w1)).

(** ** Printing *)
(** printf("%s", p): the characters before the terminator (ISO C 7.21.6.1) *)
Definition show_cstr (m : mem) (p : ptr) : outcome (list Z) :=
  let! n := strlen m p in load_bytes m p (Z.to_nat n).

(** printf("%.*s", n, p), which is PRIstr with PRIstrarg (strview.h:36, 49): at most [n] characters, none
    after a NUL *)
Fixpoint show_upto (m : mem) (p : ptr) (n : nat) : outcome (list Z) :=
  match n with
  | O => Ok []
  | S n' => let! c := load_byte m p in
            if c =? 0 then Ok [] else let! l := show_upto m (shift p 1) n' in Ok (c :: l)
  end.
(** strview.h:36, 49: printf of PRIstr with PRIstrarg(v) *)
Definition show_view (cf : cfg) (m : mem) (v : view) : outcome (list Z) :=
  if is_null (v_data v) && negb (c_mem0 cf) then UB UB_null
  else show_upto m (v_data v) (Z.to_nat (v_size v)).

Section Cfg.
Variable cf : cfg.

(** ** examples/default_stdlib_allocator/default-stdlib-alloc.c, custom-alloc.c, default-custom-alloc.c *)
(** strbuf_append(&buf, cstr("...")); repeated (default-stdlib-alloc.c:40-45) *)
Fixpoint append_all (w : st) (bp : option ptr) (words : list ptr) : outcome (option ptr * st) :=
  match words with
  | [] => Ok (bp, w)
  | s :: rest =>
      let! v := cstr (s_mem w) s in
      let! (_, bp1, w1) := strbuf_append_strview cf w bp v in
      append_all w1 bp1 rest
  end.

(** default-stdlib-alloc.c:33-55 main (same calls as custom-alloc.c:34-58, which passes its own
    allocator, and default-custom-alloc.c:35-57): the text printed, the variable and the state at the end. *)
Definition say_twice (w : st) (dflt : allocator) (a : option allocator) (words : list ptr) (head tail : ptr)
  : outcome (list Z * option ptr * st) :=
  let! (buf, w1) := strbuf_create_empty cf w dflt 16 a in
  let! (bp2, w2) := append_all w1 (Some buf) words in
  let! h := cstr (s_mem w2) head in
  let! v1 := strbuf_view cf w2 bp2 in
  let! v2 := strbuf_view cf w2 bp2 in
  let! t := cstr (s_mem w2) tail in
  let! (_, bp3, w3) := strbuf_cat cf w2 bp2 [h; v1; v2; t] in
  let! p3 := match bp3 with Some p => Ok p | None => UB UB_null end in
  let! txt := show_cstr (s_mem w3) (cstr_of cf p3) in
  let! (bp4, w4) := strbuf_destroy cf w3 bp3 in
  Ok (txt, bp4, w4).

(** ** examples/stack_buffer/stack-buf.c *)
(** The common part of ex1 and ex2 after the buffer has been made (stack-buf.c:52-55, 63-67). *)
Definition assign_and_strip (w : st) (buf : ptr) (v : view) (dash : ptr) : outcome (list Z * list Z * st) :=
  let! (_, bp1, w1) := strbuf_assign cf w (Some buf) v in
  let! p1 := match bp1 with Some p => Ok p | None => UB UB_null end in
  let! txt1 := show_cstr (s_mem w1) (cstr_of cf p1) in
  let! d := cstr (s_mem w1) dash in
  let! (_, bp2, w2) := strbuf_strip_strview cf w1 bp1 d in
  let! p2 := match bp2 with Some p => Ok p | None => UB UB_null end in
  let! txt2 := show_cstr (s_mem w2) (cstr_of cf p2) in
  Ok (txt1, txt2, w2).

(** stack-buf.c:48-56 ex1: STRBUF_FIXED_CAP(200), a compound literal with automatic storage.
    The decision [c] says where it is put. *)
Definition stack_ex1 (w : st) (c : choice) (v : view) (dash : ptr) : outcome (list Z * list Z * st) :=
  let m := s_mem w in
  let n := hdr_size cf + 200 + 1 in
  let w1 := with_mem w (m ++ [static_buf_block cf (place cf m c n) 200]) in
  let! (t1, t2, w2) := assign_and_strip w1 (Ptr (PBlk (length m)) 0) v dash in
  Ok (t1, t2, with_mem w2 (kill_at (s_mem w2) (length m))).

(** sizeof(strbuf_space_t(cap)): padded to the alignment of a pointer (strbuf.h:87) *)
Definition space_size (cap : Z) : Z :=
  (hdr_size cf + cap + 1 + c_ptrbytes cf - 1) / c_ptrbytes cf * c_ptrbytes cf.

(** stack-buf.c:58-68 ex2: uninitialised space of a size known at run time *)
Definition stack_ex2 (w : st) (c : choice) (v : view) (dash : ptr) : outcome (list Z * list Z * st) :=
  let m := s_mem w in
  let n := space_size (v_size v) in
  let m1 := m ++ [Block (place cf m c n) n true Static (fun _ => CUndef)] in
  let! (buf, m2) := strbuf_create_fixed cf m1 (Ptr (PBlk (length m)) 0) n in
  let! (t1, t2, w2) := assign_and_strip (with_mem w m2) buf v dash in
  Ok (t1, t2, with_mem w2 (kill_at (s_mem w2) (length m))).

(** stack-buf.c:70-77 ex3: a char array of the size of the view and one more *)
Definition stack_ex3 (w : st) (c : choice) (v : view) : outcome (list Z * st) :=
  let m := s_mem w in
  let n := v_size v + 1 in
  let m1 := m ++ [Block (place cf m c n) n true Static (fun _ => CUndef)] in
  let! (p, m2) := strview_to_cstr cf m1 (Ptr (PBlk (length m)) 0) n v in
  let! t := show_cstr m2 (Ptr (PBlk (length m)) 0) in
  Ok (t, with_mem w (kill_at m2 (length m))).

(** ** examples/static_buffer/static-buf.c *)
(** static-buf.c:53-60 ex1; [space] is the address of the local static buf_space.  The local variable
    buf ends with the call. *)
Definition static_ex1 (w : st) (space : ptr) (v : view) : outcome (list Z * list Z * st) :=
  let! was := show_cstr (s_mem w) (cstr_of cf space) in
  let! new := show_view cf (s_mem w) v in
  let! (_, _, w1) := strbuf_assign cf w (Some space) v in
  Ok (was, new, w1).

(** static-buf.c:40-42: calls one after the other *)
Fixpoint static_calls (w : st) (space : ptr) (vs : list view) : outcome (list (list Z * list Z) * st) :=
  match vs with
  | [] => Ok ([], w)
  | v :: rest =>
      let! (was, new, w1) := static_ex1 w space v in
      let! (l, w2) := static_calls w1 space rest in
      Ok ((was, new) :: l, w2)
  end.

(** static-buf.c:37-47 main, with any views instead of the three literals; [global] is the address
    of the space of the global static_buf. *)
Definition static_main (w : st) (space global : ptr) (vs : list view) (last : view)
  : outcome (list (list Z * list Z) * list Z * st) :=
  let! (l, w1) := static_calls w space vs in
  let! (_, bp, w2) := strbuf_assign cf w1 (Some global) last in
  let! p := match bp with Some p => Ok p | None => UB UB_null end in
  let! t := show_cstr (s_mem w2) (cstr_of cf p) in
  Ok (l, t, w2).

(** ** examples/testnum/testnum.c *)
(** The characters of the literals at testnum.c:56-66. *)
Definition chars (s : string) : list Z := map (fun c => Z.of_nat (Ascii.nat_of_ascii c)) (list_ascii_of_string s).

(** testnum.c:56-67: one command line argument; the words compared with are string literals *)
Definition word_view (s : string) : view := View (lit (chars s)) (Zlen (chars s)).
(** testnum.c:56-57 (and 58-59 ... 66-67): if(strview_is_match_nocase(cstr(argv[i]), cstr(word))) options |= bit; *)
Definition one_option (m : mem) (arg : view) (word : string) (bit options : Z) : outcome Z :=
  let! b := strview_is_match_nocase cf m arg (word_view word) in
  Ok (if (b : bool) then Z.lor options bit else options).
(** testnum.c:56-67 *)
Definition argument (m : mem) (arg : ptr) (options : Z) : outcome Z :=
  let! v := cstr m arg in
  let! o1 := one_option m v "base-bin" 1 options in
  let! o2 := one_option m v "base-hex" 2 o1 in
  let! o3 := one_option m v "nobx" 4 o2 in
  let! o4 := one_option m v "nosign" 8 o3 in
  let! o5 := one_option m v "nospace" 16 o4 in
  one_option m v "noexp" 32 o5.
(** testnum.c:53-69: the loop over argv[1] .. argv[argc-1] *)
Fixpoint arguments (m : mem) (argv : list ptr) (options : Z) : outcome Z :=
  match argv with
  | [] => Ok options
  | a :: rest => let! o := argument m a options in arguments m rest o
  end.

(** testnum.c:104-110 numtsthelper: the error, the value printed and the remainder printed.
    The variable is not initialised before. *)
Definition numtsthelper {T} (zero : T) (f : mem -> bool -> option view -> Z -> outcome (parsed T))
  (m : mem) (v : view) (opt : Z) : outcome (errno * T * list Z) :=
  let! r := f m true (Some v) opt in
  let v' := match pr_src r with Some v' => v' | None => v end in
  let! x := match pr_err r with
            | NoErr => match pr_dst r with Some x => Ok x | None => UB UB_uninit end
            | _ => Ok zero
            end in
  let! rest := show_view cf m v' in
  Ok (pr_err r, x, rest).

(** testnum.c:131-140: the lines for the integer types *)
Definition int_parsers : list (mem -> bool -> option view -> Z -> outcome (parsed Z)) :=
  [ strnum_consume_uchar cf; strnum_consume_ushort cf; strnum_consume_uint cf; strnum_consume_ulong cf; strnum_consume_ullong cf;
    strnum_consume_char cf; strnum_consume_short cf; strnum_consume_int cf; strnum_consume_long cf; strnum_consume_llong cf ].
(** testnum.c:131-140, one line after the other *)
Fixpoint int_lines (fs : list (mem -> bool -> option view -> Z -> outcome (parsed Z))) (m : mem) (v : view) (opt : Z)
  : outcome (list (errno * Z * list Z)) :=
  match fs with
  | [] => Ok []
  | f :: rest => let! x := numtsthelper 0 f m v opt in let! xs := int_lines rest m v opt in Ok (x :: xs)
  end.

(** testnum.c:112-144 test_number_conversion without the floating point lines: the text and the lines *)
Definition test_number_conversion (m : mem) (v : view) (opt : Z) : outcome (list Z * list (errno * Z * list Z)) :=
  let! t := show_view cf m v in
  let! xs := int_lines int_parsers m v opt in
  Ok (t, xs).

(** testnum.c:141-143: the floating point lines, for an arithmetic for each of the three types *)
Definition float_lines (F D L : arith) (m : mem) (v : view) (opt : Z)
  : outcome ((errno * a_t F * list Z) * (errno * a_t D * list Z) * (errno * a_t L * list Z)) :=
  let! a := numtsthelper (a_zero F) (strnum_consume_float cf F) m v opt in
  let! b := numtsthelper (a_zero D) (strnum_consume_double cf D) m v opt in
  let! c := numtsthelper (a_zero L) (strnum_consume_double cf L) m v opt in
  Ok (a, b, c).

(** testnum.c:90-95: one line of input, held as a C string at [txt] *)
Definition number_line (m : mem) (txt : ptr) (opt : Z) : outcome (list Z * list (errno * Z * list Z)) :=
  let! t := cstr m txt in
  let! v := strview_trim_end cf m t (View (lit [13; 10]) 2) in
  test_number_conversion m v opt.

End Cfg.
