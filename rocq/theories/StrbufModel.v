(** Model of strbuf.c, function by function.
    A buffer variable (strbuf_t pointer) is a [ptr]; the address of such a variable
    (strbuf_t double pointer, buf_ptr) is an [option ptr]: None is a NULL buf_ptr.
    Simplification: the caller's variable does not lie inside buffer memory. *)
From Verif Require Import Base Mem Libc StrviewModel Alloc.

Section Cfg.
Variable cf : cfg.

(** buf->cstr (strbuf.h:240): the characters follow the header *)
Definition cstr_of (p : ptr) : ptr := shift p (hdr_size cf).

(** &buf->cstr[i] *)
(** strbuf.c:225, 441, 510, 677-678. *)
Definition char_at (m : mem) (p : ptr) (i : Z) : outcome ptr := padd cf m (cstr_of p) i.

(** buf->size = n;  buf->capacity = n; *)
(** strbuf.c:132, 225, 407, 787. *)
Definition set_size (m : mem) (p : ptr) (n : Z) : outcome mem :=
  let! h := load_hdr cf m p in
  store_hdr cf m p (Hdr n (h_cap h) (h_alloc h)).
(** strbuf.c:567, 724 *)
Definition set_cap (m : mem) (p : ptr) (n : Z) : outcome mem :=
  let! h := load_hdr cf m p in
  store_hdr cf m p (Hdr (h_size h) n (h_alloc h)).

(** buf->cstr[i] = c; *)
(** strbuf.c:408, 448, 696, 750, 752, 788. *)
Definition set_char (m : mem) (p : ptr) (i c : Z) : outcome mem :=
  let! q := char_at m p i in store_byte m q c.

(** strbuf.c:780-783 buf_is_dynamic *)
Definition is_dyn (a : allocator) : bool := match a_fn a with Some _ => true | None => false end.
(** strbuf.c:780-783 buf_is_dynamic *)
Definition buf_is_dynamic (m : mem) (p : ptr) : outcome bool :=
  let! h := load_hdr cf m p in Ok (is_dyn (h_alloc h)).

(** strbuf.c:785-789 empty_buf *)
Definition empty_buf (m : mem) (p : ptr) : outcome mem :=
  let! m1 := set_size m p 0 in set_char m1 p 0 0.

(** strbuf.c:791-796 add_will_overflow_int: performs the addition it wants to check *)
Definition add_will_overflow_int (a b : Z) : outcome bool :=
  let! c := iadd cf a b in
  Ok (Bool.eqb (a <? 0) (b <? 0) && negb (Bool.eqb (a <? 0) (c <? 0))).

(** strbuf.c:760-773 round_up_capacity *)
Definition round_up_capacity (capacity : Z) : outcome Z :=
  let remainder := Z.rem capacity (c_step cf) in
  if remainder =? 0 then Ok capacity
  else let! o := add_will_overflow_int capacity (c_step cf - remainder) in
       if o then Ok INT_MAX else iadd cf capacity (c_step cf - remainder).

(** strbuf.c:775-778 buf_contains_str *)
Definition buf_contains_str (m : mem) (p : ptr) (str : view) : outcome bool :=
  let! a := ple cf m (cstr_of p) (v_data str) in
  if (a : bool)
  then let! h := load_hdr cf m p in
       let! q := char_at m p (h_size h) in
       plt cf m (v_data str) q
  else Ok false.

(** strbuf.c:575-584 strview_of_buf *)
Definition strview_of_buf (m : mem) (p : ptr) : outcome view :=
  if is_null p then Ok INVALID
  else let! h := load_hdr cf m p in Ok (View (cstr_of p) (h_size h)).

(** size_t value of sizeof(strbuf_t)+capacity+1 *)
(** strbuf.c:566 and 723. *)
Definition alloc_size (capacity : Z) : Z := (hdr_size cf + capacity + 1) mod 2 ^ (8 * c_ptrbytes cf).

(** strbuf.c:560-573 create_buf.  The writes of capacity, allocator and size are one
    header write.  A NULL from the allocator is written through. *)
Definition create_buf (w : st) (initial_capacity : Z) (a : allocator) : outcome (ptr * st) :=
  let! (p, w1) := alloc_call cf w a null (alloc_size initial_capacity) in
  let! m1 := store_hdr cf (s_mem w1) p (Hdr 0 initial_capacity a) in
  let! m2 := set_char m1 p 0 0 in
  Ok (p, with_mem w1 m2).

(** strbuf.c:712-728 change_buf_capacity *)
Definition change_buf_capacity (w : st) (p : ptr) (new_capacity : Z) : outcome (ptr * st) :=
  let! h := load_hdr cf (s_mem w) p in
  if is_dyn (h_alloc h) then
    let n := if new_capacity <? h_size h then h_size h else new_capacity in
    if n =? h_cap h then Ok (p, w)
    else let! (p1, w1) := alloc_call cf w (h_alloc h) p (alloc_size n) in
         let! m2 := set_cap (s_mem w1) p1 n in
         Ok (p1, with_mem w1 m2)
  else Ok (p, w).

(** strbuf.c:704-710 destroy_buf; the caller's pointer becomes NULL *)
Definition destroy_buf (w : st) (p : ptr) : outcome st :=
  let! h := load_hdr cf (s_mem w) p in
  if is_dyn (h_alloc h)
  then let! (_, w1) := alloc_call cf w (h_alloc h) p 0 in Ok w1
  else Ok w.

(** Resize when needed: "if(buf_is_dynamic(buf) && buf->capacity < n)
    change_buf_capacity(&buf, round_up_capacity(n));" *)
(** strbuf.c:218-219, 399-400, 612-613, 665-666, 743-744. *)
Definition ensure (w : st) (p : ptr) (n : Z) : outcome (ptr * st) :=
  let! h := load_hdr cf (s_mem w) p in
  if is_dyn (h_alloc h) && (h_cap h <? n)
  then let! r := round_up_capacity n in change_buf_capacity w p r
  else Ok (p, w).

(** strbuf.c:654-659: index clamping *)
Definition clamp_index (index size : Z) : outcome Z :=
  let i1 := if size <? index then size else index in
  let! i2 := if i1 <? 0 then iadd cf i1 size else Ok i1 in
  Ok (if i2 <? 0 then 0 else i2).

(** strbuf.c:643-702 insert_strview_into_buf.
    src_offset is a size_t in C; it is used only when the source lies in the buffer. *)
Definition insert_strview_into_buf (w : st) (p : ptr) (index : Z) (str : view) : outcome (ptr * st) :=
  let! src_in_dst := buf_contains_str (s_mem w) p str in
  let! src_offset := pdiff cf (s_mem w) (v_data str) (cstr_of p) in
  let! h := load_hdr cf (s_mem w) p in
  let! index' := clamp_index index (h_size h) in
  let! failed := add_will_overflow_int (h_size h) (v_size str) in
  if (failed : bool) then
    let! m1 := empty_buf (s_mem w) p in Ok (p, with_mem w m1)
  else
    let! (p1, w1) := ensure w p (h_size h + v_size str) in
    let! h1 := load_hdr cf (s_mem w1) p1 in
    let m1 := s_mem w1 in
    let! str1 := if (src_in_dst : bool) && negb (peq m1 p1 p)
                 then let! d := char_at m1 p1 src_offset in Ok (View d (v_size str))
                 else Ok str in
    if h_cap h1 <? h_size h1 + v_size str1 then
      let! m2 := empty_buf m1 p1 in Ok (p1, with_mem w1 m2)
    else
      let! move_src := char_at m1 p1 index' in
      let! move_dst := char_at m1 p1 (index' + v_size str1) in
      let! (m2, left_behind, shifted) :=
        if v_size str1 =? 0 then Ok (m1, INVALID, str1)
        else
          let! m2 := memmove cf m1 move_dst move_src (h_size h1 - index') in
          if (src_in_dst : bool) then
            let! d := pdiff cf m2 move_src (v_data str1) in
            let! (left_behind, sh) :=
              if 0 <? d then
                let! (l, r) := strview_split_index cf m2 (Some str1) (to_int d) in
                match r with Some r => Ok (l, r) | None => UB UB_null end
              else Ok (INVALID, str1) in
            let! dd := pdiff cf m2 move_dst move_src in
            let! q := padd cf m2 (v_data sh) dd in
            Ok (m2, left_behind, View q (v_size sh))
          else Ok (m2, INVALID, str1) in
      let! m3 := set_size m2 p1 (h_size h1 + v_size str1) in
      let! m4 := if v_size left_behind =? 0 then Ok m3
                 else memcpy cf m3 move_src (v_data left_behind) (v_size left_behind) in
      let! move_src2 := padd cf m4 move_src (v_size left_behind) in
      let! m5 := if v_size shifted =? 0 then Ok m4
                 else memcpy cf m4 move_src2 (v_data shifted) (v_size shifted) in
      let! m6 := set_char m5 p1 (h_size h1 + v_size str1) 0 in
      Ok (p1, with_mem w1 m6).

(** strbuf.c:730-734 assign_strview_to_buf *)
Definition assign_strview_to_buf (w : st) (p : ptr) (str : view) : outcome (ptr * st) :=
  let! m1 := empty_buf (s_mem w) p in
  insert_strview_into_buf (with_mem w m1) p 0 str.

(** strbuf.c:736-758 append_char_to_buf *)
Definition append_char_to_buf (w : st) (p : ptr) (c : Z) : outcome (ptr * st) :=
  let! h := load_hdr cf (s_mem w) p in
  let! failed := add_will_overflow_int (h_size h) 1 in
  if (failed : bool) then
    let! m1 := empty_buf (s_mem w) p in Ok (p, with_mem w m1)
  else
    let! (p1, w1) := ensure w p (h_size h + 1) in
    let! h1 := load_hdr cf (s_mem w1) p1 in
    if h_cap h1 <? h_size h1 + 1 then
      let! m2 := empty_buf (s_mem w1) p1 in Ok (p1, with_mem w1 m2)
    else
      let! m2 := set_char (s_mem w1) p1 (h_size h1) c in
      let! m3 := set_size m2 p1 (h_size h1 + 1) in
      let! m4 := set_char m3 p1 (h_size h1 + 1) 0 in
      Ok (p1, with_mem w1 m4).

(** strbuf.c:598-604: the first pass of buffer_vcat over the arguments *)
Fixpoint cat_measure (m : mem) (p : ptr) (args : list view) (size_needed : Z) (tmp failed : bool)
  : outcome (Z * bool * bool) :=
  match args with
  | [] => Ok (size_needed, tmp, failed)
  | str :: rest =>
      let! o := add_will_overflow_int size_needed (v_size str) in
      let! n := iadd cf size_needed (v_size str) in
      let! c := buf_contains_str m p str in
      cat_measure m p rest n (tmp || c) (failed || o)
  end.

(** strbuf.c:622-624: the second pass, appending each argument *)
Fixpoint cat_append (w : st) (p : ptr) (args : list view) : outcome (ptr * st) :=
  match args with
  | [] => Ok (p, w)
  | str :: rest =>
      let! h := load_hdr cf (s_mem w) p in
      let! (p1, w1) := insert_strview_into_buf w p (h_size h) str in
      cat_append w1 p1 rest
  end.

(** strbuf.c:586-641 buffer_vcat; the argument list is given as a list (n_args is its length) *)
Definition buffer_vcat (w : st) (p : ptr) (args : list view) : outcome (view * ptr * st) :=
  let! (size_needed, tmp, failed) := cat_measure (s_mem w) p args 0 false false in
  let! (p', w') :=
    if (failed : bool) then
      let! m1 := empty_buf (s_mem w) p in Ok (p, with_mem w m1)
    else
      let! h := load_hdr cf (s_mem w) p in
      if (tmp : bool) && is_dyn (h_alloc h) then
        let! (bb, w1) := create_buf w size_needed (h_alloc h) in
        let! hb := load_hdr cf (s_mem w1) bb in
        let! (bb2, w2) := if h_cap hb <? size_needed then Ok (bb, w1) else cat_append w1 bb args in
        let! v := strview_of_buf (s_mem w2) bb2 in
        let! (p3, w3) := assign_strview_to_buf w2 p v in
        let! w4 := destroy_buf w3 bb2 in
        Ok (p3, w4)
      else
        let! (p1, w1) := ensure w p size_needed in
        let! m2 := empty_buf (s_mem w1) p1 in
        let w2 := with_mem w1 m2 in
        let! h2 := load_hdr cf m2 p1 in
        if (is_dyn (h_alloc h2) || negb tmp) && negb (h_cap h2 <? size_needed)
        then cat_append w2 p1 args
        else Ok (p1, w2) in
  let! v := strview_of_buf (s_mem w') p' in
  Ok (v, p', w').

(** ** Public functions: "if(buf_ptr && *buf_ptr)" *)
(** As at strbuf.c:207 or 331. *)
Definition on_buf {T : Type} (bp : option ptr) (none : outcome T) (some : ptr -> outcome T) : outcome T :=
  match bp with
  | Some p => if is_null p then none else some p
  | None => none
  end.
(** What most functions of strbuf.c:141-554 do: the view returned, *buf_ptr, the state *)
Definition ret : Type := (view * option ptr * st)%type.

(** "return buf_ptr ? strview_of_buf( *buf_ptr) : STRVIEW_INVALID;" *)
(** strbuf.c:335, 415, 453 and the like; strview_of_buf is strbuf.c:575-584. *)
Definition ret_view (bp : option ptr) (w : st) : outcome ret :=
  match bp with
  | Some p => let! v := strview_of_buf (s_mem w) p in Ok (v, Some p, w)
  | None => Ok (INVALID, None, w)
  end.

(** strbuf.c:83-95 strbuf_create_empty; [dflt] is strbuf_default_allocator, initial_capacity a size_t *)
Definition strbuf_create_empty (w : st) (dflt : allocator) (initial_capacity : Z) (a : option allocator)
  : outcome (ptr * st) :=
  let al := match a with Some a => a | None => dflt end in
  if is_dyn al && (initial_capacity <=? INT_MAX) then create_buf w initial_capacity al else Ok (null, w).

(** strbuf.c:97-112 strbuf_create_init *)
Definition strbuf_create_init (w : st) (dflt : allocator) (content : view) (a : option allocator)
  : outcome (ptr * st) :=
  let al := match a with Some a => a | None => dflt end in
  if is_dyn al then
    let! (p, w1) := create_buf w (v_size content) al in
    insert_strview_into_buf w1 p 0 content
  else Ok (null, w).

(** strbuf.c:114-138 strbuf_create_fixed *)
Definition strbuf_create_fixed (m : mem) (a : ptr) (addr_size : Z) : outcome (ptr * mem) :=
  if (hdr_size cf <? addr_size) && negb (is_null a) then
    match addr m a with
    | None => UB UB_ptr
    | Some z =>
        if z mod c_ptrbytes cf =? 0 then
          let capacity := addr_size - hdr_size cf - 1 in
          let! m1 := store_hdr cf m a (Hdr 0 (if capacity <=? INT_MAX then capacity else INT_MAX) (Alloc 0 None)) in
          let! m2 := empty_buf m1 a in
          Ok (a, m2)
        else Ok (null, m)
    end
  else Ok (null, m).

(** strbuf.c:141-159 _strbuf_cat / strbuf_vcat *)
Definition strbuf_cat (w : st) (bp : option ptr) (args : list view) : outcome ret :=
  on_buf bp (Ok (INVALID, bp, w)) (fun p =>
    let! (v, p', w') := buffer_vcat w p args in Ok (v, Some p', w')).

(** strbuf.c:308-314 strbuf_view *)
Definition strbuf_view (w : st) (bp : option ptr) : outcome view :=
  on_buf bp (Ok INVALID) (fun p => strview_of_buf (s_mem w) p).

(** strbuf.c:316-325 strbuf_append_char *)
Definition strbuf_append_char (w : st) (bp : option ptr) (c : Z) : outcome ret :=
  on_buf bp (Ok (INVALID, bp, w)) (fun p =>
    let! (p', w') := append_char_to_buf w p c in ret_view (Some p') w').

(** strbuf.c:328-338 strbuf_shrink *)
Definition strbuf_shrink (w : st) (bp : option ptr) : outcome ret :=
  on_buf bp (Ok (INVALID, bp, w)) (fun p =>
    let! h := load_hdr cf (s_mem w) p in
    let! (p', w') := if is_dyn (h_alloc h) then change_buf_capacity w p (h_size h) else Ok (p, w) in
    ret_view (Some p') w').

(** strbuf.c:341-354 strbuf_grow *)
Definition strbuf_grow (w : st) (bp : option ptr) (min_size : Z) : outcome ret :=
  on_buf bp (Ok (INVALID, bp, w)) (fun p =>
    let! h := load_hdr cf (s_mem w) p in
    if is_dyn (h_alloc h) then
      let! (p', w') := if h_cap h <? min_size then change_buf_capacity w p min_size else Ok (p, w) in
      ret_view (Some p') w'
    else Ok (INVALID, bp, w)).

(** strbuf.c:356-364 strbuf_destroy *)
Definition strbuf_destroy (w : st) (bp : option ptr) : outcome (option ptr * st) :=
  match bp with
  | None => Ok (None, w)
  | Some p =>
      let! w' := if is_null p then Ok w
                 else let! d := buf_is_dynamic (s_mem w) p in
                      if (d : bool) then destroy_buf w p else Ok w in
      Ok (Some null, w')
  end.

(** strbuf.c:366-387 strbuf_to_cstr *)
Definition strbuf_to_cstr (w : st) (bp : option ptr) : outcome (ptr * option ptr * st) :=
  on_buf bp (Ok (null, bp, w)) (fun p =>
    let! h := load_hdr cf (s_mem w) p in
    let len := h_size h in
    let! (str, w1) :=
      if is_dyn (h_alloc h) then
        let! m1 := memmove cf (s_mem w) p (cstr_of p) len in
        alloc_call cf (with_mem w m1) (h_alloc h) p ((len + 1) mod 2 ^ (8 * c_ptrbytes cf))
      else Ok (cstr_of p, w) in
    let! q := padd cf (s_mem w1) str len in
    let! m2 := store_byte (s_mem w1) q 0 in
    Ok (str, Some null, with_mem w1 m2)).

(** strbuf.c:389-416 strbuf_assign *)
Definition strbuf_assign (w : st) (bp : option ptr) (str : view) : outcome ret :=
  on_buf bp (Ok (INVALID, bp, w)) (fun p =>
    let! (p1, w1, failed) :=
      if strview_is_valid str then
        let! (p1, w1) := ensure w p (v_size str) in
        let! h1 := load_hdr cf (s_mem w1) p1 in
        Ok (p1, w1, h_cap h1 <? v_size str)
      else Ok (p, w, true) in
    let! m3 :=
      if (failed : bool) then empty_buf (s_mem w1) p1
      else
        let! m1 := memmove cf (s_mem w1) (cstr_of p1) (v_data str) (v_size str) in
        let! m2 := set_size m1 p1 (v_size str) in
        set_char m2 p1 (v_size str) 0 in
    ret_view (Some p1) (with_mem w1 m3)).

(** strbuf.c:418-423 strbuf_append_strview *)
Definition strbuf_append_strview (w : st) (bp : option ptr) (str : view) : outcome ret :=
  on_buf bp (ret_view bp w) (fun p =>
    let! h := load_hdr cf (s_mem w) p in
    let! (p', w') := insert_strview_into_buf w p (h_size h) str in
    ret_view (Some p') w').

(** strbuf.c:425-428 strbuf_append_cstr *)
Definition strbuf_append_cstr (w : st) (bp : option ptr) (s : ptr) : outcome ret :=
  let! v := cstr (s_mem w) s in strbuf_append_strview w bp v.

(** strbuf.c:430-454 strbuf_append_using.  The callback is any function of the memory, the
    destination pointer and the space offered; it returns its int result and the memory. *)
Definition fetcher : Type := mem -> ptr -> Z -> outcome (Z * mem).
(** strbuf.c:430-454 strbuf_append_using *)
Definition strbuf_append_using (w : st) (bp : option ptr) (fetch : fetcher) : outcome ret :=
  on_buf bp (Ok (INVALID, bp, w)) (fun p =>
    let! h := load_hdr cf (s_mem w) p in
    let! available_space := isub cf (h_cap h) (h_size h) in
    let! dst := char_at (s_mem w) p (h_size h) in
    let! (n, m1) := fetch (s_mem w) dst available_space in
    if (n <? 0) || (available_space <? n) then
      let! m2 := empty_buf m1 p in Ok (INVALID, Some p, with_mem w m2)
    else
      let! h1 := load_hdr cf m1 p in
      let! size' := iadd cf (h_size h1) n in
      let! m2 := set_size m1 p size' in
      let! m3 := set_char m2 p size' 0 in
      ret_view (Some p) (with_mem w m3)).

(** strbuf.c:456-466 strbuf_prepend_strview, strbuf_prepend_cstr *)
Definition strbuf_prepend_strview (w : st) (bp : option ptr) (str : view) : outcome ret :=
  on_buf bp (ret_view bp w) (fun p =>
    let! (p', w') := insert_strview_into_buf w p 0 str in
    ret_view (Some p') w').
(** strbuf.c:463-466 *)
Definition strbuf_prepend_cstr (w : st) (bp : option ptr) (s : ptr) : outcome ret :=
  let! v := cstr (s_mem w) s in strbuf_prepend_strview w bp v.

(** strbuf.c:468-478 strbuf_insert_at_index_strview, strbuf_insert_at_index_cstr *)
Definition strbuf_insert_at_index_strview (w : st) (bp : option ptr) (index : Z) (str : view) : outcome ret :=
  on_buf bp (ret_view bp w) (fun p =>
    let! (p', w') := insert_strview_into_buf w p index str in
    ret_view (Some p') w').
(** strbuf.c:475-478 *)
Definition strbuf_insert_at_index_cstr (w : st) (bp : option ptr) (index : Z) (s : ptr) : outcome ret :=
  let! v := cstr (s_mem w) s in strbuf_insert_at_index_strview w bp index v.

(** strbuf.c:487-488, 510-511: if the pointer [d] lies in the contents (or at their end),
    insert there.  The ptrdiff_t index is converted to int. *)
Definition insert_at_ptr (w : st) (p : ptr) (d : ptr) (src : view) : outcome (ptr * st) :=
  let! a := ple cf (s_mem w) (cstr_of p) d in
  if (a : bool) then
    let! h := load_hdr cf (s_mem w) p in
    let! q := char_at (s_mem w) p (h_size h) in
    let! b := ple cf (s_mem w) d q in
    if (b : bool) then
      let! i := pdiff cf (s_mem w) d (cstr_of p) in
      insert_strview_into_buf w p (to_int i) src
    else Ok (p, w)
  else Ok (p, w).

(** strbuf.c:480-498 strbuf_insert_before_strview, strbuf_insert_before_cstr *)
Definition strbuf_insert_before_strview (w : st) (bp : option ptr) (dst src : view) : outcome ret :=
  on_buf bp (ret_view bp w) (fun p =>
    let! (p', w') := insert_at_ptr w p (v_data dst) src in
    ret_view (Some p') w').
(** strbuf.c:495-498 *)
Definition strbuf_insert_before_cstr (w : st) (bp : option ptr) (dst : view) (s : ptr) : outcome ret :=
  let! v := cstr (s_mem w) s in strbuf_insert_before_strview w bp dst v.

(** strbuf.c:500-521 strbuf_insert_after_strview, strbuf_insert_after_cstr *)
Definition strbuf_insert_after_strview (w : st) (bp : option ptr) (dst src : view) : outcome ret :=
  on_buf bp (ret_view bp w) (fun p =>
    if strview_is_valid dst then
      let! d := padd cf (s_mem w) (v_data dst) (v_size dst) in
      let! (p', w') := insert_at_ptr w p d src in
      ret_view (Some p') w'
    else ret_view bp w).
(** strbuf.c:518-521 *)
Definition strbuf_insert_after_cstr (w : st) (bp : option ptr) (dst : view) (s : ptr) : outcome ret :=
  let! v := cstr (s_mem w) s in strbuf_insert_after_strview w bp dst v.

(** strbuf.c:798-813 view_contains_char *)
Fixpoint contains_loop (m : mem) (p : ptr) (n : nat) (c : Z) : outcome bool :=
  match n with
  | O => Ok false
  | S n' => let! x := load_byte m p in
            let! q := padd cf m p 1 in
            if x =? c then Ok true else contains_loop m q n' c
  end.
(** strbuf.c:798-813 view_contains_char *)
Definition view_contains_char (m : mem) (v : view) (c : Z) : outcome bool :=
  if strview_is_valid v then contains_loop m (v_data v) (Z.to_nat (v_size v)) c else Ok false.

(** strbuf.c:534-545 the loop of strbuf_strip_strview *)
Fixpoint strip_loop (m : mem) (p q : ptr) (count : nat) (stripchars : view) : outcome mem :=
  match count with
  | O => Ok m
  | S n =>
      let! c := load_byte m q in
      let! b := view_contains_char m stripchars c in
      if (b : bool) then
        let! q1 := padd cf m q 1 in
        let! m1 := memmove cf m q q1 (Z.of_nat count) in
        let! h := load_hdr cf m1 p in
        let! s := isub cf (h_size h) 1 in
        let! m2 := set_size m1 p s in
        strip_loop m2 p q n stripchars
      else
        let! q1 := padd cf m q 1 in
        strip_loop m p q1 n stripchars
  end.

(** strbuf.c:523-554 strbuf_strip_strview, strbuf_strip_cstr *)
Definition strbuf_strip_strview (w : st) (bp : option ptr) (stripchars : view) : outcome ret :=
  on_buf bp (ret_view bp w) (fun p =>
    if strview_is_valid stripchars then
      let! h := load_hdr cf (s_mem w) p in
      let! m1 := strip_loop (s_mem w) p (cstr_of p) (Z.to_nat (h_size h)) stripchars in
      ret_view (Some p) (with_mem w m1)
    else ret_view bp w).
(** strbuf.c:551-554 *)
Definition strbuf_strip_cstr (w : st) (bp : option ptr) (s : ptr) : outcome ret :=
  let! v := cstr (s_mem w) s in strbuf_strip_strview w bp v.

(** ** Formatted output *)
(** The formatter is an oracle: the text it produces, or a failure. *)
(** The format and arguments of strbuf.c:212 and 225. *)
Inductive formatted : Type := FmtText (l : list Z) | FmtError.

(** stdio.h vsnprintf: the return value, and the memory after writing at most n-1
    characters and a NUL at [dst] (nothing if n is 0). *)
(** Called at strbuf.c:212 and 225. *)
Definition vsnprintf (m : mem) (dst : ptr) (n : Z) (r : formatted) : outcome (Z * mem) :=
  match r with
  | FmtError => Ok (-1, m)
  | FmtText l =>
      if n <=? 0 then Ok (Zlen l, m)
      else let k := Z.min (Zlen l) (n - 1) in
           let! m1 := store_cells m dst (k + 1) (fun i => if i <? k then CByte (nth (Z.to_nat i) l 0) else CByte 0) in
           Ok (Zlen l, m1)
  end.

(** strbuf.c:199-234 strbuf_append_vprintf (and strbuf.c:185-196 strbuf_append_printf).
    The same format and arguments are formatted twice; both calls give the same result. *)
Definition strbuf_append_vprintf (w : st) (bp : option ptr) (r : formatted) : outcome ret :=
  on_buf bp (Ok (INVALID, bp, w)) (fun p =>
    let! h := load_hdr cf (s_mem w) p in
    let size := h_size h in
    let! (append_size, _) := vsnprintf (s_mem w) null 0 r in
    let! failed := add_will_overflow_int size append_size in
    let! (p1, w1, failed1) :=
      if (failed : bool) then Ok (p, w, true)
      else
        let! size1 := iadd cf size append_size in
        let! (p1, w1) := ensure w p size1 in
        let! h1 := load_hdr cf (s_mem w1) p1 in
        Ok (p1, w1, h_cap h1 <? size1) in
    let! m3 :=
      if (failed1 : bool) then empty_buf (s_mem w1) p1
      else
        let! h1 := load_hdr cf (s_mem w1) p1 in
        let! dst := char_at (s_mem w1) p1 (h_size h1) in
        let! (n, m2) := vsnprintf (s_mem w1) dst (h_cap h1 - h_size h1 + 1) r in
        let! s := iadd cf (h_size h1) n in
        set_size m2 p1 s in
    ret_view (Some p1) (with_mem w1 m3)).

(** strbuf.c:174-183 strbuf_vprintf (and strbuf.c:161-172 strbuf_printf) *)
Definition strbuf_vprintf (w : st) (bp : option ptr) (r : formatted) : outcome ret :=
  on_buf bp (Ok (INVALID, bp, w)) (fun p =>
    let! m1 := empty_buf (s_mem w) p in
    strbuf_append_vprintf (with_mem w m1) bp r).

(** strbuf.c:816-819 char_handler_for_prnf called for every character of the text *)
Fixpoint emit (w : st) (p : ptr) (l : list Z) : outcome (ptr * st) :=
  match l with
  | [] => Ok (p, w)
  | c :: t => let! (p1, w1) := append_char_to_buf w p c in emit w1 p1 t
  end.

(** strbuf.c:251-270 strbuf_vprnf (and strbuf.c:238-249 strbuf_prnf); prnf emits the
    characters [l] and returns their number *)
Definition strbuf_vprnf (w : st) (bp : option ptr) (l : list Z) : outcome ret :=
  on_buf bp (Ok (INVALID, bp, w)) (fun p =>
    let! m1 := empty_buf (s_mem w) p in
    let! (p1, w1) := emit (with_mem w m1) p l in
    let! h1 := load_hdr cf (s_mem w1) p1 in
    let! m2 := if h_size h1 <? Zlen l then empty_buf (s_mem w1) p1 else Ok (s_mem w1) in
    ret_view (Some p1) (with_mem w1 m2)).

(** strbuf.c:285-304 strbuf_append_vprnf (and strbuf.c:272-283 strbuf_append_prnf) *)
Definition strbuf_append_vprnf (w : st) (bp : option ptr) (l : list Z) : outcome ret :=
  on_buf bp (Ok (INVALID, bp, w)) (fun p =>
    let! h := load_hdr cf (s_mem w) p in
    let! (p1, w1) := emit w p l in
    let! char_count := iadd cf (h_size h) (Zlen l) in
    let! h1 := load_hdr cf (s_mem w1) p1 in
    let! m2 := if (h_size h1 <? char_count) || (char_count <? 0) then empty_buf (s_mem w1) p1 else Ok (s_mem w1) in
    ret_view (Some p1) (with_mem w1 m2)).

(** strbuf.h:87-116 strbuf_space_t / STRBUF_STATIC_INIT / STRBUF_FIXED_CAP: an object holding
    an initialised header and capacity + 1 zero bytes (the members not named in the
    initialiser are zero) *)
Definition static_buf_block (base capacity : Z) : block :=
  Block base (hdr_size cf + capacity + 1) true Static
        (fun i => if i <? hdr_size cf then CHdr (Hdr 0 capacity (Alloc 0 None)) i else CByte 0).

End Cfg.
