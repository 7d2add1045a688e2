(** The code fragments that the documentation recommends (docs/*.md, README.md, comments of strview.h)
    as programs over the modelled functions.  The C strings of the fragments are arbitrary here. *)
From Verif Require Import Base Mem Libc StrviewModel Alloc StrbufModel.
Local Open Scope Z_scope.

Section Docs.
Variable cf : cfg.

(** docs/strview-api.md:179-183: "year = strview_split_first_delim(&date, ...); month = ..." repeated while the
    source is valid (it becomes invalid when no delimiter is found); [fuel] bounds the repetitions of the model. *)
Fixpoint each_field (fuel : nat) (m : mem) (src : view) (delims : ptr) (exq : bool) : outcome (list view * view) :=
  if strview_is_valid src then
    match fuel with
    | O => Fuel
    | S n =>
        let! (f, src') := strview_split_first_delim cf m (Some src) delims exq in
        match src' with
        | Some s => let! (fs, last) := each_field n m s delims exq in Ok (f :: fs, last)
        | None => UB UB_null
        end
    end
  else Ok ([], src).

(** strview.h:227-229, 630-632, 649-651: find a text and split next to it; the source after the split. *)
Definition find_split_right (m : mem) (hay needle : view) : outcome (view * option view) :=
  let! pos := strview_find_first cf m hay needle in strview_split_right cf m (Some hay) pos.
(** strview.h:227-229, 630-632: the same, with strview_split_left *)
Definition find_split_left (m : mem) (hay needle : view) : outcome (view * option view) :=
  let! pos := strview_find_first cf m hay needle in strview_split_left cf m (Some hay) pos.
(** strview.h:267-269: the same with the last occurrence *)
Definition find_last_split_right (m : mem) (hay needle : view) : outcome (view * option view) :=
  let! pos := strview_find_last cf m hay needle in strview_split_right cf m (Some hay) pos.

(** docs/strbuf-api.md:222: strbuf_assign(&buf, strview_trim(strbuf_view(&buf), cstr(" "))) *)
Definition trim_in_place (w : st) (bp : option ptr) (chars : view) : outcome ret :=
  let! v := strbuf_view cf w bp in
  let! t := strview_trim cf (s_mem w) v chars in
  strbuf_assign cf w bp t.

(** docs/strbuf-api.md:219-220: "allows a buffers contents to be cropped" *)
Definition crop_in_place (w : st) (bp : option ptr) (b e : Z) : outcome ret :=
  let! v := strbuf_view cf w bp in
  let! t := strview_sub cf (s_mem w) v b e in
  strbuf_assign cf w bp t.

(** docs/strbuf-api.md:136-137: strbuf_insert_at_index(&mybuf, i, strbuf_view(&mybuf)) *)
Definition insert_itself (w : st) (bp : option ptr) (i : Z) : outcome ret :=
  let! v := strbuf_view cf w bp in strbuf_insert_at_index_strview cf w bp i v.

(** docs/strview-api.md:146: the result of strview_find_first as a position for strbuf.h functions *)
Definition insert_after_found (w : st) (bp : option ptr) (needle src : view) : outcome ret :=
  let! v := strbuf_view cf w bp in
  let! pos := strview_find_first cf (s_mem w) v needle in
  strbuf_insert_after_strview cf w bp pos src.
(** docs/strview-api.md:146: the same, with strbuf_insert_before (strbuf.c:480-493) *)
Definition insert_before_found (w : st) (bp : option ptr) (needle src : view) : outcome ret :=
  let! v := strbuf_view cf w bp in
  let! pos := strview_find_first cf (s_mem w) v needle in
  strbuf_insert_before_strview cf w bp pos src.

(** README.md:169: concatenate a chunk of packet data, identify the header bytes, drop the junk before them *)
Definition receive (w : st) (bp : option ptr) (chunk header : view) : outcome ret :=
  let! (v, bp1, w1) := strbuf_append_strview cf w bp chunk in
  let! pos := strview_find_first cf (s_mem w1) v header in
  let! (junk, rest) := strview_split_left cf (s_mem w1) (Some v) pos in
  match rest with
  | Some r => if strview_is_valid junk then strbuf_assign cf w1 bp1 r else Ok (v, bp1, w1)
  | None => UB UB_null
  end.

(** README.md:102-108: a view as an argument of a function [use] that needs a C string
    (open() in the text: it reads the string and does not change memory) *)
Definition with_c_string {T : Type} (w : st) (dflt : allocator) (v : view) (use : mem -> ptr -> outcome T) : outcome (T * st) :=
  let! (p, w1) := strbuf_create_init cf w dflt v None in
  let! r := use (s_mem w1) (cstr_of cf p) in
  let! (_, w2) := strbuf_destroy cf w1 (Some p) in
  Ok (r, w2).
End Docs.
