(** Model of two programs which receive lines through a buffer: the loop of the test suite, which appends one character
    at a time, and the same loop around the file descriptor accessory, which appends whatever has arrived. *)
From Verif Require Import Base Mem Libc StrviewModel Spec Alloc StrbufModel IoModel.

Section Cfg.
Variable cf : cfg.

(** What the program does with a line it has got: it looks at its characters, before the buffer changes
    (test.c:1252 compares them, docs/strview-api.md:248-251). *)
Definition text_of (m : mem) (v : view) : outcome (list Z) := load_bytes m (v_data v) (Z.to_nat (v_size v)).
(** test.c:1252, for every line that was split off *)
Fixpoint texts_of (m : mem) (vs : list view) : outcome (list (list Z)) :=
  match vs with
  | [] => Ok []
  | v :: t => let! l := text_of m v in let! ls := texts_of m t in Ok (l :: ls)
  end.

(** test.c:1243-1254 TEST_LINE_POP, one turn of its while loop: append a character, view the buffer, try to split off a
    line; if there was one, keep only the rest in the buffer.  Result: the line if there was one, *eol, buf, state. *)
Definition type_char (w : st) (bp : option ptr) (e : Z) (c : Z) : outcome (list (list Z) * Z * option ptr * st) :=
  let! (_, bp1, w1) := strbuf_append_char cf w bp c in
  let! str1 := strbuf_view cf w1 bp1 in
  let! (str2, str1', e') := strview_split_line cf (s_mem w1) (Some str1) (Some e) in
  match str1', e' with
  | Some s1, Some e1 =>
      if strview_is_valid str2 then
        let! l := text_of (s_mem w1) str2 in
        let! (_, bp2, w2) := strbuf_assign cf w1 bp1 s1 in
        Ok ([l], e1, bp2, w2)
      else Ok ([], e1, bp1, w1)
  | _, _ => UB UB_null
  end.

(** test.c:1318-1343: the macro again and again, until the text ends *)
Fixpoint type_chars (w : st) (bp : option ptr) (e : Z) (cs : list Z) : outcome (list (list Z) * Z * option ptr * st) :=
  match cs with
  | [] => Ok ([], e, bp, w)
  | c :: t =>
      let! (ls, e1, bp1, w1) := type_char w bp e c in
      let! (ls', e2, bp2, w2) := type_chars w1 bp1 e1 t in
      Ok (ls ++ ls', e2, bp2, w2)
  end.

(** The same with strbuf_append_read() (strbuf_io.c:20-38) in the place of strbuf_append_char(): as several lines may have
    arrived, all of them are split off ([pop_all], Spec.v: the view and *eol of before the last, failing, call are kept)
    before the rest is assigned.  Result: what read() returned, the lines, *eol, buf, state. *)
Definition receive (w : st) (bp : option ptr) (e : Z) (r : rd) : outcome (Z * list (list Z) * Z * option ptr * st) :=
  let! (n, bp1, w1) := strbuf_append_read cf w bp r in
  let! v := strbuf_view cf w1 bp1 in
  let! (vs, rest, e1) := pop_all cf (S (Z.to_nat (v_size v))) (s_mem w1) v e in
  let! ls := texts_of (s_mem w1) vs in
  let! (_, bp2, w2) := strbuf_assign cf w1 bp1 rest in
  Ok (n, ls, e1, bp2, w2).

(** A file of which [file] is still to come.  At every turn the environment decides that the call fails ([None]) or
    that at most [k] bytes are ready ([Some k]); a read takes what it delivers out of the file.
    Result: the lines, *eol, buf, state, what is still to come. *)
(** test.c:1318-1343 is the same loop around strbuf_append_char; here around strbuf_append_read (strbuf_io.c:20-38). *)
Fixpoint serve (w : st) (bp : option ptr) (e : Z) (file : list Z) (evs : list (option nat))
  : outcome (list (list Z) * Z * option ptr * st * list Z) :=
  match evs with
  | [] => Ok ([], e, bp, w, file)
  | ev :: t =>
      let r := match ev with None => RdError | Some k => RdBytes (firstn k file) end in
      let! (n, ls, e1, bp1, w1) := receive w bp e r in
      let! (ls', e2, bp2, w2, file') := serve w1 bp1 e1 (skipn (Z.to_nat n) file) t in
      Ok (ls ++ ls', e2, bp2, w2, file')
  end.
End Cfg.
