(** Tables of numbers and texts written into a buffer, one row per line, and read again: programs over strbuf.h, prnf.h,
    strview.h and strnum.h.  The programs are users' code: every call is a call of the modelled library. *)
From Verif Require Import Base Mem Libc StrviewModel StrnumModel Spec NumSpec Alloc StrbufModel BufSpec HistSpec PrnfModel PrnfSpec PrnfBufModel HistSpec2.
Local Open Scope Z_scope.

(** A cell of a table: a number, or a text (the view [v] of the characters [t]). *)
Inductive cell : Type := Num (x : Z) | Word (v : view) (t : list Z).

(** ** Writing *)
Section Write.
Context {D : Type}.
(** A number is printed by strbuf_append_prnf(&buf, "%lld", x); a text is put between double quotes:
    strbuf_append_char(&buf, '"'); strbuf_append(&buf, text); strbuf_append_char(&buf, '"') *)
Definition lld : conv := Conv [] WNone PNone Lll.
Definition lld_fmt : ptr := Ptr (PLit [37; 108; 108; 100; 0]) 0.
Definition put_cell (j : nat) (c : cell) : list (xop D) :=
  match c with
  | Num x => [XAppendPrnf j lld_fmt [PItem (Dec false lld x)]]
  | Word v t => [XOp (OChar j 34); XOp (OAppend j (SText v t)); XOp (OChar j 34)]
  end.
(** strbuf_append_char(&buf, d) between cells, strbuf_append_char(&buf, '\n') after a row *)
Fixpoint put_row (j : nat) (d : Z) (r : list cell) : list (xop D) :=
  match r with
  | [] => [XOp (OChar j 10)]
  | [c] => put_cell j c ++ [XOp (OChar j 10)]
  | c :: r' => put_cell j c ++ XOp (OChar j d) :: put_row j d r'
  end.
(** The buffer is emptied first, by assigning an invalid view. *)
Definition put_table (j : nat) (d : Z) (rows : list (list cell)) : list (xop D) :=
  XOp (OAssign j SNone) :: concat (map (put_row j d) rows).
End Write.

(** ** Reading *)
Inductive kind : Type := KNum | KWord.
Inductive got : Type := GotNum (x : option Z) | GotWord (t : option (list Z)).

Section Read.
Variable cf : cfg.
(** strnum_value(&x, &field, 0) with a long long x, None if it fails; or the characters of strview_dequote(field) *)
Definition get_cell (m : mem) (k : kind) (field : view) : outcome got :=
  match k with
  | KNum => let! p := strnum_consume_llong cf m true (Some field) 0 in Ok (GotNum (pr_dst p))
  | KWord => let! v := strview_dequote cf m field in let! t := read_view m v in Ok (GotWord t)
  end.
(** field = strview_split_first_delim(&line, delims, true) for each expected cell; the line afterwards *)
Fixpoint get_row (m : mem) (delims : ptr) (ks : list kind) (line : view) : outcome (list got * view) :=
  match ks with
  | [] => Ok ([], line)
  | k :: ks' =>
      let! (field, line') := strview_split_first_delim cf m (Some line) delims true in
      match line' with
      | None => UB UB_null
      | Some line' =>
          let! x := get_cell m k field in
          let! (xs, rest) := get_row m delims ks' line' in Ok (x :: xs, rest)
      end
  end.
(** line = strview_split_line(&src, &eol) for each expected row; whether every row was read to its end, and the
    source afterwards *)
Fixpoint get_rows (m : mem) (delims : ptr) (kss : list (list kind)) (src : view) (eol : Z) : outcome (list (list got * bool) * view) :=
  match kss with
  | [] => Ok ([], src)
  | ks :: kss' =>
      let! (line, src', eol') := strview_split_line cf m (Some src) (Some eol) in
      match src', eol' with
      | Some src', Some eol' =>
          let! (xs, rest) := get_row m delims ks line in
          let! (rows, last) := get_rows m delims kss' src' eol' in
          Ok ((xs, negb (strview_is_valid rest)) :: rows, last)
      | _, _ => UB UB_null
      end
  end.
Definition get_table (w : st) (p : ptr) (delims : ptr) (kss : list (list kind)) : outcome (list (list got * bool) * view) :=
  let! v := strbuf_view cf w (Some p) in get_rows (s_mem w) delims kss v 0.
End Read.

(** ** Meaning *)
Definition cell_text (c : cell) : list Z := match c with Num x => show_signed 10 x | Word _ t => 34 :: t ++ [34] end.
Fixpoint row_text (d : Z) (r : list cell) : list Z :=
  match r with
  | [] => []
  | [c] => cell_text c
  | c :: r' => cell_text c ++ d :: row_text d r'
  end.
Definition table_text (d : Z) (rows : list (list cell)) : list Z := concat (map (fun r => row_text d r ++ [10]) rows).

Definition kind_of (c : cell) : kind := match c with Num _ => KNum | Word _ _ => KWord end.
Definition value_of (c : cell) : got := match c with Num x => GotNum (Some x) | Word _ t => GotWord (Some t) end.

(** Numbers are of type long long (without LLONG_MIN if negating it is undefined); texts are among the texts of the
    program and contain neither double quotes nor line ends. *)
Definition cell_ok (cf : cfg) (T : texts) (c : cell) : Prop :=
  match c with
  | Num x => LLONG_MIN <= x <= LLONG_MAX /\ (c_wrapv cf = true \/ x <> LLONG_MIN)
  | Word v t => T v t /\ ~ In 34 t /\ ~ In 10 t /\ ~ In 13 t
  end.
(** The character between the cells: no character of a number, no quote, no line end. *)
Definition delim_ok (d : Z) : Prop := is_byte d /\ d <> 0 /\ d <> 10 /\ d <> 13 /\ d <> 34 /\ d <> 45 /\ ~ (48 <= d <= 57).
