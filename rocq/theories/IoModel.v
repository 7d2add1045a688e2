(** Model of accessories/strbuf_io.c and accessories/strview_io.c: reading from and writing
    to file descriptors.  What the system calls do is decided by the environment. *)
From Verif Require Import Base Mem Libc StrviewModel Alloc StrbufModel.

(** Decision of one read() call: an error, or the bytes ready to be delivered. *)
(** The environment of the call at strbuf_io.c:29. *)
Inductive rd : Type := RdError | RdBytes (l : list Z).
(** Decision of one write() call: an error, or how many bytes are accepted at most. *)
(** The environment of the calls at strbuf_io.c:50 and strview_io.c:25. *)
Inductive wr : Type := WrError | WrCount (k : Z).

Section Cfg.
Variable cf : cfg.

(** Conversion of an int argument to size_t *)
(** strbuf_io.c:29 and 50, strview_io.c:25: third argument. *)
Definition to_size (n : Z) : Z := n mod 2 ^ (8 * c_ptrbytes cf).

(** unistd.h read(fd, dst, n): stores at most n of the available bytes, returns their number
    or -1.  The ssize_t result is assigned to an int (it is at most n, an int here). *)
(** Called at strbuf_io.c:29. *)
Definition sys_read (m : mem) (dst : ptr) (n : Z) (r : rd) : outcome (Z * mem) :=
  match r with
  | RdError => Ok (-1, m)
  | RdBytes l =>
      let got := firstn (Z.to_nat n) l in
      if Zlen got =? 0 then Ok (0, m)
      else let! m1 := store_cells m dst (Zlen got) (fun i => CByte (nth (Z.to_nat i) got 0)) in
           Ok (Zlen got, m1)
  end.

(** unistd.h write(fd, src, n): transfers at most n bytes; the result is their number or -1,
    and the bytes transferred. *)
(** Called at strbuf_io.c:50 and strview_io.c:25. *)
Definition sys_write (m : mem) (src : ptr) (n : Z) (r : wr) : outcome (Z * list Z) :=
  match r with
  | WrError => Ok (-1, [])
  | WrCount k => let! l := load_bytes m src (Z.to_nat (Z.min k n)) in Ok (Zlen l, l)
  end.

(** strbuf_io.c:20-38 strbuf_append_read: return value, *buf_ptr, state *)
Definition strbuf_append_read (w : st) (bp : option ptr) (r : rd) : outcome (Z * option ptr * st) :=
  on_buf bp (Ok (0, bp, w)) (fun p =>
    let! h := load_hdr cf (s_mem w) p in
    let! dst := char_at cf (s_mem w) p (h_size h) in
    let! n := isub cf (h_cap h) (h_size h) in
    let! (retval, m1) := sys_read (s_mem w) dst (to_size n) r in
    if 0 <? retval then
      let! h1 := load_hdr cf m1 p in
      let! size' := iadd cf (h_size h1) retval in
      let! m2 := set_size cf m1 p size' in
      let! m3 := set_char cf m2 p size' 0 in
      Ok (retval, Some p, with_mem w m3)
    else Ok (retval, Some p, with_mem w m1)).

(** strbuf_io.c:40-62 strbuf_write: return value, bytes transferred, *buf_ptr, state *)
Definition strbuf_write (w : st) (bp : option ptr) (r : wr) : outcome (Z * list Z * option ptr * st) :=
  on_buf bp (Ok (0, [], bp, w)) (fun p =>
    let! h := load_hdr cf (s_mem w) p in
    let! (retval, out) := sys_write (s_mem w) (cstr_of cf p) (to_size (h_size h)) r in
    if 0 <? retval then
      let! v := strbuf_view cf w (Some p) in
      let! v1 := strview_sub cf (s_mem w) v retval INT_MAX in
      let! (_, bp1, w1) := strbuf_assign cf w (Some p) v1 in
      Ok (retval, out, bp1, w1)
    else Ok (retval, out, Some p, w)).

(** strview_io.c:19-31 strview_write: return value, bytes transferred, *src *)
Definition strview_write (m : mem) (src : option view) (r : wr) : outcome (Z * list Z * option view) :=
  match src with
  | None => Ok (0, [], None)
  | Some v =>
      if strview_is_valid v then
        let! (retval, out) := sys_write m (v_data v) (to_size (v_size v)) r in
        if 0 <? retval then
          let! v1 := strview_sub cf m v retval INT_MAX in
          Ok (retval, out, Some v1)
        else Ok (retval, out, Some v)
      else Ok (0, [], Some v)
  end.

End Cfg.
