(** Model of strbuf_prnf and strbuf_append_prnf on a format string and its arguments
    (StrbufModel takes the characters emitted by prnf instead). *)
From Verif Require Import Base Mem StrviewModel Alloc StrbufModel PrnfModel.

Section Cfg.
Variable cf : cfg.
Variable A : fops.

(** State while prnf runs: the local variable buf of the caller, and the world. *)
(** strbuf.c:253-268 (strbuf_vprnf): &buf is what the handler gets. *)
Definition hst : Type := (ptr * st)%type.
(** The memory of that state; no counterpart in /repo (strbuf.c:815-820 is the code that runs in it). *)
Definition h_mem (s : hst) : mem := s_mem (snd s).
(** That state with another memory; no counterpart in /repo. *)
Definition h_set (s : hst) (m : mem) : hst := (fst s, with_mem (snd s) m).

(** strbuf.c:816-819 char_handler_for_prnf *)
Definition char_handler_for_prnf (s : hst) (c : Z) : outcome hst := append_char_to_buf cf (snd s) (fst s) c.

(** strbuf.c:251-270 strbuf_vprnf (and strbuf.c:238-249 strbuf_prnf) *)
Definition strbuf_prnf (w : st) (bp : option ptr) (fmt : ptr) (va : list (arg (dbl A))) : outcome ret :=
  on_buf bp (Ok (INVALID, bp, w)) (fun p =>
    let! m1 := empty_buf cf (s_mem w) p in
    let! (char_count, (p1, w1)) := vfptrprnf cf A hst h_mem h_set (Some char_handler_for_prnf) (p, with_mem w m1) fmt va in
    let! h1 := load_hdr cf (s_mem w1) p1 in
    let! m2 := if h_size h1 <? char_count then empty_buf cf (s_mem w1) p1 else Ok (s_mem w1) in
    ret_view cf (Some p1) (with_mem w1 m2)).

(** strbuf.c:285-304 strbuf_append_vprnf (and strbuf.c:272-283 strbuf_append_prnf) *)
Definition strbuf_append_prnf (w : st) (bp : option ptr) (fmt : ptr) (va : list (arg (dbl A))) : outcome ret :=
  on_buf bp (Ok (INVALID, bp, w)) (fun p =>
    let! h := load_hdr cf (s_mem w) p in
    let! (n, (p1, w1)) := vfptrprnf cf A hst h_mem h_set (Some char_handler_for_prnf) (p, w) fmt va in
    let! char_count := iadd cf (h_size h) n in
    let! h1 := load_hdr cf (s_mem w1) p1 in
    let! m2 := if (h_size h1 <? char_count) || (char_count <? 0) then empty_buf cf (s_mem w1) p1 else Ok (s_mem w1) in
    ret_view cf (Some p1) (with_mem w1 m2)).

End Cfg.
