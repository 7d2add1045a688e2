(** Model of strbuf_prnf and strbuf_append_prnf (/repo/strbuf.c) on top of prnf with
    PRNF_SUPPORT_EXTENSIONS defined (PrnfExtModel.v). *)
From Verif Require Import Base Mem StrviewModel Alloc StrbufModel PrnfModel PrnfBufModel PrnfExtModel.

Section Cfg.
Variable cf : cfg.
Variable A : fops.
(** prnf_conf.h:25-30 the allocator that prnf_free() belongs to *)
Variable heap : allocator.

(** strbuf.c:251-270 strbuf_vprnf (and strbuf.c:238-249 strbuf_prnf) *)
Definition strbuf_prnf_n (w : st) (bp : option ptr) (fmt : ptr) (va : list (arg (dbl A))) : outcome ret :=
  on_buf bp (Ok (INVALID, bp, w)) (fun p =>
    let! m1 := empty_buf cf (s_mem w) p in
    let! (char_count, (p1, w1)) := vfptrprnf_n cf A hst h_mem h_set heap (Some (char_handler_for_prnf cf)) (p, with_mem w m1) fmt va in
    let! h1 := load_hdr cf (s_mem w1) p1 in
    let! m2 := if h_size h1 <? char_count then empty_buf cf (s_mem w1) p1 else Ok (s_mem w1) in
    ret_view cf (Some p1) (with_mem w1 m2)).

(** strbuf.c:285-304 strbuf_append_vprnf (and strbuf.c:272-283 strbuf_append_prnf) *)
Definition strbuf_append_prnf_n (w : st) (bp : option ptr) (fmt : ptr) (va : list (arg (dbl A))) : outcome ret :=
  on_buf bp (Ok (INVALID, bp, w)) (fun p =>
    let! h := load_hdr cf (s_mem w) p in
    let! (n, (p1, w1)) := vfptrprnf_n cf A hst h_mem h_set heap (Some (char_handler_for_prnf cf)) (p, w) fmt va in
    let! char_count := iadd cf (h_size h) n in
    let! h1 := load_hdr cf (s_mem w1) p1 in
    let! m2 := if (h_size h1 <? char_count) || (char_count <? 0) then empty_buf cf (s_mem w1) p1 else Ok (s_mem w1) in
    ret_view cf (Some p1) (with_mem w1 m2)).
End Cfg.
