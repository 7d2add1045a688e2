(** Model of accessories/strbuf_crypt/strbuf_crypt.c: AES-256-CBC with PKCS#7 padding on buffers.
    Simplification: key and ivec are arrays of the caller outside of the modelled memory. *)
From Verif Require Import Base Mem Libc StrviewModel Alloc StrbufModel PackModel AesModel.

Section Cfg.
Variable cf : cfg.

(** AES_BLOCK_SIZE, strbuf_crypt.c:21 *)
Definition AES_BLOCK_SIZE : Z := 16.
(** sizeof(aes256_ctx_t): 15 round keys (aes/aes_types.h:43-45) *)
Definition ctx_size : Z := 240.

(** Product of ints *)
(** Used at strbuf_crypt.c:97 and 147. *)
Definition imul (a b : Z) : outcome Z := int_res cf (a * b).

(** Several bytes stored one after the other: strbuf_crypt.c:103-108 (memxor), 131-133. *)
Definition store_list (m : mem) (p : ptr) (l : list Z) : outcome mem :=
  store_cells m p (Zlen l) (fun i => CByte (nth (Z.to_nat i) l 0)).

(** aes/memxor.c:5-11 memxor(dest, src, n) with src given by its bytes.
    Simplification: all bytes are read, then all are written. *)
Definition memxor (m : mem) (dest : ptr) (src : list Z) : outcome mem :=
  let! l := load_bytes m dest (length src) in store_list m dest (xor_bytes l src).

(** aes256_init(key, ctx) (aes/aes_keyschedule.c:101-103) on a context in memory.
    Simplification: the context is written at once (its previous contents have no influence,
    theorem C58). *)
Definition ctx_init (m : mem) (key : list Z) (ctx : ptr) : outcome mem :=
  store_list m ctx (aes256_init cf key (repeat 0 240)).
(** aes256_enc(buf, ctx), aes256_dec(buf, ctx) (aes/aes256_enc.c:31-33, aes/aes256_dec.c:31-33) *)
Definition ctx_enc (m : mem) (buf ctx : ptr) : outcome mem :=
  let! s := load_bytes m buf 16 in
  let! ks := load_bytes m ctx 240 in
  store_list m buf (aes256_enc s ks).
(** strbuf_crypt.c:132 aes256_dec(buf, ctx) *)
Definition ctx_dec (m : mem) (buf ctx : ptr) : outcome mem :=
  let! s := load_bytes m buf 16 in
  let! ks := load_bytes m ctx 240 in
  store_list m buf (aes256_dec s ks).

(** strbuf_crypt.c:144-148 cypher_size *)
Definition cypher_size (content_size : Z) : outcome Z :=
  let! block_count := iadd cf (Z.quot content_size AES_BLOCK_SIZE) 1 in
  imul block_count AES_BLOCK_SIZE.

(** strbuf_crypt.c:104-110: the loop of enc256cbc, [n] is block_count *)
Fixpoint enc_blocks (n : nat) (m : mem) (buf ctx : ptr) : outcome mem :=
  match n with
  | O => Ok m
  | S n' =>
      let! m1 := ctx_enc m buf ctx in
      let! nxt := padd cf m1 buf AES_BLOCK_SIZE in
      let! m2 := match n' with
                 | O => Ok m1
                 | S _ => let! src := load_bytes m1 buf 16 in memxor m1 nxt src
                 end in
      enc_blocks n' m2 nxt ctx
  end.

(** strbuf_crypt.c:94-112 enc256cbc: size of the output and memory.
    A negative block count (negative len) is not counted down to zero: undefined. *)
Definition enc256cbc (m : mem) (buf : ptr) (len : Z) (key ivec : list Z) (ctx : ptr) : outcome (Z * mem) :=
  let! block_count := iadd cf (Z.quot len AES_BLOCK_SIZE) 1 in
  let! out_len := imul block_count AES_BLOCK_SIZE in
  let! pad_len := isub cf out_len len in
  let! m1 := ctx_init m key ctx in
  let! q := padd cf m1 buf len in
  let! m2 := memset cf m1 q pad_len pad_len in
  let! m3 := memxor m2 buf ivec in
  if block_count <? 0 then UB UB_overflow
  else let! m4 := enc_blocks (Z.to_nat block_count) m3 buf ctx in
       Ok (out_len, m4).

(** strbuf_crypt.c:129-136: the loop of dec256cbc; this_xor is given by its bytes (buf1 and buf2
    are local arrays) *)
Fixpoint dec_blocks (n : nat) (m : mem) (buf ctx : ptr) (this_xor : list Z) : outcome (ptr * mem) :=
  match n with
  | O => Ok (buf, m)
  | S n' =>
      let! next_xor := load_bytes m buf 16 in
      let! m1 := ctx_dec m buf ctx in
      let! m2 := memxor m1 buf this_xor in
      let! buf' := padd cf m2 buf AES_BLOCK_SIZE in
      dec_blocks n' m2 buf' ctx next_xor
  end.

(** strbuf_crypt.c:117-142 dec256cbc *)
Definition dec256cbc (m : mem) (buf : ptr) (len : Z) (key ivec : list Z) (ctx : ptr) : outcome (Z * mem) :=
  let block_count := Z.quot len AES_BLOCK_SIZE in
  let! m1 := ctx_init m key ctx in
  if block_count <? 0 then UB UB_overflow
  else
    let! (buf', m2) := dec_blocks (Z.to_nat block_count) m1 buf ctx ivec in
    let! q := padd cf m2 buf' (-1) in
    let! pad_len := load_byte m2 q in
    let! out_len := isub cf len pad_len in
    Ok (out_len, m2).

(** strbuf_crypt.c:27 encdec_fptr_t *)
Definition encdec : Type := mem -> ptr -> Z -> list Z -> list Z -> ptr -> outcome (Z * mem).

(** An uninitialised local variable of [n] bytes at an address chosen by the compiler. *)
(** strbuf_crypt.c:87 aes256_ctx_t ctx, and 122-123 buf1, buf2. *)
Definition push_array (w : st) (base n : Z) : ptr * st :=
  let m := s_mem w in
  (Ptr (PBlk (length m)) 0,
   with_mem w (m ++ [Block (place cf m (Choice false false base) n) n true Static (fun _ => CUndef)])).

(** strbuf_crypt.c:85-89 encdec_with_ctx_on_stack; [base]: where the context is *)
Definition encdec_with_ctx_on_stack (f : encdec) (w : st) (base : Z) (buf : ptr) (len : Z) (key ivec : list Z) : outcome (Z * st) :=
  let (ctx, w1) := push_array w base ctx_size in
  let! (r, m2) := f (s_mem w1) buf len key ivec ctx in
  Ok (r, pop_local (with_mem w1 m2) ctx).

(** strbuf_crypt.c:57-83 strbuf_crypt: the view returned is always STRVIEW_INVALID *)
Definition strbuf_crypt (f : encdec) (w : st) (bp : option ptr) (base : Z) (key ivec : list Z) : outcome ret :=
  on_buf bp (Ok (INVALID, bp, w)) (fun p =>
    let! h := load_hdr cf (s_mem w) p in
    if is_dyn (h_alloc h) then
      let! n := cypher_size (h_size h) in
      let! (_, bp1, w1) := strbuf_grow cf w (Some p) n in
      let p1 := match bp1 with Some q => q | None => p end in
      let! h1 := load_hdr cf (s_mem w1) p1 in
      let! (ctx, w2) := alloc_call cf w1 (h_alloc h1) null ctx_size in
      let! (size', m3) := f (s_mem w2) (cstr_of cf p1) (h_size h1) key ivec ctx in
      let! m4 := set_size cf m3 p1 size' in
      let! h4 := load_hdr cf m4 p1 in
      let! (_, w5) := alloc_call cf (with_mem w2 m4) (h_alloc h4) ctx 0 in
      let! h5 := load_hdr cf (s_mem w5) p1 in
      let! m6 := set_char cf (s_mem w5) p1 (h_size h5) 0 in
      Ok (INVALID, Some p1, with_mem w5 m6)
    else
      let! n := cypher_size (h_size h) in
      if n <=? h_cap h then
        let! (size', w1) := encdec_with_ctx_on_stack f w base (cstr_of cf p) (h_size h) key ivec in
        let! m2 := set_size cf (s_mem w1) p size' in
        let! h2 := load_hdr cf m2 p in
        let! m3 := set_char cf m2 p (h_size h2) 0 in
        Ok (INVALID, Some p, with_mem w1 m3)
      else Ok (INVALID, Some p, w)).

(** strbuf_crypt.c:43-51 strbuf_encrypt, strbuf_decrypt *)
Definition strbuf_encrypt : st -> option ptr -> Z -> list Z -> list Z -> outcome ret := strbuf_crypt enc256cbc.
(** strbuf_crypt.c:48-51 strbuf_decrypt *)
Definition strbuf_decrypt : st -> option ptr -> Z -> list Z -> list Z -> outcome ret := strbuf_crypt dec256cbc.

End Cfg.
