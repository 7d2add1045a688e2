(** Programs using any number of buffers together with the accessories: packing and unpacking
    of integers, file descriptors, encryption and prnf formats.  Extends HistSpec. *)
From Verif Require Import Base Mem Libc StrviewModel Spec Alloc StrbufModel BufSpec HistSpec IoModel IoSpec PackModel PackSpec
  AesSpec CryptModel CryptSpec PrnfModel PrnfSpec PrnfSpec2 PrnfBufModel.

(** ** Programs *)
(** A part of a format with its argument: as in PrnfSpec, or %s with the characters of the
    buffer in variable [k] as the argument. *)
Inductive part (D : Type) : Type := PItem (i : item D) | PBuf (c : conv) (k : nat).
Arguments PItem {D} i.
Arguments PBuf {D} c k.

Inductive xop (D : Type) : Type :=
| XOp (o : op)
| XPack (j : nat) (e : order) (base : Z) (t : ity) (x : Z)
| XUnpack (j : nat) (b : Z) (e : order) (t : ity)
| XRead (j : nat) (r : rd) | XWrite (j : nat) (r : wr)
| XEncrypt (j : nat) (base : Z) (key iv : list Z) | XDecrypt (j : nat) (base : Z) (key iv : list Z)
| XPrnf (j : nat) (fmt : ptr) (ps : list (part D)) | XAppendPrnf (j : nat) (fmt : ptr) (ps : list (part D)).
Arguments XOp {D} o.
Arguments XPack {D} j e base t x.
Arguments XUnpack {D} j b e t.
Arguments XRead {D} j r.
Arguments XWrite {D} j r.
Arguments XEncrypt {D} j base key iv.
Arguments XDecrypt {D} j base key iv.
Arguments XPrnf {D} j fmt ps.
Arguments XAppendPrnf {D} j fmt ps.

(** What the caller sees of a call: the text of the returned view (None: invalid), a number,
    a number and the bytes that were written, or nothing. *)
Inductive seen : Type := SawText (t : option (list Z)) | SawInt (x : Z) | SawSent (n : Z) (l : list Z) | SawNothing.

(** ** Execution in the model *)
Section Exec.
Variable cf : cfg.
Variable A : fops.

(** The argument given for %s. *)
Definition item_of (vars : list ptr) (q : part (dbl A)) : item (dbl A) :=
  match q with PItem i => i | PBuf c k => Str false c (cstr_of cf (var vars k)) [] end.

Definition look (r : outcome (view * list ptr * st)) : outcome (seen * list ptr * st) :=
  let! (v, vars, w) := r in let! x := read_view (s_mem w) v in Ok (SawText x, vars, w).
Definition keep_var (vars : list ptr) (j : nat) (p : option ptr) : list ptr :=
  match p with Some p => upd vars j p | None => vars end.

Definition xexec (vars : list ptr) (w : st) (o : xop (dbl A)) : outcome (seen * list ptr * st) :=
  match o with
  | XOp o => look (exec cf vars w o)
  | XPack j e base t x => let! (p, w') := STRBUF_PACK cf e w (Some (var vars j)) base t x in Ok (SawNothing, keep_var vars j p, w')
  | XUnpack j b e t =>
      let! v := strbuf_view cf w (Some (var vars j)) in
      let! v1 := strview_sub cf (s_mem w) v b INT_MAX in
      let! (x, _) := STRVIEW_UNPACK cf e (s_mem w) t v1 in Ok (SawInt x, vars, w)
  | XRead j r => let! (n, p, w') := strbuf_append_read cf w (Some (var vars j)) r in Ok (SawInt n, keep_var vars j p, w')
  | XWrite j r => let! (n, l, p, w') := strbuf_write cf w (Some (var vars j)) r in Ok (SawSent n l, keep_var vars j p, w')
  | XEncrypt j base key iv => look (call vars j (strbuf_encrypt cf w (Some (var vars j)) base key iv))
  | XDecrypt j base key iv => look (call vars j (strbuf_decrypt cf w (Some (var vars j)) base key iv))
  | XPrnf j fmt ps => look (call vars j (strbuf_prnf cf A w (Some (var vars j)) fmt (arguments cf (map (item_of vars) ps))))
  | XAppendPrnf j fmt ps => look (call vars j (strbuf_append_prnf cf A w (Some (var vars j)) fmt (arguments cf (map (item_of vars) ps))))
  end.

Fixpoint xrun (vars : list ptr) (w : st) (prog : list (xop (dbl A))) : outcome (list seen * list ptr * st) :=
  match prog with
  | [] => Ok ([], vars, w)
  | o :: t =>
      let! (x, vars', w') := xexec vars w o in
      let! (xs, vars2, w2) := xrun vars' w' t in
      Ok (x :: xs, vars2, w2)
  end.

(** ** Meaning *)
(** The integer with these bytes: base 256, least or most significant first, two's complement. *)
Fixpoint base256 (l : list Z) : Z := match l with [] => 0 | b :: t => b + 256 * base256 t end.
Definition decode (e : order) (t : ity) (l : list Z) : Z :=
  let n := base256 (match e with LE => l | BE => rev l end) in
  if i_signed t && (2 ^ (bits_of t - 1) <=? n) then n - 2 ^ bits_of t else n.

(** The item a part stands for. *)
Definition item_meant (a : list slot) (q : part (dbl A)) : item (dbl A) :=
  match q with PItem i => i | PBuf c k => Str false c null (data_of (slot_of a k)) end.
Definition wanted (a : list slot) (ps : list (part (dbl A))) : list Z := plain cf (map (item_meant a) ps).

(** Is there room for the padded text? *)
Definition roomy (B : buffer) : bool := dyn B || (padded_size (Zlen (bf_data B)) <=? bf_cap B).

Definition xbuf_step (a : list slot) (B : buffer) (o : xop (dbl A)) : buffer :=
  match o with
  | XOp o => buf_step cf a B o
  | XPack _ e _ t x => put cf B (bf_data B ++ wire e t x)
  | XUnpack _ _ _ _ => B
  | XRead _ r => Buffer (bf_data B ++ delivered (bf_cap B - Zlen (bf_data B)) r) (bf_cap B) (bf_alloc B)
  | XWrite _ r => Buffer (left_over (bf_data B) r) (bf_cap B) (bf_alloc B)
  | XEncrypt _ _ key iv => if roomy B then Buffer (aes_cbc key iv (bf_data B)) (crypt_cap B) (bf_alloc B) else B
  | XDecrypt _ _ key iv =>
      if roomy B then
        let P := aes_cbc_plain key iv (bf_data B) in
        Buffer (unpad_with (last P 0) (P ++ skipn (length P) (bf_data B))) (crypt_cap B) (bf_alloc B)
      else B
  | XPrnf _ _ ps => put_all cf B (wanted a ps)
  | XAppendPrnf _ _ ps => put_all cf B (bf_data B ++ wanted a ps)
  end.

Definition xseen (a : list slot) (B : buffer) (o : xop (dbl A)) : seen :=
  match o with
  | XOp o => SawText (fst (astep cf a o))
  | XPack _ _ _ _ _ => SawNothing
  | XUnpack _ b e t => SawInt (decode e t (firstn (Z.to_nat (bits_of t / 8)) (skipn (Z.to_nat b) (bf_data B))))
  | XRead _ r => SawInt (rd_result r (delivered (bf_cap B - Zlen (bf_data B)) r))
  | XWrite _ r => SawSent (wr_result r (taken (bf_data B) r)) (taken (bf_data B) r)
  | XEncrypt _ _ _ _ | XDecrypt _ _ _ _ => SawText None
  | XPrnf _ _ _ | XAppendPrnf _ _ _ => SawText (Some (bf_data (xbuf_step a B o)))
  end.

Definition xtarget (o : xop (dbl A)) : nat :=
  match o with
  | XOp o => target o
  | XPack j _ _ _ _ | XUnpack j _ _ _ | XRead j _ | XWrite j _ | XEncrypt j _ _ _ | XDecrypt j _ _ _ | XPrnf j _ _ | XAppendPrnf j _ _ => j
  end.

Definition xstep (a : list slot) (o : xop (dbl A)) : seen * list slot :=
  match o with
  | XOp o => let (x, a') := astep cf a o in (SawText x, a')
  | _ => match slot_of a (xtarget o) with
         | ABuf B => (xseen a B o, upd a (xtarget o) (ABuf (xbuf_step a B o)))
         | _ => (SawNothing, a)
         end
  end.
Fixpoint xarun (a : list slot) (prog : list (xop (dbl A))) : list seen * list slot :=
  match prog with
  | [] => ([], a)
  | o :: t => let (x, a1) := xstep a o in let (xs, a2) := xarun a1 t in (x :: xs, a2)
  end.

(** ** Correct use *)
(** A C string: a string literal, or characters with their terminator among the texts. *)
Definition placed (T : texts) (p : ptr) (l : list Z) : Prop :=
  (p = Ptr (PLit (l ++ [0])) 0 /\ Zlen l < INT_MAX) \/ T (View p (Zlen l + 1)) (l ++ [0]).
Definition part_legal (T : texts) (a : list slot) (j : nat) (q : part (dbl A)) : Prop :=
  match q with
  | PItem (Str _ _ p l) => (p = null /\ l = []) \/ (placed T p l /\ Forall is_byte l /\ ~ In 0 l)
  | PItem _ => True
  | PBuf c k => k <> j /\ exists B, slot_of a k = ABuf B /\ ~ In 0 (bf_data B)
  end.
(** The format string is the one written for these items, no floating point; strings do not
    contain NUL; the printed text is shorter than INT_MAX. *)
Definition parts_legal (T : texts) (a : list slot) (j : nat) (fmt : ptr) (ps : list (part (dbl A))) : Prop :=
  placed T fmt (format (map (item_meant a) ps)) /\ Forall (part_legal T a j) ps /\
  plain_items cf (map (item_meant a) ps) /\ Zlen (wanted a ps) < INT_MAX.

Definition octets (n : nat) (l : list Z) : Prop := length l = n /\ Forall is_byte l.

Definition xbuf_legal (T : texts) (a : list slot) (B : buffer) (o : xop (dbl A)) : Prop :=
  match o with
  | XOp _ => True
  | XPack _ e _ t x => sums_ok cf (Zlen (bf_data B) + Zlen (wire e t x))
  | XUnpack _ b _ t => 0 <= b /\ b + bits_of t / 8 <= Zlen (bf_data B)
  | XRead _ r => match r with RdBytes l => Forall is_byte l | RdError => True end
  | XWrite _ _ => True
  | XEncrypt _ _ key iv => c_big_endian cf = false /\ octets 32 key /\ octets 16 iv /\ Zlen (bf_data B) < 2147483632
  | XDecrypt _ _ key iv => c_big_endian cf = false /\ octets 32 key /\ octets 16 iv /\ 16 <= Zlen (bf_data B) < 2147483632 /\
      last (aes_cbc_plain key iv (bf_data B)) 0 <= Zlen (bf_data B)
  | XPrnf j fmt ps => parts_legal T a j fmt ps /\ sums_ok cf (Zlen (wanted a ps))
  | XAppendPrnf j fmt ps => parts_legal T a j fmt ps /\ sums_ok cf (Zlen (bf_data B) + Zlen (wanted a ps))
  end.
Definition xlegal (T : texts) (a : list slot) (o : xop (dbl A)) : Prop :=
  match o with
  | XOp o => legal cf T a o
  | _ => exists B, slot_of a (xtarget o) = ABuf B /\ xbuf_legal T a B o
  end.
Fixpoint all_xlegal (T : texts) (a : list slot) (prog : list (xop (dbl A))) : Prop :=
  match prog with
  | [] => True
  | o :: t => xlegal T a o /\ all_xlegal T (snd (xstep a o)) t
  end.

End Exec.
