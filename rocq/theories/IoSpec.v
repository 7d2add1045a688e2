(** Specification of the file descriptor accessories: a buffer between a source and a sink is
    a queue of bytes. *)
From Verif Require Import Base Mem StrviewModel Spec Alloc BufSpec IoModel.

(** Bytes a read delivers into [space] bytes of room, and bytes a write takes from a queue. *)
Definition delivered (space : Z) (r : rd) : list Z :=
  match r with RdError => [] | RdBytes l => firstn (Z.to_nat space) l end.
Definition taken (q : list Z) (r : wr) : list Z :=
  match r with WrError => [] | WrCount k => firstn (Z.to_nat k) q end.
Definition left_over (q : list Z) (r : wr) : list Z :=
  match r with WrError => q | WrCount k => skipn (Z.to_nat k) q end.
(** Return value of read() and write(). *)
Definition rd_result (r : rd) (l : list Z) : Z := match r with RdError => -1 | _ => Zlen l end.
Definition wr_result (r : wr) (l : list Z) : Z := match r with WrError => -1 | _ => Zlen l end.

(** A transfer through a buffer: any interleaving of reads and writes. *)
Inductive io : Type := IoRead (r : rd) | IoWrite (r : wr).
Definition io_ok (x : io) : Prop := match x with IoRead (RdBytes l) => Forall is_byte l | _ => True end.

(** The program: calls in the given order, collecting everything that was written. *)
Section Run.
Variable cf : cfg.
Fixpoint run_io (w : st) (bp : option ptr) (xs : list io) : outcome (list Z * option ptr * st) :=
  match xs with
  | [] => Ok ([], bp, w)
  | IoRead r :: t =>
      let! (_, bp1, w1) := strbuf_append_read cf w bp r in run_io w1 bp1 t
  | IoWrite r :: t =>
      let! (_, out, bp1, w1) := strbuf_write cf w bp r in
      let! (rest, bp2, w2) := run_io w1 bp1 t in
      Ok (out ++ rest, bp2, w2)
  end.
Fixpoint run_view (m : mem) (v : view) (rs : list wr) : outcome (list Z * view) :=
  match rs with
  | [] => Ok ([], v)
  | r :: t =>
      let! (_, out, v1) := strview_write cf m (Some v) r in
      match v1 with
      | Some v1 => let! (rest, v2) := run_view m v1 t in Ok (out ++ rest, v2)
      | None => UB UB_null
      end
  end.
End Run.

(** The queue: what goes in, what comes out, what stays. *)
Fixpoint queue_in (cap : Z) (q : list Z) (xs : list io) : list Z :=
  match xs with
  | [] => []
  | IoRead r :: t => delivered (cap - Zlen q) r ++ queue_in cap (q ++ delivered (cap - Zlen q) r) t
  | IoWrite r :: t => queue_in cap (left_over q r) t
  end.
Fixpoint queue_out (cap : Z) (q : list Z) (xs : list io) : list Z :=
  match xs with
  | [] => []
  | IoRead r :: t => queue_out cap (q ++ delivered (cap - Zlen q) r) t
  | IoWrite r :: t => taken q r ++ queue_out cap (left_over q r) t
  end.
Fixpoint queue_end (cap : Z) (q : list Z) (xs : list io) : list Z :=
  match xs with
  | [] => q
  | IoRead r :: t => queue_end cap (q ++ delivered (cap - Zlen q) r) t
  | IoWrite r :: t => queue_end cap (left_over q r) t
  end.

(** A write that makes progress when there is something to write. *)
Definition accepts (r : wr) : bool := match r with WrCount k => 0 <? k | WrError => false end.
