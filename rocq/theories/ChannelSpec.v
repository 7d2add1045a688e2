(** Sending a message from one program to another through file descriptors: the two programs,
    as sequences of the calls in HistSpec2. *)
From Verif Require Import Base Mem StrviewModel Alloc BufSpec HistSpec IoModel IoSpec PackModel PackSpec PrnfModel HistSpec2.

Section Channel.
Context {D : Type}.

(** STRBUF_PACK of every field into the buffer in variable [j]; [base] are the addresses of
    the temporaries. *)
Fixpoint pack_ops (j : nat) (base : nat -> Z) (M : message) : list (xop D) :=
  match M with
  | [] => []
  | ((e, t), x) :: M' => XPack j e (base O) t x :: pack_ops j (fun n => base (S n)) M'
  end.
(** STRVIEW_UNPACK of every field, starting at offset [b] of the buffer. *)
Fixpoint unpack_ops (j : nat) (b : Z) (F : list field) : list (xop D) :=
  match F with
  | [] => []
  | (e, t) :: F' => XUnpack j b e t :: unpack_ops j (b + bits_of t / 8) F'
  end.
(** write() and read() calls with the given decisions of the system. *)
Definition write_ops (j : nat) (rs : list wr) : list (xop D) := map (XWrite j) rs.
Definition read_ops (j : nat) (cs : list (list Z)) : list (xop D) := map (fun l => XRead j (RdBytes l)) cs.

(** The bytes that went out and the integers that were read. *)
Definition sent (xs : list seen) : list Z := flat_map (fun x => match x with SawSent _ l => l | _ => [] end) xs.
Definition ints (xs : list seen) : list Z := flat_map (fun x => match x with SawInt n => [n] | _ => [] end) xs.

(** The sender and the receiver of a message, in the clear and encrypted. *)
Definition send_plain (j : nat) (base : nat -> Z) (M : message) (rs : list wr) : list (xop D) := pack_ops j base M ++ write_ops j rs.
Definition send_secret (j : nat) (base : nat -> Z) (M : message) (b : Z) (key iv : list Z) (rs : list wr) : list (xop D) :=
  pack_ops j base M ++ XEncrypt j b key iv :: write_ops j rs.
Definition recv_plain (j : nat) (F : list field) : list (xop D) := unpack_ops j 0 F.
Definition recv_secret (j : nat) (b : Z) (key iv : list Z) (F : list field) : list (xop D) := XDecrypt j b key iv :: unpack_ops j 0 F.

End Channel.
