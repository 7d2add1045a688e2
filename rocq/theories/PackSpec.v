(** Specification of packing: the value of an integer and its bytes in a stated order. *)
From Verif Require Import Base Mem StrviewModel Spec Alloc BufSpec PackModel.

(** Values of an integer type. *)
Definition bits_of (t : ity) : Z := match i_width t with W8 => 8 | W16 => 16 | W32 => 32 | W64 => 64 end.
Definition in_type (t : ity) (x : Z) : Prop :=
  if i_signed t then - 2 ^ (bits_of t - 1) <= x < 2 ^ (bits_of t - 1) else 0 <= x < 2 ^ bits_of t.

(** Number [i] of the base 256 digits of [x], least significant first (two's complement). *)
Definition digit (x : Z) (i : nat) : Z := (x / 256 ^ Z.of_nat i) mod 256.
(** The bytes on the wire: least significant first, or most significant first. *)
Definition wire (o : order) (t : ity) (x : Z) : list Z :=
  let n := Z.to_nat (bits_of t / 8) in
  match o with
  | LE => map (digit x) (seq 0 n)
  | BE => map (fun i => digit x (n - 1 - i)) (seq 0 n)
  end.

(** A message: integers with their byte order and type. *)
Definition field : Type := (order * ity)%type.
Definition message : Type := list (field * Z).
Definition message_ok (M : message) : Prop := Forall (fun '((o, t), x) => in_type t x) M.
Definition encoded (M : message) : list Z := flat_map (fun '((o, t), x) => wire o t x) M.

(** Programs: pack every field of a message, unpack a list of fields.  [base] are the
    addresses the compiler chooses for the temporaries. *)
Section Run.
Variable cf : cfg.
Fixpoint pack_all (w : st) (dst : option ptr) (M : message) (base : nat -> Z) : outcome (option ptr * st) :=
  match M with
  | [] => Ok (dst, w)
  | ((o, t), x) :: M' =>
      let! (dst', w') := STRBUF_PACK cf o w dst (base O) t x in
      pack_all w' dst' M' (fun n => base (S n))
  end.
Fixpoint unpack_all (m : mem) (v : view) (F : list field) : outcome (list Z * view) :=
  match F with
  | [] => Ok ([], v)
  | (o, t) :: F' =>
      let! (x, v') := STRVIEW_UNPACK cf o m t v in
      let! (xs, v'') := unpack_all m v' F' in
      Ok (x :: xs, v'')
  end.
End Run.
