(** Vocabulary for the extension %n of prnf (C159): a format string is a list of pieces, the
    items of PrnfSpec.v and strings that are handed over to be freed. *)
From Verif Require Import Base Mem Spec PrnfModel PrnfSpec.

Inductive piece (D : Type) : Type :=
| Item (i : item D)
| Given (c : conv) (p : ptr) (l : list Z).
Arguments Item {D} i.
Arguments Given {D} c p l.

(** The format string and the arguments. *)
Definition piece_text {D} (x : piece D) : list Z := match x with Item i => item_text i | Given c _ _ => conv_text c 110 end.
Definition piece_args {D} (cf : cfg) (x : piece D) : list (arg D) :=
  match x with Item i => item_args cf i | Given c p _ => conv_args c ++ [AP p] end.
Definition format_of {D} (l : list (piece D)) : list Z := concat (map piece_text l).
Definition args_of {D} (cf : cfg) (l : list (piece D)) : list (arg D) := concat (map (piece_args cf) l).

(** A string handed over is cut and padded like %s, but never centred. *)
Definition given_text (c : conv) (l : list Z) : list Z := pad c 32 (str_body c l).
Definition piece_out {D} (cf : cfg) (flt : bool -> conv -> D -> list Z) (col : Z) (x : piece D) : list Z :=
  match x with Item i => item_out cf flt col i | Given c _ l => given_text c l end.
Fixpoint shown {D} (cf : cfg) (flt : bool -> conv -> D -> list Z) (col : Z) (l : list (piece D)) : list Z :=
  match l with
  | [] => []
  | x :: t => let s := piece_out cf flt col x in s ++ shown cf flt (after cf col s) t
  end.

(** Valid pieces; n is a type now. *)
Definition piece_ok {D} (cf : cfg) (flt_ok : bool -> conv -> D -> Prop) (x : piece D) : Prop :=
  match x with
  | Item i => item_ok cf flt_ok i /\ match i with Other _ t => t <> 110 | _ => True end
  | Given c _ _ => conv_ok c /\ match prec_of c with Some p => 0 <= p | None => True end
  end.
Fixpoint pieces_ok {D} (cf : cfg) (flt_ok : bool -> conv -> D -> Prop) (l : list (piece D)) : Prop :=
  match l with
  | [] => True
  | x :: t => piece_ok cf flt_ok x /\ pieces_ok cf flt_ok t /\
              match x with
              | Item Vtab => digit (hd 0 (format_of t)) = false
              | Item (BareZ _ _) => counts cf (hd 0 (format_of t)) = false
              | _ => True
              end
  end.

(** The strings are in memory; those handed over are NULL or whole blocks of the allocator. *)
Definition handed (heap : allocator) (m : mem) (p : ptr) (l : list Z) : Prop :=
  (p = null /\ l = []) \/
  (c_string m p l /\ exists b k, p = Ptr (PBlk b) 0 /\ nth_error m b = Some k /\ b_owner k = Heap heap).
Definition piece_mem {D} (heap : allocator) (m : mem) (x : piece D) : Prop :=
  match x with Item i => item_mem m i | Given _ p l => handed heap m p l end.
Definition piece_clear {D} (dst : ptr) (n : Z) (x : piece D) : Prop :=
  match x with Item i => item_clear dst n i | Given _ p _ => p = null \/ p_obj p <> p_obj dst end.

(** The block a piece gives away and whether a piece uses a block. *)
Definition gives {D} (x : piece D) : list nat := match x with Given _ (Ptr (PBlk b) _) _ => [b] | _ => [] end.
Definition given_away {D} (l : list (piece D)) : list nat := concat (map gives l).
Definition uses {D} (b : nat) (x : piece D) : Prop :=
  match x with Item (Str _ _ p _) => p_obj p = PBlk b | Item _ => False | Given _ p _ => p_obj p = PBlk b end.
(** No string is used after it was handed over. *)
Fixpoint once {D} (l : list (piece D)) : Prop :=
  match l with
  | [] => True
  | x :: t => Forall (fun b => Forall (fun y => ~ uses b y) t) (gives x) /\ once t
  end.
(** [m'] is [m] after the blocks [bs] were freed. *)
Definition released (m m' : mem) (bs : list nat) : Prop :=
  length m' = length m /\
  (forall b, In b bs -> exists k k', nth_error m b = Some k /\ b_live k = true /\ nth_error m' b = Some k' /\ b_live k' = false) /\
  (forall b, ~ In b bs -> nth_error m' b = nth_error m b).
