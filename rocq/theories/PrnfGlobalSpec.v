(** Specification of programs that print through functions: who gets which text. *)
From Verif Require Import Base Mem Spec NumSpec PrnfModel PrnfSpec PrnfSpec2.

(** Where the default output goes from now on, and texts for the default output or for a function
    with its pointer.  [fmt] is where the format string lies. *)
Inductive said (H D : Type) : Type :=
| Use (f : option H)
| Say (fmt : ptr) (items : list (item D))
| SayTo (f : option H) (x fmt : ptr) (items : list (item D)).
Arguments Use {H D} f.
Arguments Say {H D} fmt items.
Arguments SayTo {H D} f x fmt items.

(** The function gets the characters in turn; without one the text is lost. *)
Definition deliver {H W} (act : H -> ptr -> W -> Z -> outcome W) (f : option H) (x : ptr) (w : W) (t : list Z) : outcome W :=
  match f with Some h => feed (act h x) w t | None => Ok w end.
(** Lengths of the texts, the function in use at the end, and the state the functions leave. *)
Fixpoint told {H D W} (cf : cfg) (act : H -> ptr -> W -> Z -> outcome W) (l : list (said H D)) (f : option H) (w : W) : outcome (list Z * (option H * W)) :=
  match l with
  | [] => Ok ([], (f, w))
  | Use f' :: t => told cf act t f' w
  | Say _ items :: t =>
      let! w := deliver act f null w (plain cf items) in
      let! (r, e) := told cf act t f w in Ok (Zlen (plain cf items) :: r, e)
  | SayTo f' x _ items :: t =>
      let! w := deliver act f' x w (plain cf items) in
      let! (r, e) := told cf act t f w in Ok (Zlen (plain cf items) :: r, e)
  end.
(** The format and the strings are in memory, and the format is valid. *)
Definition said_ok {H D} (cf : cfg) (m : mem) (s : said H D) : Prop :=
  match s with
  | Use _ => True
  | Say fmt items | SayTo _ _ fmt items =>
      plain_items cf items /\ Zlen (plain cf items) < INT_MAX /\ bytes_at m fmt (format items ++ [0]) /\ Forall (item_mem m) items
  end.
