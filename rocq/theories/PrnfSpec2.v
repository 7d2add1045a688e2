(** Specification of text formatting, continued: handlers of single characters, formats
    without floating point, and texts allowed for floating point arguments. *)
From Verif Require Import Base Mem Spec NumSpec PrnfModel PrnfSpec.

(** The handler is called with each character in turn. *)
Fixpoint feed {W} (fn : W -> Z -> outcome W) (s : W) (l : list Z) : outcome W :=
  match l with
  | [] => Ok s
  | c :: t => let! s := fn s c in feed fn s t
  end.

(** Valid items without floating point. *)
Definition plain_items {D} (cf : cfg) (l : list (item D)) : Prop := items_ok cf (fun _ _ _ => False) l.
(** The text they stand for. *)
Definition plain {D} (cf : cfg) (l : list (item D)) : list Z := printed cf (fun _ _ _ => []) 0 l.

(** [t] is a text for the items if [ft] tells the texts of floating point arguments. *)
Definition item_prints {D} (cf : cfg) (ft : bool -> conv -> D -> list Z -> Prop) (col : Z) (i : item D) (s : list Z) : Prop :=
  match i with
  | Flt _ c d => ft false c d s
  | Eng _ c d => ft true c d s
  | _ => s = item_out cf (fun _ _ _ => []) col i
  end.
Fixpoint prints {D} (cf : cfg) (ft : bool -> conv -> D -> list Z -> Prop) (col : Z) (l : list (item D)) (t : list Z) : Prop :=
  match l with
  | [] => t = []
  | i :: l => exists s r, t = s ++ r /\ item_prints cf ft col i s /\ prints cf ft (after cf col s) l r
  end.

(** ** Columns *)
(** Characters that advance the column by one. *)
Definition visible (cf : cfg) (l : list Z) : Prop := Forall (fun x => counts cf x = true) l.

(** ** All format strings *)
(** Valid items, followed by the character [x]. *)
Fixpoint items_before {D} (cf : cfg) (flt_ok : bool -> conv -> D -> Prop) (x : Z) (l : list (item D)) : Prop :=
  match l with
  | [] => True
  | i :: t => item_ok cf flt_ok i /\ items_before cf flt_ok x t /\
              match i with
              | Vtab => digit (hd x (format t)) = false
              | BareZ _ _ => counts cf (hd x (format t)) = false
              | _ => True
              end
  end.
(** A placeholder without its type. *)
Definition unfinished (c : conv) : list Z :=
  37 :: map flg_char (cv_flags c) ++ wid_text (cv_width c) ++ prc_text (cv_prec c) ++ len_text (cv_len c).
(** Starts with a number beyond INT_MAX. *)
Definition huge (l : list Z) : Prop :=
  exists ds r, l = ds ++ r /\ Forall (fun x => digit x = true) ds /\ INT_MAX < num_val 10 ds.
(** Starts with a column, a width or a precision beyond INT_MAX. *)
Definition overflows (l : list Z) : Prop :=
  (exists h, l = 11 :: h /\ huge h) \/
  (exists fl h, l = 37 :: map flg_char fl ++ h /\ huge h /\ hd 0 h <> 48) \/
  (exists fl w h, l = 37 :: map flg_char fl ++ wid_text w ++ 46 :: h /\
     match w with WNone => True | WNum n => 0 < n <= INT_MAX | WStar n => - INT_MAX <= n <= INT_MAX end /\ huge h).
(** Starts with a hexadecimal or binary placeholder of a literal precision it does not support. *)
Definition bad_digits (l : list Z) : Prop :=
  exists c t r p, l = unfinished c ++ t :: r /\ conv_ok c /\ prec_of c = Some p /\ (forall n, cv_prec c <> PStar n) /\
    ((t = 120 \/ t = 88) /\ ~ 1 <= p <= 16 \/ t = 111 /\ ~ 1 <= p <= 64).
