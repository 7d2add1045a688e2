(** Specification of the configurations of prnf: what a format string means to a build
    without long long, without floating point or without column alignment. *)
From Verif Require Import Base Mem Spec NumSpec PrnfModel PrnfSpec PrnfSpec2 PrnfConfModel.

(** Length modifiers of a placeholder, and its type. *)
Definition holder {D} (i : item D) : option (conv * Z) :=
  match i with
  | Text _ | Percent | Vtab | ColumnZ _ _ _ | BareZ _ _ => None
  | Dec b c _ => Some (c, if b then 105 else 100)
  | Uns c _ => Some (c, 117)
  | Hex b c _ => Some (c, if b then 88 else 120)
  | Bin c _ => Some (c, 111)
  | Chr c _ => Some (c, 99)
  | Str b c _ _ => Some (c, if b then 83 else 115)
  | Flt b c _ => Some (c, if b then 70 else 102)
  | Eng b c _ => Some (c, if b then 69 else 101)
  | Other c t => Some (c, t)
  end.
Definition is_ll (c : conv) : bool := match cv_len c with Lll => true | _ => false end.
Definition is_float {D} (i : item D) : bool := match i with Flt _ _ _ | Eng _ _ _ => true | _ => false end.
Definition one_l (c : conv) : conv := Conv (cv_flags c) (cv_width c) (cv_prec c) Ll.

(** What an item is to the build: without long long, the second l of %lld is the (unknown) type
    of the placeholder and the d is text; without floating point, %f is a placeholder of unknown
    type; without column alignment, a column is the text it is written as. *)
Definition read_by {D} (bd : build) (i : item D) : list (item D) :=
  match holder i with
  | Some (c, t) =>
      if negb (b_ll bd) && is_ll c then [Other (one_l c) 108; Text [t]]
      else if negb (b_float bd) && is_float i then [Other c t]
      else [i]
  | None =>
      match i with
      | Text _ | Percent => [i]
      | _ => if b_col bd then [i] else [Text (item_text i)]
      end
  end.
Definition built {D} (bd : build) (l : list (item D)) : list (item D) := concat (map (read_by bd) l).

(** Valid for the build: without column alignment, the character that would fill a column must
    not start a placeholder; without long long, neither must the unknown type behind ll. *)
Definition fit {D} (bd : build) (i : item D) : Prop :=
  (b_col bd = false -> match i with ColumnZ _ _ x => x <> 37 | _ => True end) /\
  (b_ll bd = false -> match i with Other c t => is_ll c = true -> t <> 0 /\ t <> 37 /\ t <> 11 | _ => True end).

(** Kinds of arguments that va_arg tells apart. *)
Inductive kind : Set := K32 | K64 | KPtr | KDbl.
Definition kind_of {D} (a : arg D) : kind := match a with A32 _ => K32 | A64 _ => K64 | AP _ => KPtr | AD _ => KDbl end.

(** The object that holds the format string contains nothing the switches change. *)
Definition untouched (bd : build) (m : mem) (ob : pobj) : Prop :=
  forall i c, load_byte m (Ptr ob i) = Ok c ->
    (b_col bd = false -> c <> 11) /\ (b_float bd = false -> ~ In c [102; 70; 101; 69]) /\
    (b_ll bd = false -> c = 108 -> load_byte m (Ptr ob (i + 1)) <> Ok 108).

(** The item does not use what was switched off. *)
Definition unused {D} (bd : build) (i : item D) : Prop :=
  (b_ll bd = false -> match holder i with Some (c, _) => is_ll c = false | None => True end) /\
  (b_float bd = false -> is_float i = false) /\
  (b_col bd = false -> match i with Vtab | ColumnZ _ _ _ | BareZ _ _ => False | _ => True end).
