(** Which calls of the buffer functions ISO C leaves undefined, although every usual compiler defines them: those that compare
    pointers into different objects (ISO C 6.5.6, 6.5.8; strbuf.c:487, 510, 646, 647, 777). *)
From Verif Require Import Base Mem Libc StrviewModel Spec Alloc StrbufModel BufSpec HistSpec.

(** Not a model of code: the object an argument points into; an invalid view points into none. *)
Definition obj_of (vars : list ptr) (a : list slot) (s : src) : pobj :=
  match s with
  | SNone => PNull
  | SText v _ => p_obj (v_data v)
  | SPart k b e => match cut (data_of (slot_of a k)) b e with Some _ => p_obj (var vars k) | None => PNull end
  | SAt k _ _ => p_obj (var vars k)
  end.
(** It is not the object that holds buffer [j]. *)
Definition far (vars : list ptr) (a : list slot) (j : nat) (s : src) : bool := negb (pobj_eqb (obj_of vars a s) (p_obj (var vars j))).
Definition dynamic (a : list slot) (j : nat) : bool := match slot_of a j with ABuf B => dyn B | _ => false end.
Definition is_some {A} (o : option A) : bool := match o with Some _ => true | None => false end.

(** Not a model of code: the calls to avoid.
    - Appending, prepending and inserting compare the text with the buffer.
    - insert_before and insert_after compare the position with the buffer (insert_after not if it is invalid), and if it is in
      the buffer they insert.
    - Concatenation compares every argument with the buffer, and if one of them starts in a dynamic buffer it appends them to
      a temporary buffer, which is another object.
    - A buffer made from a text is a new object, the text is inserted. *)
Definition iso_buf_undefined (vars : list ptr) (a : list slot) (o : op) : bool :=
  match o with
  | OAppend j s | OPrepend j s | OInsert j _ s => far vars a j s
  | OBefore j d s => far vars a j d || (is_some (place_of a j d) && far vars a j s)
  | OAfter j d s => (negb (pobj_eqb (obj_of vars a d) PNull) && far vars a j d) || (is_some (place_of a j d) && far vars a j s)
  | OCat j ss => existsb (far vars a j) ss || (dynamic a j && existsb (starts_in a j) ss)
  | OInit _ _ _ => true
  | _ => false
  end.

(** A program makes no such call: its variables before each call are those of its run on the usual compiler [cf]. *)
Fixpoint iso_buf_program (cf : cfg) (vars : list ptr) (w : st) (a : list slot) (prog : list op) : bool :=
  match prog with
  | [] => true
  | o :: t => negb (iso_buf_undefined vars a o) &&
              match exec cf vars w o with Ok (_, vars', w') => iso_buf_program cf vars' w' (snd (astep cf a o)) t | _ => false end
  end.

(** Functions without such calls. *)
Definition in_iso_buf (o : op) : bool :=
  match o with
  | OAppend _ _ | OPrepend _ _ | OInsert _ _ _ | OBefore _ _ _ | OAfter _ _ _ | OCat _ _ | OInit _ _ _ => false
  | _ => true
  end.
