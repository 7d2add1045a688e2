(** Specification vocabulary for the default allocator and the example programs. *)
From Verif Require Import Base Mem StrviewModel Spec Alloc BufSpec NumSpec StrnumModel.

(** What is shown when a text is printed as a C string. *)
Fixpoint upto_nul (l : list Z) : list Z :=
  match l with
  | [] => []
  | x :: t => if x =? 0 then [] else x :: upto_nul t
  end.

(** The pointer given to an allocator: nothing, or the start of a live allocation made for [a]. *)
Definition held (m : mem) (a : allocator) (p : ptr) (old : option (nat * block)) : Prop :=
  match old with
  | None => p = null
  | Some (b, k) => p = Ptr (PBlk b) 0 /\ nth_error m b = Some k /\ b_live k = true /\ b_owner k = Heap a
  end.

(** An allocation of [n] bytes was granted at [p']: a live, aligned object of exactly that size that shares
    no address with any other live object, made for [a]; it holds the bytes of the old object as far as
    both reach; the old object is that one or has ended; every other object is as before. *)
Definition granted (cf : cfg) (m m' : mem) (a : allocator) (old : option (nat * block)) (p' : ptr) (n : Z) : Prop :=
  exists b' k', p' = Ptr (PBlk b') 0 /\ nth_error m' b' = Some k' /\ b_live k' = true /\ b_size k' = n /\
    b_owner k' = Heap a /\ 0 < b_base k' /\ b_base k' mod c_ptrbytes cf = 0 /\ mem_wf m' /\
    match old with
    | None => (length m <= b')%nat /\ forall i, (i < length m)%nat -> nth_error m' i = nth_error m i
    | Some (b, k) =>
        (forall i, 0 <= i < Z.min (b_size k) n -> b_get k' i = b_get k i) /\
        (b' = b \/ ((length m <= b')%nat /\ forall k0, nth_error m' b = Some k0 -> b_live k0 = false)) /\
        forall i, (i < length m)%nat -> i <> b -> nth_error m' i = nth_error m i
    end.

(** Everything that existed is as before, and nothing that was made since is still alive. *)
Definition no_trace (m m' : mem) : Prop :=
  (forall i, (i < length m)%nat -> nth_error m' i = nth_error m i) /\
  (forall i k, (length m <= i)%nat -> nth_error m' i = Some k -> b_live k = false).

(** C strings [ls] at the pointers [ps], in objects of the memory. *)
Definition strings_at (m : mem) (ps : list ptr) (ls : list (list Z)) : Prop :=
  Forall2 (fun p l => c_string m p l /\ exists b, p_obj p = PBlk b) ps ls.

(** A view given to a function: text in an object of the memory, or nothing. *)
Definition given (m : mem) (v : view) (l : list Z) : Prop :=
  (v = INVALID /\ l = []) \/ (has_view m v l /\ exists b, p_obj (v_data v) = PBlk b).

(** What a fixed buffer of capacity [cap] holds after being assigned [l]. *)
Definition stored (cap : Z) (l : list Z) : list Z := if Zlen l <=? cap then l else [].

(** What the calls print: the text stored by the previous one (at first [t]) and the new text. *)
Fixpoint previous (cap : Z) (t : list Z) (ls : list (list Z)) : list (list Z * list Z) :=
  match ls with
  | [] => []
  | l :: rest => (upto_nul t, upto_nul l) :: previous cap (stored cap l) rest
  end.

(** The object [b] is a buffer of capacity [cap] made by STRBUF_STATIC_INIT / STRBUF_FIXED_CAP, not used yet. *)
Definition new_fixed (cf : cfg) (m : mem) (b : nat) (cap : Z) : Prop :=
  exists k, nth_error m b = Some k /\ b_live k = true /\ b_base k mod c_ptrbytes cf = 0 /\ hdr_size cf + cap + 1 <= b_size k /\
    (forall i, 0 <= i < hdr_size cf -> b_get k i = CHdr (Hdr 0 cap (Alloc 0 None)) i) /\
    (forall i, hdr_size cf <= i < b_size k -> b_get k i = CByte 0).

(** The arguments of the calls: text outside of the buffer, or nothing. *)
Definition shown_args (cf : cfg) (m : mem) (b : nat) (vs : list view) (ls : list (list Z)) : Prop :=
  Forall2 (fun v l => given m v l /\ (v = INVALID -> c_mem0 cf = true) /\ p_obj (v_data v) <> PBlk b) vs ls.

(** ** testnum: what a command line means and what a line shows *)
(** Some argument is the given word, in any letter case. *)
Definition asked (ls : list (list Z)) (word : list Z) : Prop := exists l, In l ls /\ map upper l = map upper word.
(** The words of the help text (testnum.c:73-79) and the numbers of the option bits. *)
Definition option_words : list (Z * list Z) :=
  [ (0, [98; 97; 115; 101; 45; 98; 105; 110])   (* base-bin *)
  ; (1, [98; 97; 115; 101; 45; 104; 101; 120])  (* base-hex *)
  ; (2, [110; 111; 98; 120])                    (* nobx *)
  ; (3, [110; 111; 115; 105; 103; 110])         (* nosign *)
  ; (4, [110; 111; 115; 112; 97; 99; 101])      (* nospace *)
  ; (5, [110; 111; 101; 120; 112]) ].           (* noexp *)

(** The types of the lines, in the order of the table. *)
Definition line_types : list ity := [TUchar; TUshort; TUint; TUlong; TUllong; TChar; TShort; TInt; TLong; TLlong].

(** One line of the table for a type: the error, the value (0 after an error) and the remainder
    (the whole text after an error). *)
Definition line_of (cf : cfg) (opt : Z) (l : list Z) (t : ity) : errno * Z * list Z :=
  match parse_int (ty_signed t) opt (ty_lo cf t) (ty_hi cf t) l with
  | Bad e => (e, 0, upto_nul l)
  | Good v rest => (NoErr, v, upto_nul rest)
  end.

(** A floating point line for the result [r] of the parser: error and remainder as the grammar has them,
    the value parsed; a number too large for the type is a range error. *)
Definition float_line {T} (zero : T) (r : parsed T) (opt : Z) (l : list Z) (line : errno * T * list Z) : Prop :=
  match read_float opt l with
  | FBad e => e <> NoErr /\ line = (e, zero, upto_nul l)
  | FGood t =>
      (exists x, pr_dst r = Some x /\ line = (NoErr, x, upto_nul (ft_rest t))) \/
      (ft_special t = NoSpecial /\ pr_err r = ERANGE /\ line = (ERANGE, zero, upto_nul l))
  end.
