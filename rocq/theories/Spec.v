(** Specification vocabulary: what a view / C string denotes, and list-level
    notions used to state the properties.  Independent of the modelled functions. *)
From Verif Require Import Base Mem StrviewModel.

(** The bytes [l] are stored (readable) at [p]. *)
Definition bytes_at (m : mem) (p : ptr) (l : list Z) : Prop :=
  exists blk, access m (p_obj p) = Ok blk
    /\ 0 <= p_ofs p /\ p_ofs p + Zlen l <= b_size blk
    /\ forall i, 0 <= i < Zlen l -> b_get blk (p_ofs p + i) = CByte (nth (Z.to_nat i) l 0).

(** [v] is a valid view whose contents are [l]. *)
Definition has_view (m : mem) (v : view) (l : list Z) : Prop :=
  bytes_at m (v_data v) l /\ v_size v = Zlen l /\ Zlen l <= INT_MAX /\ Forall is_byte l.

(** [v] is a well-formed view: invalid (None) or valid with contents (Some l). *)
Definition denotes (m : mem) (v : view) (o : option (list Z)) : Prop :=
  match o with
  | Some l => has_view m v l
  | None => v = INVALID
  end.

(** [p] points to the NUL-terminated string [l]. *)
Definition c_string (m : mem) (p : ptr) (l : list Z) : Prop :=
  bytes_at m p (l ++ [0]) /\ Forall is_byte l /\ ~ In 0 l /\ Zlen l <= INT_MAX.

(** The part of [v] starting [k] bytes in, [n] bytes long. *)
Definition subview (v : view) (k n : Z) : view := View (shift (v_data v) k) n.

(** Least / greatest natural number with a property. *)
Definition is_least (P : nat -> Prop) (k : nat) : Prop := P k /\ forall j, (j < k)%nat -> ~ P j.
Definition is_greatest (P : nat -> Prop) (k : nat) : Prop := P k /\ forall j, (k < j)%nat -> ~ P j.

(** ASCII upper-casing. *)
Definition upper (c : Z) : Z := if (97 <=? c) && (c <=? 122) then c - 32 else c.

(** [needle] occurs in [hay] at index [k]. *)
Definition occurs (hay needle : list Z) (k : nat) : Prop :=
  exists a b, hay = a ++ needle ++ b /\ length a = k.

(** Number of occurrences of [c]. *)
Definition count (c : Z) (l : list Z) : nat := length (filter (Z.eqb c) l).

(** Position [k] of [l] holds a delimiter; if [exq], the number of double quotes up to
    and including position [k] is even. *)
Definition delim_at (exq : bool) (delims l : list Z) (k : nat) : Prop :=
  exists a d b, l = a ++ d :: b /\ length a = k /\ In d delims
    /\ (exq = true -> Nat.even (count 34 (a ++ [d])) = true).

(** The same counting the quotes from the end. *)
Definition delim_at_end (exq : bool) (delims l : list Z) (k : nat) : Prop :=
  exists a d b, l = a ++ d :: b /\ length a = k /\ In d delims
    /\ (exq = true -> Nat.even (count 34 (d :: b)) = true).

(** Live objects do not share addresses, and none is at address 0 or below. *)
Definition mem_wf (m : mem) : Prop :=
  (forall b k, nth_error m b = Some k -> b_live k = true -> 0 < b_base k /\ 0 <= b_size k) /\
  (forall b1 b2 k1 k2, nth_error m b1 = Some k1 -> nth_error m b2 = Some k2 ->
     b_live k1 = true -> b_live k2 = true -> b1 <> b2 ->
     b_base k1 + b_size k1 <= b_base k2 \/ b_base k2 + b_size k2 <= b_base k1).

(** Lexicographic order on byte strings, a proper prefix comes first. *)
Fixpoint lex (a b : list Z) : comparison :=
  match a, b with
  | [], [] => Eq
  | [], _ => Lt
  | _, [] => Gt
  | x :: a', y :: b' => match x ?= y with Eq => lex a' b' | c => c end
  end.

(** Contents of a possibly invalid view. *)
Definition contents (o : option (list Z)) : list Z := match o with Some l => l | None => [] end.

(** [p] is a prefix of [l]. *)
Definition prefix_of (p l : list Z) : Prop := exists r, l = p ++ r.

(** Python index: negative counts from the end. *)
Definition py_index (n i : Z) : Z := if i <? 0 then n + i else i.

(** Complete splitting of a text into fields. *)
Inductive fields (exq : bool) (delims : list Z) : list Z -> list (list Z) -> Prop :=
| fields_last : forall l, (forall k, ~ delim_at exq delims l k) -> fields exq delims l [l]
| fields_more : forall a d b fs, is_least (delim_at exq delims (a ++ d :: b)) (length a) ->
    fields exq delims b fs -> fields exq delims (a ++ d :: b) (a :: fs).

(** Put the delimiters [ds] between the fields. *)
Fixpoint join (fs : list (list Z)) (ds : list Z) : list Z :=
  match fs, ds with
  | f :: fs', d :: ds' => f ++ d :: join fs' ds'
  | f :: _, [] => f
  | [], _ => []
  end.

(** Lines: CR, LF, CRLF and LFCR terminate a line. *)
Definition is_eol (c : Z) : bool := (c =? 13) || (c =? 10).
Definition other_eol (c : Z) : Z := if c =? 13 then 10 else 13.

(** Text before the first terminator character, that character, text after it. *)
Fixpoint until_eol (l : list Z) : option (list Z * Z * list Z) :=
  match l with
  | [] => None
  | x :: t => if is_eol x then Some ([], x, t)
              else match until_eol t with
                   | Some (a, e, b) => Some (x :: a, e, b)
                   | None => None
                   end
  end.

(** Drop the second half of a terminator whose first half was [e] (0: nothing pending). *)
Definition drop_half (e : Z) (l : list Z) : list Z :=
  match l with
  | x :: t => if is_eol e && (x =? other_eol e) then t else l
  | [] => []
  end.

(** First line of a text: the line, the pending half terminator (0 if complete), the rest. *)
Definition next_line (pend : Z) (l : list Z) : option (list Z * Z * list Z) :=
  match until_eol (drop_half pend l) with
  | None => None
  | Some (a, e, b) =>
      match b with
      | y :: t => if y =? other_eol e then Some (a, 0, t) else Some (a, e, b)
      | [] => Some (a, e, [])
      end
  end.

(** All complete lines of a text (specification by recursion on the text length). *)
Inductive lines_of : list Z -> list (list Z) -> list Z -> Prop :=
| lines_none : forall l, until_eol l = None -> lines_of l [] l
| lines_one : forall l a e b ls r, until_eol l = Some (a, e, b) ->
    lines_of (drop_half e b) ls r -> lines_of l (a :: ls) r.

(** Cells outside of [lo, hi) of block [b], and all other blocks, are unchanged. *)
Definition frame (m m' : mem) (b : nat) (lo hi : Z) : Prop :=
  length m' = length m /\
  (forall b', b' <> b -> nth_error m' b' = nth_error m b') /\
  (forall k, nth_error m b = Some k -> exists k', nth_error m' b = Some k' /\
     b_base k' = b_base k /\ b_size k' = b_size k /\ b_live k' = b_live k /\ b_owner k' = b_owner k /\
     forall i, ~ (lo <= i < hi) -> b_get k' i = b_get k i).

(** A character set argument: an invalid view needs NULL+0 to be allowed. *)
Definition set_ok (cf : cfg) (o : option (list Z)) : Prop :=
  o = None -> c_mem0 cf = true \/ c_ptr cf = true.

(** Index range accepted by strview_sub. *)
Definition py_in (n b e : Z) : Prop := b <= e /\ b < n /\ 0 <= e.

(** Contents of *eol between calls: nothing, CR or LF. *)
Definition pend_ok (e : Z) : Prop := e = 0 \/ e = 13 \/ e = 10.

(** *** Streaming: the caller's loop.  On failure the caller keeps the text it had. *)

Fixpoint pop_all (cf : cfg) (fuel : nat) (m : mem) (s : view) (e : Z) : outcome (list view * view * Z) :=
  match fuel with
  | O => Fuel
  | S f =>
      let! (r, s', e') := strview_split_line cf m (Some s) (Some e) in
      match s', e' with
      | Some s1, Some e1 =>
          if strview_is_valid r
          then let! (rs, s2, e2) := pop_all cf f m s1 e1 in Ok (r :: rs, s2, e2)
          else Ok ([], s, e)
      | _, _ => UB UB_null
      end
  end.

(** Feeding a stream in chunks: [rem] is the text the caller has kept, each chunk is
    appended to it (in any memory), the complete lines are popped. *)
Inductive stream (cf : cfg) : list Z -> Z -> list (list Z) -> list (list Z) -> list Z -> Z -> Prop :=
| stream_end : forall rem e, stream cf rem e [] [] rem e
| stream_feed : forall m s fuel vs s' ls rem e c e' rem' cs ls' r e'',
    has_view m s (rem ++ c) ->
    pop_all cf fuel m s e = Ok (vs, s', e') ->
    Forall2 (has_view m) vs ls -> has_view m s' rem' ->
    stream cf rem' e' cs ls' r e'' ->
    stream cf rem e (c :: cs) (ls ++ ls') r e''.


(** Popping [n] characters one after the other. *)
Fixpoint pop_chars (cf : cfg) (m : mem) (n : nat) (s : view) : outcome (list Z * view) :=
  match n with
  | O => Ok ([], s)
  | S n' =>
      let! (c, s') := strview_pop_first_char cf m (Some s) in
      match s' with
      | Some s1 => let! (cs, s2) := pop_chars cf m n' s1 in Ok (c :: cs, s2)
      | None => UB UB_null
      end
  end.

(** At least [k] bytes of the object lie before [p], or the address space is flat. *)
Definition room (cf : cfg) (p : ptr) (k : Z) : Prop := c_ptr cf = true \/ k <= p_ofs p.
