(** Withdrawing a compiler's promises changes an outcome only into an undefined one: the views. *)
From Verif Require Import Base Mem Libc StrviewModel PortSpec.

Create HintDb mono discriminated.
Global Hint Constants Opaque : mono.

Lemma below_refl A (x : outcome A) : below x x.
Proof. now left. Qed.

Lemma below_ub A u (x : outcome A) : below (UB u) x.
Proof. right; now exists u. Qed.

Lemma below_bind A B (x y : outcome A) (f g : A -> outcome B) :
  below x y -> (forall a, below (f a) (g a)) -> below (bind x f) (bind y g).
Proof.
  intros [<- | [u ->]] H.
  - destruct x; cbn [bind]; [apply H|apply below_refl|apply below_refl].
  - apply below_ub.
Qed.

Lemma below_trans A (x y z : outcome A) : below x y -> below y z -> below x z.
Proof.
  intros [-> | [u ->]] H; [exact H|apply below_ub].
Qed.

Ltac mono1 :=
  match goal with
  | |- below ?x ?x => exact (below_refl _ x)
  | |- below (UB ?u) ?x => exact (below_ub _ u x)
  | |- below (bind _ _) (bind _ _) => apply below_bind; [|intro]
  | |- below (if ?b then ?x else UB _) ?x => destruct b
  | |- below (match ?x with _ => _ end) (match ?x with _ => _ end) => destruct x
  | |- below _ _ => solve [auto 3 with mono nocore]
  end.
Ltac mono := repeat (cbv zeta; autorewrite with mono; mono1).

Lemma char_signed_eq fw cf : c_char_signed (restrict fw cf) = c_char_signed cf.
Proof. reflexivity. Qed.
Lemma long64_eq fw cf : c_long64 (restrict fw cf) = c_long64 cf.
Proof. reflexivity. Qed.
Lemma big_endian_eq fw cf : c_big_endian (restrict fw cf) = c_big_endian cf.
Proof. reflexivity. Qed.
Lemma step_eq fw cf : c_step (restrict fw cf) = c_step cf.
Proof. reflexivity. Qed.
Lemma ptrbytes_eq fw cf : c_ptrbytes (restrict fw cf) = c_ptrbytes cf.
Proof. reflexivity. Qed.
Lemma char_int_eq fw cf : char_int (restrict fw cf) = char_int cf.
Proof. reflexivity. Qed.
Global Hint Rewrite char_signed_eq long64_eq big_endian_eq step_eq ptrbytes_eq char_int_eq : mono.

Lemma int_res_mono fw cf : forall z, below (int_res (restrict fw cf) z) (int_res cf z).
Proof.
  intros; unfold int_res; cbn [c_wrapv restrict].
  destruct (in_int z), (f_wrapv fw), (c_wrapv cf); cbn [andb];
    first [apply below_refl|apply below_ub].
Qed.
Global Hint Resolve int_res_mono : mono.

Lemma iadd_mono fw cf : forall a b, below (iadd (restrict fw cf) a b) (iadd cf a b).
Proof. intros; unfold iadd; mono. Qed.
Lemma isub_mono fw cf : forall a b, below (isub (restrict fw cf) a b) (isub cf a b).
Proof. intros; unfold isub; mono. Qed.
Global Hint Resolve iadd_mono isub_mono : mono.

Lemma access_defined m o : access m o <> Fuel.
Proof.
  unfold access. intro E.
  repeat match type of E with (match ?x with _ => _ end) = _ => destruct x; try discriminate E end.
Qed.

Lemma padd_mono fw cf : forall m p n, below (padd (restrict fw cf) m p n) (padd cf m p n).
Proof.
  intros; unfold padd; cbn [c_mem0 c_ptr restrict].
  assert (K : forall o (x : outcome ptr), (forall u, x <> UB u) -> (x = Ok (shift p n)) ->
    below (let! blk := access m o in
           if in_block blk (p_ofs p + n) 0 then Ok (shift p n) else UB UB_ptr) x).
  { intros o x _ ->. pose proof (access_defined m o) as D.
    destruct (access m o) as [blk|u|]; cbn [bind]; [|apply below_ub|now contradiction D].
    destruct (in_block _ _ _); [apply below_refl|apply below_ub]. }
  destruct (p_obj p), (f_ptr fw), (c_ptr cf), (f_mem0 fw), (c_mem0 cf); cbn [andb orb];
    rewrite ?orb_true_r, ?orb_false_r; mono; apply K; congruence.
Qed.
Global Hint Resolve padd_mono : mono.

Lemma pdiff_mono fw cf : forall m p q, below (pdiff (restrict fw cf) m p q) (pdiff cf m p q).
Proof.
  intros; unfold pdiff; cbn [c_ptr restrict].
  destruct (f_ptr fw), (c_ptr cf); cbn [andb]; mono.
Qed.
Global Hint Resolve pdiff_mono : mono.
Lemma ple_mono fw cf : forall m p q, below (ple (restrict fw cf) m p q) (ple cf m p q).
Proof. intros; unfold ple; mono. Qed.
Lemma plt_mono fw cf : forall m p q, below (plt (restrict fw cf) m p q) (plt cf m p q).
Proof. intros; unfold plt; mono. Qed.
Global Hint Resolve ple_mono plt_mono : mono.

Lemma memcmp_mono fw cf : forall m a b n,
  below (memcmp (restrict fw cf) m a b n) (memcmp cf m a b n).
Proof.
  intros; unfold memcmp, zero_ok; cbn [c_mem0 restrict].
  destruct (f_mem0 fw), (c_mem0 cf); cbn [andb orb]; mono.
Qed.
Lemma memmove_mono fw cf : forall m a b n,
  below (memmove (restrict fw cf) m a b n) (memmove cf m a b n).
Proof.
  intros; unfold memmove, zero_ok; cbn [c_mem0 restrict].
  destruct (f_mem0 fw), (c_mem0 cf); cbn [andb orb]; mono.
Qed.
Global Hint Resolve memcmp_mono memmove_mono : mono.
Lemma memcpy_mono fw cf : forall m a b n,
  below (memcpy (restrict fw cf) m a b n) (memcpy cf m a b n).
Proof. intros; unfold memcpy; mono. Qed.
Lemma memset_mono fw cf : forall m a b n,
  below (memset (restrict fw cf) m a b n) (memset cf m a b n).
Proof.
  intros; unfold memset, zero_ok; cbn [c_mem0 restrict].
  destruct (f_mem0 fw), (c_mem0 cf); cbn [andb orb]; mono.
Qed.
Lemma isdigit_mono fw cf : forall c, below (isdigit (restrict fw cf) c) (isdigit cf c).
Proof.
  intros; unfold isdigit, ctype_ok; cbn [c_ctype restrict].
  destruct (f_ctype fw), (c_ctype cf); cbn [andb]; rewrite ?orb_true_r, ?orb_false_r; mono.
Qed.
Lemma isxdigit_mono fw cf : forall c, below (isxdigit (restrict fw cf) c) (isxdigit cf c).
Proof.
  intros; unfold isxdigit, ctype_ok; cbn [c_ctype restrict].
  destruct (f_ctype fw), (c_ctype cf); cbn [andb]; rewrite ?orb_true_r, ?orb_false_r; mono.
Qed.
Global Hint Resolve memcpy_mono memset_mono isdigit_mono isxdigit_mono : mono.

Lemma strview_to_cstr_mono fw cf : forall (m : mem) (dst : ptr) (dst_size : Z) (str : view),
  below (strview_to_cstr (restrict fw cf) m dst dst_size str) (strview_to_cstr cf m dst dst_size str).
Proof. intros; unfold strview_to_cstr; mono. Qed.
Global Hint Resolve strview_to_cstr_mono : mono.

Lemma memcmp_nocase_loop_mono fw cf : forall (m : mem) (a b : ptr) (size : nat) (result : Z),
  below (memcmp_nocase_loop (restrict fw cf) m a b size result) (memcmp_nocase_loop cf m a b size result).
Proof.
  intros m a b size; revert m a b; induction size; intros; cbn [memcmp_nocase_loop]; mono.
Qed.
Global Hint Resolve memcmp_nocase_loop_mono : mono.

Lemma memcmp_nocase_mono fw cf : forall (m : mem) (a b : ptr) (n : Z),
  below (memcmp_nocase (restrict fw cf) m a b n) (memcmp_nocase cf m a b n).
Proof. intros; unfold memcmp_nocase; mono. Qed.
Global Hint Resolve memcmp_nocase_mono : mono.

Lemma strview_is_match_mono fw cf : forall (m : mem) (str1 str2 : view),
  below (strview_is_match (restrict fw cf) m str1 str2) (strview_is_match cf m str1 str2).
Proof. intros; unfold strview_is_match; mono. Qed.
Global Hint Resolve strview_is_match_mono : mono.

Lemma strview_is_match_cstr_mono fw cf : forall (m : mem) (str1 : view) (str2 : ptr),
  below (strview_is_match_cstr (restrict fw cf) m str1 str2) (strview_is_match_cstr cf m str1 str2).
Proof. intros; unfold strview_is_match_cstr; mono. Qed.
Global Hint Resolve strview_is_match_cstr_mono : mono.

Lemma strview_is_match_nocase_mono fw cf : forall (m : mem) (str1 str2 : view),
  below (strview_is_match_nocase (restrict fw cf) m str1 str2) (strview_is_match_nocase cf m str1 str2).
Proof. intros; unfold strview_is_match_nocase; mono. Qed.
Global Hint Resolve strview_is_match_nocase_mono : mono.

Lemma strview_is_match_nocase_cstr_mono fw cf : forall (m : mem) (str1 : view) (str2 : ptr),
  below (strview_is_match_nocase_cstr (restrict fw cf) m str1 str2) (strview_is_match_nocase_cstr cf m str1 str2).
Proof. intros; unfold strview_is_match_nocase_cstr; mono. Qed.
Global Hint Resolve strview_is_match_nocase_cstr_mono : mono.

Lemma strview_starts_with_mono fw cf : forall (m : mem) (str1 str2 : view),
  below (strview_starts_with (restrict fw cf) m str1 str2) (strview_starts_with cf m str1 str2).
Proof. intros; unfold strview_starts_with; mono. Qed.
Global Hint Resolve strview_starts_with_mono : mono.

Lemma strview_starts_with_cstr_mono fw cf : forall (m : mem) (str1 : view) (str2 : ptr),
  below (strview_starts_with_cstr (restrict fw cf) m str1 str2) (strview_starts_with_cstr cf m str1 str2).
Proof. intros; unfold strview_starts_with_cstr; mono. Qed.
Global Hint Resolve strview_starts_with_cstr_mono : mono.

Lemma strview_starts_with_nocase_mono fw cf : forall (m : mem) (str1 str2 : view),
  below (strview_starts_with_nocase (restrict fw cf) m str1 str2) (strview_starts_with_nocase cf m str1 str2).
Proof. intros; unfold strview_starts_with_nocase; mono. Qed.
Global Hint Resolve strview_starts_with_nocase_mono : mono.

Lemma strview_starts_with_nocase_cstr_mono fw cf : forall (m : mem) (str1 : view) (str2 : ptr),
  below (strview_starts_with_nocase_cstr (restrict fw cf) m str1 str2) (strview_starts_with_nocase_cstr cf m str1 str2).
Proof. intros; unfold strview_starts_with_nocase_cstr; mono. Qed.
Global Hint Resolve strview_starts_with_nocase_cstr_mono : mono.

Lemma strview_compare_mono fw cf : forall (m : mem) (str1 str2 : view),
  below (strview_compare (restrict fw cf) m str1 str2) (strview_compare cf m str1 str2).
Proof. intros; unfold strview_compare; mono. Qed.
Global Hint Resolve strview_compare_mono : mono.

Lemma strview_sub_mono fw cf : forall (m : mem) (str : view) (begin_ end_ : Z),
  below (strview_sub (restrict fw cf) m str begin_ end_) (strview_sub cf m str begin_ end_).
Proof. intros; unfold strview_sub; mono. Qed.
Global Hint Resolve strview_sub_mono : mono.

Lemma contains_char_loop_mono fw cf : forall (fuel : nat) (m : mem) (endp p : ptr) (c : Z) (found : bool),
  below (contains_char_loop (restrict fw cf) fuel m endp p c found) (contains_char_loop cf fuel m endp p c found).
Proof.
  induction fuel; intros; cbn [contains_char_loop]; mono.
Qed.
Global Hint Resolve contains_char_loop_mono : mono.

Lemma contains_char_mono fw cf : forall (m : mem) (str : view) (c : Z),
  below (contains_char (restrict fw cf) m str c) (contains_char cf m str c).
Proof. intros; unfold contains_char; mono. Qed.
Global Hint Resolve contains_char_mono : mono.

Lemma trim_start_loop_mono fw cf : forall (fuel : nat) (m : mem) (str chars : view),
  below (trim_start_loop (restrict fw cf) fuel m str chars) (trim_start_loop cf fuel m str chars).
Proof.
  induction fuel; intros; cbn [trim_start_loop]; mono.
Qed.
Global Hint Resolve trim_start_loop_mono : mono.

Lemma strview_trim_start_mono fw cf : forall (m : mem) (str chars : view),
  below (strview_trim_start (restrict fw cf) m str chars) (strview_trim_start cf m str chars).
Proof. intros; unfold strview_trim_start; mono. Qed.
Global Hint Resolve strview_trim_start_mono : mono.

Lemma strview_trim_start_cstr_mono fw cf : forall (m : mem) (str : view) (chars : ptr),
  below (strview_trim_start_cstr (restrict fw cf) m str chars) (strview_trim_start_cstr cf m str chars).
Proof. intros; unfold strview_trim_start_cstr; mono. Qed.
Global Hint Resolve strview_trim_start_cstr_mono : mono.

Lemma trim_end_loop_mono fw cf : forall (fuel : nat) (m : mem) (str chars : view),
  below (trim_end_loop (restrict fw cf) fuel m str chars) (trim_end_loop cf fuel m str chars).
Proof.
  induction fuel; intros; cbn [trim_end_loop]; mono.
Qed.
Global Hint Resolve trim_end_loop_mono : mono.

Lemma strview_trim_end_mono fw cf : forall (m : mem) (str chars : view),
  below (strview_trim_end (restrict fw cf) m str chars) (strview_trim_end cf m str chars).
Proof. intros; unfold strview_trim_end; mono. Qed.
Global Hint Resolve strview_trim_end_mono : mono.

Lemma strview_trim_end_cstr_mono fw cf : forall (m : mem) (str : view) (chars : ptr),
  below (strview_trim_end_cstr (restrict fw cf) m str chars) (strview_trim_end_cstr cf m str chars).
Proof. intros; unfold strview_trim_end_cstr; mono. Qed.
Global Hint Resolve strview_trim_end_cstr_mono : mono.

Lemma strview_trim_mono fw cf : forall (m : mem) (str chars : view),
  below (strview_trim (restrict fw cf) m str chars) (strview_trim cf m str chars).
Proof. intros; unfold strview_trim; mono. Qed.
Global Hint Resolve strview_trim_mono : mono.

Lemma strview_trim_cstr_mono fw cf : forall (m : mem) (str : view) (chars : ptr),
  below (strview_trim_cstr (restrict fw cf) m str chars) (strview_trim_cstr cf m str chars).
Proof. intros; unfold strview_trim_cstr; mono. Qed.
Global Hint Resolve strview_trim_cstr_mono : mono.

Lemma find_first_loop_mono fw cf c1 c2 : (forall m a b n, below (c1 m a b n) (c2 m a b n)) ->
  forall fuel m hay needle rem found,
  below (find_first_loop (restrict fw cf) fuel m c1 hay needle rem found)
        (find_first_loop cf fuel m c2 hay needle rem found).
Proof.
  intro C. induction fuel; intros; cbn [find_first_loop]; mono.
Qed.
Global Hint Resolve find_first_loop_mono : mono.

Lemma find_first_mono fw cf c1 c2 : (forall m a b n, below (c1 m a b n) (c2 m a b n)) ->
  forall m hay needle,
  below (find_first (restrict fw cf) m c1 hay needle) (find_first cf m c2 hay needle).
Proof. intros C; intros; unfold find_first; mono. Qed.
Global Hint Resolve find_first_mono : mono.

Lemma strview_find_first_mono fw cf : forall (m : mem) (hay needle : view),
  below (strview_find_first (restrict fw cf) m hay needle) (strview_find_first cf m hay needle).
Proof. intros; unfold strview_find_first; mono. Qed.
Global Hint Resolve strview_find_first_mono : mono.

Lemma strview_find_first_nocase_mono fw cf : forall (m : mem) (hay needle : view),
  below (strview_find_first_nocase (restrict fw cf) m hay needle) (strview_find_first_nocase cf m hay needle).
Proof. intros; unfold strview_find_first_nocase; mono. Qed.
Global Hint Resolve strview_find_first_nocase_mono : mono.

Lemma strview_find_first_cstr_mono fw cf : forall (m : mem) (hay : view) (needle : ptr),
  below (strview_find_first_cstr (restrict fw cf) m hay needle) (strview_find_first_cstr cf m hay needle).
Proof. intros; unfold strview_find_first_cstr; mono. Qed.
Global Hint Resolve strview_find_first_cstr_mono : mono.

Lemma strview_find_first_nocase_cstr_mono fw cf : forall (m : mem) (hay : view) (needle : ptr),
  below (strview_find_first_nocase_cstr (restrict fw cf) m hay needle) (strview_find_first_nocase_cstr cf m hay needle).
Proof. intros; unfold strview_find_first_nocase_cstr; mono. Qed.
Global Hint Resolve strview_find_first_nocase_cstr_mono : mono.

Lemma strview_contains_mono fw cf : forall (m : mem) (hay needle : view),
  below (strview_contains (restrict fw cf) m hay needle) (strview_contains cf m hay needle).
Proof. intros; unfold strview_contains; mono. Qed.
Global Hint Resolve strview_contains_mono : mono.

Lemma strview_contains_nocase_mono fw cf : forall (m : mem) (hay needle : view),
  below (strview_contains_nocase (restrict fw cf) m hay needle) (strview_contains_nocase cf m hay needle).
Proof. intros; unfold strview_contains_nocase; mono. Qed.
Global Hint Resolve strview_contains_nocase_mono : mono.

Lemma find_last_loop_mono fw cf c1 c2 : (forall m a b n, below (c1 m a b n) (c2 m a b n)) ->
  forall fuel m hay needle rem found,
  below (find_last_loop (restrict fw cf) fuel m c1 hay needle rem found)
        (find_last_loop cf fuel m c2 hay needle rem found).
Proof.
  intro C. induction fuel; intros; cbn [find_last_loop]; mono.
Qed.
Global Hint Resolve find_last_loop_mono : mono.

Lemma find_last_mono fw cf c1 c2 : (forall m a b n, below (c1 m a b n) (c2 m a b n)) ->
  forall m hay needle,
  below (find_last (restrict fw cf) m c1 hay needle) (find_last cf m c2 hay needle).
Proof. intros C; intros; unfold find_last; mono. Qed.
Global Hint Resolve find_last_mono : mono.

Lemma strview_find_last_mono fw cf : forall (m : mem) (hay needle : view),
  below (strview_find_last (restrict fw cf) m hay needle) (strview_find_last cf m hay needle).
Proof. intros; unfold strview_find_last; mono. Qed.
Global Hint Resolve strview_find_last_mono : mono.

Lemma strview_find_last_nocase_mono fw cf : forall (m : mem) (hay needle : view),
  below (strview_find_last_nocase (restrict fw cf) m hay needle) (strview_find_last_nocase cf m hay needle).
Proof. intros; unfold strview_find_last_nocase; mono. Qed.
Global Hint Resolve strview_find_last_nocase_mono : mono.

Lemma strview_find_last_cstr_mono fw cf : forall (m : mem) (hay : view) (needle : ptr),
  below (strview_find_last_cstr (restrict fw cf) m hay needle) (strview_find_last_cstr cf m hay needle).
Proof. intros; unfold strview_find_last_cstr; mono. Qed.
Global Hint Resolve strview_find_last_cstr_mono : mono.

Lemma strview_find_last_nocase_cstr_mono fw cf : forall (m : mem) (hay : view) (needle : ptr),
  below (strview_find_last_nocase_cstr (restrict fw cf) m hay needle) (strview_find_last_nocase_cstr cf m hay needle).
Proof. intros; unfold strview_find_last_nocase_cstr; mono. Qed.
Global Hint Resolve strview_find_last_nocase_cstr_mono : mono.

Lemma split_first_loop_mono fw cf : forall (fuel : nat) (m : mem) (endp : ptr) (delims : view) (exq : bool) (p : ptr) (found in_quotes : bool),
  below (split_first_loop (restrict fw cf) fuel m endp delims exq p found in_quotes)
        (split_first_loop cf fuel m endp delims exq p found in_quotes).
Proof.
  induction fuel; intros; cbn [split_first_loop]; mono.
Qed.
Global Hint Resolve split_first_loop_mono : mono.

Lemma split_first_delim_mono fw cf : forall (m : mem) (s delims : view) (exq : bool),
  below (split_first_delim (restrict fw cf) m s delims exq) (split_first_delim cf m s delims exq).
Proof. intros; unfold split_first_delim; mono. Qed.
Global Hint Resolve split_first_delim_mono : mono.

Lemma strview_split_first_delim_mono fw cf : forall (m : mem) (sp : option view) (delims : ptr) (exq : bool),
  below (strview_split_first_delim (restrict fw cf) m sp delims exq) (strview_split_first_delim cf m sp delims exq).
Proof. intros; unfold strview_split_first_delim; mono. Qed.
Global Hint Resolve strview_split_first_delim_mono : mono.

Lemma split_all_loop_mono fw cf : forall (n : nat) (m : mem) (src : view) (delims : ptr) (exq : bool),
  below (split_all_loop (restrict fw cf) n m src delims exq) (split_all_loop cf n m src delims exq).
Proof.
  induction n; intros; cbn [split_all_loop]; mono.
Qed.
Global Hint Resolve split_all_loop_mono : mono.

Lemma strview_split_all_mono fw cf : forall (m : mem) (dst_size : Z) (src : view) (delims : ptr) (exq : bool),
  below (strview_split_all (restrict fw cf) m dst_size src delims exq) (strview_split_all cf m dst_size src delims exq).
Proof. intros; unfold strview_split_all; mono. Qed.
Global Hint Resolve strview_split_all_mono : mono.

Lemma split_last_loop_mono fw cf : forall (fuel : nat) (m : mem) (s delims : view) (exq : bool) (p : ptr) (found in_quotes : bool),
  below (split_last_loop (restrict fw cf) fuel m s delims exq p found in_quotes)
        (split_last_loop cf fuel m s delims exq p found in_quotes).
Proof.
  induction fuel; intros; cbn [split_last_loop]; mono.
Qed.
Global Hint Resolve split_last_loop_mono : mono.

Lemma split_last_delim_mono fw cf : forall (m : mem) (s delims : view) (exq : bool),
  below (split_last_delim (restrict fw cf) m s delims exq) (split_last_delim cf m s delims exq).
Proof. intros; unfold split_last_delim; mono. Qed.
Global Hint Resolve split_last_delim_mono : mono.

Lemma strview_split_last_delim_mono fw cf : forall (m : mem) (sp : option view) (delims : ptr) (exq : bool),
  below (strview_split_last_delim (restrict fw cf) m sp delims exq) (strview_split_last_delim cf m sp delims exq).
Proof. intros; unfold strview_split_last_delim; mono. Qed.
Global Hint Resolve strview_split_last_delim_mono : mono.

Lemma split_index_mono fw cf : forall (m : mem) (s : view) (index : Z),
  below (split_index (restrict fw cf) m s index) (split_index cf m s index).
Proof. intros; unfold split_index; mono. Qed.
Global Hint Resolve split_index_mono : mono.

Lemma strview_split_index_mono fw cf : forall (m : mem) (sp : option view) (index : Z),
  below (strview_split_index (restrict fw cf) m sp index) (strview_split_index cf m sp index).
Proof. intros; unfold strview_split_index; mono. Qed.
Global Hint Resolve strview_split_index_mono : mono.

Lemma strview_pop_first_char_mono fw cf : forall (m : mem) (sp : option view),
  below (strview_pop_first_char (restrict fw cf) m sp) (strview_pop_first_char cf m sp).
Proof. intros; unfold strview_pop_first_char; mono. Qed.
Global Hint Resolve strview_pop_first_char_mono : mono.

Lemma pop_view_mono fw cf : forall (m : mem) (s : view),
  below (pop_view (restrict fw cf) m s) (pop_view cf m s).
Proof. intros; unfold pop_view; mono. Qed.
Global Hint Resolve pop_view_mono : mono.

Lemma strview_split_line_mono fw cf : forall (m : mem) (sp : option view) (eol : option Z),
  below (strview_split_line (restrict fw cf) m sp eol) (strview_split_line cf m sp eol).
Proof. intros; unfold strview_split_line; mono. Qed.
Global Hint Resolve strview_split_line_mono : mono.

Lemma strview_split_left_mono fw cf : forall (m : mem) (sp : option view) (pos : view),
  below (strview_split_left (restrict fw cf) m sp pos) (strview_split_left cf m sp pos).
Proof. intros; unfold strview_split_left; mono. Qed.
Global Hint Resolve strview_split_left_mono : mono.

Lemma strview_split_right_mono fw cf : forall (m : mem) (sp : option view) (pos : view),
  below (strview_split_right (restrict fw cf) m sp pos) (strview_split_right cf m sp pos).
Proof. intros; unfold strview_split_right; mono. Qed.
Global Hint Resolve strview_split_right_mono : mono.

Lemma dequote_loop_mono fw cf : forall (fuel : nat) (m : mem) (result : view) (quote_char : Z),
  below (dequote_loop (restrict fw cf) fuel m result quote_char) (dequote_loop cf fuel m result quote_char).
Proof.
  induction fuel; intros; cbn [dequote_loop]; mono.
Qed.
Global Hint Resolve dequote_loop_mono : mono.

Lemma strview_dequote_mono fw cf : forall (m : mem) (src : view),
  below (strview_dequote (restrict fw cf) m src) (strview_dequote cf m src).
Proof. intros; unfold strview_dequote; mono. Qed.
Global Hint Resolve strview_dequote_mono : mono.

