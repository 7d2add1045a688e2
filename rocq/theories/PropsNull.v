(** C157: NULL strings, NULL pointers and invalid views are accepted by every function of strview and, as text, by strbuf. *)
From Coq Require Import String.
From Verif Require Import Base Mem Libc StrviewModel Spec MemLemmas StrviewProofs Alloc StrbufModel BufSpec ViewProg NullProofs
  ExampleLib BufExample PropsView PropsBuf PropsBuf2.
Local Open Scope string_scope.
Local Open Scope list_scope.
Local Open Scope Z_scope.

(** A NULL string in place of the text to look for: it matches what is empty, begins only invalid views, is found nowhere and
    separates or trims nothing. *)
Theorem C157_null_string : forall cf m v o, usual cf -> mem_wf m -> denotes m v o ->
  (strview_is_match_cstr cf m v null = Ok (match contents o with [] => true | _ => false end) /\
   strview_is_match_nocase_cstr cf m v null = Ok (match contents o with [] => true | _ => false end) /\
   strview_starts_with_cstr cf m v null = Ok (match o with None => true | Some _ => false end) /\
   strview_starts_with_nocase_cstr cf m v null = Ok (match o with None => true | Some _ => false end)) /\
  (strview_find_first_cstr cf m v null = Ok INVALID /\ strview_find_first_nocase_cstr cf m v null = Ok INVALID /\
   strview_find_last_cstr cf m v null = Ok INVALID /\ strview_find_last_nocase_cstr cf m v null = Ok INVALID) /\
  (strview_trim_start_cstr cf m v null = Ok v /\ strview_trim_end_cstr cf m v null = Ok v /\ strview_trim_cstr cf m v null = Ok v) /\
  (forall q, strview_split_first_delim cf m (Some v) null q = Ok (v, Some INVALID) /\
             strview_split_last_delim cf m (Some v) null q = Ok (v, Some INVALID)) /\
  (forall q n, 0 < n -> strview_split_all cf m n v null q = Ok (match o with None => [] | Some _ => [v] end)).
Proof. exact null_string. Qed.
Print Assumptions C157_null_string.

(** An invalid view in place of the text searched or split, or of the text to look for. *)
Theorem C157_invalid_view : forall cf m v o p dl, usual cf -> denotes m v o -> p = null \/ c_string m p dl ->
  (strview_find_last cf m INVALID v = Ok INVALID /\ strview_find_last cf m v INVALID = Ok INVALID /\
   strview_find_last_nocase cf m INVALID v = Ok INVALID /\ strview_find_last_nocase cf m v INVALID = Ok INVALID) /\
  (strview_contains cf m INVALID v = Ok false /\ strview_contains cf m v INVALID = Ok false /\
   strview_contains_nocase cf m INVALID v = Ok false /\ strview_contains_nocase cf m v INVALID = Ok false) /\
  (forall q, strview_split_first_delim cf m (Some INVALID) p q = Ok (INVALID, Some INVALID) /\
             strview_split_last_delim cf m (Some INVALID) p q = Ok (INVALID, Some INVALID)) /\
  (forall q n, strview_split_all cf m n INVALID p q = Ok []) /\
  (forall i, INT_MIN <= i <= INT_MAX -> strview_split_index cf m (Some INVALID) i = Ok (INVALID, Some INVALID)).
Proof. exact invalid_view. Qed.
Print Assumptions C157_invalid_view.

(** A NULL pointer in place of the view to split: an invalid view (no character) is returned, in every configuration. *)
Theorem C157_null_pointer : forall cf m p q v i eol,
  strview_split_first_delim cf m None p q = Ok (INVALID, None) /\ strview_split_last_delim cf m None p q = Ok (INVALID, None) /\
  strview_split_index cf m None i = Ok (INVALID, None) /\ strview_split_left cf m None v = Ok (INVALID, None) /\
  strview_split_right cf m None v = Ok (INVALID, None) /\ strview_split_line cf m None eol = Ok (INVALID, None, eol) /\
  strview_pop_first_char cf m None = Ok (0, None).
Proof. exact null_pointer. Qed.
Print Assumptions C157_null_pointer.

(** A NULL string in place of the text to insert or to strip leaves the buffer with its contents and capacity; assigning an
    invalid view empties it. *)
Theorem C157_buffer : forall cf w p B i x d y, ready cf w p B -> c_ptr cf = true -> INT_MIN <= i <= INT_MAX -> sums_ok cf (Zlen (bf_data B)) ->
  bf_data B = x ++ d ++ y ->
  let at_ := View (shift (chars_of cf p) (Zlen x)) (Zlen d) in
  becomes cf w p B (strbuf_append_cstr cf w (Some p) null) B /\
  becomes cf w p B (strbuf_prepend_cstr cf w (Some p) null) B /\
  becomes cf w p B (strbuf_insert_at_index_cstr cf w (Some p) i null) B /\
  becomes cf w p B (strbuf_insert_before_cstr cf w (Some p) at_ null) B /\
  becomes cf w p B (strbuf_insert_after_cstr cf w (Some p) at_ null) B /\
  strbuf_strip_cstr cf w (Some p) null = Ok (buf_view cf p B, Some p, w) /\
  becomes cf w p B (strbuf_assign cf w (Some p) INVALID) (Buffer [] (bf_cap B) (bf_alloc B)).
Proof.
  intros cf w p B i x d y R C Hi Hs E at_. subst at_. repeat match goal with |- _ /\ _ => split end.
  - exact (append_null cf w p B R C Hs).
  - exact (prepend_null cf w p B R C Hs).
  - exact (insert_null cf w p B R C Hs i Hi).
  - exact (before_null cf w p B R C Hs x d y E).
  - exact (after_null cf w p B R C Hs x d y E).
  - exact (strip_null cf w p B R).
  - exact (assign_null cf w p B R).
Qed.
Print Assumptions C157_buffer.

Example C157_ex :
  let m := [blk 64 (bs "a,b")] in let v := vw 0 0 3 in
  has_view m v (bs "a,b") /\ mem_wf m /\
  strview_split_first_delim gcc64 m (Some v) null false = Ok (v, Some INVALID) /\
  strview_find_last_cstr gcc64 m v null = Ok INVALID /\
  strview_trim_cstr gcc64 m v null = Ok v /\
  strview_starts_with_cstr gcc64 m v null = Ok false /\
  strview_find_last_cstr iso64 m v null = Ok INVALID /\
  strview_trim_cstr iso64 m v null = UB UB_ptr.
Proof. cbv zeta. split; [view_check|]. split; [wf_check|]. repeat split; vm_compute; reflexivity. Qed.
(** The middle of the buffer holding hello, with the insertion point around ell. *)
Example C157_buffer_ex : ready gcc64 w_move pdyn b_hello /\ sums_ok gcc64 (Zlen (bf_data b_hello)) /\
  bf_data b_hello = bs "h" ++ bs "ell" ++ bs "o" /\
  shows gcc64 (strbuf_append_cstr gcc64 w_move (Some pdyn) null) = Some (Some (bs "hello"), 8) /\
  shows gcc64 (strbuf_insert_at_index_cstr gcc64 w_move (Some pdyn) (-2) null) = Some (Some (bs "hello"), 8) /\
  shows gcc64 (strbuf_insert_after_cstr gcc64 w_move (Some pdyn) (vw 0 25 3) null) = Some (Some (bs "hello"), 8) /\
  shows gcc64 (strbuf_assign gcc64 w_move (Some pdyn) INVALID) = Some (Some [], 8).
Proof.
  split; [exact dyn_ready|]. split; [apply any_sums|]. repeat split; vm_compute; reflexivity.
Qed.
