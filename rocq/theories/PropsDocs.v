(** Property theorems for what the documentation says and recommends (C118 - C126), each with a concrete instance. *)
From Coq Require Import String.
From Verif Require Import Base Mem Libc StrviewModel Spec MemLemmas StrviewProofs StrviewProofs2 StrviewProofs3 StrviewProofs4
  Alloc StrbufModel BufSpec BufSpec2 HistSpec StrbufProofs10 DocsModel DocsProofs ExampleLib BufExample PropsView PropsBuf PropsBuf2.
Local Open Scope string_scope.
Local Open Scope list_scope.
Local Open Scope Z_scope.

(** ** C118: what docs/strview-api.md:214 says of an index out of range is false *)
Theorem C118_out_of_range_refuted : exists m s l i r s', mem_wf m /\ has_view m s l /\ Zlen l < i <= INT_MAX /\
  strview_split_index gcc64 m (Some s) i = Ok (r, Some s') /\ r = s /\ strview_is_valid r = true /\ s' <> s.
Proof.
  exists exm, whole, txt, 100. do 2 eexists. split; [wf_check|]. split; [view_check|]. split; [vm_compute; intuition discriminate|].
  split; [vm_compute; reflexivity|]. split; [reflexivity|]. split; [reflexivity|discriminate].
Qed.
Print Assumptions C118_out_of_range_refuted.
(** What happens (as strview.h:607-608 says): everything is split off, the source stays valid and is empty. *)
Theorem C118_takes_all_partial : forall cf m s l i, has_view m s l -> INT_MIN <= i <= INT_MAX ->
  (Zlen l <= i -> strview_split_index cf m (Some s) i = Ok (s, Some (subview s (Zlen l) 0)) /\ has_view m (subview s (Zlen l) 0) []) /\
  (i < 0 -> i <= - Zlen l -> strview_split_index cf m (Some s) i = Ok (s, Some (subview s 0 0)) /\ has_view m (subview s 0 0) []).
Proof. exact split_index_all. Qed.
Print Assumptions C118_takes_all_partial.
Example C118_ex : has_view exm whole txt /\ Zlen txt <= 100
  /\ strview_split_index iso64 exm (Some whole) 100 = Ok (whole, Some (vw 0 19 0))
  /\ strview_split_index iso64 exm (Some whole) (-100) = Ok (whole, Some (vw 0 0 0)).
Proof. split; [view_check|]. split; [discriminate|]. split; reflexivity. Qed.

(** ** C119: what strview.h:645-646 says of positions at the start of the source and outside of it is false *)
(** A position at the start: the source is split, the result is not empty. *)
Theorem C119_at_start_refuted : exists m s l p pl r s', mem_wf m /\ has_view m s l /\ has_view m p pl /\ v_data p = v_data s /\
  strview_split_right gcc64 m (Some s) p = Ok (r, Some s') /\ v_size r <> 0 /\ s' <> s.
Proof.
  exists exm, whole, txt, (vw 0 0 3), (bs "one"). do 2 eexists. split; [wf_check|]. split; [view_check|]. split; [view_check|]. split; [reflexivity|].
  split; [vm_compute; reflexivity|]. split; discriminate.
Qed.
Print Assumptions C119_at_start_refuted.
(** A position that has no character in common with the source, but ends where it starts: the whole
    source is returned and the source emptied. *)
Theorem C119_outside_refuted : exists m s l p pl r s', mem_wf m /\ has_view m s l /\ has_view m p pl /\
  shift (v_data p) (Zlen pl) = v_data s /\ strview_split_right gcc64 m (Some s) p = Ok (r, Some s') /\ r = s /\ v_size s' = 0.
Proof.
  exists exm, (vw 0 4 3), (bs "two"), (vw 0 0 4), (bs "one,"). do 2 eexists. split; [wf_check|]. split; [view_check|]. split; [view_check|]. split; [reflexivity|].
  split; [vm_compute; reflexivity|]. split; reflexivity.
Qed.
Print Assumptions C119_outside_refuted.
(** What holds: only where the position ends counts.  If that is [d] characters after the start of the
    source, the source is split there if it can be, and the call has no effect otherwise. *)
Theorem C119_end_counts_partial : forall cf m s l pos pl d, has_view m s l -> has_view m pos pl ->
  pdiff cf m (shift (v_data pos) (Zlen pl)) (v_data s) = Ok d ->
  (d < 0 \/ Zlen l < d -> strview_split_right cf m (Some s) pos = Ok (INVALID, Some s)) /\
  (forall a b, l = a ++ b -> Zlen a = d ->
     strview_split_right cf m (Some s) pos = Ok (subview s d (Zlen b), Some (subview s 0 d)) /\
     has_view m (subview s d (Zlen b)) b /\ has_view m (subview s 0 d) a).
Proof. exact split_right_end. Qed.
Print Assumptions C119_end_counts_partial.
Example C119_ex : has_view exm (vw 0 4 8) (bs "two;""a,b") /\ has_view exm (vw 0 2 6) (bs "e,two;")
  /\ pdiff iso64 exm (shift (v_data (vw 0 2 6)) 6) (v_data (vw 0 4 8)) = Ok 4
  /\ strview_split_right iso64 exm (Some (vw 0 4 8)) (vw 0 2 6) = Ok (vw 0 8 4, Some (vw 0 4 4)).
Proof. split; [view_check|]. split; [view_check|]. split; reflexivity. Qed.

(** ** C120: strview.h:421-422 is false of empty views *)
Theorem C120_empty_refuted : exists m v, mem_wf m /\ has_view m v [] /\
  strview_compare gcc64 m v INVALID = Ok 0 /\ strview_compare gcc64 m INVALID v = Ok 0.
Proof. exists exm, (vw 0 4 0). split; [wf_check|]. split; [view_check|]. split; reflexivity. Qed.
Print Assumptions C120_empty_refuted.
Theorem C120_invalid_first_partial : forall cf m v l, has_view m v l -> l <> [] ->
  (exists r, strview_compare cf m v INVALID = Ok r /\ r > 0) /\ (exists r, strview_compare cf m INVALID v = Ok r /\ r < 0) /\
  strview_compare cf m INVALID INVALID = Ok 0.
Proof. exact compare_invalid. Qed.
Print Assumptions C120_invalid_first_partial.
Example C120_ex : has_view exm (vw 0 4 3) (bs "two") /\ bs "two" <> [] /\ strview_compare iso64 exm (vw 0 4 3) INVALID = Ok 1.
Proof. split; [view_check|]. split; [discriminate|reflexivity]. Qed.

(** ** C121 *)
Theorem C121_split_at_first : forall cf m hay needle hl nl, has_view m hay hl -> has_view m needle nl ->
  (exists a b, hl = a ++ nl ++ b /\ is_least (occurs hl nl) (length a) /\
     (exists x y, find_split_left cf m hay needle = Ok (x, Some y) /\ has_view m x a /\ has_view m y (nl ++ b)) /\
     (exists x y, find_split_right cf m hay needle = Ok (x, Some y) /\ has_view m x b /\ has_view m y (a ++ nl)))
  \/ ((forall k, ~ occurs hl nl k) /\ find_split_left cf m hay needle = Ok (INVALID, Some hay) /\ find_split_right cf m hay needle = Ok (INVALID, Some hay)).
Proof. exact split_at_first. Qed.
Print Assumptions C121_split_at_first.
Theorem C121_split_at_last : forall cf m hay needle hl nl, c_ptr cf = true -> has_view m hay hl -> has_view m needle nl ->
  (exists a b, hl = a ++ nl ++ b /\ is_greatest (occurs hl nl) (length a) /\
     (exists x y, find_last_split_right cf m hay needle = Ok (x, Some y) /\ has_view m x b /\ has_view m y (a ++ nl)))
  \/ ((forall k, ~ occurs hl nl k) /\ find_last_split_right cf m hay needle = Ok (INVALID, Some hay)).
Proof. exact split_at_last. Qed.
Print Assumptions C121_split_at_last.
Definition names : mem := [blk 4096 (bs "First name: FRED, Second name: SMITH"); blk 8192 (bs "name: ")].
Example C121_ex : has_view names (vw 0 0 36) (bs "First name: FRED, Second name: SMITH") /\ has_view names (vw 1 0 6) (bs "name: ")
  /\ find_split_right iso64 names (vw 0 0 36) (vw 1 0 6) = Ok (vw 0 12 24, Some (vw 0 0 12))
  /\ has_view names (vw 0 12 24) (bs "FRED, Second name: SMITH")
  /\ find_last_split_right gcc64 names (vw 0 0 36) (vw 1 0 6) = Ok (vw 0 31 5, Some (vw 0 0 31)) /\ has_view names (vw 0 31 5) (bs "SMITH").
Proof. split; [view_check|]. split; [view_check|]. split; [reflexivity|]. split; [view_check|]. split; [reflexivity|view_check]. Qed.

(** ** C122 *)
Theorem C122_each_field : forall cf m src p l dl exq fuel, has_view m src l -> c_string m p dl -> (length l < fuel)%nat ->
  exists fs ds vs, fields exq dl l fs /\ length fs = S (length ds) /\ Forall (fun d => In d dl) ds /\ join fs ds = l /\
    each_field cf fuel m src p exq = Ok (vs, INVALID) /\ Forall2 (has_view m) vs fs.
Proof. exact each_field_all. Qed.
Print Assumptions C122_each_field.
Definition date : mem := [blk 4096 (bs "2022/10/03"); blk 8192 (bs "/" ++ [0])].
Example C122_ex : has_view date (vw 0 0 10) (bs "2022/10/03") /\ c_string date (Ptr (PBlk 1) 0) (bs "/")
  /\ each_field iso64 11 date (vw 0 0 10) (Ptr (PBlk 1) 0) false = Ok ([vw 0 0 4; vw 0 5 2; vw 0 8 2], INVALID)
  /\ has_view date (vw 0 0 4) (bs "2022") /\ has_view date (vw 0 5 2) (bs "10") /\ has_view date (vw 0 8 2) (bs "03").
Proof. split; [view_check|]. split; [cstr_check|]. split; [reflexivity|]. split; [view_check|]. split; view_check. Qed.

(** ** C123 *)
Theorem C123_trim_in_place : forall cf w p B chars o, wf_cfg cf -> mem_wf (s_mem w) -> buf_at cf (s_mem w) p B -> denotes (s_mem w) chars o -> set_ok cf o ->
  exists a b c, bf_data B = a ++ b ++ c
    /\ Forall (fun x => In x (contents o)) a /\ Forall (fun x => In x (contents o)) c
    /\ (forall x t, b = x :: t -> ~ In x (contents o)) /\ (forall t x, b = t ++ [x] -> ~ In x (contents o))
    /\ becomes_alone cf w p B (trim_in_place cf w (Some p) chars) (Buffer b (bf_cap B) (bf_alloc B)).
Proof. exact trim_in_place_ok. Qed.
Print Assumptions C123_trim_in_place.
Theorem C123_crop_in_place : forall cf w p B i j, wf_cfg cf -> mem_wf (s_mem w) -> buf_at cf (s_mem w) p B -> INT_MIN <= i <= INT_MAX -> INT_MIN <= j <= INT_MAX ->
  let n := Zlen (bf_data B) in
  exists a b c, bf_data B = a ++ b ++ c /\ becomes_alone cf w p B (crop_in_place cf w (Some p) i j) (Buffer b (bf_cap B) (bf_alloc B)) /\
    (bf_data B <> [] -> py_in n (py_index n i) (py_index n j) -> Zlen a = Z.max 0 (py_index n i) /\ Zlen a + Zlen b = Z.min n (py_index n j)) /\
    (~ py_in n (py_index n i) (py_index n j) -> b = []).
Proof. exact crop_in_place_ok. Qed.
Print Assumptions C123_crop_in_place.
(** The set of characters may be in the buffer itself; the allocator of the second world always fails. *)
Example C123_ex : wf_cfg gcc64 /\ mem_wf (s_mem w_move) /\ buf_at gcc64 (s_mem w_move) pdyn b_hello /\ has_view (s_mem w_move) (vw 0 24 2) (bs "he")
  /\ shows gcc64 (trim_in_place gcc64 w_move (Some pdyn) (vw 0 24 2)) = Some (Some (bs "llo"), 8)
  /\ shows gcc64 (crop_in_place gcc64 w_fail (Some pdyn) 1 (-1)) = Some (Some (bs "ell"), 8)
  /\ shows gcc64 (crop_in_place gcc64 w_fail (Some pfix) 3 100) = Some (Some (bs "def"), 10)
  /\ shows gcc64 (crop_in_place gcc64 w_fail (Some pfix) 7 100) = Some (Some [], 10).
Proof.
  split; [exact gcc64_wf|]. split; [exact xm_wf|]. split; [exact pdyn_ok|]. split; [view_check|]. do 3 (split; [vm_compute; reflexivity|]). vm_compute. reflexivity.
Qed.

(** ** C124 *)
Theorem C124_insert_itself : forall cf w p B i, ready cf w p B -> INT_MIN <= i <= INT_MAX -> sums_ok cf (Zlen (bf_data B) + Zlen (bf_data B)) ->
  becomes cf w p B (insert_itself cf w (Some p) i) (put cf B (insert (bf_data B) i (bf_data B))).
Proof. intros cf w p B i (H1 & H2 & H3 & H4). now apply insert_itself_ok. Qed.
Print Assumptions C124_insert_itself.
Theorem C124_insert_found : forall cf w p B needle nl src l, ready cf w p B -> c_ptr cf = true ->
  has_view (s_mem w) needle nl -> source cf (s_mem w) p B src l -> sums_ok cf (Zlen (bf_data B) + Zlen l) ->
  (exists a b, bf_data B = a ++ nl ++ b /\ is_least (occurs (bf_data B) nl) (length a) /\
     becomes cf w p B (insert_before_found cf w (Some p) needle src) (put cf B (a ++ l ++ nl ++ b)) /\
     becomes cf w p B (insert_after_found cf w (Some p) needle src) (put cf B (a ++ nl ++ l ++ b)))
  \/ ((forall k, ~ occurs (bf_data B) nl k) /\
      insert_before_found cf w (Some p) needle src = Ok (buf_view cf p B, Some p, w) /\
      insert_after_found cf w (Some p) needle src = Ok (buf_view cf p B, Some p, w)).
Proof. intros cf w p B needle nl src l (H1 & H2 & H3 & H4) Hc. now apply insert_found_ok. Qed.
Print Assumptions C124_insert_found.
Example C124_ex : ready gcc64 w_move pdyn b_hello /\ has_view (s_mem w_move) (vw 3 0 2) (bs "lo") /\ source gcc64 (s_mem w_move) pdyn b_hello wide (bs "wide")
  /\ shows gcc64 (insert_itself gcc64 w_move (Some pdyn) 2) = Some (Some (bs "hehellollo"), 16)
  /\ shows gcc64 (insert_before_found gcc64 w_move (Some pdyn) (vw 3 0 2) wide) = Some (Some (bs "helwidelo"), 16)
  /\ shows gcc64 (insert_after_found gcc64 w_move (Some pdyn) (vw 0 25 1) (vw 0 24 5)) = Some (Some (bs "hehellollo"), 16)
  /\ shows gcc64 (insert_after_found gcc64 w_move (Some pdyn) wide wide) = Some (Some (bs "hello"), 8).
Proof.
  split; [exact dyn_ready|]. split; [view_check|]. split; [apply wide_src; discriminate|]. do 3 (split; [vm_compute; reflexivity|]). vm_compute. reflexivity.
Qed.

(** ** C125 *)
Theorem C125_receive : forall cf w p B chunk cl header hd, ready cf w p B -> c_ptr cf = true ->
  source cf (s_mem w) p B chunk cl -> has_view (s_mem w) header hd -> outside cf p B header hd -> sums_ok cf (Zlen (bf_data B) + Zlen cl) ->
  let B1 := put cf B (bf_data B ++ cl) in
  exists junk kept, bf_data B1 = junk ++ kept /\
    becomes cf w p B (receive cf w (Some p) chunk header) (Buffer kept (bf_cap B1) (bf_alloc B1)) /\
    (is_least (occurs (bf_data B1) hd) (length junk) \/ (forall k, ~ occurs (bf_data B1) hd k) /\ junk = []).
Proof. intros cf w p B chunk cl header hd (H1 & H2 & H3 & H4) Hc. now apply receive_ok. Qed.
Print Assumptions C125_receive.
Example C125_ex : ready gcc64 w_move pdyn b_hello /\ source gcc64 (s_mem w_move) pdyn b_hello wide (bs "wide")
  /\ has_view (s_mem w_move) (vw 3 0 2) (bs "lo") /\ outside gcc64 pdyn b_hello (vw 3 0 2) (bs "lo")
  /\ shows gcc64 (receive gcc64 w_move (Some pdyn) wide (vw 3 0 2)) = Some (Some (bs "lowide"), 16)
  /\ shows gcc64 (receive gcc64 w_move (Some pdyn) wide (vw 1 5 5)) = Some (Some (bs "hellowide"), 16).
Proof.
  split; [exact dyn_ready|]. split; [apply wide_src; discriminate|]. split; [view_check|].
  split; [split; [eexists; reflexivity|left; cbn; congruence]|]. split; vm_compute; reflexivity.
Qed.

(** ** C126 *)
(** [use] is the function that needs a C string: whatever it does with the bytes of the view followed by a
    NUL, it is given them in memory of its own, and afterwards nothing of it remains. *)
Theorem C126_with_c_string : forall {T} cf w dflt v l (use : mem -> ptr -> outcome T) (R : T -> Prop), wf_cfg cf -> c_ptr cf = true ->
  mem_wf (s_mem w) -> no_fail w -> is_dyn dflt = true ->
  (v = INVALID /\ l = [] \/ has_view (s_mem w) v l /\ exists b, p_obj (v_data v) = PBlk b) -> sums_ok cf (Zlen l) ->
  (forall m q, bytes_at m q (l ++ [0]) -> (forall i, (i < length (s_mem w))%nat -> nth_error m i = nth_error (s_mem w) i) -> exists r, use m q = Ok r /\ R r) ->
  exists r w', with_c_string cf w dflt v use = Ok (r, w') /\ R r /\
    (forall i, (i < length (s_mem w))%nat -> nth_error (s_mem w') i = nth_error (s_mem w) i) /\
    (forall i k, (length (s_mem w) <= i)%nat -> nth_error (s_mem w') i = Some k -> b_live k = false) /\ mem_wf (s_mem w') /\ no_fail w'.
Proof. exact @with_c_string_ok. Qed.
Print Assumptions C126_with_c_string.
(** strlen as the function: it counts the characters up to the first NUL. *)
Theorem C126_strlen : forall cf w dflt v l, wf_cfg cf -> c_ptr cf = true -> mem_wf (s_mem w) -> no_fail w -> is_dyn dflt = true ->
  has_view (s_mem w) v l -> (exists b, p_obj (v_data v) = PBlk b) -> sums_ok cf (Zlen l) -> ~ In 0 l ->
  exists w', with_c_string cf w dflt v strlen = Ok (Zlen l, w').
Proof. exact with_c_string_strlen. Qed.
Print Assumptions C126_strlen.
Example C126_ex : has_view (s_mem w_move) wide (bs "wide") /\ is_dyn heapA = true
  /\ (exists w', with_c_string gcc64 w_move heapA wide strlen = Ok (4, w')).
Proof. split; [view_check|]. split; [reflexivity|]. eexists. vm_compute. reflexivity. Qed.
