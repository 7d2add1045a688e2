(** Property theorems for strview.h (C01 - C22), each with a concrete instance. *)
From Coq Require Import String.
From Verif Require Import Base Mem Libc StrviewModel Spec MemLemmas StrviewProofs StrviewProofs2
  StrviewProofs3 StrviewProofs4 ExampleLib.
Local Open Scope string_scope.
Local Open Scope list_scope.
Local Open Scope Z_scope.

(** Memory used by most examples: a text object, a second text, some C strings, a target. *)
Definition txt : list Z := bs "one,two;""a,b"",three".
Definition exm : mem :=
  [ blk 4096 txt; blk 8192 (bs "TWO;"); blk 12288 (bs ",;" ++ [0]); blk 16384 (bs "  pad  ");
    blk 20480 (bs " " ++ [0]); blk 24576 (repeat 120 16) ]%list.
Definition whole : view := vw 0 0 (Zlen txt).

Example exm_wf : mem_wf exm. Proof. wf_check. Qed.
Example whole_view : has_view exm whole txt. Proof. view_check. Qed.

(** ** C01 *)
Theorem C01_sub : forall cf m v l b e, has_view m v l ->
  INT_MIN <= b <= INT_MAX -> INT_MIN <= e <= INT_MAX ->
  (l = [] -> strview_sub cf m v b e = Ok v) /\
  (l <> [] -> ~ py_in (Zlen l) (py_index (Zlen l) b) (py_index (Zlen l) e) ->
     strview_sub cf m v b e = Ok INVALID) /\
  (l <> [] -> py_in (Zlen l) (py_index (Zlen l) b) (py_index (Zlen l) e) ->
     exists x y z, l = x ++ y ++ z
       /\ Zlen x = Z.max 0 (py_index (Zlen l) b)
       /\ Zlen x + Zlen y = Z.min (Zlen l) (py_index (Zlen l) e)
       /\ strview_sub cf m v b e = Ok (subview v (Zlen x) (Zlen y))
       /\ has_view m (subview v (Zlen x) (Zlen y)) y).
Proof.
  intros cf m v l b e H Hb He. split; [intros ->; now apply sub_empty|].
  split; intros Hn P; [eapply sub_out; eauto|]. eapply sub_ok; eauto.
Qed.
Print Assumptions C01_sub.
Theorem C01_sub_of_invalid : forall cf m b e, strview_sub cf m INVALID b e = Ok INVALID.
Proof. exact sub_invalid. Qed.
Print Assumptions C01_sub_of_invalid.
Example C01_ex : has_view exm whole txt /\ txt <> []
  /\ py_in (Zlen txt) (py_index (Zlen txt) 4) (py_index (Zlen txt) (-6))
  /\ strview_sub iso64 exm whole 4 (-6) = Ok (vw 0 4 9)
  /\ strview_sub iso64 exm whole 30 40 = Ok INVALID.
Proof. split; [view_check|]. repeat split; try discriminate; vm_compute; congruence. Qed.

(** ** C02 *)
Theorem C02_find_first : forall cf m hay needle hl nl, has_view m hay hl -> has_view m needle nl ->
  (exists k, is_least (occurs hl nl) k /\
     strview_find_first cf m hay needle = Ok (subview hay (Z.of_nat k) (Zlen nl)))
  \/ ((forall k, ~ occurs hl nl k) /\ strview_find_first cf m hay needle = Ok INVALID).
Proof.
  intros cf m hay needle hl nl H1 H2.
  pose proof (find_first_ok cf _ _ m hay needle hl nl (memcmp_ok cf) H1 H2) as K. rewrite !map_id in K. exact K.
Qed.
Print Assumptions C02_find_first.
Theorem C02_find_first_nocase : forall cf m hay needle hl nl, has_view m hay hl -> has_view m needle nl ->
  (exists k, is_least (occurs (map upper hl) (map upper nl)) k /\
     strview_find_first_nocase cf m hay needle = Ok (subview hay (Z.of_nat k) (Zlen nl)))
  \/ ((forall k, ~ occurs (map upper hl) (map upper nl) k)
      /\ strview_find_first_nocase cf m hay needle = Ok INVALID).
Proof. intros. apply find_first_ok; auto using memcmp_nocase_ok. Qed.
Print Assumptions C02_find_first_nocase.
Theorem C02_find_first_cstr : forall cf m hay p hl nl, has_view m hay hl -> c_string m p nl ->
  strview_find_first_cstr cf m hay p = strview_find_first cf m hay (View p (Zlen nl))
  /\ strview_find_first_nocase_cstr cf m hay p = strview_find_first_nocase cf m hay (View p (Zlen nl))
  /\ has_view m (View p (Zlen nl)) nl.
Proof.
  intros cf m hay p hl nl H1 H2. destruct (cstr_ok m p nl H2) as [E V].
  unfold strview_find_first_cstr, strview_find_first_nocase_cstr. rewrite E. auto.
Qed.
Print Assumptions C02_find_first_cstr.
Theorem C02_find_first_invalid : forall cf m hay needle, hay = INVALID \/ needle = INVALID ->
  strview_find_first cf m hay needle = Ok INVALID /\ strview_find_first_nocase cf m hay needle = Ok INVALID.
Proof. intros. split; now apply find_first_null. Qed.
Print Assumptions C02_find_first_invalid.
Example C02_ex : has_view exm whole txt /\ has_view exm (vw 1 0 4) (bs "TWO;")
  /\ strview_find_first iso64 exm whole (vw 1 0 4) = Ok INVALID
  /\ strview_find_first_nocase iso64 exm whole (vw 1 0 4) = Ok (vw 0 4 4)
  /\ is_least (occurs (map upper txt) (map upper (bs "TWO;"))) 4
  /\ strview_find_first iso64 exm whole (vw 0 3 1) = Ok (vw 0 3 1).
Proof.
  split; [view_check|]. split; [view_check|]. do 2 (split; [reflexivity|]). split; [|reflexivity].
  split; [exists (map upper (bs "one,")), (map upper (bs """a,b"",three")); split; reflexivity|].
  intros j Hj (a & b & E & <-). do 4 (destruct a as [|? a]; [discriminate|]). cbn in Hj. lia.
Qed.

(** ** C03 *)
Theorem C03_find_last : forall cf m hay needle hl nl, c_ptr cf = true -> has_view m hay hl -> has_view m needle nl ->
  (exists k, is_greatest (occurs hl nl) k /\
     strview_find_last cf m hay needle = Ok (subview hay (Z.of_nat k) (Zlen nl)))
  \/ ((forall k, ~ occurs hl nl k) /\ strview_find_last cf m hay needle = Ok INVALID).
Proof.
  intros cf m hay needle hl nl Hc H1 H2.
  pose proof (find_last_ok cf _ _ m hay needle hl nl Hc (memcmp_ok cf) H1 H2) as K. rewrite !map_id in K. exact K.
Qed.
Print Assumptions C03_find_last.
Theorem C03_find_last_nocase : forall cf m hay needle hl nl, c_ptr cf = true ->
  has_view m hay hl -> has_view m needle nl ->
  (exists k, is_greatest (occurs (map upper hl) (map upper nl)) k /\
     strview_find_last_nocase cf m hay needle = Ok (subview hay (Z.of_nat k) (Zlen nl)))
  \/ ((forall k, ~ occurs (map upper hl) (map upper nl) k)
      /\ strview_find_last_nocase cf m hay needle = Ok INVALID).
Proof. intros. apply find_last_ok; auto using memcmp_nocase_ok. Qed.
Print Assumptions C03_find_last_nocase.
Theorem C03_find_last_cstr : forall cf m hay p hl nl, has_view m hay hl -> c_string m p nl ->
  strview_find_last_cstr cf m hay p = strview_find_last cf m hay (View p (Zlen nl))
  /\ strview_find_last_nocase_cstr cf m hay p = strview_find_last_nocase cf m hay (View p (Zlen nl))
  /\ has_view m (View p (Zlen nl)) nl.
Proof.
  intros cf m hay p hl nl H1 H2. destruct (cstr_ok m p nl H2) as [E V].
  unfold strview_find_last_cstr, strview_find_last_nocase_cstr. rewrite E. auto.
Qed.
Print Assumptions C03_find_last_cstr.
Example C03_ex : c_ptr gcc64 = true /\ has_view exm whole txt
  /\ strview_find_last gcc64 exm whole (vw 2 0 1) = Ok (vw 0 13 1)
  /\ strview_find_first gcc64 exm whole (vw 2 0 1) = Ok (vw 0 3 1).
Proof. split; [reflexivity|]. split; [view_check|]. split; reflexivity. Qed.
(** In a strict reading of ISO C the search forms a pointer before the object. *)
Theorem C62_find_last_strict_refuted : exists m hay needle hl nl,
  mem_wf m /\ has_view m hay hl /\ has_view m needle nl /\
  strview_find_last iso64 m hay needle = UB UB_ptr.
Proof.
  exists exm, (vw 1 0 4), (vw 0 0 3), (bs "TWO;"), (bs "one").
  split; [wf_check|]. split; [view_check|]. split; [view_check|]. vm_compute. reflexivity.
Qed.
Print Assumptions C62_find_last_strict_refuted.
(** It is defined if the needle is not longer than the haystack and occurs in it, or if enough bytes
    of the object lie before the haystack: one, and as many as the needle is longer. *)
Theorem C62_find_last_strict_partial : forall cf m hay needle hl nl, has_view m hay hl -> has_view m needle nl ->
  Zlen nl - Zlen hl <= p_ofs (v_data hay) -> 1 <= p_ofs (v_data hay) \/ (exists k, occurs hl nl k) ->
  (exists k, is_greatest (occurs hl nl) k /\
     strview_find_last cf m hay needle = Ok (subview hay (Z.of_nat k) (Zlen nl)))
  \/ ((forall k, ~ occurs hl nl k) /\ strview_find_last cf m hay needle = Ok INVALID).
Proof.
  intros cf m hay needle hl nl H1 H2 R1 R2.
  pose proof (fun R => find_last_room cf _ _ m hay needle hl nl (or_intror R1) R (memcmp_ok cf) H1 H2) as K. rewrite !map_id in K.
  apply K. destruct R2; auto. left. now right.
Qed.
Print Assumptions C62_find_last_strict_partial.
Theorem C62_find_last_nocase_strict_partial : forall cf m hay needle hl nl, has_view m hay hl -> has_view m needle nl ->
  Zlen nl - Zlen hl <= p_ofs (v_data hay) -> 1 <= p_ofs (v_data hay) \/ (exists k, occurs (map upper hl) (map upper nl) k) ->
  (exists k, is_greatest (occurs (map upper hl) (map upper nl)) k /\
     strview_find_last_nocase cf m hay needle = Ok (subview hay (Z.of_nat k) (Zlen nl)))
  \/ ((forall k, ~ occurs (map upper hl) (map upper nl) k) /\ strview_find_last_nocase cf m hay needle = Ok INVALID).
Proof.
  intros cf m hay needle hl nl H1 H2 R1 R2. apply find_last_room; auto using memcmp_nocase_ok; [now right|].
  destruct R2; auto. left. now right.
Qed.
Print Assumptions C62_find_last_nocase_strict_partial.
Example C62_ex : has_view exm whole txt /\ c_ptr iso64 = false /\ occurs txt (bs ",") 3
  /\ strview_find_last iso64 exm whole (vw 2 0 1) = Ok (vw 0 13 1)
  /\ has_view exm (vw 0 1 3) (bs "ne,") /\ p_ofs (v_data (vw 0 1 3)) = 1
  /\ strview_find_last iso64 exm (vw 0 1 3) (vw 1 0 4) = Ok INVALID.
Proof.
  split; [view_check|]. split; [reflexivity|]. split; [apply occurs_iff; vm_compute; split; [lia|reflexivity]|].
  split; [reflexivity|]. split; [view_check|]. split; reflexivity.
Qed.

(** ** C04 *)
Theorem C04_contains : forall cf m hay needle hl nl, has_view m hay hl -> has_view m needle nl ->
  exists r, strview_contains cf m hay needle = Ok r /\ (r = true <-> exists k, occurs hl nl k).
Proof.
  intros cf m hay needle hl nl H1 H2.
  destruct (contains_gen cf _ _ m hay needle hl nl (memcmp_ok cf) H1 H2) as (r & E & K). rewrite !map_id in K.
  unfold strview_contains, strview_find_first. rewrite E. eexists; split; [reflexivity|exact K].
Qed.
Print Assumptions C04_contains.
Theorem C04_contains_nocase : forall cf m hay needle hl nl, has_view m hay hl -> has_view m needle nl ->
  exists r, strview_contains_nocase cf m hay needle = Ok r
    /\ (r = true <-> exists k, occurs (map upper hl) (map upper nl) k).
Proof.
  intros cf m hay needle hl nl H1 H2.
  destruct (contains_gen cf _ _ m hay needle hl nl (memcmp_nocase_ok cf) H1 H2) as (r & E & K).
  unfold strview_contains_nocase, strview_find_first_nocase. rewrite E. eexists; split; [reflexivity|exact K].
Qed.
Print Assumptions C04_contains_nocase.
Example C04_ex : has_view exm whole txt /\ has_view exm (vw 1 0 4) (bs "TWO;")
  /\ strview_contains iso64 exm whole (vw 1 0 4) = Ok false
  /\ strview_contains_nocase iso64 exm whole (vw 1 0 4) = Ok true.
Proof. split; [view_check|]. split; [view_check|]. split; reflexivity. Qed.

(** ** C05 *)
Theorem C05_trim_start : forall cf m s chars l o, has_view m s l -> denotes m chars o -> set_ok cf o ->
  exists a b, l = a ++ b
    /\ Forall (fun x => In x (contents o)) a
    /\ (forall x t, b = x :: t -> ~ In x (contents o))
    /\ strview_trim_start cf m s chars = Ok (subview s (Zlen a) (Zlen b))
    /\ has_view m (subview s (Zlen a) (Zlen b)) b
    /\ strview_trim_start cf m (subview s (Zlen a) (Zlen b)) chars = Ok (subview s (Zlen a) (Zlen b)).
Proof.
  intros cf m s chars l o H Hc Ho. destruct (trim_start_spec cf m s chars l o H Hc Ho) as (a & b & E1 & E2 & E3 & E4 & E5).
  exists a, b. repeat (split; [assumption|]). exact (trim_start_idem cf m s chars l o _ H Hc Ho E4).
Qed.
Print Assumptions C05_trim_start.
Theorem C05_trim_end : forall cf m s chars l o, has_view m s l -> denotes m chars o -> set_ok cf o ->
  exists b c, l = b ++ c
    /\ Forall (fun x => In x (contents o)) c
    /\ (forall t x, b = t ++ [x] -> ~ In x (contents o))
    /\ strview_trim_end cf m s chars = Ok (subview s 0 (Zlen b))
    /\ has_view m (subview s 0 (Zlen b)) b
    /\ strview_trim_end cf m (subview s 0 (Zlen b)) chars = Ok (subview s 0 (Zlen b)).
Proof.
  intros cf m s chars l o H Hc Ho. destruct (trim_end_spec cf m s chars l o H Hc Ho) as (a & b & E1 & E2 & E3 & E4 & E5).
  exists a, b. repeat (split; [assumption|]). exact (trim_end_idem cf m s chars l o _ H Hc Ho E4).
Qed.
Print Assumptions C05_trim_end.
Theorem C05_trim : forall cf m s chars l o, has_view m s l -> denotes m chars o -> set_ok cf o ->
  exists a b c, l = a ++ b ++ c
    /\ Forall (fun x => In x (contents o)) a /\ Forall (fun x => In x (contents o)) c
    /\ (forall x t, b = x :: t -> ~ In x (contents o))
    /\ (forall t x, b = t ++ [x] -> ~ In x (contents o))
    /\ strview_trim cf m s chars = Ok (subview s (Zlen a) (Zlen b))
    /\ has_view m (subview s (Zlen a) (Zlen b)) b
    /\ strview_trim cf m (subview s (Zlen a) (Zlen b)) chars = Ok (subview s (Zlen a) (Zlen b)).
Proof.
  intros cf m s chars l o H Hc Ho. destruct (trim_spec cf m s chars l o H Hc Ho) as (a & b & c & E1 & E2 & E3 & E4 & E5 & E6 & E7).
  exists a, b, c. repeat (split; [assumption|]). exact (trim_idem cf m s chars l o _ H Hc Ho E6).
Qed.
Print Assumptions C05_trim.
Theorem C05_trim_of_invalid : forall cf m chars,
  strview_trim_start cf m INVALID chars = Ok INVALID /\ strview_trim_end cf m INVALID chars = Ok INVALID
  /\ strview_trim cf m INVALID chars = Ok INVALID.
Proof. intros. repeat split. Qed.
Print Assumptions C05_trim_of_invalid.
Theorem C05_trim_cstr : forall cf m s p cl, c_string m p cl ->
  strview_trim_start_cstr cf m s p = strview_trim_start cf m s (View p (Zlen cl))
  /\ strview_trim_end_cstr cf m s p = strview_trim_end cf m s (View p (Zlen cl))
  /\ strview_trim_cstr cf m s p = strview_trim cf m s (View p (Zlen cl))
  /\ denotes m (View p (Zlen cl)) (Some cl).
Proof.
  intros cf m s p cl H. destruct (cstr_ok m p cl H) as [E V].
  unfold strview_trim_start_cstr, strview_trim_end_cstr, strview_trim_cstr. rewrite E. auto.
Qed.
Print Assumptions C05_trim_cstr.
Example C05_ex : has_view exm (vw 3 0 7) (bs "  pad  ") /\ c_string exm (Ptr (PBlk 4) 0) (bs " ")
  /\ strview_trim_cstr iso64 exm (vw 3 0 7) (Ptr (PBlk 4) 0) = Ok (vw 3 2 3)
  /\ set_ok iso64 (Some (bs " ")).
Proof. split; [view_check|]. split; [cstr_check|]. split; [reflexivity|discriminate]. Qed.

(** ** C06 *)
Theorem C06_is_match : forall cf m v1 v2 l1 l2, mem_wf m -> has_view m v1 l1 -> has_view m v2 l2 ->
  exists r, strview_is_match cf m v1 v2 = Ok r /\ (r = true <-> l1 = l2).
Proof. exact is_match_ok. Qed.
Print Assumptions C06_is_match.
Theorem C06_is_match_nocase : forall cf m v1 v2 l1 l2, mem_wf m -> has_view m v1 l1 -> has_view m v2 l2 ->
  exists r, strview_is_match_nocase cf m v1 v2 = Ok r /\ (r = true <-> map upper l1 = map upper l2).
Proof. exact is_match_nocase_ok. Qed.
Print Assumptions C06_is_match_nocase.
Theorem C06_is_match_cstr : forall cf m v1 p l2, c_string m p l2 ->
  strview_is_match_cstr cf m v1 p = strview_is_match cf m v1 (View p (Zlen l2))
  /\ strview_is_match_nocase_cstr cf m v1 p = strview_is_match_nocase cf m v1 (View p (Zlen l2))
  /\ has_view m (View p (Zlen l2)) l2.
Proof.
  intros cf m v1 p l2 H. destruct (cstr_ok m p l2 H) as [E V].
  unfold strview_is_match_cstr, strview_is_match_nocase_cstr. rewrite E. auto.
Qed.
Print Assumptions C06_is_match_cstr.
Example C06_ex : mem_wf exm /\ has_view exm (vw 0 4 4) (bs "two;") /\ has_view exm (vw 1 0 4) (bs "TWO;")
  /\ strview_is_match iso64 exm (vw 0 4 4) (vw 1 0 4) = Ok false
  /\ strview_is_match_nocase iso64 exm (vw 0 4 4) (vw 1 0 4) = Ok true.
Proof. split; [wf_check|]. split; [view_check|]. split; [view_check|]. split; reflexivity. Qed.

(** ** C07: false for the empty view; the exact behaviour *)
Theorem C07_invalid_matches_empty_refuted : exists m v,
  mem_wf m /\ has_view m v [] /\ strview_is_match gcc64 m INVALID v = Ok true.
Proof.
  exists exm, (vw 0 4 0). split; [wf_check|]. split; [view_check|]. vm_compute. reflexivity.
Qed.
Print Assumptions C07_invalid_matches_empty_refuted.
Theorem C07_invalid_never_matches_partial : forall cf m v l, mem_wf m -> c_mem0 cf = true -> has_view m v l ->
  strview_is_match cf m INVALID v = Ok (match l with [] => true | _ => false end)
  /\ strview_is_match cf m v INVALID = Ok (match l with [] => true | _ => false end).
Proof. exact is_match_invalid. Qed.
Print Assumptions C07_invalid_never_matches_partial.
Example C07_ex : mem_wf exm /\ has_view exm whole txt /\ c_mem0 gcc64 = true.
Proof. split; [wf_check|]. split; [view_check|]. reflexivity. Qed.

(** ** C08 *)
Theorem C08_starts_with : forall cf m v1 v2 l1 l2, mem_wf m -> has_view m v1 l1 -> has_view m v2 l2 ->
  exists r, strview_starts_with cf m v1 v2 = Ok r /\ (r = true <-> prefix_of l2 l1).
Proof. exact starts_with_ok. Qed.
Print Assumptions C08_starts_with.
Theorem C08_starts_with_nocase : forall cf m v1 v2 l1 l2, mem_wf m -> has_view m v1 l1 -> has_view m v2 l2 ->
  exists r, strview_starts_with_nocase cf m v1 v2 = Ok r /\ (r = true <-> prefix_of (map upper l2) (map upper l1)).
Proof. exact starts_with_nocase_ok. Qed.
Print Assumptions C08_starts_with_nocase.
Theorem C08_starts_with_cstr : forall cf m v1 p l2, c_string m p l2 ->
  strview_starts_with_cstr cf m v1 p = strview_starts_with cf m v1 (View p (Zlen l2))
  /\ strview_starts_with_nocase_cstr cf m v1 p = strview_starts_with_nocase cf m v1 (View p (Zlen l2))
  /\ has_view m (View p (Zlen l2)) l2.
Proof.
  intros cf m v1 p l2 H. destruct (cstr_ok m p l2 H) as [E V].
  unfold strview_starts_with_cstr, strview_starts_with_nocase_cstr. rewrite E. auto.
Qed.
Print Assumptions C08_starts_with_cstr.
Example C08_ex : mem_wf exm /\ has_view exm (vw 0 4 8) (bs "two;""a,b") /\ has_view exm (vw 1 0 4) (bs "TWO;")
  /\ strview_starts_with iso64 exm (vw 0 4 8) (vw 1 0 4) = Ok false
  /\ strview_starts_with_nocase iso64 exm (vw 0 4 8) (vw 1 0 4) = Ok true.
Proof. split; [wf_check|]. split; [view_check|]. split; [view_check|]. split; reflexivity. Qed.

(** ** C09 *)
Theorem C09_compare : forall cf m v1 v2 o1 o2, denotes m v1 o1 -> denotes m v2 o2 ->
  exists r, strview_compare cf m v1 v2 = Ok r /\ (r ?= 0) = lex (contents o1) (contents o2).
Proof. exact compare_ok. Qed.
Print Assumptions C09_compare.
Theorem C09_compare_order : forall cf m v1 v2 v3 o1 o2 o3,
  denotes m v1 o1 -> denotes m v2 o2 -> denotes m v3 o3 ->
  exists r12 r21 r23 r13,
    strview_compare cf m v1 v2 = Ok r12 /\ strview_compare cf m v2 v1 = Ok r21 /\
    strview_compare cf m v2 v3 = Ok r23 /\ strview_compare cf m v1 v3 = Ok r13 /\
    (r12 = 0 <-> contents o1 = contents o2) /\ (r12 < 0 <-> r21 > 0) /\
    (r12 < 0 -> r23 < 0 -> r13 < 0) /\ (r12 <= 0 -> r23 <= 0 -> r13 <= 0).
Proof. exact compare_order. Qed.
Print Assumptions C09_compare_order.
Example C09_ex : denotes exm (vw 0 0 3) (Some (bs "one")) /\ denotes exm (vw 1 0 4) (Some (bs "TWO;"))
  /\ denotes exm INVALID None
  /\ strview_compare iso64 exm (vw 0 0 3) (vw 1 0 4) = Ok 27
  /\ strview_compare iso64 exm (vw 0 0 2) (vw 0 0 3) = Ok (-1)
  /\ strview_compare iso64 exm INVALID (vw 0 0 3) = Ok (-1).
Proof. split; [view_check|]. split; [view_check|]. repeat split; reflexivity. Qed.

(** ** C10 *)
Theorem C10_split_first_delim : forall cf m s p l dl exq, has_view m s l -> c_string m p dl ->
  (exists a d b r s', l = a ++ d :: b /\ is_least (delim_at exq dl l) (length a) /\
     strview_split_first_delim cf m (Some s) p exq = Ok (r, Some s')
     /\ r = subview s 0 (Zlen a) /\ has_view m r a /\ has_view m s' b)
  \/ ((forall k, ~ delim_at exq dl l k) /\
      strview_split_first_delim cf m (Some s) p exq = Ok (s, Some INVALID)).
Proof.
  intros cf m s p l dl exq H Hp. destruct (cstr_ok m p dl Hp) as [E V].
  unfold strview_split_first_delim. rewrite E; cbn [bind].
  destruct (split_first_ok cf m s _ l dl exq H V) as [(a & d & b & E1 & E2 & -> & E4 & E5)|(E1 & ->)]; [left|right; auto].
  exists a, d, b. do 2 eexists. cbn [bind]. repeat (split; [eauto; reflexivity|]). auto.
Qed.
Print Assumptions C10_split_first_delim.
Theorem C10_split_first_delim_invalid : forall cf m p dl exq, c_string m p dl ->
  strview_split_first_delim cf m (Some INVALID) p exq = Ok (INVALID, Some INVALID)
  /\ strview_split_first_delim cf m None p exq = Ok (INVALID, None).
Proof.
  intros cf m p dl exq H. destruct (cstr_ok m p dl H) as [E V].
  unfold strview_split_first_delim. rewrite E. split; reflexivity.
Qed.
Print Assumptions C10_split_first_delim_invalid.
Example C10_ex : has_view exm whole txt /\ c_string exm (Ptr (PBlk 2) 0) (bs ",;")
  /\ strview_split_first_delim iso64 exm (Some whole) (Ptr (PBlk 2) 0) true = Ok (vw 0 0 3, Some (vw 0 4 15))
  /\ strview_split_first_delim iso64 exm (Some (vw 0 8 11)) (Ptr (PBlk 2) 0) true = Ok (vw 0 8 5, Some (vw 0 14 5))
  /\ strview_split_first_delim iso64 exm (Some (vw 0 8 11)) (Ptr (PBlk 2) 0) false = Ok (vw 0 8 2, Some (vw 0 11 8)).
Proof. split; [view_check|]. split; [cstr_check|]. repeat split; reflexivity. Qed.

(** ** C11 *)
Theorem C11_split_last_delim : forall cf m s p l dl exq, c_ptr cf = true -> has_view m s l -> c_string m p dl ->
  (exists a d b r s', l = a ++ d :: b /\ is_greatest (delim_at_end exq dl l) (length a) /\
     strview_split_last_delim cf m (Some s) p exq = Ok (r, Some s')
     /\ s' = subview s 0 (Zlen a) /\ has_view m r b /\ has_view m s' a)
  \/ ((forall k, ~ delim_at_end exq dl l k) /\
      strview_split_last_delim cf m (Some s) p exq = Ok (s, Some INVALID)).
Proof.
  intros cf m s p l dl exq Hc H Hp. destruct (cstr_ok m p dl Hp) as [E V].
  unfold strview_split_last_delim. rewrite E; cbn [bind].
  destruct (split_last_ok cf m s _ l dl exq Hc H V) as [(a & d & b & E1 & E2 & -> & E4 & E5)|(E1 & ->)]; [left|right; auto].
  exists a, d, b. do 2 eexists. cbn [bind]. repeat (split; [eauto; reflexivity|]). auto.
Qed.
Print Assumptions C11_split_last_delim.
Example C11_ex : c_ptr gcc64 = true /\ has_view exm whole txt /\ c_string exm (Ptr (PBlk 2) 0) (bs ",;")
  /\ strview_split_last_delim gcc64 exm (Some whole) (Ptr (PBlk 2) 0) true = Ok (vw 0 14 5, Some (vw 0 0 13))
  /\ strview_split_last_delim gcc64 exm (Some (vw 0 0 13)) (Ptr (PBlk 2) 0) true = Ok (vw 0 8 5, Some (vw 0 0 7))
  /\ strview_split_last_delim gcc64 exm (Some (vw 0 0 13)) (Ptr (PBlk 2) 0) false = Ok (vw 0 11 2, Some (vw 0 0 10)).
Proof. split; [reflexivity|]. split; [view_check|]. split; [cstr_check|]. repeat split; reflexivity. Qed.
(** The scan compares with the pointer before the view: undefined in strict ISO C even
    when a delimiter is present. *)
Theorem C63_split_last_delim_strict_refuted : exists m s p l dl,
  mem_wf m /\ has_view m s l /\ c_string m p dl /\
  strview_split_last_delim iso64 m (Some s) p false = UB UB_ptr.
Proof.
  exists exm, whole, (Ptr (PBlk 2) 0), txt, (bs ",;").
  split; [wf_check|]. split; [view_check|]. split; [cstr_check|]. vm_compute. reflexivity.
Qed.
Print Assumptions C63_split_last_delim_strict_refuted.
(** It is defined for an empty source, or if a byte of the object lies before the source. *)
Theorem C63_split_last_delim_strict_partial : forall cf m s p l dl exq, has_view m s l -> c_string m p dl ->
  (l = [] \/ 1 <= p_ofs (v_data s)) ->
  (exists a d b r s', l = a ++ d :: b /\ is_greatest (delim_at_end exq dl l) (length a) /\
     strview_split_last_delim cf m (Some s) p exq = Ok (r, Some s')
     /\ s' = subview s 0 (Zlen a) /\ has_view m r b /\ has_view m s' a)
  \/ ((forall k, ~ delim_at_end exq dl l k) /\
      strview_split_last_delim cf m (Some s) p exq = Ok (s, Some INVALID)).
Proof.
  intros cf m s p l dl exq H Hp R. destruct (cstr_ok m p dl Hp) as [E V].
  unfold strview_split_last_delim. rewrite E; cbn [bind].
  assert (l = [] \/ room cf (v_data s) 1) as R' by (destruct R; [auto|right; now right]).
  destruct (split_last_room cf m s _ l dl exq R' H V) as [(a & d & b & E1 & E2 & -> & E4 & E5)|(E1 & ->)]; [left|right; auto].
  exists a, d, b. do 2 eexists. cbn [bind]. repeat (split; [eauto; reflexivity|]). auto.
Qed.
Print Assumptions C63_split_last_delim_strict_partial.
Example C63_ex : has_view exm (vw 0 1 12) (skipn 1 (firstn 13 txt)) /\ c_string exm (Ptr (PBlk 2) 0) (bs ",;")
  /\ 1 <= p_ofs (v_data (vw 0 1 12))
  /\ strview_split_last_delim iso64 exm (Some (vw 0 1 12)) (Ptr (PBlk 2) 0) true = Ok (vw 0 8 5, Some (vw 0 1 6)).
Proof. split; [view_check|]. split; [cstr_check|]. split; [discriminate|reflexivity]. Qed.

(** ** C12 *)
Theorem C12_split_all : forall cf m src p l dl exq n, has_view m src l -> c_string m p dl -> 0 <= n ->
  exists fs ds vs, fields exq dl l fs
    /\ length fs = S (length ds) /\ Forall (fun d => In d dl) ds /\ join fs ds = l
    /\ strview_split_all cf m n src p exq = Ok vs
    /\ Forall2 (has_view m) vs (firstn (Z.to_nat n) fs)
    /\ Zlen vs = Z.min n (Zlen fs).
Proof.
  intros cf m src p l dl exq n H Hp Hn. destruct (fields_ex exq dl (length l) l (le_n _)) as [fs Hf].
  destruct (fields_join _ _ _ _ Hf) as (ds & J1 & J2 & J3).
  destruct (split_all_ok cf m p dl exq Hp (Z.to_nat n) src l fs H Hf) as (vs & E & F).
  exists fs, ds, vs. repeat (split; [assumption|]).
  apply Forall2_len in F. rewrite firstn_length in F. unfold Zlen. rewrite F. lia.
Qed.
Print Assumptions C12_split_all.
Theorem C12_split_all_fields_determined : forall exq dl l fs fs',
  fields exq dl l fs -> fields exq dl l fs' -> fs = fs'.
Proof. intros. eapply fields_unique; eauto. Qed.
Print Assumptions C12_split_all_fields_determined.
Example C12_ex : has_view exm whole txt /\ c_string exm (Ptr (PBlk 2) 0) (bs ",;")
  /\ strview_split_all iso64 exm 10 whole (Ptr (PBlk 2) 0) true = Ok [vw 0 0 3; vw 0 4 3; vw 0 8 5; vw 0 14 5]
  /\ strview_split_all iso64 exm 2 whole (Ptr (PBlk 2) 0) true = Ok [vw 0 0 3; vw 0 4 3].
Proof. split; [view_check|]. split; [cstr_check|]. repeat split; reflexivity. Qed.

(** ** C13 *)
Theorem C13_split_index : forall cf m s l i, has_view m s l -> INT_MIN <= i <= INT_MAX ->
  exists a b, l = a ++ b /\
    Zlen a = Z.max 0 (Z.min (Zlen l) (py_index (Zlen l) i)) /\
    has_view m (subview s 0 (Zlen a)) a /\ has_view m (subview s (Zlen a) (Zlen b)) b /\
    strview_split_index cf m (Some s) i =
      Ok (if i <? 0 then (subview s (Zlen a) (Zlen b), Some (subview s 0 (Zlen a)))
          else (subview s 0 (Zlen a), Some (subview s (Zlen a) (Zlen b)))).
Proof.
  intros cf m s l i H Hi. destruct (split_index_ok cf m s l i H Hi) as (a & b & E1 & E2 & E3 & E4 & E5).
  exists a, b. repeat (split; [assumption|]). unfold strview_split_index. rewrite E3. destruct (i <? 0); reflexivity.
Qed.
Print Assumptions C13_split_index.
Example C13_ex : has_view exm whole txt
  /\ strview_split_index iso64 exm (Some whole) 4 = Ok (vw 0 0 4, Some (vw 0 4 15))
  /\ strview_split_index iso64 exm (Some whole) (-5) = Ok (vw 0 14 5, Some (vw 0 0 14))
  /\ strview_split_index iso64 exm (Some whole) 100 = Ok (whole, Some (vw 0 19 0)).
Proof. split; [view_check|]. repeat split; reflexivity. Qed.

(** ** C14 *)
Theorem C14_split_left : forall cf m s a b n, has_view m s (a ++ b) ->
  strview_split_left cf m (Some s) (subview s (Zlen a) n)
  = Ok (subview s 0 (Zlen a), Some (subview s (Zlen a) (Zlen b)))
  /\ has_view m (subview s 0 (Zlen a)) a /\ has_view m (subview s (Zlen a) (Zlen b)) b.
Proof.
  intros cf m s a b n H. split.
  - rewrite (split_left_gen cf m s (a ++ b) _ (Zlen a) H).
    + rewrite Zlen_app. pose proof (Zlen_nonneg a). pose proof (Zlen_nonneg b). zb. cbn [andb].
      do 4 f_equal. lia.
    + pose proof H as ((k & Ha & _) & _). unfold is_null. cbn. destruct (p_obj (v_data s)); auto. discriminate.
    + cbn. apply pdiff_shift_l.
  - split; [|now apply has_view_suffix]. unfold subview. rewrite shift_0. eapply has_view_prefix; eauto.
Qed.
Print Assumptions C14_split_left.
Theorem C14_split_right : forall cf m s a p b, has_view m s (a ++ p ++ b) ->
  strview_split_right cf m (Some s) (subview s (Zlen a) (Zlen p))
  = Ok (subview s (Zlen (a ++ p)) (Zlen b), Some (subview s 0 (Zlen (a ++ p))))
  /\ has_view m (subview s 0 (Zlen (a ++ p))) (a ++ p) /\ has_view m (subview s (Zlen (a ++ p)) (Zlen b)) b.
Proof.
  intros cf m s a p b H. split.
  - pose proof (has_view_sub m s a p b H) as V.
    rewrite (split_right_gen cf m s (a ++ p ++ b) _ p (Zlen (a ++ p)) H V).
    + rewrite !Zlen_app. pose proof (Zlen_nonneg a). pose proof (Zlen_nonneg b). pose proof (Zlen_nonneg p). zb. cbn [andb].
      do 3 f_equal. lia.
    + cbn [v_data subview]. rewrite shift_shift, <- Zlen_app. apply pdiff_shift_l.
  - rewrite app_assoc in H. split; [|now apply has_view_suffix]. unfold subview. rewrite shift_0. eapply has_view_prefix; eauto.
Qed.
Print Assumptions C14_split_right.
(** Positions at distance [d] from the start of the source, outside of it. *)
Theorem C14_split_outside : forall cf m s l pos pl d, has_view m s l -> has_view m pos pl ->
  (pdiff cf m (v_data pos) (v_data s) = Ok d -> d < 0 \/ Zlen l < d ->
   strview_split_left cf m (Some s) pos = Ok (INVALID, Some s)) /\
  (pdiff cf m (shift (v_data pos) (Zlen pl)) (v_data s) = Ok d -> d < 0 \/ Zlen l < d ->
   strview_split_right cf m (Some s) pos = Ok (INVALID, Some s)).
Proof.
  intros cf m s l pos pl d H Hp. split; intros Hd Ho.
  - rewrite (split_left_gen cf m s l pos d H (has_view_nonnull _ _ _ Hp) Hd).
    destruct Ho; zb; rewrite ?andb_false_r; reflexivity.
  - rewrite (split_right_gen cf m s l pos pl d H Hp Hd).
    destruct Ho; zb; rewrite ?andb_false_r; reflexivity.
Qed.
Print Assumptions C14_split_outside.
Theorem C14_split_invalid : forall cf m s pos, s = INVALID \/ pos = INVALID ->
  strview_split_left cf m (Some s) pos = Ok (INVALID, Some s)
  /\ strview_split_right cf m (Some s) pos = Ok (INVALID, Some s)
  /\ strview_split_left cf m None pos = Ok (INVALID, None)
  /\ strview_split_right cf m None pos = Ok (INVALID, None).
Proof.
  intros cf m s pos [-> | ->]; unfold strview_split_left, strview_split_right; cbn; rewrite ?andb_false_r; auto.
Qed.
Print Assumptions C14_split_invalid.
Example C14_ex : has_view exm whole (bs "one," ++ bs "two" ++ bs ";""a,b"",three")%list
  /\ strview_split_left iso64 exm (Some whole) (vw 0 4 3) = Ok (vw 0 0 4, Some (vw 0 4 15))
  /\ strview_split_right iso64 exm (Some whole) (vw 0 4 3) = Ok (vw 0 7 12, Some (vw 0 0 7))
  /\ has_view exm (vw 0 4 3) (bs "two") /\ has_view exm (vw 1 0 4) (bs "TWO;")
  /\ strview_split_left gcc64 exm (Some whole) (vw 1 0 4) = Ok (INVALID, Some whole)
  /\ pdiff gcc64 exm (Ptr (PBlk 1) 0) (v_data whole) = Ok 4096
  /\ strview_split_left iso64 exm (Some (vw 0 8 3)) (vw 0 4 3) = Ok (INVALID, Some (vw 0 8 3)).
Proof.
  split; [view_check|]. split; [reflexivity|]. split; [reflexivity|]. split; [view_check|]. split; [view_check|].
  repeat split; reflexivity.
Qed.

(** ** C15 *)
Theorem C15_pop_first_char : forall cf m s x l, has_view m s (x :: l) ->
  strview_pop_first_char cf m (Some s) = Ok (x, Some (subview s 1 (Zlen l)))
  /\ has_view m (subview s 1 (Zlen l)) l.
Proof. exact pop_ok. Qed.
Print Assumptions C15_pop_first_char.
Theorem C15_pop_first_char_empty : forall cf m s, (has_view m s [] \/ s = INVALID) ->
  strview_pop_first_char cf m (Some s) = Ok (0, Some s) /\ strview_pop_first_char cf m None = Ok (0, None).
Proof.
  intros cf m s [H| ->]; split; try reflexivity. apply pop_empty. now rewrite (has_view_size _ _ _ H).
Qed.
Print Assumptions C15_pop_first_char_empty.
Theorem C15_pop_all_chars : forall cf m l s, has_view m s l ->
  pop_chars cf m (length l) s = Ok (l, subview s (Zlen l) 0) /\ has_view m (subview s (Zlen l) 0) [].
Proof. exact pop_chars_ok. Qed.
Print Assumptions C15_pop_all_chars.
Example C15_ex : has_view exm (vw 1 0 4) (bs "TWO;") /\ pop_chars iso64 exm 4 (vw 1 0 4) = Ok (bs "TWO;", vw 1 4 0).
Proof. split; [view_check|]. reflexivity. Qed.

(** ** C16 *)
Theorem C16_split_line : forall cf m s l eol e, has_view m s l -> l <> [] ->
  e = match eol with Some x => x | None => 0 end -> pend_ok e ->
  match next_line e l with
  | Some (a, e', b) =>
      exists r s', strview_split_line cf m (Some s) eol
                   = Ok (r, Some s', match eol with Some _ => Some e' | None => None end)
                   /\ has_view m r a /\ has_view m s' b
                   /\ (exists i j, r = subview s i (Zlen a) /\ s' = subview s j (Zlen b)
                       /\ 0 <= i /\ i + Zlen a <= j /\ j + Zlen b <= Zlen l)
  | None =>
      exists s', strview_split_line cf m (Some s) eol = Ok (INVALID, Some s', eol)
                 /\ has_view m s' (drop_half e l) /\ s' = subview s (Zlen l - Zlen (drop_half e l)) (Zlen (drop_half e l))
  end.
Proof. exact split_line_ok. Qed.
Print Assumptions C16_split_line.
(** What [next_line] says, without the function: nothing but one terminator is removed. *)
Theorem C16_next_line_meaning : forall p l a e b, next_line p l = Some (a, e, b) ->
  exists t, drop_half p l = a ++ t ++ b /\ (forall x, In x a -> is_eol x = false)
    /\ (t = [13] \/ t = [10] \/ t = [13; 10] \/ t = [10; 13])
    /\ (e = 0 -> length t = 2%nat) /\ (e <> 0 -> t = [e] /\ hd 0 b <> other_eol e).
Proof.
  intros p l a e b H. unfold next_line in H.
  destruct (until_eol (drop_half p l)) as [[[a0 e0] b0]|] eqn:U; [|discriminate].
  pose proof (until_eol_spec _ _ _ _ U) as (El & Ee & Ua).
  assert (forall x, In x a0 -> is_eol x = false) as Na.
  { clear -Ua. induction a0 as [|y a0 IH]; cbn in *; [tauto|]. destruct (is_eol y) eqn:E; [discriminate|].
    intros x [<-|Hx]; auto. apply IH; auto. destruct (until_eol a0) as [[[? ?] ?]|]; [discriminate|auto]. }
  assert (e0 = 13 \/ e0 = 10) as E0.
  { unfold is_eol in Ee. apply orb_true_iff in Ee. now rewrite !Z.eqb_eq in Ee. }
  destruct b0 as [|y t].
  - injection H as <- <- <-. exists [e0]. cbn. repeat split; auto; try lia.
    destruct E0 as [-> | ->]; auto. destruct E0 as [-> | ->]; unfold other_eol; cbn; lia.
  - destruct (y =? other_eol e0) eqn:Ey; injection H as <- <- <-.
    + apply Z.eqb_eq in Ey. exists [e0; y]. cbn. repeat split; auto; try lia.
      subst y. destruct E0 as [-> | ->]; cbn; auto.
    + apply Z.eqb_neq in Ey. exists [e0]. cbn. repeat split; auto; try lia. destruct E0 as [-> | ->]; auto.
Qed.
Print Assumptions C16_next_line_meaning.
Theorem C16_split_line_empty : forall cf m s eol, (has_view m s [] \/ s = INVALID) ->
  strview_split_line cf m (Some s) eol = Ok (INVALID, Some s, eol)
  /\ strview_split_line cf m None eol = Ok (INVALID, None, eol).
Proof.
  intros cf m s eol [H| ->]; split; try reflexivity. unfold strview_split_line. now rewrite (has_view_size _ _ _ H).
Qed.
Print Assumptions C16_split_line_empty.
Definition lnm : mem := [blk 4096 ([10] ++ bs "ab" ++ [13; 10] ++ bs "cd" ++ [10; 10] ++ bs "e")]%list.
Example C16_ex : has_view lnm (vw 0 0 10) ([10] ++ bs "ab" ++ [13; 10] ++ bs "cd" ++ [10; 10] ++ bs "e")%list
  /\ strview_split_line iso64 lnm (Some (vw 0 0 10)) (Some 13) = Ok (vw 0 1 2, Some (vw 0 5 5), Some 0)
  /\ strview_split_line iso64 lnm (Some (vw 0 5 5)) (Some 0) = Ok (vw 0 5 2, Some (vw 0 8 2), Some 10)
  /\ strview_split_line iso64 lnm (Some (vw 0 8 2)) (Some 10) = Ok (vw 0 8 0, Some (vw 0 9 1), Some 10)
  /\ strview_split_line iso64 lnm (Some (vw 0 9 1)) (Some 10) = Ok (INVALID, Some (vw 0 9 1), Some 10).
Proof. split; [view_check|]. repeat split; reflexivity. Qed.

(** ** C17 *)
Theorem C17_stream : forall cf chunks ls r e,
  stream cf [] 0 chunks ls r e -> lines_of (concat chunks) ls (drop_half e r).
Proof.
  intros cf chunks ls r e H. pose proof (stream_ok cf _ _ _ _ _ _ H (or_introl eq_refl) eq_refl) as K.
  cbn [app] in K. now rewrite drop_half_0 in K.
Qed.
Print Assumptions C17_stream.
(** The lines are determined by the text, and each step of the loop always terminates. *)
Theorem C17_lines_determined : forall l ls r ls' r', lines_of l ls r -> lines_of l ls' r' -> ls = ls' /\ r = r'.
Proof. intros. eapply lines_of_unique; eauto. Qed.
Print Assumptions C17_lines_determined.
Theorem C17_step_total : forall cf m fuel s l e, has_view m s l -> pend_ok e -> (length l < fuel)%nat ->
  exists vs s' e' ls l', pop_all cf fuel m s e = Ok (vs, s', e')
    /\ Forall2 (has_view m) vs ls /\ has_view m s' l' /\ pend_ok e'.
Proof.
  intros cf m fuel s l e H Hp Hf.
  destruct (pop_all_ok cf m fuel s l e H Hp Hf) as (vs & s' & e' & ls & l' & E1 & E2 & E3 & E4 & _).
  exists vs, s', e', ls, l'. auto.
Qed.
Print Assumptions C17_step_total.
Example C17_ex :
  stream iso64 [] 0 [bs "ab" ++ [13]; [10] ++ bs "c"; bs "d" ++ [10]]%list [bs "ab"; bs "cd"] [] 10
  /\ lines_of (bs "ab" ++ [13; 10] ++ bs "cd" ++ [10])%list [bs "ab"; bs "cd"] [].
Proof.
  split.
  - apply (stream_feed iso64 [blk 4096 (bs "ab" ++ [13])%list] (vw 0 0 3) 5 [vw 0 0 2] (vw 0 2 0) [bs "ab"] [] 0 _ 13 []);
      [view_check|vm_compute; reflexivity|constructor; [view_check|constructor]|view_check|].
    apply (stream_feed iso64 [blk 4096 ([10] ++ bs "c")%list] (vw 0 0 2) 5 [] (vw 0 0 2) [] [] 13 _ 13 ([10] ++ bs "c")%list);
      [view_check|vm_compute; reflexivity|constructor|view_check|].
    apply (stream_feed iso64 [blk 4096 ([10] ++ bs "cd" ++ [10])%list] (vw 0 0 4) 5 [vw 0 1 2] (vw 0 3 0) [bs "cd"] _ 13 _ 10 []);
      [view_check|vm_compute; reflexivity|constructor; [view_check|constructor]|view_check|constructor].
  - eapply lines_one; [reflexivity|]. eapply lines_one; [reflexivity|]. now constructor.
Qed.

(** ** C18: false when a half terminator is pending *)
Theorem C18_split_line_modifies_refuted : exists m s l s',
  has_view m s l /\ l <> [] /\
  strview_split_line gcc64 m (Some s) (Some 13) = Ok (INVALID, Some s', Some 13) /\ s' <> s.
Proof.
  exists [blk 4096 (10 :: bs "abc")], (vw 0 0 4), (10 :: bs "abc"), (vw 0 1 3).
  split; [view_check|]. split; [discriminate|]. split; [vm_compute; reflexivity|discriminate].
Qed.
Print Assumptions C18_split_line_modifies_refuted.
(** Missing for the full statement: the case of a pending half terminator (refuted above). *)
Theorem C18_split_line_unmodified_partial : forall cf m s l eol, has_view m s l ->
  (eol = None \/ eol = Some 0) -> (forall x, In x l -> is_eol x = false) ->
  strview_split_line cf m (Some s) eol = Ok (INVALID, Some s, eol).
Proof.
  intros cf m s l eol H He Hn. destruct l as [|x t].
  - apply (proj1 (C16_split_line_empty cf m s eol (or_introl H))).
  - assert (match eol with Some x => x | None => 0 end = 0) as E0 by (destruct He as [-> | ->]; reflexivity).
    pose proof (split_line_ok cf m s (x :: t) eol 0 H ltac:(discriminate) (eq_sym E0) (or_introl eq_refl)) as K.
    assert (until_eol (x :: t) = None) as U.
    { clear -Hn. induction (x :: t) as [|y l IH]; auto. cbn. rewrite (Hn y) by (cbn; auto).
      rewrite IH; auto. intros z Hz; apply Hn; cbn; auto. }
    assert (next_line 0 (x :: t) = None) as N by (unfold next_line; rewrite drop_half_0, U; reflexivity).
    rewrite N in K. destruct K as (s' & -> & _ & ->). rewrite drop_half_0, Z.sub_diag. now rewrite subview_0 by (symmetry; apply (has_view_size _ _ _ H)).
Qed.
Print Assumptions C18_split_line_unmodified_partial.
Example C18_ex : has_view exm whole txt /\ strview_split_line iso64 exm (Some whole) (Some 0) = Ok (INVALID, Some whole, Some 0).
Proof. split; [view_check|reflexivity]. Qed.

(** ** C19 *)
Theorem C19_dequote : forall cf m v l, has_view m v l ->
  exists q k r, l = repeat q k ++ r ++ repeat q k
    /\ (k = O -> Zlen l <= 1 \/ hd 0 l <> last l 0)
    /\ (k <> O -> Zlen r <= 1 \/ hd 0 r <> q \/ last r 0 <> q)
    /\ strview_dequote cf m v = Ok (subview v (Z.of_nat k) (Zlen r))
    /\ has_view m (subview v (Z.of_nat k) (Zlen r)) r.
Proof. exact dequote_ok. Qed.
Print Assumptions C19_dequote.
Theorem C19_dequote_invalid : forall cf m, strview_dequote cf m INVALID = Ok INVALID.
Proof. reflexivity. Qed.
Print Assumptions C19_dequote_invalid.
Example C19_ex : has_view exm (vw 0 8 5) (bs """a,b""") /\ strview_dequote iso64 exm (vw 0 8 5) = Ok (vw 0 9 3).
Proof. split; [view_check|reflexivity]. Qed.

(** ** C20: false *)
Theorem C20_dequote_strips_letters_refuted : exists m v v' r,
  has_view m v (bs "aba") /\ strview_dequote gcc64 m v = Ok v' /\ has_view m v' r /\ r <> bs "aba".
Proof.
  exists [blk 4096 (bs "aba")], (vw 0 0 3), (vw 0 1 1), (bs "b").
  split; [view_check|]. split; [vm_compute; reflexivity|]. split; [view_check|discriminate].
Qed.
Print Assumptions C20_dequote_strips_letters_refuted.
(** A text whose first and last characters differ is left alone, and so is a single character. *)
Theorem C20_unquoted_partial : forall cf m v l, has_view m v l -> (Zlen l <= 1 \/ hd 0 l <> last l 0) ->
  strview_dequote cf m v = Ok v.
Proof. exact dequote_unquoted. Qed.
Print Assumptions C20_unquoted_partial.
Example C20_ex : has_view exm (vw 0 4 5) (bs "two;""") /\ hd 0 (bs "two;""") <> last (bs "two;""") 0.
Proof. split; [view_check|discriminate]. Qed.

(** ** C21 *)
Theorem C21_to_cstr : forall cf m b o n k v l, nth_error m b = Some k -> b_live k = true ->
  0 <= o -> 0 < n -> o + n <= b_size k -> has_view m v l ->
  (p_obj (v_data v) = PBlk b -> p_ofs (v_data v) + Zlen l <= o \/ o + n <= p_ofs (v_data v)) ->
  exists m', strview_to_cstr cf m (Ptr (PBlk b) o) n v = Ok (Ptr (PBlk b) o, m')
    /\ bytes_at m' (Ptr (PBlk b) o) (firstn (Z.to_nat (n - 1)) l ++ [0])
    /\ frame m m' b o (o + Z.min (n - 1) (Zlen l) + 1).
Proof. exact to_cstr_ok. Qed.
Print Assumptions C21_to_cstr.
Theorem C21_to_cstr_nothing : forall cf m dst n v, n = 0 \/ dst = null ->
  strview_to_cstr cf m dst n v = Ok (dst, m).
Proof. exact to_cstr_none. Qed.
Print Assumptions C21_to_cstr_nothing.
Theorem C21_to_cstr_invalid : forall cf m b o n k, c_mem0 cf = true -> nth_error m b = Some k -> b_live k = true ->
  0 <= o -> 0 < n -> o + n <= b_size k ->
  exists m', strview_to_cstr cf m (Ptr (PBlk b) o) n INVALID = Ok (Ptr (PBlk b) o, m')
    /\ bytes_at m' (Ptr (PBlk b) o) [0] /\ frame m m' b o (o + 1).
Proof. exact to_cstr_invalid. Qed.
Print Assumptions C21_to_cstr_invalid.
Example C21_ex : exists k m', nth_error exm 5 = Some k /\ b_live k = true /\ 2 + 6 <= b_size k
  /\ has_view exm (vw 0 4 15) (bs "two;""a,b"",three")
  /\ strview_to_cstr iso64 exm (Ptr (PBlk 5) 2) 6 (vw 0 4 15) = Ok (Ptr (PBlk 5) 2, m')
  /\ load_bytes m' (Ptr (PBlk 5) 0) 10 = Ok (bs "xxtwo;""" ++ [0] ++ bs "xx")%list.
Proof.
  do 2 eexists. split; [reflexivity|]. split; [reflexivity|]. split; [cbn; lia|]. split; [view_check|].
  split; [vm_compute; reflexivity|]. vm_compute. reflexivity.
Qed.

(** ** C22 *)
Theorem C22_cstr : forall m p l, c_string m p l -> cstr m p = Ok (View p (Zlen l)) /\ has_view m (View p (Zlen l)) l.
Proof. exact cstr_ok. Qed.
Print Assumptions C22_cstr.
Theorem C22_cstr_null : forall m, cstr m null = Ok INVALID.
Proof. exact cstr_null. Qed.
Print Assumptions C22_cstr_null.
Theorem C22_cstr_round_trip : forall cf m p l b o n k, c_string m p l -> nth_error m b = Some k -> b_live k = true ->
  0 <= o -> Zlen l < n -> o + n <= b_size k ->
  (p_obj p = PBlk b -> p_ofs p + Zlen l <= o \/ o + n <= p_ofs p) ->
  exists v m', cstr m p = Ok v /\ has_view m v l
    /\ strview_to_cstr cf m (Ptr (PBlk b) o) n v = Ok (Ptr (PBlk b) o, m')
    /\ c_string m' (Ptr (PBlk b) o) l.
Proof. exact cstr_round. Qed.
Print Assumptions C22_cstr_round_trip.
Example C22_ex : c_string exm (Ptr (PBlk 2) 0) (bs ",;") /\ cstr exm (Ptr (PBlk 2) 0) = Ok (vw 2 0 2)
  /\ (exists k, nth_error exm 5 = Some k /\ b_live k = true /\ 0 + 16 <= b_size k).
Proof. split; [cstr_check|]. split; [reflexivity|]. eexists. split; [reflexivity|]. split; [reflexivity|cbn; lia]. Qed.
