(** Further concrete cases: theorems of the other files, applied where the example beside them
    shows another theorem of the same property. *)
From Coq Require Import String.
From Verif Require Import Base Mem Libc StrviewModel Spec MemLemmas StrviewProofs StrviewProofs2 StrviewProofs3 StrviewProofs4
  StrnumModel NumSpec StrnumProofs3 Alloc StrbufModel BufSpec StrbufProofs PrnfModel PrnfSpec PrnfSpec2 PrnfBufModel ExampleLib BufExample PropsView PropsNum PropsBuf PropsBuf2 PropsPrnf.
Local Open Scope string_scope.
Local Open Scope list_scope.
Local Open Scope Z_scope.

(** ** Views *)
Definition two_needle : mem := exm ++ [blk 28672 (bs "Two" ++ [0])].
Definition ptwo : ptr := Ptr (PBlk 6) 0.
Example C02_find_first_cstr_case : has_view two_needle whole txt /\ c_string two_needle ptwo (bs "Two")
  /\ strview_find_first_cstr iso64 two_needle whole ptwo = Ok INVALID
  /\ strview_find_first_nocase_cstr iso64 two_needle whole ptwo = Ok (vw 0 4 3)
  /\ strview_find_first iso64 two_needle INVALID whole = Ok INVALID.
Proof. split; [view_check|]. split; [cstr_check|]. repeat split; vm_compute; reflexivity. Qed.
Example C03_find_last_nocase_case : c_ptr gcc64 = true /\ has_view exm (vw 1 0 3) (bs "TWO") /\ is_greatest (occurs (map upper txt) (map upper (bs "TWO"))) 4
  /\ strview_find_last_nocase gcc64 exm whole (vw 1 0 3) = Ok (vw 0 4 3)
  /\ c_string two_needle ptwo (bs "Two")
  /\ strview_find_last_cstr gcc64 two_needle whole ptwo = Ok INVALID
  /\ strview_find_last_nocase_cstr gcc64 two_needle whole ptwo = Ok (vw 0 4 3).
Proof.
  split; [reflexivity|]. split; [view_check|]. split.
  { split; [exists (map upper (bs "one,")), (map upper (bs ";""a,b"",three")); split; reflexivity|].
    intros j Hj (a & b & E & <-). cbn [List.length] in Hj.
    do 17 (destruct a as [|? a]; [first [discriminate|cbn [List.length] in Hj; lia]|]).
    apply (f_equal (@List.length Z)) in E. rewrite !app_length in E. cbn in E. lia. }
  split; [vm_compute; reflexivity|]. split; [cstr_check|]. split; vm_compute; reflexivity.
Qed.
Example C05_trim_ends_case : has_view exm (vw 3 0 7) (bs "  pad  ") /\ denotes exm (vw 4 0 1) (Some (bs " ")) /\ set_ok iso64 (Some (bs " "))
  /\ strview_trim_start iso64 exm (vw 3 0 7) (vw 4 0 1) = Ok (vw 3 2 5)
  /\ strview_trim_end iso64 exm (vw 3 0 7) (vw 4 0 1) = Ok (vw 3 0 5).
Proof. split; [view_check|]. split; [view_check|]. split; [right; discriminate|]. split; vm_compute; reflexivity. Qed.
Example C06_cstr_case : c_string two_needle ptwo (bs "Two") /\ has_view two_needle (vw 0 4 3) (bs "two")
  /\ strview_is_match_cstr iso64 two_needle (vw 0 4 3) ptwo = Ok false
  /\ strview_is_match_nocase_cstr iso64 two_needle (vw 0 4 3) ptwo = Ok true
  /\ strview_starts_with_cstr iso64 two_needle (vw 0 4 9) ptwo = Ok false
  /\ strview_starts_with_nocase_cstr iso64 two_needle (vw 0 4 9) ptwo = Ok true.
Proof. split; [cstr_check|]. split; [view_check|]. repeat split; vm_compute; reflexivity. Qed.
Example C09_order_case : exists r12 r23 r13,
  strview_compare iso64 exm (vw 1 0 4) (vw 0 0 3) = Ok r12 /\ strview_compare iso64 exm (vw 0 0 3) (vw 0 4 3) = Ok r23
  /\ strview_compare iso64 exm (vw 1 0 4) (vw 0 4 3) = Ok r13 /\ r12 < 0 /\ r23 < 0 /\ r13 < 0.
Proof. do 3 eexists. repeat split; try (vm_compute; reflexivity). Qed.
Example C12_fields_case : fields true (bs ",") (bs "a,""b,c""") [bs "a"; bs """b,c"""].
Proof.
  destruct (C12_split_all iso64 [blk 4096 (bs "a,""b,c"""); blk 8192 (bs "," ++ [0])] (vw 0 0 7) (Ptr (PBlk 1) 0) (bs "a,""b,c""") (bs ",") true 9)
    as (fs & ds & vs & F & _ & _ & J & E & V & L); [view_check|cstr_check|lia|].
  vm_compute in E. injection E as <-. rewrite firstn_all2 in V.
  - inversion V as [|? f1 ? t1 V1 W1]; subst. inversion W1 as [|? f2 ? t2 V2 W2]; subst. inversion W2; subst.
    assert (f1 = bs "a") as -> by (eapply has_view_unique; [exact V1|view_check]).
    assert (f2 = bs """b,c""") as -> by (eapply has_view_unique; [exact V2|view_check]). exact F.
  - change (Zlen [View (Ptr (PBlk 0) 0) 1; View (Ptr (PBlk 0) 2) 5]) with 2 in L. unfold Zlen in L. lia.
Qed.
Example C14_right_outside_case : pdiff iso64 exm (shift (v_data (vw 0 1 3)) 3) (v_data (vw 0 8 3)) = Ok (-4)
  /\ strview_split_right iso64 exm (Some (vw 0 8 3)) (vw 0 1 3) = Ok (INVALID, Some (vw 0 8 3))
  /\ strview_split_left iso64 exm (Some INVALID) whole = Ok (INVALID, Some INVALID).
Proof. repeat split; vm_compute; reflexivity. Qed.
Example C15_ends_case : has_view exm (vw 1 4 0) [] /\ strview_pop_first_char iso64 exm (Some (vw 1 4 0)) = Ok (0, Some (vw 1 4 0))
  /\ has_view exm (vw 1 1 3) (87 :: bs "O;") /\ strview_pop_first_char iso64 exm (Some (vw 1 1 3)) = Ok (87, Some (vw 1 2 2)).
Proof. split; [view_check|]. split; [reflexivity|]. split; [view_check|reflexivity]. Qed.
Example C16_meaning_case : next_line 13 ([10] ++ bs "ab" ++ [10; 13] ++ bs "c") = Some (bs "ab", 0, bs "c")
  /\ next_line 0 (bs "ab" ++ [10]) = Some (bs "ab", 10, []) /\ next_line 0 (bs "ab") = None
  /\ strview_split_line iso64 exm (Some (vw 1 4 0)) (Some 13) = Ok (INVALID, Some (vw 1 4 0), Some 13).
Proof. repeat split; vm_compute; reflexivity. Qed.
Example C17_step_case : has_view [blk 4096 (bs "a" ++ [10] ++ bs "b")] (vw 0 0 3) (bs "a" ++ [10] ++ bs "b") /\ pend_ok 0
  /\ pop_all iso64 4 [blk 4096 (bs "a" ++ [10] ++ bs "b")] (vw 0 0 3) 0 = Ok ([vw 0 0 1], vw 0 2 1, 10).
Proof. split; [view_check|]. split; [left; reflexivity|vm_compute; reflexivity]. Qed.
Example C21_ends_case : c_mem0 gcc64 = true /\ (exists k, nth_error exm 5 = Some k /\ b_live k = true /\ 3 + 4 <= b_size k)
  /\ strview_to_cstr gcc64 exm null 4 whole = Ok (null, exm)
  /\ exists m', strview_to_cstr gcc64 exm (Ptr (PBlk 5) 3) 4 INVALID = Ok (Ptr (PBlk 5) 3, m')
     /\ load_bytes m' (Ptr (PBlk 5) 0) 6 = Ok (bs "xxx" ++ [0] ++ bs "xx").
Proof.
  split; [reflexivity|]. split; [eexists; repeat split; cbn; lia|]. split; [reflexivity|].
  destruct (strview_to_cstr gcc64 exm (Ptr (PBlk 5) 3) 4 INVALID) as [[q m']| |] eqn:E; [|vm_compute in E; discriminate|vm_compute in E; discriminate].
  exists m'. assert (match strview_to_cstr gcc64 exm (Ptr (PBlk 5) 3) 4 INVALID with Ok (q, m') => q = Ptr (PBlk 5) 3 /\ load_bytes m' (Ptr (PBlk 5) 0) 6 = Ok (bs "xxx" ++ [0] ++ bs "xx") | _ => False end) as K
    by (vm_compute; split; reflexivity). rewrite E in K. destruct K as [-> K]. auto.
Qed.
Example C22_round_trip_case : exists v m', cstr exm (Ptr (PBlk 2) 0) = Ok v /\ has_view exm v (bs ",;")
  /\ strview_to_cstr iso64 exm (Ptr (PBlk 5) 2) 5 v = Ok (Ptr (PBlk 5) 2, m') /\ c_string m' (Ptr (PBlk 5) 2) (bs ",;").
Proof.
  apply (C22_cstr_round_trip iso64 exm (Ptr (PBlk 2) 0) (bs ",;") 5 2 5 (blk 24576 (repeat 120 16)%list)); try reflexivity; try (vm_compute; congruence); try lia.
  cstr_check.
Qed.

(** ** Numbers *)
Example C24_rest_case : has_view numm v1 (bs " -00128" ++ bs ";x") /\ has_view numm (vw 0 7 2) (bs ";x").
Proof. split; view_check. Qed.
Example C25_case : consumer gcc64 TInt = Some (strnum_consume_int gcc64)
  /\ strnum_consume_int gcc64 numm true (Some v3) 0 = Ok (Parsed ERANGE None None)
  /\ strnum_consume_int gcc64 numm true (Some v1) STRNUM_NOSIGN = Ok (Parsed EINVAL None None)
  /\ (forall A, strnum_consume_double gcc64 A numm true (Some (vw 0 8 1)) 0 = Ok (Parsed EINVAL None None)).
Proof. repeat split; vm_compute; reflexivity. Qed.
Example C27_printed_case : exists k, strnum_consume_int gcc64 [blk 4096 (bs "  -0x" ++ show 16 4095 ++ bs ";x")] true (Some (vw 0 0 10)) 0
    = Ok (Parsed NoErr (Some (-4095)) (Some (subview (vw 0 0 10) k 2)))
  /\ has_view [blk 4096 (bs "  -0x" ++ show 16 4095 ++ bs ";x")] (subview (vw 0 0 10) k 2) (bs ";x").
Proof.
  apply (C27_printed_parses gcc64 TInt _ [blk 4096 (bs "  -0x" ++ show 16 4095 ++ bs ";x")] (vw 0 0 10) 0 true 16 (bs "  ") [45] (bs "0x") 4095 (bs ";x") eq_refl).
  - tauto.
  - unfold two64. lia.
  - vm_compute. auto 10.
  - repeat constructor.
  - reflexivity.
  - right. repeat split; auto.
  - right. repeat split; auto; discriminate.
  - wf_check.
  - view_check.
  - left. reflexivity.
  - discriminate.
  - vm_compute. split; discriminate.
Qed.

(** ** Buffers *)
Example C35_static_case : shows gcc64 (strbuf_append_strview gcc64 (with_mem w_move (xm ++ [static_buf_block gcc64 65536 10])) (Some (Ptr (PBlk 5) 0)) wide)
  = Some (Some (bs "wide"), 10).
Proof. vm_compute. reflexivity. Qed.
Example C37_cstr_case : ready gcc64 w_move pdyn b_hello /\ c_string (s_mem w_move) (Ptr (PBlk 3) 0) (bs "lo")
  /\ shows gcc64 (strbuf_insert_before_cstr gcc64 w_move (Some pdyn) (vw 0 25 3) (Ptr (PBlk 3) 0)) = Some (Some (bs "hloello"), 8)
  /\ shows gcc64 (strbuf_insert_after_cstr gcc64 w_move (Some pdyn) (vw 0 25 3) (Ptr (PBlk 3) 0)) = Some (Some (bs "hellloo"), 8).
Proof. split; [apply dyn_ready|]. split; [cstr_check|]. split; vm_compute; reflexivity. Qed.
Example C40_others_case : bf_cap b_fixed < Zlen (bf_data b_fixed) + Zlen (bs "abcdef") /\ bf_cap b_fixed < Zlen (concat [bs "wide"; bs "wide"; bs "wide"])
  /\ shows gcc64 (strbuf_insert_before_strview gcc64 w_move (Some pfix) (vw 2 25 3) (vw 2 24 6)) = Some (Some [], 10)
  /\ shows gcc64 (strbuf_insert_after_strview gcc64 w_move (Some pfix) (vw 2 25 3) (vw 2 24 6)) = Some (Some [], 10)
  /\ shows gcc64 (strbuf_cat gcc64 w_move (Some pfix) [wide; wide; wide]) = Some (Some [], 10)
  /\ shows gcc64 (let! (_, p, w) := strbuf_append_strview gcc64 w_move (Some pfix) wide in strbuf_append_char gcc64 w p 33) = Some (Some [], 10).
Proof. split; [reflexivity|]. split; [reflexivity|]. repeat split; vm_compute; reflexivity. Qed.
Example C45_fixed_case : ready gcc64 w_move pfix b_fixed /\ dyn b_fixed = false
  /\ shows gcc64 (strbuf_shrink gcc64 w_move (Some pfix)) = Some (Some (bs "abcdef"), 10).
Proof. split; [apply fix_ready|]. split; [reflexivity|vm_compute; reflexivity]. Qed.
Example C48_strip_case : has_view (s_mem w_move) wide (bs "wide") /\ outside gcc64 pdyn b_hello wide (bs "wide")
  /\ shows gcc64 (strbuf_strip_strview gcc64 w_move (Some pdyn) wide) = Some (Some (bs "hllo"), 8)
  /\ shows gcc64 (strbuf_strip_strview gcc64 w_move (Some pdyn) INVALID) = Some (Some (bs "hello"), 8)
  /\ without (bs "wide") (bs "hello") = bs "hllo".
Proof. split; [view_check|]. split; [split; [eexists; reflexivity|left; discriminate]|]. repeat split; vm_compute; reflexivity. Qed.
