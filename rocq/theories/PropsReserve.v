(** Property theorems for programs whose buffers have enough room (C127), with concrete instances. *)
From Coq Require Import String.
From Verif Require Import Base Mem Libc StrviewModel Spec MemLemmas Alloc StrbufModel BufSpec HistSpec ReserveSpec ReserveProofs ExampleLib BufExample PropsBuf PropsBuf2.
Local Open Scope string_scope.
Local Open Scope list_scope.
Local Open Scope Z_scope.

(** ** C127 *)
(** The allocator of [w] is arbitrary, it may always fail.  [o] is only used to say that the memory is right. *)
Theorem C127_reserved : forall cf T prog a vars w o, wf_cfg cf -> c_ptr cf = true -> means cf T a vars (St (s_mem w) o) -> all_legal cf T a prog -> all_room cf a prog ->
  exists w', run cf vars w prog = Ok (fst (arun cf a prog), vars, w') /\ s_orc w' = s_orc w /\ means cf T (snd (arun cf a prog)) vars (St (s_mem w') o).
Proof. exact run_reserved. Qed.
Print Assumptions C127_reserved.
(** Programs with fixed buffers only always have the room they need. *)
Theorem C127_fixed : forall cf T prog a vars w o, wf_cfg cf -> c_ptr cf = true -> means cf T a vars (St (s_mem w) o) -> all_legal cf T a prog ->
  Forall edits prog -> (forall j B, slot_of a j = ABuf B -> dyn B = false) ->
  exists w', run cf vars w prog = Ok (fst (arun cf a prog), vars, w') /\ s_orc w' = s_orc w /\ means cf T (snd (arun cf a prog)) vars (St (s_mem w') o).
Proof. intros cf T prog a vars w o W Hc M Hl He Hf. apply run_reserved; auto. eapply fixed_room; eauto. Qed.
Print Assumptions C127_fixed.

(** The dynamic buffer has capacity 8, the fixed one 10; the allocator always fails. *)
Definition progr : list op :=
  [ OAppend 0 (SPart 1 1 3); OAppend 1 (SPart 0 0 4); OAssign 0 (SPart 0 2 INT_MAX); OInsert 0 2 (SPart 0 0 2); OPrepend 1 (SPart 1 0 1);
    OStrip 0 (SText wide (bs "wide")); OPrintf 0 (bs "12345678"); OGrow 0 8; OCat 1 [SPart 0 0 3; SPart 0 5 8]; OCat 0 [SPart 1 3 6; SText wide (bs "wide")];
    OAfter 0 (SPart 0 0 1) (SPart 1 0 1); OAppendPrnf 1 (bs "z"); OPrnf 1 (bs "0123456789a"); OChar 1 65; OUsing 0 (bs "abc"); OUsing 0 (bs "abc"); OView 1 ].
Definition seenr : list (option (list Z)) :=
  [ Some (bs "hellobc"); Some (bs "abcdefhell"); Some (bs "llobc"); Some (bs "llllobc"); Some []; Some (bs "llllobc"); Some (bs "12345678"); Some (bs "12345678");
    Some (bs "123678"); Some (bs "678wide"); Some (bs "6178wide"); Some (bs "123678z"); Some []; Some (bs "A"); None; Some (bs "abc"); Some (bs "A") ].
Lemma legalr : all_legal gcc64 T0 slots0 progr.
Proof.
  unfold progr. cbn [all_legal].
  do 3 (split; [eexists; split; [reflexivity|]; split; [part|now left]|]).
  split; [eexists; split; [reflexivity|]; split; [part|split; [now left|unfold INT_MIN, INT_MAX; lia]]|].
  split; [eexists; split; [reflexivity|]; split; [part|now left]|].
  split; [eexists; split; [reflexivity|]; split; [split; reflexivity|exact I]|].
  split; [eexists; split; [reflexivity|]; split; [apply byteb_ok; reflexivity|]; split; [cbn; unfold INT_MAX; lia|now left]|].
  split; [eexists; split; [reflexivity|]; cbn [buf_legal]; unfold INT_MAX; lia|].
  split; [eexists; split; [reflexivity|]; split; [|now left]; constructor; [part|constructor; [part|constructor]]|].
  split; [eexists; split; [reflexivity|]; split; [|now left]; constructor; [part|constructor; [split; reflexivity|constructor]]|].
  split; [eexists; split; [reflexivity|]; split; [part|]; split; [part|now left]|].
  do 2 (split; [eexists; split; [reflexivity|]; split; [apply byteb_ok; reflexivity|]; split; [cbn; unfold INT_MAX; lia|now left]|]).
  split; [eexists; split; [reflexivity|]; split; [unfold is_byte; lia|now left]|].
  do 2 (split; [eexists; split; [reflexivity|]; cbn [buf_legal]; apply byteb_ok; reflexivity|]).
  split; [eexists; split; [reflexivity|exact I]|]. exact I.
Qed.
Lemma roomr : all_room gcc64 slots0 progr.
Proof.
  unfold progr. cbn [all_room].
  repeat match goal with |- has_room _ _ /\ _ => split; [eexists; split; [reflexivity|]; cbn [enough]; unfold room_for; first [exact I|left; reflexivity|right; vm_compute; congruence|right; split; [reflexivity|vm_compute; congruence]]|] end.
  exact I.
Qed.
Example C127_ex : wf_cfg gcc64 /\ (forall n, ch_fail (s_orc w_fail n) = true) /\ means gcc64 T0 slots0 vars0 (St (s_mem w_fail) (s_orc w_move)) /\ all_legal gcc64 T0 slots0 progr
  /\ all_room gcc64 slots0 progr /\ fst (arun gcc64 slots0 progr) = seenr /\ exists w, run gcc64 vars0 w_fail progr = Ok (seenr, vars0, w).
Proof.
  split; [exact gcc64_wf|]. split; [reflexivity|]. split; [now apply means0|]. split; [exact legalr|]. split; [exact roomr|].
  assert (fst (arun gcc64 slots0 progr) = seenr) as E by (vm_compute; reflexivity). split; [exact E|].
  destruct (run_reserved gcc64 T0 progr slots0 vars0 w_fail (s_orc w_move) gcc64_wf eq_refl (means0 _ move_ok) legalr roomr) as (w & H & _). rewrite E in H. eauto.
Qed.
(** A call without enough room does call the allocator, and fails with it. *)
Example C127_needed : run gcc64 vars0 w_fail [OAppend 0 (SPart 1 0 6)] = UB UB_null /\ ~ has_room slots0 (OAppend 0 (SPart 1 0 6)).
Proof.
  split; [vm_compute; reflexivity|]. intros (B & E & H). injection E as <-. destruct H as [H|H]; vm_compute in H; [discriminate|now apply H].
Qed.
(** Two fixed buffers in one object and no heap at all. *)
Definition fm : mem := [Block 4096 70 true Static (fun i => if i <? 35 then b_get (bufblk gcc64 4096 b_fixed) i
  else if i <? 40 then CUndef else if i <? 64 then CHdr (Hdr 1 4 fixed) (i - 40) else if i =? 64 then CByte 120 else CByte 0)].
Definition fslots : list slot := [ABuf b_fixed; ABuf (Buffer (bs "x") 4 fixed)].
Definition fvars : list ptr := [Ptr (PBlk 0) 0; Ptr (PBlk 0) 40].
Lemma fmeans : means gcc64 (fun _ _ => False) fslots fvars (St fm (s_orc w_move)).
Proof.
  constructor; cbn [s_mem].
  - reflexivity.
  - intros i Hi. destruct i as [|[|i]]; cbn in Hi; [| |lia].
    + clear Hi. eexists _, _. split; [reflexivity|]. split; [reflexivity|]. unfold buf_in. cbn [b_live b_base b_size b_owner b_get p_ofs]. change (p_ofs (var fvars 0)) with 0.
      split; [reflexivity|]. split; [lia|]. split; [reflexivity|]. split; [vm_compute; congruence|].
      split. { intros i Hi. change (hdr_size gcc64) with 24 in Hi. rewrite (proj2 (Z.ltb_lt _ _)) by lia. cbn [b_get bufblk]. now rewrite (proj2 (Z.ltb_lt _ _)) by (change (hdr_size gcc64) with 24; lia). }
      split. { intros i Hi. change (Zlen (bf_data b_fixed)) with 6 in Hi. change (hdr_size gcc64) with 24. rewrite (proj2 (Z.ltb_lt _ _)) by lia. cbn [b_get bufblk].
               change (hdr_size gcc64) with 24. change (Zlen (bf_data b_fixed)) with 6. rewrite (proj2 (Z.ltb_ge _ _)), (proj2 (Z.ltb_lt _ _)) by lia. do 3 f_equal. lia. }
      split; [reflexivity|]. split; [apply byteb_ok; reflexivity|]. split; [vm_compute; split; congruence|]. vm_compute. congruence.
    + clear Hi. eexists _, _. split; [reflexivity|]. split; [reflexivity|]. unfold buf_in. cbn [b_live b_base b_size b_owner b_get p_ofs]. change (p_ofs (var fvars 1)) with 40.
      split; [reflexivity|]. split; [lia|]. split; [reflexivity|]. split; [vm_compute; congruence|].
      split. { intros i Hi. change (hdr_size gcc64) with 24 in Hi. rewrite (proj2 (Z.ltb_ge _ 35)), (proj2 (Z.ltb_ge _ 40)), (proj2 (Z.ltb_lt _ 64)) by lia. f_equal. lia. }
      split. { intros i Hi. change (Zlen _) with 1 in Hi. replace i with 0 by lia. reflexivity. }
      split; [reflexivity|]. split; [apply byteb_ok; reflexivity|]. split; [vm_compute; split; congruence|]. vm_compute. congruence.
  - intros i j Hne Hi Hj. cbn in Hi, Hj. destruct i as [|[|i]], j as [|[|j]]; try lia; cbn; right; (split; [reflexivity|split; [reflexivity|]]); vm_compute; [left|right]; congruence.
  - intros b k al Hb Hl Hk. destruct b as [|b]; cbn in Hb; [injection Hb as <-; cbn in Hk; discriminate|destruct b; discriminate].
  - intros v l [].
  - wf_check.
  - exact move_ok.
Qed.
Definition fprog : list op := [OAppend 1 (SPart 0 0 3); OPrepend 0 (SPart 1 0 4); OInsert 0 5 (SPart 0 1 1); OPrepend 0 (SPart 0 0 1)].
Example C127_fixed_ex : means gcc64 (fun _ _ => False) fslots fvars (St (s_mem (St fm (s_orc w_fail))) (s_orc w_move))
  /\ all_legal gcc64 (fun _ _ => False) fslots fprog /\ Forall edits fprog /\ (forall j B, slot_of fslots j = ABuf B -> dyn B = false)
  /\ fst (arun gcc64 fslots fprog) = [Some (bs "xabc"); Some (bs "xabcabcdef"); Some (bs "xabcabcdef"); Some []].
Proof.
  split; [exact fmeans|]. split.
  { unfold fprog. cbn [all_legal]. do 2 (split; [eexists; split; [reflexivity|]; split; [part|now left]|]).
    split; [eexists; split; [reflexivity|]; split; [part|split; [now left|unfold INT_MIN, INT_MAX; lia]]|].
    split; [eexists; split; [reflexivity|]; split; [part|now left]|]. exact I. }
  split; [repeat constructor|]. split; [|vm_compute; reflexivity].
  intros [|[|j]] B E; cbn in E; try (injection E as <-; reflexivity). destruct j; discriminate.
Qed.
