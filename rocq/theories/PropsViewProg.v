(** Property theorems C148: programs that use views of texts stay inside of the texts, and see nothing but the texts. *)
From Coq Require Import String.
From Verif Require Import Base Mem Libc StrviewModel StrnumModel Spec MemLemmas NumSpec ViewProg ViewProgProofs2 ExampleLib PropsSame.
Local Open Scope string_scope.
Local Open Scope list_scope.
Local Open Scope Z_scope.

(** ** C148 *)
Theorem C148_safe : forall cf m T ds dls vars e prog, usual cf -> mem_wf m -> stored m T -> Forall2 (c_string m) ds dls ->
  Forall (inside T) vars -> pend_ok e -> all_vlegal cf m ds vars e prog ->
  exists xs vars' e', vrun cf m ds vars e prog = Ok (xs, vars', e') /\ Forall (inside T) vars' /\ pend_ok e'.
Proof. exact viewprog_safe. Qed.
Print Assumptions C148_safe.
Theorem C148_same : forall cf1 cf2 m1 m2 T1 T2 ds1 ds2 dls vars1 vars2 e prog,
  usual cf1 -> usual cf2 -> mem_wf m1 -> mem_wf m2 -> stored m1 T1 -> stored m2 T2 -> apart T1 ->
  Forall2 (c_string m1) ds1 dls -> Forall2 (c_string m2) ds2 dls -> Forall2 (same_part T1 T2) vars1 vars2 -> pend_ok e ->
  Forall (same_range cf1 cf2) prog -> all_vlegal cf1 m1 ds1 vars1 e prog ->
  exists xs vars1' vars2' e', vrun cf1 m1 ds1 vars1 e prog = Ok (xs, vars1', e') /\ vrun cf2 m2 ds2 vars2 e prog = Ok (xs, vars2', e') /\
    Forall2 (same_part T1 T2) vars1' vars2'.
Proof. exact viewprog_same. Qed.
Print Assumptions C148_same.

(** A program that reads settings, in two memories: variable 0 is the rest of the text, 1 the spaces, 2 the rest of the line,
    3 the rest of the field, 4 the name looked for, 5 the name found, 6 a place, 7 what is looked for. *)
Definition settings : list Z := bs " age = 42;name='Bob'" ++ [13; 10] ++ bs "next".
Definition vm1 : mem := [ blk 512 settings; blk 1024 (bs " "); blk 2048 (bs "NAME"); blk 4096 (bs "xy" ++ [0; 59; 0; 61; 0]) ].
Definition vm2 : mem := [ blk 64 (bs "xy" ++ [0; 61; 0; 59; 0]); blk 256 (bs "my NAME is"); blk 512 (bs "ab c"); blk 1024 (bs "=" ++ settings ++ bs "=") ].
Definition Tv1 : library := [(vw 0 0 26, settings); (vw 1 0 1, bs " "); (vw 2 0 4, bs "NAME"); (vw 3 0 1, bs "x")].
Definition Tv2 : library := [(vw 3 1 26, settings); (vw 2 2 1, bs " "); (vw 1 3 4, bs "NAME"); (vw 0 0 1, bs "x")].
Definition ds1 : list ptr := [Ptr (PBlk 3) 3; Ptr (PBlk 3) 5].
Definition ds2 : list ptr := [Ptr (PBlk 0) 5; Ptr (PBlk 0) 3].
Definition vvars1 : list view := [vw 0 0 26; vw 1 0 1; INVALID; INVALID; vw 2 0 4; INVALID; INVALID; vw 3 0 1].
Definition vvars2 : list view := [vw 3 1 26; vw 2 2 1; INVALID; INVALID; vw 1 3 4; INVALID; INVALID; vw 0 0 1].
Definition reader : list vop :=
  [ VOp (FLine true) (Some 2%nat) 0 0; VOp (FDelim false false 0) (Some 3%nat) 2 0; VOp (FDelim false false 1) (Some 5%nat) 3 0;
    VOp (FTrim AtBoth) (Some 5%nat) 5 1; VOp (FMatch true) None 5 4; VOp (FNum TInt 0) None 3 0;
    VOp (FDelim false false 1) (Some 5%nat) 2 0; VOp (FMatch true) None 5 4; VOp (FCompare) None 5 4; VOp FDequote (Some 2%nat) 2 0;
    VOp (FFind false false) (Some 6%nat) 0 7; VOp (FAt false) (Some 3%nat) 0 6; VOp FPop None 0 0; VOp (FSub (-1) INT_MAX) (Some 6%nat) 0 0 ].
Definition part_end1 : list view := [vw 0 25 1; vw 1 0 1; vw 0 16 3; vw 0 22 2; vw 2 0 4; vw 0 10 4; vw 0 25 1; vw 3 0 1].
Definition part_end2 : list view := [vw 3 26 1; vw 2 2 1; vw 3 17 3; vw 3 23 2; vw 1 3 4; vw 3 11 4; vw 3 26 1; vw 0 0 1].
Definition seen_by_reader : list (list Z) := [[]; []; []; []; [0]; [0; 42]; []; [1]; [1]; []; []; []; [120]; []].

Example C148_ex : usual gcc64 /\ usual other /\ mem_wf vm1 /\ mem_wf vm2 /\ stored vm1 Tv1 /\ stored vm2 Tv2 /\ apart Tv1 /\
  Forall2 (c_string vm1) ds1 [bs ";"; bs "="] /\ Forall2 (c_string vm2) ds2 [bs ";"; bs "="] /\
  Forall (inside Tv1) vvars1 /\ Forall2 (same_part Tv1 Tv2) vvars1 vvars2 /\ Forall (same_range gcc64 other) reader /\
  all_vlegal gcc64 vm1 ds1 vvars1 0 reader /\
  vrun gcc64 vm1 ds1 vvars1 0 reader = Ok (seen_by_reader, part_end1, 0) /\
  vrun other vm2 ds2 vvars2 0 reader = Ok (seen_by_reader, part_end2, 0).
Proof.
  do 2 (split; [repeat split|]). split; [wf_check|]. split; [wf_check|].
  split; [repeat (constructor; [view_check|]); constructor|]. split; [repeat (constructor; [view_check|]); constructor|].
  split.
  { intros i j s t Ei Ej. destruct i as [|[|[|[|i]]]]; cbn in Ei; try (destruct i; discriminate); injection Ei as <-;
    destruct j as [|[|[|[|j]]]]; cbn in Ej; try (destruct j; discriminate); injection Ej as <-; cbn; congruence. }
  split; [repeat (constructor; [cstr_check|]); constructor|]. split; [repeat (constructor; [cstr_check|]); constructor|].
  assert (Forall2 (same_part Tv1 Tv2) vvars1 vvars2) as HS.
  { unfold vvars1, vvars2. repeat apply Forall2_cons; try apply Forall2_nil; try (left; split; reflexivity); right.
    - exists 0%nat, (vw 0 0 26), (vw 3 1 26), settings, 0, 26. repeat split; vm_compute; congruence.
    - exists 1%nat, (vw 1 0 1), (vw 2 2 1), (bs " "), 0, 1. repeat split; vm_compute; congruence.
    - exists 2%nat, (vw 2 0 4), (vw 1 3 4), (bs "NAME"), 0, 4. repeat split; vm_compute; congruence.
    - exists 3%nat, (vw 3 0 1), (vw 0 0 1), (bs "x"), 0, 1. repeat split; vm_compute; congruence. }
  split.
  { revert HS. generalize vvars2. induction vvars1 as [|v l IH]; intros l2 HS; inversion HS as [|? ? ? ? H1 H2]; subst; constructor; [|eapply IH; exact H2].
    destruct H1 as [[-> _]|(k & s1 & s2 & t & i & n & E1 & _ & Hi & Hn & Hl & -> & _)]; [now left|]. right. exists s1, t, i, n. apply nth_error_In in E1. auto 10. }
  split; [exact HS|].
  split; [repeat (constructor; [first [exact I|split; reflexivity]|]); constructor|].
  split.
  { unfold reader. cbn [all_vlegal vo_f vlegal]. unfold INT_MIN, INT_MAX.
    repeat (split; [first [exact I|cbn; lia|right; right; reflexivity]|];
      match goal with |- match ?x with _ => _ end => let y := eval vm_compute in x in replace x with y by (vm_compute; reflexivity) end;
      cbn [vo_f vlegal all_vlegal]). exact I. }
  split; vm_compute; reflexivity.
Qed.
