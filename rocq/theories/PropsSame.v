(** Property theorem C147: capacities, the grow step, allocators, places in memory and the platform are invisible to programs. *)
From Coq Require Import String.
From Verif Require Import Base Mem Libc StrviewModel Spec MemLemmas Alloc StrbufModel BufSpec HistSpec SameSpec
  StrbufHistory SameProofs ExampleLib BufExample PropsBuf PropsBuf2.
Local Open Scope string_scope.
Local Open Scope list_scope.
Local Open Scope Z_scope.

(** ** C147 *)
Theorem C147_invisible : forall cf1 cf2 T1 T2 p1 p2 a1 a2 vars1 vars2 w1 w2,
  wf_cfg cf1 -> c_ptr cf1 = true -> means cf1 T1 a1 vars1 w1 -> all_legal cf1 T1 a1 p1 ->
  wf_cfg cf2 -> c_ptr cf2 = true -> means cf2 T2 a2 vars2 w2 -> all_legal cf2 T2 a2 p2 ->
  Forall2 same_slot a1 a2 -> bare_prog p1 = bare_prog p2 ->
  Forall (fun o => offers o = false) p1 -> Forall (fun o => offers o = false) p2 ->
  exists xs1 xs2 vars1' vars2' w1' w2' a1' a2',
    run cf1 vars1 w1 p1 = Ok (xs1, vars1', w1') /\ run cf2 vars2 w2 p2 = Ok (xs2, vars2', w2') /\
    noticed p1 xs1 = noticed p2 xs2 /\
    means cf1 T1 a1' vars1' w1' /\ means cf2 T2 a2' vars2' w2' /\ Forall2 same_slot a1' a2'.
Proof.
  intros cf1 cf2 T1 T2 p1 p2 a1 a2 vars1 vars2 w1 w2 W1 C1 M1 L1 W2 C2 M2 L2 S E O1 O2.
  destruct (run_ok cf1 T1 p1 a1 vars1 w1 W1 C1 M1 L1) as (v1 & s1 & R1 & N1).
  destruct (run_ok cf2 T2 p2 a2 vars2 w2 W2 C2 M2 L2) as (v2 & s2 & R2 & N2).
  destruct (same_run cf1 cf2 T1 T2 _ p1 p2 a1 a2 (le_n _) S E O1 O2 L1 L2) as (X & Y).
  eexists _, _, v1, v2, s1, s2, _, _. split; [exact R1|]. split; [exact R2|]. split; [exact X|]. split; [exact N1|]. split; [exact N2|exact Y].
Qed.
Print Assumptions C147_invisible.

(** The program of C43 on a 64 bit machine that grows buffers in steps of 16, and the same program on a 32 bit big endian
    machine with unsigned characters that grows them in steps of 100: other places, other capacities, other allocators, and
    some calls of strbuf_shrink and strbuf_grow more or less. *)
Definition other : cfg := Cfg false true true true true false true 100 4.
Definition b_hello2 : buffer := Buffer (bs "hello") 77 heapB.
Definition xm2 : mem :=
  [ blk 512 (bs "the wide sea"); bufblk other 1024 b_fixed; bufblk other 4096 b_hello2 ].
Definition w2_stay : st := St xm2 (fun _ => Choice false false 0).
Definition wide2 : view := vw 0 4 4.
Definition T2 : texts := fun v l => v = wide2 /\ l = bs "wide".
Definition slots2 : list slot := [ABuf b_hello2; ABuf b_fixed; ANone].
Definition vars2 : list ptr := [Ptr (PBlk 2) 0; Ptr (PBlk 1) 0; null].
Lemma other_wf : wf_cfg other. Proof. split; [cbn; lia|auto]. Qed.
Lemma means2 : means other T2 slots2 vars2 w2_stay.
Proof.
  constructor; cbn [s_mem].
  - reflexivity.
  - intros i Hi. destruct i as [|[|[|i]]]; cbn in Hi; [| | |lia].
    + unfold w2_stay. cbn [s_mem]. change (buf_at other xm2 (Ptr (PBlk 2) 0) b_hello2). buf_check 4096.
    + unfold w2_stay. cbn [s_mem]. change (buf_at other xm2 (Ptr (PBlk 1) 0) b_fixed). buf_check 1024.
    + reflexivity.
  - intros i j Hne Hi Hj. cbn in Hi, Hj. destruct i as [|[|[|i]]], j as [|[|[|j]]]; try lia; cbn; auto; left; discriminate.
  - intros b k al Hb Hl Hk. destruct b as [|[|[|b]]]; cbn in Hb; try (injection Hb as <-; cbn in Hk; discriminate).
    + exists 0%nat. split; [cbn; lia|]. split; reflexivity.
    + destruct b; discriminate.
  - intros v l [-> ->]. split; [view_check|]. split; [eexists; reflexivity|].
    intros i Hi. cbn in Hi. destruct i as [|[|[|i]]]; [| | |lia]; cbn; auto; (split; [eexists; reflexivity|left; cbn; discriminate]).
  - unfold w2_stay. cbn [s_mem]. wf_check.
  - intros n. reflexivity.
Qed.
Definition prog2 : list op :=
  [ OShrink 0; OAppend 0 (SPart 1 1 3); OCat 0 [SPart 0 0 2; SText wide2 (bs "wide"); SPart 0 (-3) INT_MAX]; OPrepend 1 (SPart 0 0 4);
    OInsert 1 (-2) (SPart 1 0 5); OInit 2 (SPart 0 2 6) heapA; OStrip 0 (SPart 2 0 2); OPrnf 1 (bs "12"); OGrow 0 3000;
    OView 1; ODestroy 0; OToCstr 2; ODestroy 1; OFree 2 heapA ].
Lemma legal2 : all_legal other T2 slots2 prog2.
Proof.
  unfold prog2. cbn [all_legal].
  split; [eexists; split; [reflexivity|exact I]|].
  split; [eexists; split; [reflexivity|]; split; [part|now left]|].
  split; [eexists; split; [reflexivity|]; split; [|now left]; constructor; [part|constructor; [split; reflexivity|constructor; [part|constructor]]]|].
  split; [eexists; split; [reflexivity|]; split; [part|now left]|].
  split; [eexists; split; [reflexivity|]; split; [part|split; [now left|unfold INT_MIN, INT_MAX; lia]]|].
  split; [split; [reflexivity|]; split; [cbn; lia|]; split; [reflexivity|]; split; [part|now left]|].
  split; [eexists; split; [reflexivity|]; split; [part|discriminate]|].
  split; [eexists; split; [reflexivity|]; split; [apply byteb_ok; reflexivity|]; split; [cbn; unfold INT_MAX; lia|now left]|].
  split; [eexists; split; [reflexivity|]; cbn [buf_legal]; unfold INT_MAX; lia|].
  split; [eexists; split; [reflexivity|exact I]|].
  split; [eexists; split; [reflexivity|exact I]|].
  split; [eexists; split; [reflexivity|reflexivity]|].
  split; [eexists; split; [reflexivity|exact I]|].
  split; [eexists; reflexivity|]. exact I.
Qed.
Example C147_ex : means gcc64 T0 slots0 vars0 w_move /\ all_legal gcc64 T0 slots0 prog0 /\
  means other T2 slots2 vars2 w2_stay /\ all_legal other T2 slots2 prog2 /\
  Forall2 same_slot slots0 slots2 /\ bare_prog prog0 = bare_prog prog2 /\
  Forall (fun o => offers o = false) prog0 /\ Forall (fun o => offers o = false) prog2 /\
  noticed prog0 seen0 =
  [ Some (bs "hellobc"); Some (bs "hewideobc"); Some (bs "hewiabcdef"); Some []; None; Some (bs "hedeobc"); Some (bs "12");
    Some (bs "12"); None; None; None; None ] /\
  fst (arun gcc64 slots0 prog0) = seen0 /\ noticed prog2 (fst (arun other slots2 prog2)) = noticed prog0 seen0 /\
  slot_of (snd (arun gcc64 slots0 (firstn 9 prog0))) 0 = ABuf (Buffer (bs "hedeobc") 16 heapA) /\
  slot_of (snd (arun other slots2 (firstn 9 prog2))) 0 = ABuf (Buffer (bs "hedeobc") 3000 heapB).
Proof.
  split; [now apply means0|]. split; [exact legal0|]. split; [exact means2|]. split; [exact legal2|].
  split; [repeat constructor; discriminate|]. split; [vm_compute; reflexivity|].
  split; [repeat constructor|]. split; [repeat constructor|].
  vm_compute. repeat split; reflexivity.
Qed.
(** Why strbuf_append_using is left out: the function given to it is offered the room the buffer happens to have, 3 bytes
    in one of these buffers and 72 in the other. *)
Example C147_using_ex : fst (arun gcc64 slots0 [OUsing 0 (bs " world")]) = [None] /\
  fst (arun other slots2 [OUsing 0 (bs " world")]) = [Some (bs "hello world")].
Proof. vm_compute. split; reflexivity. Qed.
