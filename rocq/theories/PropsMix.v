(** Property theorems C149: programs that use buffers and views of them together. *)
From Coq Require Import String.
From Verif Require Import Base Mem Libc StrviewModel StrnumModel Spec MemLemmas NumSpec Alloc StrbufModel BufSpec HistSpec SameSpec ViewProg
  MixSpec MixProofs MixCheck ExampleLib BufExample PropsSame.
Local Open Scope string_scope.
Local Open Scope list_scope.
Local Open Scope Z_scope.

(** ** C149 *)
Theorem C149_safe : forall cf T ds dls R prog s g, usual cf -> wf_cfg cf -> covers ds T R dls -> stands cf T R s g -> all_mlegal cf ds T R s g prog ->
  exists xs s', mrun cf ds s prog = Ok (xs, s') /\ stands cf T R s' (gafter cf ds T s g prog).
Proof. exact mixed_safe. Qed.
Print Assumptions C149_safe.
Theorem C149_reads : forall cf T ds dls R s g k, wf_cfg cf -> covers ds T R dls -> stands cf T R s g -> nget (g_names g) k <> NStale ->
  mexec cf ds s (MText k) = Ok (Read (named_text T (g_slots g) (nget (g_names g) k)), s).
Proof. intros cf T ds dls R s g k W C. exact (mtext_ok cf T ds dls R W C s g k). Qed.
Print Assumptions C149_reads.
Theorem C149_same : forall cf1 cf2 T1 T2 ds1 ds2 dls R1 R2 p1 p2 s1 s2 g1 g2,
  usual cf1 -> usual cf2 -> wf_cfg cf1 -> wf_cfg cf2 -> covers ds1 T1 R1 dls -> covers ds2 T2 R2 dls ->
  Forall2 (fun t u => snd t = snd u) T1 T2 ->
  stands cf1 T1 R1 s1 g1 -> stands cf2 T2 R2 s2 g2 -> g_names g1 = g_names g2 -> Forall2 same_slot (g_slots g1) (g_slots g2) ->
  ms_eol s1 = ms_eol s2 -> Forall2 (same_mop cf1 cf2) p1 p2 ->
  all_mlegal cf1 ds1 T1 R1 s1 g1 p1 -> all_mlegal cf2 ds2 T2 R2 s2 g2 p2 ->
  exists xs s1' s2', mrun cf1 ds1 s1 p1 = Ok (xs, s1') /\ mrun cf2 ds2 s2 p2 = Ok (xs, s2') /\
    let g1' := gafter cf1 ds1 T1 s1 g1 p1 in let g2' := gafter cf2 ds2 T2 s2 g2 p2 in
    stands cf1 T1 R1 s1' g1' /\ stands cf2 T2 R2 s2' g2' /\ g_names g1' = g_names g2' /\ Forall2 same_slot (g_slots g1') (g_slots g2').
Proof.
  intros cf1 cf2 T1 T2 ds1 ds2 dls R1 R2 p1 p2 s1 s2 g1 g2 U1 U2 W1 W2 C1 C2 HT S1 S2 En Ha Ee Hp.
  exact (mixed_same cf1 cf2 T1 T2 ds1 ds2 dls R1 R2 U1 U2 W1 W2 C1 C2 HT p1 p2 s1 s2 g1 g2 S1 S2 En Ha Ee Hp).
Qed.
Print Assumptions C149_same.

(** A program that takes a line apart and builds texts from the parts, on two platforms.  View variables: 0 is the line, 1 a
    field of it, 2 and 4 are views of buffers, 3 a part of one, 5 a place. *)
Definition line : list Z := bs "name=bob;age=42".
Definition md1 : list ptr := [Ptr (PBlk 3) 0; Ptr (PBlk 3) 2].
Definition md2 : list ptr := [Ptr (PBlk 0) 4; Ptr (PBlk 0) 2].
Definition mm1 : mem := [ blk 512 line; bufblk gcc64 1024 b_fixed; bufblk gcc64 4096 b_hello; blk 8192 [59; 0; 61; 0] ].
Definition mm2 : mem := [ blk 512 [97; 0; 61; 0; 59; 0]; bufblk other 1024 b_fixed; bufblk other 4096 b_hello2; blk 8192 (bs "xx" ++ line) ].
Definition lib1 : library := [(vw 0 0 15, line)].
Definition lib2 : library := [(vw 3 2 15, line)].
Definition delims : list (list Z) := [bs ";"; bs "="].
Definition R1 : texts := parts lib1 md1 delims.
Definition R2 : texts := parts lib2 md2 delims.
Definition names0 : list name := [NText 0 0 15; NNone; NNone; NNone; NNone; NNone].
Definition ms1 : mstate := MState [Ptr (PBlk 2) 0; Ptr (PBlk 1) 0; null] [vw 0 0 15; INVALID; INVALID; INVALID; INVALID; INVALID] 0 (St mm1 (fun _ => Choice false true 0)).
Definition ms2 : mstate := MState [Ptr (PBlk 2) 0; Ptr (PBlk 1) 0; null] [vw 3 2 15; INVALID; INVALID; INVALID; INVALID; INVALID] 0 (St mm2 (fun _ => Choice false false 0)).
Definition gh1 : ghost := Ghost [ABuf b_hello; ABuf b_fixed; ANone] names0.
Definition gh2 : ghost := Ghost [ABuf b_hello2; ABuf b_fixed; ANone] names0.
Definition builder (al : allocator) : list mop :=
  [ MView (VOp (FDelim false false 0) (Some 1%nat) 0 0);
    MBuf (OAppend 0 SNone) [1%nat] (Some 2%nat);
    MView (VOp (FDelim false false 1) (Some 3%nat) 2 0); MText 3; MText 2;
    MBuf (OInit 2 SNone al) [3%nat] None;
    MBuf (OPrepend 2 SNone) [2%nat] (Some 4%nat); MText 2;
    MBuf (OAssign 0 SNone) [2%nat] (Some 2%nat);
    MView (VOp (FFind false true) (Some 5%nat) 4 2); MView (VOp (FAt true) (Some 5%nat) 4 5); MText 5; MText 4;
    MBuf (OInsert 1 (-1) SNone) [4%nat] (Some 3%nat);
    MBuf (OCat 0 [SPart 1 0 2; SNone; SNone; SNone]) [0%nat; 2%nat; 1%nat] (Some 2%nat);
    MText 3; MBuf (OGrow 1 100) [] None;
    MBuf (ODestroy 2) [] None; MBuf (OView 0) [] (Some 3%nat); MView (VOp FPop None 3 0); MText 2; MBuf (ODestroy 0) [] None; MText 1 ].
Definition seen_by_builder : list seen :=
  [ Saw []; Read (Some (bs "helloname=bob")); Saw []; Read (Some (bs "helloname")); Read (Some (bs "bob")); Read None;
    Read (Some (bs "bobhelloname")); Read (Some (bs "bob")); Read (Some (bs "bob")); Saw []; Saw []; Read (Some (bs "helloname"));
    Read (Some (bs "bob")); Read (Some (bs "abcdebobf")); Read (Some (bs "abage=42bobname=bob")); Read (Some (bs "abcdebobf")); Read None;
    Read None; Read (Some (bs "abage=42bobname=bob")); Saw [97]; Read (Some (bs "abage=42bobname=bob")); Read None; Read (Some (bs "name=bob")) ].

Lemma delims_ok : Forall (fun l => ~ In 0 l) delims /\ Forall (fun l => Zlen l + 1 <= INT_MAX) delims.
Proof. split; repeat constructor; cbn; try lia; unfold INT_MAX; lia. Qed.
Lemma stands1 : stands gcc64 lib1 R1 ms1 gh1.
Proof.
  split; [|split; [|now left]].
  - constructor; cbn [s_mem ms_st ms1 gh1 ms_vars g_slots].
    + reflexivity.
    + intros i Hi. destruct i as [|[|[|i]]]; cbn in Hi; [| | |lia].
      * change (buf_at gcc64 mm1 (Ptr (PBlk 2) 0) b_hello). buf_check 4096.
      * change (buf_at gcc64 mm1 (Ptr (PBlk 1) 0) b_fixed). buf_check 1024.
      * reflexivity.
    + intros i j Hne Hi Hj. cbn in Hi, Hj. destruct i as [|[|[|i]]], j as [|[|[|j]]]; try lia; cbn; auto; left; discriminate.
    + intros b k al Hb Hl Hk. destruct b as [|[|[|[|b]]]]; cbn in Hb; try (injection Hb as <-; cbn in Hk; discriminate).
      * exists 0%nat. split; [cbn; lia|]. split; reflexivity.
      * destruct b; discriminate.
    + intros v l H. destruct (parts_view mm1 lib1 md1 delims v l) as (V & O); auto; [repeat (constructor; [view_check|]); constructor|repeat (constructor; [cstr_check|]); constructor|apply delims_ok|].
      assert (p_obj (v_data v) = PBlk 0 \/ p_obj (v_data v) = PBlk 3) as O'.
      { destruct O as [(k & s & t & E & O)|(k & d & E & O)]; rewrite O; destruct k as [|[|k]]; cbn in E; try (destruct k; discriminate); try discriminate; injection E as <-; cbn; auto. }
      split; [exact V|]. split; [destruct O' as [O'|O']; eexists; exact O'|].
      intros i Hi. destruct i as [|[|[|i]]]; cbn in Hi; [| | |lia]; cbn; auto; (split; [destruct O' as [O'|O']; eexists; exact O'|left; destruct O' as [O'|O']; rewrite O'; discriminate]).
    + wf_check.
    + intros n. reflexivity.
  - repeat apply Forall2_cons; try apply Forall2_nil; try reflexivity. exists (vw 0 0 15), line. repeat split; vm_compute; congruence.
Qed.
Lemma stands2 : stands other lib2 R2 ms2 gh2.
Proof.
  split; [|split; [|now left]].
  - constructor; cbn [s_mem ms_st ms2 gh2 ms_vars g_slots].
    + reflexivity.
    + intros i Hi. destruct i as [|[|[|i]]]; cbn in Hi; [| | |lia].
      * change (buf_at other mm2 (Ptr (PBlk 2) 0) b_hello2). buf_check 4096.
      * change (buf_at other mm2 (Ptr (PBlk 1) 0) b_fixed). buf_check 1024.
      * reflexivity.
    + intros i j Hne Hi Hj. cbn in Hi, Hj. destruct i as [|[|[|i]]], j as [|[|[|j]]]; try lia; cbn; auto; left; discriminate.
    + intros b k al Hb Hl Hk. destruct b as [|[|[|[|b]]]]; cbn in Hb; try (injection Hb as <-; cbn in Hk; discriminate).
      * exists 0%nat. split; [cbn; lia|]. split; reflexivity.
      * destruct b; discriminate.
    + intros v l H. destruct (parts_view mm2 lib2 md2 delims v l) as (V & O); auto; [repeat (constructor; [view_check|]); constructor|repeat (constructor; [cstr_check|]); constructor|apply delims_ok|].
      assert (p_obj (v_data v) = PBlk 3 \/ p_obj (v_data v) = PBlk 0) as O'.
      { destruct O as [(k & s & t & E & O)|(k & d & E & O)]; rewrite O; destruct k as [|[|k]]; cbn in E; try (destruct k; discriminate); try discriminate; injection E as <-; cbn; auto. }
      split; [exact V|]. split; [destruct O' as [O'|O']; eexists; exact O'|].
      intros i Hi. destruct i as [|[|[|i]]]; cbn in Hi; [| | |lia]; cbn; auto; (split; [destruct O' as [O'|O']; eexists; exact O'|left; destruct O' as [O'|O']; rewrite O'; discriminate]).
    + wf_check.
    + intros n. reflexivity.
  - repeat apply Forall2_cons; try apply Forall2_nil; try reflexivity. exists (vw 3 2 15), line. repeat split; vm_compute; congruence.
Qed.
Example C149_ex : usual gcc64 /\ usual other /\ covers md1 lib1 R1 delims /\ covers md2 lib2 R2 delims /\
  Forall2 (fun t u => snd t = snd u) lib1 lib2 /\ stands gcc64 lib1 R1 ms1 gh1 /\ stands other lib2 R2 ms2 gh2 /\
  Forall2 same_slot (g_slots gh1) (g_slots gh2) /\ Forall2 (same_mop gcc64 other) (builder heapA) (builder heapB) /\
  all_mlegal gcc64 md1 lib1 R1 ms1 gh1 (builder heapA) /\ all_mlegal other md2 lib2 R2 ms2 gh2 (builder heapB) /\
  (match mrun gcc64 md1 ms1 (builder heapA) with Ok (xs, s) => Some (xs, ms_views s) | _ => None end) =
    Some (seen_by_builder, [vw 0 9 6; vw 0 0 8; vw 8 24 19; vw 8 25 18; vw 6 24 3; vw 6 27 9]) /\
  (match mrun other md2 ms2 (builder heapB) with Ok (xs, _) => Some xs | _ => None end) = Some seen_by_builder /\
  g_names (gafter gcc64 md1 lib1 ms1 gh1 (firstn 14 (builder heapA))) =
    [NText 0 9 6; NText 0 0 8; NBuf 0 0 3; NBuf 1 0 9; NBuf 2 0 3; NBuf 2 3 9].
Proof.
  assert (covers md1 lib1 R1 delims) as C1 by (apply parts_cover; [reflexivity|apply delims_ok]).
  assert (covers md2 lib2 R2 delims) as C2 by (apply parts_cover; [reflexivity|apply delims_ok]).
  do 2 (split; [repeat split|]). split; [exact C1|]. split; [exact C2|]. split; [repeat constructor|]. split; [exact stands1|]. split; [exact stands2|].
  split; [repeat constructor; discriminate|].
  split; [unfold builder; repeat (apply Forall2_cons; [cbn; auto|]); apply Forall2_nil|].
  split; [apply (all_mlegalb_ok _ _ delims); [repeat split|split; [cbn; lia|auto]|reflexivity|exact C1|exact stands1|vm_compute; reflexivity]|].
  split; [apply (all_mlegalb_ok _ _ delims); [repeat split|exact other_wf|reflexivity|exact C2|exact stands2|vm_compute; reflexivity]|].
  split; [vm_compute; reflexivity|]. split; vm_compute; reflexivity.
Qed.
(** Why stale views are not used: a view of a buffer that had to move is a view of freed memory, and one of a buffer that
    stayed shows other text than before. *)
Definition stale_use : list mop := [MBuf (OView 0) [] (Some 2%nat); MText 2; MBuf (OPrepend 0 SNone) [0%nat] None; MText 2].
Example C149_stale_ex : mrun gcc64 md1 ms1 stale_use = UB UB_dead /\
  g_names (gafter gcc64 md1 lib1 ms1 gh1 (firstn 3 stale_use)) = [NText 0 0 15; NNone; NStale; NNone; NNone; NNone] /\
  (match mrun other md2 ms2 stale_use with Ok (xs, _) => Some xs | _ => None end) =
    Some [Read (Some (bs "hello")); Read (Some (bs "hello")); Read (Some (bs "name=bob;age=42hello")); Read (Some (bs "name="))].
Proof. split; [vm_compute; reflexivity|]. split; vm_compute; reflexivity. Qed.
