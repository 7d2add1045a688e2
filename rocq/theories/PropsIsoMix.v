(** Property theorems C156: exactly which calls of programs on buffers and views ISO C leaves undefined. *)
From Coq Require Import String.
From Verif Require Import Base Mem Libc StrviewModel StrnumModel Spec NumSpec Alloc StrbufModel BufSpec HistSpec ViewProg
  MixSpec MixCheck PortSpec IsoSpec IsoBufSpec IsoMixSpec IsoMixProofs ExampleLib BufExample PropsMix.
Local Open Scope string_scope.
Local Open Scope list_scope.
Local Open Scope Z_scope.

(** ** C156 *)
Theorem C156_call : forall cf T ds dls R s g o, usual cf -> wf_cfg cf -> covers ds T R dls -> stands cf T R s g -> mlegal (strict cf) ds T R s g o ->
  (iso_mix_undefined cf T s g o -> exists u, mexec (strict cf) ds s o = UB u) /\
  (~ iso_mix_undefined cf T s g o -> mexec (strict cf) ds s o = mexec cf ds s o /\
     exists x s', mexec cf ds s o = Ok (x, s') /\ stands cf T R s' (gstep cf ds T s g o x)).
Proof. intros cf T ds dls R s g o U W C. exact (iso_mix_exact cf T ds dls R U W C s g o). Qed.
Print Assumptions C156_call.
Theorem C156_program : forall cf T ds dls R prog s g, usual cf -> wf_cfg cf -> covers ds T R dls -> stands cf T R s g -> all_iso_legal cf ds T R s g prog ->
  (iso_mix_program cf ds T s g prog -> mrun (strict cf) ds s prog = mrun cf ds s prog /\
     exists xs s', mrun cf ds s prog = Ok (xs, s') /\ stands cf T R s' (gafter cf ds T s g prog)) /\
  (~ iso_mix_program cf ds T s g prog -> exists u, mrun (strict cf) ds s prog = UB u).
Proof. intros cf T ds dls R prog s g U W C. exact (iso_mix_program_exact cf T ds dls R U W C prog s g). Qed.
Print Assumptions C156_program.
(** There is no third possibility. *)
Theorem C156_decided : forall cf T ds dls R prog s g, usual cf -> wf_cfg cf -> covers ds T R dls -> stands cf T R s g -> all_iso_legal cf ds T R s g prog ->
  iso_mix_program cf ds T s g prog \/ exists u, mrun (strict cf) ds s prog = UB u.
Proof. intros cf T ds dls R prog s g U W C. exact (iso_mix_decided cf T ds dls R U W C prog s g). Qed.
Print Assumptions C156_decided.
(** Programs that use only the functions of [in_iso] and [in_iso_buf] make no such call. *)
Theorem C156_always : forall cf T ds dls R prog s g, usual cf -> wf_cfg cf -> covers ds T R dls -> stands cf T R s g -> all_iso_legal cf ds T R s g prog ->
  Forall (fun o => in_iso_mix o = true) prog -> iso_mix_program cf ds T s g prog.
Proof. intros cf T ds dls R prog s g U W C. exact (in_iso_mix_program cf T ds dls R U W C prog s g). Qed.
Print Assumptions C156_always.

(** A program that ISO C defines: a field of a line is assigned to a buffer, taken apart there, and parts of the buffer are added to
    it; its characters do not start where its object starts, so searches from the end are fine. *)
Definition prog156 : list mop :=
  [ MView (VOp (FDelim false false 0) (Some 1%nat) 0 0);
    MBuf (OAssign 0 SNone) [1%nat] (Some 2%nat);
    MView (VOp (FDelim false false 1) (Some 3%nat) 2 0); MText 3; MText 2;
    MBuf (OAppend 0 SNone) [3%nat] (Some 4%nat);
    MView (VOp (FFind true false) (Some 5%nat) 4 1); MText 5; MView (VOp (FFind true false) (Some 5%nat) 4 0); MText 5;
    MBuf (OView 0) [] (Some 2%nat); MView (VOp (FDelim true false 1) (Some 3%nat) 4 0); MText 3;
    MBuf (OAssign 1 SNone) [3%nat] (Some 5%nat); MView (VOp (FMatch true) None 5 3);
    MBuf (OBefore 0 SNone (SPart 0 0 1)) [3%nat] (Some 2%nat);
    MBuf (OPrintf 1 (bs "ab")) [] (Some 5%nat); MView (VOp FPop None 5 0); MBuf (ODestroy 0) [] None; MText 1 ].
Definition seen156 : list seen :=
  [ Saw []; Read (Some (bs "name=bob")); Saw []; Read (Some (bs "name")); Read (Some (bs "bob")); Read (Some (bs "name=bobname"));
    Saw []; Read (Some (bs "name=bob")); Saw []; Read None; Read (Some (bs "name=bobname")); Saw []; Read (Some (bs "bobname"));
    Read (Some (bs "bobname")); Saw [1]; Read (Some (bs "name=nbobname")); Read (Some (bs "ab")); Saw [97]; Read None; Read (Some (bs "name=bob")) ].
Example C156_ex : usual gcc64 /\ strict gcc64 = iso64 /\ covers md1 lib1 R1 delims /\ stands gcc64 lib1 R1 ms1 gh1 /\
  all_iso_legal gcc64 md1 lib1 R1 ms1 gh1 prog156 /\ iso_mix_program gcc64 md1 lib1 ms1 gh1 prog156 /\
  (match mrun iso64 md1 ms1 prog156 with Ok (xs, _) => Some xs | _ => None end) = Some seen156.
Proof.
  assert (covers md1 lib1 R1 delims) as C1 by (apply parts_cover; [reflexivity|apply delims_ok]).
  assert (all_iso_legal gcc64 md1 lib1 R1 ms1 gh1 prog156) as L.
  { apply all_roomb_ok; [|vm_compute; reflexivity].
    apply (all_mlegalb_ok _ _ delims); [repeat split|exact gcc64_wf|reflexivity|exact C1|exact stands1|vm_compute; reflexivity]. }
  assert ((match mrun iso64 md1 ms1 prog156 with Ok (xs, _) => Some xs | _ => None end) = Some seen156) as E by (vm_compute; reflexivity).
  split; [repeat split|]. split; [reflexivity|]. split; [exact C1|]. split; [exact stands1|]. split; [exact L|]. split; [|exact E].
  destruct (iso_mix_decided gcc64 lib1 md1 delims R1 ltac:(repeat split) gcc64_wf C1 prog156 ms1 gh1 stands1 L) as [P|[u P]]; [exact P|].
  change (strict gcc64) with iso64 in P. rewrite P in E. discriminate E.
Qed.
(** The program of C149 appends a field of the line to the buffer, which is one of the calls to avoid; so is a search from the end of the
    line itself. *)
Example C156_avoid_ex : mrun iso64 md1 ms1 (builder heapA) = UB UB_ptr /\
  iso_mix_undefined gcc64 lib1 ms1 gh1 (MBuf (OAppend 0 SNone) [0%nat] None) /\ mexec iso64 md1 ms1 (MBuf (OAppend 0 SNone) [0%nat] None) = UB UB_ptr /\
  iso_mix_undefined gcc64 lib1 ms1 gh1 (MView (VOp (FDelim true false 1) (Some 1%nat) 0 0)) /\
  mexec iso64 md1 ms1 (MView (VOp (FDelim true false 1) (Some 1%nat) 0 0)) = UB UB_ptr.
Proof. split; [vm_compute; reflexivity|]. split; [vm_compute; reflexivity|]. split; [vm_compute; reflexivity|]. split; [reflexivity|]. vm_compute. reflexivity. Qed.
