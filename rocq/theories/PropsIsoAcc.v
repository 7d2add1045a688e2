(** Property theorems C155: exactly which calls of programs that also use the accessories ISO C leaves undefined. *)
From Coq Require Import String.
From Verif Require Import Base Mem Libc StrviewModel Spec Alloc StrbufModel BufSpec HistSpec IoModel IoSpec PackModel PackSpec CryptModel PrnfModel PrnfSpec PrnfSpec2 PrnfBufModel
  HistSpec2 PortSpec IsoBufSpec IsoBufProofs2 IsoAccSpec IsoAccProofs ExampleLib BufExample PropsBuf2 PropsPrnf PropsHist PropsIsoBuf.
Local Open Scope string_scope.
Local Open Scope list_scope.
Local Open Scope Z_scope.

(** ** C155 *)
Theorem C155_call : forall cf A T a vars w o, wf_cfg cf -> means cf T a vars w -> xlegal (strict cf) A T a o ->
  (iso_acc_undefined vars a o = true -> exists u, xexec (strict cf) A vars w o = UB u) /\
  (iso_acc_undefined vars a o = false -> xexec (strict cf) A vars w o = xexec cf A vars w o /\
     exists vars' w', xexec cf A vars w o = Ok (fst (xstep cf A a o), vars', w') /\ means cf T (snd (xstep cf A a o)) vars' w').
Proof. exact iso_acc_exact. Qed.
Print Assumptions C155_call.
Theorem C155_program : forall cf A T prog a vars w, wf_cfg cf -> means cf T a vars w -> all_xlegal (strict cf) A T a prog ->
  (iso_acc_program cf A vars w a prog = true -> xrun (strict cf) A vars w prog = xrun cf A vars w prog /\
     exists vars' w', xrun cf A vars w prog = Ok (fst (xarun cf A a prog), vars', w') /\ means cf T (snd (xarun cf A a prog)) vars' w') /\
  (iso_acc_program cf A vars w a prog = false -> exists u, xrun (strict cf) A vars w prog = UB u).
Proof. exact iso_acc_program_exact. Qed.
Print Assumptions C155_program.
(** Programs that use only the functions of [in_iso_acc] make no such call: unpacking, file descriptors, encryption and prnf are all among them. *)
Theorem C155_always : forall cf A T prog a vars w, wf_cfg cf -> means cf T a vars w -> all_xlegal (strict cf) A T a prog -> Forall (fun o => in_iso_acc o = true) prog ->
  iso_acc_program cf A vars w a prog = true.
Proof. exact in_iso_acc_program. Qed.
Print Assumptions C155_always.
(** Packing an integer is undefined whatever the buffer, the integer and its type, the byte order and the place of the local variable. *)
Theorem C155_pack : forall cf e w p B base t x, wf_cfg cf -> buf_at cf (s_mem w) p B -> exists u, STRBUF_PACK (strict cf) e w (Some p) base t x = UB u.
Proof. intros cf e w p B base t x W HB. exact (pack_far (strict cf) e w p B base t x W eq_refl HB). Qed.
Print Assumptions C155_pack.

(** A program that ISO C defines: it prints a number and a buffer, unpacks an integer, writes, reads, fails to encrypt, appends a part of a buffer to
    itself and a row to the other one. *)
Section Prog.
Variable A : fops.
Definition prog155 : list (xop (dbl A)) :=
  [ XPrnf 0 xfmt1 (parts1 A); XUnpack 0 0 BE (Ity true W16); XWrite 0 (WrCount 10); XRead 1 (RdBytes (bs "012345")); XEncrypt 1 0 zkey ziv;
    XOp (OAppend 0 (SPart 0 0 2)); XOp (OPrintf 1 (bs "ab")); XAppendPrnf 1 xfmt2 (parts2 A); XOp (ODestroy 0); XOp (ODestroy 1) ].
Definition seen155 : list HistSpec2.seen :=
  [ SawText (Some (bs "n= -42 abcdef")); SawInt 28221; SawSent 10 (bs "n= -42 abc"); SawInt 4; SawText None;
    SawText (Some (bs "defde")); SawText (Some (bs "ab")); SawText (Some (bs "ab<defde>")); SawText None; SawText None ].
Ltac no_zero := let H := fresh in intros H; vm_compute in H; intuition discriminate.
Lemma legal155 : all_xlegal iso64 A T0 slots0 prog155.
Proof.
  unfold prog155. cbn [all_xlegal].
  assert (forall a t, slot_of a 1 = ABuf (Buffer t 10 fixed) -> ~ In 0 t -> Zlen (wanted iso64 A a (parts1 A)) < INT_MAX -> parts_legal iso64 A T0 a 0 xfmt1 (parts1 A)) as L1.
  { intros a t Ha Hz Hw. split; [left; split; [reflexivity|vm_compute; reflexivity]|]. split; [|split; [|exact Hw]].
    - repeat (constructor; [exact I|]). constructor; [|constructor]. split; [discriminate|]. rewrite Ha. eauto.
    - cbn [map item_meant parts1]. items_check. }
  assert (forall a t c, slot_of a 0 = ABuf (Buffer t c heapA) -> ~ In 0 t -> Zlen (wanted iso64 A a (parts2 A)) < INT_MAX -> parts_legal iso64 A T0 a 1 xfmt2 (parts2 A)) as L2.
  { intros a t c Ha Hz Hw. split; [left; split; [reflexivity|vm_compute; reflexivity]|]. split; [|split; [|exact Hw]].
    - constructor; [exact I|]. constructor; [|constructor; [exact I|constructor]]. split; [discriminate|]. rewrite Ha. eauto.
    - cbn [map item_meant parts2]. items_check. }
  split. { exists b_hello. split; [reflexivity|]. split; [apply (L1 _ (bs "abcdef")); [reflexivity|no_zero|vm_compute; reflexivity]|sums]. }
  split. { eexists. split; [vm_compute; reflexivity|]. vm_compute. split; discriminate. }
  split. { eexists. split; [vm_compute; reflexivity|]. exact I. }
  split. { eexists. split; [vm_compute; reflexivity|]. apply byteb_ok. vm_compute. reflexivity. }
  split. { eexists. split; [vm_compute; reflexivity|]. split; [reflexivity|]. split; [split; [reflexivity|apply byteb_ok; vm_compute; reflexivity]|].
    split; [split; [reflexivity|apply byteb_ok; vm_compute; reflexivity]|]. vm_compute. reflexivity. }
  split. { eexists. split; [vm_compute; reflexivity|]. split; [split; [eexists; vm_compute; reflexivity|split; unfold INT_MIN, INT_MAX; lia]|sums]. }
  split. { eexists. split; [vm_compute; reflexivity|]. split; [apply byteb_ok; reflexivity|]. split; [vm_compute; discriminate|sums]. }
  split. { eexists. split; [vm_compute; reflexivity|]. split; [|sums]. eapply L2; [vm_compute; reflexivity|no_zero|vm_compute; reflexivity]. }
  split. { eexists. split; [vm_compute; reflexivity|exact I]. }
  split. { eexists. split; [vm_compute; reflexivity|exact I]. }
  exact I.
Qed.
Lemma seen155_ok : xarun iso64 A slots0 prog155 = (seen155, [ANone; ANone; ANone]).
Proof. vm_compute. reflexivity. Qed.
End Prog.
Example C155_ex : forall A, strict gcc64 = iso64 /\ means gcc64 T0 slots0 vars0 w_move /\ all_xlegal iso64 A T0 slots0 (prog155 A) /\
  iso_acc_undefined vars0 slots0 (XOp (OAppend 0 (SPart 0 0 2)) : xop (dbl A)) = false /\
  (exists v w, xrun iso64 A vars0 w_move (prog155 A) = Ok (seen155, v, w)).
Proof.
  intros A. split; [reflexivity|]. split; [now apply means0|]. split; [exact (legal155 A)|]. split; [reflexivity|].
  destruct (iso_acc_program gcc64 A vars0 w_move slots0 (prog155 A)) eqn:E.
  - destruct (iso_acc_program_exact gcc64 A T0 (prog155 A) slots0 vars0 w_move gcc64_wf (means0 _ move_ok) (legal155 A)) as [H _].
    destruct (H E) as (X & v & w & Y & _). change (strict gcc64) with iso64 in X. rewrite X. exists v, w. rewrite Y.
    rewrite <- (xarun_strict gcc64). change (strict gcc64) with iso64. now rewrite seen155_ok.
  - exfalso. revert E. vm_compute. discriminate.
Qed.
(** Packing, to a dynamic and to a fixed buffer. *)
Example C155_avoid_ex : forall A, map (iso_acc_undefined vars0 slots0) [XPack 0 LE 0 (Ity false W32) 7; XPack 1 BE 0 (Ity true W8) (-1); XOp (OAppend 0 (SPart 1 0 1)) : xop (dbl A)] = [true; true; true] /\
  map (fun o => match xexec iso64 A vars0 w_move o with UB UB_ptr => true | _ => false end)
    [XPack 0 LE 0 (Ity false W32) 7; XPack 1 BE 0 (Ity true W8) (-1); XOp (OAppend 0 (SPart 1 0 1))] = [true; true; true].
Proof. intros A. split; vm_compute; reflexivity. Qed.
