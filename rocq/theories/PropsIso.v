(** Property theorems C153: exactly which calls of view programs ISO C leaves undefined. *)
From Coq Require Import String.
From Verif Require Import Base Mem Libc StrviewModel StrnumModel Spec NumSpec NumSpec2 ViewProg PortSpec IsoSpec IsoProofs ExampleLib BufExample.
Local Open Scope string_scope.
Local Open Scope list_scope.
Local Open Scope Z_scope.

(** ** C153 *)
Theorem C153_call : forall cf m ds dls f s a o oa e, usual cf -> mem_wf m ->
  denotes m s o -> denotes m a oa -> Forall2 (c_string m) ds dls -> vlegal ds f s a -> pend_ok e ->
  (iso_undefined (c_char_signed cf) f s o oa -> exists u, vcall (strict cf) m ds f s a e = UB u) /\
  (~ iso_undefined (c_char_signed cf) f s o oa -> vcall (strict cf) m ds f s a e = vcall cf m ds f s a e).
Proof. exact iso_call_exact. Qed.
Print Assumptions C153_call.
Theorem C153_program : forall cf m T ds dls prog vars e, usual cf -> mem_wf m -> stored m T -> Forall2 (c_string m) ds dls ->
  Forall (inside T) vars -> pend_ok e -> all_vlegal cf m ds vars e prog ->
  (iso_program cf m ds vars e prog -> vrun (strict cf) m ds vars e prog = vrun cf m ds vars e prog) /\
  (~ iso_program cf m ds vars e prog -> exists u, vrun (strict cf) m ds vars e prog = UB u).
Proof. exact iso_program_exact. Qed.
Print Assumptions C153_program.
(** Programs that use only the functions of [in_iso] are defined in ISO C, whatever the texts and the views. *)
Theorem C153_always : forall cf m T ds dls prog vars e, usual cf -> mem_wf m -> stored m T -> Forall2 (c_string m) ds dls ->
  Forall (inside T) vars -> pend_ok e -> all_vlegal cf m ds vars e prog -> Forall (fun o => in_iso (vo_f o) = true) prog ->
  exists xs vars' e', vrun (strict cf) m ds vars e prog = Ok (xs, vars', e') /\ Forall (inside T) vars'.
Proof. exact in_iso_program. Qed.
Print Assumptions C153_always.

(** A path in an object of its own, the same text with a byte before it, a slash, and text with a letter beyond ASCII. *)
Definition im : mem := [ blk 512 (bs "usr/lib/x.so"); blk 1024 (bs "=usr/lib/x.so"); blk 2048 (bs "/" ++ [0]); blk 4096 (bs "7" ++ [233] ++ bs "8") ].
Definition ids : list ptr := [Ptr (PBlk 2) 0].
Definition path := vw 0 0 12.
Definition path2 := vw 1 1 12.
Definition slash := vw 2 0 1.
Definition Ti : library := [(path, bs "usr/lib/x.so"); (path2, bs "usr/lib/x.so"); (slash, bs "/"); (vw 3 0 3, bs "7" ++ [233] ++ bs "8")].
(** Variable 0 is the path, 1 a slash, 2 a copy of the path in the other object, 3 and 4 results. *)
Definition basename : list vop := [ VOp (FFind true false) (Some 3%nat) 0 1; VOp (FDelim true false 0) (Some 4%nat) 2 1; VOp (FMatch true) None 4 3 ].
Definition ivars : list view := [path; slash; path2; INVALID; INVALID].
Example C153_ex : usual gcc64 /\ strict gcc64 = iso64 /\ mem_wf im /\ stored im Ti /\ Forall2 (c_string im) ids [bs "/"] /\
  Forall (inside Ti) ivars /\ all_vlegal gcc64 im ids ivars 0 basename /\ iso_program gcc64 im ids ivars 0 basename /\
  vrun iso64 im ids ivars 0 basename = Ok ([[]; []; [0]], [path; slash; vw 1 1 7; vw 0 7 1; vw 1 9 4], 0).
Proof.
  split; [repeat split|]. split; [reflexivity|]. split; [wf_check|].
  split; [unfold Ti, stored; repeat (apply Forall_cons; [cbn [fst snd]; view_check|]); apply Forall_nil|].
  split; [apply Forall2_cons; [cstr_check|apply Forall2_nil]|].
  split.
  { assert (forall v l, In (v, l) Ti -> v_size v = Zlen l -> inside Ti v) as K.
    { intros v l H E. right. exists v, l, 0, (Zlen l). split; [exact H|]. split; [lia|]. split; [unfold Zlen; lia|]. split; [lia|]. destruct v as [[ob of] n]. cbn in E |- *. unfold subview, shift. cbn. rewrite Z.add_0_r, E. reflexivity. }
    unfold ivars. apply Forall_cons; [|apply Forall_cons; [|apply Forall_cons; [|apply Forall_cons; [now left|apply Forall_cons; [now left|apply Forall_nil]]]]].
    - eapply K; [left; reflexivity|reflexivity].
    - eapply K; [right; right; left; reflexivity|reflexivity].
    - eapply K; [right; left; reflexivity|reflexivity]. }
  split.
  { unfold basename. cbn [all_vlegal vo_f vlegal].
    repeat (split; [first [exact I|cbn; lia]|];
      match goal with |- match ?x with _ => _ end => let y := eval vm_compute in x in replace x with y by (vm_compute; reflexivity) end;
      cbn [vo_f vlegal all_vlegal]). exact I. }
  split; [|vm_compute; reflexivity].
  unfold basename. cbn [iso_program vo_f vo_src vo_arg].
  assert (denotes im path (Some (bs "usr/lib/x.so"))) as P1 by (cbn [denotes]; view_check).
  assert (denotes im slash (Some (bs "/"))) as P2 by (cbn [denotes]; view_check).
  assert (denotes im path2 (Some (bs "usr/lib/x.so"))) as P3 by (cbn [denotes]; view_check).
  split.
  { eapply iso_call_of; [exact P1|exact P2|]. intros [H|[_ H]]; [vm_compute in H; discriminate|]. apply H. exists 3%nat, (bs "usr"), (bs "lib/x.so"). split; reflexivity. }
  match goal with |- match ?x with _ => _ end => let y := eval vm_compute in x in replace x with y by (vm_compute; reflexivity) end. cbn [iso_program vo_f vo_src vo_arg].
  split.
  { eapply iso_call_of; [exact P3|exact P2|]. intros H. vm_compute in H. discriminate. }
  match goal with |- match ?x with _ => _ end => let y := eval vm_compute in x in replace x with y by (vm_compute; reflexivity) end. cbn [iso_program vo_f vo_src vo_arg].
  split; [|match goal with |- match ?x with _ => _ end => let y := eval vm_compute in x in replace x with y by (vm_compute; reflexivity) end; exact I].
  intros o oa _ _. apply in_iso_never. reflexivity.
Qed.

(** Each kind of call to avoid, and the same calls where they are fine. *)
Definition icall (f : vfun) (s a : view) : option (list Z * view) := match vcall iso64 im ids f s a 0 with Ok (x, v, _, _) => Some (x, v) | _ => None end.
Example C153_avoid_ex :
  iso_undefined true (FFind true false) path (Some (bs "usr/lib/x.so")) (Some (bs ";")) /\
  icall (FFind true false) path (vw 1 0 1) = None /\ icall (FFind true false) path2 (vw 1 0 1) = Some ([], INVALID) /\
  icall (FFind true false) path path2 = Some ([], path) /\ icall (FFind true false) path (vw 1 0 13) = None /\ icall (FFind true true) INVALID slash = None /\
  icall (FDelim true false 0) path INVALID = None /\ icall (FDelim true false 0) (vw 0 0 0) INVALID = Some ([], vw 0 0 0) /\
  icall (FTrim AtEnd) path INVALID = None /\ icall (FTrim AtEnd) INVALID INVALID = Some ([], INVALID) /\
  icall (FIndex 3) INVALID path = None /\ icall (FIndex 3) path path = Some ([], vw 0 0 3) /\
  icall (FMatch false) INVALID (vw 0 2 0) = None /\ icall (FMatch false) INVALID INVALID = Some ([1], INVALID) /\ icall (FMatch true) INVALID (vw 0 2 0) = Some ([1], INVALID) /\
  icall (FStarts false) INVALID (vw 0 2 0) = None /\ icall (FStarts false) (vw 0 2 0) INVALID = Some ([0], INVALID) /\
  negative_after TInt 0 (bs "7" ++ [233] ++ bs "8") /\
  icall (FNum TInt 0) (vw 3 0 3) INVALID = None /\ icall (FNum TInt 0) (vw 3 2 1) INVALID = Some ([0; 8], INVALID).
Proof.
  split.
  { right. split; [reflexivity|]. intros (k & x & y & E & _). cbn in E.
    do 13 (destruct x as [|z x]; [discriminate E|]; cbn in E; try (injection E as <- E)). discriminate. }
  do 16 (split; [vm_compute; reflexivity|]).
  split; [|split; vm_compute; reflexivity].
  split; [vm_compute; discriminate|]. split; [vm_compute; discriminate|]. exists 233, (bs "8"). split; [reflexivity|lia].
Qed.
