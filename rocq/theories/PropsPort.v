(** Property theorems C152: compilers for the same machine do not disagree about a program. *)
From Coq Require Import String.
From Verif Require Import Base Mem Libc StrviewModel StrnumModel Alloc StrbufModel PrnfModel HistSpec HistSpec2 ViewProg MixSpec
  UriMainModel PortSpec PortProg ExampleLib BufExample PropsMix.
Local Open Scope string_scope.
Local Open Scope list_scope.
Local Open Scope Z_scope.

(** ** C152 *)
Theorem C152_views : forall m ds vars e prog, portable (fun cf => vrun cf m ds vars e prog).
Proof. exact vrun_portable. Qed.
Print Assumptions C152_views.
Theorem C152_buffers : forall A vars w prog, portable (fun cf => xrun cf A vars w prog).
Proof. exact xrun_portable. Qed.
Print Assumptions C152_buffers.
Theorem C152_programs : forall ds s prog, portable (fun cf => mrun cf ds s prog).
Proof. exact mrun_portable. Qed.
Print Assumptions C152_programs.
Theorem C152_uri : forall m argv, portable (fun cf => uri_main cf m argv).
Proof. exact uri_portable. Qed.
Print Assumptions C152_uri.
Theorem C152_float : forall F m dst src opt, portable (fun cf => strnum_consume_float cf F m dst src opt).
Proof. exact consume_float_portable. Qed.
Print Assumptions C152_float.
Theorem C152_double : forall F m dst src opt, portable (fun cf => strnum_consume_double cf F m dst src opt).
Proof. exact consume_double_portable. Qed.
Print Assumptions C152_double.
Theorem C152_snprnf : forall A W rd wr s dst n fmt va, portable (fun cf => vsnprnf cf A W rd wr s dst n fmt va).
Proof. exact snprnf_portable. Qed.
Print Assumptions C152_snprnf.
Theorem C152_snappf : forall A W rd wr s dst n fmt va, portable (fun cf => snappf cf A W rd wr s dst n fmt va).
Proof. exact snappf_portable. Qed.
Print Assumptions C152_snappf.

(** Two compilers for the machine of [gcc64] of which neither promises more than the other. *)
Definition half_a : cfg := Cfg true true false false true true false 16 8.
Definition half_b : cfg := Cfg true false true true true true false 16 8.
(** Takes the line apart with views alone, and parses the number at its end. *)
Definition splitter : list vop :=
  [ VOp (FDelim false false 0) (Some 1%nat) 0 0; VOp (FDelim false false 1) (Some 2%nat) 1 0;
    VOp (FDelim false false 1) (Some 3%nat) 0 0; VOp (FNum NumSpec.TInt 0) None 0 0 ].
(** A text with a letter that is negative as a char (an e with an accent in ISO 8859-1). *)
Definition cafe : list Z := bs "caf" ++ [233].
Example C152_ex : same_machine half_a half_b /\ ~ promises_more half_a half_b /\ ~ promises_more half_b half_a /\
  (match mrun half_a md1 ms1 (builder heapA) with Ok (xs, _) => Some xs | _ => None end) = Some seen_by_builder /\
  (match mrun half_b md1 ms1 (builder heapA) with Ok (xs, _) => Some xs | _ => None end) = Some seen_by_builder /\
  same_machine iso64 gcc64 /\ promises_more iso64 gcc64 /\
  vrun iso64 mm1 md1 [vw 0 0 15; INVALID; INVALID; INVALID] 0 splitter =
    Ok ([[]; []; []; [0; 42]], [vw 0 15 0; vw 0 5 3; vw 0 0 4; vw 0 9 3], 0).
Proof.
  split; [repeat split|]. split; [intros (H & _); discriminate (H eq_refl)|].
  split; [intros (_ & H & _); discriminate (H eq_refl)|].
  split; [vm_compute; reflexivity|]. split; [vm_compute; reflexivity|].
  split; [repeat split|]. split; [repeat split; discriminate|]. vm_compute; reflexivity.
Qed.

(** A compiler that promises less need not define the run: isdigit() of a negative char, and the comparison of pointers
    into different objects when a text is appended. *)
Example C152_less_ex :
  vrun iso64 [blk 512 cafe] [] [vw 0 0 4; vw 0 3 1] 0 [VOp (FNum NumSpec.TInt 0) None 1 0] = UB UB_ctype /\
  vrun gcc64 [blk 512 cafe] [] [vw 0 0 4; vw 0 3 1] 0 [VOp (FNum NumSpec.TInt 0) None 1 0] =
    Ok ([[2; 0]], [vw 0 0 4; vw 0 3 1], 0) /\
  (match mrun iso64 md1 ms1 (builder heapA) with UB u => Some u | _ => None end) = Some UB_ptr.
Proof. repeat split; vm_compute; reflexivity. Qed.
