(** Property theorems C154: exactly which calls of buffer programs ISO C leaves undefined. *)
From Coq Require Import String.
From Verif Require Import Base Mem Libc StrviewModel Spec Alloc StrbufModel BufSpec HistSpec PortSpec IsoBufSpec IsoBufProofs2 ExampleLib BufExample PropsBuf2.
Local Open Scope string_scope.
Local Open Scope list_scope.
Local Open Scope Z_scope.

(** ** C154 *)
Theorem C154_call : forall cf T a vars w o, wf_cfg cf -> means cf T a vars w -> legal (strict cf) T a o ->
  (iso_buf_undefined vars a o = true -> exists u, exec (strict cf) vars w o = UB u) /\
  (iso_buf_undefined vars a o = false -> exec (strict cf) vars w o = exec cf vars w o /\
     exists v vars' w', exec cf vars w o = Ok (v, vars', w') /\ read_view (s_mem w') v = Ok (fst (astep cf a o)) /\ means cf T (snd (astep cf a o)) vars' w').
Proof. exact iso_buf_exact. Qed.
Print Assumptions C154_call.
Theorem C154_program : forall cf T prog a vars w, wf_cfg cf -> means cf T a vars w -> all_legal (strict cf) T a prog ->
  (iso_buf_program cf vars w a prog = true -> run (strict cf) vars w prog = run cf vars w prog /\
     exists vars' w', run cf vars w prog = Ok (fst (arun cf a prog), vars', w') /\ means cf T (snd (arun cf a prog)) vars' w') /\
  (iso_buf_program cf vars w a prog = false -> exists u, run (strict cf) vars w prog = UB u).
Proof. exact iso_buf_program_exact. Qed.
Print Assumptions C154_program.
(** Programs that use only the functions of [in_iso_buf] make no such call, whatever the texts and the buffers. *)
Theorem C154_always : forall cf T prog a vars w, wf_cfg cf -> means cf T a vars w -> all_legal (strict cf) T a prog -> Forall (fun o => in_iso_buf o = true) prog ->
  iso_buf_program cf vars w a prog = true.
Proof. exact in_iso_buf_program. Qed.
Print Assumptions C154_always.
(** Nothing but parts of itself can be added to a dynamic buffer, and nothing at all can be catenated into it. *)
Theorem C154_dynamic : forall cf T a vars w j B s i, wf_cfg cf -> means cf T a vars w -> slot_of a j = ABuf B -> dyn B = true -> src_legal T a s ->
  sums_ok (strict cf) (Zlen (bf_data B) + Zlen (text_of a s)) -> INT_MIN <= i <= INT_MAX -> place_of a j s = None ->
  (exists u, exec (strict cf) vars w (OAppend j s) = UB u) /\ (exists u, exec (strict cf) vars w (OPrepend j s) = UB u) /\
  (exists u, exec (strict cf) vars w (OInsert j i s) = UB u).
Proof. exact dyn_other. Qed.
Print Assumptions C154_dynamic.
Theorem C154_cat : forall cf T a vars w j B ss, wf_cfg cf -> means cf T a vars w -> slot_of a j = ABuf B -> dyn B = true -> Forall (src_legal T a) ss ->
  sums_ok (strict cf) (Zlen (concat (map (text_of a) ss))) -> concat (map (text_of a) ss) <> [] ->
  exists u, exec (strict cf) vars w (OCat j ss) = UB u.
Proof. exact dyn_cat. Qed.
Print Assumptions C154_cat.

(** A program on the two buffers hello (dynamic) and abcdef (fixed) that ISO C defines: parts of the buffer itself are added, and
    texts from elsewhere are assigned, printed or delivered by a callback. *)
Definition prog154 : list op :=
  [ OAppend 0 (SPart 0 1 3); OInsert 0 0 (SAt 0 7 0); OBefore 0 (SPart 0 (-2) INT_MAX) (SPart 0 0 1); OAssign 1 (SPart 0 0 4); OAfter 1 SNone (SText wide (bs "wide"));
    OCat 1 [SPart 1 0 2]; OAppendPrintf 1 (bs "wi"); OUsing 1 (bs "de"); OStrip 0 (SPart 1 0 4); OCat 0 []; OCreate 2 5 heapB; OAssign 2 (SText wide (bs "wide"));
    OPrepend 2 (SPart 2 1 3); OToCstr 2; OFree 2 heapB; ODestroy 0 ].
Definition seen154 : list (option (list Z)) :=
  [ Some (bs "helloel"); Some (bs "helloel"); Some (bs "hellohel"); Some (bs "hell"); Some (bs "hell"); Some []; Some (bs "wi"); Some (bs "wide");
    Some (bs "hllohl"); Some []; None; Some (bs "wide"); Some (bs "idwide"); None; None; None ].
Ltac sums := right; vm_compute; discriminate.
Lemma legal154 : all_legal iso64 T0 slots0 prog154.
Proof.
  unfold prog154. cbn [all_legal].
  split; [eexists; split; [reflexivity|]; split; [part|sums]|].
  split; [eexists; split; [reflexivity|]; split; [split; [eexists; split; [reflexivity|vm_compute; discriminate]|lia]|split; [sums|unfold INT_MIN, INT_MAX; lia]]|].
  split; [eexists; split; [reflexivity|]; split; [part|split; [part|sums]]|].
  split; [eexists; split; [reflexivity|]; split; [part|sums]|].
  split; [eexists; split; [reflexivity|]; split; [exact I|split; [split; reflexivity|sums]]|].
  split; [eexists; split; [reflexivity|]; split; [constructor; [part|constructor]|sums]|].
  split; [eexists; split; [reflexivity|]; split; [apply byteb_ok; reflexivity|]; split; [cbn; unfold INT_MAX; lia|sums]|].
  split; [eexists; split; [reflexivity|]; apply byteb_ok; reflexivity|].
  split; [eexists; split; [reflexivity|]; split; [part|discriminate]|].
  split; [eexists; split; [reflexivity|]; split; [constructor|sums]|].
  split; [split; [reflexivity|]; split; [cbn; lia|]; split; [reflexivity|unfold INT_MAX; lia]|].
  split; [eexists; split; [reflexivity|]; split; [split; reflexivity|sums]|].
  split; [eexists; split; [reflexivity|]; split; [part|sums]|].
  split; [eexists; split; [reflexivity|reflexivity]|].
  split; [eexists; reflexivity|].
  split; [eexists; split; [reflexivity|exact I]|]. exact I.
Qed.
Example C154_ex : strict gcc64 = iso64 /\ wf_cfg gcc64 /\ means gcc64 T0 slots0 vars0 w_move /\ all_legal (strict gcc64) T0 slots0 prog154 /\
  iso_buf_program gcc64 vars0 w_move slots0 prog154 = true /\ match run iso64 vars0 w_move prog154 with Ok (xs, _, _) => xs | _ => [] end = seen154.
Proof.
  split; [reflexivity|]. split; [exact gcc64_wf|]. split; [now apply means0|]. split; [exact legal154|]. split; vm_compute; reflexivity.
Qed.
(** Each kind of call to avoid. *)
Definition ub_of (o : op) : bool := match exec iso64 vars0 w_move o with UB UB_ptr => true | _ => false end.
Definition avoid154 : list op :=
  [ OAppend 0 (SText wide (bs "wide")); OAppend 0 SNone; OPrepend 0 (SPart 1 0 2); OInsert 1 3 (SPart 0 0 2); OAppend 0 (SPart 0 7 9);
    OBefore 0 (SText wide (bs "wide")) SNone; OBefore 0 SNone (SPart 0 0 1); OBefore 0 (SPart 0 0 1) (SText wide (bs "wide"));
    OAfter 1 (SPart 0 0 1) (SPart 1 0 1); OAfter 1 (SPart 1 0 1) (SPart 0 0 1);
    OCat 0 [SPart 0 0 2]; OCat 0 [SText wide (bs "wide")]; OCat 1 [SPart 1 0 1; SPart 0 0 1]; OInit 2 SNone heapA; OInit 2 (SText wide (bs "wide")) heapB ].
Example C154_avoid_ex : map (iso_buf_undefined vars0 slots0) avoid154 = repeat true 15 /\ map ub_of avoid154 = repeat true 15.
Proof. split; vm_compute; reflexivity. Qed.
(** Two fixed buffers and a text in one array are one object. *)
Example C154_array_ex : let vars := [Ptr (PBlk 4) 0; Ptr (PBlk 4) 64; pdyn] in let a := [ABuf b_fixed; ABuf b_fixed; ABuf b_hello] in
  iso_buf_undefined vars a (OAppend 0 (SPart 1 0 2)) = false /\ iso_buf_undefined vars a (OBefore 0 (SPart 1 0 2) (SPart 2 0 2)) = false /\
  iso_buf_undefined vars a (OCat 0 [SPart 1 0 2; SText (vw 4 120 3) (bs "xyz")]) = false /\ iso_buf_undefined vars a (OCat 0 [SPart 1 0 2; SPart 2 0 2]) = true.
Proof. repeat split. Qed.
