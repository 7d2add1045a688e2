(** Property theorems about the number of allocator calls (C140), and about the accessories called
    without a buffer (C68). *)
From Coq Require Import String.
From Verif Require Import Base Mem Libc StrviewModel Spec MemLemmas Alloc StrbufModel BufSpec HistSpec StrbufHistory StrbufProofs9 StrbufProofs
  IoModel CryptModel PrnfModel PrnfBufModel CallsSpec CallsProofs ExampleLib BufExample PropsBuf PropsBuf2 PropsHist.
Local Open Scope string_scope.
Local Open Scope list_scope.
Local Open Scope Z_scope.

(** ** C140 *)
(** Exactly how often any program asks the allocator for memory. *)
Theorem C140_calls : forall cf T prog a vars w, wf_cfg cf -> c_ptr cf = true -> means cf T a vars w -> all_legal cf T a prog ->
  exists vars' w', run cf vars w prog = Ok (fst (arun cf a prog), vars', w') /\ asked w w' (all_calls cf a prog).
Proof. intros cf T prog a vars w W C M L. destruct (run_counts cf T prog a vars w W C M L) as (v & w' & H1 & _ & H2). eauto. Qed.
Print Assumptions C140_calls.
(** At most once per API call, twice for a concatenation; only the prnf functions ask more often. *)
Theorem C140_few : forall cf T a vars w o, wf_cfg cf -> c_ptr cf = true -> means cf T a vars w -> legal cf T a o ->
  match o with OPrnf _ _ | OAppendPrnf _ _ => False | _ => True end ->
  exists x vars' w' k, run cf vars w [o] = Ok (x, vars', w') /\ asked w w' k /\ (k <= match o with OCat _ _ => 2 | _ => 1 end)%nat.
Proof.
  intros cf T a vars w o W C M L Ho. destruct (run_counts cf T [o] a vars w W C M (conj L I)) as (v & w' & H1 & _ & H2).
  eexists _, v, w', _. split; [exact H1|]. split; [exact H2|]. cbn [all_calls]. rewrite Nat.add_0_r. now apply few_calls.
Qed.
Print Assumptions C140_few.
(** As long as no memory is given back, the calls are paid for by the steps the capacity has grown. *)
Theorem C140_bounded : forall cf T prog a vars w j B, wf_cfg cf -> c_ptr cf = true -> means cf T a vars w -> all_legal cf T a prog ->
  Forall (keeps j) prog -> slot_of a j = ABuf B ->
  exists xs vars' w' k B', run cf vars w prog = Ok (xs, vars', w') /\ asked w w' k /\ slot_rel cf (s_mem w') (ABuf B') (var vars' j) /\
    Z.of_nat k <= in_steps (c_step cf) (bf_cap B') - in_steps (c_step cf) (bf_cap B) + extras cf a prog.
Proof.
  intros cf T prog a vars w j B W C M L K Hj. destruct (run_counts cf T prog a vars w W C M L) as (v & w' & H1 & M' & H2).
  destruct (bounded_calls cf T prog a vars w j B W C M L K Hj) as (B' & H3 & H4).
  eexists _, v, w', _, B'. split; [exact H1|]. split; [exact H2|]. split; [|exact H4].
  rewrite <- H3. apply (mn_slot _ _ _ _ _ M'). eapply slot_in; eauto. congruence.
Qed.
Print Assumptions C140_bounded.
(** Characters appended one at a time to an empty buffer: one call for every step begun, so the
    number of calls is proportional to the length (the capacity grows by steps, not by doubling). *)
Theorem C140_characters : forall cf T a vars w j al l, wf_cfg cf -> c_ptr cf = true -> means cf T a vars w ->
  slot_of a j = ABuf (Buffer [] 0 al) -> is_dyn al = true -> Forall is_byte l -> Zlen l <= INT_MAX -> sums_ok cf (Zlen l) ->
  exists xs vars' w' k, run cf vars w (map (OChar j) l) = Ok (xs, vars', w') /\ asked w w' k /\
    Z.of_nat k = (Zlen l + c_step cf - 1) / c_step cf.
Proof.
  intros cf T a vars w j al l W C M Hj D Fb Hl Hs.
  destruct (run_counts cf T (map (OChar j) l) a vars w W C M (chars_legal cf T j l a _ Hj Fb Hs)) as (v & w' & H1 & _ & H2).
  eexists _, v, w', _. split; [exact H1|]. split; [exact H2|]. eapply chars_from_empty; eauto.
Qed.
Print Assumptions C140_characters.

(** The program of C42-C46 asks four times: twice for the concatenation of parts of the buffer itself,
    once for the new buffer, once for the conversion to a C string. *)
Example C140_ex : means gcc64 T0 slots0 vars0 w_move /\ all_legal gcc64 T0 slots0 prog0 /\ map (fun k => all_calls gcc64 slots0 (firstn k prog0)) (seq 0 15)
  = [0; 0; 2; 2; 2; 3; 3; 3; 3; 3; 3; 3; 4; 4; 4]%nat.
Proof. split; [now apply means0|]. split; [exact legal0|]. vm_compute. reflexivity. Qed.
Definition prog140 : list op := [ OPrintf 0 (List.repeat 65 40); OAppendPrnf 0 (List.repeat 66 40); OChar 0 67; OGrow 0 200; OAppend 0 (SPart 1 0 6) ].
Lemma legal140 : all_legal gcc64 T0 slots0 prog140.
Proof.
  unfold prog140. cbn [all_legal].
  split. { eexists. split; [vm_compute; reflexivity|]. split; [apply byteb_ok; vm_compute; reflexivity|]. split; [vm_compute; discriminate|now left]. }
  split. { eexists. split; [vm_compute; reflexivity|]. split; [apply byteb_ok; vm_compute; reflexivity|]. split; [vm_compute; discriminate|now left]. }
  split. { eexists. split; [vm_compute; reflexivity|]. split; [vm_compute; intuition discriminate|now left]. }
  split. { eexists. split; [vm_compute; reflexivity|]. vm_compute. discriminate. }
  split; [|exact I]. eexists. split; [vm_compute; reflexivity|]. split; [|now left]. split; [eexists; vm_compute; reflexivity|split; unfold INT_MIN, INT_MAX; lia].
Qed.
Example C140_bounded_ex : means gcc64 T0 slots0 vars0 w_move /\ all_legal gcc64 T0 slots0 prog140 /\ Forall (keeps 0) prog140
  /\ map (fun k => all_calls gcc64 slots0 (firstn k prog140)) (seq 0 6) = [0; 1; 3; 4; 5; 5]%nat
  /\ (exists B, slot_of (snd (arun gcc64 slots0 prog140)) 0 = ABuf B /\ in_steps 16 (bf_cap B) = 12 /\ in_steps 16 (bf_cap b_hello) = 0)
  /\ extras gcc64 slots0 prog140 = 1.
Proof.
  split; [now apply means0|]. split; [exact legal140|]. split; [repeat constructor|]. split; [vm_compute; reflexivity|].
  split; [|reflexivity]. eexists. split; [vm_compute; reflexivity|]. vm_compute. auto.
Qed.
Example C140_characters_ex : means gcc64 T1 [ABuf (Buffer [] 0 heapA)] [Ptr (PBlk 0) 0] (w1 gcc64 (Buffer [] 0 heapA))
  /\ all_calls gcc64 [ABuf (Buffer [] 0 heapA)] (map (OChar 0) (bs "one character at a time")) = 2%nat
  /\ (23 + 16 - 1) / 16 = 2 /\ Zlen (bs "one character at a time") = 23.
Proof. split; [apply means1; [exact gcc64_wf|reflexivity|cbn; lia]|]. vm_compute. auto. Qed.

(** ** C68 *)
Theorem C68_accessories : forall cf w bp, no_buffer bp ->
  (forall r, strbuf_append_read cf w bp r = Ok (0, bp, w)) /\
  (forall r, strbuf_write cf w bp r = Ok (0, [], bp, w)) /\
  (forall base key iv, strbuf_encrypt cf w bp base key iv = Ok (INVALID, bp, w)) /\
  (forall base key iv, strbuf_decrypt cf w bp base key iv = Ok (INVALID, bp, w)) /\
  (forall A fmt va, strbuf_prnf cf A w bp fmt va = Ok (INVALID, bp, w)) /\
  (forall A fmt va, strbuf_append_prnf cf A w bp fmt va = Ok (INVALID, bp, w)).
Proof. intros cf w bp [-> | ->]; repeat split; reflexivity. Qed.
Print Assumptions C68_accessories.
(** strview_write without a view, or with an invalid one, writes nothing. *)
Theorem C68_strview_write : forall cf m r, strview_write cf m None r = Ok (0, [], None) /\
  forall v, v_data v = null -> strview_write cf m (Some v) r = Ok (0, [], Some v).
Proof. intros cf m r. split; [reflexivity|]. intros [d n] H. cbn in H. subst d. reflexivity. Qed.
Print Assumptions C68_strview_write.
Example C68_accessories_ex : no_buffer None /\ no_buffer (Some null) /\ v_data INVALID = null
  /\ (exists out bp w', strbuf_write gcc64 w_move (Some pdyn) (WrCount 9) = Ok (5, out, bp, w')).
Proof. split; [now left|]. split; [now right|]. split; [reflexivity|]. do 3 eexists. vm_compute. reflexivity. Qed.
