(** Property theorems about programs that use buffers together with the accessories
    (C108-C112): integers, file descriptors, encryption and prnf formats. *)
From Coq Require Import String.
From Verif Require Import Base Mem Libc StrviewModel Spec MemLemmas Alloc StrbufModel BufSpec HistSpec StrbufHistory StrbufProofs9 StrbufProofs
  IoModel IoSpec PackModel PackSpec CryptModel CryptSpec PrnfModel PrnfSpec PrnfSpec2 PrnfBufModel HistSpec2 StrbufHistory2 ChannelSpec ChannelProofs
  ExampleLib BufExample PropsBuf PropsBuf2 PropsPack PropsPrnf.
Local Open Scope string_scope.
Local Open Scope list_scope.
Local Open Scope Z_scope.

(** ** C108 *)
Theorem C108_refinement : forall cf A T prog a vars w, wf_cfg cf -> c_ptr cf = true -> means cf T a vars w -> all_xlegal cf A T a prog ->
  exists vars' w', xrun cf A vars w prog = Ok (fst (xarun cf A a prog), vars', w') /\ means cf T (snd (xarun cf A a prog)) vars' w'.
Proof. exact xrun_ok. Qed.
Print Assumptions C108_refinement.
(** What a program observes does not depend on where the buffers are nor on the allocator. *)
Theorem C108_placement_irrelevant : forall cf A T1 T2 prog a vars1 w1 vars2 w2, wf_cfg cf -> c_ptr cf = true ->
  means cf T1 a vars1 w1 -> means cf T2 a vars2 w2 -> all_xlegal cf A T1 a prog -> all_xlegal cf A T2 a prog ->
  exists xs v1 s1 v2 s2, xrun cf A vars1 w1 prog = Ok (xs, v1, s1) /\ xrun cf A vars2 w2 prog = Ok (xs, v2, s2).
Proof.
  intros cf A T1 T2 prog a vars1 w1 vars2 w2 W Hc M1 M2 L1 L2.
  destruct (xrun_ok cf A T1 prog a vars1 w1 W Hc M1 L1) as (v1 & s1 & E1 & _). destruct (xrun_ok cf A T2 prog a vars2 w2 W Hc M2 L2) as (v2 & s2 & E2 & _).
  exists (fst (xarun cf A a prog)), v1, s1, v2, s2. auto.
Qed.
Print Assumptions C108_placement_irrelevant.

(** A program: print a number and the text of buffer 1 into buffer 0, pack and unpack an
    integer, write a part, read more than there is room for, fail to encrypt the fixed buffer,
    append a row, destroy everything. *)
Section Prog.
Variable A : fops.
Definition xfmt1 : ptr := Ptr (PLit (bs "n=%4d %s" ++ [0])) 0.
Definition xfmt2 : ptr := Ptr (PLit (bs "<%s>" ++ [0])) 0.
Definition parts1 : list (part (dbl A)) :=
  [ PItem (Text (bs "n=")); PItem (Dec false (Conv [] (WNum 4) PNone Lint) (-42)); PItem (Text (bs " ")); PBuf (Conv [] WNone PNone Lint) 1 ].
Definition parts2 : list (part (dbl A)) := [ PItem (Text (bs "<")); PBuf (Conv [] WNone PNone Lint) 0; PItem (Text (bs ">")) ].
Definition zkey : list Z := List.repeat 0 32.
Definition ziv : list Z := List.repeat 0 16.
Definition progx : list (xop (dbl A)) :=
  [ XPrnf 0 xfmt1 parts1; XPack 0 BE 0 (Ity true W16) (-2); XUnpack 0 13 BE (Ity true W16); XWrite 0 (WrCount 10);
    XWrite 0 WrError; XRead 1 (RdBytes (bs "012345")); XEncrypt 1 0 zkey ziv; XOp (OAssign 0 (SPart 0 0 3)); XAppendPrnf 1 xfmt2 parts2;
    XOp (OPrintf 1 (bs "ab")); XAppendPrnf 1 xfmt2 parts2; XOp (ODestroy 0); XOp (ODestroy 1) ].
Definition seenx : list HistSpec2.seen :=
  [ SawText (Some (bs "n= -42 abcdef")); SawNothing; SawInt (-2); SawSent 10 (bs "n= -42 abc"); SawSent (-1) []; SawInt 4; SawText None;
    SawText (Some (bs "def")); SawText (Some []); SawText (Some (bs "ab")); SawText (Some (bs "ab<def>")); SawText None; SawText None ].
Ltac no_zero := let H := fresh in intros H; vm_compute in H; intuition discriminate.
Lemma xlegal0 : all_xlegal gcc64 A T0 slots0 progx.
Proof.
  unfold progx. cbn [all_xlegal].
  assert (forall a t, slot_of a 1 = ABuf (Buffer t 10 fixed) -> ~ In 0 t -> Zlen (wanted gcc64 A a parts1) < INT_MAX -> parts_legal gcc64 A T0 a 0 xfmt1 parts1) as L1.
  { intros a t Ha Hz Hw. split; [left; split; [reflexivity|vm_compute; reflexivity]|]. split; [|split; [|exact Hw]].
    - repeat (constructor; [exact I|]). constructor; [|constructor]. split; [discriminate|]. rewrite Ha. eauto.
    - cbn [map item_meant parts1]. items_check. }
  assert (forall a t c, slot_of a 0 = ABuf (Buffer t c heapA) -> ~ In 0 t -> Zlen (wanted gcc64 A a parts2) < INT_MAX -> parts_legal gcc64 A T0 a 1 xfmt2 parts2) as L2.
  { intros a t c Ha Hz Hw. split; [left; split; [reflexivity|vm_compute; reflexivity]|]. split; [|split; [|exact Hw]].
    - constructor; [exact I|]. constructor; [|constructor; [exact I|constructor]]. split; [discriminate|]. rewrite Ha. eauto.
    - cbn [map item_meant parts2]. items_check. }
  split. { exists b_hello. split; [reflexivity|]. split; [apply (L1 _ (bs "abcdef")); [reflexivity|no_zero|vm_compute; reflexivity]|now left]. }
  split. { eexists. split; [vm_compute; reflexivity|]. now left. }
  split. { eexists. split; [vm_compute; reflexivity|]. vm_compute. split; discriminate. }
  split. { eexists. split; [vm_compute; reflexivity|]. exact I. }
  split. { eexists. split; [vm_compute; reflexivity|]. exact I. }
  split. { eexists. split; [vm_compute; reflexivity|]. apply byteb_ok. vm_compute. reflexivity. }
  split. { eexists. split; [vm_compute; reflexivity|]. split; [reflexivity|]. split; [split; [reflexivity|apply byteb_ok; vm_compute; reflexivity]|].
    split; [split; [reflexivity|apply byteb_ok; vm_compute; reflexivity]|]. vm_compute. reflexivity. }
  split. { eexists. split; [vm_compute; reflexivity|]. split; [split; [eexists; vm_compute; reflexivity|split; unfold INT_MIN, INT_MAX; lia]|now left]. }
  split. { eexists. split; [vm_compute; reflexivity|]. split; [|now left]. eapply L2; [vm_compute; reflexivity|no_zero|vm_compute; reflexivity]. }
  split. { eexists. split; [vm_compute; reflexivity|]. split; [apply byteb_ok; reflexivity|]. split; [vm_compute; discriminate|now left]. }
  split. { eexists. split; [vm_compute; reflexivity|]. split; [|now left]. eapply L2; [vm_compute; reflexivity|no_zero|vm_compute; reflexivity]. }
  split. { eexists. split; [vm_compute; reflexivity|exact I]. }
  split. { eexists. split; [vm_compute; reflexivity|exact I]. }
  exact I.
Qed.
Lemma seenx_ok : xarun gcc64 A slots0 progx = (seenx, [ANone; ANone; ANone]).
Proof. vm_compute. reflexivity. Qed.
End Prog.
Example C108_ex : forall A, means gcc64 T0 slots0 vars0 w_move /\ means gcc64 T0 slots0 vars0 w_stay /\ all_xlegal gcc64 A T0 slots0 (progx A)
  /\ fst (xarun gcc64 A slots0 (progx A)) = seenx
  /\ (exists v w, xrun gcc64 A vars0 w_move (progx A) = Ok (seenx, v, w)).
Proof.
  intros A. split; [now apply means0|]. split; [now apply means0|]. split; [exact (xlegal0 A)|]. rewrite seenx_ok. split; [reflexivity|].
  destruct (xrun_ok gcc64 A T0 (progx A) slots0 vars0 w_move gcc64_wf eq_refl (means0 _ move_ok) (xlegal0 A)) as (v & w & H & _).
  rewrite seenx_ok in H. exists v, w. exact H.
Qed.

(** ** C109 *)
Theorem C109_invariant : forall cf A T prog a vars w, wf_cfg cf -> c_ptr cf = true -> means cf T a vars w -> all_xlegal cf A T a prog ->
  exists xs vars' w', xrun cf A vars w prog = Ok (xs, vars', w') /\
    forall i B, slot_of (snd (xarun cf A a prog)) i = ABuf B ->
      exists h k, load_hdr cf (s_mem w') (var vars' i) = Ok h /\ access (s_mem w') (p_obj (var vars' i)) = Ok k /\
        0 <= h_size h <= h_cap h /\ h_cap h <= INT_MAX /\
        0 <= p_ofs (var vars' i) /\ p_ofs (var vars' i) + hdr_size cf + h_cap h + 1 <= b_size k /\
        load_byte (s_mem w') (shift (chars_of cf (var vars' i)) (h_size h)) = Ok 0.
Proof.
  intros cf A T prog a vars w W Hc M Hl. destruct (xrun_ok cf A T prog a vars w W Hc M Hl) as (vars' & w' & E & M').
  eexists _, vars', w'. split; [exact E|]. intros i B Hi. pose proof (slot_in _ _ _ Hi ltac:(congruence)) as Li.
  pose proof (mn_slot _ _ _ _ _ M' i Li) as HB. rewrite Hi in HB. destruct (buf_facts cf _ _ _ W HB) as (h & k & F). exists h, k. tauto.
Qed.
Print Assumptions C109_invariant.
(** Every live allocation is held by exactly one variable, with the allocator it came from; if
    no variable holds anything, no allocation is live. *)
Theorem C109_ownership : forall cf A T prog a vars w, wf_cfg cf -> c_ptr cf = true -> means cf T a vars w -> all_xlegal cf A T a prog ->
  exists xs vars' w', xrun cf A vars w prog = Ok (xs, vars', w') /\
    (forall b k al, nth_error (s_mem w') b = Some k -> b_live k = true -> b_owner k = Heap al ->
       exists i, (i < length vars')%nat /\ p_obj (var vars' i) = PBlk b /\
         (exists B, slot_of (snd (xarun cf A a prog)) i = ABuf B /\ bf_alloc B = al \/ exists l, slot_of (snd (xarun cf A a prog)) i = AStr l al) /\
         forall j, (j < length vars')%nat -> owns (slot_of (snd (xarun cf A a prog)) j) = true -> p_obj (var vars' j) = PBlk b -> j = i) /\
    ((forall i, slot_of (snd (xarun cf A a prog)) i = ANone) ->
       forall b k al, nth_error (s_mem w') b = Some k -> b_owner k = Heap al -> b_live k = false).
Proof.
  intros cf A T prog a vars w W Hc M Hl. destruct (xrun_ok cf A T prog a vars w W Hc M Hl) as (vars' & w' & E & M').
  eexists _, vars', w'. split; [exact E|]. rewrite (mn_len _ _ _ _ _ M'). set (a' := snd (xarun cf A a prog)) in *. split.
  - intros b k al Hb Hk Ho. destruct (mn_heap _ _ _ _ _ M' b k al Hb Hk Ho) as (i & Li & Oi & Ei). exists i. split; auto. split; auto. split.
    + pose proof (mn_slot _ _ _ _ _ M' i Li) as R. destruct (slot_of a' i) as [|B|l al'] eqn:Si; cbn [owns] in Oi; try discriminate.
      * exists B. left. split; auto. destruct R as (b' & k' & R1 & R2 & R3). assert (b' = b) by congruence. subst b'. assert (k' = k) by congruence. subst k'.
        destruct R3 as (_ & _ & _ & _ & _ & _ & _ & _ & _ & R3). destruct (R3 Oi) as (_ & R4 & _). congruence.
      * exists (Buffer [] 0 al). right. exists l. destruct R as (b' & k' & R1 & R2 & R3 & R4 & _). rewrite R1 in Ei. cbn in Ei. assert (b' = b) by congruence.
        subst b'. assert (k' = k) by congruence. subst k'. congruence.
    + intros j Lj Oj Ej. eapply owner_unique; eauto.
  - intros Hall b k al Hb Ho. destruct (b_live k) eqn:Hk; auto. exfalso.
    destruct (mn_heap _ _ _ _ _ M' b k al Hb Hk Ho) as (i & Li & Oi & Ei). rewrite Hall in Oi. discriminate.
Qed.
Print Assumptions C109_ownership.
Example C109_ex : forall A, means gcc64 T0 slots0 vars0 w_move /\ all_xlegal gcc64 A T0 slots0 (progx A)
  /\ slot_of (snd (xarun gcc64 A slots0 (firstn 6 (progx A)))) 1 = ABuf (Buffer (bs "abcdef0123") 10 fixed)
  /\ slot_of (snd (xarun gcc64 A slots0 (firstn 6 (progx A)))) 0 = ABuf (Buffer (bs "def" ++ [255; 254]) 16 heapA)
  /\ (forall i, slot_of (snd (xarun gcc64 A slots0 (progx A))) i = ANone).
Proof.
  intros A. split; [now apply means0|]. split; [exact (xlegal0 A)|]. do 2 (split; [vm_compute; reflexivity|]).
  rewrite seenx_ok. intros [|[|[|[|i]]]]; reflexivity.
Qed.

(** ** C110 *)
Theorem C110_local : forall cf A T a vars w o, wf_cfg cf -> c_ptr cf = true -> means cf T a vars w -> xlegal cf A T a o ->
  exists x vars' w', xexec cf A vars w o = Ok (x, vars', w') /\
    (forall i, i <> xtarget A o -> (i < length a)%nat ->
       var vars' i = var vars i /\ slot_rel cf (s_mem w') (slot_of a i) (var vars i)) /\
    (forall u l, has_view (s_mem w) u l -> (exists b, p_obj (v_data u) = PBlk b) ->
       text_apart cf (slot_of a (xtarget A o)) (var vars (xtarget A o)) u l -> has_view (s_mem w') u l).
Proof.
  intros cf A T a vars w o W Hc M Hl. destruct (xstep_ok cf A T a vars w o W Hc M Hl) as (vars' & w' & E & M' & V & K).
  eexists _, vars', w'. split; [exact E|]. split; [|exact K]. intros i Hi Li. split; [now apply V|].
  assert (snd (xstep cf A a o) = a \/ exists s, snd (xstep cf A a o) = upd a (xtarget A o) s) as Ha.
  { destruct o as [o| | | | | | | |]; cbn [xstep snd xtarget]; try (match goal with |- context[slot_of a ?j] => destruct (slot_of a j) end; cbn [snd]; now eauto).
    assert (snd (astep cf a o) = a \/ exists s, snd (astep cf a o) = upd a (target o) s) as H.
    { destruct o; cbn [astep snd target]; eauto; match goal with |- context[slot_of a ?j] => destruct (slot_of a j) end; cbn [snd]; eauto. }
    destruct (astep cf a o). exact H. }
  rewrite <- (V i Hi). replace (slot_of a i) with (slot_of (snd (xstep cf A a o)) i).
  - apply (mn_slot _ _ _ _ _ M'). destruct Ha as [-> | [s ->]]; auto. now rewrite upd_len.
  - destruct Ha as [-> | [s ->]]; auto. unfold slot_of. now apply nth_upd_neq.
Qed.
Print Assumptions C110_local.
Example C110_ex : forall A, means gcc64 T0 slots0 vars0 w_move /\ xlegal gcc64 A T0 slots0 (XEncrypt 0 0 zkey ziv) /\ xlegal gcc64 A T0 slots0 (XRead 1 (RdBytes (bs "012345")))
  /\ has_view xm (vw 3 0 2) (bs "lo") /\ text_apart gcc64 (slot_of slots0 0) (var vars0 0) (vw 3 0 2) (bs "lo").
Proof.
  intros A. split; [now apply means0|].
  split. { eexists. split; [reflexivity|]. split; [reflexivity|]. split; [split; [reflexivity|apply byteb_ok; vm_compute; reflexivity]|].
    split; [split; [reflexivity|apply byteb_ok; vm_compute; reflexivity]|]. vm_compute. reflexivity. }
  split. { eexists. split; [reflexivity|]. apply byteb_ok. vm_compute. reflexivity. }
  split; [view_check|]. split; [eexists; reflexivity|left; discriminate].
Qed.

(** ** C111 *)
(** Two programs, each with its own configuration, memory and buffers: the first packs the
    fields and writes them out, the second reads whatever pieces the system delivers and
    unpacks the fields. *)
Theorem C111_message : forall cf1 A1 T1 a1 vars1 w1 j1 B1 cf2 A2 T2 a2 vars2 w2 j2 B2 base M rs,
  wf_cfg cf1 -> c_ptr cf1 = true -> means cf1 T1 a1 vars1 w1 -> slot_of a1 j1 = ABuf B1 -> bf_data B1 = [] ->
  wf_cfg cf2 -> c_ptr cf2 = true -> means cf2 T2 a2 vars2 w2 -> slot_of a2 j2 = ABuf B2 -> bf_data B2 = [] ->
  message_ok M -> (if dyn B1 then Zlen (encoded M) <= INT_MAX else Zlen (encoded M) <= bf_cap B1) -> sums_ok cf1 (Zlen (encoded M)) ->
  Zlen (encoded M) <= bf_cap B2 -> Zlen (encoded M) <= Zlen (filter accepts rs) ->
  exists xs v1 s1, xrun cf1 A1 vars1 w1 (send_plain j1 base M rs) = Ok (xs, v1, s1) /\
    forall cs, concat cs = sent xs ->
      exists ys zs v2 s2, xrun cf2 A2 vars2 w2 (read_ops j2 cs ++ recv_plain j2 (map fst M)) = Ok (ys ++ zs, v2, s2) /\
        length ys = length cs /\ ints zs = map snd M.
Proof.
  intros cf1 A1 T1 a1 vars1 w1 j1 B1 cf2 A2 T2 a2 vars2 w2 j2 B2 base M rs W1 C1 M1 J1 E1 W2 C2 M2 J2 E2 Hm Hf Hs Hc Hr.
  destruct (send_plain_ok cf1 A1 T1 a1 vars1 w1 j1 B1 base M rs W1 C1 M1 J1 E1) as (xs & v1 & s1 & cap & R & S & _); auto.
  { unfold fits. destruct (dyn B1); now apply Z.leb_le. }
  exists xs, v1, s1. split; [exact R|]. intros cs Hcs. rewrite S in Hcs.
  now apply (recv_plain_ok cf2 A2 T2 a2 vars2 w2 j2 B2 M cs).
Qed.
Print Assumptions C111_message.
(** One empty buffer in an otherwise empty memory. *)
Definition T1 : texts := fun _ _ => False.
Definition w1 (cf : cfg) (B : buffer) : st := St [bufblk cf 4096 B] (fun _ => Choice false true 0).
Lemma means1 : forall cf B, wf_cfg cf -> bf_data B = [] -> 0 <= bf_cap B < 1000 -> means cf T1 [ABuf B] [Ptr (PBlk 0) 0] (w1 cf B).
Proof.
  intros cf B W E C. pose proof (hdr_size_pos cf W) as Hp. constructor; cbn [s_mem w1].
  - reflexivity.
  - intros i Hi. destruct i as [|i]; cbn in Hi; [|lia]. cbn [slot_of nth var slot_rel].
    apply (bufblk_at cf _ 0 4096); auto; [destruct W as [_ [-> | ->]]; reflexivity|rewrite E; constructor|rewrite E; change (Zlen (@nil Z)) with 0; unfold INT_MAX; lia].
  - intros i j Hne Hi Hj. cbn in Hi, Hj. lia.
  - intros b k al Hb Hl Hk. destruct b as [|b]; [|destruct b; discriminate]. exists 0%nat. split; [cbn; lia|]. split; [|reflexivity].
    cbn in Hb. injection Hb as <-. cbn in Hk. cbn. destruct (dyn B); [reflexivity|discriminate].
  - intros v l [].
  - assert (hdr_size cf < 1000) as Hh. { destruct W as [_ [E1 | E1]]; unfold hdr_size; rewrite E1; vm_compute; reflexivity. }
    split.
    + intros b k Hb _. destruct b as [|b]; [|destruct b; discriminate]. cbn in Hb. injection Hb as <-. cbn [b_base b_size bufblk]. lia.
    + intros b1 b2 k1 k2 H1 H2 _ _ Hne. destruct b1 as [|b1]; [|destruct b1; discriminate]. destruct b2 as [|b2]; [|destruct b2; discriminate]. congruence.
  - intros n. reflexivity.
Qed.
Definition wrs (n : nat) : list wr := WrCount 3 :: WrError :: WrCount 100 :: repeat (WrCount 1) n.
Lemma msg_ok : message_ok msg.
Proof. repeat (apply Forall_cons; [unfold in_type; cbn; lia|]); apply Forall_nil. Qed.
(** A little endian sender with a dynamic buffer, a big endian receiver with a fixed one. *)
Definition b_out : buffer := Buffer [] 0 heapA.
Definition b_in : buffer := Buffer [] 40 fixed.
Example C111_ex : means gcc64 T1 [ABuf b_out] [Ptr (PBlk 0) 0] (w1 gcc64 b_out) /\ means be64 T1 [ABuf b_in] [Ptr (PBlk 0) 0] (w1 be64 b_in)
  /\ message_ok msg /\ Zlen (encoded msg) = 15 /\ sums_ok gcc64 (Zlen (encoded msg)) /\ Zlen (encoded msg) <= bf_cap b_in /\ Zlen (filter accepts (wrs 13)) = 15
  /\ forall A, (let! (xs, _, _) := xrun gcc64 A [Ptr (PBlk 0) 0] (w1 gcc64 b_out) (send_plain 0 (fun _ => 99) msg (wrs 13)) in Ok (sent xs)) = Ok msg_wire
  /\ (let! (xs, _, _) := xrun be64 A [Ptr (PBlk 0) 0] (w1 be64 b_in) (read_ops 0 [firstn 7 msg_wire; []; skipn 7 msg_wire] ++ recv_plain 0 (map fst msg)) in
      Ok (ints (skipn 3 xs))) = Ok (map snd msg).
Proof.
  split; [apply means1; [exact gcc64_wf|reflexivity|cbn; lia]|]. split; [apply means1; [split; [cbn; lia|now right]|reflexivity|cbn; lia]|].
  split; [exact msg_ok|]. do 2 (split; [vm_compute; auto|]). split; [vm_compute; discriminate|]. split; [reflexivity|]. intros A. split; vm_compute; reflexivity.
Qed.

(** ** C112 *)
Theorem C112_secret_message : forall cf1 A1 T1 a1 vars1 w1 j1 B1 cf2 A2 T2 a2 vars2 w2 j2 B2 base M b1 b2 key iv rs,
  wf_cfg cf1 -> c_ptr cf1 = true -> c_big_endian cf1 = false -> means cf1 T1 a1 vars1 w1 -> slot_of a1 j1 = ABuf B1 -> bf_data B1 = [] ->
  wf_cfg cf2 -> c_ptr cf2 = true -> c_big_endian cf2 = false -> means cf2 T2 a2 vars2 w2 -> slot_of a2 j2 = ABuf B2 -> bf_data B2 = [] ->
  octets 32 key -> octets 16 iv -> message_ok M -> Zlen (encoded M) < 2147483616 -> sums_ok cf1 (Zlen (encoded M)) ->
  (dyn B1 = false -> padded_size (Zlen (encoded M)) <= bf_cap B1) ->
  padded_size (Zlen (encoded M)) + (if dyn B2 then 0 else 16) <= bf_cap B2 ->
  padded_size (Zlen (encoded M)) <= Zlen (filter accepts rs) ->
  exists xs v1 s1, xrun cf1 A1 vars1 w1 (send_secret j1 base M b1 key iv rs) = Ok (xs, v1, s1) /\ sent xs = aes_cbc key iv (encoded M) /\
    forall cs, concat cs = sent xs ->
      exists ys zs v2 s2, xrun cf2 A2 vars2 w2 (read_ops j2 cs ++ recv_secret j2 b2 key iv (map fst M)) = Ok (ys ++ zs, v2, s2) /\
        length ys = length cs /\ ints zs = map snd M.
Proof.
  intros cf1 A1 T1 a1 vars1 w1 j1 B1 cf2 A2 T2 a2 vars2 w2 j2 B2 base M b1 b2 key iv rs W1 C1 L1 M1 J1 E1 W2 C2 L2 M2 J2 E2 Hk Hi Hm Hn Hs Hf Hc Hr.
  destruct (send_secret_ok cf1 A1 T1 a1 vars1 w1 j1 B1 base M b1 key iv rs W1 C1 L1 M1 J1 E1 Hk Hi Hn Hf Hs Hr) as (xs & v1 & s1 & cap & R & S & _).
  exists xs, v1, s1. split; [exact R|]. split; [exact S|]. intros cs Hcs. rewrite S in Hcs.
  now apply (recv_secret_ok cf2 A2 T2 a2 vars2 w2 j2 B2 M b2 key iv cs).
Qed.
Print Assumptions C112_secret_message.
Example C112_ex : means gcc64 T1 [ABuf b_out] [Ptr (PBlk 0) 0] (w1 gcc64 b_out) /\ means gcc64 T1 [ABuf b_in] [Ptr (PBlk 0) 0] (w1 gcc64 b_in)
  /\ octets 32 zkey /\ octets 16 ziv /\ message_ok msg /\ padded_size (Zlen (encoded msg)) = 16 /\ padded_size (Zlen (encoded msg)) + 16 <= bf_cap b_in
  /\ Zlen (filter accepts (wrs 14)) = 16
  /\ forall A, (let! (xs, _, _) := xrun gcc64 A [Ptr (PBlk 0) 0] (w1 gcc64 b_out) (send_secret 0 (fun _ => 99) msg 0 zkey ziv (wrs 14)) in
      let! (ys, _, _) := xrun gcc64 A [Ptr (PBlk 0) 0] (w1 gcc64 b_in) (read_ops 0 [firstn 7 (sent xs); []; skipn 7 (sent xs)] ++ recv_secret 0 0 zkey ziv (map fst msg)) in
      Ok (Zlen (sent xs), ints (skipn 3 ys))) = Ok (16, map snd msg).
Proof.
  split; [apply means1; [exact gcc64_wf|reflexivity|cbn; lia]|]. split; [apply means1; [exact gcc64_wf|reflexivity|cbn; lia]|].
  split; [split; [reflexivity|apply byteb_ok; vm_compute; reflexivity]|]. split; [split; [reflexivity|apply byteb_ok; vm_compute; reflexivity]|].
  split; [exact msg_ok|]. split; [reflexivity|]. split; [vm_compute; discriminate|]. split; [reflexivity|]. intros A. vm_compute. reflexivity.
Qed.
