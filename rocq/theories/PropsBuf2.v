(** Property theorems for strbuf.h, continued: limits, histories, ownership, conversion,
    stripping, formatted output, callbacks, and what does not hold. *)
From Coq Require Import String.
From Verif Require Import Base Mem Libc StrviewModel Spec MemLemmas Alloc StrbufModel BufSpec HistSpec
  StrbufProofs StrbufProofs2 StrbufProofs3 StrbufProofs4 StrbufProofs5 StrbufProofs6 StrbufProofs7 StrbufProofs8 StrbufHistory StrbufProofs9
  ExampleLib BufExample PropsBuf.
Local Open Scope string_scope.
Local Open Scope list_scope.
Local Open Scope Z_scope.

(** ** C41 *)
Theorem C41_too_long : forall cf w p B i v l, ready cf w p B -> comparable cf p v -> c_wrapv cf = true ->
  source cf (s_mem w) p B v l -> INT_MIN <= i <= INT_MAX -> INT_MAX < Zlen (bf_data B) + Zlen l ->
  becomes cf w p B (strbuf_append_strview cf w (Some p) v) (Buffer [] (bf_cap B) (bf_alloc B)) /\
  becomes cf w p B (strbuf_prepend_strview cf w (Some p) v) (Buffer [] (bf_cap B) (bf_alloc B)) /\
  becomes cf w p B (strbuf_insert_at_index_strview cf w (Some p) i v) (Buffer [] (bf_cap B) (bf_alloc B)).
Proof.
  intros cf w p B i v l R Hc Hw Hs Hi Ho. assert (bf_cap B <= INT_MAX) as C by (apply buf_at_cap with (1 := proj2 (proj2 (proj2 R)))).
  assert (forall n, sums_ok cf n) as Hn by (intros; now left).
  rewrite <- (put_over_int cf B (bf_data B ++ l) C) at 1 by (rewrite Zlen_app; lia).
  rewrite <- (put_over_int cf B (l ++ bf_data B) C) at 1 by (rewrite Zlen_app; lia).
  rewrite <- (put_over_int cf B (insert (bf_data B) i l) C) by (rewrite insert_len; lia).
  split; [now apply C36_append|]. split; [now apply C36_prepend|now apply C36_insert_at_index].
Qed.
Print Assumptions C41_too_long.
Theorem C41_cat_too_long : forall cf w p B args ls, ready cf w p B -> c_ptr cf = true -> c_wrapv cf = true ->
  Forall2 (source cf (s_mem w) p B) args ls -> INT_MAX < Zlen (concat ls) ->
  becomes cf w p B (strbuf_cat cf w (Some p) args) (Buffer [] (bf_cap B) (bf_alloc B)).
Proof.
  intros cf w p B args ls (H1 & H2 & H3 & H4) Hc Hw Hs Ho. assert (bf_cap B <= INT_MAX) as C by (apply buf_at_cap with (1 := H4)).
  pose proof (cat_ok cf w p B args ls H1 Hc H2 H3 H4 Hs (or_introl Hw)) as K.
  rewrite put_over_int in K by auto. now destruct (negb (dyn B) && existsb (fun v => within cf p v B) args).
Qed.
Print Assumptions C41_cat_too_long.
(** A buffer of a GiB and a text of a GiB. *)
Definition gib : Z := 1073741824.
Definition many : list Z := repeat 97 (Z.to_nat gib).
Lemma repeat_facts : forall n, Zlen (repeat 97 n) = Z.of_nat n /\ Forall is_byte (repeat 97 n) /\ forall i, (i < n)%nat -> nth i (repeat 97 n) 0 = 97.
Proof.
  intros n. split; [unfold Zlen; now rewrite repeat_length|]. split.
  - apply Forall_forall. intros x Hx. apply repeat_spec in Hx. subst. unfold is_byte. lia.
  - intros i Hi. apply (repeat_spec n 97). apply nth_In. now rewrite repeat_length.
Qed.
Lemma many_len : Zlen many = gib.
Proof. unfold many. rewrite (proj1 (repeat_facts _)). apply Z2Nat.id. discriminate. Qed.
Lemma many_bytes : Forall is_byte many.
Proof. exact (proj1 (proj2 (repeat_facts _))). Qed.
Lemma many_nth : forall i, 0 <= i < gib -> nth (Z.to_nat i) many 0 = 97.
Proof. intros i Hi. apply (proj2 (proj2 (repeat_facts _))). apply Z2Nat.inj_lt; try apply Hi. discriminate. Qed.
Local Opaque many.
Definition b_many : buffer := Buffer many gib heapA.
Definition mm : mem := [bufblk gcc64 4096 b_many; Block 2147483648 gib true Static (fun _ => CByte 97)].
Definition w_many : st := St mm (fun _ => Choice false true 0).
Lemma many_ready : ready gcc64 w_many pdyn b_many.
Proof.
  split; [exact gcc64_wf|]. split; [|split; [intros n; reflexivity|]].
  - cbn [w_many s_mem]. split.
    + intros b k Hb _. destruct b as [|[|b]]; cbn in Hb; [| |destruct b; discriminate]; injection Hb as <-; (split; [reflexivity|discriminate]).
    + intros b1 b2 k1 k2 H1 H2 _ _ Hne.
      destruct b1 as [|[|b1]]; cbn in H1; [| |destruct b1; discriminate]; injection H1 as <-;
        (destruct b2 as [|[|b2]]; cbn in H2; [| |destruct b2; discriminate]; injection H2 as <-); solve [now contradiction Hne|left; discriminate|right; discriminate].
  - exists 0%nat, (bufblk gcc64 4096 b_many). split; [reflexivity|]. split; [reflexivity|].
    apply bufblk_ok; [exact gcc64_wf|reflexivity|exact many_bytes|]. cbn [b_many bf_data bf_cap]. rewrite many_len. unfold gib, INT_MAX. lia.
Qed.
Lemma many_view : has_view mm (vw 1 0 gib) many.
Proof.
  split; [|split; [symmetry; exact many_len|split; [rewrite many_len; unfold gib, INT_MAX; lia|exact many_bytes]]].
  eexists. split; [reflexivity|]. cbn [vw v_data p_ofs b_size b_get]. rewrite many_len. split; [lia|]. split; [lia|].
  intros i Hi. now rewrite many_nth.
Qed.
Lemma many_src : forall cf, source cf mm pdyn b_many (vw 1 0 gib) many.
Proof. intros cf. apply src_outside; [exact many_view|split; [eexists; reflexivity|left; discriminate]]. Qed.
Example C41_ex : ready gcc64 w_many pdyn b_many /\ source gcc64 (s_mem w_many) pdyn b_many (vw 1 0 gib) many
  /\ INT_MAX < Zlen (bf_data b_many) + Zlen many.
Proof. split; [exact many_ready|]. split; [apply many_src|]. cbn [b_many bf_data]. rewrite many_len. unfold gib, INT_MAX. lia. Qed.

(** ** C69: false *)
(** In strict ISO C arithmetic such a call has undefined behaviour, always: the check for the
    overflow is the overflowing addition. *)
Theorem C69_size_check_refuted : forall cf w p B v l, ready cf w p B -> c_ptr cf = true -> c_wrapv cf = false ->
  source cf (s_mem w) p B v l -> INT_MAX < Zlen (bf_data B) + Zlen l ->
  strbuf_append_strview cf w (Some p) v = UB UB_overflow.
Proof. intros cf w p B v l (H1 & H2 & H3 & H4) Hc Hw. now apply append_strict. Qed.
Print Assumptions C69_size_check_refuted.
Definition nowrap : cfg := Cfg true false true true true true false 16 8.
Example C69_ex : ready nowrap w_many pdyn b_many /\ source nowrap (s_mem w_many) pdyn b_many (vw 1 0 gib) many
  /\ strbuf_append_strview nowrap w_many (Some pdyn) (vw 1 0 gib) = UB UB_overflow.
Proof.
  assert (ready nowrap w_many pdyn b_many) as R by exact many_ready.
  split; [exact R|]. split; [apply many_src|]. apply (C69_size_check_refuted nowrap w_many pdyn b_many (vw 1 0 gib) many R eq_refl eq_refl (many_src _)).
  cbn [b_many bf_data]. rewrite many_len. unfold gib, INT_MAX. lia.
Qed.

(** ** A situation with several buffers, for the examples on programs *)
Definition T0 : texts := fun v l => v = wide /\ l = bs "wide".
Definition slots0 : list slot := [ABuf b_hello; ABuf b_fixed; ANone].
Definition vars0 : list ptr := [pdyn; pfix; null].
Lemma means0 : forall orc, (forall n, ch_fail (orc n) = false) -> means gcc64 T0 slots0 vars0 (St xm orc).
Proof.
  intros orc Ho. constructor; cbn [s_mem].
  - reflexivity.
  - intros i Hi. destruct i as [|[|[|i]]]; cbn in Hi; [| | |lia].
    + exact pdyn_ok.
    + exact pfix_ok.
    + reflexivity.
  - intros i j Hne Hi Hj. cbn in Hi, Hj. destruct i as [|[|[|i]]], j as [|[|[|j]]]; try lia; cbn; auto; left; discriminate.
  - intros b k al Hb Hl Hk. destruct b as [|[|[|[|[|b]]]]]; cbn in Hb; try (injection Hb as <-; cbn in Hk; discriminate).
    + exists 0%nat. split; [cbn; lia|]. split; reflexivity.
    + destruct b; discriminate.
  - intros v l [-> ->]. split; [view_check|]. split; [eexists; reflexivity|].
    intros i Hi. cbn in Hi. destruct i as [|[|[|i]]]; [| | |lia]; cbn; auto; (split; [eexists; reflexivity|left; cbn; discriminate]).
  - exact xm_wf.
  - exact Ho.
Qed.
(** The program: append a part of one buffer to the other, catenate a buffer from parts of
    itself, overflow the fixed buffer, copy, destroy, convert and free. *)
Definition prog0 : list op :=
  [ OAppend 0 (SPart 1 1 3); OCat 0 [SPart 0 0 2; SText wide (bs "wide"); SPart 0 (-3) INT_MAX]; OPrepend 1 (SPart 0 0 4);
    OInsert 1 (-2) (SPart 1 0 5); OInit 2 (SPart 0 2 6) heapB; OGrow 1 50; OStrip 0 (SPart 2 0 2); OPrnf 1 (bs "12");
    OShrink 2; OView 1; ODestroy 0; OToCstr 2; ODestroy 1; OFree 2 heapB ].
Definition seen0 : list (option (list Z)) :=
  [ Some (bs "hellobc"); Some (bs "hewideobc"); Some (bs "hewiabcdef"); Some []; None; None; Some (bs "hedeobc"); Some (bs "12");
    Some (bs "wide"); Some (bs "12"); None; None; None; None ].
Ltac part := split; [eexists; reflexivity|split; unfold INT_MIN, INT_MAX; lia].
Lemma legal0 : all_legal gcc64 T0 slots0 prog0.
Proof.
  unfold prog0. cbn [all_legal].
  split; [eexists; split; [reflexivity|]; split; [part|now left]|].
  split; [eexists; split; [reflexivity|]; split; [|now left]; constructor; [part|constructor; [split; reflexivity|constructor; [part|constructor]]]|].
  split; [eexists; split; [reflexivity|]; split; [part|now left]|].
  split; [eexists; split; [reflexivity|]; split; [part|split; [now left|unfold INT_MIN, INT_MAX; lia]]|].
  split; [split; [reflexivity|]; split; [cbn; lia|]; split; [reflexivity|]; split; [part|now left]|].
  split; [eexists; split; [reflexivity|]; cbn [buf_legal]; unfold INT_MAX; lia|].
  split; [eexists; split; [reflexivity|]; split; [part|discriminate]|].
  split; [eexists; split; [reflexivity|]; split; [apply byteb_ok; reflexivity|]; split; [cbn; unfold INT_MAX; lia|now left]|].
  split; [eexists; split; [reflexivity|exact I]|].
  split; [eexists; split; [reflexivity|exact I]|].
  split; [eexists; split; [reflexivity|exact I]|].
  split; [eexists; split; [reflexivity|reflexivity]|].
  split; [eexists; split; [reflexivity|exact I]|].
  split; [eexists; reflexivity|]. exact I.
Qed.

(** ** C42 *)
Theorem C42_invariant : forall cf T prog a vars w, wf_cfg cf -> c_ptr cf = true -> means cf T a vars w -> all_legal cf T a prog ->
  exists xs vars' w', run cf vars w prog = Ok (xs, vars', w') /\
    forall i B, slot_of (snd (arun cf a prog)) i = ABuf B ->
      exists h k, load_hdr cf (s_mem w') (var vars' i) = Ok h /\ access (s_mem w') (p_obj (var vars' i)) = Ok k /\
        0 <= h_size h <= h_cap h /\ h_cap h <= INT_MAX /\
        0 <= p_ofs (var vars' i) /\ p_ofs (var vars' i) + hdr_size cf + h_cap h + 1 <= b_size k /\
        load_byte (s_mem w') (shift (chars_of cf (var vars' i)) (h_size h)) = Ok 0.
Proof.
  intros cf T prog a vars w W Hc M Hl. destruct (run_ok cf T prog a vars w W Hc M Hl) as (vars' & w' & E & M').
  eexists _, vars', w'. split; [exact E|]. intros i B Hi. pose proof (slot_in _ _ _ Hi ltac:(congruence)) as Li.
  pose proof (mn_slot _ _ _ _ _ M' i Li) as HB. rewrite Hi in HB. destruct (buf_facts cf _ _ _ W HB) as (h & k & F). exists h, k. tauto.
Qed.
Print Assumptions C42_invariant.
Example C42_ex : means gcc64 T0 slots0 vars0 w_move /\ all_legal gcc64 T0 slots0 prog0 /\
  slot_of (snd (arun gcc64 slots0 (firstn 9 prog0))) 1 = ABuf (Buffer (bs "12") 10 fixed).
Proof. split; [now apply means0|]. split; [exact legal0|]. vm_compute. reflexivity. Qed.

(** ** C43 *)
Theorem C43_refinement : forall cf T prog a vars w, wf_cfg cf -> c_ptr cf = true -> means cf T a vars w -> all_legal cf T a prog ->
  exists vars' w', run cf vars w prog = Ok (fst (arun cf a prog), vars', w') /\ means cf T (snd (arun cf a prog)) vars' w'.
Proof. exact run_ok. Qed.
Print Assumptions C43_refinement.
(** What a program observes does not depend on where the buffers are nor on the allocator. *)
Theorem C43_placement_irrelevant : forall cf T1 T2 prog a vars1 w1 vars2 w2, wf_cfg cf -> c_ptr cf = true ->
  means cf T1 a vars1 w1 -> means cf T2 a vars2 w2 -> all_legal cf T1 a prog -> all_legal cf T2 a prog ->
  exists xs v1 s1 v2 s2, run cf vars1 w1 prog = Ok (xs, v1, s1) /\ run cf vars2 w2 prog = Ok (xs, v2, s2).
Proof.
  intros cf T1 T2 prog a vars1 w1 vars2 w2 W Hc M1 M2 L1 L2.
  destruct (run_ok cf T1 prog a vars1 w1 W Hc M1 L1) as (v1 & s1 & E1 & _). destruct (run_ok cf T2 prog a vars2 w2 W Hc M2 L2) as (v2 & s2 & E2 & _).
  exists (fst (arun cf a prog)), v1, s1, v2, s2. auto.
Qed.
Print Assumptions C43_placement_irrelevant.
Example C43_ex : means gcc64 T0 slots0 vars0 w_move /\ means gcc64 T0 slots0 vars0 w_stay /\ all_legal gcc64 T0 slots0 prog0
  /\ (exists v w, run gcc64 vars0 w_move prog0 = Ok (seen0, v, w)) /\ fst (arun gcc64 slots0 prog0) = seen0.
Proof.
  split; [now apply means0|]. split; [now apply means0|]. split; [exact legal0|]. assert (fst (arun gcc64 slots0 prog0) = seen0) as E by (vm_compute; reflexivity).
  split; auto. destruct (run_ok gcc64 T0 prog0 slots0 vars0 w_move gcc64_wf eq_refl (means0 _ move_ok) legal0) as (v & w & H & _).
  rewrite E in H. exists v, w. exact H.
Qed.

(** ** C44 *)
Theorem C44_local : forall cf T a vars w o, wf_cfg cf -> c_ptr cf = true -> means cf T a vars w -> legal cf T a o ->
  exists v vars' w', exec cf vars w o = Ok (v, vars', w') /\
    (forall i, i <> target o -> (i < length a)%nat ->
       var vars' i = var vars i /\ slot_rel cf (s_mem w') (slot_of a i) (var vars i)) /\
    (forall u l, has_view (s_mem w) u l -> (exists b, p_obj (v_data u) = PBlk b) ->
       text_apart cf (slot_of a (target o)) (var vars (target o)) u l -> has_view (s_mem w') u l).
Proof.
  intros cf T a vars w o W Hc M Hl. destruct (step_ok cf T a vars w o W Hc M Hl) as (v & vars' & w' & E & _ & M' & V & K).
  exists v, vars', w'. split; auto. split; auto. intros i Hi Li. split; auto.
  assert (snd (astep cf a o) = a \/ exists s, snd (astep cf a o) = upd a (target o) s) as Ha.
  { destruct o; cbn [astep snd target]; eauto; match goal with |- context[slot_of a ?j] => destruct (slot_of a j) end; cbn [snd]; eauto. }
  rewrite <- (V i Hi). replace (slot_of a i) with (slot_of (snd (astep cf a o)) i).
  - apply (mn_slot _ _ _ _ _ M'). destruct Ha as [-> | [s ->]]; auto. now rewrite upd_len.
  - destruct Ha as [-> | [s ->]]; auto. unfold slot_of. now apply nth_upd_neq.
Qed.
Print Assumptions C44_local.
Example C44_ex : means gcc64 T0 slots0 vars0 w_move /\ legal gcc64 T0 slots0 (OAppend 0 (SPart 1 0 6))
  /\ has_view xm (vw 3 0 2) (bs "lo") /\ text_apart gcc64 (slot_of slots0 0) (var vars0 0) (vw 3 0 2) (bs "lo").
Proof.
  split; [now apply means0|]. split; [eexists; split; [reflexivity|]; split; [part|now left]|]. split; [view_check|].
  split; [eexists; reflexivity|left; discriminate].
Qed.

(** ** C45 *)
(** Operations other than strbuf_shrink and strbuf_grow. *)
Theorem C45_capacity : forall cf T a vars w o B, wf_cfg cf -> c_ptr cf = true -> means cf T a vars w -> legal cf T a o ->
  edits o = true -> resizes o = false -> slot_of a (target o) = ABuf B ->
  exists v vars' w' h h', exec cf vars w o = Ok (v, vars', w') /\
    load_hdr cf (s_mem w) (var vars (target o)) = Ok h /\ load_hdr cf (s_mem w') (var vars' (target o)) = Ok h' /\
    h_alloc h' = h_alloc h /\
    (a_fn (h_alloc h) = None -> h_cap h' = h_cap h) /\
    (h_cap h' = h_cap h \/ (h_cap h < h_cap h' /\ (h_cap h' mod c_step cf = 0 \/ h_cap h' = INT_MAX))).
Proof.
  intros cf T a vars w o B W Hc M Hl He Hr Hj.
  destruct (edit_step cf T a vars w o B W Hc M Hl He Hj) as (v & vars' & w' & h & h' & E & L1 & L2 & C1 & C2 & A1 & A2 & Cb & _).
  exists v, vars', w', h, h'. do 4 (split; auto). pose proof (step_cap cf a B o W Cb Hr) as K. rewrite <- C1, <- C2 in K.
  unfold keeps_cap, dyn in K. rewrite <- A2 in K. split; [intros F; rewrite F in K|]; destruct K as [K|(K1 & K2 & K3)]; auto; discriminate.
Qed.
Print Assumptions C45_capacity.
Theorem C45_shrink_grow : forall cf w p B n, ready cf w p B -> n <= INT_MAX ->
  (dyn B = true -> becomes cf w p B (strbuf_shrink cf w (Some p)) (Buffer (bf_data B) (Zlen (bf_data B)) (bf_alloc B)) /\
                   becomes cf w p B (strbuf_grow cf w (Some p) n) (Buffer (bf_data B) (Z.max (bf_cap B) n) (bf_alloc B))) /\
  (dyn B = false -> becomes cf w p B (strbuf_shrink cf w (Some p)) B /\ strbuf_grow cf w (Some p) n = Ok (INVALID, Some p, w)).
Proof.
  intros cf w p B n (H1 & H2 & H3 & H4) Hn. pose proof (shrink_ok cf w p B H1 H2 H3 H4) as S. split; intros D; rewrite D in S; split; auto.
  - now apply grow_dyn_ok.
  - now apply (grow_fixed_ok cf w p B).
Qed.
Print Assumptions C45_shrink_grow.
Example C45_ex : means gcc64 T0 slots0 vars0 w_move /\ legal gcc64 T0 slots0 (OAppend 0 (SPart 1 0 6))
  /\ shows gcc64 (strbuf_append_strview gcc64 w_move (Some pdyn) (vw 2 24 6)) = Some (Some (bs "helloabcdef"), 16)
  /\ shows gcc64 (strbuf_shrink gcc64 w_move (Some pdyn)) = Some (Some (bs "hello"), 5)
  /\ shows gcc64 (strbuf_grow gcc64 w_move (Some pdyn) 33) = Some (Some (bs "hello"), 33)
  /\ shows gcc64 (strbuf_grow gcc64 w_move (Some pfix) 33) = Some (None, 10).
Proof.
  split; [now apply means0|]. split; [eexists; split; [reflexivity|]; split; [part|now left]|].
  do 3 (split; [vm_compute; reflexivity|]). vm_compute. reflexivity.
Qed.

(** ** C46 *)
(** After any program every live allocation is held by exactly one variable, with the
    allocator it came from; if no variable holds anything, no allocation is live.  (A free
    with another allocator or a second free would not return Ok.) *)
Theorem C46_ownership : forall cf T prog a vars w, wf_cfg cf -> c_ptr cf = true -> means cf T a vars w -> all_legal cf T a prog ->
  exists xs vars' w', run cf vars w prog = Ok (xs, vars', w') /\
    (forall b k al, nth_error (s_mem w') b = Some k -> b_live k = true -> b_owner k = Heap al ->
       exists i, (i < length vars')%nat /\ p_obj (var vars' i) = PBlk b /\
         (exists B, slot_of (snd (arun cf a prog)) i = ABuf B /\ bf_alloc B = al \/ exists l, slot_of (snd (arun cf a prog)) i = AStr l al) /\
         forall j, (j < length vars')%nat -> owns (slot_of (snd (arun cf a prog)) j) = true -> p_obj (var vars' j) = PBlk b -> j = i) /\
    ((forall i, slot_of (snd (arun cf a prog)) i = ANone) ->
       forall b k al, nth_error (s_mem w') b = Some k -> b_owner k = Heap al -> b_live k = false).
Proof.
  intros cf T prog a vars w W Hc M Hl. destruct (run_ok cf T prog a vars w W Hc M Hl) as (vars' & w' & E & M').
  eexists _, vars', w'. split; [exact E|]. rewrite (mn_len _ _ _ _ _ M'). set (a' := snd (arun cf a prog)) in *. split.
  - intros b k al Hb Hk Ho. destruct (mn_heap _ _ _ _ _ M' b k al Hb Hk Ho) as (i & Li & Oi & Ei). exists i. split; auto. split; auto. split.
    + pose proof (mn_slot _ _ _ _ _ M' i Li) as R. destruct (slot_of a' i) as [|B|l al'] eqn:Si; cbn [owns] in Oi; try discriminate.
      * exists B. left. split; auto. destruct R as (b' & k' & R1 & R2 & R3). assert (b' = b) by congruence. subst b'. assert (k' = k) by congruence. subst k'.
        destruct R3 as (_ & _ & _ & _ & _ & _ & _ & _ & _ & R3). destruct (R3 Oi) as (_ & R4 & _). congruence.
      * exists (Buffer [] 0 al). right. exists l. destruct R as (b' & k' & R1 & R2 & R3 & R4 & _). rewrite R1 in Ei. cbn in Ei. assert (b' = b) by congruence.
        subst b'. assert (k' = k) by congruence. subst k'. congruence.
    + intros j Lj Oj Ej. eapply owner_unique; eauto.
  - intros Hall b k al Hb Ho. destruct (b_live k) eqn:Hk; auto. exfalso.
    destruct (mn_heap _ _ _ _ _ M' b k al Hb Hk Ho) as (i & Li & Oi & Ei). rewrite Hall in Oi. discriminate.
Qed.
Print Assumptions C46_ownership.
Theorem C46_destroy : forall cf w p B, ready cf w p B ->
  (dyn B = true -> exists b w', p_obj p = PBlk b /\ strbuf_destroy cf w (Some p) = Ok (Some null, w') /\ freed (s_mem w) (s_mem w') b) /\
  (dyn B = false -> strbuf_destroy cf w (Some p) = Ok (Some null, w)).
Proof.
  intros cf w p B (H1 & H2 & H3 & H4). split; intros D.
  - destruct (destroy_dyn_ok cf w p B H1 H2 H3 H4 D) as (b & w' & E1 & E2 & E3 & _). eauto.
  - now apply (destroy_fixed_ok cf w p B).
Qed.
Print Assumptions C46_destroy.
Example C46_ex : means gcc64 T0 slots0 vars0 w_move /\ all_legal gcc64 T0 slots0 prog0 /\ (forall i, slot_of (snd (arun gcc64 slots0 prog0)) i = ANone)
  /\ ready gcc64 w_move pdyn b_hello /\ dyn b_hello = true.
Proof.
  split; [now apply means0|]. split; [exact legal0|]. split; [|split; [exact dyn_ready|reflexivity]].
  assert (snd (arun gcc64 slots0 prog0) = [ANone; ANone; ANone]) as -> by (vm_compute; reflexivity). intros [|[|[|[|i]]]]; reflexivity.
Qed.

(** ** C47 *)
Theorem C47_to_cstr : forall cf w p B, ready cf w p B ->
  (dyn B = true -> exists str w', strbuf_to_cstr cf w (Some p) = Ok (str, Some null, w') /\ detached w w' p str (bf_alloc B) (bf_data B)) /\
  (dyn B = false -> exists w', strbuf_to_cstr cf w (Some p) = Ok (chars_of cf p, Some null, w') /\
     bytes_at (s_mem w') (chars_of cf p) (bf_data B ++ [0]) /\ touches cf (s_mem w) (s_mem w') p p B).
Proof.
  intros cf w p B (H1 & H2 & H3 & H4). split; intros D; [now apply to_cstr_dyn_ok|].
  destruct (to_cstr_fixed_ok cf w p B H1 H2 H3 H4 D) as (w' & E1 & E2 & _ & E3 & _). eauto.
Qed.
Print Assumptions C47_to_cstr.
Example C47_ex : ready gcc64 w_move pdyn b_hello /\
  (exists str w', strbuf_to_cstr gcc64 w_move (Some pdyn) = Ok (str, Some null, w') /\ load_bytes (s_mem w') str 6 = Ok (bs "hello" ++ [0])).
Proof. split; [exact dyn_ready|]. eexists _, _. split; [vm_compute; reflexivity|]. vm_compute. reflexivity. Qed.

(** ** C48 *)
Theorem C48_strip : forall cf w p B v set, ready cf w p B -> has_view (s_mem w) v set -> outside cf p B v set ->
  becomes_at cf w p B (strbuf_strip_strview cf w (Some p) v) (Buffer (without set (bf_data B)) (bf_cap B) (bf_alloc B)).
Proof. intros cf w p B v set (H1 & H2 & H3 & H4). now apply strip_ok. Qed.
Print Assumptions C48_strip.
Theorem C48_strip_cstr : forall cf w p B s set, ready cf w p B -> c_string (s_mem w) s set -> outside cf p B (View s (Zlen set)) set ->
  becomes_at cf w p B (strbuf_strip_cstr cf w (Some p) s) (Buffer (without set (bf_data B)) (bf_cap B) (bf_alloc B)).
Proof.
  intros cf w p B s set (H1 & H2 & H3 & H4) Hs Ho. destruct (cstr_args cf w (Some p) s set 0 INVALID Hs) as (_ & _ & _ & _ & _ & ->).
  apply strip_ok; auto. apply (StrviewProofs.cstr_ok _ _ _ Hs).
Qed.
Print Assumptions C48_strip_cstr.
Theorem C48_strip_invalid : forall cf w p B v, ready cf w p B -> strview_is_valid v = false ->
  strbuf_strip_strview cf w (Some p) v = Ok (buf_view cf p B, Some p, w).
Proof. intros cf w p B v (H1 & H2 & H3 & H4). now apply strip_invalid. Qed.
Print Assumptions C48_strip_invalid.
(** [without] removes exactly the characters of the set. *)
Theorem C48_without : forall set l c, count c (without set l) = if existsb (Z.eqb c) set then O else count c l.
Proof.
  intros set l c. unfold count, without. induction l as [|x l IH]; cbn [filter]; [now destruct (existsb (Z.eqb c) set)|].
  destruct (existsb (Z.eqb x) set) eqn:E; cbn [negb filter].
  - rewrite IH. destruct (c =? x) eqn:Ex; auto. apply Z.eqb_eq in Ex. subst. now rewrite E.
  - destruct (c =? x) eqn:Ex; auto. apply Z.eqb_eq in Ex. subst. rewrite E in *. cbn [length]. now rewrite IH.
Qed.
Print Assumptions C48_without.
Example C48_ex : ready gcc64 w_move pdyn b_hello /\ c_string xm (Ptr (PBlk 3) 0) (bs "lo") /\ outside gcc64 pdyn b_hello (vw 3 0 2) (bs "lo")
  /\ shows gcc64 (strbuf_strip_cstr gcc64 w_move (Some pdyn) (Ptr (PBlk 3) 0)) = Some (Some (bs "he"), 8).
Proof.
  split; [exact dyn_ready|]. split; [cstr_check|]. split; [split; [eexists; reflexivity|left; discriminate]|]. vm_compute. reflexivity.
Qed.

(** ** C49: false *)
Definition b_abc : buffer := Buffer (bs "abc") 8 heapA.
Definition w_abc : st := St [bufblk gcc64 4096 b_abc] (fun _ => Choice false true 0).
Lemma abc_ready : ready gcc64 w_abc pdyn b_abc.
Proof. split; [exact gcc64_wf|]. split; [wf_check|]. split; [intros n; reflexivity|]. buf_check 4096. Qed.
Theorem C49_strip_own_text_refuted : exists w p B v set v' w' r,
  ready gcc64 w p B /\ source gcc64 (s_mem w) p B v set /\
  strbuf_strip_strview gcc64 w (Some p) v = Ok (v', Some p, w') /\ has_view (s_mem w') v' r /\ r <> without set (bf_data B).
Proof.
  eexists w_abc, pdyn, b_abc, (vw 0 24 2), (bs "ab"), _, _, [].
  split; [exact abc_ready|]. split; [exact (src_inside gcc64 (s_mem w_abc) pdyn b_abc [] (bs "ab") (bs "c") eq_refl)|].
  split; [vm_compute; reflexivity|]. split; [view_check|discriminate].
Qed.
Print Assumptions C49_strip_own_text_refuted.

(** ** C50 *)
Theorem C50_printf : forall cf w p B l, ready cf w p B -> Forall is_byte l -> Zlen l <= INT_MAX ->
  (sums_ok cf (Zlen (bf_data B) + Zlen l) ->
   becomes cf w p B (strbuf_append_vprintf cf w (Some p) (FmtText l)) (put cf B (bf_data B ++ l))) /\
  (sums_ok cf (Zlen l) -> becomes cf w p B (strbuf_vprintf cf w (Some p) (FmtText l)) (put cf B l)).
Proof. intros cf w p B l (H1 & H2 & H3 & H4) Hb Hl. split; intros Hn; [now apply append_printf_yields|now apply printf_ok]. Qed.
Print Assumptions C50_printf.
Example C50_ex : ready gcc64 w_move pdyn b_hello /\ Forall is_byte (bs "12345")
  /\ shows gcc64 (strbuf_append_vprintf gcc64 w_move (Some pdyn) (FmtText (bs "12345"))) = Some (Some (bs "hello12345"), 16)
  /\ shows gcc64 (strbuf_vprintf gcc64 w_move (Some pfix) (FmtText (bs "1234567890"))) = Some (Some (bs "1234567890"), 10).
Proof. split; [exact dyn_ready|]. split; [apply byteb_ok; reflexivity|]. split; vm_compute; reflexivity. Qed.

(** ** C51: false *)
(** After a formatter error there is no valid buffer any more: the size of an empty buffer
    becomes -1; a buffer with contents loses its terminating NUL. *)
Definition b_empty : buffer := Buffer [] 8 heapA.
Definition w_empty : st := St [bufblk gcc64 4096 b_empty] (fun _ => Choice false true 0).
Theorem C51_printf_error_refuted : exists w p B v p' w',
  ready gcc64 w p B /\ strbuf_append_vprintf gcc64 w (Some p) FmtError = Ok (v, Some p', w') /\
  v_size v = -1 /\ forall B', ~ buf_at gcc64 (s_mem w') p' B'.
Proof.
  eexists w_empty, pdyn, b_empty, _, _, _.
  split; [split; [exact gcc64_wf|]; split; [wf_check|]; split; [intros n; reflexivity|buf_check 4096]|].
  split; [vm_compute; reflexivity|]. split; [reflexivity|]. intros B' HB. apply (buf_at_load gcc64 _ _ _ gcc64_wf) in HB.
  match type of HB with ?l = _ => assert (l = Ok (Hdr (-1) 8 heapA)) as E by (vm_compute; reflexivity) end. rewrite E in HB.
  assert (Zlen (bf_data B') = -1) as K by (unfold hdr_of in HB; congruence). pose proof (Zlen_nonneg (bf_data B')). lia.
Qed.
Print Assumptions C51_printf_error_refuted.
Theorem C51_printf_error_nul_refuted : exists w p B v p' w' h,
  ready gcc64 w p B /\ bf_data B <> [] /\ strbuf_append_vprintf gcc64 w (Some p) FmtError = Ok (v, Some p', w') /\
  load_hdr gcc64 (s_mem w') p' = Ok h /\ load_byte (s_mem w') (shift (chars_of gcc64 p') (h_size h)) <> Ok 0.
Proof.
  eexists w_move, pdyn, b_hello, _, _, _, _. split; [exact dyn_ready|]. split; [discriminate|].
  split; [vm_compute; reflexivity|]. split; [vm_compute; reflexivity|]. vm_compute. discriminate.
Qed.
Print Assumptions C51_printf_error_nul_refuted.

(** ** C52 *)
Theorem C52_prnf : forall cf w p B l, ready cf w p B -> Forall is_byte l -> Zlen l <= INT_MAX ->
  (sums_ok cf (Zlen (bf_data B) + Zlen l) ->
   becomes cf w p B (strbuf_append_vprnf cf w (Some p) l) (put_all cf B (bf_data B ++ l))) /\
  (sums_ok cf (Zlen l) -> becomes cf w p B (strbuf_vprnf cf w (Some p) l) (put_all cf B l)).
Proof. intros cf w p B l (H1 & H2 & H3 & H4) Hb Hl. split; intros Hn; [now apply append_prnf_ok|now apply prnf_ok]. Qed.
Print Assumptions C52_prnf.
Theorem C52_all_or_nothing : forall cf B c,
  bf_data (put_all cf B c) = if fits B c then c else [].
Proof. intros cf B c. unfold put_all, put. destruct (fits B c); reflexivity. Qed.
Print Assumptions C52_all_or_nothing.
Example C52_ex : ready gcc64 w_move pfix b_fixed /\ Forall is_byte (bs "1234")
  /\ shows gcc64 (strbuf_append_vprnf gcc64 w_move (Some pfix) (bs "1234")) = Some (Some (bs "abcdef1234"), 10)
  /\ shows gcc64 (strbuf_append_vprnf gcc64 w_move (Some pfix) (bs "12345")) = Some (Some [], 10)
  /\ shows gcc64 (strbuf_append_vprnf gcc64 w_move (Some pfix) (bs "1234567890123")) = Some (Some [], 10)
  /\ shows gcc64 (strbuf_vprnf gcc64 w_move (Some pdyn) (bs "1234567890123")) = Some (Some (bs "1234567890123"), 16).
Proof. split; [exact fix_ready|]. split; [apply byteb_ok; reflexivity|]. do 3 (split; [vm_compute; reflexivity|]). vm_compute. reflexivity. Qed.

(** ** C53 *)
Theorem C53_append_using : forall cf w p B fetch l, ready cf w p B ->
  fetches fetch (s_mem w) (shift (chars_of cf p) (Zlen (bf_data B))) (bf_cap B - Zlen (bf_data B)) (Zlen l) l ->
  Forall is_byte l -> Zlen (bf_data B) + Zlen l <= bf_cap B ->
  becomes_at cf w p B (strbuf_append_using cf w (Some p) fetch) (Buffer (bf_data B ++ l) (bf_cap B) (bf_alloc B)).
Proof. intros cf w p B fetch l (H1 & H2 & H3 & H4). now apply append_using_ok. Qed.
Print Assumptions C53_append_using.
Theorem C53_append_using_bad : forall cf w p B fetch r, ready cf w p B ->
  fetches fetch (s_mem w) (shift (chars_of cf p) (Zlen (bf_data B))) (bf_cap B - Zlen (bf_data B)) r [] ->
  r < 0 \/ bf_cap B - Zlen (bf_data B) < r ->
  exists w', strbuf_append_using cf w (Some p) fetch = Ok (INVALID, Some p, w') /\
    buf_at cf (s_mem w') p (Buffer [] (bf_cap B) (bf_alloc B)) /\ touches cf (s_mem w) (s_mem w') p p B.
Proof.
  intros cf w p B fetch r (H1 & H2 & H3 & H4) Hf Hr.
  destruct (append_using_bad cf w p B fetch r H1 H2 H3 H4 Hf Hr) as (w' & E1 & E2 & E3 & _). eauto.
Qed.
Print Assumptions C53_append_using_bad.
Example C53_ex : ready gcc64 w_move pdyn b_hello
  /\ fetches (deliver (bs "abc")) xm (shift (chars_of gcc64 pdyn) 5) 3 3 (bs "abc")
  /\ fetches (deliver (bs "abcd")) xm (shift (chars_of gcc64 pdyn) 5) 3 (-1) []
  /\ shows gcc64 (strbuf_append_using gcc64 w_move (Some pdyn) (deliver (bs "abc"))) = Some (Some (bs "helloabc"), 8)
  /\ shows gcc64 (strbuf_append_using gcc64 w_move (Some pdyn) (deliver (bs "abcd"))) = Some (None, 8)
  /\ shows gcc64 (strbuf_append_using gcc64 w_move (Some pdyn) (fun m _ n => Ok (n + 1, m))) = Some (None, 8).
Proof.
  split; [exact dyn_ready|]. split; [exact (deliver_ok gcc64 xm pdyn b_hello (bs "abc") gcc64_wf pdyn_ok ltac:(cbn; lia))|].
  split; [exact (deliver_bad gcc64 xm pdyn b_hello (bs "abcd") gcc64_wf pdyn_ok ltac:(cbn; lia))|].
  do 2 (split; [vm_compute; reflexivity|]). vm_compute. reflexivity.
Qed.

(** ** C66: false *)
Theorem C66_append_strict_refuted : exists w p B v l,
  ready iso64 w p B /\ source iso64 (s_mem w) p B v l /\ Zlen (bf_data B) + Zlen l <= bf_cap B /\
  strbuf_append_strview iso64 w (Some p) v = UB UB_ptr.
Proof.
  exists w_move, pfix, b_fixed, wide, (bs "wide").
  split; [exact (conj gcc64_wf (conj xm_wf (conj move_ok pfix_ok)))|].
  split; [apply src_outside; [view_check|split; [eexists; reflexivity|left; discriminate]]|]. split; [cbn; lia|]. vm_compute. reflexivity.
Qed.
Print Assumptions C66_append_strict_refuted.
(** Text that lies in the same object as the buffer, in particular in the buffer itself, is inserted
    without undefined pointer arithmetic in every configuration. *)
Theorem C66_same_object_partial : forall cf w p B i v l, ready cf w p B -> p_obj (v_data v) = p_obj p ->
  source cf (s_mem w) p B v l -> INT_MIN <= i <= INT_MAX -> sums_ok cf (Zlen (bf_data B) + Zlen l) ->
  becomes cf w p B (strbuf_append_strview cf w (Some p) v) (put cf B (bf_data B ++ l)) /\
  becomes cf w p B (strbuf_prepend_strview cf w (Some p) v) (put cf B (l ++ bf_data B)) /\
  becomes cf w p B (strbuf_insert_at_index_strview cf w (Some p) i v) (put cf B (insert (bf_data B) i l)).
Proof.
  intros cf w p B i v l R O Hs Hi Hn. assert (comparable cf p v) as C by (now right).
  split; [now apply C36_append|]. split; [now apply C36_prepend|now apply C36_insert_at_index].
Qed.
Print Assumptions C66_same_object_partial.
Example C66_ex : ready iso64 w_move pdyn b_hello /\ c_ptr iso64 = false /\ source iso64 (s_mem w_move) pdyn b_hello (vw 0 25 3) (bs "ell")
  /\ sums_ok iso64 8 /\ p_obj (v_data (vw 0 25 3)) = p_obj pdyn
  /\ shows iso64 (strbuf_insert_at_index_strview iso64 w_move (Some pdyn) (-2) (vw 0 25 3)) = Some (Some (bs "helelllo"), 8).
Proof.
  split; [exact (conj gcc64_wf (conj xm_wf (conj move_ok pdyn_ok)))|]. split; [reflexivity|]. split; [exact (src_inside iso64 xm pdyn b_hello (bs "h") (bs "ell") (bs "o") eq_refl)|].
  split; [right; vm_compute; discriminate|]. split; vm_compute; reflexivity.
Qed.

(** ** C67: false *)
Theorem C67_create_rounds_refuted : exists cap p w' h, 0 <= cap <= INT_MAX /\
  strbuf_create_empty gcc64 w_move heapA cap None = Ok (p, w') /\ load_hdr gcc64 (s_mem w') p = Ok h /\
  h_cap h mod c_step gcc64 <> 0.
Proof.
  eexists 10, _, _, _. split; [unfold INT_MAX; lia|]. split; [vm_compute; reflexivity|]. split; [vm_compute; reflexivity|]. vm_compute. discriminate.
Qed.
Print Assumptions C67_create_rounds_refuted.
Theorem C67_grow_rounds_refuted : exists w p B n v p' w' h, ready gcc64 w p B /\ dyn B = true /\ bf_cap B < n <= INT_MAX /\
  strbuf_grow gcc64 w (Some p) n = Ok (v, Some p', w') /\ load_hdr gcc64 (s_mem w') p' = Ok h /\
  h_cap h mod c_step gcc64 <> 0.
Proof.
  eexists w_move, pdyn, b_hello, 33, _, _, _, _. split; [exact dyn_ready|]. split; [reflexivity|]. split; [cbn; unfold INT_MAX; lia|].
  split; [vm_compute; reflexivity|]. split; [vm_compute; reflexivity|]. vm_compute. discriminate.
Qed.
Print Assumptions C67_grow_rounds_refuted.

(** ** C68 *)
(** No buffer: a NULL pointer to the variable, or a NULL variable. *)
Definition no_buffer (bp : option ptr) : Prop := bp = None \/ bp = Some null.
Theorem C68_no_buffer : forall cf w bp, no_buffer bp ->
  (forall v, strbuf_append_strview cf w bp v = Ok (INVALID, bp, w)) /\
  (forall v, strbuf_prepend_strview cf w bp v = Ok (INVALID, bp, w)) /\
  (forall i v, strbuf_insert_at_index_strview cf w bp i v = Ok (INVALID, bp, w)) /\
  (forall d v, strbuf_insert_before_strview cf w bp d v = Ok (INVALID, bp, w)) /\
  (forall d v, strbuf_insert_after_strview cf w bp d v = Ok (INVALID, bp, w)) /\
  (forall v, strbuf_assign cf w bp v = Ok (INVALID, bp, w)) /\
  (forall vs, strbuf_cat cf w bp vs = Ok (INVALID, bp, w)) /\
  (forall c, strbuf_append_char cf w bp c = Ok (INVALID, bp, w)) /\
  (forall v, strbuf_strip_strview cf w bp v = Ok (INVALID, bp, w)) /\
  strbuf_shrink cf w bp = Ok (INVALID, bp, w) /\
  (forall n, strbuf_grow cf w bp n = Ok (INVALID, bp, w)) /\
  (forall r, strbuf_vprintf cf w bp r = Ok (INVALID, bp, w)) /\
  (forall r, strbuf_append_vprintf cf w bp r = Ok (INVALID, bp, w)) /\
  (forall l, strbuf_vprnf cf w bp l = Ok (INVALID, bp, w)) /\
  (forall l, strbuf_append_vprnf cf w bp l = Ok (INVALID, bp, w)) /\
  (forall f, strbuf_append_using cf w bp f = Ok (INVALID, bp, w)) /\
  strbuf_view cf w bp = Ok INVALID /\
  strbuf_destroy cf w bp = Ok (bp, w) /\
  strbuf_to_cstr cf w bp = Ok (null, bp, w).
Proof. intros cf w bp [-> | ->]; repeat split; reflexivity. Qed.
Print Assumptions C68_no_buffer.
Example C68_ex : no_buffer None /\ no_buffer (Some null) /\ ~ no_buffer (Some pdyn).
Proof. split; [now left|]. split; [now right|]. intros [H|H]; discriminate. Qed.

(** ** C70: false *)
Definition w_fail : st := St xm (fun _ => Choice true true 0).
Theorem C70_failed_allocation_refuted :
  strbuf_create_empty gcc64 w_fail heapA 10 None = UB UB_null /\
  buf_at gcc64 (s_mem w_fail) pdyn b_hello /\ strbuf_append_strview gcc64 w_fail (Some pdyn) wide = UB UB_null.
Proof. split; [vm_compute; reflexivity|]. split; [exact pdyn_ok|]. vm_compute. reflexivity. Qed.
Print Assumptions C70_failed_allocation_refuted.
