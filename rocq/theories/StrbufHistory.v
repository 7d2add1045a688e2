(** Programs on many buffers behave like programs on byte strings. *)
From Verif Require Import Base Mem Libc StrviewModel Spec MemLemmas StrviewProofs StrviewProofs2 Alloc StrbufModel BufSpec
  StrbufProofs StrbufProofs2 StrbufProofs3 StrbufProofs4 StrbufProofs5 StrbufProofs6 StrbufProofs7 StrbufProofs8 HistSpec.

(** ** Updating a list of slots *)
Lemma nth_upd_eq : forall {A} (l : list A) n x d, (n < length l)%nat -> nth n (upd l n x) d = x.
Proof. intros A l. induction l; intros [|n] x d H; cbn in *; try lia; auto. apply IHl. lia. Qed.
Lemma nth_upd_neq : forall {A} (l : list A) n i x d, i <> n -> nth i (upd l n x) d = nth i l d.
Proof. intros A l. induction l; intros [|n] [|i] x d H; cbn in *; try congruence; auto. Qed.
Lemma upd_nth_same : forall {A} (l : list A) n d, upd l n (nth n l d) = l.
Proof. intros A l. induction l; intros [|n] d; cbn; auto. now rewrite IHl. Qed.

(** ** Memory changes confined to one variable *)
Definition fixed_in (s : slot) (B : buffer) : Prop := s = ABuf B /\ dyn B = false.

Definition evolves (cf : cfg) (m m' : mem) (s : slot) (p : ptr) (s' : slot) (p' : ptr) : Prop :=
  (length m <= length m')%nat /\
  (forall i, (i < length m)%nat -> s = ANone \/ p_obj p <> PBlk i -> nth_error m' i = nth_error m i) /\
  (forall B, fixed_in s B -> exists b, p_obj p = PBlk b /\ frame m m' b (p_ofs p) (buf_end cf p B)) /\
  (s' = ANone \/ (p_obj p' = p_obj p /\ owns s = true) \/
   (exists B B', fixed_in s B /\ fixed_in s' B' /\ p' = p /\ bf_cap B' = bf_cap B) \/
   (exists b', p_obj p' = PBlk b' /\ (length m <= b')%nat)) /\
  (forall b k al, nth_error m' b = Some k -> b_live k = true -> b_owner k = Heap al ->
     (owns s' = true /\ p_obj p' = PBlk b) \/ ((b < length m)%nat /\ (s = ANone \/ p_obj p <> PBlk b)) \/
     ((exists B, fixed_in s B) /\ p_obj p = PBlk b)).

Lemma buf_in_frame : forall cf k k' o B, wf_cfg cf -> buf_in cf k o B ->
  b_base k' = b_base k -> b_size k' = b_size k -> b_live k' = b_live k -> b_owner k' = b_owner k ->
  (forall i, o <= i < o + hdr_size cf + bf_cap B + 1 -> b_get k' i = b_get k i) -> buf_in cf k' o B.
Proof.
  intros cf k k' o B W (L & O & Al & F & H & D & T & By & C & Dy) E1 E2 E3 E4 E5. pose proof (hdr_size_pos cf W). pose proof (Zlen_nonneg (bf_data B)).
  split; [congruence|]. split; auto. split; [congruence|]. split; [congruence|]. split; [|split; [|split; [|split; [|split]]]]; auto.
  - intros i Hi. rewrite E5 by lia. auto.
  - intros i Hi. rewrite E5 by lia. auto.
  - rewrite E5 by lia. auto.
  - intros d. destruct (Dy d) as (X & Y & Z0). repeat split; congruence.
Qed.

Lemma slot_block : forall cf m s p, slot_rel cf m s p -> s <> ANone -> exists b k, p_obj p = PBlk b /\ nth_error m b = Some k /\ b_live k = true.
Proof.
  intros cf m s p H Hn. destruct s as [|B|l a]; [congruence| |].
  - destruct H as (b & k & E1 & E2 & L & _). exists b, k. auto.
  - destruct H as (b & k & -> & E2 & L & _). exists b, k. auto.
Qed.

Lemma apart_owns : forall cf s1 p1 s2 p2, apart cf s1 p1 s2 p2 -> s1 <> ANone -> s2 <> ANone -> owns s1 = true \/ owns s2 = true -> p_obj p1 <> p_obj p2.
Proof.
  intros cf s1 p1 s2 p2 H N1 N2 Ho. destruct s1 as [|B1|l1 a1]; [congruence| |]; destruct s2 as [|B2|l2 a2]; try congruence; auto.
  destruct H as [H|(D1 & D2 & _)]; auto. cbn [owns] in Ho. destruct Ho; congruence.
Qed.
Lemma apart_sym : forall cf s1 p1 s2 p2, apart cf s1 p1 s2 p2 -> apart cf s2 p2 s1 p1.
Proof.
  intros cf s1 p1 s2 p2 H. destruct s1 as [|B1|l1 a1]; destruct s2 as [|B2|l2 a2]; cbn [apart] in *; auto.
  destruct H as [H|(D1 & D2 & [H|H])]; auto 6.
Qed.
Lemma apart_none_r : forall cf s p q, apart cf s p ANone q.
Proof. intros cf [| |] p q; cbn; auto. Qed.

(** What another variable holds is preserved. *)
Lemma keep : forall cf m m' s p s' p' t q, wf_cfg cf -> evolves cf m m' s p s' p' -> slot_rel cf m s p ->
  slot_rel cf m t q -> apart cf s p t q -> slot_rel cf m' t q.
Proof.
  intros cf m m' s p s' p' t q W (E1 & E2 & E3 & _) Hs Ht Ha.
  destruct (match t with ANone => true | _ => false end) eqn:Et. { destruct t; try discriminate. exact Ht. }
  assert (t <> ANone) as Nt by (destruct t; congruence). destruct (slot_block cf m t q Ht Nt) as (b & k & B1 & B2 & B3).
  pose proof (nth_error_lt _ _ _ B2) as Lt.
  destruct (match s with ANone => true | _ => false end) eqn:Es.
  { destruct s; try discriminate. assert (nth_error m' b = Some k) as E by (rewrite E2; auto).
    destruct t as [|B|l a]; [congruence| |].
    - destruct Ht as (b0 & k0 & X1 & X2 & X3). rewrite B1 in X1. injection X1 as <-. rewrite B2 in X2. injection X2 as <-. exists b, k. auto.
    - destruct Ht as (b0 & k0 & -> & X2 & X3 & X4 & X5 & X6). injection B1 as ->. rewrite B2 in X2. injection X2 as <-. exists b, k.
      split; auto. split; auto. split; auto. split; auto. split; auto. destruct X6 as (k1 & Y1 & Y2). exists k1. split; auto.
      cbn [p_obj access] in *. rewrite E. rewrite B2 in Y1. exact Y1. }
  assert (s <> ANone) as Ns by (destruct s; congruence).
  destruct (slot_block cf m s p Hs Ns) as (b1 & k1 & S1 & S2 & S3).
  destruct (Nat.eq_dec b1 b) as [->|Nb].
  - (* same block: both fixed *)
    destruct (owns s) eqn:Os. { exfalso. apply (apart_owns cf s p t q Ha Ns Nt); [auto|]. congruence. }
    destruct (owns t) eqn:Ot. { exfalso. apply (apart_owns cf s p t q Ha Ns Nt); [auto|]. congruence. }
    destruct s as [|B|]; try discriminate; try congruence. destruct t as [|B2'|]; try discriminate; try congruence.
    cbn [owns] in Os, Ot. destruct Ha as [Ha|(_ & _ & Ha)]; [congruence|].
    destruct (E3 B (conj eq_refl Os)) as (b2 & X1 & X2 & X3 & X4). rewrite S1 in X1. injection X1 as <-.
    destruct (X4 k B2) as (k' & K1 & K2 & K3 & K4 & K5 & K6).
    destruct Ht as (b0 & k0 & Y1 & Y2 & Y3). rewrite B1 in Y1. injection Y1 as <-. rewrite B2 in Y2. injection Y2 as <-.
    exists b, k'. split; auto. split; auto. eapply buf_in_frame; eauto. intros i Hi. apply K6. unfold buf_end in *. lia.
  - assert (nth_error m' b = Some k) as E. { rewrite E2; auto. right. congruence. }
    destruct t as [|B|l a]; [congruence| |].
    + destruct Ht as (b0 & k0 & X1 & X2 & X3). rewrite B1 in X1. injection X1 as <-. rewrite B2 in X2. injection X2 as <-. exists b, k. auto.
    + destruct Ht as (b0 & k0 & -> & X2 & X3 & X4 & X5 & X6). injection B1 as ->. rewrite B2 in X2. injection X2 as <-. exists b, k.
      split; auto. split; auto. split; auto. split; auto. split; auto. destruct X6 as (k2 & Y1 & Y2). exists k2. split; auto.
      cbn [p_obj access] in *. rewrite E. rewrite B2 in Y1. exact Y1.
Qed.

Lemma keep_text : forall cf m m' s p s' p' v l, evolves cf m m' s p s' p' -> slot_rel cf m s p ->
  has_view m v l -> (exists b, p_obj (v_data v) = PBlk b) -> text_apart cf s p v l -> has_view m' v l.
Proof.
  intros cf m m' s p s' p' v l (E1 & E2 & E3 & _) Hs HV (b & Eb) Ha. pose proof HV as ((k0 & A & A2 & A3 & A4) & HV2).
  rewrite Eb in A. cbn [access] in A. destruct (nth_error m b) as [k|] eqn:Ek; [|discriminate]. destruct (b_live k) eqn:Lk; [|discriminate]. injection A as <-.
  split; auto. destruct (match s with ANone => true | _ => false end) eqn:Es.
  { destruct s; try discriminate. exists k. rewrite Eb. cbn [access]. rewrite E2, Ek, Lk; auto. now apply nth_error_lt in Ek. }
  assert (s <> ANone) as Ns by (destruct s; congruence). destruct (slot_block cf m s p Hs Ns) as (b1 & k1 & S1 & S2 & S3).
  destruct (Nat.eq_dec b1 b) as [->|Nb].
  - destruct s as [|B|]; [congruence| |cbn [text_apart] in Ha; congruence]. destruct Ha as (_ & [Ha|(D & Ha)]); [congruence|].
    destruct (E3 B (conj eq_refl D)) as (b2 & X1 & X2 & X3 & X4). rewrite S1 in X1. injection X1 as <-.
    destruct (X4 k Ek) as (k' & K1 & K2 & K3 & K4 & K5 & K6). exists k'. rewrite Eb. cbn [access]. rewrite K1, K4, Lk. split; auto. split; auto. split; [lia|].
    intros i Hi. rewrite K6; auto. lia.
  - exists k. rewrite Eb. cbn [access]. rewrite E2, Ek, Lk; auto; [now apply nth_error_lt in Ek|]. right. congruence.
Qed.

(** Separation of the changed variable from another one. *)
Lemma apart_evolves : forall cf m m' s p s' p' t q, evolves cf m m' s p s' p' -> slot_rel cf m s p -> slot_rel cf m t q ->
  apart cf s p t q -> apart cf s' p' t q.
Proof.
  intros cf m m' s p s' p' t q (E1 & E2 & E3 & E4 & E5) Hs Ht Ha.
  destruct (match t with ANone => true | _ => false end) eqn:Et. { destruct t; try discriminate. apply apart_none_r. }
  assert (t <> ANone) as Nt by (destruct t; congruence). destruct (slot_block cf m t q Ht Nt) as (b & k & B1 & B2 & B3).
  assert (forall s1 p1, p_obj p1 <> p_obj q -> apart cf s1 p1 t q) as Hd. { intros [|X|X Y] p1 Hp; destruct t; cbn [apart]; auto. }
  destruct E4 as [->|[(X1 & X2)|[(B & B' & (-> & D1) & (-> & D2) & -> & HC)|(b' & X1 & X2)]]].
  - exact I.
  - apply Hd. rewrite X1. apply (apart_owns cf s p t q Ha); auto. destruct s; cbn in X2; congruence.
  - destruct t as [|Bt|]; cbn [apart] in *; auto. unfold buf_end in *. rewrite HC. destruct Ha as [Ha|(_ & Ha)]; auto.
  - apply Hd. rewrite X1, B1. intros X. injection X as ->. apply nth_error_lt in B2. lia.
Qed.

Lemma text_evolves : forall cf m m' s p s' p' v l, evolves cf m m' s p s' p' -> slot_rel cf m s p ->
  has_view m v l -> (exists b, p_obj (v_data v) = PBlk b) -> text_apart cf s p v l -> text_apart cf s' p' v l.
Proof.
  intros cf m m' s p s' p' v l (E1 & E2 & E3 & E4 & E5) Hs HV (b & Eb) Ha.
  assert (forall s1 p1, p_obj (v_data v) <> p_obj p1 -> text_apart cf s1 p1 v l) as Hd.
  { intros [|X|X Y] p1 Hp; cbn [text_apart]; auto. split; eauto. }
  destruct E4 as [->|[(X1 & X2)|[(B & B' & (-> & D1) & (-> & D2) & -> & HC)|(b' & X1 & X2)]]].
  - exact I.
  - apply Hd. rewrite X1. destruct s as [|B|]; cbn in X2; try discriminate; auto. destruct Ha as (_ & [Ha|(D & _)]); auto. congruence.
  - cbn [text_apart] in *. destruct Ha as (Ha1 & Ha2). split; auto. unfold buf_end in *. rewrite HC, D2. destruct Ha2 as [|(_ & Ha2)]; auto.
  - apply Hd. rewrite X1, Eb. intros X. injection X as ->. destruct (has_view_block _ _ _ _ HV Eb) as (k & K & _). apply nth_error_lt in K. lia.
Qed.

Lemma means_evolve : forall cf T a vars w j s' p' w', wf_cfg cf -> means cf T a vars w -> (j < length a)%nat ->
  evolves cf (s_mem w) (s_mem w') (slot_of a j) (var vars j) s' p' -> slot_rel cf (s_mem w') s' p' ->
  mem_wf (s_mem w') -> no_fail w' -> means cf T (upd a j s') (upd vars j p') w'.
Proof.
  intros cf T a vars w j s' p' w' W [M1 M2 M3 M4 M5 M6 M7] Hj He Hs Wm Nf.
  assert (forall i, i <> j -> slot_of (upd a j s') i = slot_of a i) as Ua by (intros; unfold slot_of; now apply nth_upd_neq).
  assert (slot_of (upd a j s') j = s') as Uj by (unfold slot_of; now apply nth_upd_eq).
  assert (forall i, i <> j -> var (upd vars j p') i = var vars i) as Va by (intros; unfold var; now apply nth_upd_neq).
  assert (var (upd vars j p') j = p') as Vj by (unfold var; apply nth_upd_eq; lia).
  constructor; rewrite ?upd_len; auto.
  - intros i Hi. destruct (Nat.eq_dec i j) as [->|N]; [now rewrite Uj, Vj|]. rewrite Ua, Va by auto. eapply keep; eauto.
  - intros i i' Hn Hi Hi'. destruct (Nat.eq_dec i j) as [->|N].
    + rewrite Uj, Vj, Ua, Va by auto. eapply apart_evolves; eauto.
    + destruct (Nat.eq_dec i' j) as [->|N'].
      * rewrite Uj, Vj, Ua, Va by auto. apply apart_sym. eapply apart_evolves; eauto.
      * rewrite !Ua, !Va by auto. auto.
  - intros b k al Hk Hl Ho. pose proof He as (E1 & E2 & E3 & E4 & E5).
    destruct (E5 b k al Hk Hl Ho) as [(X1 & X2)|[(X1 & X2)|((B & X1) & X2)]].
    + exists j. rewrite Uj, Vj. auto.
    + rewrite (E2 b X1 X2) in Hk. destruct (M4 b k al Hk Hl Ho) as (i & I1 & I2 & I3). destruct (Nat.eq_dec i j) as [->|N].
      * destruct X2 as [X2|X2]; [|congruence]. rewrite X2 in I2. discriminate.
      * exists i. rewrite Ua, Va by auto. auto.
    + destruct (E3 B X1) as (b2 & Y1 & Y2 & Y3 & Y4). rewrite X2 in Y1. injection Y1 as <-.
      pose proof (M2 j Hj) as Hsj. destruct X1 as [X1 D]. rewrite X1 in Hsj. destruct Hsj as (b0 & k0 & Z1 & Z2 & _). rewrite X2 in Z1. injection Z1 as <-.
      destruct (Y4 k0 Z2) as (k' & K1 & K2 & K3 & K4 & K5 & K6). rewrite Hk in K1. injection K1 as <-.
      destruct (M4 b k0 al Z2) as (i & I1 & I2 & I3); try congruence. exfalso. destruct (Nat.eq_dec i j) as [->|N].
      * rewrite X1 in I2. cbn [owns] in I2. congruence.
      * apply (apart_owns cf _ _ _ _ (M3 i j N I1 Hj)); [destruct (slot_of a i); cbn in I2; congruence|rewrite X1; congruence|auto|congruence].
  - intros v l HT. destruct (M5 v l HT) as (V1 & V2 & V3). split; [|split; auto].
    + eapply (keep_text cf (s_mem w)); eauto.
    + intros i Hi. destruct (Nat.eq_dec i j) as [->|N].
      * rewrite Uj, Vj. eapply (text_evolves cf (s_mem w)); eauto.
      * rewrite Ua, Va by auto. auto.
Qed.

(** One variable changes: the others keep their values, and every text that is not in the
    memory of that variable is preserved. *)
Definition advances (cf : cfg) (T : texts) (a : list slot) (vars : list ptr) (w : st) (j : nat) (a' : list slot) (vars' : list ptr) (w' : st) : Prop :=
  means cf T a' vars' w' /\ (forall i, i <> j -> var vars' i = var vars i) /\
  (forall v l, has_view (s_mem w) v l -> (exists b, p_obj (v_data v) = PBlk b) -> text_apart cf (slot_of a j) (var vars j) v l ->
     has_view (s_mem w') v l).

Lemma means_advance : forall cf T a vars w j s' p' w', wf_cfg cf -> means cf T a vars w -> (j < length a)%nat ->
  evolves cf (s_mem w) (s_mem w') (slot_of a j) (var vars j) s' p' -> slot_rel cf (s_mem w') s' p' ->
  mem_wf (s_mem w') -> no_fail w' -> advances cf T a vars w j (upd a j s') (upd vars j p') w'.
Proof.
  intros cf T a vars w j s' p' w' W M Hj He Hs Wm Nf. split; [eapply means_evolve; eauto|]. split.
  - intros i Hi. unfold var. now apply nth_upd_neq.
  - intros v l H1 H2 H3. eapply (keep_text cf (s_mem w)); eauto. exact (mn_slot _ _ _ _ _ M j Hj).
Qed.
Lemma advance_same : forall cf T a vars w j, means cf T a vars w -> advances cf T a vars w j a vars w.
Proof. intros cf T a vars w j M. split; auto. Qed.

(** ** The ways a variable can change *)
Lemma touches_evolves : forall cf m m' p p' B B', touches cf m m' p p' B -> bf_alloc B' = bf_alloc B ->
  (dyn B = false -> bf_cap B' = bf_cap B) -> evolves cf m m' (ABuf B) p (ABuf B') p'.
Proof.
  intros cf m m' p p' B B' (b & b' & A1 & A2 & A3 & La & La' & A4 & A5 & A6 & A7 & A8) HA HC.
  assert (dyn B' = dyn B) as HD by (unfold dyn; now rewrite HA).
  split; auto. split. { intros i Hi [X|X]; [discriminate|]. apply A5; auto. congruence. }
  split. { intros B0 (X & D). injection X as <-. exists b. auto. }
  split.
  - right. destruct A7 as [->|(D & L & _)].
    + destruct (dyn B) eqn:D; [left; cbn [owns]; split; congruence|]. right. left. exists B, B'. repeat split; auto.
      destruct p, p'; cbn in *; congruence.
    + right. right. eauto.
  - intros i k al Hi Hl Ho. destruct (Nat.eq_dec i b') as [->|N].
    + destruct (dyn B) eqn:D; [left; split; [cbn [owns]; congruence|auto]|]. destruct A7 as [->|(X & _)]; [|discriminate]. right. right.
      split; auto. exists B. split; auto.
    + destruct (Nat.lt_ge_cases i (length m)) as [Lt|Ge]; [|rewrite (A6 i k) in Hl by auto; discriminate].
      destruct (Nat.eq_dec i b) as [->|Nb].
      * destruct A7 as [->|(_ & _ & X)]; [congruence|]. rewrite (X k Hi) in Hl. discriminate.
      * right. left. split; auto. right. congruence.
Qed.

Lemma freed_evolves : forall cf m m' b s p, freed m m' b -> s <> ANone -> p_obj p = PBlk b -> owns s = true -> evolves cf m m' s p ANone null.
Proof.
  intros cf m m' b s p (F1 & F2 & F3) Ns Ep Os. split; [lia|]. split. { intros i Hi [X|X]; [congruence|]. apply F2. congruence. }
  split. { intros B (-> & D). cbn in Os. congruence. } split; auto.
  intros i k al Hi Hl Ho. destruct (Nat.eq_dec i b) as [->|N]; [rewrite (F3 k Hi) in Hl; discriminate|].
  right. left. rewrite F2 in Hi by auto. split; [eapply nth_error_lt; eauto|]. right. congruence.
Qed.

Lemma drop_evolves : forall cf m p B, buf_at cf m p B -> dyn B = false -> evolves cf m m (ABuf B) p ANone null.
Proof.
  intros cf m p B (b & k & E1 & E2 & HI) D. split; [lia|]. split; auto. split.
  { intros B0 (X & _). injection X as <-. exists b. split; auto. split; auto. split; auto. intros k0 Hk. exists k0. repeat split; auto. }
  split; auto. intros i k0 al Hi Hl Ho. right. destruct (Nat.eq_dec i b) as [->|N].
  - right. split; auto. exists B. split; auto.
  - left. split; [eapply nth_error_lt; eauto|]. right. congruence.
Qed.

Lemma created_evolves : forall cf w w' b B, (length (s_mem w) <= b)%nat -> buf_at cf (s_mem w') (Ptr (PBlk b) 0) B -> dyn B = true ->
  (forall i, (i < length (s_mem w))%nat -> nth_error (s_mem w') i = nth_error (s_mem w) i) ->
  (forall i k, (length (s_mem w) <= i)%nat -> i <> b -> nth_error (s_mem w') i = Some k -> b_live k = false) ->
  evolves cf (s_mem w) (s_mem w') ANone null (ABuf B) (Ptr (PBlk b) 0).
Proof.
  intros cf w w' b B Lb (b0 & k & E1 & E2 & _) D H1 H2. cbn in E1. injection E1 as <-. pose proof (nth_error_lt _ _ _ E2).
  split; [lia|]. split; auto. split. { intros B0 (X & _). discriminate. } split; [right; right; right; exists b; auto|].
  intros i k0 al Hi Hl Ho. destruct (Nat.eq_dec i b) as [->|N]; auto. right. left. split; auto.
  destruct (Nat.lt_ge_cases i (length (s_mem w))) as [Lt|Ge]; auto. rewrite (H2 i k0) in Hl by auto. discriminate.
Qed.

Lemma detached_evolves : forall cf w w' p str B, detached w w' p str (bf_alloc B) (bf_data B) -> buf_at cf (s_mem w) p B -> dyn B = true ->
  evolves cf (s_mem w) (s_mem w') (ABuf B) p (AStr (bf_data B) (bf_alloc B)) str /\
  slot_rel cf (s_mem w') (AStr (bf_data B) (bf_alloc B)) str /\ mem_wf (s_mem w') /\ no_fail w'.
Proof.
  intros cf w w' p str B (b & b' & k & E1 & -> & E3 & E4 & E5 & E6 & E7 & E8 & E9 & E10 & E11 & E12) HB D.
  split; [|split; [|auto]].
  - pose proof (nth_error_lt _ _ _ E3) as Lt. destruct HB as (b0 & k0 & X1 & X2 & _). rewrite E1 in X1. injection X1 as <-. pose proof (nth_error_lt _ _ _ X2) as Ltb.
    split. 
    { destruct (Nat.le_gt_cases (length (s_mem w)) (length (s_mem w'))) as [|G]; auto. exfalso.
      destruct (length (s_mem w)) as [|n] eqn:En; [lia|]. destruct (Nat.eq_dec n b) as [->|Nn].
      - destruct E10 as [->|(L & _)]; lia.
      - specialize (E8 n Nn ltac:(lia)). assert (nth_error (s_mem w') n = None) as Y by (apply nth_error_None; lia). rewrite Y in E8. symmetry in E8.
        apply nth_error_None in E8. lia. }
    split. { intros i Hi [X|X]; [discriminate|]. apply E8; auto. congruence. }
    split. { intros B0 (X & Y). injection X as <-. congruence. }
    split. { right. destruct E10 as [->|(L & _)]; [left; cbn; auto|]. right. right. exists b'. auto. }
    intros i k1 al Hi Hl Ho. destruct (Nat.eq_dec i b') as [->|N]; [left; auto|].
    destruct (Nat.lt_ge_cases i (length (s_mem w))) as [Lt'|Ge]; [|rewrite (E9 i k1) in Hl by auto; discriminate].
    right. left. split; auto. right. rewrite E1. intros X. injection X as ->. destruct E10 as [->|(_ & X)]; [congruence|]. rewrite (X k1 Hi) in Hl. discriminate.
  - exists b', k. auto 10.
Qed.

(** ** Arguments *)
Lemma cut_ok : forall cf m v l b e, has_view m v l -> INT_MIN <= b <= INT_MAX -> INT_MIN <= e <= INT_MAX ->
  match cut l b e with
  | Some (x, y, z) => l = x ++ y ++ z /\ strview_sub cf m v b e = Ok (subview v (Zlen x) (Zlen y))
  | None => strview_sub cf m v b e = Ok INVALID
  end.
Proof.
  intros cf m v l b e HV Hb He. unfold cut. destruct (Zlen l =? 0) eqn:E0.
  - apply Z.eqb_eq in E0. assert (l = []) as -> by (destruct l; auto; rewrite Zlen_cons in E0; pose proof (Zlen_nonneg l); lia).
    split; auto. rewrite (sub_empty cf m v b e HV). f_equal. symmetry. apply subview_0. destruct HV as (_ & Hn & _). now rewrite Hn.
  - apply Z.eqb_neq in E0. assert (l <> []) as Nl by (intros ->; apply E0; reflexivity).
    set (b1 := py_index (Zlen l) b). set (e1 := py_index (Zlen l) e).
    destruct ((b1 <=? e1) && (b1 <? Zlen l) && (0 <=? e1)) eqn:E.
    + apply andb_true_iff in E as [E E3]. apply andb_true_iff in E as [E1 E2]. apply Z.leb_le in E1, E3. apply Z.ltb_lt in E2.
      destruct (sub_ok cf m v l b e HV Nl Hb He) as (x & y & z & X1 & X2 & X3 & X4 & _); [repeat split; auto|].
      fold b1 in X2. fold e1 in X3. set (l0 := l) in X3. rewrite X1. subst l0.
      assert (firstn (Z.to_nat (Z.max 0 b1)) (x ++ y ++ z) = x) as F1.
      { rewrite <- X2, Zlen_to_nat, firstn_app, Nat.sub_diag, firstn_all. cbn. apply app_nil_r. }
      assert (firstn (Z.to_nat (Z.min (Zlen l) e1) - Z.to_nat (Z.max 0 b1)) (skipn (Z.to_nat (Z.max 0 b1)) (x ++ y ++ z)) = y) as F2.
      { rewrite <- X2, <- X3, !Zlen_to_nat. rewrite skipn_app, skipn_all, Nat.sub_diag. cbn [app skipn].
        replace (Z.to_nat (Zlen x + Zlen y) - length x)%nat with (length y) by (unfold Zlen; lia).
        rewrite firstn_app, Nat.sub_diag, firstn_all. cbn. apply app_nil_r. }
      assert (skipn (Z.to_nat (Z.min (Zlen l) e1)) (x ++ y ++ z) = z) as F3.
      { rewrite <- X3. replace (Z.to_nat (Zlen x + Zlen y)) with (length (x ++ y)) by (rewrite app_length; unfold Zlen; lia).
        rewrite app_assoc, skipn_app, skipn_all, Nat.sub_diag. reflexivity. }
      rewrite <- X1 in F1, F2, F3 |- *. rewrite F1, F2, F3. split; auto.
    + apply (sub_out cf m v l b e HV Nl Hb He). intros (P1 & P2 & P3). fold b1 e1 in P1, P2, P3.
      rewrite (proj2 (Z.leb_le _ _) P1), (proj2 (Z.ltb_lt _ _) P2), (proj2 (Z.leb_le _ _) P3) in E. discriminate.
Qed.

Lemma part_view : forall cf m p B x y z, wf_cfg cf -> buf_at cf m p B -> bf_data B = x ++ y ++ z ->
  has_view m (View (shift (chars_of cf p) (Zlen x)) (Zlen y)) y.
Proof.
  intros cf m p B x y z W HB E. destruct (buf_at_view cf m p B W HB) as (H1 & H2 & H3 & H4). cbn [buf_view v_data] in H1. rewrite E in *.
  apply bytes_at_sub in H1. split; auto. split; auto. rewrite !Zlen_app in H3. pose proof (Zlen_nonneg x). pose proof (Zlen_nonneg z). split; [lia|].
  apply Forall_app in H4 as [_ H4]. apply Forall_app in H4 as [H4 _]. auto.
Qed.

Lemma outside_within : forall cf m p B v l, wf_cfg cf -> buf_at cf m p B -> outside cf p B v l -> within cf p v B = false.
Proof.
  intros cf m p B v l W HB ((b & Eb) & HO). pose proof (hdr_size_pos cf W) as Hp. pose proof (Zlen_nonneg l) as Zl. destruct (buf_at_cap _ _ _ _ HB) as [C _]. unfold within.
  destruct HB as (b1 & k1 & E1 & _). rewrite Eb, E1. cbn [pobj_eqb]. destruct (b =? b1)%nat eqn:E; auto. apply Nat.eqb_eq in E. subst b1.
  destruct HO as [HO|(D & [HO|HO])]; [congruence| |]; cbn [andb].
  - rewrite (proj2 (Z.leb_gt _ _)) by lia. reflexivity.
  - unfold buf_end in HO. rewrite (proj2 (Z.ltb_ge _ _)) by lia. apply andb_false_r.
Qed.

(** What an argument is, seen from the buffer in variable [j]. *)
Definition arg_cases (cf : cfg) (m : mem) (a : list slot) (j : nat) (p : ptr) (B : buffer) (s : src) (v : view) : Prop :=
  (v = INVALID /\ text_of a s = [] /\ starts_in a j s = false /\ place_of a j s = None) \/
  (has_view m v (text_of a s) /\ outside cf p B v (text_of a s) /\ starts_in a j s = false /\ place_of a j s = None) \/
  (match s with SPart k _ _ | SAt k _ _ => k = j | _ => False end /\ exists x y z, bf_data B = x ++ y ++ z /\ text_of a s = y /\ v = View (shift (chars_of cf p) (Zlen x)) (Zlen y) /\
     starts_in a j s = (Zlen x <? Zlen (bf_data B)) /\ place_of a j s = Some (Zlen x, Zlen x + Zlen y)).

Lemma slot_in : forall a i s, slot_of a i = s -> s <> ANone -> (i < length a)%nat.
Proof.
  intros a i s H N. destruct (Nat.lt_ge_cases i (length a)); auto. exfalso. apply N. rewrite <- H. unfold slot_of. now apply nth_overflow.
Qed.

Lemma view_of_var : forall cf m w p B, wf_cfg cf -> m = s_mem w -> buf_at cf m p B -> strbuf_view cf w (Some p) = Ok (buf_view cf p B).
Proof. intros cf m w p B W -> HB. unfold strbuf_view. rewrite (on_buf_ok cf (s_mem w) p B) by auto. now apply view_ok. Qed.

Lemma at_cut : forall (l : list Z) i n, 0 <= i -> 0 <= n -> i + n <= Zlen l ->
  exists x y z, l = x ++ y ++ z /\ Zlen x = i /\ Zlen y = n /\ firstn (Z.to_nat (Zlen y)) (skipn (Z.to_nat (Zlen x)) l) = y.
Proof.
  intros l i n Hi Hn Hl. exists (firstn (Z.to_nat i) l), (firstn (Z.to_nat n) (skipn (Z.to_nat i) l)), (skipn (Z.to_nat n) (skipn (Z.to_nat i) l)).
  assert (Zlen (firstn (Z.to_nat i) l) = i) as Ex by (unfold Zlen in *; rewrite firstn_length; lia).
  assert (Zlen (firstn (Z.to_nat n) (skipn (Z.to_nat i) l)) = n) as Ey by (unfold Zlen in *; rewrite firstn_length, skipn_length; lia).
  rewrite Ex, Ey, !firstn_skipn. auto.
Qed.
Lemma view_at_ok : forall cf w p B x y z, wf_cfg cf -> buf_at cf (s_mem w) p B -> bf_data B = x ++ y ++ z ->
  (let! v := strbuf_view cf w (Some p) in let! d := padd cf (s_mem w) (v_data v) (Zlen x) in Ok (View d (Zlen y))) =
  Ok (View (shift (chars_of cf p) (Zlen x)) (Zlen y)).
Proof.
  intros cf w p B x y z W HB E. rewrite (view_of_var cf (s_mem w) w p B W eq_refl HB). cbn [bind buf_view v_data].
  destruct (buf_at_view cf _ _ _ W HB) as (HV & _). cbn [buf_view v_data] in HV. rewrite E in HV.
  rewrite (padd_ok cf _ _ _ _ HV); [reflexivity|]. rewrite !Zlen_app. pose proof (Zlen_nonneg x). pose proof (Zlen_nonneg y). pose proof (Zlen_nonneg z). lia.
Qed.

Lemma arg_ok : forall cf T a vars w j B s, wf_cfg cf -> means cf T a vars w -> slot_of a j = ABuf B -> src_legal T a s ->
  exists v, the_view cf vars w s = Ok v /\ arg_cases cf (s_mem w) a j (var vars j) B s v.
Proof.
  intros cf T a vars w j B s W M Hj Hl. pose proof (slot_in a j _ Hj ltac:(congruence)) as Lj.
  pose proof (mn_slot _ _ _ _ _ M j Lj) as HB. rewrite Hj in HB. cbn [slot_rel] in HB.
  destruct s as [|v l|k b e|k i n]; cbn [the_view src_legal] in *.
  - eexists. split; [reflexivity|]. left. auto.
  - exists v. split; auto. right. left. destruct (mn_text _ _ _ _ _ M v l Hl) as (V1 & V2 & V3). cbn [text_of]. split; auto. split; auto.
    specialize (V3 j Lj). rewrite Hj in V3. exact V3.
  - destruct Hl as ((Bk & Hk) & Hb & He). pose proof (slot_in a k _ Hk ltac:(congruence)) as Lk.
    pose proof (mn_slot _ _ _ _ _ M k Lk) as HBk. rewrite Hk in HBk. cbn [slot_rel] in HBk.
    rewrite (view_of_var cf (s_mem w) w (var vars k) Bk W eq_refl HBk). cbn [bind].
    pose proof (cut_ok cf (s_mem w) _ _ b e (buf_at_view cf (s_mem w) _ _ W HBk) Hb He) as Hc.
    unfold arg_cases, text_of, starts_in, place_of. rewrite Hk. cbn [data_of]. destruct (cut (bf_data Bk) b e) as [[[x y] z]|].
    + destruct Hc as (Ed & ->). eexists. split; [reflexivity|]. unfold subview. cbn [buf_view v_data].
      destruct (Nat.eq_dec k j) as [->|N].
      * rewrite Hj in Hk. injection Hk as <-. rewrite Nat.eqb_refl. right. right. split; [reflexivity|]. exists x, y, z. auto.
      * rewrite (proj2 (Nat.eqb_neq k j) N). right. left. split; [eapply part_view; eauto|]. split; [|auto].
        destruct HBk as (bk & kk & K1 & K2 & HI). split. { exists bk. cbn [v_data]. exact K1. }
        pose proof (mn_apart _ _ _ _ _ M k j N Lk Lj) as Ha. rewrite Hk, Hj in Ha. cbn [apart v_data] in *.
        destruct Ha as [Ha|(D1 & D2 & Ha)]; [left; exact Ha|]. right. split; auto.
        unfold chars_of. rewrite !shift_ofs. pose proof (hdr_size_pos cf W). pose proof (Zlen_nonneg x). pose proof (Zlen_nonneg y). pose proof (Zlen_nonneg z).
        pose proof HI as (_ & _ & _ & _ & _ & _ & _ & _ & C & _). rewrite Ed, !Zlen_app in C. unfold buf_end in *. lia.
    + eexists. split; [exact Hc|]. left. rewrite andb_false_r. destruct (k =? j)%nat; auto.
  - destruct Hl as ((Bk & Hk & Hin) & Hi & Hn). pose proof (slot_in a k _ Hk ltac:(congruence)) as Lk.
    pose proof (mn_slot _ _ _ _ _ M k Lk) as HBk. rewrite Hk in HBk. cbn [slot_rel] in HBk.
    destruct (at_cut (bf_data Bk) i n Hi Hn Hin) as (x & y & z & Ed & <- & <- & Ey).
    rewrite (view_at_ok cf w (var vars k) Bk x y z W HBk Ed).
    unfold arg_cases, text_of, starts_in, place_of. rewrite Hk. cbn [data_of]. rewrite Ey. eexists. split; [reflexivity|].
    destruct (Nat.eq_dec k j) as [->|N].
    + rewrite Hj in Hk. injection Hk as <-. rewrite Nat.eqb_refl. right. right. split; [reflexivity|]. exists x, y, z. auto.
    + rewrite (proj2 (Nat.eqb_neq k j) N). right. left. split; [eapply part_view; eauto|]. split; [|auto].
      destruct HBk as (bk & kk & K1 & K2 & HI). split. { exists bk. cbn [v_data]. exact K1. }
      pose proof (mn_apart _ _ _ _ _ M k j N Lk Lj) as Ha. rewrite Hk, Hj in Ha. cbn [apart v_data] in *.
      destruct Ha as [Ha|(D1 & D2 & Ha)]; [left; exact Ha|]. right. split; auto.
      unfold chars_of. rewrite !shift_ofs. pose proof (hdr_size_pos cf W). pose proof (Zlen_nonneg x). pose proof (Zlen_nonneg y). pose proof (Zlen_nonneg z).
      pose proof HI as (_ & _ & _ & _ & _ & _ & _ & _ & C & _). rewrite Ed, !Zlen_app in C. unfold buf_end in *. lia.
Qed.

Lemma arg_source : forall cf m a j p B s v, wf_cfg cf -> buf_at cf m p B -> arg_cases cf m a j p B s v -> source cf m p B v (text_of a s).
Proof.
  intros cf m a j p B s v W HB [(-> & -> & _)|[(V1 & V2 & _)|(_ & x & y & z & E1 & E2 & -> & _)]].
  - constructor.
  - now constructor.
  - rewrite E2. now apply (src_inside cf m p B x y z).
Qed.

Lemma arg_within : forall cf m a j p B s v, wf_cfg cf -> buf_at cf m p B -> arg_cases cf m a j p B s v -> within cf p v B = starts_in a j s.
Proof.
  intros cf m a j p B s v W HB [(-> & _ & -> & _)|[(V1 & V2 & -> & _)|(_ & x & y & z & E1 & E2 & -> & -> & _)]].
  - unfold within. destruct HB as (b & k & -> & _). reflexivity.
  - eapply outside_within; eauto.
  - unfold within, chars_of. cbn [v_data]. rewrite !shift_ofs, !shift_obj. destruct HB as (b & k & -> & _). cbn [pobj_eqb]. rewrite Nat.eqb_refl. cbn [andb].
    pose proof (Zlen_nonneg x). rewrite (proj2 (Z.leb_le _ _)) by lia. cbn [andb].
    destruct (Zlen x <? Zlen (bf_data B)) eqn:E; [apply Z.ltb_lt in E; apply Z.ltb_lt; lia|apply Z.ltb_ge in E; apply Z.ltb_ge; lia].
Qed.

Lemma args_ok : forall cf T a vars w j B ss, wf_cfg cf -> means cf T a vars w -> slot_of a j = ABuf B -> Forall (src_legal T a) ss ->
  exists vs, the_views cf vars w ss = Ok vs /\ Forall2 (source cf (s_mem w) (var vars j) B) vs (map (text_of a) ss) /\
    existsb (fun v => within cf (var vars j) v B) vs = existsb (starts_in a j) ss.
Proof.
  intros cf T a vars w j B ss W M Hj. pose proof (slot_in a j _ Hj ltac:(congruence)) as Lj.
  pose proof (mn_slot _ _ _ _ _ M j Lj) as HB. rewrite Hj in HB. cbn [slot_rel] in HB.
  induction ss as [|s ss IH]; intros Hl; cbn [the_views map existsb].
  - exists []. auto.
  - inversion Hl as [|? ? H1 H2]; subst. destruct (IH H2) as (vs & -> & F & E). destruct (arg_ok cf T a vars w j B s W M Hj H1) as (v & -> & Hc). cbn [bind].
    exists (v :: vs). split; auto. split; [constructor; auto; eapply arg_source; eauto|]. cbn [existsb]. rewrite E. f_equal. eapply arg_within; eauto.
Qed.

(** A text argument on its own. *)
Lemma arg_alone : forall cf T a vars w s, wf_cfg cf -> means cf T a vars w -> src_legal T a s ->
  exists v, the_view cf vars w s = Ok v /\
    (v = INVALID /\ text_of a s = [] \/ has_view (s_mem w) v (text_of a s) /\ exists b, p_obj (v_data v) = PBlk b).
Proof.
  intros cf T a vars w s W M Hl. destruct s as [|v l|k b e|k i n]; cbn [the_view src_legal] in *.
  - eexists. split; [reflexivity|]. auto.
  - exists v. split; auto. right. destruct (mn_text _ _ _ _ _ M v l Hl) as (V1 & V2 & V3). cbn [text_of]. auto.
  - destruct Hl as ((Bk & Hk) & Hb & He). pose proof (slot_in a k _ Hk ltac:(congruence)) as Lk.
    pose proof (mn_slot _ _ _ _ _ M k Lk) as HBk. rewrite Hk in HBk. cbn [slot_rel] in HBk.
    rewrite (view_of_var cf (s_mem w) w (var vars k) Bk W eq_refl HBk). cbn [bind].
    pose proof (cut_ok cf (s_mem w) _ _ b e (buf_at_view cf (s_mem w) _ _ W HBk) Hb He) as Hc.
    unfold text_of. rewrite Hk. cbn [data_of]. destruct (cut (bf_data Bk) b e) as [[[x y] z]|].
    + destruct Hc as (Ed & ->). eexists. split; [reflexivity|]. right. unfold subview. cbn [buf_view v_data].
      split; [eapply part_view; eauto|]. destruct HBk as (bk & kk & K1 & _). exists bk. exact K1.
    + eexists. split; [exact Hc|]. auto.
  - destruct Hl as ((Bk & Hk & Hin) & Hi & Hn). pose proof (slot_in a k _ Hk ltac:(congruence)) as Lk.
    pose proof (mn_slot _ _ _ _ _ M k Lk) as HBk. rewrite Hk in HBk. cbn [slot_rel] in HBk.
    destruct (at_cut (bf_data Bk) i n Hi Hn Hin) as (x & y & z & Ed & <- & <- & Ey).
    rewrite (view_at_ok cf w (var vars k) Bk x y z W HBk Ed). unfold text_of. rewrite Hk. cbn [data_of]. rewrite Ey.
    eexists. split; [reflexivity|]. right. split; [eapply part_view; eauto|]. destruct HBk as (bk & kk & K1 & _). exists bk. exact K1.
Qed.

(** ** Single steps *)
Lemma read_ok : forall m v l, has_view m v l -> read_view m v = Ok (Some l).
Proof.
  intros m v l H. unfold read_view. rewrite (has_view_valid _ _ _ H). destruct H as (H1 & H2 & _). rewrite H2, Zlen_to_nat.
  rewrite (load_bytes_ok m l _ H1). reflexivity.
Qed.

Lemma call_ok : forall cf T a vars w j B r B', wf_cfg cf -> means cf T a vars w -> slot_of a j = ABuf B ->
  becomes cf w (var vars j) B r B' -> bf_alloc B' = bf_alloc B -> (dyn B = false -> bf_cap B' = bf_cap B) ->
  exists v vars' w', call vars j r = Ok (v, vars', w') /\ read_view (s_mem w') v = Ok (Some (bf_data B')) /\
    v = buf_view cf (var vars' j) B' /\ advances cf T a vars w j (upd a j (ABuf B')) vars' w'.
Proof.
  intros cf T a vars w j B r B' W M Hj (p' & w' & -> & H1 & H2 & H3 & H4) HA HC. pose proof (slot_in a j _ Hj ltac:(congruence)) as Lj.
  exists (buf_view cf p' B'), (upd vars j p'), w'. split; [reflexivity|]. split; [apply read_ok; now apply buf_at_view|].
  split; [unfold var; rewrite nth_upd_eq; [reflexivity|rewrite (mn_len _ _ _ _ _ M); exact Lj]|].
  apply (means_advance cf T a vars w); auto. rewrite Hj. now apply touches_evolves.
Qed.

Lemma becomes_at_weak : forall cf w p B r B', becomes_at cf w p B r B' -> becomes cf w p B r B'.
Proof. intros cf w p B r B' (w' & H). exists p, w'. exact H. Qed.

(** A call that changes nothing. *)
Lemma still : forall cf w p B B', wf_cfg cf -> mem_wf (s_mem w) -> no_fail w -> buf_at cf (s_mem w) p B -> B' = B ->
  becomes cf w p B (Ok (buf_view cf p B, Some p, w)) B'.
Proof. intros cf w p B B' W Wm Nf HB ->. exists p, w. split; auto. split; auto. split; auto. now apply touches_refl. Qed.

Lemma put_keeps : forall cf B c, bf_alloc (put cf B c) = bf_alloc B /\ (dyn B = false -> bf_cap (put cf B c) = bf_cap B).
Proof. intros. split; [apply put_alloc|apply put_fixed_cap]. Qed.
Lemma put_all_keeps : forall cf B c, bf_alloc (put_all cf B c) = bf_alloc B /\ (dyn B = false -> bf_cap (put_all cf B c) = bf_cap B).
Proof. intros. unfold put_all. destruct (fits B c); [apply put_keeps|]. cbn [bf_alloc bf_cap]. split; auto. now intros ->. Qed.

Lemma step_keeps : forall cf a B o, bf_alloc (buf_step cf a B o) = bf_alloc B /\ (dyn B = false -> bf_cap (buf_step cf a B o) = bf_cap B).
Proof.
  intros cf a B o. destruct o; cbn [buf_step]; try apply put_keeps; try apply put_all_keeps; auto.
  - destruct (place_of a j d) as [[x y]|]; auto using put_keeps.
  - destruct (place_of a j d) as [[x y]|]; auto using put_keeps.
  - destruct (negb (dyn B) && existsb (starts_in a j) ss); auto using put_keeps.
  - destruct (dyn B) eqn:D; cbn [bf_alloc bf_cap]; split; auto; congruence.
  - destruct (dyn B) eqn:D; cbn [bf_alloc bf_cap]; split; auto; congruence.
  - destruct (_ <=? _); auto.
Qed.

Lemma without_nil : forall l, without [] l = l.
Proof. unfold without. induction l; cbn in *; auto. now rewrite IHl. Qed.

Lemma splice_cut : forall x l y, splice (x ++ y) (Zlen x) l = x ++ l ++ y.
Proof.
  intros x l y. unfold splice. rewrite Zlen_to_nat. rewrite firstn_app, skipn_app, Nat.sub_diag, firstn_all, skipn_all. cbn [firstn skipn app]. now rewrite app_nil_r.
Qed.

Lemma deliver_ok : forall cf m p B l, wf_cfg cf -> buf_at cf m p B -> Zlen (bf_data B) + Zlen l <= bf_cap B ->
  fetches (deliver l) m (shift (chars_of cf p) (Zlen (bf_data B))) (bf_cap B - Zlen (bf_data B)) (Zlen l) l.
Proof.
  intros cf m p B l W (b & k & E1 & E2 & HI) Hl. pose proof HI as (L & O & Al & F & H & D & T & By & C & Dy). pose proof (hdr_size_pos cf W).
  pose proof (Zlen_nonneg (bf_data B)). pose proof (Zlen_nonneg l).
  destruct p as [po o]. cbn [p_obj p_ofs] in *. subst po. unfold chars_of, shift. cbn [p_obj p_ofs].
  destruct (store_cells_sets m b k (o + hdr_size cf + Zlen (bf_data B)) (Zlen l) (fun i => CByte (nth (Z.to_nat i) l 0)) E2 L ltac:(lia) ltac:(lia)) as (k' & X & S & G).
  pose proof S as (S1 & S2 & S3 & S4). exists b, (upd m b k'). split; auto. split. { unfold deliver. rewrite (proj2 (Z.leb_le _ _)) by lia. rewrite X. reflexivity. }
  cbn [p_ofs]. split.
  - split; [apply upd_len|]. split; [intros; now apply nth_error_upd_neq|]. intros k0 Hk. rewrite E2 in Hk. injection Hk as <-. exists k'.
    split; [eapply nth_upd; eauto|]. repeat split; auto. intros i Hi. rewrite G. rewrite inr_out by lia. reflexivity.
  - apply (chars_bytes _ _ k'); [eapply nth_upd; eauto|congruence|lia|lia|]. intros i Hi. rewrite G, inr_in by lia. unfold zn. f_equal. f_equal. lia.
Qed.
Lemma deliver_bad : forall cf m p B l, wf_cfg cf -> buf_at cf m p B -> bf_cap B < Zlen (bf_data B) + Zlen l ->
  fetches (deliver l) m (shift (chars_of cf p) (Zlen (bf_data B))) (bf_cap B - Zlen (bf_data B)) (-1) [].
Proof.
  intros cf m p B l W (b & k & E1 & E2 & HI) Hl. pose proof HI as (L & O & Al & F & H & D & T & By & C & Dy). pose proof (hdr_size_pos cf W).
  pose proof (Zlen_nonneg (bf_data B)). exists b, m. unfold chars_of, shift. cbn [p_obj p_ofs]. split; auto.
  split. { unfold deliver. rewrite (proj2 (Z.leb_gt _ _)) by lia. reflexivity. }
  split; [split; auto; split; auto; intros k0 Hk; exists k0; repeat split; auto|].
  exists k. cbn [p_obj p_ofs]. rewrite E1. split; [now apply access_ok|]. change (@Zlen Z []) with 0. split; [lia|]. split; [lia|]. intros i Hi. lia.
Qed.

(** Calls on an existing buffer that return its view. *)
Lemma buf_call_ok : forall cf T a vars w o B, wf_cfg cf -> c_ptr cf = true -> means cf T a vars w ->
  slot_of a (target o) = ABuf B -> buf_legal cf T a B o -> refused B o = false ->
  match o with OCreate _ _ _ | OInit _ _ _ | ODestroy _ | OToCstr _ | OFree _ _ | OView _ => False | _ => True end ->
  exists r, exec cf vars w o = call vars (target o) r /\ becomes cf w (var vars (target o)) B r (buf_step cf a B o).
Proof.
  intros cf T a vars w o B W Hc M Hj Hl Hr Hk. pose proof (slot_in a _ _ Hj ltac:(congruence)) as Lj.
  pose proof (mn_slot _ _ _ _ _ M _ Lj) as HB. rewrite Hj in HB. cbn [slot_rel] in HB.
  pose proof (mn_wf _ _ _ _ _ M) as Wm. pose proof (mn_fail _ _ _ _ _ M) as Nf.
  destruct o; cbn [exec target buf_legal buf_step refused] in *; try contradiction.
  - (* append *) destruct Hl as (L1 & L2). destruct (arg_ok cf T a vars w j B s W M Hj L1) as (v & -> & Ca). cbn [bind]. eexists. split; [reflexivity|].
    apply append_ok; auto; [now left|]. eapply arg_source; eauto.
  - destruct Hl as (L1 & L2). destruct (arg_ok cf T a vars w j B s W M Hj L1) as (v & -> & Ca). cbn [bind]. eexists. split; [reflexivity|].
    apply prepend_ok; auto; [now left|]. eapply arg_source; eauto.
  - destruct Hl as (L1 & L2 & L3). destruct (arg_ok cf T a vars w j B s W M Hj L1) as (v & -> & Ca). cbn [bind]. eexists. split; [reflexivity|].
    apply insert_at_index_ok; auto; [now left|]. eapply arg_source; eauto.
  - (* before *) destruct Hl as (L0 & L1 & L2). destruct (arg_ok cf T a vars w j B s W M Hj L1) as (v & -> & Ca).
    destruct (arg_ok cf T a vars w j B d W M Hj L0) as (dv & -> & Cd). cbn [bind]. eexists. split; [reflexivity|].
    pose proof (arg_source _ _ _ _ _ _ _ _ W HB Ca) as Hs.
    destruct Cd as [(-> & _ & _ & ->)|[(V1 & V2 & _ & ->)|(_ & x & y & z & E1 & E2 & -> & _ & ->)]].
    + destruct (insert_before_out cf w (var vars j) B INVALID [] v W Hc Wm Nf HB ltac:(auto)) as [-> _]. now apply still.
    + destruct (insert_before_out cf w (var vars j) B dv _ v W Hc Wm Nf HB ltac:(eauto)) as [-> _]. now apply still.
    + rewrite E1, splice_cut. apply (insert_before_in cf w (var vars j) B x y z v (text_of a s)); auto. now left.
  - (* after *) destruct Hl as (L0 & L1 & L2). destruct (arg_ok cf T a vars w j B s W M Hj L1) as (v & -> & Ca).
    destruct (arg_ok cf T a vars w j B d W M Hj L0) as (dv & -> & Cd). cbn [bind]. eexists. split; [reflexivity|].
    pose proof (arg_source _ _ _ _ _ _ _ _ W HB Ca) as Hs.
    destruct Cd as [(-> & _ & _ & ->)|[(V1 & V2 & _ & ->)|(_ & x & y & z & E1 & E2 & -> & _ & ->)]].
    + destruct (insert_before_out cf w (var vars j) B INVALID [] v W Hc Wm Nf HB ltac:(auto)) as [_ ->]. now apply still.
    + destruct (insert_before_out cf w (var vars j) B dv _ v W Hc Wm Nf HB ltac:(eauto)) as [_ ->]. now apply still.
    + rewrite E1, <- Zlen_app, app_assoc, splice_cut, <- app_assoc. apply (insert_after_in cf w (var vars j) B x y z v (text_of a s)); auto. now left.
  - destruct Hl as (L1 & L2). destruct (arg_ok cf T a vars w j B s W M Hj L1) as (v & -> & Ca). cbn [bind]. eexists. split; [reflexivity|].
    apply assign_ok; auto. eapply arg_source; eauto.
  - (* cat *) destruct Hl as (L1 & L2). destruct (args_ok cf T a vars w j B ss W M Hj L1) as (vs & -> & F & E). cbn [bind]. eexists. split; [reflexivity|].
    rewrite <- E. now apply cat_ok.
  - destruct Hl as (L1 & L2). eexists. split; [reflexivity|]. now apply append_char_ok.
  - (* strip *) destruct Hl as (L1 & L2). destruct (arg_ok cf T a vars w j B s W M Hj L1) as (v & -> & Ca). cbn [bind]. eexists. split; [reflexivity|].
    destruct Ca as [(-> & -> & _)|[(V1 & V2 & _)|(Hs & _)]]; [| |destruct s; contradiction].
    + rewrite (strip_invalid cf w (var vars j) B INVALID W HB eq_refl). rewrite without_nil. apply still; auto. now destruct B.
    + apply becomes_at_weak. now apply strip_ok.
  - eexists. split; [reflexivity|]. now apply shrink_ok.
  - destruct (dyn B) eqn:D; [|discriminate]. eexists. split; [reflexivity|]. now apply grow_dyn_ok.
  - destruct Hl as (L1 & L2 & L3). eexists. split; [reflexivity|]. now apply printf_ok.
  - destruct Hl as (L1 & L2 & L3). eexists. split; [reflexivity|]. now apply append_printf_yields.
  - destruct Hl as (L1 & L2 & L3). eexists. split; [reflexivity|]. now apply prnf_ok.
  - destruct Hl as (L1 & L2 & L3). eexists. split; [reflexivity|]. now apply append_prnf_ok.
  - apply negb_false_iff in Hr. rewrite Hr. apply Z.leb_le in Hr. eexists. split; [reflexivity|]. apply becomes_at_weak.
    apply append_using_ok; auto. now apply deliver_ok.
Qed.

Lemma astep_buf : forall cf a o B, slot_of a (target o) = ABuf B ->
  match o with OCreate _ _ _ | OInit _ _ _ | ODestroy _ | OToCstr _ | OFree _ _ => False | _ => True end ->
  astep cf a o = (if refused B o then None else Some (bf_data (buf_step cf a B o)), upd a (target o) (ABuf (buf_step cf a B o))).
Proof. intros cf a o B H Hk. destruct o; try contradiction; cbn [astep target] in *; now rewrite H. Qed.

Lemma null_unowned : forall cf m s p, slot_rel cf m s p -> s <> ANone -> is_null p = false.
Proof. intros cf m s p H N. destruct (slot_block cf m s p H N) as (b & k & E & _). unfold is_null. now rewrite E. Qed.

(** The returned view: invalid, or the whole buffer. *)
Definition returns (cf : cfg) (v : view) (vars' : list ptr) (j : nat) (a' : list slot) : Prop :=
  v = INVALID \/ exists B', slot_of a' j = ABuf B' /\ v = buf_view cf (var vars' j) B'.
Lemma slot_upd : forall a j s, (j < length a)%nat -> slot_of (upd a j s) j = s.
Proof. intros a j s H. now apply nth_upd_eq. Qed.

Theorem step_full : forall cf T a vars w o, wf_cfg cf -> c_ptr cf = true -> means cf T a vars w -> legal cf T a o ->
  exists v vars' w', exec cf vars w o = Ok (v, vars', w') /\ read_view (s_mem w') v = Ok (fst (astep cf a o)) /\
    returns cf v vars' (target o) (snd (astep cf a o)) /\
    advances cf T a vars w (target o) (snd (astep cf a o)) vars' w'.
Proof.
  intros cf T a vars w o W Hc M Hl. pose proof (mn_wf _ _ _ _ _ M) as Wm. pose proof (mn_fail _ _ _ _ _ M) as Nf.
  assert (forall B, slot_of a (target o) = ABuf B -> buf_legal cf T a B o -> refused B o = false ->
    match o with OCreate _ _ _ | OInit _ _ _ | ODestroy _ | OToCstr _ | OFree _ _ | OView _ => False | _ => True end ->
    exists v vars' w', exec cf vars w o = Ok (v, vars', w') /\ read_view (s_mem w') v = Ok (fst (astep cf a o)) /\
    returns cf v vars' (target o) (snd (astep cf a o)) /\
      advances cf T a vars w (target o) (snd (astep cf a o)) vars' w') as Hgen.
  { intros B Hj HB Hr Hk. destruct (buf_call_ok cf T a vars w o B W Hc M Hj HB Hr Hk) as (r & -> & Hb).
    destruct (step_keeps cf a B o) as [K1 K2]. destruct (call_ok cf T a vars w (target o) B r _ W M Hj Hb K1 K2) as (v & vars' & w' & -> & R & V & M').
    rewrite (astep_buf cf a o B Hj) by (destruct o; tauto). rewrite Hr. cbn [fst snd]. exists v, vars', w'. split; auto. split; auto. split; auto. right. eexists. split; [apply slot_upd; eapply slot_in; [exact Hj|discriminate]|exact V]. }
  destruct o; cbn [legal] in Hl; try (destruct Hl as (B & Hj & HB); apply (Hgen B Hj HB eq_refl I)).
  - (* grow *) destruct Hl as (B & Hj & HB). destruct (dyn B) eqn:D; [apply (Hgen B Hj HB); auto; cbn [refused]; now rewrite D|].
    pose proof (slot_in a _ _ Hj ltac:(congruence)) as Lj. pose proof (mn_slot _ _ _ _ _ M _ Lj) as HB2. rewrite Hj in HB2. cbn [slot_rel target] in *.
    cbn [exec]. rewrite (grow_fixed_ok cf w (var vars j) B n W HB2 D). cbn [call bind].
    rewrite (astep_buf cf a (OGrow j n) B Hj I). cbn [refused buf_step target fst snd]. rewrite D. cbn [negb fst snd].
    eexists _, _, _. split; [reflexivity|]. split; [reflexivity|]. split; [now left|]. unfold var at 1. rewrite upd_nth_same. rewrite <- Hj. unfold slot_of. rewrite upd_nth_same. now apply advance_same.
  - (* using *) destruct Hl as (B & Hj & HB). destruct (refused B (OUsing j l)) eqn:Hr; [|now apply (Hgen B Hj HB)].
    pose proof (slot_in a _ _ Hj ltac:(congruence)) as Lj. pose proof (mn_slot _ _ _ _ _ M _ Lj) as HB2. rewrite Hj in HB2. cbn [slot_rel target] in *.
    rewrite (astep_buf cf a (OUsing j l) B Hj I). rewrite Hr. cbn [refused buf_step target fst snd] in *. apply negb_true_iff in Hr. rewrite Hr. apply Z.leb_gt in Hr.
    cbn [exec]. destruct (append_using_bad cf w (var vars j) B (deliver l) (-1) W Wm Nf HB2) as (w' & -> & H1 & H2 & H3 & H4); [now apply deliver_bad|lia|].
    cbn [call bind]. eexists _, _, _. split; [reflexivity|]. split; [reflexivity|]. split; [now left|].
    apply (means_advance cf T a vars w); auto. rewrite Hj. now apply touches_evolves.
  - (* view *) destruct Hl as (B & Hj & HB). pose proof (slot_in a _ _ Hj ltac:(congruence)) as Lj. pose proof (mn_slot _ _ _ _ _ M _ Lj) as HB2. rewrite Hj in HB2. cbn [slot_rel target] in *.
    cbn [exec]. rewrite (view_of_var cf (s_mem w) w (var vars j) B W eq_refl HB2). cbn [bind]. rewrite (astep_buf cf a (OView j) B Hj I). cbn [refused buf_step target fst snd].
    eexists _, _, _. split; [reflexivity|]. split; [apply read_ok; now apply buf_at_view|]. split; [right; exists B; split; [apply slot_upd|]; auto|]. rewrite <- Hj. unfold slot_of. rewrite upd_nth_same. now apply advance_same.
  - (* create *) destruct Hl as (Hj & Lj & Da & Cc). cbn [exec astep fst snd].
    destruct (create_empty_ok cf w a0 cap None W Wm Nf Da Cc) as (b & w' & -> & H1 & H2 & H3 & H4 & H5 & H6). cbn [made bind].
    eexists _, _, _. split; [reflexivity|]. split; [reflexivity|]. split; [now left|]. apply (means_advance cf T a vars w); auto.
    pose proof (mn_slot _ _ _ _ _ M _ Lj) as Hn. rewrite Hj in Hn |- *. cbn in Hn. rewrite Hn. now apply created_evolves.
  - (* init *) destruct Hl as (Hj & Lj & Da & L1 & L2). cbn [exec astep fst snd].
    destruct (arg_alone cf T a vars w s W M L1) as (v & -> & Ca). cbn [bind].
    destruct (create_init_ok cf w a0 v (text_of a s) None W Hc Wm Nf Da Ca L2) as (b & w' & -> & H1 & H2 & H3 & H4 & H5 & H6). cbn [made bind].
    eexists _, _, _. split; [reflexivity|]. split; [reflexivity|]. split; [now left|]. apply (means_advance cf T a vars w); auto.
    pose proof (mn_slot _ _ _ _ _ M _ Lj) as Hn. rewrite Hj in Hn |- *. cbn in Hn. rewrite Hn. now apply created_evolves.
  - (* destroy *) destruct Hl as (B & Hj & HB). pose proof (slot_in a _ _ Hj ltac:(congruence)) as Lj. pose proof (mn_slot _ _ _ _ _ M _ Lj) as HB2. rewrite Hj in HB2. cbn [slot_rel target] in *.
    cbn [exec astep fst snd]. destruct (dyn B) eqn:D.
    + destruct (destroy_dyn_ok cf w (var vars j) B W Wm Nf HB2 D) as (b & w' & E & -> & H1 & H2 & H3). cbn [bind].
      eexists _, _, _. split; [reflexivity|]. split; [reflexivity|]. split; [now left|]. apply (means_advance cf T a vars w); auto; [|reflexivity].
      rewrite Hj. eapply freed_evolves; eauto; congruence.
    + rewrite (destroy_fixed_ok cf w (var vars j) B W HB2 D). cbn [bind].
      eexists _, _, _. split; [reflexivity|]. split; [reflexivity|]. split; [now left|]. apply (means_advance cf T a vars w); auto; [|reflexivity].
      rewrite Hj. now apply drop_evolves.
  - (* to_cstr *) destruct Hl as (B & Hj & HB). pose proof (slot_in a _ _ Hj ltac:(congruence)) as Lj. pose proof (mn_slot _ _ _ _ _ M _ Lj) as HB2. rewrite Hj in HB2. cbn [slot_rel target] in *.
    cbn [exec astep fst snd]. rewrite Hj. rename HB into D.
    destruct (to_cstr_dyn_ok cf w (var vars j) B W Wm Nf HB2 D) as (str & w' & -> & H1). cbn [bind].
    destruct (detached_evolves cf w w' (var vars j) str B H1 HB2 D) as (E1 & E2 & E3 & E4).
    eexists _, _, _. split; [reflexivity|]. split; [reflexivity|]. split; [now left|]. apply (means_advance cf T a vars w); auto. now rewrite Hj.
  - (* free *) destruct Hl as (l & Hj). pose proof (slot_in a _ _ Hj ltac:(congruence)) as Lj. pose proof (mn_slot _ _ _ _ _ M _ Lj) as HB2. rewrite Hj in HB2.
    pose proof HB2 as (b & k & E1 & E2 & E3 & E4 & _). cbn [exec astep fst snd]. rewrite E1. rewrite (free_ok cf w b k a0 E2 E3 E4). cbn [bind].
    eexists _, _, _. split; [reflexivity|]. split; [reflexivity|]. split; [now left|]. apply (means_advance cf T a vars w); auto; cbn [s_mem s_orc].
    + rewrite Hj, E1. eapply freed_evolves; [apply freed_kill|congruence|reflexivity|reflexivity].
    + reflexivity.
    + now apply mem_wf_kill.
Qed.

Theorem step_ok : forall cf T a vars w o, wf_cfg cf -> c_ptr cf = true -> means cf T a vars w -> legal cf T a o ->
  exists v vars' w', exec cf vars w o = Ok (v, vars', w') /\ read_view (s_mem w') v = Ok (fst (astep cf a o)) /\
    advances cf T a vars w (target o) (snd (astep cf a o)) vars' w'.
Proof.
  intros cf T a vars w o W Hc M Hl. destruct (step_full cf T a vars w o W Hc M Hl) as (v & vars' & w' & H1 & H2 & _ & H3). exists v, vars', w'. auto.
Qed.

Theorem run_ok : forall cf T prog a vars w, wf_cfg cf -> c_ptr cf = true -> means cf T a vars w -> all_legal cf T a prog ->
  exists vars' w', run cf vars w prog = Ok (fst (arun cf a prog), vars', w') /\ means cf T (snd (arun cf a prog)) vars' w'.
Proof.
  intros cf T prog. induction prog as [|o prog IH]; intros a vars w W Hc M Hl; cbn [run arun].
  - exists vars, w. auto.
  - destruct Hl as (L1 & L2). destruct (step_ok cf T a vars w o W Hc M L1) as (v & vars1 & w1 & -> & R & M1 & _). cbn [bind]. rewrite R. cbn [bind].
    destruct (astep cf a o) as [x a1] eqn:Ea. cbn [fst snd] in *. destruct (IH a1 vars1 w1 W Hc M1 L2) as (vars2 & w2 & -> & M2). cbn [bind].
    destruct (arun cf a1 prog) as [xs a2]. cbn [fst snd] in *. exists vars2, w2. auto.
Qed.
