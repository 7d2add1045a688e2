(** Proofs: capacities, allocators and places in memory do not matter. *)
From Coq Require Import Lia.
From Verif Require Import Base Mem Libc StrviewModel Spec MemLemmas Alloc StrbufModel BufSpec HistSpec StrbufHistory SameSpec.
Open Scope Z_scope.

Lemma same_refl : forall s, same_slot s s.
Proof. intros [|B|l a]; cbn; auto. Qed.
Lemma same_sym : forall s t, same_slot s t -> same_slot t s.
Proof. intros [|B|l a] [|B2|l2 a2]; cbn; auto. intros (H1 & H2 & H3). split; [congruence|]. split; [congruence|]. intros H. symmetry. apply H3. congruence. Qed.
Lemma same_trans : forall s t u, same_slot s t -> same_slot t u -> same_slot s u.
Proof.
  intros [|B|l a] [|B2|l2 a2] [|B3|l3 a3]; cbn; try tauto; [|congruence]. intros (H1 & H2 & H3) (H4 & H5 & H6).
  split; [congruence|]. split; [congruence|]. intros H. rewrite H3 by auto. apply H6. congruence.
Qed.
Lemma sames_refl : forall a, Forall2 same_slot a a.
Proof. induction a; constructor; auto using same_refl. Qed.
Lemma sames_sym : forall a b, Forall2 same_slot a b -> Forall2 same_slot b a.
Proof. induction 1; constructor; auto using same_sym. Qed.
Lemma sames_trans : forall a b c, Forall2 same_slot a b -> Forall2 same_slot b c -> Forall2 same_slot a c.
Proof. intros a b c H. revert c. induction H; intros c H2; inversion H2; subst; constructor; eauto using same_trans. Qed.
Lemma sames_slot : forall a b j, Forall2 same_slot a b -> same_slot (slot_of a j) (slot_of b j).
Proof. intros a b j H. unfold slot_of. revert j. induction H; intros [|j]; cbn [nth]; auto; exact I. Qed.
Lemma sames_upd : forall a b j s t, Forall2 same_slot a b -> same_slot s t -> Forall2 same_slot (upd a j s) (upd b j t).
Proof. intros a b j s t H Hs. revert j. induction H; intros [|j]; cbn [upd]; constructor; auto. Qed.
Lemma same_data : forall s t, same_slot s t -> data_of s = data_of t.
Proof. intros [|B|l a] [|B2|l2 a2]; cbn; tauto. Qed.

Lemma text_same : forall a b s, Forall2 same_slot a b -> text_of a s = text_of b (bare_src s).
Proof. intros a b [|v l|k x y|k x y] H; cbn [bare_src text_of]; auto; now rewrite (same_data _ _ (sames_slot a b k H)). Qed.
Lemma texts_same : forall a b ss, Forall2 same_slot a b -> map (text_of a) ss = map (text_of b) (map bare_src ss).
Proof. intros a b ss H. rewrite map_map. apply map_ext. intros s. now apply text_same. Qed.
Lemma starts_same : forall a b j ss, Forall2 same_slot a b -> existsb (starts_in a j) ss = existsb (starts_in b j) (map bare_src ss).
Proof.
  intros a b j ss H. induction ss as [|s ss IH]; cbn [existsb map]; auto. rewrite IH. f_equal. destruct s as [|v l|k x y|k x y]; cbn [bare_src starts_in]; auto;
  now rewrite (same_data _ _ (sames_slot a b k H)).
Qed.
Lemma place_same : forall a b j d, Forall2 same_slot a b -> place_of a j d = place_of b j (bare_src d).
Proof. intros a b j [|v l|k x y|k x y] H; cbn [bare_src place_of]; auto; now rewrite (same_data _ _ (sames_slot a b k H)). Qed.

Lemma same_buf : forall B1 B2 d c1 c2, dyn B1 = dyn B2 -> (dyn B1 = false -> c1 = c2) ->
  same_slot (ABuf (Buffer d c1 (bf_alloc B1))) (ABuf (Buffer d c2 (bf_alloc B2))).
Proof. intros B1 B2 d c1 c2 H1 H2. exact (conj eq_refl (conj H1 H2)). Qed.
Lemma put_same : forall cf1 cf2 B1 B2 c, same_slot (ABuf B1) (ABuf B2) -> same_slot (ABuf (put cf1 B1 c)) (ABuf (put cf2 B2 c)).
Proof.
  intros cf1 cf2 B1 B2 c (H1 & H2 & H3). unfold put, fits, grown. cbn [bf_cap]. rewrite <- H2. destruct (dyn B1) eqn:D; cbn [andb].
  - destruct (Zlen c <=? INT_MAX); apply same_buf; congruence.
  - rewrite <- H3 by auto. destruct (Zlen c <=? bf_cap B1); apply same_buf; congruence.
Qed.
Lemma put_all_same : forall cf1 cf2 B1 B2 c, same_slot (ABuf B1) (ABuf B2) -> same_slot (ABuf (put_all cf1 B1 c)) (ABuf (put_all cf2 B2 c)).
Proof.
  intros cf1 cf2 B1 B2 c H. pose proof (put_same cf1 cf2 B1 B2 c H) as P. destruct H as (H1 & H2 & H3). unfold put_all, fits. rewrite <- H2.
  destruct (dyn B1) eqn:D.
  - destruct (Zlen c <=? INT_MAX); auto. apply same_buf; congruence.
  - rewrite <- H3 by auto. destruct (Zlen c <=? bf_cap B1); auto. apply same_buf; congruence.
Qed.

(** New buffers are dynamic. *)
Definition makes_dyn (o : op) : Prop := match o with OCreate _ _ al | OInit _ _ al => is_dyn al = true | _ => True end.
Lemma legal_dyn : forall cf T a o, legal cf T a o -> makes_dyn o.
Proof. intros cf T a o H. destruct o; cbn in *; auto; tauto. Qed.

Lemma buf_step_same : forall cf1 cf2 a b B1 B2 o, Forall2 same_slot a b -> same_slot (ABuf B1) (ABuf B2) -> resizes o = false -> offers o = false ->
  same_slot (ABuf (buf_step cf1 a B1 o)) (ABuf (buf_step cf2 b B2 (bare o))).
Proof.
  intros cf1 cf2 a b B1 B2 o H HB R O. pose proof HB as (D & Y & C).
  destruct o as [j s|j s|j i s|j d s|j d s|j s|j ss|j c|j s|j|j n|j l|j l|j l|j l|j l|j|j cap al|j s al|j|j|j al]; try discriminate; cbn [bare buf_step];
    try exact HB; rewrite <- ?(text_same a b) by auto; rewrite <- ?D; try (apply put_same; exact HB); try (apply put_all_same; exact HB).
  - rewrite <- (place_same a b) by auto. destruct (place_of a j d) as [[i k]|]; [apply put_same|]; exact HB.
  - rewrite <- (place_same a b) by auto. destruct (place_of a j d) as [[i k]|]; [apply put_same|]; exact HB.
  - rewrite <- (texts_same a b), <- (starts_same a b), <- Y by auto. destruct (negb (dyn B1) && existsb (starts_in a j) ss); [|apply put_same; exact HB].
    apply same_buf; auto.
  - apply same_buf; auto.
Qed.

Lemma step_same : forall cf1 cf2 a b o, Forall2 same_slot a b -> resizes o = false -> offers o = false -> makes_dyn o ->
  fst (astep cf1 a o) = fst (astep cf2 b (bare o)) /\ Forall2 same_slot (snd (astep cf1 a o)) (snd (astep cf2 b (bare o))).
Proof.
  intros cf1 cf2 a b o H R O Hd.
  assert (forall o, target (bare o) = target o) as Et by (intros []; reflexivity).
  assert (match slot_of a (target o), slot_of b (target o) with
          | ABuf B1, ABuf B2 => refused B1 o = refused B2 (bare o) | _, _ => True end) as Er.
  { destruct (slot_of a (target o)), (slot_of b (target o)); auto. destruct o; try discriminate; reflexivity. }
  assert (let r := fun cf a o => match slot_of a (target o) with
         | ABuf B => (if refused B o then None else Some (bf_data (buf_step cf a B o)), upd a (target o) (ABuf (buf_step cf a B o)))
         | _ => (None, a) end in
    fst (r cf1 a o) = fst (r cf2 b (bare o)) /\ Forall2 same_slot (snd (r cf1 a o)) (snd (r cf2 b (bare o)))) as G.
  { cbv beta zeta. rewrite Et. pose proof (sames_slot a b (target o) H) as S.
    destruct (slot_of a (target o)) as [|B1|l1 al1], (slot_of b (target o)) as [|B2|l2 al2]; try contradiction S; auto.
    pose proof (buf_step_same cf1 cf2 a b B1 B2 o H S R O) as Q. cbn [fst snd]. split.
    - rewrite Er. destruct (refused B2 (bare o)); auto. f_equal. exact (proj1 Q).
    - now apply sames_upd. }
  destruct o as [j s|j s|j i s|j d s|j d s|j s|j ss|j c|j s|j|j n|j l|j l|j l|j l|j l|j|j cap al|j s al|j|j|j al]; try discriminate; try exact G;
    clear G; cbn [bare astep fst snd makes_dyn] in *; (split; [reflexivity|]); apply sames_upd; auto; try exact I.
  - refine (conj eq_refl (conj Hd (fun E => _))). change (is_dyn al = false) in E. congruence.
  - rewrite (text_same a b) by auto. exact (conj eq_refl (conj Hd (fun E => eq_refl))).
  - pose proof (sames_slot a b j H) as S. destruct (slot_of a j) as [|B1|l1 al1], (slot_of b j) as [|B2|l2 al2]; try contradiction S; auto. exact (proj1 S).
Qed.

Lemma resize_same : forall cf a o, resizes o = true -> Forall2 same_slot (snd (astep cf a o)) a.
Proof.
  intros cf a o R. assert (exists j, target o = j) as [j Ej] by eauto.
  assert (snd (astep cf a o) = match slot_of a j with ABuf B => upd a j (ABuf (buf_step cf a B o)) | _ => a end) as ->
    by (destruct o; try discriminate; cbn [astep] in *; rewrite Ej; destruct (slot_of a j); reflexivity).
  destruct (slot_of a j) as [|B|l al] eqn:E; try apply sames_refl. rewrite <- (upd_nth_same a j ANone) at 3. apply sames_upd; [apply sames_refl|].
  unfold slot_of in E. rewrite E. destruct o; try discriminate; cbn [buf_step]; destruct (dyn B) eqn:D; try apply same_refl;
    refine (conj eq_refl (conj eq_refl (fun E => _))); change (dyn B = false) in E; congruence.
Qed.

Theorem same_run : forall cf1 cf2 T1 T2 n p1 p2 a1 a2, (length p1 + length p2 <= n)%nat -> Forall2 same_slot a1 a2 -> bare_prog p1 = bare_prog p2 ->
  Forall (fun o => offers o = false) p1 -> Forall (fun o => offers o = false) p2 -> all_legal cf1 T1 a1 p1 -> all_legal cf2 T2 a2 p2 ->
  noticed p1 (fst (arun cf1 a1 p1)) = noticed p2 (fst (arun cf2 a2 p2)) /\ Forall2 same_slot (snd (arun cf1 a1 p1)) (snd (arun cf2 a2 p2)).
Proof.
  intros cf1 cf2 T1 T2 n. induction n as [|n IH]; intros p1 p2 a1 a2 Hn Ha Hp O1 O2 L1 L2.
  - destruct p1, p2; cbn in Hn; try lia. cbn. auto.
  - assert (forall cf a o t, arun cf a (o :: t) = (fst (astep cf a o) :: fst (arun cf (snd (astep cf a o)) t), snd (arun cf (snd (astep cf a o)) t))) as Ea.
    { intros cf a o t. cbn [arun]. destruct (astep cf a o) as [x a']. cbn [fst snd]. destruct (arun cf a' t) as [xs a'']. reflexivity. }
    assert (forall o t, bare_prog (o :: t) = if resizes o then bare_prog t else bare o :: bare_prog t) as Eb.
    { intros o t. unfold bare_prog. cbn [filter]. destruct (resizes o); reflexivity. }
    destruct p1 as [|o1 t1]; [destruct p2 as [|o2 t2]; [cbn; auto|]|].
    + rewrite Eb in Hp. destruct (resizes o2) eqn:R2; [|discriminate Hp]. rewrite Ea. cbn [noticed fst snd]. rewrite R2. destruct L2 as [_ L2].
      change (@nil (option (list Z))) with (noticed [] (fst (arun cf1 a1 []))). change a1 with (snd (arun cf1 a1 [])) at 2.
      apply IH; auto; [cbn in *; lia| |now inversion O2]. apply sames_trans with (1 := Ha). apply sames_sym. now apply resize_same.
    + destruct (resizes o1) eqn:R1.
      { rewrite Eb, R1 in Hp. rewrite Ea. cbn [noticed fst snd]. rewrite R1. destruct L1 as [_ L1].
        apply IH; auto; [cbn in *; lia| |now inversion O1]. apply sames_trans with (2 := Ha). now apply resize_same. }
      rewrite Eb, R1 in Hp. destruct p2 as [|o2 t2]; [discriminate Hp|]. destruct (resizes o2) eqn:R2.
      { rewrite Eb, R2 in Hp. rewrite (Ea cf2). cbn [fst snd]. change (noticed (o2 :: t2) (fst (astep cf2 a2 o2) :: fst (arun cf2 (snd (astep cf2 a2 o2)) t2)))
          with (if resizes o2 then noticed t2 (fst (arun cf2 (snd (astep cf2 a2 o2)) t2)) else fst (astep cf2 a2 o2) :: noticed t2 (fst (arun cf2 (snd (astep cf2 a2 o2)) t2))).
        rewrite R2. destruct L2 as [_ L2]. apply IH; auto; [cbn in *; lia| |now rewrite Eb, R1|now inversion O2].
        apply sames_trans with (1 := Ha). apply sames_sym. now apply resize_same. }
      rewrite Eb, R2 in Hp. injection Hp as Ho Ht. rewrite !Ea. cbn [noticed fst snd]. rewrite R1, R2. destruct L1 as [L1 L1'], L2 as [L2 L2'].
      inversion O1 as [|? ? O1a O1b]; inversion O2 as [|? ? O2a O2b]; subst.
      destruct (step_same cf1 cf1 a1 a1 o1 (sames_refl a1) R1 O1a (legal_dyn _ _ _ _ L1)) as [S1 S2].
      destruct (step_same cf2 cf1 a2 a1 o2 (sames_sym _ _ Ha) R2 O2a (legal_dyn _ _ _ _ L2)) as [S3 S4]. rewrite <- Ho in S3, S4.
      destruct (IH t1 t2 (snd (astep cf1 a1 o1)) (snd (astep cf2 a2 o2))) as [K1 K2]; auto; [cbn in *; lia|apply sames_trans with (1 := S2); now apply sames_sym|].
      rewrite K1. split; [f_equal; congruence|exact K2].
Qed.
