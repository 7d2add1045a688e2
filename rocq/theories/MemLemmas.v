(** Basic facts about the memory model and views. *)
From Verif Require Import Base Mem Libc StrviewModel Spec.

Lemma Zlen_nil : forall {A}, Zlen (@nil A) = 0.
Proof. reflexivity. Qed.
Lemma Zlen_cons : forall {A} (x : A) l, Zlen (x :: l) = Zlen l + 1.
Proof. intros; unfold Zlen; cbn [length]; lia. Qed.
Lemma Zlen_app : forall {A} (a b : list A), Zlen (a ++ b) = Zlen a + Zlen b.
Proof. intros; unfold Zlen; rewrite app_length; lia. Qed.
Lemma Zlen_nonneg : forall {A} (l : list A), 0 <= Zlen l.
Proof. intros; unfold Zlen; lia. Qed.
Lemma Zlen_to_nat : forall {A} (l : list A), Z.to_nat (Zlen l) = length l.
Proof. intros; unfold Zlen; lia. Qed.
Lemma Zlen_map : forall {A B} (f : A -> B) l, Zlen (map f l) = Zlen l.
Proof. intros; unfold Zlen; now rewrite map_length. Qed.
Lemma Zlen_0 : forall {A} (l : list A), Zlen l = 0 -> l = [].
Proof. intros A [|x l]; auto. rewrite Zlen_cons; pose proof (Zlen_nonneg l); lia. Qed.
Lemma Zlen_rev : forall {A} (l : list A), Zlen (rev l) = Zlen l.
Proof. intros; unfold Zlen; now rewrite rev_length. Qed.

Ltac zl :=
  rewrite ?Zlen_app in *; rewrite ?Zlen_cons in *; rewrite ?Zlen_nil in *;
  repeat match goal with
         | H : context[Zlen ?l] |- _ =>
             lazymatch goal with
             | _ : 0 <= Zlen l |- _ => fail
             | _ => let H := fresh "Hzl" in pose proof (Zlen_nonneg l) as H
             end
         | |- context[Zlen ?l] =>
             lazymatch goal with
             | _ : 0 <= Zlen l |- _ => fail
             | _ => let H := fresh "Hzl" in pose proof (Zlen_nonneg l) as H
             end
         end; try lia.

Lemma shift_shift : forall p a b, shift (shift p a) b = shift p (a + b).
Proof. intros [o n] a b; unfold shift; cbn. f_equal; lia. Qed.
Lemma shift_0 : forall p, shift p 0 = p.
Proof. intros [o n]; unfold shift; cbn. f_equal; lia. Qed.
Lemma shift_obj : forall p n, p_obj (shift p n) = p_obj p.
Proof. reflexivity. Qed.
Lemma shift_ofs : forall p n, p_ofs (shift p n) = p_ofs p + n.
Proof. reflexivity. Qed.

Lemma list_eqb_refl : forall l, list_eqb l l = true.
Proof. induction l; cbn; auto. rewrite Z.eqb_refl; auto. Qed.
Lemma list_eqb_eq : forall a b, list_eqb a b = true <-> a = b.
Proof.
  induction a as [|x a IH]; destruct b as [|y b]; cbn; split; intro H; try discriminate; auto.
  - apply andb_true_iff in H as [H1 H2]. apply Z.eqb_eq in H1. apply IH in H2. congruence.
  - inversion H; subst. rewrite Z.eqb_refl. apply IH; reflexivity.
Qed.
Lemma pobj_eqb_refl : forall o, pobj_eqb o o = true.
Proof. destruct o; cbn; auto using Nat.eqb_refl, list_eqb_refl. Qed.
Lemma pobj_eqb_eq : forall a b, pobj_eqb a b = true <-> a = b.
Proof.
  destruct a as [|x|x], b as [|y|y]; cbn [pobj_eqb]; split; intro H; try discriminate; auto.
  - apply Nat.eqb_eq in H; congruence.
  - inversion H; apply Nat.eqb_refl.
  - apply list_eqb_eq in H; congruence.
  - inversion H; apply list_eqb_refl.
Qed.

Lemma peq_shift : forall m p i j, peq m (shift p i) (shift p j) = (i =? j).
Proof.
  intros; unfold peq. rewrite !shift_obj, pobj_eqb_refl, !shift_ofs.
  destruct (i =? j) eqn:E.
  - apply Z.eqb_eq in E; subst; apply Z.eqb_refl.
  - apply Z.eqb_neq in E; apply Z.eqb_neq; lia.
Qed.
Lemma peq_shift_l : forall m p i, peq m (shift p i) p = (i =? 0).
Proof. intros; rewrite <- (shift_0 p) at 2; apply peq_shift. Qed.
Lemma peq_shift_r : forall m p i, peq m p (shift p i) = (i =? 0).
Proof. intros; rewrite <- (shift_0 p) at 1; rewrite peq_shift; apply Z.eqb_sym. Qed.
Lemma peq_refl : forall m p, peq m p p = true.
Proof. intros; unfold peq; rewrite pobj_eqb_refl; apply Z.eqb_refl. Qed.

Lemma pdiff_shift : forall cf m p i j, pdiff cf m (shift p i) (shift p j) = Ok (i - j).
Proof.
  intros; unfold pdiff. rewrite !shift_obj, pobj_eqb_refl, !shift_ofs. f_equal; lia.
Qed.
Lemma pdiff_shift_l : forall cf m p i, pdiff cf m (shift p i) p = Ok i.
Proof. intros; rewrite <- (shift_0 p) at 2; rewrite pdiff_shift; f_equal; lia. Qed.
Lemma pdiff_shift_r : forall cf m p i, pdiff cf m p (shift p i) = Ok (- i).
Proof. intros; rewrite <- (shift_0 p) at 1; rewrite pdiff_shift; f_equal; lia. Qed.

(** ** bytes_at *)

Lemma bytes_at_nonnull : forall m p l, bytes_at m p l -> is_null p = false.
Proof.
  intros m p l (blk & Ha & _). unfold is_null. destruct (p_obj p); auto. cbn in Ha; discriminate.
Qed.

Lemma bytes_at_app : forall m p a b,
  bytes_at m p (a ++ b) <-> bytes_at m p a /\ bytes_at m (shift p (Zlen a)) b.
Proof.
  intros; split.
  - intros (blk & Ha & H0 & Hs & Hg). zl. split.
    + exists blk; repeat split; auto; zl. intros i Hi. rewrite Hg by lia.
      rewrite app_nth1; [reflexivity|]. unfold Zlen in Hi; lia.
    + exists blk; repeat split; cbn; auto; zl. intros i Hi.
      rewrite <- Z.add_assoc, Hg by lia. rewrite app_nth2 by (unfold Zlen; lia).
      do 2 f_equal. unfold Zlen; lia.
  - intros [(blk & Ha & H0 & Hs & Hg) (blk' & Ha' & H0' & Hs' & Hg')].
    rewrite shift_obj in Ha'. rewrite Ha in Ha'; injection Ha' as <-.
    rewrite shift_ofs in *.
    exists blk; repeat split; auto; zl. intros i Hi.
    destruct (Z_lt_dec i (Zlen a)).
    + rewrite Hg by lia. rewrite app_nth1; [reflexivity|]. unfold Zlen in *; lia.
    + replace (p_ofs p + i) with (p_ofs p + Zlen a + (i - Zlen a)) by lia.
      rewrite Hg' by lia. rewrite app_nth2 by (unfold Zlen in *; lia).
      do 2 f_equal. unfold Zlen; lia.
Qed.

Lemma bytes_at_nil_end : forall m p a, bytes_at m p a -> bytes_at m (shift p (Zlen a)) [].
Proof. intros m p a H. rewrite <- (app_nil_r a) in H. now apply bytes_at_app in H. Qed.

Lemma bytes_at_nil : forall m p a, bytes_at m p a -> bytes_at m p [].
Proof.
  intros m p a H. change a with ([] ++ a) in H. now apply bytes_at_app in H.
Qed.

Lemma bytes_at_cons : forall m p x l,
  bytes_at m p (x :: l) -> load_byte m p = Ok x /\ bytes_at m (shift p 1) l.
Proof.
  intros m p x l H. split.
  - destruct H as (blk & Ha & H0 & Hs & Hg). unfold load_byte, load_cell. rewrite Ha; cbn [bind].
    zl. unfold in_block. rewrite (proj2 (Z.leb_le _ _)) by lia.
    rewrite (proj2 (Z.leb_le _ _)) by lia. cbn [andb bind].
    replace (p_ofs p) with (p_ofs p + 0) by lia. rewrite Hg by lia. reflexivity.
  - change (x :: l) with ([x] ++ l) in H. apply bytes_at_app in H. apply H.
Qed.

Lemma bytes_at_mid : forall m p a x b,
  bytes_at m p (a ++ x :: b) -> load_byte m (shift p (Zlen a)) = Ok x.
Proof.
  intros m p a x b H. apply bytes_at_app in H as [_ H]. now apply bytes_at_cons in H.
Qed.

Lemma bytes_at_sub : forall m p a b c,
  bytes_at m p (a ++ b ++ c) -> bytes_at m (shift p (Zlen a)) b.
Proof.
  intros m p a b c H. apply bytes_at_app in H as [_ H]. now apply bytes_at_app in H.
Qed.

Lemma padd_ok : forall cf m p l i,
  bytes_at m p l -> 0 <= i <= Zlen l -> padd cf m p i = Ok (shift p i).
Proof.
  intros cf m p l i (blk & Ha & H0 & Hs & _) Hi. unfold padd.
  destruct (p_obj p) eqn:E; [cbn in Ha; discriminate| |];
    (destruct (c_ptr cf); [reflexivity|]; rewrite Ha; cbn [bind]; unfold in_block;
     rewrite (proj2 (Z.leb_le _ _)) by lia; rewrite (proj2 (Z.leb_le _ _)) by lia; reflexivity).
Qed.

(** the same relative to an earlier pointer *)
Lemma padd_ok_shift : forall cf m p l i j,
  bytes_at m p l -> 0 <= i + j <= Zlen l -> padd cf m (shift p i) j = Ok (shift p (i + j)).
Proof.
  intros cf m p l i j (blk & Ha & H0 & Hs & _) Hi. unfold padd. rewrite shift_obj.
  destruct (p_obj p) eqn:E; [cbn in Ha; discriminate| |];
    (rewrite shift_shift; destruct (c_ptr cf); [reflexivity|]; rewrite Ha; cbn [bind]; unfold in_block;
     rewrite shift_ofs;
     rewrite (proj2 (Z.leb_le _ _)) by lia; rewrite (proj2 (Z.leb_le _ _)) by lia; reflexivity).
Qed.

Lemma padd_flat : forall cf m p l i,
  c_ptr cf = true -> bytes_at m p l -> padd cf m p i = Ok (shift p i).
Proof.
  intros cf m p l i Hc (blk & Ha & _). unfold padd.
  destruct (p_obj p); [cbn in Ha; discriminate| |]; rewrite Hc; reflexivity.
Qed.

Lemma padd_flat_shift : forall cf m p l i j,
  c_ptr cf = true -> bytes_at m p l -> padd cf m (shift p i) j = Ok (shift p (i + j)).
Proof.
  intros cf m p l i j Hc (blk & Ha & _). unfold padd. rewrite shift_obj.
  destruct (p_obj p); [cbn in Ha; discriminate| |]; rewrite Hc, shift_shift; reflexivity.
Qed.

Lemma load_bytes_ok : forall m l p, bytes_at m p l -> load_bytes m p (length l) = Ok l.
Proof.
  intros m; induction l as [|x l IH]; intros p H; cbn; auto.
  apply bytes_at_cons in H as [H1 H2]. rewrite H1; cbn. rewrite IH; auto.
Qed.

Lemma zero_ok_bytes : forall cf m p l, bytes_at m p l -> zero_ok cf m p = true.
Proof.
  intros cf m p l (blk & Ha & H0 & Hs & _). unfold zero_ok. rewrite Ha. zl.
  unfold in_block. rewrite !(proj2 (Z.leb_le _ _)) by lia. apply orb_true_r.
Qed.

(** ** views *)

Lemma has_view_nonnull : forall m v l, has_view m v l -> is_null (v_data v) = false.
Proof. intros m v l [H _]; eapply bytes_at_nonnull; eauto. Qed.

Lemma has_view_valid : forall m v l, has_view m v l -> strview_is_valid v = true.
Proof. intros m v l H; unfold strview_is_valid; erewrite has_view_nonnull; eauto. Qed.

Lemma has_view_size : forall m v l, has_view m v l -> v_size v = Zlen l.
Proof. intros m v l (_ & H & _); auto. Qed.

Lemma has_view_sub : forall m v a b c,
  has_view m v (a ++ b ++ c) -> has_view m (subview v (Zlen a) (Zlen b)) b.
Proof.
  intros m v a b c (Hb & Hs & Hm & Hf). unfold has_view, subview; cbn.
  rewrite !Forall_app in Hf. zl. repeat split; try tauto; try lia.
  eapply bytes_at_sub; eauto.
Qed.

Lemma has_view_prefix : forall m v a b,
  has_view m v (a ++ b) -> has_view m (View (v_data v) (Zlen a)) a.
Proof.
  intros m v a b H. pose proof (has_view_sub m v [] a b H) as H1.
  unfold subview in H1. rewrite Zlen_nil, shift_0 in H1. exact H1.
Qed.

Lemma has_view_suffix : forall m v a b,
  has_view m v (a ++ b) -> has_view m (subview v (Zlen a) (Zlen b)) b.
Proof.
  intros m v a b H. rewrite <- (app_nil_r b) in H. eapply has_view_sub; eauto.
Qed.

Lemma view_eta : forall v, View (v_data v) (v_size v) = v.
Proof. destruct v; reflexivity. Qed.

Lemma subview_0 : forall v n, n = v_size v -> subview v 0 n = v.
Proof. intros v n ->; unfold subview; rewrite shift_0; apply view_eta. Qed.

Lemma subview_subview : forall v a n b k, subview (subview v a n) b k = subview v (a + b) k.
Proof. intros; unfold subview; cbn; now rewrite shift_shift. Qed.

(** ** integers *)

Lemma int_res_ok : forall cf z, INT_MIN <= z <= INT_MAX -> int_res cf z = Ok z.
Proof.
  intros cf z H. unfold int_res, in_int.
  rewrite (proj2 (Z.leb_le _ _)) by lia. rewrite (proj2 (Z.leb_le _ _)) by lia. reflexivity.
Qed.
Lemma iadd_ok : forall cf a b, INT_MIN <= a + b <= INT_MAX -> iadd cf a b = Ok (a + b).
Proof. intros; apply int_res_ok; auto. Qed.
Lemma isub_ok : forall cf a b, INT_MIN <= a - b <= INT_MAX -> isub cf a b = Ok (a - b).
Proof. intros; apply int_res_ok; auto. Qed.
Lemma to_int_ok : forall z, INT_MIN <= z <= INT_MAX -> to_int z = z.
Proof.
  intros z H. unfold to_int, wrap32. rewrite Z.mod_small; unfold INT_MIN, INT_MAX in *; lia.
Qed.

Lemma existsb_eqb_In : forall c l, existsb (Z.eqb c) l = true <-> In c l.
Proof.
  intros; rewrite existsb_exists; split.
  - intros (x & Hx & E). apply Z.eqb_eq in E. now subst.
  - intros H; exists c; split; auto. apply Z.eqb_refl.
Qed.
Lemma existsb_eqb_nIn : forall c l, existsb (Z.eqb c) l = false <-> ~ In c l.
Proof.
  intros. rewrite <- existsb_eqb_In. destruct (existsb (Z.eqb c) l); split; intro H; auto; try discriminate.
  - exfalso; apply H; auto.
Qed.
