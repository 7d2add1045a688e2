(** Concrete memories for the examples that accompany the theorems, and a decision
    procedure showing that a concrete view has given contents. *)
From Coq Require Import String Ascii.
From Verif Require Import Base Mem Libc StrviewModel Spec MemLemmas.

(** ASCII codes of a Coq string. *)
Fixpoint bs (s : string) : list Z :=
  match s with
  | EmptyString => []
  | String c t => Z.of_N (N_of_ascii c) :: bs t
  end.

(** A live static object holding the given bytes. *)
Definition blk (base : Z) (l : list Z) : block :=
  Block base (Zlen l) true Static (fun i => CByte (nth (Z.to_nat i) l 0)).

(** The view of [n] bytes at offset [o] of block [b]. *)
Definition vw (b : nat) (o n : Z) : view := View (Ptr (PBlk b) o) n.

Definition bytes_atb (m : mem) (p : ptr) (l : list Z) : bool :=
  match access m (p_obj p) with
  | Ok k => (0 <=? p_ofs p) && (p_ofs p + Zlen l <=? b_size k)
            && forallb (fun i => match b_get k (p_ofs p + Z.of_nat i) with
                                 | CByte z => z =? nth i l 0 | _ => false end) (seq 0 (length l))
  | _ => false
  end.

Lemma bytes_atb_ok : forall m p l, bytes_atb m p l = true -> bytes_at m p l.
Proof.
  intros m p l H. unfold bytes_atb in H. destruct (access m (p_obj p)) as [k| |] eqn:E; try discriminate.
  apply andb_true_iff in H as [H H3]. apply andb_true_iff in H as [H1 H2].
  apply Z.leb_le in H1, H2. exists k. repeat split; auto. intros i Hi.
  rewrite forallb_forall in H3. specialize (H3 (Z.to_nat i)). rewrite Z2Nat.id in H3 by lia.
  destruct (b_get k (p_ofs p + i)) as [|z|]; try (exfalso; assert (false = true) by (apply H3; apply in_seq; unfold Zlen in Hi; lia); discriminate).
  f_equal. apply Z.eqb_eq. apply H3. apply in_seq. unfold Zlen in Hi; lia.
Qed.

Definition byteb (z : Z) : bool := (0 <=? z) && (z <? 256).
Lemma byteb_ok : forall l, forallb byteb l = true -> Forall is_byte l.
Proof.
  intros l H. rewrite Forall_forall. rewrite forallb_forall in H. intros x Hx. specialize (H x Hx).
  unfold byteb in H. apply andb_true_iff in H as [H1 H2]. apply Z.leb_le in H1. apply Z.ltb_lt in H2.
  unfold is_byte; lia.
Qed.

Definition has_viewb (m : mem) (v : view) (l : list Z) : bool :=
  bytes_atb m (v_data v) l && (v_size v =? Zlen l) && (Zlen l <=? INT_MAX) && forallb byteb l.

Lemma has_viewb_ok : forall m v l, has_viewb m v l = true -> has_view m v l.
Proof.
  intros m v l H. unfold has_viewb in H.
  apply andb_true_iff in H as [H H4]. apply andb_true_iff in H as [H H3]. apply andb_true_iff in H as [H1 H2].
  apply Z.eqb_eq in H2. apply Z.leb_le in H3. repeat split; auto using bytes_atb_ok, byteb_ok.
Qed.

Definition c_stringb (m : mem) (p : ptr) (l : list Z) : bool :=
  bytes_atb m p (l ++ [0]) && forallb byteb l && negb (existsb (Z.eqb 0) l) && (Zlen l <=? INT_MAX).
Lemma c_stringb_ok : forall m p l, c_stringb m p l = true -> c_string m p l.
Proof.
  intros m p l H. unfold c_stringb in H.
  apply andb_true_iff in H as [H H4]. apply andb_true_iff in H as [H H3]. apply andb_true_iff in H as [H1 H2].
  apply Z.leb_le in H4. apply negb_true_iff in H3. apply existsb_eqb_nIn in H3.
  repeat split; auto using bytes_atb_ok, byteb_ok.
Qed.

Definition mem_wfb (m : mem) : bool :=
  forallb (fun k => negb (b_live k) || ((0 <? b_base k) && (0 <=? b_size k))) m &&
  forallb (fun i => forallb (fun j =>
    match nth_error m i, nth_error m j with
    | Some a, Some b => (i =? j)%nat || negb (b_live a) || negb (b_live b)
                        || (b_base a + b_size a <=? b_base b) || (b_base b + b_size b <=? b_base a)
    | _, _ => true end) (seq 0 (length m))) (seq 0 (length m)).
Lemma mem_wfb_ok : forall m, mem_wfb m = true -> mem_wf m.
Proof.
  intros m H. unfold mem_wfb in H. apply andb_true_iff in H as [H1 H2].
  rewrite forallb_forall in H1, H2. split.
  - intros b k Hn Hl. specialize (H1 k (nth_error_In _ _ Hn)). rewrite Hl in H1. cbn in H1.
    apply andb_true_iff in H1 as [A B]. apply Z.ltb_lt in A. apply Z.leb_le in B. lia.
  - intros b1 b2 k1 k2 N1 N2 L1 L2 Hne.
    assert (b1 < length m)%nat as I1 by (apply nth_error_Some; congruence).
    assert (b2 < length m)%nat as I2 by (apply nth_error_Some; congruence).
    specialize (H2 b1 ltac:(apply in_seq; lia)). rewrite forallb_forall in H2.
    specialize (H2 b2 ltac:(apply in_seq; lia)). rewrite N1, N2, L1, L2 in H2.
    rewrite (proj2 (Nat.eqb_neq b1 b2) Hne) in H2. cbn in H2. apply orb_true_iff in H2 as [H2|H2]; apply Z.leb_le in H2; auto.
Qed.

Ltac view_check := apply has_viewb_ok; vm_compute; reflexivity.
Ltac cstr_check := apply c_stringb_ok; vm_compute; reflexivity.
Ltac wf_check := apply mem_wfb_ok; vm_compute; reflexivity.
