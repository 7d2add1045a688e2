(** Proofs about prnf with an assertion handler, in IEEE-754 arithmetic. *)
From Coq Require Import ZArith Reals.
From Flocq Require Import Core BinarySingleNaN.
From Verif Require Import Base Mem Spec MemLemmas NumSpec IeeeSpec PrnfModel PrnfSpec PrnfSpec2 PrnfIeee PrnfProofs3 PrnfProofs4 PrnfProofs5 PrnfProofs7 PrnfProofs8 PrnfProofs9
  PrnfAssertModel PrnfAssertSpec.
Local Open Scope Z_scope.

Lemma finite_ieee : forall v : b32, finite ieee v = is_finite v.
Proof.
  intros v. unfold finite. fold (absv ieee v). rewrite eq_self. destruct v as [s|s| |s mm e Hb]; cbn [is_nan negb is_finite andb].
  - rewrite abs_max by reflexivity. reflexivity.
  - destruct (inf_vals s) as [_ ->]. reflexivity.
  - reflexivity.
  - rewrite abs_max by reflexivity. reflexivity.
Qed.
Lemma finite_eng : forall v : b32, is_finite (fst (get_eng ieee v)) = is_finite v.
Proof.
  intros v. destruct (is_finite v) eqn:F.
  - destruct (get_eng_ok v F) as (w & k & _ & -> & _ & (Fw & _) & _). exact Fw.
  - destruct v as [s|s| |s mm e Hb]; try discriminate; [rewrite eng_inf|rewrite eng_nan]; reflexivity.
Qed.
Lemma trips_ieee : forall i : item b64, trips ieee i =
  match i with Other _ _ => true | Flt _ c d | Eng _ c d => is_finite (narrow d) && many_decimals c | _ => false end.
Proof.
  intros i. destruct i; try reflexivity; cbn [trips]; rewrite finite_ieee, ?finite_eng; reflexivity.
Qed.

(** Items followed by the character [x]. *)
Lemma before_prints : forall cf A (ft : bool -> conv -> dbl A -> list Z -> Prop) (fok : bool -> conv -> dbl A -> Prop), (forall e c d, conv_ok c -> fok e c d -> flt_fine A e c d /\ ft e c d (flt A e c d)) ->
  forall x l col, is_byte x -> items_before cf fok x l -> items_then cf A (flt_fine A) x l /\ prints cf ft col l (printed cf (flt A) col l).
Proof.
  intros cf A ft fok Hf x l col Hx. revert col. induction l as [|i l IH]; intros col H; [split; [exact Logic.I|reflexivity]|]. destruct H as (Hi & Hl & Hn).
  assert (item_ok cf (flt_fine A) i /\ item_prints cf ft col i (item_out cf (flt A) col i)) as [E1 E2].
  { destruct i; cbn [item_ok item_out item_prints] in *; auto; destruct Hi as [H1 H2]; destruct (Hf _ _ _ H1 H2); auto. }
  destruct (IH (after cf col (item_out cf (flt A) col i)) Hl) as [I1 I2]. cbn [items_then prints printed]. split; [|eauto].
  split; auto. split; auto. unfold next_ok. destruct i; auto. split; auto.
  assert (Forall is_byte (format l)) as Fb.
  { clear - I1. induction l as [|i l IH]; [constructor|]. destruct I1 as (H1 & H2 & _). change (format (i :: l)) with (item_text i ++ format l). apply Forall_app. split; auto.
    assert (items_ok cf (flt_fine A) [i] \/ i = Vtab \/ exists z n, i = BareZ z n) as [K|[->|(z & n0 & ->)]].
    { destruct i; first [right; right; eauto; fail|right; left; reflexivity|left; split; [exact H1|split; exact Logic.I]]. }
    - apply format_bytes in K. unfold format in K. cbn [map concat] in K. now rewrite app_nil_r in K.
    - repeat constructor; unfold is_byte; lia.
    - cbn [item_text]. constructor; [unfold is_byte; lia|]. now apply num_bytes. }
  destruct (format l); [exact Hx|exact (Forall_inv Fb)].
Qed.
