(** Proofs about the configurations of prnf: handlers of single characters. *)
From Verif Require Import Base Mem Libc StrviewModel Spec MemLemmas NumSpec
  PrnfModel PrnfSpec PrnfSpec2 PrnfProofs4 PrnfProofs5 PrnfProofs9 PrnfAssertProofs PrnfConfModel PrnfConfSpec PrnfConfProofs2 PrnfConfProofs3.

Lemma fptr_b_ok : forall cf A bd W (rd : W -> mem) wr fn (J : W -> Prop) s fmt items va, wf_cfg cf -> (forall s c s', J s -> fn s c = Ok s' -> J s') ->
  let t := printed cf (flt A) 0 (built bd items) in Zlen t < INT_MAX ->
  (forall s, J s -> bytes_at (rd s) fmt (format items ++ [0]) /\ Forall (item_mem (rd s)) items) -> J s ->
  items_ok cf (need A bd) items -> Forall (fit bd) items ->
  vfptrprnf_b cf A W rd wr bd (Some fn) s fmt (arguments cf (built bd items) ++ va) = let! s := feed fn s t in Ok (Zlen t, s).
Proof.
  intros cf A bd W rd wr fn J s fmt items va Wf Hj t Ht Hm Hs Hok Hfit. unfold vfptrprnf_b. pose proof (Zlen_nonneg t) as Zt.
  rewrite (core_prnf_b_ok cf A W rd wr bd (feeding W fn J) (Zlen t) fmt items); auto.
  - cbn [o_col]. fold t. pose proof (chars_feed cf W rd wr fn t 0 0 s ltac:(lia) ltac:(lia)) as Ce.
    destruct (out_chars cf W rd wr (Out W 0 0 0 null (Some fn) s) t) as [o1| |] eqn:E1; cbn [bind] in *; destruct (feed fn s t) as [s1| |]; cbn [bind] in *; try discriminate.
    + injection Ce as C1 C2 C3. unfold out_terminate. rewrite C2. change (is_null null) with true. cbn [negb andb bind]. rewrite ?andb_false_r. cbn [bind]. rewrite C1, C3. reflexivity.
    + injection Ce as ->. reflexivity.
    + reflexivity.
  - intros o c o' Ho Hc E. eapply feeding_step; eauto.
  - intros o (_ & _ & _ & Hj1). now apply Hm.
  - intros o (_ & _ & _ & Hj1). now apply Hm.
  - unfold feeding. cbn. repeat split; auto; lia.
  - cbn. lia.
  - cbn [o_cnt o_col]. fold t. lia.
Qed.

(** Any text for floating point numbers that the arithmetic prints. *)
Lemma built_prints : forall cf A bd (ft : bool -> conv -> dbl A -> list Z -> Prop) (fok : bool -> conv -> dbl A -> Prop),
  (forall e c d, conv_ok c -> fok e c d -> flt_fine A e c d /\ ft e c d (flt A e c d)) ->
  forall l col, items_ok cf fok l -> items_ok cf (need A bd) l /\ prints cf ft col (built bd l) (printed cf (flt A) col (built bd l)).
Proof.
  intros cf A bd ft fok Hf l.
  assert (items_ok cf fok l -> items_ok cf (need A bd) l /\ forall i, In i (built bd l) -> match i with Flt _ c d => conv_ok c /\ fok false c d | Eng _ c d => conv_ok c /\ fok true c d | _ => True end) as K.
  { induction l as [|i l IH]; intros H; [split; [exact Logic.I|intros j []]|]. destruct H as (Hi & Hl & Hv). destruct (IH Hl) as [I1 I2]. split.
    - split; [|split; auto]. destruct i; cbn [item_ok] in *; auto; destruct Hi as [H1 H2]; split; auto; intros _; apply Hf; auto.
    - intros j Hj. change (built bd (i :: l)) with (read_by bd i ++ built bd l) in Hj. apply in_app_or in Hj as [Hj|Hj]; [|exact (I2 j Hj)].
      unfold read_by in Hj. destruct i; cbn [holder is_float] in Hj; rewrite ?andb_false_r in Hj; cbn [andb] in Hj.
      all: repeat match type of Hj with context [if ?b then _ else _] => destruct b end; cbn [In] in Hj; repeat destruct Hj as [<-|Hj]; try exact Hi; try exact Logic.I; try contradiction. }
  intros col H. destruct (K H) as [K1 K2]. split; auto. clear K H K1. revert col K2. generalize (built bd l). clear l.
  induction l as [|i l IH]; intros col H; cbn [printed prints]; [reflexivity|].
  exists (item_out cf (flt A) col i), (printed cf (flt A) (after cf col (item_out cf (flt A) col i)) l). split; [reflexivity|]. split.
  - specialize (H i (or_introl eq_refl)). destruct i; cbn [item_out item_prints] in *; auto; destruct H; apply Hf; auto.
  - apply IH. intros j Hj. apply H. now right.
Qed.
