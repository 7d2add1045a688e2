(** Proofs about the AES model: steps, inverse, key schedule. *)
From Coq Require Import Btauto ZifyNat.
From Verif Require Import Base Mem MemLemmas PackModel PackProofs AesModel AesSpec.

(** ** Bytes *)
Lemma all_bytes_ok : forall f : Z -> bool, forallb f all_bytes = true -> forall b, is_byte b -> f b = true.
Proof.
  intros f H b [H1 H2]. rewrite forallb_forall in H. apply H. unfold all_bytes. apply in_map_iff. exists (Z.to_nat b). split; [lia|]. apply in_seq. lia.
Qed.
Lemma all_bytes2 : forall f : Z -> Z -> bool, forallb (fun a => forallb (f a) all_bytes) all_bytes = true ->
  forall a b, is_byte a -> is_byte b -> f a b = true.
Proof. intros f H a b Ha Hb. exact (all_bytes_ok (f a) (all_bytes_ok (fun a => forallb (f a) all_bytes) H a Ha) b Hb). Qed.
Definition byteb (x : Z) : bool := (0 <=? x) && (x <? 256).
Lemma byteb_is : forall x, byteb x = true -> is_byte x.
Proof. unfold byteb, is_byte. intros x H. lia. Qed.

(** Multiplication by x *)
Definition xt (b : Z) : Z := if Z.land b 128 =? 0 then Z.shiftl b 1 mod 256 else Z.lxor (Z.shiftl b 1 mod 256) 27.
Lemma xt_lin : forall a b, is_byte a -> is_byte b -> xt (Z.lxor a b) = Z.lxor (xt a) (xt b).
Proof.
  intros a b Ha Hb. apply Z.eqb_eq. revert a b Ha Hb. apply (all_bytes2 (fun a b => xt (Z.lxor a b) =? Z.lxor (xt a) (xt b))). vm_compute. reflexivity.
Qed.
Lemma xt_byte : forall a, is_byte a -> is_byte (xt a).
Proof. intros a Ha. apply byteb_is. revert a Ha. apply (all_bytes_ok (fun a => byteb (xt a))). vm_compute. reflexivity. Qed.
Lemma lxor_byte : forall a b, is_byte a -> is_byte b -> is_byte (Z.lxor a b).
Proof. intros a b Ha Hb. apply byteb_is. revert a b Ha Hb. apply (all_bytes2 (fun a b => byteb (Z.lxor a b))). vm_compute. reflexivity. Qed.

Lemma gf2 : forall b, gf256mul 2 b 27 = xt b. Proof. intros b. reflexivity. Qed.
Lemma gf4 : forall b, gf256mul 4 b 27 = xt (xt b). Proof. intros b. reflexivity. Qed.
Lemma gf9 : forall b, gf256mul 9 b 27 = Z.lxor b (xt (xt (xt b))). Proof. intros b. reflexivity. Qed.

(** The field multiplication of the standard, for the constants used there. *)
Ltac by_bytes f := intros b Hb; apply Z.eqb_eq; revert b Hb; apply (all_bytes_ok f); vm_compute; reflexivity.
Lemma gmul1 : forall b, is_byte b -> gmul 1 b = b. Proof. by_bytes (fun b => gmul 1 b =? b). Qed.
Lemma gmul2 : forall b, is_byte b -> gmul 2 b = xt b. Proof. by_bytes (fun b => gmul 2 b =? xt b). Qed.
Lemma gmul3 : forall b, is_byte b -> gmul 3 b = Z.lxor (xt b) b. Proof. by_bytes (fun b => gmul 3 b =? Z.lxor (xt b) b). Qed.
Lemma gmul9 : forall b, is_byte b -> gmul 9 b = Z.lxor (xt (xt (xt b))) b. Proof. by_bytes (fun b => gmul 9 b =? Z.lxor (xt (xt (xt b))) b). Qed.
Lemma gmul11 : forall b, is_byte b -> gmul 11 b = Z.lxor (xt (xt (xt b))) (Z.lxor (xt b) b).
Proof. by_bytes (fun b => gmul 11 b =? Z.lxor (xt (xt (xt b))) (Z.lxor (xt b) b)). Qed.
Lemma gmul13 : forall b, is_byte b -> gmul 13 b = Z.lxor (xt (xt (xt b))) (Z.lxor (xt (xt b)) b).
Proof. by_bytes (fun b => gmul 13 b =? Z.lxor (xt (xt (xt b))) (Z.lxor (xt (xt b)) b)). Qed.
Lemma gmul14 : forall b, is_byte b -> gmul 14 b = Z.lxor (xt (xt (xt b))) (Z.lxor (xt (xt b)) (xt b)).
Proof. by_bytes (fun b => gmul 14 b =? Z.lxor (xt (xt (xt b))) (Z.lxor (xt (xt b)) (xt b))). Qed.

(** Substitution *)
Lemma sbox_byte : forall b, is_byte b -> is_byte (sbox b).
Proof. intros a Ha. apply byteb_is. revert a Ha. apply (all_bytes_ok (fun a => byteb (sbox a))). vm_compute. reflexivity. Qed.
Lemma invsbox_byte : forall b, is_byte b -> is_byte (invsbox b).
Proof. intros a Ha. apply byteb_is. revert a Ha. apply (all_bytes_ok (fun a => byteb (invsbox a))). vm_compute. reflexivity. Qed.
Lemma invsbox_sbox : forall b, is_byte b -> invsbox (sbox b) = b. Proof. by_bytes (fun b => invsbox (sbox b) =? b). Qed.
Lemma sbox_invsbox : forall b, is_byte b -> sbox (invsbox b) = b. Proof. by_bytes (fun b => sbox (invsbox b) =? b). Qed.
Lemma sbox_spec : forall b, is_byte b -> S_box b = sbox b. Proof. by_bytes (fun b => S_box b =? sbox b). Qed.
Lemma find_ext_in : forall {A} (f g : A -> bool) l, (forall x, In x l -> f x = g x) -> find f l = find g l.
Proof. intros A f g. induction l as [|x l IH]; intros H; cbn [find]; auto. rewrite (H x) by (now left). rewrite IH by (intros; apply H; now right). reflexivity. Qed.
Lemma all_bytes_in : forall x, In x all_bytes -> is_byte x.
Proof. intros x H. unfold all_bytes in H. apply in_map_iff in H as (i & <- & H). apply in_seq in H. unfold is_byte. lia. Qed.
Lemma invsbox_spec : forall b, is_byte b -> InvS_box b = invsbox b.
Proof.
  intros b Hb. unfold InvS_box. rewrite (find_ext_in _ (fun x => sbox x =? b)) by (intros x Hx; now rewrite sbox_spec by (now apply all_bytes_in)).
  apply Z.eqb_eq. revert b Hb. apply (all_bytes_ok (fun b => match find (fun x => sbox x =? b) all_bytes with Some x => x | None => 0 end =? invsbox b)).
  vm_compute. reflexivity.
Qed.

(** ** Blocks of 16 bytes *)
Definition block16 (s : list Z) : Prop := length s = 16%nat /\ Forall is_byte s.
Ltac destr16 s := let L := fresh "L" in
  match goal with H : length s = 16%nat |- _ =>
    rename H into L;
    destruct s as [|?s [|?s [|?s [|?s [|?s [|?s [|?s [|?s [|?s [|?s [|?s [|?s [|?s [|?s [|?s [|?s [|?s s]]]]]]]]]]]]]]]]]; try discriminate L; clear L end.
Ltac inv_bytes := repeat match goal with H : Forall is_byte (_ :: _) |- _ => apply Forall_cons_iff in H as [? H] end.

Definition closed_shift (s : list Z) : list Z :=
  map (ix s) [0; 5; 10; 15; 4; 9; 14; 3; 8; 13; 2; 7; 12; 1; 6; 11]%nat.
Definition closed_unshift (s : list Z) : list Z :=
  map (ix s) [0; 13; 10; 7; 4; 1; 14; 11; 8; 5; 2; 15; 12; 9; 6; 3]%nat.
Definition mixcol (a b c d : Z) : list Z :=
  [Z.lxor (Z.lxor (xt a) (xt b)) (Z.lxor b (Z.lxor c d));
   Z.lxor (Z.lxor (xt b) (xt c)) (Z.lxor c (Z.lxor d a));
   Z.lxor (Z.lxor (xt c) (xt d)) (Z.lxor d (Z.lxor a b));
   Z.lxor (Z.lxor (xt d) (xt a)) (Z.lxor a (Z.lxor b c))].
Definition unrow (a b c d : Z) : Z :=
  xor4 (Z.lxor (xt (xt (xt a))) (Z.lxor (xt (xt a)) (xt a))) (Z.lxor (xt (xt (xt b))) (Z.lxor (xt b) b))
       (Z.lxor (xt (xt (xt c))) (Z.lxor (xt (xt c)) c)) (Z.lxor (xt (xt (xt d))) d).
Definition uncol (a b c d : Z) : list Z := [unrow a b c d; unrow b c d a; unrow c d a b; unrow d a b c].
Definition by_cols (f : Z -> Z -> Z -> Z -> list Z) (s : list Z) : list Z :=
  flat_map (fun i => f (ix s (4 * i)) (ix s (4 * i + 1)) (ix s (4 * i + 2)) (ix s (4 * i + 3))) (seq 0 4).

Lemma sub_bytes_eq : forall s, length s = 16%nat -> sub_bytes s = map sbox s.
Proof. intros s H. destr16 s. reflexivity. Qed.
Lemma sub_inplace_eq : forall s, length s = 16%nat -> for_ 16 (fun i s => st_ s i (sbox (ix s i))) s = map sbox s.
Proof. intros s H. destr16 s. reflexivity. Qed.
Lemma inv_sub_bytes_eq : forall s, length s = 16%nat -> inv_sub_bytes s = map invsbox s.
Proof. intros s H. destr16 s. reflexivity. Qed.
Lemma shift_rows_eq : forall s, length s = 16%nat -> shift_rows s = closed_shift s.
Proof. intros s H. destr16 s. reflexivity. Qed.
Lemma inv_shift_rows_eq : forall s, length s = 16%nat -> inv_shift_rows s = closed_unshift s.
Proof. intros s H. destr16 s. reflexivity. Qed.
Lemma add_key_eq : forall k s, length s = 16%nat -> length k = 16%nat -> add_key k s = xor_bytes s k.
Proof. intros k s Hs Hk. destr16 s. destr16 k. reflexivity. Qed.

(** Equations between sums: compare bits. *)
Ltac xor_eq := apply Z.bits_inj'; intros n _; rewrite ?Z.lxor_spec;
  repeat match goal with |- context [Z.testbit ?a n] => generalize (Z.testbit a n); intro end; btauto.

Ltac cons_eq := repeat match goal with |- _ :: _ = _ :: _ => apply (f_equal2 (@cons Z)) end; try reflexivity.
Ltac bytes_solve := repeat first [assumption | apply lxor_byte | apply xt_byte].
Ltac lin := repeat match goal with |- context [xt (Z.lxor ?a ?b)] => rewrite (xt_lin a b) by bytes_solve end.

Lemma mix_columns_eq : forall t s, length t = 16%nat -> Forall is_byte t -> length s = 16%nat -> mix_columns t s = by_cols mixcol t.
Proof.
  intros t s Ht Ft Hs. destr16 t. destr16 s. inv_bytes.
  cbv [mix_columns for_ seq fold_left st_ upd ix nth Nat.mul Nat.add by_cols flat_map mixcol app]. rewrite !gf2. lin.
  cons_eq; xor_eq.
Qed.
Lemma inv_mix_columns_eq : forall t s, length t = 16%nat -> Forall is_byte t -> length s = 16%nat -> inv_mix_columns t s = by_cols uncol t.
Proof.
  intros t s Ht Ft Hs. destr16 t. destr16 s. inv_bytes.
  cbv [inv_mix_columns for_ seq fold_left st_ upd ix nth Nat.mul Nat.add by_cols flat_map uncol unrow xor4 app]. rewrite !gf2, !gf4, !gf9. lin.
  cons_eq; xor_eq.
Qed.

(** ** Closed forms of the rounds *)
Lemma Forall_ix : forall s i, Forall is_byte s -> is_byte (ix s i).
Proof.
  intros s i F. unfold ix. destruct (Nat.lt_ge_cases i (length s)) as [H|H]; [|rewrite nth_overflow by auto; unfold is_byte; lia].
  rewrite Forall_forall in F. apply F. now apply nth_In.
Qed.
Lemma shift_block : forall s, block16 s -> block16 (closed_shift s).
Proof. intros s [L F]. split; [reflexivity|]. unfold closed_shift. apply Forall_map, Forall_forall. intros i _. now apply Forall_ix. Qed.
Lemma unshift_block : forall s, block16 s -> block16 (closed_unshift s).
Proof. intros s [L F]. split; [reflexivity|]. unfold closed_unshift. apply Forall_map, Forall_forall. intros i _. now apply Forall_ix. Qed.
Lemma map_block : forall f s, (forall b, is_byte b -> is_byte (f b)) -> block16 s -> block16 (map f s).
Proof. intros f s Hf [L F]. split; [now rewrite map_length|]. apply Forall_map. eapply Forall_impl; [|exact F]. exact Hf. Qed.
Lemma xor_bytes_len : forall a b, length (xor_bytes a b) = length a.
Proof. induction a as [|x a IH]; intros [|y b]; cbn; auto. Qed.
Lemma xor_bytes_byte : forall a b, Forall is_byte a -> Forall is_byte b -> Forall is_byte (xor_bytes a b).
Proof.
  induction a as [|x a IH]; intros [|y b] Fa Fb; cbn [xor_bytes]; auto. apply Forall_cons_iff in Fa as [? Fa]. apply Forall_cons_iff in Fb as [? Fb].
  constructor; [now apply lxor_byte|auto].
Qed.
Lemma xor_block : forall a b, block16 a -> block16 b -> block16 (xor_bytes a b).
Proof. intros a b [L F] [L' F']. split; [now rewrite xor_bytes_len|now apply xor_bytes_byte]. Qed.
Lemma by_cols_block : forall f s, (forall a b c d, is_byte a -> is_byte b -> is_byte c -> is_byte d -> length (f a b c d) = 4%nat /\ Forall is_byte (f a b c d)) ->
  block16 s -> block16 (by_cols f s).
Proof.
  intros f s Hf [L F]. pose proof (fun i => Forall_ix s i F) as B. unfold by_cols. cbn [seq flat_map].
  assert (forall i, length (f (ix s (4 * i)) (ix s (4 * i + 1)) (ix s (4 * i + 2)) (ix s (4 * i + 3))) = 4%nat /\
    Forall is_byte (f (ix s (4 * i)) (ix s (4 * i + 1)) (ix s (4 * i + 2)) (ix s (4 * i + 3)))) as H by (intros i; now apply Hf).
  split; [rewrite !app_length, !(proj1 (H _)); reflexivity|]. rewrite app_nil_r. repeat (apply Forall_app; split); apply H.
Qed.
Lemma mixcol_ok : forall a b c d, is_byte a -> is_byte b -> is_byte c -> is_byte d -> length (mixcol a b c d) = 4%nat /\ Forall is_byte (mixcol a b c d).
Proof. intros. split; [reflexivity|]. unfold mixcol. repeat (apply Forall_cons; [bytes_solve|]). apply Forall_nil. Qed.
Lemma uncol_ok : forall a b c d, is_byte a -> is_byte b -> is_byte c -> is_byte d -> length (uncol a b c d) = 4%nat /\ Forall is_byte (uncol a b c d).
Proof. intros. split; [reflexivity|]. unfold uncol, unrow, xor4. repeat (apply Forall_cons; [bytes_solve|]). apply Forall_nil. Qed.
#[export] Hint Resolve shift_block unshift_block xor_block mixcol_ok uncol_ok sbox_byte invsbox_byte map_block by_cols_block : aes.

Lemma enc_round_eq : forall s k, block16 s -> block16 k ->
  aes_enc_round s k = xor_bytes (by_cols mixcol (closed_shift (map sbox s))) k.
Proof.
  intros s k Hs Hk. unfold aes_enc_round. rewrite sub_bytes_eq by apply Hs.
  assert (block16 (map sbox s)) as H1 by auto with aes. assert (block16 (closed_shift (map sbox s))) as H2 by auto with aes.
  assert (block16 (by_cols mixcol (closed_shift (map sbox s)))) as H3 by auto with aes.
  rewrite shift_rows_eq by apply H1. rewrite mix_columns_eq by (first [apply H2|apply Hs]). now rewrite add_key_eq by (first [apply H3|apply Hk]).
Qed.
Lemma enc_lastround_eq : forall s k, block16 s -> block16 k -> aes_enc_lastround s k = xor_bytes (closed_shift (map sbox s)) k.
Proof.
  intros s k Hs Hk. unfold aes_enc_lastround. rewrite sub_inplace_eq by apply Hs.
  assert (block16 (map sbox s)) as H1 by auto with aes. assert (block16 (closed_shift (map sbox s))) as H2 by auto with aes.
  rewrite shift_rows_eq by apply H1. now rewrite add_key_eq by (first [apply H2|apply Hk]).
Qed.
Lemma dec_round_eq : forall s k, block16 s -> block16 k ->
  aes_dec_round s k = map invsbox (closed_unshift (by_cols uncol (xor_bytes s k))).
Proof.
  intros s k Hs Hk. unfold aes_dec_round.
  assert (for_ 16 (fun i t => st_ t i (Z.lxor (ix s i) (ix k i))) (repeat 0 16) = xor_bytes s k) as ->.
  { destruct Hs as [Hs _], Hk as [Hk _]. destr16 s. destr16 k. reflexivity. }
  assert (block16 (xor_bytes s k)) as H1 by auto with aes. assert (block16 (by_cols uncol (xor_bytes s k))) as H2 by auto with aes.
  assert (block16 (closed_unshift (by_cols uncol (xor_bytes s k)))) as H3 by auto with aes.
  rewrite inv_mix_columns_eq by (first [apply H1|apply Hs]). rewrite inv_shift_rows_eq by apply H2. now rewrite inv_sub_bytes_eq by apply H3.
Qed.
Lemma dec_firstround_eq : forall s k, block16 s -> block16 k -> aes_dec_firstround s k = map invsbox (closed_unshift (xor_bytes s k)).
Proof.
  intros s k Hs Hk. unfold aes_dec_firstround. rewrite add_key_eq by (first [apply Hs|apply Hk]).
  assert (block16 (xor_bytes s k)) as H1 by auto with aes. assert (block16 (closed_unshift (xor_bytes s k))) as H3 by auto with aes.
  rewrite inv_shift_rows_eq by apply H1. now rewrite inv_sub_bytes_eq by apply H3.
Qed.

(** ** Inverses *)
Lemma xor_bytes_inv : forall a b, length a = length b -> xor_bytes (xor_bytes a b) b = a.
Proof.
  induction a as [|x a IH]; intros [|y b] L; cbn [xor_bytes]; try discriminate; auto. f_equal; [|apply IH; cbn in L; lia].
  rewrite Z.lxor_assoc, Z.lxor_nilpotent, Z.lxor_0_r. reflexivity.
Qed.
Lemma unshift_shift : forall s, length s = 16%nat -> closed_unshift (closed_shift s) = s.
Proof. intros s H. destr16 s. reflexivity. Qed.
Lemma shift_unshift : forall s, length s = 16%nat -> closed_shift (closed_unshift s) = s.
Proof. intros s H. destr16 s. reflexivity. Qed.
Lemma unsub_sub : forall s, Forall is_byte s -> map invsbox (map sbox s) = s.
Proof. induction 1; cbn [map]; [reflexivity|]. f_equal; auto using invsbox_sbox. Qed.
Lemma sub_unsub : forall s, Forall is_byte s -> map sbox (map invsbox s) = s.
Proof. induction 1; cbn [map]; [reflexivity|]. f_equal; auto using sbox_invsbox. Qed.
Definition mrow (a b c d : Z) : Z := Z.lxor (Z.lxor (xt a) (xt b)) (Z.lxor b (Z.lxor c d)).
Lemma unrow_mrow : forall a b c d, is_byte a -> is_byte b -> is_byte c -> is_byte d ->
  unrow (mrow a b c d) (mrow b c d a) (mrow c d a b) (mrow d a b c) = a.
Proof. intros a b c d Ha Hb Hc Hd. unfold unrow, mrow, xor4. lin. xor_eq. Qed.
Lemma mrow_unrow : forall a b c d, is_byte a -> is_byte b -> is_byte c -> is_byte d ->
  mrow (unrow a b c d) (unrow b c d a) (unrow c d a b) (unrow d a b c) = a.
Proof. intros a b c d Ha Hb Hc Hd. unfold unrow, mrow, xor4. lin. xor_eq. Qed.
Lemma mixcol_rows : forall a b c d, mixcol a b c d = [mrow a b c d; mrow b c d a; mrow c d a b; mrow d a b c].
Proof. reflexivity. Qed.
Lemma unmix_mix : forall s, block16 s -> by_cols uncol (by_cols mixcol s) = s.
Proof.
  intros s [H F]. destr16 s. inv_bytes. cbv [by_cols seq flat_map app ix nth Nat.mul Nat.add]. rewrite !mixcol_rows. cbv [uncol app nth].
  rewrite !unrow_mrow by assumption. reflexivity.
Qed.
Lemma mix_unmix : forall s, block16 s -> by_cols mixcol (by_cols uncol s) = s.
Proof.
  intros s [H F]. destr16 s. inv_bytes. cbv [by_cols seq flat_map app ix nth Nat.mul Nat.add]. cbv [uncol app nth]. rewrite !mixcol_rows. cbn [app].
  rewrite !mrow_unrow by assumption. reflexivity.
Qed.
Lemma dec_enc_round : forall s k, block16 s -> block16 k -> aes_dec_round (aes_enc_round s k) k = s.
Proof.
  intros s k Hs Hk. rewrite enc_round_eq by auto. assert (block16 (map sbox s)) as H1 by auto with aes.
  assert (block16 (by_cols mixcol (closed_shift (map sbox s)))) as H3 by auto with aes.
  rewrite dec_round_eq by auto with aes. rewrite xor_bytes_inv by (destruct H3 as [-> _], Hk as [-> _]; reflexivity).
  rewrite unmix_mix by auto with aes. rewrite unshift_shift by apply H1. apply unsub_sub, Hs.
Qed.
Lemma dec_enc_last : forall s k, block16 s -> block16 k -> aes_dec_firstround (aes_enc_lastround s k) k = s.
Proof.
  intros s k Hs Hk. rewrite enc_lastround_eq by auto. assert (block16 (map sbox s)) as H1 by auto with aes.
  assert (block16 (closed_shift (map sbox s))) as H3 by auto with aes.
  rewrite dec_firstround_eq by auto with aes. rewrite xor_bytes_inv by (destruct H3 as [-> _], Hk as [-> _]; reflexivity).
  rewrite unshift_shift by apply H1. apply unsub_sub, Hs.
Qed.
Lemma enc_dec_round : forall s k, block16 s -> block16 k -> aes_enc_round (aes_dec_round s k) k = s.
Proof.
  intros s k Hs Hk. rewrite dec_round_eq by auto. assert (block16 (xor_bytes s k)) as H0 by auto with aes.
  assert (block16 (by_cols uncol (xor_bytes s k))) as H1 by auto with aes.
  assert (block16 (closed_unshift (by_cols uncol (xor_bytes s k)))) as H2 by auto with aes.
  rewrite enc_round_eq by auto with aes. rewrite sub_unsub by apply H2. rewrite shift_unshift by apply H1. rewrite mix_unmix by auto.
  apply xor_bytes_inv. destruct Hs as [-> _], Hk as [-> _]. reflexivity.
Qed.
Lemma enc_dec_last : forall s k, block16 s -> block16 k -> aes_enc_lastround (aes_dec_firstround s k) k = s.
Proof.
  intros s k Hs Hk. rewrite dec_firstround_eq by auto. assert (block16 (xor_bytes s k)) as H0 by auto with aes.
  assert (block16 (closed_unshift (xor_bytes s k))) as H2 by auto with aes.
  rewrite enc_lastround_eq by auto with aes. rewrite sub_unsub by apply H2. rewrite shift_unshift by apply H0.
  apply xor_bytes_inv. destruct Hs as [-> _], Hk as [-> _]. reflexivity.
Qed.
Lemma enc_round_block : forall s k, block16 s -> block16 k -> block16 (aes_enc_round s k).
Proof. intros. rewrite enc_round_eq by auto. auto 8 with aes. Qed.
Lemma enc_lastround_block : forall s k, block16 s -> block16 k -> block16 (aes_enc_lastround s k).
Proof. intros. rewrite enc_lastround_eq by auto. auto 8 with aes. Qed.
Lemma dec_round_block : forall s k, block16 s -> block16 k -> block16 (aes_dec_round s k).
Proof. intros. rewrite dec_round_eq by auto. auto 8 with aes. Qed.
Lemma dec_firstround_block : forall s k, block16 s -> block16 k -> block16 (aes_dec_firstround s k).
Proof. intros. rewrite dec_firstround_eq by auto. auto 8 with aes. Qed.

(** A key schedule for [n] rounds: bytes, long enough. *)
Definition schedule_ok (ks : list Z) (n : nat) : Prop := (16 * (n + 1) <= length ks)%nat /\ Forall is_byte ks.
Lemma key_at_block : forall ks n i, schedule_ok ks n -> (i <= n)%nat -> block16 (key_at ks i).
Proof.
  intros ks n i [L F] Hi. unfold key_at. split; [rewrite firstn_length, skipn_length; lia|].
  rewrite <- (firstn_skipn (16 * i) ks) in F. apply Forall_app in F as [_ F]. rewrite <- (firstn_skipn 16 (skipn (16 * i) ks)) in F. now apply Forall_app in F.
Qed.

(** The decryption rounds undo the encryption rounds. *)
Lemma fold_inv : forall (f : list Z -> nat -> list Z) n l s, (forall s j, (j <= n)%nat -> block16 s -> block16 (f s j)) ->
  block16 s -> Forall (fun j => (j <= n)%nat) l -> block16 (fold_left f l s).
Proof. intros f n l s Hf. revert s. induction l as [|j l IH]; intros s Hs F; cbn [fold_left]; auto. inversion F; subst. apply IH; auto. Qed.
Lemma fold_cancel : forall (f g : list Z -> nat -> list Z) n l s, (forall s j, (j <= n)%nat -> block16 s -> block16 (f s j)) ->
  (forall s j, (j <= n)%nat -> block16 s -> g (f s j) j = s) -> block16 s -> Forall (fun j => (j <= n)%nat) l ->
  fold_left g (rev l) (fold_left f l s) = s.
Proof.
  intros f g n l s Hf Hg. revert s. induction l as [|j l IH]; intros s Hs F; [reflexivity|]. inversion F; subst. cbn [rev fold_left]. rewrite fold_left_app. cbn [fold_left].
  rewrite IH; auto.
Qed.
Lemma rounds_block : forall ks n l s, schedule_ok ks n -> block16 s -> Forall (fun j => (j <= n)%nat) l ->
  block16 (fold_left (fun s j => aes_enc_round s (key_at ks j)) l s).
Proof. intros ks n l s K Hs F. apply fold_inv with n; auto. intros; apply enc_round_block; eauto using key_at_block. Qed.
Lemma unrounds_block : forall ks n l s, schedule_ok ks n -> block16 s -> Forall (fun j => (j <= n)%nat) l ->
  block16 (fold_left (fun s j => aes_dec_round s (key_at ks j)) l s).
Proof. intros ks n l s K Hs F. apply fold_inv with n; auto. intros; apply dec_round_block; eauto using key_at_block. Qed.
Lemma unrounds_rounds : forall ks n l s, schedule_ok ks n -> block16 s -> Forall (fun j => (j <= n)%nat) l ->
  fold_left (fun s j => aes_dec_round s (key_at ks j)) (rev l) (fold_left (fun s j => aes_enc_round s (key_at ks j)) l s) = s.
Proof.
  intros ks n l s K Hs F. apply (fold_cancel (fun s j => aes_enc_round s (key_at ks j)) (fun s j => aes_dec_round s (key_at ks j)) n); auto.
  - intros; apply enc_round_block; eauto using key_at_block.
  - intros; apply dec_enc_round; eauto using key_at_block.
Qed.
Lemma rounds_unrounds : forall ks n l s, schedule_ok ks n -> block16 s -> Forall (fun j => (j <= n)%nat) l ->
  fold_left (fun s j => aes_enc_round s (key_at ks j)) (rev l) (fold_left (fun s j => aes_dec_round s (key_at ks j)) l s) = s.
Proof.
  intros ks n l s K Hs F. apply (fold_cancel (fun s j => aes_dec_round s (key_at ks j)) (fun s j => aes_enc_round s (key_at ks j)) n); auto.
  - intros; apply dec_round_block; eauto using key_at_block.
  - intros; apply enc_dec_round; eauto using key_at_block.
Qed.
Lemma seq_le : forall n m, (n <= m)%nat -> Forall (fun j => (j <= m)%nat) (seq 1 (n - 1)).
Proof. intros n m H. apply Forall_forall. intros j Hj. apply in_seq in Hj. lia. Qed.

Lemma core_eq : forall s ks n, aes_encrypt_core s ks n =
  aes_enc_lastround (fold_left (fun s j => aes_enc_round s (key_at ks j)) (seq 1 (n - 1)) (add_key (key_at ks 0) s)) (key_at ks n).
Proof. intros s ks n. unfold aes_encrypt_core. reflexivity. Qed.
Lemma uncore_eq : forall s ks n, aes_decrypt_core s ks n =
  add_key (key_at ks 0) (fold_left (fun s j => aes_dec_round s (key_at ks j)) (rev (seq 1 (n - 1))) (aes_dec_firstround s (key_at ks n))).
Proof. intros s ks n. unfold aes_decrypt_core. reflexivity. Qed.

Lemma decrypt_encrypt : forall s ks n, (1 <= n)%nat -> block16 s -> schedule_ok ks n -> aes_decrypt_core (aes_encrypt_core s ks n) ks n = s.
Proof.
  intros s ks n Hn Hs K. rewrite core_eq, uncore_eq by auto. pose proof (key_at_block ks n 0 K ltac:(lia)) as K0. pose proof (key_at_block ks n n K ltac:(lia)) as Kn.
  rewrite (add_key_eq _ s) by (first [apply Hs|apply K0]). assert (block16 (xor_bytes s (key_at ks 0))) as H0 by auto with aes.
  rewrite dec_enc_last by (auto; eapply rounds_block; eauto using seq_le). rewrite (unrounds_rounds ks n) by (auto using seq_le).
  rewrite add_key_eq by (first [apply H0|apply K0]). apply xor_bytes_inv. destruct Hs as [-> _], K0 as [-> _]. reflexivity.
Qed.
Lemma encrypt_decrypt : forall s ks n, (1 <= n)%nat -> block16 s -> schedule_ok ks n -> aes_encrypt_core (aes_decrypt_core s ks n) ks n = s.
Proof.
  intros s ks n Hn Hs K. rewrite core_eq, uncore_eq by auto. pose proof (key_at_block ks n 0 K ltac:(lia)) as K0. pose proof (key_at_block ks n n K ltac:(lia)) as Kn.
  assert (block16 (aes_dec_firstround s (key_at ks n))) as H1 by (now apply dec_firstround_block).
  set (u := fold_left _ (rev _) _). assert (block16 u) as Hu by (apply unrounds_block with n; auto; apply Forall_rev; auto using seq_le).
  rewrite (add_key_eq _ u) by (first [apply Hu|apply K0]). assert (block16 (xor_bytes u (key_at ks 0))) as H0 by auto with aes.
  rewrite add_key_eq by (first [apply H0|apply K0]). rewrite xor_bytes_inv by (destruct Hu as [-> _], K0 as [-> _]; reflexivity).
  subst u. rewrite <- (rev_involutive (seq 1 (n - 1))) at 1. rewrite (rounds_unrounds ks n) by (auto; apply Forall_rev; auto using seq_le).
  now apply enc_dec_last.
Qed.
Lemma encrypt_block : forall s ks n, (1 <= n)%nat -> block16 s -> schedule_ok ks n -> block16 (aes_encrypt_core s ks n).
Proof.
  intros s ks n Hn Hs K. rewrite core_eq by auto. pose proof (key_at_block ks n 0 K ltac:(lia)) as K0. pose proof (key_at_block ks n n K ltac:(lia)) as Kn.
  rewrite add_key_eq by (first [apply Hs|apply K0]). apply enc_lastround_block; auto. apply rounds_block with n; auto using seq_le with aes.
Qed.
Lemma decrypt_block : forall s ks n, (1 <= n)%nat -> block16 s -> schedule_ok ks n -> block16 (aes_decrypt_core s ks n).
Proof.
  intros s ks n Hn Hs K. rewrite uncore_eq by auto. pose proof (key_at_block ks n 0 K ltac:(lia)) as K0. pose proof (key_at_block ks n n K ltac:(lia)) as Kn.
  set (u := fold_left _ (rev _) _). assert (block16 u) as Hu by (apply unrounds_block with n; auto using dec_firstround_block; apply Forall_rev; auto using seq_le).
  rewrite add_key_eq by (first [apply Hu|apply K0]). auto with aes.
Qed.
