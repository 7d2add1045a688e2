(** Proofs about the preprocessor layer. *)
From Verif Require Import Base Mem Libc StrviewModel Spec MemLemmas StrviewProofs StrnumModel Alloc StrbufModel MacroModel.
Local Open Scope Z_scope.

Lemma lookup_at : forall T name a b (args : list T), ~ In name a -> pp_lookup name (a ++ name :: b) args = nth_error args (length a).
Proof.
  induction a as [|x a IH]; intros b args H; destruct args as [|y args]; cbn [app pp_lookup length nth_error]; try reflexivity.
  - now rewrite Z.eqb_refl.
  - destruct (x =? name) eqn:E; [apply Z.eqb_eq in E; subst; exfalso; apply H; now left|].
    apply IH. intro K. apply H. now right.
Qed.
Lemma params_last : exists a, pp_params = a ++ [0] /\ length a = 127%nat /\ ~ In 0 a.
Proof.
  exists (removelast pp_params). split; [reflexivity|]. split; [reflexivity|].
  intro H. assert (K : existsb (Z.eqb 0) (removelast pp_params) = false) by reflexivity.
  assert (existsb (Z.eqb 0) (removelast pp_params) = true) by (apply existsb_exists; exists 0; auto). congruence.
Qed.
Lemma rseq_length : length pp_rseq_n = 128%nat.
Proof. reflexivity. Qed.
Lemma rseq_nth : forall k, (k < 128)%nat -> nth_error pp_rseq_n k = Some (127 - Z.of_nat k).
Proof.
  intros k H.
  assert (K : forallb (fun k => match nth_error pp_rseq_n k with Some z => z =? 127 - Z.of_nat k | None => false end) (seq 0 128) = true)
    by (vm_compute; reflexivity).
  rewrite forallb_forall in K. specialize (K k ltac:(apply in_seq; lia)).
  destruct (nth_error pp_rseq_n k); [|discriminate]. apply Z.eqb_eq in K. now subst.
Qed.
Lemma va_args_length : forall A (l : list A), l <> [] -> va_args l = map Expr l.
Proof. intros A [|x l] H; [congruence|reflexivity]. Qed.
Lemma arg128_ok : forall T (args : list T), (128 < length args)%nat -> pp_128th_arg args = nth_error args 127.
Proof.
  intros T args H. unfold pp_128th_arg. change (pp_distinct pp_params) with true. change (length pp_params) with 128%nat. cbn [andb].
  rewrite (proj2 (Z.ltb_lt _ _)) by lia. destruct params_last as (a & -> & E & N). rewrite lookup_at by exact N. now rewrite E.
Qed.
Lemma narg_ok : forall A (l : list A), (1 <= length l <= 127)%nat -> pp_narg l = Some (Num (Z.of_nat (length l))).
Proof.
  intros A l H. unfold pp_narg. rewrite va_args_length by (destruct l; cbn in H; [lia|discriminate]).
  rewrite arg128_ok by (rewrite app_length, !map_length, rseq_length; lia).
  rewrite nth_error_app2 by (rewrite map_length; lia). rewrite map_length.
  rewrite (map_nth_error _ _ _ (rseq_nth (127 - length l) ltac:(lia))). do 2 f_equal. lia.
Qed.
Lemma narg_none : forall A, pp_narg (@nil A) = Some (Num 1).
Proof. reflexivity. Qed.
Lemma narg_many : forall A (l : list A), (128 <= length l)%nat -> exists x, pp_narg l = Some (Expr x).
Proof.
  intros A l H. unfold pp_narg. rewrite va_args_length by (destruct l; cbn in H; [lia|discriminate]).
  rewrite arg128_ok by (rewrite app_length, !map_length, rseq_length; lia).
  rewrite nth_error_app1 by (rewrite map_length; lia).
  destruct (nth_error l 127) as [x|] eqn:E; [|apply nth_error_None in E; lia].
  exists x. now rewrite (map_nth_error _ _ _ E).
Qed.
Lemma cat_n_ok : forall cf w bp l, strbuf_cat_n cf w bp (Z.of_nat (length l)) l = strbuf_cat cf w bp l.
Proof. intros. unfold strbuf_cat_n. rewrite Z.ltb_irrefl, Nat2Z.id. now rewrite firstn_all. Qed.
Lemma cat_macro_ok : forall cf w bp l, (1 <= length l <= 127)%nat -> strbuf_cat_macro cf w bp l = Some (strbuf_cat cf w bp l).
Proof.
  intros cf w bp l H. unfold strbuf_cat_macro. rewrite narg_ok by exact H. destruct l; [cbn in H; lia|]. now rewrite cat_n_ok.
Qed.
Lemma cat_macro_many : forall cf w bp l, (length l = 0 \/ 128 <= length l)%nat -> strbuf_cat_macro cf w bp l = None.
Proof.
  intros cf w bp l [H|H]; [destruct l; [reflexivity|discriminate]|]. unfold strbuf_cat_macro. destruct (narg_many _ l H) as [x ->]. reflexivity.
Qed.

(** A text argument is the view [v]. *)
Definition is_view (m : mem) (a : targ) (v : view) : Prop :=
  match a with AView u => v = u | AConst p | AChar p => cstr m p = Ok v | AOther => False end.
Lemma generic_ok : forall R (f g : ptr -> outcome R) (h : view -> outcome R) m a v, is_view m a v ->
  (forall p, cstr m p = Ok v -> f p = h v /\ g p = h v) -> generic f g h a = Some (h v).
Proof.
  intros R f g h m [p|p|u|] v H K; cbn [is_view] in H; [| |subst|tauto]; cbn [generic].
  - now rewrite (proj1 (K p H)).
  - now rewrite (proj2 (K p H)).
  - reflexivity.
Qed.

Lemma value_assocs_parse : forall cf A32 A64 A80, generic_assocs (value_assocs cf A32 A64 A80) = Some
  [(DUchar, PInt (strnum_consume_uchar cf)); (DUshort, PInt (strnum_consume_ushort cf)); (DUint, PInt (strnum_consume_uint cf));
   (DUlong, PInt (strnum_consume_ulong cf)); (DUllong, PInt (strnum_consume_ullong cf)); (DChar, PInt (strnum_consume_char cf));
   (DShort, PInt (strnum_consume_short cf)); (DInt, PInt (strnum_consume_int cf)); (DLong, PInt (strnum_consume_long cf));
   (DLlong, PInt (strnum_consume_llong cf)); (DFloat, PFlt A32 (strnum_consume_float cf A32));
   (DDouble, PFlt A64 (strnum_consume_double cf A64)); (DLdouble, PFlt A80 (strnum_consume_double cf A80))].
Proof. reflexivity. Qed.
