(** Proofs about prnf without long long where long has 32 bits: the same as the build where
    prnf_long_t has 64 bits, as long as nothing wider is asked for. *)
From Coq Require Import Lia.
From Verif Require Import Base Mem Libc StrviewModel Spec MemLemmas StrviewProofs StrviewProofs3 NumSpec StrnumProofs3
  PrnfModel PrnfSpec PrnfSpec2 PrnfConfModel PrnfConfSpec PrnfConfProofs PrnfLongModel PrnfLongSpec.

(** ** Numbers *)
Lemma asc_same : forall fuel k txt il, 0 <= k -> Zlen txt + k <= 10 -> 0 <= il < 10 ^ k -> asc_loop_32 fuel 0 txt il = asc_loop fuel 0 txt il.
Proof.
  induction fuel as [|fuel IH]; intros k txt il Hk Ht Hi; cbn [asc_loop_32 asc_loop]; [reflexivity|].
  destruct (0 <? il) eqn:E; [|reflexivity]. apply Z.ltb_lt in E.
  assert (1 <= k) as K1. { destruct (Z.eq_dec k 0) as [->|]; [change (10 ^ 0) with 1 in Hi; lia|lia]. }
  unfold txt_put_32, txt_put, DEC_BUF_SIZE_32, DEC_BUF_SIZE.
  destruct (Z.ltb_spec (Zlen txt) 10); [|lia]. destruct (Z.ltb_spec (Zlen txt) 20); [|lia]. cbn [bind].
  apply (IH (k - 1)); [lia|rewrite Zlen_app; change (Zlen [48 + il mod 10]) with 1; lia|].
  split; [apply Z.div_pos; lia|]. apply Z.div_lt_upper_bound; [lia|]. replace (10 * 10 ^ (k - 1)) with (10 ^ k); [lia|].
  replace k with (Z.succ (k - 1)) at 1 by lia. rewrite Z.pow_succ_r by lia. reflexivity.
Qed.
Lemma asc_none : forall f u, u <= 4294967295 -> asc_loop_32 (S f) UINT_MAX [] u = Ok ([], u) /\ asc_loop (S f) UINT_MAX [] u = Ok ([], u).
Proof. intros f u H. cbn [asc_loop_32 asc_loop]. unfold UINT_MAX. destruct (Z.ltb_spec 4294967295 u); [lia|]. split; reflexivity. Qed.
Lemma asc_rev_same : forall u, 0 <= u < 2 ^ 32 -> ulong2asc_rev_32 u = ulong2asc_rev u.
Proof.
  intros u Hu. unfold ulong2asc_rev_32, ulong2asc_rev. change (2 ^ 32) with 4294967296 in Hu.
  rewrite (proj1 (asc_none 63 u ltac:(lia))), (proj2 (asc_none 63 u ltac:(lia))).
  cbn [bind]. rewrite (asc_same 64 10) by (try change (Zlen (@nil Z)) with 0; try change (10 ^ 10) with 10000000000; lia).
  destruct (asc_loop 64 0 [] u) as [[t x]| |]; cbn [bind]; [|reflexivity|reflexivity]. destruct t; reflexivity.
Qed.

Section Same.
Variable cf : cfg.
Variable A : fops.
Variable W : Type.
Variable rd : W -> mem.
Variable wr : W -> mem -> W.
Variable col : bool.
Hypothesis long32 : c_long64 cf = false.

(** The integer that is printed has the value it has in 64 bits. *)
Lemma dec_same : forall o ph b, 0 <= b < 2 ^ 32 -> (is_type_unsigned (ph_type ph) = true \/ c_wrapv cf = true \/ b <> 2 ^ 31) ->
  print_dec_32 cf W rd wr o ph (s32 b) = print_dec cf W rd wr o ph (s64 (if is_type_unsigned (ph_type ph) then b else s32 b mod two64')).
Proof.
  intros o ph b Hb Hm. unfold print_dec_32, print_dec. change (2 ^ 32) with 4294967296 in Hb. change (2 ^ 31) with 2147483648 in Hm.
  assert (forall u s, 0 <= u < 2 ^ 32 -> (let! (uvalue, sign_char) := Ok (u, s) in
    let! txt := ulong2asc_rev_32 uvalue in
    let number_len := Zlen txt in
    let! zero_pad_len := if ph_pspec ph && (number_len <? ph_prec ph) then isub cf (ph_prec ph) number_len else Ok 0 in
    let! number_len := iadd cf number_len zero_pad_len in
    let! number_len := if sign_char =? 0 then Ok number_len else iadd cf number_len 1 in
    let! o := prepad cf W rd wr o ph number_len in
    let! o := if sign_char =? 0 then Ok o else out_char cf W rd wr o sign_char in
    let! n := loops cf zero_pad_len in
    let! o := out_rep cf W rd wr n o 48 in
    let! o := out_chars cf W rd wr o (rev txt) in
    postpad cf W rd wr o ph number_len) = (let! (uvalue, sign_char) := Ok (u, s) in
    let! txt := ulong2asc_rev uvalue in
    let number_len := Zlen txt in
    let! zero_pad_len := if ph_pspec ph && (number_len <? ph_prec ph) then isub cf (ph_prec ph) number_len else Ok 0 in
    let! number_len := iadd cf number_len zero_pad_len in
    let! number_len := if sign_char =? 0 then Ok number_len else iadd cf number_len 1 in
    let! o := prepad cf W rd wr o ph number_len in
    let! o := if sign_char =? 0 then Ok o else out_char cf W rd wr o sign_char in
    let! n := loops cf zero_pad_len in
    let! o := out_rep cf W rd wr n o 48 in
    let! o := out_chars cf W rd wr o (rev txt) in
    postpad cf W rd wr o ph number_len)) as K.
  { intros u s Hu. cbn [bind]. rewrite asc_rev_same by exact Hu. reflexivity. }
  change (2 ^ 32) with 4294967296 in K.
  destruct (is_type_unsigned (ph_type ph)) eqn:T.
  - assert (s32 b mod two32' = b) as ->.
    { unfold s32, two32'. destruct (Z.ltb_spec b 2147483648); [apply Z.mod_small; lia|].
      replace (b - 4294967296) with (b + (-1) * 4294967296) by lia. rewrite Z.mod_add by lia. apply Z.mod_small. lia. }
    assert (s64 b mod two64' = b) as ->.
    { unfold s64, two64'. destruct (Z.ltb_spec b 9223372036854775808); [apply Z.mod_small; lia|lia]. }
    apply K. lia.
  - assert (s64 (s32 b mod two64') = s32 b /\ -2147483648 <= s32 b < 2147483648) as [-> Hs].
    { unfold s32, s64, two32', two64'. destruct (Z.ltb_spec b 2147483648).
      - rewrite Z.mod_small by lia. destruct (Z.ltb_spec b 9223372036854775808); lia.
      - replace (b - 4294967296) with (b - 4294967296 + 18446744073709551616 + (-1) * 18446744073709551616) by lia. rewrite Z.mod_add by lia. rewrite Z.mod_small by lia.
        destruct (Z.ltb_spec (b - 4294967296 + 18446744073709551616) 9223372036854775808); lia. }
    assert ((s32 b =? INT_MIN) && negb (c_wrapv cf) = false) as ->.
    { destruct Hm as [Hm|[->|Hm]]; [discriminate|apply andb_false_r|]. apply andb_false_iff. left. apply Z.eqb_neq. unfold s32, INT_MIN, two32'.
      destruct (Z.ltb_spec b 2147483648); lia. }
    assert ((s32 b =? LLONG_MIN) = false) as -> by (apply Z.eqb_neq; unfold LLONG_MIN; lia).
    cbn [andb]. unfold two32', two64'. destruct (Z.ltb_spec (s32 b) 0).
    + rewrite !Z.mod_small by lia. apply K. lia.
    + rewrite !Z.mod_small by lia. apply K. lia.
Qed.

Lemma small_int : forall z, -2147483648 <= z <= 2147483647 -> int_res cf z = Ok z.
Proof. intros z H. unfold int_res, in_int, INT_MIN, INT_MAX. destruct (Z.leb_spec (-2147483648) z); [|lia]. destruct (Z.leb_spec z 2147483647); [|lia]. reflexivity. Qed.
Definition small (n : Z) : Prop := n = 1 \/ n = 2 \/ n = 4.
Lemma bin_same : forall o ph b, ph_pspec ph = false -> small (ph_size ph) -> print_bin_32 cf W rd wr o ph b = print_bin cf W rd wr o ph b.
Proof.
  intros o ph b Hp Hs. unfold print_bin_32, print_bin. rewrite Hp. destruct (prepad cf W rd wr o ph _) as [o1| |]; cbn [bind]; [|reflexivity|reflexivity].
  unfold isub. destruct Hs as [->|[->| ->]]; rewrite small_int by lia; reflexivity.
Qed.
Lemma hex_loop_same : forall fuel o u k, 0 < k <= 8 -> hex_loop_32 cf W rd wr fuel o u (k * 4) = hex_loop cf W rd wr fuel o u (k * 4).
Proof.
  induction fuel as [|fuel IH]; intros o u k Hk; cbn [hex_loop_32 hex_loop]; [reflexivity|]. cbv zeta.
  rewrite Z.mod_small by lia. destruct (Z.ltb_spec (k * 4 - 4) 32); [|lia]. destruct (Z.ltb_spec (k * 4 - 4) 64); [|lia].
  destruct (out_char _ _ _ _ _ _) as [o1| |]; cbn [bind]; [|reflexivity|reflexivity]. destruct (Z.eqb_spec (k * 4 - 4) 0); [reflexivity|].
  replace (k * 4 - 4) with ((k - 1) * 4) by lia. apply IH. lia.
Qed.
Lemma hex_same : forall o ph b, ph_pspec ph = false -> small (ph_size ph) -> print_hex_32 cf W rd wr o ph b = print_hex cf W rd wr o ph b.
Proof.
  intros o ph b Hp Hs. unfold print_hex_32, print_hex. rewrite Hp. destruct (prepad cf W rd wr o ph _) as [o1| |]; cbn [bind]; [|reflexivity|reflexivity].
  assert (0 < ph_size ph * 2 <= 8) as H by (unfold small in Hs; lia). rewrite small_int by lia. cbn [bind]. rewrite Z.mod_small by lia.
  rewrite hex_loop_same by lia. reflexivity.
Qed.

(** ** Placeholders *)
Lemma read_dyn_ok : forall ph va ph1 va1, read_dyn cf A ph va = Ok (ph1, va1) ->
  ph_pspec ph1 = ph_pspec ph /\ ph_size ph1 = ph_size ph /\ ph_type ph1 = ph_type ph /\ incl va1 va.
Proof.
  intros ph va ph1 va1 H. unfold read_dyn in H.
  match type of H with bind ?X _ = _ => destruct X as [[ph2 va2]| |] eqn:E end; cbn [bind] in H; try discriminate.
  assert (ph_pspec ph2 = ph_pspec ph /\ ph_size ph2 = ph_size ph /\ ph_type ph2 = ph_type ph /\ incl va2 va) as (<- & <- & <- & I2).
  { destruct (ph_wdyn ph); [|injection E as <- <-; auto using incl_refl]. unfold next_int in E. destruct va as [|[b|b|p|d] t]; cbn [bind] in E; try discriminate.
    assert (incl t (A32 b :: t)) as It by (apply incl_tl, incl_refl).
    destruct (s32 b <? 0).
    - destruct (isub cf 0 (s32 b)); cbn [bind] in E; try discriminate. injection E as <- <-. auto.
    - injection E as <- <-. auto. }
  destruct (ph_pdyn ph2); [|injection H as <- <-; auto]. unfold next_int in H. destruct va2 as [|[b|b|p|d] t]; cbn [bind] in H; try discriminate.
  injection H as <- <-. repeat split; auto. eapply incl_tran; [|exact I2]. apply incl_tl, incl_refl.
Qed.
(** READ_VARG with 64 bits, in terms of the same two steps. *)
Lemma read_varg_dyn : forall ph va, read_varg cf A ph va =
  let! (ph, va) := read_dyn cf A ph va in
  match ph_type ph with
  | TYPE_NONE => Ok (ph, VNone A, va)
  | TYPE_UINT | TYPE_HEX | TYPE_BIN | TYPE_INT =>
      if ph_size ph =? 8
      then match va with A64 b :: t => Ok (ph, VInt A b, t) | _ => UB UB_varg end
      else match va with
           | A32 b :: t => Ok (ph, VInt A (if is_type_unsigned (ph_type ph) then b else s32 b mod two64'), t)
           | _ => UB UB_varg
           end
  | TYPE_FLOAT | TYPE_ENG => match va with AD d :: t => Ok (ph, VFlt A (f_of_dbl A d), t) | _ => UB UB_varg end
  | TYPE_CHAR => match va with A32 b :: t => Ok (ph, VChar A (b mod 256), t) | _ => UB UB_varg end
  | TYPE_STR => match va with AP p :: t => Ok (ph, VStr A p, t) | _ => UB UB_varg end
  end.
Proof.
  intros ph va. unfold read_varg, read_dyn.
  match goal with |- bind ?X _ = _ => destruct X as [[ph2 va2]| |] end; reflexivity.
Qed.

(** What a placeholder of the format needs. *)
Definition ph_narrow (ph : placeholder) (va : list (arg (dbl A))) : Prop :=
  small (ph_size ph) /\ (ph_pspec ph = true -> ph_type ph <> TYPE_HEX /\ ph_type ph <> TYPE_BIN) /\
  (ph_type ph = TYPE_INT -> c_wrapv cf = true \/ ~ In (A32 (2 ^ 31)) va) /\ ph_type ph <> TYPE_FLOAT /\ ph_type ph <> TYPE_ENG.
Lemma placeholder_same : forall {B} ph va o (k1 k2 : out W -> list (arg (dbl A)) -> outcome B), Forall int_bits va -> ph_narrow ph va ->
  (forall o1 va1 ph1 v, incl va1 va -> print_placeholder cf A W rd wr o v ph1 = Ok o1 -> k1 o1 va1 = k2 o1 va1) ->
  (let! (ph, v, va) := read_varg_32 cf A ph va in let! o := print_placeholder_32 cf A W rd wr o v ph in k1 o va) =
  (let! (ph, v, va) := read_varg cf A ph va in let! o := print_placeholder cf A W rd wr o v ph in k2 o va).
Proof.
  intros B ph va o k1 k2 Hb (Hs & Hd & Hn & Hf & He) Hk. rewrite read_varg_dyn. unfold read_varg_32.
  destruct (read_dyn cf A ph va) as [[ph1 va1]| |] eqn:E; cbn [bind]; [|reflexivity|reflexivity]. apply read_dyn_ok in E as (E1 & E2 & E3 & E4).
  rewrite <- E1, <- E3 in Hd. rewrite <- E2 in Hs. rewrite <- E3 in Hn, Hf, He.
  assert ((ph_size ph1 =? 8) = false) as -> by (apply Z.eqb_neq; unfold small in Hs; lia).
  assert (forall o1 v1 t, incl t va -> print_placeholder_32 cf A W rd wr o o1 ph1 = print_placeholder cf A W rd wr o v1 ph1 ->
    (let! o := print_placeholder_32 cf A W rd wr o o1 ph1 in k1 o t) = (let! o := print_placeholder cf A W rd wr o v1 ph1 in k2 o t)) as G.
  { intros v v1 t It Ep. rewrite Ep. destruct (print_placeholder cf A W rd wr o v1 ph1) as [o1| |] eqn:Eo; cbn [bind]; [|reflexivity|reflexivity]. eapply Hk; eauto. }
  assert (forall a t, va1 = a :: t -> incl t va) as It.
  { intros a t ->. intros x Hx. apply E4. now right. }
  assert (forall b t, va1 = A32 b :: t -> 0 <= b < 2 ^ 32) as Ib.
  { intros b t ->. rewrite Forall_forall in Hb. exact (Hb (A32 b) (E4 _ (or_introl eq_refl))). }
  destruct (ph_type ph1) eqn:T; try congruence.
  all: lazymatch type of T with _ = TYPE_NONE => idtac | _ => destruct va1 as [|[b|b|p|d] t] end; cbn [bind].
  all: lazymatch goal with |- UB _ = UB _ => reflexivity | _ => apply G; [eauto|] end.
  all: unfold print_placeholder_32, print_placeholder; rewrite T.
  all: lazymatch type of T with _ = TYPE_NONE => reflexivity | _ = TYPE_CHAR => reflexivity | _ = TYPE_STR => reflexivity | _ => idtac end.
  all: lazymatch type of T with
       | _ = TYPE_UINT => rewrite dec_same; [rewrite T; reflexivity|eapply Ib; reflexivity|rewrite T; auto]
       | _ = TYPE_HEX => apply hex_same; [destruct (ph_pspec ph1) eqn:Q; [destruct (Hd eq_refl); congruence|reflexivity]|exact Hs]
       | _ = TYPE_BIN => apply bin_same; [destruct (ph_pspec ph1) eqn:Q; [destruct (Hd eq_refl); congruence|reflexivity]|exact Hs]
       | _ => rewrite dec_same; [rewrite T; reflexivity|eapply Ib; reflexivity|right; destruct (Hn eq_refl) as [?|N]; [now left|right; intros ->; apply N, E4; now left]]
       end.
Qed.
End Same.
