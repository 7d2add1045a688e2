(** Proofs about prnf: every format string is a list of items, ends inside of a placeholder, or
    contains a number beyond INT_MAX. *)
From Verif Require Import Base Mem Libc StrviewModel Spec MemLemmas NumSpec StrnumProofs StrnumProofs2 StrnumProofs3
  PrnfModel PrnfSpec PrnfSpec2 PrnfProofs PrnfProofs2 PrnfProofs3 PrnfProofs4.

Lemma span_parts : forall (p : Z -> bool) f, exists a b, f = a ++ b /\ Forall (fun x => p x = true) a /\ match b with [] => True | x :: _ => p x = false end.
Proof.
  intros p. induction f as [|x f (a & b & -> & Ha & Hb)]; [exists [], []; auto|].
  destruct (p x) eqn:E; [exists (x :: a), b; auto|exists [], (x :: a ++ b); auto].
Qed.

Lemma digit_isdig : forall x, digit x = isdig 10 x.
Proof.
  intros x. destruct (digit x) eqn:E.
  - unfold digit in E. apply andb_true_iff in E as [E1 E2]. apply Z.leb_le in E1, E2. unfold isdig, dval. rewrite (proj2 (Z.leb_le 48 x)), (proj2 (Z.leb_le x 57)) by lia.
    cbn [andb orb]. symmetry. apply Z.ltb_lt. lia.
  - destruct (isdig 10 x) eqn:K; auto. destruct (dig10 x K) as [R _]. unfold digit in E. rewrite (proj2 (Z.leb_le 48 x)), (proj2 (Z.leb_le x 57)) in E by lia. discriminate.
Qed.
Lemma digits_isdig : forall l, Forall (fun x => digit x = true) l -> Forall (fun x => isdig 10 x = true) l.
Proof. intros l H. eapply Forall_impl; [|exact H]. intros x Hx. cbn in *. now rewrite <- digit_isdig. Qed.

(** Digits are the number they stand for, with leading zeros. *)
Lemma fixed_digits_id : forall l, Forall (fun x => isdig 10 x = true) l -> fixed 10 (length l) (num_val 10 l) = l /\ 0 <= num_val 10 l < 10 ^ Z.of_nat (length l).
Proof.
  induction l as [|x l IH] using rev_ind; intros F; [cbn; split; [reflexivity|lia]|].
  apply Forall_app in F as [F1 F2]. inversion F2 as [|? ? Hx _]; subst. destruct (dig10 x Hx) as [R D]. destruct (IH F1) as [E B].
  rewrite app_length. cbn [length]. rewrite Nat.add_1_r. cbn [fixed].
  assert (num_val 10 (l ++ [x]) = num_val 10 l * 10 + dval x) as -> by (unfold num_val; rewrite fold_left_app; reflexivity).
  rewrite D, (Z.add_comm (_ * 10)), Z.div_add, Z.mod_add by lia. rewrite Z.div_small, Z.mod_small by lia. rewrite Z.add_0_l, E. split.
  - f_equal. f_equal. unfold upper_digit. rewrite (proj2 (Z.ltb_lt _ _)) by lia. lia.
  - rewrite Nat2Z.inj_succ, Z.pow_succ_r by lia. lia.
Qed.
Lemma digits_num : forall l, Forall (fun x => isdig 10 x = true) l -> l <> [] -> num_val 10 l <= INT_MAX ->
  exists z, l = num_text z (num_val 10 l) /\ 0 <= num_val 10 l.
Proof.
  intros l F N Hm. destruct (fixed_digits_id l F) as [E B].
  assert (1 <= length l)%nat as L by (destruct l; [congruence|cbn; lia]).
  rewrite (fixed_show (length l) (num_val 10 l)) in E by (auto; unfold two64', INT_MAX in *; lia).
  exists (Z.to_nat (Z.of_nat (length l) - Zlen (show 10 (num_val 10 l)))). split; [|lia]. rewrite <- E at 1. reflexivity.
Qed.
Lemma digits_show : forall x l, Forall (fun x => isdig 10 x = true) (x :: l) -> x <> 48 -> num_val 10 (x :: l) <= INT_MAX ->
  x :: l = show 10 (num_val 10 (x :: l)) /\ 0 < num_val 10 (x :: l).
Proof.
  intros x l F N Hm. destruct (digits_num (x :: l) F) as (z & E & B); auto; [discriminate|].
  destruct z as [|z]; [|unfold num_text in E; cbn [repeat app] in E; injection E as E1 E2; congruence]. split; [exact E|].
  destruct (Z.eq_dec (num_val 10 (x :: l)) 0) as [Z0|]; [|lia]. rewrite Z0 in E. change (num_text 0 0) with [48] in E. congruence.
Qed.

Lemma flags_of : forall l, Forall (fun x => flag_char x = true) l -> exists fl, l = map flg_char fl.
Proof.
  induction l as [|x l IH]; intros F; [exists []; reflexivity|]. inversion F as [|? ? Hx F']; subst. destruct (IH F') as (fl & ->).
  unfold flag_char in Hx. rewrite !orb_true_iff, !Z.eqb_eq in Hx. destruct Hx as [[[[[->| ->]| ->]| ->]| ->]| ->];
    [exists (FZero :: fl)|exists (FMinus :: fl)|exists (FPlus :: fl)|exists (FSpace :: fl)|exists (FHash :: fl)|exists (FQuote :: fl)]; reflexivity.
Qed.

(** What follows a percent sign, up to the type. *)
Definition ends (c : conv) (r : list Z) : Prop := match r with [] => True | t :: _ => longer c t = false end.
Lemma take_len : forall c r, cv_len c = Lint -> match r with [] => True | t :: _ => longer_prec c t = false end ->
  exists l r', r = len_text l ++ r' /\ ends (Conv (cv_flags c) (cv_width c) (cv_prec c) l) r'.
Proof.
  intros c r Hl H. destruct r as [|x r]; [exists Lint, []; split; [reflexivity|exact Logic.I]|].
  assert (longer_prec (Conv (cv_flags c) (cv_width c) (cv_prec c) Lint) x = false) as H' by exact H.
  destruct (Z.eq_dec x 104) as [->|N1].
  { destruct r as [|y r]; [exists Lh, []; split; [reflexivity|exact Logic.I]|]. destruct (Z.eq_dec y 104) as [->|N].
    - exists Lhh, r. split; [reflexivity|]. destruct r; [exact Logic.I|reflexivity].
    - exists Lh, (y :: r). split; [reflexivity|]. now apply Z.eqb_neq. }
  destruct (Z.eq_dec x 108) as [->|N2].
  { destruct r as [|y r]; [exists Ll, []; split; [reflexivity|exact Logic.I]|]. destruct (Z.eq_dec y 108) as [->|N].
    - exists Lll, r. split; [reflexivity|]. destruct r; [exact Logic.I|reflexivity].
    - exists Ll, (y :: r). split; [reflexivity|]. now apply Z.eqb_neq. }
  destruct (Z.eq_dec x 116) as [->|N3]; [exists Lt, r; split; [reflexivity|destruct r; [exact Logic.I|reflexivity]]|].
  destruct (Z.eq_dec x 122) as [->|N4]; [exists Lz, r; split; [reflexivity|destruct r; [exact Logic.I|reflexivity]]|].
  exists Lint, (x :: r). split; [reflexivity|]. cbn [ends longer cv_len]. unfold longer. cbn [cv_len].
  rewrite !(proj2 (Z.eqb_neq _ _)) by auto. cbn [orb]. exact H'.
Qed.

Lemma take_prec : forall fl w r, match r with [] => True | t :: _ => longer_width (Conv fl w PNone Lint) t = false end ->
  (exists p r', r = prc_text p ++ r' /\ (conv_ok (Conv fl w PNone Lint) -> conv_ok (Conv fl w p Lint)) /\ (forall n, p = PStar n -> n = 1) /\
     match r' with [] => True | t :: _ => longer_prec (Conv fl w p Lint) t = false end) \/
  (exists h, r = 46 :: h /\ huge h).
Proof.
  intros fl w r H. destruct r as [|x r].
  { left; exists PNone, []. split; [reflexivity|]. split; auto. split; [discriminate|exact Logic.I]. }
  destruct (Z.eq_dec x 46) as [->|N].
  2:{ left. exists PNone, (x :: r). split; [reflexivity|]. split; auto. split; [discriminate|]. unfold longer_prec. cbn [cv_prec]. rewrite (proj2 (Z.eqb_neq x 46)) by auto. exact H. }
  destruct r as [|y r].
  { left; exists PDot, []. split; [reflexivity|]. split; [intros [A B]; split; auto|]. split; [discriminate|exact Logic.I]. }
  destruct (Z.eq_dec y 42) as [->|N].
  { left. exists (PStar 1), r. split; [reflexivity|]. split; [intros [A B]; split; [exact A|cbn [cv_prec]; unfold INT_MIN, INT_MAX; lia]|]. split; [now intros n [= <-]|]. destruct r; auto. }
  destruct (span_parts digit (y :: r)) as (ds & b & E & F & Hb). destruct ds as [|d ds].
  { left. exists PDot, (y :: r). cbn [app] in E. subst b. split; [reflexivity|]. split; [intros [A B]; split; auto|]. split; [discriminate|]. unfold longer_prec. cbn [cv_prec]. rewrite Hb. now apply Z.eqb_neq. }
  pose proof (digits_isdig _ F) as F'. destruct (Z_le_gt_dec (num_val 10 (d :: ds)) INT_MAX) as [L|G].
  - destruct (digits_num (d :: ds) F') as (z & Ez & B); [discriminate|exact L|]. left. exists (PNumZ z (num_val 10 (d :: ds))), b.
    split; [cbn [prc_text app]; rewrite <- Ez, E; reflexivity|]. split; [intros [A _]; split; [exact A|cbn [cv_prec]; lia]|]. split; [discriminate|]. destruct b; auto.
  - right. exists (y :: r). split; [reflexivity|]. exists (d :: ds), b. repeat split; auto. lia.
Qed.

Lemma take_width : forall fl r, match r with [] => True | t :: _ => flag_char t = false /\ (t = 37 -> fl <> []) end ->
  (exists w r', r = wid_text w ++ r' /\ conv_ok (Conv fl w PNone Lint) /\ match r' with [] => True | t :: _ => longer_width (Conv fl w PNone Lint) t = false end) \/
  (huge r /\ hd 0 r <> 48).
Proof.
  intros fl r H. destruct r as [|x r].
  { left. exists WNone, []. split; [reflexivity|]. split; [split; exact Logic.I|exact Logic.I]. }
  destruct H as [H1 H2]. destruct (Z.eq_dec x 42) as [->|N].
  { left. exists (WStar 1), r. split; [reflexivity|]. split; [split; [cbn [cv_width]; unfold INT_MAX; lia|exact Logic.I]|]. destruct r; auto. }
  destruct (span_parts digit (x :: r)) as (ds & b & E & F & Hb). destruct ds as [|d ds].
  { left. exists WNone, (x :: r). cbn [app] in E. subst b. split; [reflexivity|]. split; [split; exact Logic.I|]. unfold longer_width. cbn [cv_width cv_flags].
    rewrite Hb, H1, (proj2 (Z.eqb_neq x 42)) by auto. cbn [orb]. destruct (Z.eqb_spec x 37) as [->|]; [|reflexivity]. destruct fl; [exfalso; now apply H2|reflexivity]. }
  pose proof (digits_isdig _ F) as F'. cbn [app] in E. injection E as <- E.
  assert (x <> 48) as N48 by (intros ->; discriminate).
  destruct (Z_le_gt_dec (num_val 10 (x :: ds)) INT_MAX) as [L|G].
  - destruct (digits_show x ds F' N48 L) as [Es B]. left. exists (WNum (num_val 10 (x :: ds))), b.
    split; [cbn [wid_text]; rewrite <- Es; cbn [app]; now rewrite E|]. split; [split; [cbn [cv_width]; lia|exact Logic.I]|]. destruct b; auto.
  - right. split; [|exact N48]. exists (x :: ds), b. split; [cbn [app]; now rewrite E|]. split; auto. lia.
Qed.

Lemma take_conv : forall f, hd 0 f <> 37 ->
  (exists c r, 37 :: f = unfinished c ++ r /\ conv_ok c /\ ends c r /\ forall n, cv_prec c = PStar n -> n = 1) \/ overflows (37 :: f).
Proof.
  intros f Hf. destruct (span_parts flag_char f) as (a & r & E & F & Hr). destruct (flags_of a F) as (fl & ->).
  assert (match r with [] => True | t :: _ => flag_char t = false /\ (t = 37 -> fl <> []) end) as Hr'.
  { destruct r as [|t r]; auto. split; auto. intros -> ->. subst f. apply Hf. reflexivity. }
  destruct (take_width fl r Hr') as [(w & r1 & E1 & C1 & H1)|[Hh Hn]].
  2:{ right. right. left. exists fl, r. rewrite E. auto. }
  destruct (take_prec fl w r1 H1) as [(p & r2 & E2 & C2 & S2 & H2)|(h & E2 & Hh)].
  2:{ right. right. right. exists fl, w, h. rewrite E, E1, E2. split; [reflexivity|]. split; auto. apply C1. }
  destruct (take_len (Conv fl w p Lint) r2 eq_refl H2) as (l & r3 & E3 & H3). cbn [cv_flags cv_width cv_prec] in H3.
  left. exists (Conv fl w p l), r3. split; [|split; [apply C2 in C1; exact C1|split; [exact H3|exact S2]]].
  unfold unfinished. cbn [cv_flags cv_width cv_prec cv_len app]. rewrite E, E1, E2, E3, <- !app_assoc. reflexivity.
Qed.

(** ** Every format string *)
Section F.
Variable cf : cfg.
Variable D : Type.
Variable d0 : D.
Notation any := (fun (_ : bool) (_ : conv) (_ : D) => True).

(** The item of a placeholder, with some argument. *)
Definition conv_item_of (c : conv) (t : Z) : item D :=
  if t =? 100 then Dec false c 1 else if t =? 105 then Dec true c 1 else if t =? 117 then Uns c 1 else if t =? 120 then Hex false c 1 else if t =? 88 then Hex true c 1
  else if t =? 111 then Bin c 1 else if t =? 99 then Chr c 1 else if t =? 115 then Str false c null [] else if t =? 83 then Str true c null []
  else if t =? 102 then Flt false c d0 else if t =? 70 then Flt true c d0 else if t =? 101 then Eng false c d0 else if t =? 69 then Eng true c d0 else Other c t.
Lemma conv_item_text : forall c t, item_text (conv_item_of c t) = conv_text c t.
Proof. intros c t. unfold conv_item_of. repeat match goal with |- context [t =? ?k] => destruct (Z.eqb_spec t k) as [->|]; [reflexivity|] end. reflexivity. Qed.
Lemma one_ok : forall l, unsigned_ok cf l 1 /\ signed_ok cf l 1.
Proof.
  intros l. unfold unsigned_ok, signed_ok. destruct (arg_bits_cases cf l) as [E|E]; rewrite E; (split; [cbn; lia|]); (split; [cbn; lia|right; unfold LLONG_MIN; lia]).
Qed.
Lemma conv_item_ok : forall c t r, conv_ok c -> (forall n, cv_prec c = PStar n -> n = 1) -> 0 < t < 256 -> longer c t = false ->
  bad_digits (unfinished c ++ t :: r) \/ item_ok cf any (conv_item_of c t).
Proof.
  intros c t r Hc Hst Ht Hl. destruct (one_ok (cv_len c)) as [Hu Hs].
  assert (forall k, 1 <= k -> (exists p, (forall n, cv_prec c <> PStar n) /\ prec_of c = Some p /\ ~ 1 <= p <= k) \/ match prec_of c with Some p => 1 <= p <= k | None => True end) as Cs.
  { intros k Hk. unfold prec_of. destruct (cv_prec c) as [| |z n|n].
    - right. exact Logic.I.
    - left. exists 0. split; [discriminate|]. split; [reflexivity|lia].
    - destruct (Z_le_gt_dec 1 n); [destruct (Z_le_gt_dec n k); [right; lia|]|]; left; exists n; (split; [discriminate|]); (split; [reflexivity|lia]).
    - right. rewrite (Hst n eq_refl). lia. }
  unfold conv_item_of.
  destruct (Z.eqb_spec t 100) as [->|N1]; [right; now split|]. destruct (Z.eqb_spec t 105) as [->|N2]; [right; now split|]. destruct (Z.eqb_spec t 117) as [->|N3]; [right; now split|].
  destruct (Z.eqb_spec t 120) as [->|N4].
  { destruct (Cs 16 ltac:(lia)) as [(p & P1 & P2 & P3)|P]; [left; exists c, 120, r, p; repeat split; auto; apply Hc|right; repeat split; auto; apply Hc || apply Hu]. }
  destruct (Z.eqb_spec t 88) as [->|N5].
  { destruct (Cs 16 ltac:(lia)) as [(p & P1 & P2 & P3)|P]; [left; exists c, 88, r, p; repeat split; auto; apply Hc|right; repeat split; auto; apply Hc || apply Hu]. }
  destruct (Z.eqb_spec t 111) as [->|N6].
  { destruct (Cs 64 ltac:(lia)) as [(p & P1 & P2 & P3)|P]; [left; exists c, 111, r, p; repeat split; auto; apply Hc|right; repeat split; auto; apply Hc || apply Hu]. }
  assert (trim_ok c) as Htr.
  { right. destruct Hc as [_ Hc]. unfold prec_of in *. destruct (cv_prec c) as [| |z n|n] eqn:E; try lia. rewrite (Hst n eq_refl). lia. }
  right. destruct (Z.eqb_spec t 99) as [->|N7]; [split; [exact Hc|unfold INT_MIN, INT_MAX; lia]|].
  destruct (Z.eqb_spec t 115) as [->|N8]; [now split|]. destruct (Z.eqb_spec t 83) as [->|N9]; [now split|].
  destruct (Z.eqb_spec t 102) as [->|N10]; [split; [exact Hc|exact Logic.I]|]. destruct (Z.eqb_spec t 70) as [->|N11]; [split; [exact Hc|exact Logic.I]|].
  destruct (Z.eqb_spec t 101) as [->|N12]; [split; [exact Hc|exact Logic.I]|]. destruct (Z.eqb_spec t 69) as [->|N13]; [split; [exact Hc|exact Logic.I]|].
  split; [exact Hc|]. split; auto. split; [lia|]. cbn [In]. intros H. repeat destruct H as [<-|H]; congruence.
Qed.

(** What can follow the items. *)
Definition trouble (tail : list Z) : Prop := (exists c, conv_ok c /\ tail = unfinished c) \/ overflows tail \/ bad_digits tail.
Definition parses (f : list Z) : Prop :=
  exists (items : list (item D)) tail, f = format items ++ tail /\ items_before cf any (hd 0 tail) items /\ (forall m, Forall (item_mem m) items) /\ (tail = [] \/ trouble tail).

Lemma parses_cons : forall i f, item_ok cf any i -> (forall m, item_mem m i) ->
  match i with Vtab => digit (hd 0 f) = false | BareZ _ _ => counts cf (hd 0 f) = false | _ => True end ->
  parses f -> parses (item_text i ++ f).
Proof.
  intros i f Hi Hm Hn (items & tail & -> & Hb & Hms & Ht). exists (i :: items), tail. split; [unfold format; cbn [map concat]; rewrite <- app_assoc; reflexivity|].
  assert (hd 0 (format items ++ tail) = hd (hd 0 tail) (format items)) as E by (destruct (format items); reflexivity).
  rewrite E in Hn. split; [repeat split; auto|]. split; auto.
Qed.
Lemma parses_tail : forall f, trouble f -> parses f.
Proof. intros f H. exists [], f. repeat split; auto. Qed.

Lemma every_format : forall f, Forall (fun x => 0 < x < 256) f -> parses f.
Proof.
  intros f. remember (length f) as k eqn:Ek. revert f Ek. induction k as [k IH] using lt_wf_ind. intros f Ek F.
  assert (forall a b, f = a ++ b -> (0 < length a)%nat -> parses b) as Next.
  { intros a b E L. subst f. apply Forall_app in F as [_ F]. eapply IH; [|reflexivity|exact F]. rewrite app_length in Ek. lia. }
  destruct f as [|x f]; [exists [], []; repeat split; auto|].
  inversion F as [|? ? Hx F']; subst.
  destruct (Z.eq_dec x 37) as [->|N1].
  - destruct (Z.eq_dec (hd 0 f) 37) as [E|Ne].
    + destruct f as [|y f]; [cbn in E; lia|]. cbn [hd] in E. subst y.
      change (37 :: 37 :: f) with (item_text (@Percent D) ++ f). apply parses_cons; try exact Logic.I. intros m; exact Logic.I. apply (Next [37; 37]); [reflexivity|cbn; lia].
    + destruct (take_conv f Ne) as [(c & r & E & Hc & He & Hs)|Ho]; [|apply parses_tail; right; now left].
      destruct r as [|t r]; [rewrite E, app_nil_r; apply parses_tail; left; eauto|].
      assert (0 < t < 256) as Ht by (rewrite E in F; apply Forall_app in F as [_ F]; now inversion F).
      destruct (conv_item_ok c t r Hc Hs Ht He) as [Hb|Hi]; [rewrite E; apply parses_tail; right; now right|].
      assert (37 :: f = item_text (conv_item_of c t) ++ r) as Et.
      { rewrite E, conv_item_text. unfold unfinished, conv_text. cbn [app]. rewrite <- !app_assoc. reflexivity. }
      rewrite Et. apply parses_cons; auto.
      * intros m. unfold conv_item_of. repeat match goal with |- context [t =? ?k] => destruct (t =? k); [first [exact Logic.I|left; auto]|] end. exact Logic.I.
      * unfold conv_item_of. repeat match goal with |- context [t =? ?k] => destruct (t =? k); [exact Logic.I|] end. exact Logic.I.
      * apply (Next (item_text (conv_item_of c t))); [exact Et|]. rewrite conv_item_text. cbn. lia.
  - destruct (Z.eq_dec x 11) as [->|N2].
    + destruct (span_parts digit f) as (ds & b & E & Fd & Hb). destruct ds as [|d ds].
      * cbn [app] in E. subst b. change (11 :: f) with (item_text (@Vtab D) ++ f). apply parses_cons; try exact Logic.I.
        { intros m; exact Logic.I. } { destruct f; [reflexivity|exact Hb]. } apply (Next [11]); [reflexivity|cbn; lia].
      * pose proof (digits_isdig _ Fd) as Fi. destruct (Z_le_gt_dec (num_val 10 (d :: ds)) INT_MAX) as [L|G].
        2:{ apply parses_tail. right. left. left. exists f. split; [reflexivity|]. exists (d :: ds), b. repeat split; auto. lia. }
        destruct (digits_num (d :: ds) Fi) as (z & Ez & B); [discriminate|exact L|]. set (n := num_val 10 (d :: ds)) in *.
        destruct b as [|y b].
        { rewrite app_nil_r in E. assert (11 :: f = item_text (@BareZ D z n) ++ []) as -> by (rewrite E, Ez, app_nil_r; reflexivity).
          apply parses_cons; [cbn [item_ok]; lia|intros m; exact Logic.I|reflexivity|]. exists [], []. repeat split; auto. }
        destruct (counts cf y) eqn:Cy.
        { assert (0 < y < 256) as Hy by (rewrite E in F'; apply Forall_app in F' as [_ F']; now inversion F').
          assert (11 :: f = item_text (@ColumnZ D z n y) ++ b) as Et by (rewrite E, Ez; cbn [item_text app]; rewrite <- app_assoc; reflexivity).
          rewrite Et. apply parses_cons; [cbn [item_ok]; repeat split; auto; lia|intros m; exact Logic.I|exact Logic.I|]. apply (Next _ _ Et). cbn; lia. }
        { assert (11 :: f = item_text (@BareZ D z n) ++ y :: b) as Et by (rewrite E, Ez; reflexivity).
          rewrite Et. apply parses_cons; [cbn [item_ok]; lia|intros m; exact Logic.I|exact Cy|]. apply (Next _ _ Et). cbn; lia. }
    + change (x :: f) with (item_text (@Text D [x]) ++ f). apply parses_cons; [repeat constructor; auto; lia|intros m; exact Logic.I|exact Logic.I|]. apply (Next [x]); [reflexivity|cbn; lia].
Qed.
End F.
