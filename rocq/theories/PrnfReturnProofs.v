(** Proofs about prnf with an assertion handler that returns. *)
From Verif Require Import Base Mem Libc StrviewModel PrnfModel PrnfAssertModel PrnfReturnModel.

Section Same.
Variable cf : cfg.
Variable A : fops.
Variable W : Type.
Variable rd : W -> mem.
Variable wr : W -> mem -> W.

Lemma size_stays : forall m fmt c, load_byte m fmt = Ok c -> size_calls c = 1 -> parse_size cf m fmt = Ok (4, fmt).
Proof.
  intros m fmt c E H. unfold parse_size, size_calls in *. rewrite E. cbn [bind].
  assert (c = 76 \/ c = 106) as [-> | ->]; [|reflexivity|reflexivity].
  destruct (c =? 76) eqn:E1; [left; now apply Z.eqb_eq|]. destruct (c =? 106) eqn:E2; [right; now apply Z.eqb_eq|discriminate].
Qed.
Lemma size_none : forall c, size_calls c = 1 -> type_of c = TYPE_NONE.
Proof.
  intros c H. unfold size_calls in H. assert (c = 76 \/ c = 106) as [-> | ->]; [|reflexivity|reflexivity].
  destruct (c =? 76) eqn:E1; [left; now apply Z.eqb_eq|]. destruct (c =? 106) eqn:E2; [right; now apply Z.eqb_eq|discriminate].
Qed.
Lemma size_cases : forall c, size_calls c = 0 \/ size_calls c = 1.
Proof. intros c. unfold size_calls. destruct ((c =? 76) || (c =? 106)); auto. Qed.
Lemma type_cases : forall c, type_calls c = 0 /\ type_of c <> TYPE_NONE \/ type_calls c = 1 /\ type_of c = TYPE_NONE.
Proof. intros c. unfold type_calls. destruct (type_of c); auto; left; split; auto; discriminate. Qed.

Lemma parse_r : forall fuel m fmt,
  match parse_placeholder_r cf fuel m fmt with
  | Ok (ph, p, k) => parse_placeholder cf fuel m fmt = Ok (ph, p) /\ (if no_type ph then 1 <= k else k = 0)
  | UB u => parse_placeholder cf fuel m fmt = UB u
  | Fuel => parse_placeholder cf fuel m fmt = Fuel
  end.
Proof.
  intros fuel m fmt. unfold parse_placeholder_r, parse_placeholder.
  destruct (parse_flags cf fuel m fmt false false 0) as [[[[mi ze] si] p1]| |]; cbn [bind]; auto.
  destruct (load_byte m p1) as [c1| |]; cbn [bind]; auto.
  match goal with |- context [bind (if c1 =? 42 then ?X else ?Y) _] => destruct (if c1 =? 42 then X else Y) as [[[wd wi] p2]| |] end; cbn [bind]; auto.
  destruct (load_byte m p2) as [c2| |]; cbn [bind]; auto.
  match goal with |- context [bind (if c2 =? 46 then ?X else ?Y) _] => destruct (if c2 =? 46 then X else Y) as [[[[ps pd] pr] p3]| |] end; cbn [bind]; auto.
  destruct (load_byte m p3) as [c3| |] eqn:E3; cbn [bind].
  - destruct (size_cases c3) as [S0 | S1].
    + destruct (parse_size cf m p3) as [[sz p4]| |]; cbn [bind]; auto. destruct (load_byte m p4) as [c4| |]; cbn [bind]; auto.
      destruct (padd cf m p4 1) as [p5| |]; cbn [bind]; auto. split; auto. rewrite S0. unfold no_type. cbn [ph_type].
      destruct (type_cases c4) as [[-> T] | [-> ->]]; [|lia]. destruct (type_of c4); auto. now destruct T.
    + rewrite (size_stays m p3 c3 E3 S1). cbn [bind]. rewrite E3. cbn [bind].
      destruct (padd cf m p3 1) as [p5| |]; cbn [bind]; auto. split; auto. unfold no_type. cbn [ph_type]. rewrite (size_none c3 S1).
      destruct (type_cases c3) as [[-> T] | [-> _]]; lia.
  - unfold parse_size. rewrite E3. reflexivity.
  - unfold parse_size. rewrite E3. reflexivity.
Qed.
Lemma print_calls_ok : forall v ph, if asserts A v ph then 1 <= print_calls A v ph else print_calls A v ph = 0.
Proof.
  intros v ph. unfold asserts, print_calls, prec_calls. destruct (ph_type ph); try reflexivity; destruct v; try reflexivity;
    match goal with |- context [prec_asserts A ph ?X] => destruct (prec_asserts A ph X); [destruct (determine_float_msg A ph X); lia|reflexivity] end.
Qed.
Lemma print_calls_nonneg : forall v ph, 0 <= print_calls A v ph.
Proof. intros v ph. pose proof (print_calls_ok v ph) as H. destruct (asserts A v ph); lia. Qed.

Lemma loop_r : forall fuel limit n o fmt va,
  match core_loop_r cf A W rd wr fuel limit n o fmt va with
  | Ok (n1, o1) => core_loop cf A W rd wr fuel limit o fmt va = Ok o1 /\ n <= n1 /\ match core_loop_a cf A W rd wr fuel limit o fmt va with Ok (true, o2) => n1 = n /\ o2 = o1 | Ok (false, _) => n < n1 | _ => False end
  | UB u => core_loop cf A W rd wr fuel limit o fmt va = UB u
  | Fuel => core_loop cf A W rd wr fuel limit o fmt va = Fuel
  end.
Proof.
  induction fuel as [|f IH]; intros limit n o fmt va; cbn [core_loop_r core_loop core_loop_a]; [reflexivity|].
  destruct (load_byte (rd (o_st W o)) fmt) as [c| |]; cbn [bind]; auto. destruct (c =? 0); [repeat split; auto; lia|]. destruct (c =? 37).
  - destruct (padd _ _ fmt 1) as [p1| |]; cbn [bind]; auto. destruct (load_byte _ p1) as [c1| |]; cbn [bind]; auto. destruct (c1 =? 37).
    + destruct (out_char _ _ _ _ _ _) as [o1| |]; cbn [bind]; auto. destruct (padd _ _ _ _) as [p2| |]; cbn [bind]; auto. apply IH.
    + pose proof (parse_r limit (rd (o_st W o)) p1) as P. destruct (parse_placeholder_r _ _ _ _) as [[[ph p2] k]| |]; cbn [bind]; [|rewrite P; reflexivity|rewrite P; reflexivity].
      destruct P as [-> K]. cbn [bind]. destruct (read_varg _ _ _ _) as [[[ph1 v] va1]| |]; cbn [bind]; auto.
      destruct (print_placeholder _ _ _ _ _ _ _ _) as [o1| |]; cbn [bind]; auto.
      specialize (IH limit (n + k + print_calls A v ph1) o1 p2 va1). pose proof (print_calls_ok v ph1) as Q. pose proof (print_calls_nonneg v ph1) as Q0.
      destruct (core_loop_r _ _ _ _ _ _ _ _ _ _ _) as [[n1 o2]| |]; auto. destruct IH as (I1 & I2 & I3). split; [exact I1|].
      destruct (no_type ph); cbn [bind]; [lia|]. destruct (asserts A v ph1); [lia|]. subst k. rewrite Q in *. rewrite !Z.add_0_r in *. cbn [bind]. auto.
  - destruct (c =? 11).
    + destruct (padd _ _ _ _) as [p1| |]; cbn [bind]; auto. destruct (print_col_alignment _ _ _ _ _ _ _) as [[o1 p2]| |]; cbn [bind]; auto. apply IH.
    + destruct (out_char _ _ _ _ _ _) as [o1| |]; cbn [bind]; auto. destruct (padd _ _ _ _) as [p2| |]; cbn [bind]; auto. apply IH.
Qed.
Lemma core_r : forall o fmt va,
  match core_prnf_r cf A W rd wr o fmt va with
  | Ok (k, n, o1) => core_prnf cf A W rd wr o fmt va = Ok (k, o1) /\ 0 <= n /\
      match core_prnf_a cf A W rd wr o fmt va with Ok (Some k2, o2) => n = 0 /\ k2 = k /\ o2 = o1 | Ok (None, _) => 0 < n | _ => False end
  | UB u => core_prnf cf A W rd wr o fmt va = UB u
  | Fuel => core_prnf cf A W rd wr o fmt va = Fuel
  end.
Proof.
  intros o fmt va. unfold core_prnf_r, core_prnf, core_prnf_a. destruct (access _ _) as [b| |]; cbn [bind]; auto.
  set (l := S (Z.to_nat (b_size b))). pose proof (loop_r l l 0 o fmt va) as L.
  destruct (core_loop_r _ _ _ _ _ _ _ _ _ _ _) as [[n o1]| |]; cbn [bind]; [|rewrite L; reflexivity|rewrite L; reflexivity].
  destruct L as (L1 & L2 & L3). rewrite L1. cbn [bind]. destruct (out_terminate W rd wr o1) as [o2| |] eqn:E; cbn [bind]; auto.
  split; auto. split; auto. destruct (core_loop_a _ _ _ _ _ _ _ _ _ _) as [[[|] o3]| |]; cbn [bind]; auto.
  destruct L3 as [-> ->]. rewrite E. cbn [bind]. auto.
Qed.
End Same.
