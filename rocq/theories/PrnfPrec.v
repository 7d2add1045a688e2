(** Proofs about prnf: precisions passed as arguments. *)
From Verif Require Import Base Mem Libc StrviewModel Spec MemLemmas StrviewProofs NumSpec StrnumProofs StrnumProofs2 StrnumProofs3
  PrnfModel PrnfSpec PrnfSpec2 PrnfProofs PrnfProofs2 PrnfProofs3 PrnfProofs4 PrnfProofs5 PrnfProofs9 PrnfFormat PrnfFormat2 PrnfPrecSpec.

(** ** Strings cut to a negative length *)
Lemma load_cases : forall m p, (exists u, load_byte m p = UB u) \/ (exists c b, load_byte m p = Ok c /\ access m (p_obj p) = Ok b /\ p_ofs p + 1 <= b_size b).
Proof.
  intros m p. unfold load_byte, load_cell. destruct (access m (p_obj p)) as [b|u|] eqn:Ea.
  - cbn [bind]. unfold in_block. destruct (_ && _) eqn:E; cbn [bind]; [|left; eauto]. apply andb_true_iff in E as [_ E]. apply Z.leb_le in E.
    destruct (b_get b (p_ofs p)) as [|z|q i]; eauto. right. exists z, b. auto.
  - left. cbn [bind]. eauto.
  - exfalso. unfold access in Ea. destruct (p_obj p); try discriminate. destruct (nth_error m b); [destruct (b_live b0)|]; discriminate.
Qed.
Lemma str_loop_stuck : forall cf m k p, (forall b, access m (p_obj p) = Ok b -> b_size b - p_ofs p < Z.of_nat k) -> (0 < k)%nat ->
  exists u, forall o, quiet m o -> (forall b, access m (p_obj p) = Ok b -> o_cnt mem o + (b_size b - p_ofs p) < INT_MAX) ->
    str_loop cf mem mid mwr k o p = UB u.
Proof.
  intros cf m. induction k as [|k IH]; intros p Hk Hpos; [lia|]. destruct (load_cases m p) as [(u & E)|(c & b & E & Ea & Hb)].
  - exists u. intros o (_ & _ & Q & _) _. cbn [str_loop]. rewrite Q. change (mid m) with m. now rewrite E.
  - assert ((exists u, padd cf m p 1 = UB u) \/ padd cf m p 1 = Ok (shift p 1)) as Hp.
    { unfold padd. destruct (p_obj p) eqn:Eo; try discriminate Ea; rewrite Ea; (destruct (c_ptr cf); auto; cbn [bind]; destruct (in_block _ _ _); eauto). }
    assert (forall o, quiet m o -> (forall b, access m (p_obj p) = Ok b -> o_cnt mem o + (b_size b - p_ofs p) < INT_MAX) ->
      exists o', str_loop cf mem mid mwr (S k) o p = bind (padd cf m p 1) (fun q => str_loop cf mem mid mwr k o' q) /\ quiet m o' /\ o_cnt mem o' = o_cnt mem o + 1) as Hs.
    { intros o Q Hc. specialize (Hc b Ea). pose proof Q as (_ & _ & Q3 & _). destruct (quiet_char cf m o c Q ltac:(lia)) as (o' & Eo & Q' & C').
      exists o'. cbn [str_loop]. rewrite Q3. change (mid m) with m. rewrite E. cbn [bind]. rewrite Eo. cbn [bind]. destruct Q' as (R1 & R2 & R3 & R4). rewrite R3.
      split; [reflexivity|]. split; [repeat split; tauto|exact C']. }
    destruct Hp as [(u & Hp)|Hp].
    + exists u. intros o Q Hc. destruct (Hs o Q Hc) as (o' & -> & _). now rewrite Hp.
    + destruct (IH (shift p 1)) as (u & Hu).
      * intros b' Ea'. cbn [shift p_obj p_ofs] in *. specialize (Hk b' Ea'). lia.
      * specialize (Hk b Ea). lia.
      * exists u. intros o Q Hc. destruct (Hs o Q Hc) as (o' & -> & Q' & C'). rewrite Hp. cbn [bind]. apply Hu; auto.
        intros b' Ea'. cbn [shift p_obj p_ofs] in *. specialize (Hc b' Ea'). lia.
Qed.

Lemma measure_stuck_some : forall cf A m n fmt (items : list (item (dbl A))) x rest va, wf_cfg cf ->
  let f := format items ++ x :: rest in let t := plain cf items in Zlen t < INT_MAX -> is_byte x ->
  items_before cf (fun _ _ _ => False) x items -> Forall (item_mem m) items -> bytes_at m fmt f ->
  (exists u, forall o fuel limit, quiet m o -> o_cnt mem o = Zlen t -> (length f <= limit)%nat ->
     core_loop cf A mem mid mwr (S fuel) limit o (shift fmt (Zlen (format items))) va = UB u) ->
  exists u, vsnprnf cf A mem mid mwr m null n fmt (arguments cf items ++ va) = UB u.
Proof. intros cf A m n fmt items x rest va Wf f t Ht Hx Hb Hm Hf (u & Hu). exists u. now apply (measure_stuck cf A m n fmt items x rest va u). Qed.

Lemma negative_str_ub : forall cf A m n fmt (items : list (item (dbl A))) c t p q l rest va, wf_cfg cf -> conv_ok c -> t = 115 \/ t = 83 ->
  cv_prec c = PStar p -> p < 0 -> string_arg m q l ->
  Zlen (plain cf items) + width_of c - p < INT_MAX ->
  (forall b, access m (p_obj q) = Ok b -> Zlen (plain cf items) + width_of c - p + b_size b < INT_MAX) ->
  items_before cf (fun _ _ _ => False) 37 items -> Forall (item_mem m) items ->
  bytes_at m fmt (format items ++ conv_text c t ++ rest) ->
  exists u, vsnprnf cf A mem mid mwr m null n fmt (arguments cf items ++ conv_args c ++ AP q :: va) = UB u.
Proof.
  intros cf A m n fmt items c t p q l rest va Wf Hc Ht Hp Hn Hq Hl Hb Hi Hm Hf. pose proof (width_ok c Hc) as Hw.
  pose proof (Zlen_nonneg (plain cf items)) as Z0.
  set (body := map flg_char (cv_flags c) ++ wid_text (cv_width c) ++ prc_text (cv_prec c) ++ len_text (cv_len c)).
  assert (conv_text c t ++ rest = 37 :: body ++ t :: rest) as Eb by (unfold conv_text, body; cbn [app]; rewrite <- !app_assoc; reflexivity).
  rewrite Eb in Hf. assert (longer c t = false) as Hlo by (apply type_past; unfold type_char; cbn [In]; destruct Ht as [E|E]; rewrite E; tauto).
  apply (measure_stuck_some cf A m n fmt items 37 (body ++ t :: rest)); auto; [lia|unfold is_byte; lia|].
  assert (exists u, forall o, quiet m o -> o_cnt mem o = Zlen (plain cf items) -> print_str cf mem mid mwr o (ph_of cf c TYPE_STR) q = UB u) as (u & Hu).
  { assert (centred c = false) as Ce by (unfold centred; now rewrite Hp).
    assert (prec_of c = Some p) as Pc by (unfold prec_of; now rewrite Hp).
    set (pre := if left_aligned c then [] else copies (fillc (ph_of cf c TYPE_STR)) (width_of c - p)).
    assert (Zlen pre <= width_of c - p) as Lp by (unfold pre; destruct (left_aligned c); [change (Zlen (@nil Z)) with 0; lia|rewrite Zlen_copies; lia]).
    assert (forall o, quiet m o -> o_cnt mem o = Zlen (plain cf items) -> exists o', quiet m o' /\ o_cnt mem o' = Zlen (plain cf items) + Zlen pre /\
      print_str cf mem mid mwr o (ph_of cf c TYPE_STR) q =
      bind (loops cf p) (fun k => bind (str_loop cf mem mid mwr k o' q) (fun o => postpad cf mem mid mwr o (ph_of cf c TYPE_STR) p))) as Hs.
    { intros o Q Ho. destruct (quiet_chars cf m pre o Q ltac:(lia)) as (o' & E' & Q' & C'). exists o'. split; [exact Q'|]. split; [lia|].
      unfold print_str. pose proof Q as (_ & _ & Q3 & _). rewrite Q3. change (mid m) with m. rewrite (prnf_strlen_ok cf m q l Hq). cbn [bind].
      rewrite centred_eq, Ce. cbn [ph_of ph_pspec ph_prec negb]. rewrite Pc. cbn [andb]. rewrite andb_true_r.
      pose proof (Zlen_nonneg l). rewrite (proj2 (Z.ltb_lt p (Zlen l))) by lia.
      change (PrnfModel.Ph _ _ _ _ _ _ _ _ _ _) with (ph_of cf c TYPE_STR).
      rewrite prepad_eq; [|rewrite centred_eq; auto|exact Hw|cbn [ph_of ph_width]; lia].
      change (if ph_minus (ph_of cf c TYPE_STR) then [] else copies (fillc (ph_of cf c TYPE_STR)) (ph_width (ph_of cf c TYPE_STR) - p)) with pre.
      rewrite E'. reflexivity. }
    assert (INT_MIN <= p) as Hmin by (destruct Hc as [_ Hc]; rewrite Hp in Hc; lia).
    destruct (c_wrapv cf) eqn:Wv.
    - destruct (str_loop_stuck cf m (Z.to_nat (p + two32')) q) as (u & Hu).
      + intros b Ea. specialize (Hb b Ea). assert (0 <= p_ofs q).
        { destruct Hq as [[-> _]|(Hq & _)]; [cbn; lia|]. destruct Hq as (b' & _ & B0 & _). exact B0. }
        unfold INT_MIN, INT_MAX, two32' in *. lia.
      + unfold INT_MIN, two32' in *. lia.
      + exists u. intros o Q Ho. destruct (Hs o Q Ho) as (o' & Q' & C' & ->). unfold loops. rewrite (proj2 (Z.leb_gt 0 p)), Wv by lia. cbn [bind].
        rewrite Hu; auto. intros b Ea. specialize (Hb b Ea). assert (0 <= p_ofs q).
        { destruct Hq as [[-> _]|(Hq & _)]; [cbn; lia|]. destruct Hq as (b' & _ & B0 & _). exact B0. }
        lia.
    - exists UB_overflow. intros o Q Ho. destruct (Hs o Q Ho) as (o' & Q' & C' & ->). unfold loops. rewrite (proj2 (Z.leb_gt 0 p)), Wv by lia. reflexivity. }
  exists u. intros o fuel limit Q Ho Hlim. pose proof Q as (Q1 & Q2 & Q3 & Q4). cbn [core_loop]. rewrite Q3.
  pose proof Hf as Hg. apply bytes_at_app in Hg as [_ Hg]. destruct (at_step cf _ _ _ _ Hg) as (H1 & H2 & H3). change (mid m) with m. rewrite H1. cbn [bind Z.eqb Pos.eqb]. rewrite H2. cbn [bind].
  destruct (first_char c t rest Hc Hlo) as (y & s & Ey & Ny). unfold body in H3. rewrite <- !app_assoc in H3.
  assert (load_byte m (shift (shift fmt (Zlen (format items))) 1) = Ok y) as -> by (rewrite Ey in H3; now apply bytes_at_cons in H3). cbn [bind]. rewrite (proj2 (Z.eqb_neq y 37)) by auto.
  rewrite (parse_placeholder_ok cf c t rest limit m _ Hc Hlo H3).
  2:{ fold body. rewrite app_length in Hlim. cbn [length] in Hlim. rewrite app_length in Hlim. lia. }
  cbn [bind]. rewrite read_varg_conv by auto. assert (type_of t = TYPE_STR) as -> by (destruct Ht as [E|E]; rewrite E; reflexivity).
  unfold read_value. change (ph_type (ph_of cf c TYPE_STR)) with TYPE_STR. cbv iota beta. cbn [bind].
  unfold print_placeholder. change (ph_type (ph_of cf c TYPE_STR)) with TYPE_STR. cbv iota beta.
  rewrite Hu; auto.
Qed.

(** ** Precisions with the same effect *)
Lemma swap_ok : forall {D} cf (ok : bool -> conv -> D -> Prop) (a b : list (item D)) i j, item_ok cf ok j ->
  placeholder_of i <> None -> placeholder_of j <> None -> items_ok cf ok (a ++ i :: b) -> items_ok cf ok (a ++ j :: b).
Proof.
  intros D cf ok a b i j Hj Pi Pj. induction a as [|x a IH]; cbn [app items_ok].
  - intros (_ & H & _). split; auto. split; auto. destruct j; auto; exfalso; now apply Pj.
  - intros (Hx & H & Hv). split; auto. split; [now apply IH|].
    assert (hd 0 (format (a ++ j :: b)) = hd 0 (format (a ++ i :: b))) as ->; [|exact Hv].
    unfold format. rewrite !map_app, !concat_app. destruct (concat (map item_text a)) as [|y r]; [|reflexivity]. cbn [app map concat].
    assert (forall k : item D, placeholder_of k <> None -> exists r, item_text k = 37 :: r) as Ht by (intros k Hk; destruct k; try (exfalso; now apply Hk); eexists; reflexivity).
    destruct (Ht i Pi) as (r1 & ->), (Ht j Pj) as (r2 & ->). reflexivity.
Qed.
Lemma printed_swap : forall {D} cf flt (a b : list (item D)) i j col, (forall col, item_out cf flt col i = item_out cf flt col j) ->
  printed cf flt col (a ++ i :: b) = printed cf flt col (a ++ j :: b).
Proof.
  intros D cf flt a b i j. induction a as [|x a IH]; intros col E; cbn [app printed]; [now rewrite E|]. cbv zeta. f_equal. now apply IH.
Qed.
Lemma outputs_ok : forall cf A (l : list (item (dbl A))), wf_cfg cf -> items_ok cf (flt_fine A) l -> outputs cf A l (printed cf (flt A) 0 l).
Proof. intros cf A l Wf H Ht m dst n fmt va w Hn Hw [G1 G2] [E1 E2]. now apply vsnprnf_ok. Qed.
Lemma swapped : forall cf A (a b : list (item (dbl A))) i j, wf_cfg cf ->
  (forall col, item_out cf (flt A) col i = item_out cf (flt A) col j) -> item_ok cf (flt_fine A) j ->
  placeholder_of i <> None -> placeholder_of j <> None -> items_ok cf (flt_fine A) (a ++ i :: b) -> same_output cf A (a ++ i :: b) (a ++ j :: b).
Proof.
  intros cf A a b i j Wf E Hj Pi Pj H. exists (printed cf (flt A) 0 (a ++ i :: b)). split; [now apply outputs_ok|].
  rewrite (printed_swap cf (flt A) a b i j 0 E). apply outputs_ok; auto. now apply (swap_ok cf (flt_fine A) a b i j).
Qed.

Lemma flt_same : forall A eng c c' d, cv_flags c = cv_flags c' -> cv_width c = cv_width c' -> flt_prec eng c = flt_prec eng c' -> flt A eng c d = flt A eng c' d.
Proof.
  intros A eng c c' d F W P. assert (forall p r, flt_text eng c p r = flt_text eng c' p r) as T.
  { intros p r. assert (left_aligned c = left_aligned c') as L by (unfold left_aligned, has_flag; now rewrite F, W).
    assert (width_of c = width_of c') as V by (unfold width_of; now rewrite W). unfold flt_text, pad, flt_sign, flt_fill, has_flag. rewrite L, V, P, F. reflexivity. }
  unfold flt. rewrite P. destruct eng; [destruct (get_eng A _)|]; apply T.
Qed.

Lemma argument_ok : forall cf A (a b : list (item (dbl A))) i z n, wf_cfg cf -> 0 <= n <= INT_MAX ->
  placeholder_of i <> None -> (n = 0 -> no_centring i) -> (forall c t, i <> Other c t) ->
  items_ok cf (flt_fine A) (a ++ with_prec (PStar n) i :: b) ->
  same_output cf A (a ++ with_prec (PStar n) i :: b) (a ++ with_prec (PNumZ z n) i :: b).
Proof.
  intros cf A a b i z n Wf Hn Pi Hc Ho H. 
  assert (item_ok cf (flt_fine A) (with_prec (PStar n) i)) as Hi.
  { clear - H. induction a as [|x a IH]; cbn [app items_ok] in H; [apply H|]. apply IH. apply H. }
  apply swapped; auto.
  - intros col. destruct i; try reflexivity; cbn [with_prec item_out].
    + unfold str_text, centred. cbn [set_prec cv_prec cv_width cv_flags]. destruct (Z.eqb_spec n 0) as [E|E]; [|reflexivity]. specialize (Hc E). cbn in Hc.
      assert (forall p, width_of (set_prec p c) = 0) as W0 by (intros p0; exact Hc). rewrite !W0. reflexivity.
  - destruct i; cbn [with_prec item_ok] in *; unfold conv_ok, trim_ok in *; cbn [set_prec cv_prec cv_width cv_len prec_of] in *.
    all: try tauto. all: try (destruct Hi as [[Hi _] _]; split; [tauto|right; lia]). exfalso. now apply (Ho c t).
  - destruct i; cbn [with_prec placeholder_of] in *; congruence.
  - destruct i; cbn [with_prec placeholder_of] in *; congruence.
Qed.

Lemma float_mod : forall cf A (a b : list (item (dbl A))) i z n, wf_cfg cf -> is_float i ->
  items_ok cf (flt_fine A) (a ++ with_prec (PStar n) i :: b) ->
  same_output cf A (a ++ with_prec (PStar n) i :: b) (a ++ with_prec (PNumZ z (n mod 256)) i :: b).
Proof.
  intros cf A a b i z n Wf Hf H. pose proof (Z.mod_pos_bound n 256 ltac:(lia)) as B.
  assert (item_ok cf (flt_fine A) (with_prec (PStar n) i)) as Hi.
  { clear - H. induction a as [|x a IH]; cbn [app items_ok] in H; [apply H|]. apply IH. apply H. }
  assert (forall eng c, flt_prec eng (set_prec (PStar n) c) = flt_prec eng (set_prec (PNumZ z (n mod 256)) c)) as Ep.
  { intros eng c. unfold flt_prec. cbn [set_prec prec_of cv_prec]. now rewrite Z.mod_mod by lia. }
  apply swapped; auto.
  - intros col. destruct i; try contradiction; cbn [with_prec item_out]; apply flt_same; auto.
  - destruct i; try contradiction; cbn [with_prec item_ok] in *; unfold conv_ok, flt_fine in *; cbn [set_prec cv_prec cv_width] in *; rewrite <- Ep; unfold INT_MAX; (split; [split; [tauto|lia]|tauto]).
  - destruct i; try contradiction; cbn [with_prec placeholder_of]; congruence.
  - destruct i; try contradiction; cbn [with_prec placeholder_of]; congruence.
Qed.

Lemma flag_removed : forall f l w p n, f <> FZero -> has_flag f (Conv (no_zero l) w p n) = has_flag f (Conv l w p n).
Proof.
  intros f l w p n Hf. unfold has_flag. cbn [cv_flags]. induction l as [|g l IH]; [reflexivity|]. cbn [no_zero filter existsb].
  destruct g; cbn [existsb]; fold (no_zero l); rewrite IH; destruct f; try reflexivity; congruence.
Qed.
Lemma zero_removed : forall l w p n, has_flag FZero (Conv (no_zero l) w p n) = false.
Proof. intros l w p n. unfold has_flag. cbn [cv_flags]. induction l as [|g l IH]; [reflexivity|]. destruct g; cbn; auto. Qed.
Lemma plus_removed : forall l, plus_sign (no_zero l) = plus_sign l.
Proof. induction l as [|g l IH]; [reflexivity|]. destruct g; cbn [no_zero filter plus_sign]; fold (no_zero l); rewrite IH; auto; now destruct (plus_sign l). Qed.

Lemma decimal_negative : forall cf A (a b : list (item (dbl A))) i n, wf_cfg cf -> n < 0 -> is_decimal i ->
  items_ok cf (flt_fine A) (a ++ with_prec (PStar n) i :: b) ->
  same_output cf A (a ++ with_prec (PStar n) i :: b) (a ++ without_zero (with_prec PNone i) :: b).
Proof.
  intros cf A a b i n Wf Hn Hd H.
  assert (item_ok cf (flt_fine A) (with_prec (PStar n) i)) as Hi.
  { clear - H. induction a as [|x a IH]; cbn [app items_ok] in H; [apply H|]. apply IH. apply H. }
  assert (forall c v, pad (set_prec (PStar n) c) (int_fill (set_prec (PStar n) c)) v =
    pad (Conv (no_zero (cv_flags c)) (cv_width c) PNone (cv_len c)) (int_fill (Conv (no_zero (cv_flags c)) (cv_width c) PNone (cv_len c))) v) as Ep.
  { intros c v. unfold pad, int_fill, left_aligned. cbn [set_prec prec_of cv_prec cv_width width_of]. rewrite zero_removed, flag_removed by discriminate. reflexivity. }
  assert (forall c v, 0 <= v -> dec_digits (set_prec (PStar n) c) v = dec_digits (Conv (no_zero (cv_flags c)) (cv_width c) PNone (cv_len c)) v) as Ed.
  { intros c v Hv. unfold dec_digits. cbn [set_prec prec_of cv_prec]. rewrite copies_none; [reflexivity|]. pose proof (Zlen_nonneg (show 10 v)). lia. }
  apply swapped; auto.
  - intros col. destruct i; try contradiction; cbn [with_prec without_zero set_prec cv_flags cv_width cv_prec cv_len item_out].
    + change (Conv (cv_flags c) (cv_width c) (PStar n) (cv_len c)) with (set_prec (PStar n) c). rewrite plus_removed, Ep, Ed by lia. reflexivity.
    + change (Conv (cv_flags c) (cv_width c) (PStar n) (cv_len c)) with (set_prec (PStar n) c). rewrite Ep, Ed; [reflexivity|]. cbn in Hi. destruct Hi as [_ Hi]. apply Hi.
  - destruct i; try contradiction; cbn [with_prec without_zero set_prec cv_flags cv_width cv_prec cv_len item_ok] in *; unfold conv_ok in *; cbn [cv_prec cv_width cv_len] in *; tauto.
  - destruct i; try contradiction; cbn [with_prec placeholder_of]; congruence.
  - destruct i; try contradiction; cbn [with_prec without_zero placeholder_of]; congruence.
Qed.
