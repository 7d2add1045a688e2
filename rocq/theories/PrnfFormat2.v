(** Proofs about prnf: format strings with undefined behaviour. *)
From Verif Require Import Base Mem Libc StrviewModel Spec MemLemmas StrviewProofs NumSpec StrnumProofs StrnumProofs2 StrnumProofs3
  PrnfModel PrnfSpec PrnfSpec2 PrnfProofs PrnfProofs2 PrnfProofs3 PrnfProofs4 PrnfProofs5 PrnfProofs9 PrnfFormat.

(** ** Numbers beyond INT_MAX *)
Lemma int_res_big : forall cf z, c_wrapv cf = false -> INT_MAX < z -> int_res cf z = UB UB_overflow.
Proof. intros cf z W H. unfold int_res, in_int. rewrite (proj2 (Z.leb_gt z INT_MAX)) by lia. now rewrite andb_false_r, W. Qed.

Lemma atoi_big : forall cf, c_wrapv cf = false -> forall ds fuel m p v r, bytes_at m p (ds ++ r) -> Forall (fun x => isdig 10 x = true) ds ->
  0 <= v <= INT_MAX -> INT_MAX < accum v ds -> (length ds < fuel)%nat -> prnf_atoi cf fuel m p v = UB UB_overflow.
Proof.
  intros cf Wv. induction ds as [|d ds IH]; intros fuel m p v r H F Hv Hb Hf; [cbn in Hb; lia|].
  destruct fuel as [|fuel]; [lia|]. cbn [app] in H. destruct (at_step cf _ _ _ _ H) as (H1 & H2 & H3). cbn [prnf_atoi]. rewrite H1. cbn [bind].
  inversion F as [|? ? Hd F']; subst. destruct (dig10 d Hd) as [R D].
  unfold prnf_is_digit. rewrite (proj2 (Z.leb_le 48 d)), (proj2 (Z.leb_le d 57)) by lia. cbn [andb].
  assert (Z.land d 15 = dval d) as ->.
  { rewrite D. change 15 with (Z.ones 4). rewrite Z.land_ones by lia. change (2 ^ 4) with 16.
    replace d with (d - 48 + 3 * 16) at 1 by lia. rewrite Z.mod_add by lia. apply Z.mod_small. lia. }
  destruct (Z_le_gt_dec (v * 10) INT_MAX) as [L|G]; [|rewrite int_res_big by (auto; lia); reflexivity].
  rewrite int_res_ok by (unfold INT_MIN; lia). cbn [bind].
  destruct (Z_le_gt_dec (v * 10 + dval d) INT_MAX) as [L2|G2]; [|unfold iadd; rewrite int_res_big by (auto; lia); reflexivity].
  rewrite iadd_ok by (unfold INT_MIN; lia). cbn [bind]. rewrite H2. cbn [bind].
  apply (IH fuel m (shift p 1) (v * 10 + dval d) r); auto; [lia|cbn [length] in Hf; lia].
Qed.

Lemma huge_atoi : forall cf m p h fuel, c_wrapv cf = false -> huge h -> bytes_at m p h -> (length h < fuel)%nat ->
  (exists d s, h = d :: s /\ digit d = true) /\ prnf_atoi cf fuel m p 0 = UB UB_overflow.
Proof.
  intros cf m p h fuel Wv (ds & r & -> & F & G) H Hf. split.
  - destruct ds as [|d ds]; [cbn in G; unfold INT_MAX in G; lia|]. inversion F; subst. eexists; eexists; split; [reflexivity|auto].
  - apply (atoi_big cf Wv ds fuel m p 0 r); auto; [now apply digits_isdig|unfold INT_MAX; lia|rewrite app_length in Hf; lia].
Qed.

Lemma digit_no_flag : forall d, digit d = true -> d <> 48 -> flag_char d = false /\ (d =? 42) = false /\ (d =? 37) = false.
Proof.
  intros d H N. unfold digit in H. apply andb_true_iff in H as [H1 H2]. apply Z.leb_le in H1, H2. unfold flag_char.
  rewrite !(proj2 (Z.eqb_neq _ _)) by lia. auto.
Qed.

Lemma parse_width_big : forall cf m p fl h fuel, c_wrapv cf = false -> bytes_at m p (map flg_char fl ++ h) -> huge h -> hd 0 h <> 48 ->
  (length (map flg_char fl ++ h) < fuel)%nat -> parse_placeholder cf fuel m p = UB UB_overflow.
Proof.
  intros cf m p fl h fuel Wv H Hh N Hf. rewrite app_length, map_length in Hf. pose proof H as H0. apply bytes_at_app in H0 as [_ H0]. rewrite Zlen_map in H0.
  destruct (huge_atoi cf m _ h fuel Wv Hh H0 ltac:(lia)) as [(d & s & -> & Hd) Ha]. cbn [hd] in N. destruct (digit_no_flag d Hd N) as (F1 & F2 & _).
  unfold parse_placeholder. rewrite (parse_flags_ok cf fl fuel m p d s) by (auto; lia). cbn [bind].
  destruct (at_step cf _ _ _ _ H0) as (-> & _ & _). cbn [bind]. rewrite F2, Ha. reflexivity.
Qed.

Lemma parse_prec_big : forall cf m p fl w h fuel, c_wrapv cf = false ->
  match w with WNone => True | WNum n => 0 < n <= INT_MAX | WStar n => - INT_MAX <= n <= INT_MAX end ->
  bytes_at m p (map flg_char fl ++ wid_text w ++ 46 :: h) -> huge h ->
  (length (map flg_char fl ++ wid_text w ++ 46%Z :: h) < fuel)%nat -> parse_placeholder cf fuel m p = UB UB_overflow.
Proof.
  intros cf m p fl w h fuel Wv Hw H Hh Hf. rewrite !app_length, map_length in Hf. cbn [length] in Hf.
  assert (exists y s, wid_text w ++ 46 :: h = y :: s /\ flag_char y = false /\ match w with WNone => y = 46 | WNum _ => 49 <= y <= 57 | WStar _ => y = 42 end) as (y & s & E & Fy & Ry).
  { destruct w as [|n|n]; cbn [wid_text app].
    - exists 46, h. auto.
    - destruct (show_head n Hw) as (y & s & -> & R). cbn [app]. eexists; eexists. split; [reflexivity|]. split; [|exact R]. unfold flag_char. rewrite !(proj2 (Z.eqb_neq _ _)) by lia. reflexivity.
    - eexists; eexists. split; [reflexivity|]. auto. }
  unfold parse_placeholder. rewrite (parse_flags_ok cf fl fuel m p y s); [|rewrite <- E; exact H|exact Fy|lia]. cbn [bind].
  apply bytes_at_app in H as [_ H]. rewrite Zlen_map in H. set (p1 := shift p (Zlen fl)) in *.
  assert (load_byte m p1 = Ok y) as -> by (rewrite E in H; now apply bytes_at_cons in H). cbn [bind].
  match goal with |- bind ?X _ = _ => assert (X = Ok (match w with WStar _ => true | _ => false end, match w with WNum n => n | _ => 0 end, shift p1 (Zlen (wid_text w)))) as -> end.
  { destruct w as [|n|n]; cbn [wid_text app] in *.
    - subst y. cbn [Z.eqb Pos.eqb]. rewrite (atoi_ok cf [] fuel m p1 0 46 h); auto; try lia; cbn; unfold INT_MAX; lia.
    - rewrite (proj2 (Z.eqb_neq y 42)) by lia. rewrite (atoi_show cf n fuel m p1 46 h); auto; lia.
    - subst y. cbn [Z.eqb Pos.eqb]. destruct (at_step cf m p1 _ _ H) as (_ & -> & _). reflexivity. }
  cbn [bind]. apply bytes_at_app in H as [_ H]. set (p2 := shift p1 (Zlen (wid_text w))) in *.
  destruct (at_step cf _ _ _ _ H) as (-> & -> & H2). cbn [bind Z.eqb Pos.eqb].
  destruct (huge_atoi cf m _ h fuel Wv Hh H2 ltac:(lia)) as [(d & s' & Ed & Hd) Ha]. assert (load_byte m (shift p2 1) = Ok d) as -> by (rewrite Ed in H2; now apply bytes_at_cons in H2).
  cbn [bind]. assert ((d =? 42) = false) as ->. { unfold digit in Hd. apply andb_true_iff in Hd as [H1 _]. apply Z.leb_le in H1. apply Z.eqb_neq. lia. }
  rewrite Ha. reflexivity.
Qed.

(** ** A call that only measures *)
Definition quiet (m : mem) (o : out mem) : Prop := o_buf mem o = null /\ o_fn mem o = None /\ o_st mem o = m /\ 0 <= o_col mem o <= o_cnt mem o.
Lemma quiet_char : forall cf m o c, quiet m o -> o_cnt mem o < INT_MAX -> exists o', out_char cf mem mid mwr o c = Ok o' /\ quiet m o' /\ o_cnt mem o' = o_cnt mem o + 1.
Proof.
  intros cf m o x (I1 & I2 & I3 & I4) Hc. unfold out_char. rewrite I1, I2. cbn [is_null null p_obj p_ofs Z.eqb bind].
  assert ((if (x =? 13) || (x =? 10) then Ok 0 else if 31 <? char_int cf x then iadd cf (o_col mem o) 1 else Ok (o_col mem o))
     = Ok (if (x =? 13) || (x =? 10) then 0 else if 31 <? char_int cf x then o_col mem o + 1 else o_col mem o)) as ->.
  { destruct ((x =? 13) || (x =? 10)); auto. destruct (31 <? char_int cf x); auto. apply iadd_ok. unfold INT_MIN. lia. }
  cbn [bind]. rewrite iadd_ok by (unfold INT_MIN; lia). cbn [bind]. eexists. split; [reflexivity|]. split; [|reflexivity].
  unfold quiet. cbn [o_cnt o_col o_st o_limit o_fn o_buf]. repeat split; auto; destruct ((x =? 13) || (x =? 10)); try lia; destruct (31 <? char_int cf x); lia.
Qed.
Lemma quiet_chars : forall cf m l o, quiet m o -> o_cnt mem o + Zlen l < INT_MAX -> exists o', out_chars cf mem mid mwr o l = Ok o' /\ quiet m o' /\ o_cnt mem o' = o_cnt mem o + Zlen l.
Proof.
  intros cf m. induction l as [|x l IH]; intros o Ho Hc; cbn [out_chars]; [exists o; change (Zlen (@nil Z)) with 0; rewrite Z.add_0_r; auto|].
  rewrite Zlen_cons in *. pose proof (Zlen_nonneg l). destruct (quiet_char cf m o x Ho ltac:(lia)) as (o1 & -> & I1 & C1). cbn [bind].
  destruct (IH o1 I1 ltac:(lia)) as (o2 & E2 & I2 & C2). exists o2. split; auto. split; auto. lia.
Qed.

Lemma before_then : forall cf A x (l : list (item (dbl A))), is_byte x -> items_before cf (fun _ _ _ => False) x l ->
  items_then cf A (flt_fine A) x l /\ forall col, printed cf (flt A) col l = printed cf (fun _ _ _ => []) col l.
Proof.
  intros cf A x l Hx. induction l as [|i l IH]; intros H; [split; [exact Logic.I|reflexivity]|]. destruct H as (Hi & Hl & Hn). destruct (IH Hl) as [I1 I2].
  assert (item_ok cf (flt_fine A) i /\ forall col, item_out cf (flt A) col i = item_out cf (fun _ _ _ => []) col i) as [E1 E2].
  { destruct i; cbn [item_ok item_out] in *; auto; destruct Hi as [_ []]. }
  split; [|intros col; cbn [printed]; now rewrite E2, I2]. cbn [items_then]. split; auto. split; auto. unfold next_ok. destruct i; auto. split; auto.
  assert (Forall is_byte (format l)) as Fb.
  { clear - Hl. induction l as [|i l IH]; [constructor|]. destruct Hl as (H1 & H2 & _). change (format (i :: l)) with (item_text i ++ format l). apply Forall_app. split; auto.
    assert (items_ok cf (fun (_ : bool) (_ : conv) (_ : dbl A) => False) [i]) as K.
    { destruct i; try (cbn [items_ok]; repeat split; auto; fail); cbn [items_ok]; auto. }
    apply format_bytes in K. unfold format in K. cbn [map concat] in K. now rewrite app_nil_r in K. }
  destruct (format l); [exact Hx|now inversion Fb].
Qed.

(** Undefined behaviour behind the items. *)
Lemma measure_stuck : forall cf A m n fmt (items : list (item (dbl A))) x rest va u, wf_cfg cf ->
  let f := format items ++ x :: rest in let t := plain cf items in Zlen t < INT_MAX -> is_byte x ->
  items_before cf (fun _ _ _ => False) x items -> Forall (item_mem m) items -> bytes_at m fmt f ->
  (forall o fuel limit, quiet m o -> o_cnt mem o = Zlen t -> (length f <= limit)%nat ->
     core_loop cf A mem mid mwr (S fuel) limit o (shift fmt (Zlen (format items))) va = UB u) ->
  vsnprnf cf A mem mid mwr m null n fmt (arguments cf items ++ va) = UB u.
Proof.
  intros cf A m n fmt items x rest va u Wf f t Ht Hx Hb Hm Hf Hu. unfold vsnprnf. set (o0 := Out mem 0 0 (to_int n) null None m).
  destruct (before_then cf A x items Hx Hb) as [Hi Hp]. assert (printed cf (flt A) 0 items = t) as Et by apply Hp.
  assert (quiet m o0) as Io by (unfold quiet, o0; cbn; repeat split; auto; lia).
  destruct (quiet_chars cf m t o0 Io ltac:(cbn; lia)) as (o1 & E1 & Q1 & C1).
  unfold core_prnf. pose proof Hf as (k & Ak & K1 & K2 & _). assert (access (mid (o_st mem o0)) (p_obj fmt) = Ok k) as -> by exact Ak. cbn [bind].
  assert (length f < S (Z.to_nat (b_size k)))%nat as Hlen by (unfold Zlen in K2; lia).
  assert (length (format items) < length f)%nat as Hl2 by (unfold f; rewrite app_length; cbn [length]; lia).
  assert (forall o, quiet m o -> bytes_at (mid (o_st mem o)) fmt f) as If by (intros o (_ & _ & -> & _); exact Hf).
  assert (forall o, quiet m o -> Forall (item_mem (mid (o_st mem o))) items) as Im by (intros o (_ & _ & -> & _); exact Hm).
  assert (forall o c o', quiet m o -> 0 <= o_cnt mem o < INT_MAX - 1 -> out_char cf mem mid mwr o c = Ok o' -> quiet m o') as Is.
  { intros o c o' Ho Hc E. destruct (quiet_char cf m o c Ho ltac:(lia)) as (o2 & E2 & I2 & _). rewrite E2 in E. injection E as <-. exact I2. }
  destruct (core_items cf A mem mid mwr (flt A) (flt_fine A) (flt_bytes A) (flt_f cf A mem mid mwr) (flt_e cf A mem mid mwr) (quiet m) (INT_MAX - 1) ltac:(lia) Is Wf fmt f If
    (S (Z.to_nat (b_size k))) (Nat.lt_le_incl _ _ Hlen) items [] x rest (S (Z.to_nat (b_size k))) o0 va) as (f1 & F1 & E2); auto.
  - cbn. lia.
  - cbn [o_cnt o_col o0]. rewrite Et. lia.
  - lia.
  - change (Zlen (@nil Z)) with 0 in E2. rewrite shift_0 in E2. rewrite E2. cbn [o_col o0]. rewrite Et, E1. cbn [bind app].
    destruct f1 as [|f1]; [lia|]. rewrite Hu; auto; lia.
Qed.

(** ** Columns, widths and precisions beyond INT_MAX *)
Lemma overflow_ub : forall cf A m n fmt (items : list (item (dbl A))) b rest va, wf_cfg cf -> c_wrapv cf = false -> overflows b ->
  Zlen (plain cf items) < INT_MAX -> items_before cf (fun _ _ _ => False) (hd 0 b) items -> Forall (item_mem m) items -> bytes_at m fmt (format items ++ b ++ rest) ->
  vsnprnf cf A mem mid mwr m null n fmt (arguments cf items ++ va) = UB UB_overflow.
Proof.
  intros cf A m n fmt items b rest va Wf Wv Hb Ht Hi Hm Hf.
  assert (forall h, huge h -> huge (h ++ rest)) as Hrest by (intros h (ds & r & -> & F & G); exists ds, (r ++ rest); rewrite <- app_assoc; auto).
  assert (forall h, huge h -> hd 0 (h ++ rest) = hd 0 h) as Hhd.
  { intros h (ds & r & -> & F & G). destruct ds; [cbn in G; unfold INT_MAX in G; lia|reflexivity]. }
  destruct Hb as [(h & -> & Hh)|[(fl & h & -> & Hh & N)|(fl & w & h & -> & Hw & Hh)]]; cbn [app hd] in *.
  - apply (measure_stuck cf A m n fmt items 11 (h ++ rest)); auto; [unfold is_byte; lia|]. intros o fuel limit (Q1 & Q2 & Q3 & Q4) _ Hlim. cbn [core_loop]. rewrite Q3.
    pose proof Hf as Hg. apply bytes_at_app in Hg as [_ Hg]. destruct (at_step cf _ _ _ _ Hg) as (H1 & H2 & H3). change (mid m) with m. rewrite H1. cbn [bind Z.eqb Pos.eqb]. rewrite H2. cbn [bind].
    destruct (huge_atoi cf m _ (h ++ rest) limit Wv (Hrest h Hh) H3) as [(d & s & Ed & Hd) Ha]; [rewrite app_length in Hlim; cbn [length] in Hlim; lia|].
    unfold print_col_alignment. rewrite Q3. change (mid m) with m. assert (load_byte m (shift (shift fmt (Zlen (format items))) 1) = Ok d) as -> by (rewrite Ed in H3; now apply bytes_at_cons in H3).
    cbn [bind]. rewrite Ha. reflexivity.
  - rewrite <- app_assoc in Hf. apply (measure_stuck cf A m n fmt items 37 (map flg_char fl ++ h ++ rest)); auto; [unfold is_byte; lia|]. intros o fuel limit (Q1 & Q2 & Q3 & Q4) _ Hlim. cbn [core_loop]. rewrite Q3.
    pose proof Hf as Hg. apply bytes_at_app in Hg as [_ Hg]. destruct (at_step cf _ _ _ _ Hg) as (H1 & H2 & H3). change (mid m) with m. rewrite H1. cbn [bind Z.eqb Pos.eqb]. rewrite H2. cbn [bind].
    assert (exists y s, map flg_char fl ++ h ++ rest = y :: s /\ (y =? 37) = false) as (y & s & Ey & Ny).
    { destruct fl as [|g fl]; cbn [map app]; [|eexists; eexists; split; [reflexivity|destruct g; reflexivity]].
      destruct Hh as (ds & r & -> & F & G). destruct ds as [|d ds]; [cbn in G; unfold INT_MAX in G; lia|]. cbn [app]. eexists; eexists; split; [reflexivity|]. inversion F; subst. now apply digit_no_flag. }
    assert (load_byte m (shift (shift fmt (Zlen (format items))) 1) = Ok y) as -> by (rewrite Ey in H3; now apply bytes_at_cons in H3). cbn [bind]. rewrite Ny.
    rewrite (parse_width_big cf m _ fl (h ++ rest) limit Wv H3); auto; [now rewrite Hhd|]. rewrite app_length in Hlim. cbn [length] in Hlim. lia.
  - rewrite <- !app_assoc in Hf. cbn [app] in Hf. apply (measure_stuck cf A m n fmt items 37 (map flg_char fl ++ wid_text w ++ 46 :: h ++ rest)); auto; [unfold is_byte; lia|]. intros o fuel limit (Q1 & Q2 & Q3 & Q4) _ Hlim. cbn [core_loop]. rewrite Q3.
    pose proof Hf as Hg. apply bytes_at_app in Hg as [_ Hg]. destruct (at_step cf _ _ _ _ Hg) as (H1 & H2 & H3). change (mid m) with m. rewrite H1. cbn [bind Z.eqb Pos.eqb]. rewrite H2. cbn [bind].
    assert (exists y s, map flg_char fl ++ wid_text w ++ 46 :: h ++ rest = y :: s /\ (y =? 37) = false) as (y & s & Ey & Ny).
    { destruct fl as [|g fl]; cbn [map app]; [|eexists; eexists; split; [reflexivity|destruct g; reflexivity]].
      destruct w as [|k|k]; cbn [wid_text app]; [eexists; eexists; split; reflexivity| |eexists; eexists; split; reflexivity].
      destruct (show_head k Hw) as (y & s & -> & R). cbn [app]. eexists; eexists; split; [reflexivity|]. apply Z.eqb_neq. lia. }
    assert (load_byte m (shift (shift fmt (Zlen (format items))) 1) = Ok y) as -> by (rewrite Ey in H3; now apply bytes_at_cons in H3). cbn [bind]. rewrite Ny.
    rewrite (parse_prec_big cf m _ fl w (h ++ rest) limit Wv Hw H3); auto. rewrite app_length in Hlim. cbn [length] in Hlim. lia.
Qed.

(** ** Numbers of digits that are not supported *)
Lemma hex_ub : forall cf (m : mem) o o' ph p v, (if ph_pspec ph then ph_prec ph else ph_size ph * 2) = p -> ~ 1 <= p mod 64 <= 16 -> INT_MIN <= p * 4 <= INT_MAX ->
  prepad cf mem mid mwr o ph p = Ok o' -> print_hex cf mem mid mwr o ph v = UB UB_shift.
Proof.
  intros cf m o o' ph p v E Hp1 Hp2 E'. unfold print_hex. rewrite E, E'. cbn [bind]. rewrite int_res_ok by lia. cbn [bind].
  assert (((p * 4) mod 256 - 4) mod 256 = 4 * ((p - 1) mod 64)) as Eo.
  { rewrite Zminus_mod_idemp_l. replace (p * 4 - 4) with ((p - 1) * 4) by lia. change 256 with (64 * 4). rewrite Z.mul_mod_distr_r by lia. lia. }
  assert (16 <= (p - 1) mod 64) as Hge.
  { pose proof (Z.mod_pos_bound p 64 ltac:(lia)). pose proof (Z.div_mod p 64 ltac:(lia)). destruct (Z.eq_dec (p mod 64) 0) as [E0|N0].
    - rewrite <- (Z.mod_unique_pos (p - 1) 64 (p / 64 - 1) 63); lia.
    - rewrite <- (Z.mod_unique_pos (p - 1) 64 (p / 64) (p mod 64 - 1)); lia. }
  cbn [hex_loop]. rewrite Eo. rewrite (proj2 (Z.ltb_ge _ 64)) by lia. reflexivity.
Qed.
Lemma bin_ub : forall cf (m : mem) o o' ph p v, (if ph_pspec ph then ph_prec ph else ph_size ph * 8) = p -> INT_MIN < p <= INT_MAX -> ~ 1 <= p <= 64 ->
  prepad cf mem mid mwr o ph p = Ok o' -> print_bin cf mem mid mwr o ph v = UB UB_shift.
Proof.
  intros cf m o o' ph p v E H0 Hp1 E'. unfold print_bin. rewrite E, E'. cbn [bind]. rewrite isub_ok by lia. cbn [bind].
  destruct (Z.leb_spec 0 (p - 1)), (Z.ltb_spec (p - 1) 64); cbn [andb]; auto. lia.
Qed.

Lemma digits_ub : forall cf A m n fmt (items : list (item (dbl A))) c t p v rest va, wf_cfg cf -> conv_ok c -> prec_of c = Some p ->
  ((t = 120 \/ t = 88) /\ ~ 1 <= p mod 64 <= 16 /\ INT_MIN <= p * 4 <= INT_MAX \/ t = 111 /\ ~ 1 <= p <= 64) ->
  Zlen (plain cf items) + width_of c - Z.min 0 p < INT_MAX -> items_before cf (fun _ _ _ => False) 37 items -> Forall (item_mem m) items ->
  bytes_at m fmt (format items ++ conv_text c t ++ rest) -> unsigned_ok cf (cv_len c) v ->
  vsnprnf cf A mem mid mwr m null n fmt (arguments cf items ++ conv_args c ++ int_arg cf (cv_len c) v :: va) = UB UB_shift.
Proof.
  intros cf A m n fmt items c t p v rest va Wf Hc Hp Ht Hl Hi Hm Hf Hv. pose proof (width_ok c Hc) as Hw. pose proof (prec_ok c Hc) as Hpr. rewrite Hp in Hpr.
  set (body := map flg_char (cv_flags c) ++ wid_text (cv_width c) ++ prc_text (cv_prec c) ++ len_text (cv_len c)).
  assert (conv_text c t ++ rest = 37 :: body ++ t :: rest) as Eb by (unfold conv_text, body; cbn [app]; rewrite <- !app_assoc; reflexivity).
  rewrite Eb in Hf. assert (longer c t = false) as Hlo by (apply type_past; unfold type_char; cbn [In]; destruct Ht as [[[E|E] _]|[E _]]; rewrite E; tauto).
  apply (measure_stuck cf A m n fmt items 37 (body ++ t :: rest)); auto; [lia|unfold is_byte; lia|].
  intros o fuel limit Q Ho Hlim. pose proof Q as (Q1 & Q2 & Q3 & Q4). cbn [core_loop]. rewrite Q3.
  pose proof Hf as Hg. apply bytes_at_app in Hg as [_ Hg]. destruct (at_step cf _ _ _ _ Hg) as (H1 & H2 & H3). change (mid m) with m. rewrite H1. cbn [bind Z.eqb Pos.eqb]. rewrite H2. cbn [bind].
  destruct (first_char c t rest Hc Hlo) as (y & s & Ey & Ny). unfold body in H3. rewrite <- !app_assoc in H3.
  assert (load_byte m (shift (shift fmt (Zlen (format items))) 1) = Ok y) as -> by (rewrite Ey in H3; now apply bytes_at_cons in H3). cbn [bind]. rewrite (proj2 (Z.eqb_neq y 37)) by auto.
  rewrite (parse_placeholder_ok cf c t rest limit m _ Hc Hlo H3).
  2:{ fold body. rewrite app_length in Hlim. cbn [length] in Hlim. rewrite app_length in Hlim. lia. }
  cbn [bind]. rewrite read_varg_conv by auto.
  assert (forall ty, is_type_int ty = true -> is_type_unsigned ty = true -> is_centered_string (ph_of cf c ty) = false /\
    exists o', prepad cf mem mid mwr o (ph_of cf c ty) p = Ok o') as Pp.
  { intros ty T1 T2. assert (is_centered_string (ph_of cf c ty) = false) as Ce by (unfold is_centered_string; cbn [ph_of ph_type]; destruct ty; try discriminate; reflexivity).
    split; auto. rewrite (prepad_eq cf mem mid mwr o (ph_of cf c ty) p Ce Hw ltac:(cbn [ph_of ph_width]; pose proof (Zlen_nonneg (plain cf items)); lia)). cbn [ph_of ph_minus ph_width].
    set (l := if left_aligned c then [] else copies _ _). destruct (quiet_chars cf m l o Q) as (o' & E' & _); eauto.
    rewrite Ho. assert (Zlen l <= Z.max 0 (width_of c - p)); [|lia]. unfold l. destruct (left_aligned c); [cbn; lia|]. rewrite Zlen_copies. lia. }
  destruct Ht as [[Ht [Hp1 Hp2]]|[Et Hp1]].
  - assert (type_of t = TYPE_HEX) as -> by (destruct Ht as [Et|Et]; rewrite Et; reflexivity).
    rewrite (int_arg_value cf A c TYPE_HEX v va) by (auto; exact Hv). cbn [bind].
    destruct (Pp TYPE_HEX eq_refl eq_refl) as [_ (o' & E')]. unfold print_placeholder. change (ph_type (ph_of cf c TYPE_HEX)) with TYPE_HEX. cbv iota beta.
    rewrite (hex_ub cf m o o' (ph_of cf c TYPE_HEX) p); auto. cbn [ph_of ph_pspec ph_prec]. now rewrite Hp.
  - rewrite Et. change (type_of 111) with TYPE_BIN. rewrite (int_arg_value cf A c TYPE_BIN v va) by (auto; exact Hv). cbn [bind].
    destruct (Pp TYPE_BIN eq_refl eq_refl) as [_ (o' & E')]. unfold print_placeholder. change (ph_type (ph_of cf c TYPE_BIN)) with TYPE_BIN. cbv iota beta.
    rewrite (bin_ub cf m o o' (ph_of cf c TYPE_BIN) p); auto; [|pose proof (Zlen_nonneg (plain cf items)); unfold INT_MIN, INT_MAX in *; lia]. cbn [ph_of ph_pspec ph_prec]. now rewrite Hp.
Qed.
