(** Consequences for the statements of the properties: invalid pointers, C string
    arguments, full buffers, strict arithmetic, capacities, ownership. *)
From Verif Require Import Base Mem Libc StrviewModel Spec MemLemmas StrviewProofs StrviewProofs4 Alloc StrbufModel BufSpec HistSpec
  StrbufProofs StrbufProofs2 StrbufProofs3 StrbufProofs4 StrbufProofs5 StrbufProofs6 StrbufProofs7 StrbufProofs8 StrbufHistory.

(** ** Full buffers *)
Lemma put_over_fixed : forall cf B c, dyn B = false -> bf_cap B < Zlen c -> put cf B c = Buffer [] (bf_cap B) (bf_alloc B).
Proof. intros cf B c D H. unfold put, fits. rewrite D. now rewrite (proj2 (Z.leb_gt _ _)) by lia. Qed.
Lemma put_over_int : forall cf B c, bf_cap B <= INT_MAX -> INT_MAX < Zlen c -> put cf B c = Buffer [] (bf_cap B) (bf_alloc B).
Proof. intros cf B c C H. unfold put, fits. destruct (dyn B); now rewrite (proj2 (Z.leb_gt _ _)) by lia. Qed.
Lemma put_all_over_fixed : forall cf B c, dyn B = false -> bf_cap B < Zlen c -> put_all cf B c = Buffer [] (bf_cap B) (bf_alloc B).
Proof. intros cf B c D H. unfold put_all, fits. rewrite D. now rewrite (proj2 (Z.leb_gt _ _)) by lia. Qed.
Lemma put_data : forall cf B c, bf_data (put cf B c) = c \/ bf_data (put cf B c) = [].
Proof. intros cf B c. unfold put. destruct (fits B c); auto. Qed.
Lemma put_fits : forall cf B c, (if dyn B then Zlen c <= INT_MAX else Zlen c <= bf_cap B) ->
  bf_data (put cf B c) = c /\ bf_alloc (put cf B c) = bf_alloc B.
Proof. intros cf B c H. unfold put, fits. destruct (dyn B); rewrite (proj2 (Z.leb_le _ _)) by lia; auto. Qed.

Lemma add_check_strict : forall cf x y, c_wrapv cf = false -> 0 <= x <= INT_MAX -> 0 <= y <= INT_MAX -> INT_MAX < x + y ->
  add_will_overflow_int cf x y = UB UB_overflow.
Proof.
  intros cf x y Hw Hx Hy Hs. unfold add_will_overflow_int, iadd, int_res, in_int.
  rewrite (proj2 (Z.leb_gt (x + y) INT_MAX)) by lia. rewrite andb_false_r, Hw. reflexivity.
Qed.
(** In strict arithmetic the check for a too long result is itself the undefined addition. *)
Lemma insert_strict : forall cf w p B i v l, wf_cfg cf -> c_ptr cf = true -> c_wrapv cf = false -> mem_wf (s_mem w) -> no_fail w ->
  buf_at cf (s_mem w) p B -> source cf (s_mem w) p B v l -> INT_MIN <= i <= INT_MAX ->
  INT_MAX < Zlen (bf_data B) + Zlen l ->
  insert_strview_into_buf cf w p i v = UB UB_overflow.
Proof.
  intros cf w p B i v l W Hc Hw Wm Nf HB Hs Hi Hsum.
  destruct (buf_at_cap _ _ _ _ HB) as [C F]. destruct (source_ok _ _ _ _ _ _ HB Hs) as [Fl Ll].
  pose proof (source_len _ _ _ _ _ _ Hs) as Hv. pose proof (Zlen_nonneg (bf_data B)) as Z1. pose proof (Zlen_nonneg l) as Z2.
  unfold insert_strview_into_buf.
  destruct (contains_ok cf (s_mem w) p B v l W (or_introl Hc) Wm HB Hs) as (Ec & d & Ed & Hd). rewrite Ec, Ed. cbn [bind].
  rewrite (buf_at_load cf (s_mem w) p B W HB). cbn [bind hdr_of h_size]. rewrite clamp_ok by (auto; lia). cbn [bind]. rewrite Hv.
  rewrite add_check_strict by (auto; lia). reflexivity.
Qed.
Lemma append_strict : forall cf w p B v l, wf_cfg cf -> c_ptr cf = true -> c_wrapv cf = false -> mem_wf (s_mem w) -> no_fail w ->
  buf_at cf (s_mem w) p B -> source cf (s_mem w) p B v l -> INT_MAX < Zlen (bf_data B) + Zlen l ->
  strbuf_append_strview cf w (Some p) v = UB UB_overflow.
Proof.
  intros cf w p B v l W Hc Hw Wm Nf HB Hs Hsum. unfold strbuf_append_strview, on_buf. rewrite (buf_at_nonnull _ _ _ _ HB).
  rewrite (buf_at_load cf (s_mem w) p B W HB). cbn [bind hdr_of h_size]. destruct (buf_at_cap _ _ _ _ HB) as [C F].
  pose proof (Zlen_nonneg (bf_data B)). rewrite (insert_strict cf w p B _ v l); auto. unfold INT_MIN. lia.
Qed.

(** ** C string arguments *)
Lemma cstr_args : forall cf w bp s l i dst, c_string (s_mem w) s l ->
  strbuf_append_cstr cf w bp s = strbuf_append_strview cf w bp (View s (Zlen l)) /\
  strbuf_prepend_cstr cf w bp s = strbuf_prepend_strview cf w bp (View s (Zlen l)) /\
  strbuf_insert_at_index_cstr cf w bp i s = strbuf_insert_at_index_strview cf w bp i (View s (Zlen l)) /\
  strbuf_insert_before_cstr cf w bp dst s = strbuf_insert_before_strview cf w bp dst (View s (Zlen l)) /\
  strbuf_insert_after_cstr cf w bp dst s = strbuf_insert_after_strview cf w bp dst (View s (Zlen l)) /\
  strbuf_strip_cstr cf w bp s = strbuf_strip_strview cf w bp (View s (Zlen l)).
Proof.
  intros cf w bp s l i dst H. destruct (cstr_ok _ _ _ H) as [E _].
  unfold strbuf_append_cstr, strbuf_prepend_cstr, strbuf_insert_at_index_cstr, strbuf_insert_before_cstr, strbuf_insert_after_cstr, strbuf_strip_cstr.
  rewrite E. cbn [bind]. auto 7.
Qed.

(** ** What a buffer in memory offers to the caller *)
(** Size and capacity can be read through the pointer, the characters are followed by a NUL
    inside of the object. *)
Lemma buf_facts : forall cf m p B, wf_cfg cf -> buf_at cf m p B ->
  exists h k, load_hdr cf m p = Ok h /\ access m (p_obj p) = Ok k /\
    0 <= h_size h <= h_cap h /\ h_cap h <= INT_MAX /\
    0 <= p_ofs p /\ p_ofs p + hdr_size cf + h_cap h + 1 <= b_size k /\
    load_byte m (shift (chars_of cf p) (h_size h)) = Ok 0 /\
    load_bytes m (chars_of cf p) (Z.to_nat (h_size h)) = Ok (bf_data B) /\ h_size h = Zlen (bf_data B) /\ h_cap h = bf_cap B.
Proof.
  intros cf m [po o] B W HB. pose proof HB as (b & k & E1 & E2 & HI). cbn [p_obj p_ofs] in *. subst po.
  exists (hdr_of B), k. pose proof (buf_at_load cf _ _ _ W HB) as Hl. pose proof HI as (L & O & Al & F & H & D & T & By & C & Dy).
  pose proof (Zlen_nonneg (bf_data B)). pose proof (hdr_size_pos cf W).
  assert (access m (PBlk b) = Ok k) as A by (now apply access_ok).
  split; [auto|]. split; [auto|]. cbn [hdr_of h_size h_cap]. split; [lia|]. split; [lia|]. split; [auto|]. split; [lia|].
  split; [|split; [|auto]].
  - unfold load_byte, load_cell, chars_of, shift. cbn [p_obj p_ofs]. rewrite A. cbn [bind]. unfold in_block.
    rewrite !(proj2 (Z.leb_le _ _)) by lia. cbn [andb negb]. rewrite T. reflexivity.
  - pose proof (buf_at_view cf m _ _ W HB) as (V & _ & _ & _). cbn [buf_view v_data] in V.
    pose proof (load_bytes_ok m (bf_data B) (chars_of cf (Ptr (PBlk b) o)) V) as K.
    unfold Zlen. rewrite Nat2Z.id. exact K.
Qed.

(** ** Capacities *)
Definition keeps_cap (cf : cfg) (dynamic : bool) (c c' : Z) : Prop :=
  c' = c \/ (dynamic = true /\ c < c' /\ (c' mod c_step cf = 0 \/ c' = INT_MAX)).
Lemma put_cap : forall cf B c, wf_cfg cf -> 0 <= bf_cap B <= INT_MAX -> keeps_cap cf (dyn B) (bf_cap B) (bf_cap (put cf B c)).
Proof.
  intros cf B c W C. unfold put, keeps_cap. destruct (fits B c) eqn:Ef; cbn [bf_cap]; auto.
  unfold grown. cbn [bf_cap]. unfold fits in Ef. destruct (dyn B) eqn:D; cbn [andb]; auto. destruct (bf_cap B <? Zlen c) eqn:E; auto.
  apply Z.ltb_lt in E. apply Z.leb_le in Ef. right. split; auto. destruct W as [[W1 W2] _].
  unfold rounded. pose proof (Z.div_mod (Zlen c + c_step cf - 1) (c_step cf) ltac:(lia)) as Hd.
  pose proof (Z.mod_pos_bound (Zlen c + c_step cf - 1) (c_step cf) ltac:(lia)).
  rewrite (Z.mul_comm (c_step cf)) in Hd. split; [lia|].
  destruct (Z.min_spec INT_MAX ((Zlen c + c_step cf - 1) / c_step cf * c_step cf)) as [[_ ->]|[_ ->]]; auto.
  left. apply Z.mod_mul. lia.
Qed.
Lemma put_all_cap : forall cf B c, wf_cfg cf -> 0 <= bf_cap B <= INT_MAX -> keeps_cap cf (dyn B) (bf_cap B) (bf_cap (put_all cf B c)).
Proof.
  intros cf B c W C. unfold put_all. destruct (fits B c) eqn:Ef; [now apply put_cap|]. cbn [bf_cap]. unfold keeps_cap.
  destruct (dyn B); auto. destruct (Z.eq_dec (bf_cap B) INT_MAX); [left; lia|right; split; auto; split; [lia|auto]].
Qed.
Definition resizes (o : op) : bool := match o with OShrink _ | OGrow _ _ => true | _ => false end.
Lemma step_cap : forall cf a B o, wf_cfg cf -> 0 <= bf_cap B <= INT_MAX -> resizes o = false ->
  keeps_cap cf (dyn B) (bf_cap B) (bf_cap (buf_step cf a B o)).
Proof.
  intros cf a B o W C R. destruct o; cbn [buf_step resizes bf_cap] in *; try discriminate R;
    try (apply put_cap; auto); try (apply put_all_cap; auto); try (left; reflexivity).
  - destruct (place_of a j d) as [[x y]|]; [now apply put_cap|now left].
  - destruct (place_of a j d) as [[x y]|]; [now apply put_cap|now left].
  - destruct (negb (dyn B) && existsb (starts_in a j) ss); [now left|now apply put_cap].
  - destruct (Zlen (bf_data B) + Zlen l <=? bf_cap B); now left.
Qed.
(** Calls after which the variable still holds the same buffer. *)
Definition edits (o : op) : bool :=
  match o with OCreate _ _ _ | OInit _ _ _ | ODestroy _ | OToCstr _ | OFree _ _ => false | _ => true end.
Lemma edit_step : forall cf T a vars w o B, wf_cfg cf -> c_ptr cf = true -> means cf T a vars w -> legal cf T a o -> edits o = true ->
  slot_of a (target o) = ABuf B ->
  exists v vars' w' h h', exec cf vars w o = Ok (v, vars', w') /\
    load_hdr cf (s_mem w) (var vars (target o)) = Ok h /\ load_hdr cf (s_mem w') (var vars' (target o)) = Ok h' /\
    h_cap h = bf_cap B /\ h_cap h' = bf_cap (buf_step cf a B o) /\ h_alloc h' = h_alloc h /\ h_alloc h = bf_alloc B /\
    0 <= bf_cap B <= INT_MAX /\ h_size h = Zlen (bf_data B) /\ h_size h' = Zlen (bf_data (buf_step cf a B o)).
Proof.
  intros cf T a vars w o B W Hc M Hl He Hj. destruct (step_ok cf T a vars w o W Hc M Hl) as (v & vars' & w' & E & _ & M' & _).
  pose proof (slot_in a _ _ Hj ltac:(congruence)) as Lj. pose proof (mn_slot _ _ _ _ _ M _ Lj) as H1. rewrite Hj in H1. cbn [slot_rel] in H1.
  rewrite (astep_buf cf a o B Hj) in M' by (destruct o; try exact I; discriminate He). cbn [snd] in M'.
  assert (target o < length (upd a (target o) (ABuf (buf_step cf a B o))))%nat as Lj2 by (now rewrite upd_len).
  pose proof (mn_slot _ _ _ _ _ M' _ Lj2) as H2. unfold slot_of in H2. rewrite nth_upd_eq in H2 by auto. cbn [slot_rel] in H2.
  exists v, vars', w', (hdr_of B), (hdr_of (buf_step cf a B o)). split; auto.
  split; [now apply buf_at_load|]. split; [now apply buf_at_load|]. destruct (buf_at_cap _ _ _ _ H1) as [C _].
  pose proof (Zlen_nonneg (bf_data B)). cbn [hdr_of h_cap h_alloc h_size]. destruct (step_keeps cf a B o) as [K _]. repeat split; auto; lia.
Qed.

(** ** Ownership *)
Lemma owner_unique : forall cf T a vars w i j b, means cf T a vars w -> (i < length a)%nat -> (j < length a)%nat ->
  owns (slot_of a i) = true -> owns (slot_of a j) = true ->
  p_obj (var vars i) = PBlk b -> p_obj (var vars j) = PBlk b -> i = j.
Proof.
  intros cf T a vars w i j b M Hi Hj Oi Oj Ei Ej. destruct (Nat.eq_dec i j); auto. exfalso.
  pose proof (mn_apart _ _ _ _ _ M i j n Hi Hj) as A.
  destruct (slot_of a i) eqn:Si, (slot_of a j) eqn:Sj; cbn [owns apart] in *; try discriminate; try congruence.
  destruct A as [A|(A & _)]; congruence.
Qed.
