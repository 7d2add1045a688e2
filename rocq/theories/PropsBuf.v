(** Property theorems for strbuf.h (C34 - C53, C66 - C68), each with a concrete instance. *)
From Coq Require Import String.
From Verif Require Import Base Mem Libc StrviewModel Spec MemLemmas Alloc StrbufModel BufSpec HistSpec
  StrbufProofs StrbufProofs2 StrbufProofs3 StrbufProofs4 StrbufProofs5 StrbufProofs6 StrbufProofs7 StrbufProofs8 StrbufHistory StrbufProofs9
  ExampleLib BufExample.
Local Open Scope string_scope.
Local Open Scope list_scope.
Local Open Scope Z_scope.

(** The situation before a call: a supported configuration, disjoint objects, an allocator
    that does not fail, and [p] points to the buffer [B]. *)
Definition ready (cf : cfg) (w : st) (p : ptr) (B : buffer) : Prop :=
  wf_cfg cf /\ mem_wf (s_mem w) /\ no_fail w /\ buf_at cf (s_mem w) p B.
Lemma dyn_ready : ready gcc64 w_move pdyn b_hello.
Proof. exact (conj gcc64_wf (conj xm_wf (conj move_ok pdyn_ok))). Qed.
Lemma fix_ready : ready gcc64 w_move pfix b_fixed.
Proof. exact (conj gcc64_wf (conj xm_wf (conj move_ok pfix_ok))). Qed.

(** ** C34 *)
Theorem C34_create_empty : forall cf w dflt cap a, wf_cfg cf -> mem_wf (s_mem w) -> no_fail w ->
  is_dyn (chosen dflt a) = true -> 0 <= cap <= INT_MAX ->
  created cf w (strbuf_create_empty cf w dflt cap a) (Buffer [] cap (chosen dflt a)).
Proof. exact create_empty_ok. Qed.
Print Assumptions C34_create_empty.
Theorem C34_create_init : forall cf w dflt v l a, wf_cfg cf -> c_ptr cf = true -> mem_wf (s_mem w) -> no_fail w ->
  is_dyn (chosen dflt a) = true ->
  (v = INVALID /\ l = [] \/ has_view (s_mem w) v l /\ exists b, p_obj (v_data v) = PBlk b) ->
  sums_ok cf (Zlen l) ->
  created cf w (strbuf_create_init cf w dflt v a) (Buffer l (Zlen l) (chosen dflt a)).
Proof. exact create_init_ok. Qed.
Print Assumptions C34_create_init.
Theorem C34_create_none : forall cf w dflt cap a, is_dyn (chosen dflt a) = false \/ INT_MAX < cap ->
  strbuf_create_empty cf w dflt cap a = Ok (null, w).
Proof. exact create_empty_none. Qed.
Print Assumptions C34_create_none.
Example C34_ex : is_dyn (chosen heapA None) = true /\ is_dyn (chosen fixed None) = false /\ has_view (s_mem w_move) wide (bs "wide")
  /\ shows gcc64 (let! (p, w) := strbuf_create_init gcc64 w_move heapA wide None in ret_view gcc64 (Some p) w) = Some (Some (bs "wide"), 4)
  /\ shows gcc64 (let! (p, w) := strbuf_create_empty gcc64 w_move heapA 100 (Some heapB) in ret_view gcc64 (Some p) w) = Some (Some [], 100).
Proof. split; [reflexivity|]. split; [reflexivity|]. split; [view_check|]. split; vm_compute; reflexivity. Qed.

(** ** C35 *)
Theorem C35_create_fixed : forall cf (m : mem) b k o n, wf_cfg cf -> mem_wf m -> nth_error m b = Some k -> b_live k = true ->
  0 <= o -> o + n <= b_size k -> hdr_size cf < n -> (b_base k + o) mod c_ptrbytes cf = 0 ->
  exists m', strbuf_create_fixed cf m (Ptr (PBlk b) o) n = Ok (Ptr (PBlk b) o, m') /\
    buf_at cf m' (Ptr (PBlk b) o) (Buffer [] (Z.min (n - hdr_size cf - 1) INT_MAX) (Alloc 0 None)) /\
    frame m m' b o (o + n) /\ mem_wf m'.
Proof. exact create_fixed_ok. Qed.
Print Assumptions C35_create_fixed.
Theorem C35_create_fixed_none : forall cf (m : mem) a n,
  n <= hdr_size cf \/ is_null a = true \/ (exists z, addr m a = Some z /\ z mod c_ptrbytes cf <> 0) ->
  strbuf_create_fixed cf m a n = Ok (null, m).
Proof. exact create_fixed_none. Qed.
Print Assumptions C35_create_fixed_none.
Theorem C35_static : forall cf base cap, wf_cfg cf -> base mod c_ptrbytes cf = 0 -> 0 <= cap <= INT_MAX ->
  buf_in cf (static_buf_block cf base cap) 0 (Buffer [] cap (Alloc 0 None)).
Proof. exact static_ok. Qed.
Print Assumptions C35_static.
Example C35_ex : (exists k, nth_error xm 4 = Some k /\ b_live k = true /\ 8 + 92 <= b_size k /\ (b_base k + 8) mod 8 = 0)
  /\ shows gcc64 (let! (p, m) := strbuf_create_fixed gcc64 xm (Ptr (PBlk 4) 8) 92 in ret_view gcc64 (Some p) (with_mem w_move m)) = Some (Some [], 67)
  /\ strbuf_create_fixed gcc64 xm (Ptr (PBlk 4) 9) 80 = Ok (null, xm)
  /\ strbuf_create_fixed gcc64 xm (Ptr (PBlk 4) 0) 24 = Ok (null, xm).
Proof.
  split; [eexists; split; [reflexivity|]; split; [reflexivity|]; split; [cbn; lia|reflexivity]|].
  split; [vm_compute; reflexivity|]. split; reflexivity.
Qed.

(** ** C36 *)
Theorem C36_append : forall cf w p B v l, ready cf w p B -> comparable cf p v ->
  source cf (s_mem w) p B v l -> sums_ok cf (Zlen (bf_data B) + Zlen l) ->
  becomes cf w p B (strbuf_append_strview cf w (Some p) v) (put cf B (bf_data B ++ l)).
Proof. intros cf w p B v l (H1 & H2 & H3 & H4) H5. now apply append_ok. Qed.
Print Assumptions C36_append.
Theorem C36_prepend : forall cf w p B v l, ready cf w p B -> comparable cf p v ->
  source cf (s_mem w) p B v l -> sums_ok cf (Zlen (bf_data B) + Zlen l) ->
  becomes cf w p B (strbuf_prepend_strview cf w (Some p) v) (put cf B (l ++ bf_data B)).
Proof. intros cf w p B v l (H1 & H2 & H3 & H4) H5. now apply prepend_ok. Qed.
Print Assumptions C36_prepend.
Theorem C36_insert_at_index : forall cf w p B i v l, ready cf w p B -> comparable cf p v ->
  source cf (s_mem w) p B v l -> INT_MIN <= i <= INT_MAX -> sums_ok cf (Zlen (bf_data B) + Zlen l) ->
  becomes cf w p B (strbuf_insert_at_index_strview cf w (Some p) i v) (put cf B (insert (bf_data B) i l)).
Proof. intros cf w p B i v l (H1 & H2 & H3 & H4) H5. now apply insert_at_index_ok. Qed.
Print Assumptions C36_insert_at_index.
Theorem C36_append_char : forall cf w p B c, ready cf w p B -> is_byte c -> sums_ok cf (Zlen (bf_data B) + 1) ->
  becomes cf w p B (strbuf_append_char cf w (Some p) c) (put cf B (bf_data B ++ [c])).
Proof. intros cf w p B c (H1 & H2 & H3 & H4). now apply append_char_ok. Qed.
Print Assumptions C36_append_char.
(** The same with a C string as source, which may lie in the buffer too. *)
Theorem C36_cstr : forall cf w p B s l i, ready cf w p B -> comparable cf p (View s (Zlen l)) -> c_string (s_mem w) s l ->
  source cf (s_mem w) p B (View s (Zlen l)) l -> INT_MIN <= i <= INT_MAX -> sums_ok cf (Zlen (bf_data B) + Zlen l) ->
  becomes cf w p B (strbuf_append_cstr cf w (Some p) s) (put cf B (bf_data B ++ l)) /\
  becomes cf w p B (strbuf_prepend_cstr cf w (Some p) s) (put cf B (l ++ bf_data B)) /\
  becomes cf w p B (strbuf_insert_at_index_cstr cf w (Some p) i s) (put cf B (insert (bf_data B) i l)).
Proof.
  intros cf w p B s l i (H1 & H2 & H3 & H4) H5 Hs Hv Hi Hn. destruct (cstr_args cf w (Some p) s l i INVALID Hs) as (-> & -> & -> & _).
  split; [now apply append_ok|]. split; [now apply prepend_ok|]. now apply insert_at_index_ok.
Qed.
Print Assumptions C36_cstr.
(** When it fits, the contents are the full result. *)
Theorem C36_fits : forall cf B c, (if dyn B then Zlen c <= INT_MAX else Zlen c <= bf_cap B) ->
  bf_data (put cf B c) = c /\ bf_alloc (put cf B c) = bf_alloc B.
Proof. exact put_fits. Qed.
Print Assumptions C36_fits.
Example C36_ex : ready gcc64 w_move pdyn b_hello /\ source gcc64 (s_mem w_move) pdyn b_hello (vw 0 25 3) (bs "ell")
  /\ sums_ok gcc64 8
  /\ shows gcc64 (strbuf_append_strview gcc64 w_move (Some pdyn) (vw 0 25 3)) = Some (Some (bs "helloell"), 8)
  /\ shows gcc64 (strbuf_append_strview gcc64 w_move (Some pdyn) (vw 0 24 5)) = Some (Some (bs "hellohello"), 16)
  /\ shows gcc64 (strbuf_prepend_strview gcc64 w_move (Some pdyn) wide) = Some (Some (bs "widehello"), 16)
  /\ shows gcc64 (strbuf_insert_at_index_strview gcc64 w_move (Some pdyn) (-2) (vw 0 24 5)) = Some (Some (bs "helhellolo"), 16)
  /\ shows gcc64 (strbuf_insert_at_index_strview gcc64 w_stay (Some pdyn) 2 (vw 0 24 5)) = Some (Some (bs "hehellollo"), 16)
  /\ c_string xm (Ptr (PBlk 3) 0) (bs "lo")
  /\ shows gcc64 (strbuf_append_cstr gcc64 w_move (Some pfix) (Ptr (PBlk 3) 0)) = Some (Some (bs "abcdeflo"), 10).
Proof.
  split; [exact dyn_ready|]. split; [exact ell_src|]. split; [apply any_sums|].
  do 5 (split; [vm_compute; reflexivity|]). split; [cstr_check|]. vm_compute. reflexivity.
Qed.

(** ** C37 *)
Theorem C37_insert_before : forall cf w p B a d c src l, ready cf w p B -> comparable cf p src ->
  source cf (s_mem w) p B src l -> bf_data B = a ++ d ++ c -> sums_ok cf (Zlen (bf_data B) + Zlen l) ->
  becomes cf w p B (strbuf_insert_before_strview cf w (Some p) (View (shift (chars_of cf p) (Zlen a)) (Zlen d)) src)
    (put cf B (a ++ l ++ d ++ c)).
Proof. intros cf w p B a d c src l (H1 & H2 & H3 & H4) H5. now apply insert_before_in. Qed.
Print Assumptions C37_insert_before.
Theorem C37_insert_after : forall cf w p B a d c src l, ready cf w p B -> comparable cf p src ->
  source cf (s_mem w) p B src l -> bf_data B = a ++ d ++ c -> sums_ok cf (Zlen (bf_data B) + Zlen l) ->
  becomes cf w p B (strbuf_insert_after_strview cf w (Some p) (View (shift (chars_of cf p) (Zlen a)) (Zlen d)) src)
    (put cf B (a ++ d ++ l ++ c)).
Proof. intros cf w p B a d c src l (H1 & H2 & H3 & H4) H5. now apply insert_after_in. Qed.
Print Assumptions C37_insert_after.
Theorem C37_elsewhere : forall cf w p B dst d src, ready cf w p B -> c_ptr cf = true ->
  (dst = INVALID \/ (has_view (s_mem w) dst d /\ outside cf p B dst d)) ->
  strbuf_insert_before_strview cf w (Some p) dst src = Ok (buf_view cf p B, Some p, w) /\
  strbuf_insert_after_strview cf w (Some p) dst src = Ok (buf_view cf p B, Some p, w).
Proof. intros cf w p B dst d src (H1 & H2 & H3 & H4) H5. now apply insert_before_out. Qed.
Print Assumptions C37_elsewhere.
Theorem C37_cstr : forall cf w p B a d c s l, ready cf w p B -> comparable cf p (View s (Zlen l)) -> c_string (s_mem w) s l ->
  source cf (s_mem w) p B (View s (Zlen l)) l -> bf_data B = a ++ d ++ c -> sums_ok cf (Zlen (bf_data B) + Zlen l) ->
  becomes cf w p B (strbuf_insert_before_cstr cf w (Some p) (View (shift (chars_of cf p) (Zlen a)) (Zlen d)) s) (put cf B (a ++ l ++ d ++ c)) /\
  becomes cf w p B (strbuf_insert_after_cstr cf w (Some p) (View (shift (chars_of cf p) (Zlen a)) (Zlen d)) s) (put cf B (a ++ d ++ l ++ c)).
Proof.
  intros cf w p B a d c s l (H1 & H2 & H3 & H4) H5 Hs Hv Hd Hn.
  destruct (cstr_args cf w (Some p) s l 0 (View (shift (chars_of cf p) (Zlen a)) (Zlen d)) Hs) as (_ & _ & _ & -> & -> & _).
  split; [now apply insert_before_in|now apply insert_after_in].
Qed.
Print Assumptions C37_cstr.
Example C37_ex : ready gcc64 w_move pdyn b_hello /\ bf_data b_hello = bs "h" ++ bs "ell" ++ bs "o"
  /\ View (shift (chars_of gcc64 pdyn) (Zlen (bs "h"))) (Zlen (bs "ell")) = vw 0 25 3
  /\ shows gcc64 (strbuf_insert_before_strview gcc64 w_move (Some pdyn) (vw 0 25 3) wide) = Some (Some (bs "hwideello"), 16)
  /\ shows gcc64 (strbuf_insert_after_strview gcc64 w_move (Some pdyn) (vw 0 25 3) (vw 0 24 5)) = Some (Some (bs "hellhelloo"), 16)
  /\ has_view xm wide (bs "wide") /\ outside gcc64 pdyn b_hello wide (bs "wide")
  /\ shows gcc64 (strbuf_insert_before_strview gcc64 w_move (Some pdyn) wide (vw 0 24 5)) = Some (Some (bs "hello"), 8).
Proof.
  split; [exact dyn_ready|]. split; [reflexivity|]. split; [reflexivity|]. do 2 (split; [vm_compute; reflexivity|]).
  split; [view_check|]. split; [split; [eexists; reflexivity|left; cbn; congruence]|]. vm_compute. reflexivity.
Qed.

(** ** C38 *)
Theorem C38_assign : forall cf w p B v l, ready cf w p B -> source cf (s_mem w) p B v l ->
  (dyn B = true -> bf_cap B < Zlen l -> sums_ok cf (Zlen l)) ->
  becomes cf w p B (strbuf_assign cf w (Some p) v) (put cf B l).
Proof. intros cf w p B v l (H1 & H2 & H3 & H4). now apply assign_ok. Qed.
Print Assumptions C38_assign.
Example C38_ex : ready gcc64 w_move pfix b_fixed /\ source gcc64 (s_mem w_move) pfix b_fixed (vw 2 25 3) (bs "bcd") /\ sums_ok gcc64 3
  /\ shows gcc64 (strbuf_assign gcc64 w_move (Some pfix) (vw 2 25 3)) = Some (Some (bs "bcd"), 10)
  /\ shows gcc64 (strbuf_assign gcc64 w_move (Some pdyn) (vw 1 0 10)) = Some (Some (bs "wide world"), 16).
Proof. split; [exact fix_ready|]. split; [exact bcd_src|]. split; [apply any_sums|]. split; vm_compute; reflexivity. Qed.

(** ** C39 *)
(** The view starts at a character of the buffer. *)
Definition starts_at (cf : cfg) (p : ptr) (B : buffer) (v : view) : Prop :=
  exists q, 0 <= q < Zlen (bf_data B) /\ v_data v = shift (chars_of cf p) q.
Lemma starts_within : forall cf p B v, within cf p v B = true <-> starts_at cf p B v.
Proof.
  intros cf p B [[po o] n]. unfold within, starts_at, chars_of, shift. cbn [v_data p_obj p_ofs]. split.
  - intros H. apply andb_true_iff in H as [H H3]. apply andb_true_iff in H as [H1 H2]. apply Z.leb_le in H2. apply Z.ltb_lt in H3.
    exists (o - (p_ofs p + hdr_size cf)). split; [lia|]. f_equal; [|lia].
    now apply pobj_eqb_eq.
  - intros (q & Hq & E). injection E as E1 E2. subst. rewrite (proj2 (Z.leb_le _ _)), (proj2 (Z.ltb_lt _ _)) by lia. rewrite !andb_true_r.
    apply pobj_eqb_refl.
Qed.
Theorem C39_cat : forall cf w p B args ls, ready cf w p B -> c_ptr cf = true ->
  Forall2 (source cf (s_mem w) p B) args ls -> sums_ok cf (Zlen (concat ls)) ->
  dyn B = true \/ Forall (fun v => ~ starts_at cf p B v) args ->
  becomes cf w p B (strbuf_cat cf w (Some p) args) (put cf B (concat ls)).
Proof.
  intros cf w p B args ls (H1 & H2 & H3 & H4) Hc Hs Hn Hd. pose proof (cat_ok cf w p B args ls H1 Hc H2 H3 H4 Hs Hn) as K.
  replace (negb (dyn B) && existsb (fun v => within cf p v B) args) with false in K; auto.
  symmetry. destruct Hd as [-> | Hd]; [reflexivity|]. apply andb_false_iff. right.
  destruct (existsb (fun v => within cf p v B) args) eqn:E; auto. apply existsb_exists in E as (v & E1 & E2).
  rewrite Forall_forall in Hd. destruct (Hd v E1). now apply starts_within.
Qed.
Print Assumptions C39_cat.
(** A fixed buffer cannot be catenated from itself: it is emptied. *)
Theorem C39_cat_fixed_self : forall cf w p B args ls, ready cf w p B -> c_ptr cf = true ->
  Forall2 (source cf (s_mem w) p B) args ls -> sums_ok cf (Zlen (concat ls)) ->
  dyn B = false -> Exists (starts_at cf p B) args ->
  becomes cf w p B (strbuf_cat cf w (Some p) args) (Buffer [] (bf_cap B) (bf_alloc B)).
Proof.
  intros cf w p B args ls (H1 & H2 & H3 & H4) Hc Hs Hn Hd He. pose proof (cat_ok cf w p B args ls H1 Hc H2 H3 H4 Hs Hn) as K.
  replace (negb (dyn B) && existsb (fun v => within cf p v B) args) with true in K; auto.
  symmetry. rewrite Hd. cbn [negb andb]. apply existsb_exists. apply Exists_exists in He as (v & E1 & E2). exists v. split; auto. now apply starts_within.
Qed.
Print Assumptions C39_cat_fixed_self.
Example C39_ex : ready gcc64 w_move pdyn b_hello
  /\ Forall2 (source gcc64 (s_mem w_move) pdyn b_hello) [vw 0 25 3; wide; INVALID; vw 0 25 3] [bs "ell"; bs "wide"; []; bs "ell"]
  /\ shows gcc64 (strbuf_cat gcc64 w_move (Some pdyn) [vw 0 25 3; wide; INVALID; vw 0 25 3]) = Some (Some (bs "ellwideell"), 16)
  /\ shows gcc64 (strbuf_cat gcc64 w_move (Some pfix) [wide; vw 0 25 3]) = Some (Some (bs "wideell"), 10)
  /\ starts_at gcc64 pfix b_fixed (vw 2 25 3)
  /\ shows gcc64 (strbuf_cat gcc64 w_move (Some pfix) [wide; vw 2 25 3]) = Some (Some [], 10).
Proof.
  split; [exact dyn_ready|].
  split; [constructor; [exact ell_src|constructor; [apply wide_src; discriminate|constructor; [constructor|constructor; [exact ell_src|constructor]]]]|].
  do 2 (split; [vm_compute; reflexivity|]). split; [exists 1; split; [cbn; lia|reflexivity]|]. vm_compute. reflexivity.
Qed.

(** ** C40 *)
Theorem C40_insert_overflow : forall cf w p B i v l, ready cf w p B -> comparable cf p v -> dyn B = false ->
  source cf (s_mem w) p B v l -> INT_MIN <= i <= INT_MAX -> sums_ok cf (Zlen (bf_data B) + Zlen l) ->
  bf_cap B < Zlen (bf_data B) + Zlen l ->
  becomes cf w p B (strbuf_append_strview cf w (Some p) v) (Buffer [] (bf_cap B) (bf_alloc B)) /\
  becomes cf w p B (strbuf_prepend_strview cf w (Some p) v) (Buffer [] (bf_cap B) (bf_alloc B)) /\
  becomes cf w p B (strbuf_insert_at_index_strview cf w (Some p) i v) (Buffer [] (bf_cap B) (bf_alloc B)).
Proof.
  intros cf w p B i v l R Hc D Hs Hi Hn Ho.
  rewrite <- (put_over_fixed cf B (bf_data B ++ l) D) at 1 by (rewrite Zlen_app; lia).
  rewrite <- (put_over_fixed cf B (l ++ bf_data B) D) at 1 by (rewrite Zlen_app; lia).
  rewrite <- (put_over_fixed cf B (insert (bf_data B) i l) D) by (rewrite insert_len; lia).
  split; [now apply C36_append|]. split; [now apply C36_prepend|now apply C36_insert_at_index].
Qed.
Print Assumptions C40_insert_overflow.
Theorem C40_insert_at_view_overflow : forall cf w p B a d c v l, ready cf w p B -> comparable cf p v -> dyn B = false ->
  source cf (s_mem w) p B v l -> bf_data B = a ++ d ++ c -> sums_ok cf (Zlen (bf_data B) + Zlen l) ->
  bf_cap B < Zlen (bf_data B) + Zlen l ->
  becomes cf w p B (strbuf_insert_before_strview cf w (Some p) (View (shift (chars_of cf p) (Zlen a)) (Zlen d)) v) (Buffer [] (bf_cap B) (bf_alloc B)) /\
  becomes cf w p B (strbuf_insert_after_strview cf w (Some p) (View (shift (chars_of cf p) (Zlen a)) (Zlen d)) v) (Buffer [] (bf_cap B) (bf_alloc B)).
Proof.
  intros cf w p B a d c v l R Hc D Hs Hd Hn Ho. rewrite Hd, !Zlen_app in Ho.
  rewrite <- (put_over_fixed cf B (a ++ l ++ d ++ c) D) at 1 by (rewrite !Zlen_app; lia).
  rewrite <- (put_over_fixed cf B (a ++ d ++ l ++ c) D) by (rewrite !Zlen_app; lia).
  split; [now apply C37_insert_before|now apply C37_insert_after].
Qed.
Print Assumptions C40_insert_at_view_overflow.
Theorem C40_assign_overflow : forall cf w p B v l, ready cf w p B -> dyn B = false ->
  source cf (s_mem w) p B v l -> bf_cap B < Zlen l ->
  becomes cf w p B (strbuf_assign cf w (Some p) v) (Buffer [] (bf_cap B) (bf_alloc B)).
Proof. intros cf w p B v l R D Hs Ho. rewrite <- (put_over_fixed cf B l D) by lia. apply C38_assign; auto. congruence. Qed.
Print Assumptions C40_assign_overflow.
Theorem C40_cat_overflow : forall cf w p B args ls, ready cf w p B -> c_ptr cf = true -> dyn B = false ->
  Forall2 (source cf (s_mem w) p B) args ls -> sums_ok cf (Zlen (concat ls)) -> bf_cap B < Zlen (concat ls) ->
  becomes cf w p B (strbuf_cat cf w (Some p) args) (Buffer [] (bf_cap B) (bf_alloc B)).
Proof.
  intros cf w p B args ls (H1 & H2 & H3 & H4) Hc D Hs Hn Ho. pose proof (cat_ok cf w p B args ls H1 Hc H2 H3 H4 Hs Hn) as K.
  rewrite put_over_fixed in K by auto. now destruct (negb (dyn B) && existsb (fun v => within cf p v B) args).
Qed.
Print Assumptions C40_cat_overflow.
Theorem C40_char_overflow : forall cf w p B c, ready cf w p B -> dyn B = false -> is_byte c -> sums_ok cf (Zlen (bf_data B) + 1) ->
  bf_cap B < Zlen (bf_data B) + 1 ->
  becomes cf w p B (strbuf_append_char cf w (Some p) c) (Buffer [] (bf_cap B) (bf_alloc B)).
Proof.
  intros cf w p B c R D Hb Hn Ho. rewrite <- (put_over_fixed cf B (bf_data B ++ [c]) D) by (rewrite Zlen_app; change (Zlen [c]) with 1; lia).
  now apply C36_append_char.
Qed.
Print Assumptions C40_char_overflow.
Theorem C40_formatted_overflow : forall cf w p B l, ready cf w p B -> dyn B = false -> Forall is_byte l -> Zlen l <= INT_MAX ->
  sums_ok cf (Zlen (bf_data B) + Zlen l) -> bf_cap B < Zlen (bf_data B) + Zlen l ->
  becomes cf w p B (strbuf_append_vprintf cf w (Some p) (FmtText l)) (Buffer [] (bf_cap B) (bf_alloc B)) /\
  becomes cf w p B (strbuf_append_vprnf cf w (Some p) l) (Buffer [] (bf_cap B) (bf_alloc B)) /\
  (bf_cap B < Zlen l ->
   becomes cf w p B (strbuf_vprintf cf w (Some p) (FmtText l)) (Buffer [] (bf_cap B) (bf_alloc B)) /\
   becomes cf w p B (strbuf_vprnf cf w (Some p) l) (Buffer [] (bf_cap B) (bf_alloc B))).
Proof.
  intros cf w p B l (H1 & H2 & H3 & H4) D Hb Hl Hn Ho. pose proof (Zlen_nonneg (bf_data B)).
  assert (sums_ok cf (Zlen l)) as Hn2 by (destruct Hn; [now left|right; lia]).
  rewrite <- (put_over_fixed cf B (bf_data B ++ l) D) at 1 by (rewrite Zlen_app; lia).
  rewrite <- (put_all_over_fixed cf B (bf_data B ++ l) D) at 1 by (rewrite Zlen_app; lia).
  split; [now apply append_printf_yields|]. split; [now apply append_prnf_ok|]. intros Ho2.
  rewrite <- (put_over_fixed cf B l D) at 1 by lia. rewrite <- (put_all_over_fixed cf B l D) by lia.
  split; [now apply printf_ok|now apply prnf_ok].
Qed.
Print Assumptions C40_formatted_overflow.
(** Whatever the operation, the contents are the complete result or nothing. *)
Theorem C40_never_truncated : forall cf B c, bf_data (put cf B c) = c \/ bf_data (put cf B c) = [].
Proof. exact put_data. Qed.
Print Assumptions C40_never_truncated.
Example C40_ex : ready gcc64 w_move pfix b_fixed /\ dyn b_fixed = false /\ source gcc64 (s_mem w_move) pfix b_fixed (vw 2 24 6) (bs "abcdef")
  /\ bf_cap b_fixed < Zlen (bf_data b_fixed) + Zlen (bs "abcdef")
  /\ shows gcc64 (strbuf_append_strview gcc64 w_move (Some pfix) (vw 2 24 6)) = Some (Some [], 10)
  /\ shows gcc64 (strbuf_append_strview gcc64 w_move (Some pfix) wide) = Some (Some (bs "abcdefwide"), 10)
  /\ shows gcc64 (strbuf_append_vprnf gcc64 w_move (Some pfix) (bs "123456")) = Some (Some [], 10)
  /\ shows gcc64 (strbuf_vprintf gcc64 w_move (Some pfix) (FmtText (bs "12345678901"))) = Some (Some [], 10).
Proof.
  split; [exact fix_ready|]. split; [reflexivity|].
  split; [exact (src_inside gcc64 xm pfix b_fixed [] (bs "abcdef") [] eq_refl)|]. split; [cbn; lia|].
  do 3 (split; [vm_compute; reflexivity|]). vm_compute. reflexivity.
Qed.
