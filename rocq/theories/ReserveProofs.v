(** Proofs about programs whose buffers have enough room: the allocator is never called. *)
From Verif Require Import Base Mem Libc StrviewModel Spec MemLemmas Alloc StrbufModel BufSpec BufSpec2 HistSpec ReserveSpec
  StrbufProofs StrbufProofs2 StrbufProofs3 StrbufProofs4 StrbufProofs5 StrbufProofs6 StrbufProofs7 StrbufProofs8 StrbufProofs10 StrbufHistory.
Local Open Scope Z_scope.

Lemma twins_ok : forall {T} (x : T) o r1 r2 w1, twins (fun y => y = x) kind o r1 r2 -> r1 = Ok (x, w1) -> r2 = Ok (x, St (s_mem w1) o).
Proof.
  intros T x o r1 r2 w1 H ->. destruct r2 as [[y w2]| |]; cbn in H; try contradiction. destruct H as (<- & _ & Hm & _ & Ho).
  destruct w2. cbn in *. now subst.
Qed.
Lemma kind_ok : forall m, no_fail (St m kind). Proof. intros m n. reflexivity. Qed.

Lemma ret_here : forall cf m p o1 o2, twins (fun x => snd x = Some p) o1 o2 (ret_view cf (Some p) (St m o1)) (ret_view cf (Some p) (St m o2)).
Proof.
  intros. unfold ret_view. cbn [s_mem]. destruct (strview_of_buf cf m p) as [v| |]; cbn [bind]; [|cbn; reflexivity|exact I]. cbn. auto.
Qed.

(** Characters one by one. *)
Lemma char_twins : forall cf m p c h o1 o2, load_hdr cf m p = Ok h -> 0 <= h_size h -> (is_dyn (h_alloc h) = false \/ h_size h + 1 <= h_cap h) ->
  twins (fun q => q = p) o1 o2 (append_char_to_buf cf (St m o1) p c) (append_char_to_buf cf (St m o2) p c).
Proof.
  intros cf m p c h o1 o2 HL H0 Hr. unfold append_char_to_buf. cbn [s_mem]. rewrite HL. cbn [bind].
  rewrite !(ensure_quiet cf m _ p _ h HL Hr). cbn [bind s_mem]. rewrite HL. cbn [bind].
  repeat (twin_step; cbn [s_mem]). all: try twin_end.
Qed.
Lemma put_room : forall cf B d, bf_cap B <= INT_MAX -> dyn B = true -> Zlen d <= bf_cap B -> put cf B d = Buffer d (bf_cap B) (bf_alloc B).
Proof.
  intros cf B d C D H. unfold put, fits. rewrite D, (proj2 (Z.leb_le _ _)) by lia. now rewrite grown_same by auto.
Qed.
Lemma room_hdr : forall B n, room_for B n -> is_dyn (h_alloc (hdr_of B)) = false \/ n <= h_cap (hdr_of B).
Proof. intros B n H. exact H. Qed.
Lemma emit_twins : forall cf l m p B o1 o2, wf_cfg cf -> mem_wf m -> buf_at cf m p B -> Forall is_byte l -> sums_ok cf (Zlen (bf_data B) + Zlen l) ->
  room_for B (Zlen (bf_data B) + Zlen l) -> twins (fun q => q = p) o1 o2 (emit cf (St m o1) p l) (emit cf (St m o2) p l).
Proof.
  intros cf l. induction l as [|c l IH]; intros m p B o1 o2 W Wm HB Fl Hs Hr; cbn [emit]; [twin_end|].
  inversion Fl as [|? ? Hc Fl']; subst. rewrite Zlen_cons in *. pose proof (Zlen_nonneg l) as L0. pose proof (Zlen_nonneg (bf_data B)) as L1.
  destruct (buf_at_cap _ _ _ _ HB) as [C _].
  assert (room_for B (Zlen (bf_data B) + 1)) as Hr1 by (destruct Hr; [now left|right; lia]).
  destruct (append_char_yields cf (St m kind) p B c W Wm (kind_ok m) HB Hc) as (p1 & w1 & E & HB1 & _ & Wm1 & _); [eapply sums_ok_le; [|exact Hs]; lia|].
  assert (p1 = p) as ->.
  { pose proof (char_twins cf m p c (hdr_of B) kind kind (buf_at_load cf m p B W HB) L1 (room_hdr _ _ Hr1)) as Ht. rewrite E in Ht. cbn in Ht. tauto. }
  assert (forall o, append_char_to_buf cf (St m o) p c = Ok (p, St (s_mem w1) o)) as Ho.
  { intros o. eapply twins_ok; [|exact E]. exact (char_twins cf m p c (hdr_of B) kind o (buf_at_load cf m p B W HB) L1 (room_hdr _ _ Hr1)). }
  rewrite !Ho. cbn [bind]. apply (IH (s_mem w1) p (put cf B (bf_data B ++ [c]))); auto.
  - eapply sums_ok_le; [|exact Hs]. pose proof (put_data_len cf B (bf_data B ++ [c])) as P. rewrite Zlen_app in P. change (Zlen [c]) with 1 in P. lia.
  - destruct Hr as [D|Hr]; [left; now rewrite put_dyn|]. destruct (dyn B) eqn:D; [|left; now rewrite put_dyn]. right.
    rewrite put_room; auto; [|lia|]; rewrite ?Zlen_app; change (Zlen [c]) with 1; cbn [bf_data bf_cap]; rewrite ?Zlen_app; change (Zlen [c]) with 1; lia.
Qed.

(** Concatenation. *)
Lemma cat_append_twins : forall cf args ls m p B o1 o2, wf_cfg cf -> c_ptr cf = true -> mem_wf m -> buf_at cf m p B -> Forall2 (inert cf m p B) args ls ->
  Zlen (bf_data B) + total ls <= bf_cap B -> sums_ok cf (Zlen (bf_data B) + total ls) ->
  twins (fun q => q = p) o1 o2 (cat_append cf (St m o1) p args) (cat_append cf (St m o2) p args).
Proof.
  intros cf args. induction args as [|v args IH]; intros ls m p B o1 o2 W Hc Wm HB Hf Ht Hs; inversion Hf as [|? l ? ls' Hv Hf']; subst; cbn [cat_append]; [twin_end|].
  rewrite total_cons in *. pose proof (buf_at_load cf m p B W HB) as HL. cbn [s_mem]. rewrite HL. cbn [bind].
  destruct (buf_at_cap _ _ _ _ HB) as [C F]. pose proof (Zlen_nonneg (bf_data B)) as Z1. pose proof (Zlen_nonneg l) as Z2.
  pose proof (Zlen_nonneg (concat ls')) as Z3. fold (total ls') in Z3.
  destruct (append_all_ok cf [v] [l] (St m kind) p B W Hc Wm (kind_ok m) HB) as (w1 & E & HB1 & Ht1 & Wm1 & _).
  { constructor; [exact Hv|constructor]. }
  { unfold total. cbn [concat]. rewrite app_nil_r. lia. }
  { unfold total. cbn [concat]. rewrite app_nil_r. eapply sums_ok_le; [|exact Hs]. lia. }
  cbn [cat_append s_mem] in E. rewrite HL in E. cbn [bind] in E.
  assert (insert_strview_into_buf cf (St m kind) p (h_size (hdr_of B)) v = Ok (p, w1)) as E1.
  { destruct (insert_strview_into_buf cf (St m kind) p (h_size (hdr_of B)) v) as [[q w2]| |]; cbn [bind] in E; congruence. }
  assert (v_size v = Zlen l) as Ev. { destruct Hv as [(-> & -> & _)|(HV & _)]; [reflexivity|apply HV]. }
  assert (forall o, insert_strview_into_buf cf (St m o) p (h_size (hdr_of B)) v = Ok (p, St (s_mem w1) o)) as Ho.
  { intros o. eapply twins_ok; [|exact E1]. eapply insert_twins; [exact HL|]. right. cbn [hdr_of h_size h_cap]. rewrite Ev. lia. }
  rewrite !Ho. cbn [bind]. cbn [concat] in HB1. rewrite app_nil_r in HB1. apply (IH ls' (s_mem w1) p _ o1 o2 W Hc Wm1 HB1).
  - revert Hf'. apply Forall2_impl. intros v' l'. now apply inert_touch.
  - cbn [bf_data bf_cap]. rewrite Zlen_app. lia.
  - cbn [bf_data]. rewrite Zlen_app. now rewrite <- Z.add_assoc.
Qed.

Lemma cat_twins : forall cf m p B args ls o1 o2, wf_cfg cf -> c_ptr cf = true -> mem_wf m -> buf_at cf m p B -> Forall2 (source cf m p B) args ls -> sums_ok cf (total ls) ->
  dyn B = false \/ existsb (fun v => within cf p v B) args = false /\ total ls <= bf_cap B ->
  twins (fun x => snd x = Some p) o1 o2 (strbuf_cat cf (St m o1) (Some p) args) (strbuf_cat cf (St m o2) (Some p) args).
Proof.
  intros cf m p B args ls o1 o2 W Hc Wm HB Hf Hs Hr. unfold strbuf_cat. rewrite !(on_buf_ok cf m p B) by auto. unfold buffer_vcat. cbn [s_mem].
  pose proof (buf_at_load cf m p B W HB) as HL. destruct (buf_at_cap _ _ _ _ HB) as [C F]. pose proof (Zlen_nonneg (concat ls)) as Z2. fold (total ls) in Z2.
  destruct (Z.le_gt_cases (total ls) INT_MAX) as [Hle|Hgt].
  2:{ destruct Hs as [Hw|Hs]; [|destruct W as [W _]; lia].
      destruct (measure_over cf m p B args ls W Hc Hw Wm HB Hf 0 false false) as (n' & tmp' & ->); [unfold INT_MAX; lia|lia|]. cbn [bind].
      destruct (empty_buf cf m p) as [m2| |]; cbn [bind with_mem s_mem s_orc]; [|cbn; reflexivity|exact I].
      destruct (strview_of_buf cf m2 p) as [v| |]; cbn [bind]; [|cbn; reflexivity|exact I]. cbn. auto. }
  rewrite (measure_ok cf m p B args ls W Hc Wm HB Hf 0 false false) by lia. cbn [bind orb]. rewrite Z.add_0_l. rewrite HL. cbn [bind].
  assert (existsb (fun v => within cf p v B) args && is_dyn (h_alloc (hdr_of B)) = false) as ->.
  { destruct Hr as [D|[-> _]]; [|reflexivity]. cbn [hdr_of h_alloc]. change (is_dyn (bf_alloc B)) with (dyn B). rewrite D. apply andb_false_r. }
  assert (room_for B (total ls)) as Hr2 by (destruct Hr as [D|[_ D]]; [now left|now right]).
  rewrite !(ensure_quiet cf m _ p _ _ HL (room_hdr _ _ Hr2)). cbn [bind s_mem].
  destruct (empty_buf_ok cf m p B W Wm HB) as (m2 & -> & HB2 & Ht2 & Wm2 & _). cbn [bind with_mem s_mem s_orc].
  rewrite (buf_at_load cf m2 p _ W HB2). cbn [bind hdr_of h_alloc h_cap bf_cap bf_alloc].
  destruct ((is_dyn (bf_alloc B) || negb (existsb (fun v => within cf p v B) args)) && negb (bf_cap B <? total ls)) eqn:Ec.
  2:{ cbn [bind with_mem s_mem s_orc]. destruct (strview_of_buf cf m2 p) as [v| |]; cbn [bind]; [|cbn; reflexivity|exact I]. cbn. auto. }
  unfold with_mem. cbn [s_orc s_mem]. apply andb_true_iff in Ec as [Ec1 Ec2]. apply negb_true_iff, Z.ltb_ge in Ec2.
  assert (existsb (fun v => within cf p v B) args = false) as Ew.
  { destruct Hr as [D|[D _]]; [|exact D]. change (is_dyn (bf_alloc B)) with (dyn B) in Ec1. rewrite D in Ec1. cbn [orb] in Ec1. now apply negb_true_iff in Ec1. }
  assert (Forall2 (inert cf m2 p (Buffer [] (bf_cap B) (bf_alloc B))) args ls) as Hf2.
  { clear - Hf Ew HB Ht2. revert Ew. induction Hf as [|v l args ls Hv Hf IH]; intros Ew; constructor; cbn [existsb] in Ew; apply orb_false_iff in Ew as [Ew1 Ew2]; auto.
    eapply inert_touch; [exact Ht2|]. now apply source_inert. }
  pose proof (cat_append_twins cf args ls m2 p (Buffer [] (bf_cap B) (bf_alloc B)) o1 o2 W Hc Wm2 HB2 Hf2 Ec2 Hs) as HT.
  destruct (cat_append cf (St m2 o1) p args) as [[q1 w1]| |], (cat_append cf (St m2 o2) p args) as [[q2 w2]| |]; cbn in HT; try contradiction; cbn [bind]; auto.
  destruct HT as (<- & -> & Hm & H1 & H2). rewrite Hm. destruct (strview_of_buf cf (s_mem w2) p) as [v| |]; cbn [bind]; [|cbn; reflexivity|exact I]. cbn. auto 10.
Qed.

(** The other calls. *)
Lemma at_ptr_twins : forall cf m p d v h o1 o2, load_hdr cf m p = Ok h -> (is_dyn (h_alloc h) = false \/ h_size h + v_size v <= h_cap h) ->
  twins (fun q => q = p) o1 o2 (insert_at_ptr cf (St m o1) p d v) (insert_at_ptr cf (St m o2) p d v).
Proof.
  intros cf m p d v h o1 o2 HL Hr. unfold insert_at_ptr. cbn [s_mem]. rewrite HL. cbn [bind].
  repeat twin_step. all: try twin_end. eapply insert_twins; eauto.
Qed.
Lemma printf_twins : forall cf m p B l o1 o2, wf_cfg cf -> mem_wf m -> buf_at cf m p B -> Forall is_byte l -> Zlen l <= INT_MAX -> sums_ok cf (Zlen (bf_data B) + Zlen l) ->
  room_for B (Zlen (bf_data B) + Zlen l) ->
  twins (fun x => snd x = Some p) o1 o2 (strbuf_append_vprintf cf (St m o1) (Some p) (FmtText l)) (strbuf_append_vprintf cf (St m o2) (Some p) (FmtText l)).
Proof.
  intros cf m p B l o1 o2 W Wm HB Fl Hl Hs Hr. pose proof (Zlen_nonneg (bf_data B)). pose proof (Zlen_nonneg l). destruct (buf_at_cap _ _ _ _ HB) as [C _].
  pose proof (buf_at_load cf m p B W HB) as HL. pose proof (room_hdr _ _ Hr) as Hr2.
  unfold strbuf_append_vprintf. rewrite !(on_buf_ok cf m p B) by auto. cbn [s_mem]. rewrite HL. cbn [bind]. change (h_size (hdr_of B)) with (Zlen (bf_data B)).
  unfold vsnprintf at 1 3. cbn [Z.leb Z.compare bind].
  destruct (Z.le_gt_cases (Zlen (bf_data B) + Zlen l) INT_MAX) as [Hle|Hgt].
  - rewrite add_check_ok by (auto; lia). cbn [bind]. rewrite iadd_ok by (unfold INT_MIN; lia). cbn [bind].
    rewrite !(ensure_quiet cf m _ p _ _ HL Hr2). cbn [bind s_mem]. rewrite HL. cbn [bind s_mem with_mem]. unfold ret_view. cbn [s_mem with_mem].
    repeat (twin_step; cbn [s_mem with_mem]). all: try twin_end.
  - destruct Hs as [Hw|Hs]; [|pose proof W as [W' _]; lia].
    rewrite add_check_over by (auto; lia). cbn [bind s_mem with_mem]. unfold ret_view. cbn [s_mem with_mem].
    repeat (twin_step; cbn [s_mem with_mem]). all: try twin_end.
Qed.

(** ** A call of a program *)
Lemma the_view_mem : forall cf vars m o1 o2 s, the_view cf vars (St m o1) s = the_view cf vars (St m o2) s.
Proof. intros. now destruct s. Qed.
Lemma the_views_mem : forall cf vars m o1 o2 ss, the_views cf vars (St m o1) ss = the_views cf vars (St m o2) ss.
Proof. intros. induction ss as [|s ss IH]; cbn [the_views]; [reflexivity|]. now rewrite (the_view_mem cf vars m o1 o2), IH. Qed.

Lemma call_twins : forall vars j o1 o2 r1 r2, twins (fun x => snd x = Some (var vars j)) o1 o2 r1 r2 ->
  twins (fun x => snd x = vars) o1 o2 (call vars j r1) (call vars j r2).
Proof.
  intros vars j o1 o2 r1 r2 H. unfold call. destruct r1 as [[[v1 p1] w1]| |], r2 as [[[v2 p2] w2]| |]; cbn in H; try contradiction; cbn [bind]; auto.
  destruct H as (E & Hp & Hm & H1 & H2). injection E as <- <-. cbn in Hp. subst p1. unfold var. rewrite upd_nth_same. cbn. auto 10.
Qed.

Lemma step_twins : forall cf T a vars m o o1 o2, wf_cfg cf -> c_ptr cf = true -> means cf T a vars (St m kind) -> legal cf T a o -> has_room a o ->
  twins (fun x => snd x = vars) o1 o2 (exec cf vars (St m o1) o) (exec cf vars (St m o2) o).
Proof.
  intros cf T a vars m o o1 o2 W Hc M Hl (B & Hj & Hr). pose proof (slot_in a _ _ Hj ltac:(congruence)) as Lj.
  pose proof (mn_slot _ _ _ _ _ M _ Lj) as HB. rewrite Hj in HB. cbn [slot_rel s_mem] in HB. pose proof (mn_wf _ _ _ _ _ M) as Wm. cbn [s_mem] in Wm.
  assert (buf_legal cf T a B o) as HLg.
  { destruct o; cbn [legal enough] in *; try contradiction; destruct Hl as (B' & E & L); cbn [target] in *; congruence. }
  pose proof (buf_at_load cf m _ B W HB) as HL. destruct (buf_at_cap _ _ _ _ HB) as [C _].
  assert (forall j s v, (is_dyn (h_alloc (hdr_of B)) = false \/ Zlen (bf_data B) + Zlen (text_of a s) <= bf_cap B) -> var vars j = var vars (target o) ->
    source cf m (var vars j) B v (text_of a s) -> is_dyn (h_alloc (hdr_of B)) = false \/ h_size (hdr_of B) + v_size v <= h_cap (hdr_of B)) as Hroom.
  { intros j s v Hx _ Hs. rewrite (source_len _ _ _ _ _ _ Hs). exact Hx. }
  destruct o; cbn [exec target buf_legal enough] in *; try contradiction.
  - destruct HLg as (L1 & _). destruct (arg_ok cf T a vars _ j B s W M Hj L1) as (v & Ev & Ca). rewrite (the_view_mem cf vars m o1 kind), (the_view_mem cf vars m o2 kind), Ev. cbn [bind]. apply call_twins.
    pose proof (arg_source _ _ _ _ _ _ _ _ W HB Ca) as Hs. unfold strbuf_append_strview. rewrite !(on_buf_ok cf m _ B) by auto. cbn [s_mem]. rewrite HL. cbn [bind].
    apply ret_twins. eapply insert_twins; eauto.
  - destruct HLg as (L1 & _). destruct (arg_ok cf T a vars _ j B s W M Hj L1) as (v & Ev & Ca). rewrite (the_view_mem cf vars m o1 kind), (the_view_mem cf vars m o2 kind), Ev. cbn [bind]. apply call_twins.
    pose proof (arg_source _ _ _ _ _ _ _ _ W HB Ca) as Hs. unfold strbuf_prepend_strview. rewrite !(on_buf_ok cf m _ B) by auto.
    apply ret_twins. eapply insert_twins; eauto.
  - destruct HLg as (L1 & _). destruct (arg_ok cf T a vars _ j B s W M Hj L1) as (v & Ev & Ca). rewrite (the_view_mem cf vars m o1 kind), (the_view_mem cf vars m o2 kind), Ev. cbn [bind]. apply call_twins.
    pose proof (arg_source _ _ _ _ _ _ _ _ W HB Ca) as Hs. unfold strbuf_insert_at_index_strview. rewrite !(on_buf_ok cf m _ B) by auto.
    apply ret_twins. eapply insert_twins; eauto.
  - destruct HLg as (L0 & L1 & _). destruct (arg_ok cf T a vars _ j B s W M Hj L1) as (v & Ev & Ca). destruct (arg_ok cf T a vars _ j B d W M Hj L0) as (dv & Ed & _).
    rewrite (the_view_mem cf vars m o1 kind s), (the_view_mem cf vars m o2 kind s), (the_view_mem cf vars m o1 kind d), (the_view_mem cf vars m o2 kind d), Ev, Ed. cbn [bind]. apply call_twins.
    pose proof (arg_source _ _ _ _ _ _ _ _ W HB Ca) as Hs. unfold strbuf_insert_before_strview. rewrite !(on_buf_ok cf m _ B) by auto.
    apply ret_twins. eapply at_ptr_twins; eauto.
  - destruct HLg as (L0 & L1 & _). destruct (arg_ok cf T a vars _ j B s W M Hj L1) as (v & Ev & Ca). destruct (arg_ok cf T a vars _ j B d W M Hj L0) as (dv & Ed & _).
    rewrite (the_view_mem cf vars m o1 kind s), (the_view_mem cf vars m o2 kind s), (the_view_mem cf vars m o1 kind d), (the_view_mem cf vars m o2 kind d), Ev, Ed. cbn [bind]. apply call_twins.
    pose proof (arg_source _ _ _ _ _ _ _ _ W HB Ca) as Hs. unfold strbuf_insert_after_strview. rewrite !(on_buf_ok cf m _ B) by auto. cbn [s_mem].
    destruct (strview_is_valid dv); [|apply ret_here]. destruct (padd cf m (v_data dv) (v_size dv)) as [q| |]; cbn [bind]; [|cbn; reflexivity|exact I].
    apply ret_twins. eapply at_ptr_twins; eauto.
  - (* assign *) destruct HLg as (L1 & _). destruct (arg_ok cf T a vars _ j B s W M Hj L1) as (v & Ev & Ca). rewrite (the_view_mem cf vars m o1 kind), (the_view_mem cf vars m o2 kind), Ev. cbn [bind]. apply call_twins.
    pose proof (arg_source _ _ _ _ _ _ _ _ W HB Ca) as Hs. unfold strbuf_assign. rewrite !(on_buf_ok cf m _ B) by auto. rewrite (source_len _ _ _ _ _ _ Hs).
    rewrite !(ensure_quiet cf m _ _ _ _ HL (room_hdr _ _ Hr)). cbn [bind s_mem]. rewrite HL. cbn [bind].
    destruct (strview_is_valid v); cbn [bind s_mem with_mem]; unfold ret_view; cbn [s_mem with_mem]; repeat (twin_step; cbn [s_mem with_mem]). all: try twin_end.
  - (* cat *) destruct HLg as (L1 & L2). destruct (args_ok cf T a vars _ j B ss W M Hj L1) as (vs & Ev & F & E). rewrite (the_views_mem cf vars m o1 kind), (the_views_mem cf vars m o2 kind), Ev. cbn [bind]. apply call_twins.
    eapply cat_twins; eauto. rewrite E. exact Hr.
  - apply call_twins. unfold strbuf_append_char. rewrite !(on_buf_ok cf m _ B) by auto. apply ret_twins. eapply char_twins; [exact HL|apply Zlen_nonneg|exact Hr].
  - (* strip *) destruct HLg as (L1 & _). destruct (arg_ok cf T a vars _ j B s W M Hj L1) as (v & Ev & Ca). rewrite (the_view_mem cf vars m o1 kind), (the_view_mem cf vars m o2 kind), Ev. cbn [bind]. apply call_twins.
    unfold strbuf_strip_strview. rewrite !(on_buf_ok cf m _ B) by auto. cbn [s_mem]. destruct (strview_is_valid v); [|apply ret_here].
    rewrite HL. cbn [bind]. destruct (strip_loop _ _ _ _ _ _) as [m1| |]; cbn [bind]; [|cbn; reflexivity|exact I]. unfold with_mem. cbn [s_orc]. apply ret_here.
  - (* shrink *) apply call_twins. unfold strbuf_shrink. rewrite !(on_buf_ok cf m _ B) by auto. cbn [s_mem]. rewrite HL. cbn [bind].
    unfold change_buf_capacity. cbn [s_mem]. rewrite HL. cbn [bind hdr_of h_alloc h_size h_cap]. change (is_dyn (bf_alloc B)) with (dyn B).
    destruct Hr as [->|Hr]; [cbn [bind]; apply ret_here|]. rewrite <- Hr, Z.ltb_irrefl, Z.eqb_refl. destruct (dyn B); cbn [bind]; apply ret_here.
  - (* grow *) apply call_twins. unfold strbuf_grow. rewrite !(on_buf_ok cf m _ B) by auto. cbn [s_mem]. rewrite HL. cbn [bind hdr_of h_alloc h_size h_cap].
    change (is_dyn (bf_alloc B)) with (dyn B). destruct (dyn B) eqn:D; [|cbn; auto].
    destruct Hr as [Hr|Hr]; [congruence|]. rewrite (proj2 (Z.ltb_ge _ _)) by lia. cbn [bind]. apply ret_here.
  - (* printf *) destruct HLg as (L1 & L2 & L3). apply call_twins. unfold strbuf_vprintf. rewrite !(on_buf_ok cf m _ B) by auto. cbn [s_mem].
    destruct (empty_buf_ok cf m _ B W Wm HB) as (m2 & -> & M2 & M3 & M4 & _). cbn [bind]. unfold with_mem. cbn [s_orc].
    apply (printf_twins cf m2 _ _ l o1 o2 W M4 M2); auto.
  - destruct HLg as (L1 & L2 & L3). apply call_twins. now apply (printf_twins cf m _ B l o1 o2 W Wm HB).
  - (* prnf *) destruct HLg as (L1 & L2 & L3). apply call_twins. unfold strbuf_vprnf. rewrite !(on_buf_ok cf m _ B) by auto. cbn [s_mem].
    destruct (empty_buf_ok cf m _ B W Wm HB) as (m2 & -> & M2 & M3 & M4 & _). cbn [bind]. unfold with_mem. cbn [s_orc].
    pose proof (emit_twins cf l m2 _ _ o1 o2 W M4 M2 L1 L3 Hr) as HT.
    destruct (emit cf (St m2 o1) (var vars j) l) as [[q1 w1]| |], (emit cf (St m2 o2) (var vars j) l) as [[q2 w2]| |]; cbn in HT; try contradiction; cbn [bind]; auto.
    destruct HT as (<- & -> & Hm & <- & <-). rewrite Hm. unfold ret_view. repeat (twin_step; cbn [s_mem]). all: try twin_end.
  - (* append prnf *) destruct HLg as (L1 & L2 & L3). apply call_twins. unfold strbuf_append_vprnf. rewrite !(on_buf_ok cf m _ B) by auto. cbn [s_mem]. rewrite HL. cbn [bind].
    pose proof (emit_twins cf l m _ _ o1 o2 W Wm HB L1 L3 Hr) as HT.
    destruct (emit cf (St m o1) (var vars j) l) as [[q1 w1]| |], (emit cf (St m o2) (var vars j) l) as [[q2 w2]| |]; cbn in HT; try contradiction; cbn [bind]; auto.
    destruct HT as (<- & -> & Hm & <- & <-). rewrite Hm. unfold ret_view, with_mem. repeat (twin_step; cbn [s_mem]). all: try twin_end.
  - (* using *) apply call_twins. unfold strbuf_append_using. rewrite !(on_buf_ok cf m _ B) by auto. cbn [s_mem]. rewrite HL. cbn [bind]. unfold ret_view, with_mem. cbn [s_orc s_mem].
    repeat (twin_step; cbn [s_mem]). all: try twin_end.
  - (* view *) unfold strbuf_view. rewrite !(on_buf_ok cf m _ B) by auto. cbn [s_mem]. destruct (strview_of_buf cf m (var vars j)) as [v| |]; cbn [bind]; cbn [twins]; auto; repeat split; reflexivity.
Qed.

(** ** Whole programs *)
Theorem run_quiet : forall cf T prog a vars m, wf_cfg cf -> c_ptr cf = true -> means cf T a vars (St m kind) -> all_legal cf T a prog -> all_room cf a prog ->
  exists m', means cf T (snd (arun cf a prog)) vars (St m' kind) /\
    forall o, run cf vars (St m o) prog = Ok (fst (arun cf a prog), vars, St m' o).
Proof.
  intros cf T prog. induction prog as [|o prog IH]; intros a vars m W Hc M Hl Hr; cbn [run arun].
  - exists m. split; auto.
  - destruct Hl as (L1 & L2). destruct Hr as (R1 & R2). destruct (step_ok cf T a vars _ o W Hc M L1) as (v & vars1 & w1 & E & R & M1 & _).
    pose proof (fun q => step_twins cf T a vars m o kind q W Hc M L1 R1) as HT. rewrite E in HT.
    assert (vars1 = vars) as ->. { specialize (HT kind). rewrite E in HT. cbn in HT. tauto. }
    assert (s_orc w1 = kind) as Eo. { specialize (HT kind). rewrite E in HT. cbn in HT. tauto. }
    assert (forall q, exec cf vars (St m q) o = Ok (v, vars, St (s_mem w1) q)) as Ho.
    { intros q. specialize (HT q). destruct (exec cf vars (St m q) o) as [[[v2 p2] [m2 o2]]| |]; cbn in HT; try contradiction.
      destruct HT as (E2 & _ & -> & _ & ->). now injection E2 as <- <-. }
    destruct (astep cf a o) as [x a1] eqn:Ea. cbn [fst snd] in *.
    assert (w1 = St (s_mem w1) kind) as Ew by (destruct w1; cbn in *; now subst). rewrite Ew in M1.
    destruct (IH a1 vars (s_mem w1) W Hc M1 L2 R2) as (m' & M' & Hrun). destruct (arun cf a1 prog) as [xs a2]. cbn [fst snd] in *.
    exists m'. split; [exact M'|]. intros q. rewrite Ho. cbn [bind]. cbn [s_mem]. rewrite R. cbn [bind]. rewrite Hrun. reflexivity.
Qed.

Lemma means_oracle : forall cf T a vars m o o', no_fail (St m o') -> means cf T a vars (St m o) -> means cf T a vars (St m o').
Proof. intros cf T a vars m o o' N [H1 H2 H3 H4 H5 H6 H7]. now constructor. Qed.
Theorem run_reserved : forall cf T prog a vars w o, wf_cfg cf -> c_ptr cf = true -> means cf T a vars (St (s_mem w) o) -> all_legal cf T a prog -> all_room cf a prog ->
  exists w', run cf vars w prog = Ok (fst (arun cf a prog), vars, w') /\ s_orc w' = s_orc w /\ means cf T (snd (arun cf a prog)) vars (St (s_mem w') o).
Proof.
  intros cf T prog a vars [m q] o W Hc M Hl Hr. cbn [s_mem s_orc] in *. destruct (run_quiet cf T prog a vars m W Hc (means_oracle _ _ _ _ _ _ _ (kind_ok m) M) Hl Hr) as (m' & M' & E).
  exists (St m' q). split; [apply E|]. split; [reflexivity|]. cbn [s_mem]. eapply means_oracle; [|exact M']. exact (mn_fail _ _ _ _ _ M).
Qed.

(** Only fixed buffers. *)
Lemma fixed_room : forall cf T prog a, Forall edits prog -> (forall j B, slot_of a j = ABuf B -> dyn B = false) -> all_legal cf T a prog -> all_room cf a prog.
Proof.
  intros cf T prog. induction prog as [|o prog IH]; intros a He Hf Hl; cbn [all_room]; [exact I|].
  inversion He as [|? ? He1 He2]; subst. destruct Hl as (L1 & L2).
  assert (exists B, slot_of a (target o) = ABuf B) as (B & Hj).
  { destruct o; cbn [edits legal] in *; try contradiction; destruct L1 as (B & Hj & _); eauto. }
  pose proof (Hf _ _ Hj) as D. split.
  - exists B. split; [exact Hj|]. destruct o; cbn [edits enough] in *; try contradiction; try exact I; now left.
  - apply IH; auto. assert (astep cf a o = (if refused B o then None else Some (bf_data (buf_step cf a B o)), upd a (target o) (ABuf (buf_step cf a B o)))) as ->.
    { apply astep_buf; [exact Hj|]. destruct o; cbn [edits] in *; tauto. }
    cbn [snd]. intros i B' Hi. destruct (Nat.eq_dec i (target o)) as [->|Ne].
    + pose proof (slot_in a _ _ Hj ltac:(congruence)) as Lj. unfold slot_of in Hi. rewrite nth_upd_eq in Hi by exact Lj. injection Hi as <-.
      unfold dyn. rewrite (proj1 (step_keeps cf a B o)). exact D.
    + unfold slot_of in Hi. rewrite nth_upd_neq in Hi by auto. eauto.
Qed.
