(** Formatted text that contains the text of the buffer it is written to: formats without floating point. *)
From Verif Require Import Base Mem Libc StrviewModel Spec MemLemmas StrviewProofs NumSpec Alloc StrbufModel BufSpec BufSpec2
  StrbufProofs StrbufProofs2 StrbufProofs3 StrbufProofs4 StrbufProofs5 StrbufProofs6 StrbufProofs7 StrbufProofs10
  PrnfModel PrnfSpec PrnfProofs PrnfProofs2 PrnfProofs3 PrnfProofs4 PrnfProofs5 PrnfBufModel PrnfProofs6 PrnfOwnSpec PrnfProofs9 PrnfSpec2 PrnfFormat2 PrnfOwn.

Lemma unrolled_plain : forall cf A p (xs : list (piece (dbl A))) col l l0,
  Forall (item_ok cf (fun _ _ _ => False)) (map (now cf p l0) xs) -> unrolled cf (flt A) p col l xs = unrolled cf (fun _ _ _ => []) p col l xs.
Proof.
  intros cf A p. induction xs as [|x xs IH]; intros col l l0 H; [reflexivity|]. cbn [map unrolled] in *. apply Forall_cons_iff in H as [Hx H].
  assert (item_out cf (flt A) col (now cf p l x) = item_out cf (fun _ _ _ => []) col (now cf p l x)) as ->.
  { destruct x as [i|b c k]; [|reflexivity]. cbn [now] in *. destruct i; cbn [item_ok item_out] in *; auto; destruct Hx as [_ []]. }
  cbv zeta. f_equal. eapply IH; eauto.
Qed.
Lemma items_ok_all : forall D cf F (l : list (item D)), items_ok cf F l -> Forall (item_ok cf F) l.
Proof. induction l as [|i l IH]; intros H; constructor; destruct H as (H1 & H2 & _); auto. Qed.
Lemma items_before_all : forall D cf F x (l : list (item D)), items_before cf F x l -> Forall (item_ok cf F) l.
Proof. induction l as [|i l IH]; intros H; constructor; destruct H as (H1 & H2 & _); auto. Qed.

Lemma unrolled_given : forall D cf flt p (its : list (item D)) col l, unrolled cf flt p col l (map Given its) = printed cf flt col its.
Proof. induction its as [|i its IH]; intros col l; [reflexivity|]. cbn [map unrolled printed now]. cbv zeta. now rewrite IH. Qed.

Section Calls.
Variable cf : cfg.
Variable A : fops.
Hypothesis Wf : wf_cfg cf.

Lemma append_own_plain : forall w p B fmt (xs : list (piece (dbl A))) va, mem_wf (s_mem w) -> buf_at cf (s_mem w) p B ->
  let its := map (now cf p (bf_data B)) xs in
  bytes_at (s_mem w) fmt (format its ++ [0]) -> apart cf p B fmt (Zlen (format its) + 1) ->
  plain_items cf its -> Forall (piece_given cf A w p B) xs -> Forall (points_into (bf_data B)) xs ->
  let t := unrolled cf (fun _ _ _ => []) p 0 (bf_data B) xs in
  Zlen t < INT_MAX -> sums_ok cf (Zlen (bf_data B) + Zlen t) -> Zlen (bf_data B) + Zlen t <= bf_cap B ->
  becomes_alone cf w p B (strbuf_append_prnf cf A w (Some p) fmt (arguments cf its ++ va)) (Buffer (bf_data B ++ t) (bf_cap B) (bf_alloc B)).
Proof.
  intros w p B fmt xs va Wm HB its Hf Ha Hok Hg Hp. cbv zeta. rewrite <- (unrolled_plain cf A p xs 0 (bf_data B) (bf_data B)) by (apply items_ok_all; exact Hok).
  intros Ht Hs Hr. destruct (plain_fine cf A its 0 Hok) as [P _]. now apply append_own_ok.
Qed.
Lemma prnf_own_plain : forall w p B fmt (xs : list (piece (dbl A))) va, mem_wf (s_mem w) -> buf_at cf (s_mem w) p B ->
  let its := map (now cf p []) xs in
  bytes_at (s_mem w) fmt (format its ++ [0]) -> apart cf p B fmt (Zlen (format its) + 1) ->
  plain_items cf its -> Forall (piece_given cf A w p B) xs -> Forall (points_into []) xs ->
  let t := unrolled cf (fun _ _ _ => []) p 0 [] xs in
  Zlen t < INT_MAX -> sums_ok cf (Zlen t) -> Zlen t <= bf_cap B ->
  becomes_alone cf w p B (strbuf_prnf cf A w (Some p) fmt (arguments cf its ++ va)) (Buffer t (bf_cap B) (bf_alloc B)).
Proof.
  intros w p B fmt xs va Wm HB its Hf Ha Hok Hg Hp. cbv zeta. rewrite <- (unrolled_plain cf A p xs 0 [] []) by (apply items_ok_all; exact Hok).
  intros Ht Hs Hr. destruct (plain_fine cf A its 0 Hok) as [P _]. now apply prnf_own_ok.
Qed.
Lemma append_own_moved_plain : forall w p B fmt (xs : list (piece (dbl A))) c t k rest va, mem_wf (s_mem w) -> buf_at cf (s_mem w) p B ->
  no_fail w -> ch_move (s_orc w 0%nat) = true -> dyn B = true -> conv_ok c -> cv_width c = WNone -> cv_prec c = PNone -> t = 115 \/ t = 83 -> (k <= length (bf_data B))%nat ->
  let its := map (now cf p (bf_data B)) xs in let f := format its ++ conv_text c t ++ rest in
  bytes_at (s_mem w) fmt f -> apart cf p B fmt (Zlen f) ->
  items_before cf (fun _ _ _ => False) 37 its -> Forall (piece_given cf A w p B) xs -> Forall (points_into (bf_data B)) xs ->
  let l := bf_data B ++ unrolled cf (fun _ _ _ => []) p 0 (bf_data B) xs in let own := to_nul (skipn k l) in
  Zlen l <= bf_cap B -> bf_cap B + 1 < Zlen l + Zlen own -> bf_cap B < INT_MAX -> sums_ok cf (bf_cap B + 1) ->
  strbuf_append_prnf cf A w (Some p) fmt (arguments cf its ++ conv_args c ++ AP (shift (chars_of cf p) (Z.of_nat k)) :: va) = UB UB_dead.
Proof.
  intros w p B fmt xs c t k rest va Wm HB Nf Mv Dy Hc Ew Ep Ht Hk its f Hf Ha Hok Hg Hp. cbv zeta.
  rewrite <- (unrolled_plain cf A p xs 0 (bf_data B) (bf_data B)) by (eapply items_before_all; exact Hok).
  intros Hl Hown Lt Hs. destruct (before_then cf A 37 its ltac:(unfold is_byte; lia) Hok) as [P _]. eapply append_own_moved; eauto.
Qed.

(** The buffer's text before everything else: as documented. *)
Lemma append_own_first : forall w p B fmt b c k (its : list (item (dbl A))) va, mem_wf (s_mem w) -> buf_at cf (s_mem w) p B -> (k <= length (bf_data B))%nat ->
  let all := Str b c (shift (chars_of cf p) (Z.of_nat k)) (to_nul (skipn k (bf_data B))) :: its in
  bytes_at (s_mem w) fmt (format all ++ [0]) -> apart cf p B fmt (Zlen (format all) + 1) ->
  plain_items cf all -> Forall (item_mem (s_mem w)) its -> Forall (item_apart cf p B) its ->
  let t := plain cf all in Zlen t < INT_MAX -> sums_ok cf (Zlen (bf_data B) + Zlen t) -> Zlen (bf_data B) + Zlen t <= bf_cap B ->
  becomes_alone cf w p B (strbuf_append_prnf cf A w (Some p) fmt (arguments cf all ++ va)) (Buffer (bf_data B ++ t) (bf_cap B) (bf_alloc B)).
Proof.
  intros w p B fmt b c k its va Wm HB Hk all Hf Ha Hok Hm Hi t Ht Hs Hr.
  pose proof (append_own_plain w p B fmt (Own b c k :: map Given its) va Wm HB) as H. cbv zeta in H. cbn [map now] in H.
  assert (map (now cf p (bf_data B)) (map Given its) = its) as E by (rewrite map_map; cbn [now]; apply map_id).
  rewrite E in H. fold all in H. cbn [unrolled now] in H. cbv zeta in H. rewrite unrolled_given in H.
  apply H; auto; constructor; cbn [piece_given points_into]; auto.
  - apply Forall_forall. intros x Hx. apply in_map_iff in Hx as (i & <- & Hx). cbn [piece_given]. rewrite Forall_forall in Hm, Hi. split; auto.
  - apply Forall_forall. intros x Hx. apply in_map_iff in Hx as (i & <- & Hx). exact Logic.I.
Qed.

(** Behind another text the buffer's text contains that text too. *)
Lemma append_own_behind : forall w p B fmt x va, mem_wf (s_mem w) -> buf_at cf (s_mem w) p B -> ~ In 0 (bf_data B) ->
  Forall (fun x => 0 < x < 256 /\ x <> 37 /\ x <> 11) x ->
  bytes_at (s_mem w) fmt (x ++ [37; 115; 0]) -> apart cf p B fmt (Zlen x + 3) ->
  let l := bf_data B ++ x in Zlen x + Zlen l < INT_MAX -> sums_ok cf (Zlen l + Zlen l) -> Zlen l + Zlen l <= bf_cap B ->
  becomes_alone cf w p B (strbuf_append_prnf cf A w (Some p) fmt (AP (chars_of cf p) :: va)) (Buffer (l ++ l) (bf_cap B) (bf_alloc B)).
Proof.
  intros w p B fmt x va Wm HB Hn Hx Hf Ha l Ht Hs Hr.
  assert (~ In 0 x) as Hx0 by (intros I; rewrite Forall_forall in Hx; specialize (Hx 0 I); lia).
  set (c := Conv [] WNone PNone Lint).
  pose proof (append_own_plain w p B fmt [Given (Text x); Own false c 0] va Wm HB) as H. cbv zeta in H. cbn [map now] in H.
  change (arguments cf _) with ([AP (D := dbl A) (shift (chars_of cf p) (Z.of_nat 0))]) in H. cbn [Z.of_nat] in H. rewrite shift_0 in H.
  change (format _) with (x ++ conv_text c 115 ++ []) in H. change (conv_text c 115) with [37; 115] in H. cbn [app] in H. rewrite <- app_assoc in H. cbn [app] in H.
  cbn [unrolled now item_out skipn] in H. cbv zeta in H. fold l in H.
  rewrite (to_nul_all l) in H by (unfold l; rewrite in_app_iff; tauto).
  assert (str_text c l = l) as E by (change (copies 32 (0 - Zlen l) ++ l = l); pose proof (Zlen_nonneg l); unfold copies; now replace (Z.to_nat (0 - Zlen l)) with 0%nat by lia).
  rewrite E, app_nil_r in H. rewrite Zlen_app in H. change (Zlen [37; 115]) with 2 in H.
  replace (bf_data B ++ x ++ l) with (l ++ l) in H by (unfold l; now rewrite <- !app_assoc).
  assert (Zlen l = Zlen (bf_data B) + Zlen x) as Ll by (unfold l; apply Zlen_app).
  apply H; auto.
  - now replace (Zlen x + 2 + 1) with (Zlen x + 3) by lia.
  - unfold plain_items. cbn [items_ok item_ok]. split; [exact Hx|]. split; [|exact Logic.I]. split; [|split; exact Logic.I].
    split; [split; exact Logic.I|]. right. exact Logic.I.
  - repeat constructor.
  - repeat constructor. cbn [points_into]. lia.
  - rewrite Zlen_app. lia.
  - rewrite Zlen_app. now replace (Zlen (bf_data B) + (Zlen x + Zlen l)) with (Zlen l + Zlen l) by lia.
  - rewrite Zlen_app. lia.
Qed.

(** strbuf_prnf empties the buffer before it prints. *)
Lemma prnf_own_empty : forall w p B fmt va, mem_wf (s_mem w) -> buf_at cf (s_mem w) p B ->
  bytes_at (s_mem w) fmt [37; 115; 0] -> apart cf p B fmt 3 -> sums_ok cf 0 ->
  becomes_alone cf w p B (strbuf_prnf cf A w (Some p) fmt (AP (chars_of cf p) :: va)) (Buffer [] (bf_cap B) (bf_alloc B)).
Proof.
  intros w p B fmt va Wm HB Hf Ha Hs. destruct (buf_at_cap _ _ _ _ HB) as [C _]. pose proof (Zlen_nonneg (bf_data B)).
  set (c := Conv [] WNone PNone Lint).
  pose proof (prnf_own_plain w p B fmt [Own false c 0] va Wm HB) as H1. cbv zeta in H1. cbn [map now] in H1.
  change (arguments cf _) with ([AP (D := dbl A) (shift (chars_of cf p) (Z.of_nat 0))]) in H1. cbn [Z.of_nat] in H1. rewrite shift_0 in H1.
  change (format _) with [37; 115] in H1. cbn [app] in H1. change (unrolled cf _ p 0 [] _) with (@nil Z) in H1. change (Zlen (@nil Z)) with 0 in H1. change (Zlen [37; 115] + 1) with 3 in H1.
  apply H1; auto.
  - unfold plain_items. cbn [items_ok item_ok]. split; [|split; exact Logic.I]. split; [split; exact Logic.I|]. right. exact Logic.I.
  - repeat constructor.
  - repeat constructor.
  - reflexivity.
  - lia.
Qed.
End Calls.
