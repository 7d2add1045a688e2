(** Proofs about prnf: strings that are not terminated. *)
From Verif Require Import Base Mem Libc StrviewModel Spec MemLemmas StrviewProofs NumSpec StrnumProofs StrnumProofs2 StrnumProofs3
  PrnfModel PrnfSpec PrnfSpec2 PrnfProofs PrnfProofs2 PrnfProofs3 PrnfProofs4 PrnfProofs5 PrnfProofs9 PrnfFormat2.

Lemma strlen_loop_end : forall m l p fuel acc b, bytes_at m p l -> ~ In 0 l -> access m (p_obj p) = Ok b -> b_size b = p_ofs p + Zlen l ->
  (length l < fuel)%nat -> strlen_loop fuel m p acc = UB UB_bounds.
Proof.
  intros m. induction l as [|x l IH]; intros p fuel acc b H Hn Ha Hs Hf; (destruct fuel as [|fuel]; [cbn in Hf; lia|]); cbn [strlen_loop].
  - unfold load_byte, load_cell. rewrite Ha. cbn [bind]. change (Zlen (@nil Z)) with 0 in Hs. unfold in_block. rewrite (proj2 (Z.leb_gt (p_ofs p + 1) (b_size b))) by lia. now rewrite andb_false_r.
  - apply bytes_at_cons in H as [H H']. rewrite H. cbn [bind]. rewrite (proj2 (Z.eqb_neq x 0)) by (intros ->; apply Hn; now left).
    apply (IH _ _ _ b); auto; [intros X; apply Hn; now right|rewrite Zlen_cons in Hs; cbn [shift p_ofs]; lia|cbn in Hf; lia].
Qed.
Lemma strlen_end : forall cf m p l b, bytes_at m p l -> ~ In 0 l -> access m (p_obj p) = Ok b -> b_size b = p_ofs p + Zlen l -> prnf_strlen cf m p = UB UB_bounds.
Proof.
  intros cf m p l b H Hn Ha Hs. unfold prnf_strlen. rewrite (bytes_at_nonnull _ _ _ H). unfold strlen. rewrite Ha. cbn [bind].
  pose proof H as (k & K1 & K2 & K3 & _). rewrite Ha in K1. injection K1 as <-. rewrite (strlen_loop_end m l p _ 0 b); auto. unfold Zlen in Hs. lia.
Qed.

Lemma unterminated_ub : forall cf A m n fmt (items : list (item (dbl A))) c t q l b rest va, wf_cfg cf -> conv_ok c -> t = 115 \/ t = 83 ->
  bytes_at m q l -> ~ In 0 l -> access m (p_obj q) = Ok b -> b_size b = p_ofs q + Zlen l ->
  Zlen (plain cf items) < INT_MAX -> items_before cf (fun _ _ _ => False) 37 items -> Forall (item_mem m) items ->
  bytes_at m fmt (format items ++ conv_text c t ++ rest) ->
  vsnprnf cf A mem mid mwr m null n fmt (arguments cf items ++ conv_args c ++ AP q :: va) = UB UB_bounds.
Proof.
  intros cf A m n fmt items c t q l b rest va Wf Hc Ht Hq Hn Ha Hs Hl Hi Hm Hf.
  set (body := map flg_char (cv_flags c) ++ wid_text (cv_width c) ++ prc_text (cv_prec c) ++ len_text (cv_len c)).
  assert (conv_text c t ++ rest = 37 :: body ++ t :: rest) as Eb by (unfold conv_text, body; cbn [app]; rewrite <- !app_assoc; reflexivity).
  rewrite Eb in Hf. assert (longer c t = false) as Hlo by (apply type_past; unfold type_char; cbn [In]; destruct Ht as [E|E]; rewrite E; tauto).
  apply (measure_stuck cf A m n fmt items 37 (body ++ t :: rest)); auto; [unfold is_byte; lia|].
  intros o fuel limit Q Ho Hlim. pose proof Q as (Q1 & Q2 & Q3 & Q4). cbn [core_loop]. rewrite Q3.
  pose proof Hf as Hg. apply bytes_at_app in Hg as [_ Hg]. destruct (at_step cf _ _ _ _ Hg) as (H1 & H2 & H3). change (mid m) with m. rewrite H1. cbn [bind Z.eqb Pos.eqb]. rewrite H2. cbn [bind].
  destruct (first_char c t rest Hc Hlo) as (y & s & Ey & Ny). unfold body in H3. rewrite <- !app_assoc in H3.
  assert (load_byte m (shift (shift fmt (Zlen (format items))) 1) = Ok y) as -> by (rewrite Ey in H3; now apply bytes_at_cons in H3). cbn [bind]. rewrite (proj2 (Z.eqb_neq y 37)) by auto.
  rewrite (parse_placeholder_ok cf c t rest limit m _ Hc Hlo H3).
  2:{ fold body. rewrite app_length in Hlim. cbn [length] in Hlim. rewrite app_length in Hlim. lia. }
  cbn [bind]. rewrite read_varg_conv by auto. assert (type_of t = TYPE_STR) as -> by (destruct Ht as [E|E]; rewrite E; reflexivity).
  unfold read_value. change (ph_type (ph_of cf c TYPE_STR)) with TYPE_STR. cbv iota beta. cbn [bind].
  unfold print_placeholder. change (ph_type (ph_of cf c TYPE_STR)) with TYPE_STR. cbv iota beta.
  unfold print_str. rewrite Q3. change (mid m) with m. rewrite (strlen_end cf m q l b); auto.
Qed.

(** The text up to the first NUL. *)
Lemma upto_nul : forall l, In 0 l -> exists a r, l = a ++ 0 :: r /\ ~ In 0 a.
Proof.
  induction l as [|x l IH]; intros H; [destruct H|]. destruct (Z.eq_dec x 0) as [->|N]; [exists [], l; auto|].
  destruct H as [H|H]; [contradiction|]. destruct (IH H) as (a & r & -> & Ha). exists (x :: a), r. split; auto. intros [X|X]; auto.
Qed.
