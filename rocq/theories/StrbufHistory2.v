(** Programs on many buffers and the accessories behave like programs on byte strings. *)
From Verif Require Import Base Mem Libc StrviewModel Spec MemLemmas StrviewProofs StrviewProofs2 Alloc StrbufModel BufSpec
  StrbufProofs StrbufProofs2 StrbufProofs3 StrbufProofs4 StrbufProofs5 StrbufProofs6 StrbufProofs7 StrbufProofs8 HistSpec StrbufHistory
  IoModel IoSpec IoProofs PackModel PackSpec PackProofs AesSpec AesModel CryptModel CryptSpec CryptProofs CryptProofs3 CryptProofs4
  PrnfModel PrnfSpec PrnfSpec2 PrnfBufModel PrnfProofs4 PrnfProofs5 PrnfProofs6 PrnfProofs9 HistSpec2.

(** ** Integers and their bytes *)
Lemma base256_value : forall l, base256 l = le_value l.
Proof. induction l; cbn [base256 le_value]; congruence. Qed.
Lemma bits_bytes : forall t, bits_of t = 8 * Z.of_nat (i_bytes t).
Proof. intros [s []]; reflexivity. Qed.
Lemma half_bits : forall t, 2 ^ bits_of t / 2 = 2 ^ (bits_of t - 1).
Proof. intros [s []]; reflexivity. Qed.
Lemma le_value_range : forall l, Forall is_byte l -> 0 <= le_value l < 2 ^ (8 * Z.of_nat (length l)).
Proof.
  induction l as [|b l IH]; intros F; [cbn; lia|]. apply Forall_cons_iff in F as [Fb F]. specialize (IH F). unfold is_byte in Fb. cbn [le_value length].
  replace (8 * Z.of_nat (S (length l))) with (8 + 8 * Z.of_nat (length l)) by lia. rewrite Z.pow_add_r by lia. change (2 ^ 8) with 256. lia.
Qed.
Lemma decode_conv : forall e t l, length l = i_bytes t -> Forall is_byte l -> decode e t l = PackModel.conv t (le_value (match e with LE => l | BE => rev l end)).
Proof.
  intros e t l L F. unfold decode, PackModel.conv. rewrite base256_value. rewrite <- bits_bytes, half_bits.
  set (l' := match e with LE => l | BE => rev l end). assert (0 <= le_value l' < 2 ^ bits_of t) as R.
  { rewrite bits_bytes, <- L. replace (length l) with (length l') by (destruct e; [reflexivity|apply rev_length]). apply le_value_range. destruct e; [auto|now apply Forall_rev]. }
  rewrite Z.mod_small by auto. reflexivity.
Qed.
Definition host_le : cfg := Cfg true true true true true false false 16 8.
Lemma conv_repr : forall t x, le_repr (i_bytes t) (PackModel.conv t x) = le_repr (i_bytes t) x.
Proof. intros t x. exact (to_bytes_conv host_le t x). Qed.
Lemma wire_decode : forall e t l, length l = i_bytes t -> Forall is_byte l -> wire e t (decode e t l) = l.
Proof.
  intros e t l L F. rewrite decode_conv by auto. rewrite wire_repr, conv_repr. destruct e.
  - rewrite <- L. now apply le_repr_value.
  - rewrite <- L, <- (rev_length l). rewrite le_repr_value by (now apply Forall_rev). apply rev_involutive.
Qed.
Lemma decode_type : forall e t l, length l = i_bytes t -> Forall is_byte l -> in_type t (decode e t l).
Proof.
  intros e t l L F. unfold decode. rewrite base256_value.
  set (l' := match e with LE => l | BE => rev l end). assert (0 <= le_value l' < 2 ^ bits_of t) as R.
  { rewrite bits_bytes, <- L. replace (length l) with (length l') by (destruct e; [reflexivity|apply rev_length]). apply le_value_range. destruct e; [auto|now apply Forall_rev]. }
  assert (2 ^ bits_of t = 2 * 2 ^ (bits_of t - 1)) as E by (destruct t as [s []]; reflexivity).
  unfold in_type. destruct (i_signed t); cbn [andb]; [|lia]. destruct (2 ^ (bits_of t - 1) <=? le_value l') eqn:C; [apply Z.leb_le in C|apply Z.leb_gt in C]; lia.
Qed.

(** ** Formats whose strings are in buffers *)
Section Parts.
Variable cf : cfg.
Variable A : fops.

(** The item with the pointer of the argument and the text meant. *)
Definition item_full (a : list slot) (vars : list ptr) (q : part (dbl A)) : item (dbl A) :=
  match q with PItem i => i | PBuf c k => Str false c (cstr_of cf (var vars k)) (data_of (slot_of a k)) end.

Lemma full_format : forall a vars ps, format (map (item_full a vars) ps) = format (map (item_meant A a) ps).
Proof. intros a vars ps. unfold format. f_equal. rewrite !map_map. apply map_ext. intros [i|c k]; reflexivity. Qed.
Lemma full_args : forall a vars ps, arguments cf (map (item_full a vars) ps) = arguments cf (map (item_of cf A vars) ps).
Proof. intros a vars ps. unfold arguments. f_equal. rewrite !map_map. apply map_ext. intros [i|c k]; reflexivity. Qed.
Lemma full_ok : forall f a vars ps, items_ok cf f (map (item_meant A a) ps) -> items_ok cf f (map (item_full a vars) ps).
Proof.
  intros f a vars. induction ps as [|q ps IH]; cbn [map items_ok]; auto. intros (H1 & H2 & H3). split; [|split; auto].
  - destruct q; exact H1.
  - rewrite full_format. destruct q; [exact H3|exact I].
Qed.
Lemma full_printed : forall f a vars ps col, printed cf f col (map (item_full a vars) ps) = printed cf f col (map (item_meant A a) ps).
Proof.
  intros f a vars. induction ps as [|q ps IH]; intros col; cbn [map printed]; auto.
  assert (item_out cf f col (item_full a vars q) = item_out cf f col (item_meant A a q)) as -> by (destruct q; reflexivity). now rewrite IH.
Qed.

Lemma placed_bytes : forall T a vars w p l, means cf T a vars w -> placed T p l -> bytes_at (s_mem w) p (l ++ [0]) /\ Zlen l <= INT_MAX.
Proof.
  intros T a vars w p l M [(-> & H)|H].
  - split; [|lia]. eexists. split; [reflexivity|]. cbn [p_ofs b_size lit_block b_get]. split; [lia|]. split; [lia|]. intros i Hi. reflexivity.
  - destruct (mn_text _ _ _ _ _ M _ _ H) as ((H1 & H2 & H3 & _) & _). cbn [v_data] in H1. split; auto. rewrite Zlen_app in H3. change (Zlen [0]) with 1 in H3. lia.
Qed.
Lemma placed_apart : forall T a vars w p l j B, means cf T a vars w -> slot_of a j = ABuf B -> placed T p l ->
  PrnfProofs6.apart cf (var vars j) B p (Zlen l + 1).
Proof.
  intros T a vars w p l j B M Hj [(-> & H)|H]; pose proof (slot_in a j _ Hj ltac:(congruence)) as Lj.
  - left. pose proof (mn_slot _ _ _ _ _ M _ Lj) as HB. rewrite Hj in HB. destruct HB as (b & k & -> & _). discriminate.
  - destruct (mn_text _ _ _ _ _ M _ _ H) as (_ & _ & H3). specialize (H3 j Lj). rewrite Hj in H3. cbn [text_apart] in H3. destruct H3 as (_ & H3).
    cbn [v_data] in H3. rewrite Zlen_app in H3. exact H3.
Qed.

Lemma parts_ok : forall T a vars w j B ps, wf_cfg cf -> means cf T a vars w -> slot_of a j = ABuf B -> Forall (part_legal A T a j) ps ->
  Forall (item_mem (s_mem w)) (map (item_full a vars) ps) /\ Forall (item_apart cf (var vars j) B) (map (item_full a vars) ps).
Proof.
  intros T a vars w j B ps W M Hj. pose proof (slot_in a j _ Hj ltac:(congruence)) as Lj. induction ps as [|q ps IH]; intros F; cbn [map]; [auto|]. apply Forall_cons_iff in F as [Fq F].
  destruct (IH F) as [I1 I2]. cut (item_mem (s_mem w) (item_full a vars q) /\ item_apart cf (var vars j) B (item_full a vars q)); [intros [X Y]; auto|].
  destruct q as [i|c k].
  - destruct i; cbn [item_full item_mem item_apart part_legal] in *; auto. destruct Fq as [(-> & ->)|(P & Fb & Fz)]; [split; left; auto|].
    destruct (placed_bytes T a vars w p l M P) as [P1 P2]. split; [right; repeat split; auto|right]. eapply placed_apart; eauto.
  - cbn [item_full part_legal item_mem item_apart] in *. destruct Fq as (Nk & Bk & Hk & Nz). rewrite Hk. cbn [data_of].
    pose proof (slot_in a k _ Hk ltac:(congruence)) as Lk. pose proof (mn_slot _ _ _ _ _ M _ Lk) as HB. rewrite Hk in HB. cbn [slot_rel] in HB.
    destruct (buf_at_view cf (s_mem w) _ _ W HB) as (H1 & H2 & H3 & H4). pose proof (buf_at_cap _ _ _ _ HB) as [Cap _].
    split.
    + right. split; [|auto]. change (cstr_of cf (var vars k)) with (chars_of cf (var vars k)).
      destruct HB as (b & kb & E1 & E2 & HI). pose proof HI as (L & O & Al & Fi & Hh & D & Tz & By & C & Dy). pose proof (hdr_size_pos cf W). pose proof (Zlen_nonneg (bf_data Bk)).
      exists kb. unfold chars_of, shift. cbn [p_obj p_ofs]. rewrite E1. split; [now apply access_ok|]. rewrite Zlen_app. change (Zlen [0]) with 1. split; [lia|]. split; [lia|].
      intros i Hi. destruct (Z.eq_dec i (Zlen (bf_data Bk))) as [->|Ni].
      * rewrite app_nth2 by (rewrite Zlen_to_nat; lia). rewrite Zlen_to_nat, Nat.sub_diag. exact Tz.
      * rewrite app_nth1 by (unfold Zlen in *; lia). apply D. lia.
    + right. pose proof (mn_apart _ _ _ _ _ M k j Nk Lk Lj) as Ha. rewrite Hk, Hj in Ha. cbn [HistSpec.apart] in Ha. unfold PrnfProofs6.apart, cstr_of.
      rewrite shift_obj, shift_ofs. destruct Ha as [Ha|(D1 & D2 & Ha)]; [left; exact Ha|right]. split; auto. unfold buf_end in *. pose proof (hdr_size_pos cf W). pose proof (Zlen_nonneg (bf_data Bk)). lia.
Qed.
End Parts.

(** ** Single steps *)
Lemma change_ok : forall cf T a vars w j B B' p' w', wf_cfg cf -> means cf T a vars w -> slot_of a j = ABuf B ->
  buf_at cf (s_mem w') p' B' -> touches cf (s_mem w) (s_mem w') (var vars j) p' B -> mem_wf (s_mem w') -> no_fail w' ->
  bf_alloc B' = bf_alloc B -> (dyn B = false -> bf_cap B' = bf_cap B) ->
  advances cf T a vars w j (upd a j (ABuf B')) (upd vars j p') w'.
Proof.
  intros cf T a vars w j B B' p' w' W M Hj H1 H2 H3 H4 HA HC. pose proof (slot_in a j _ Hj ltac:(congruence)) as Lj.
  apply (means_advance cf T a vars w); auto. rewrite Hj. now apply touches_evolves.
Qed.
Lemma stay_ok : forall cf T a vars w j B, means cf T a vars w -> slot_of a j = ABuf B -> advances cf T a vars w j (upd a j (ABuf B)) (upd vars j (var vars j)) w.
Proof. intros cf T a vars w j B M Hj. unfold var at 1. rewrite upd_nth_same. rewrite <- Hj. unfold slot_of. rewrite upd_nth_same. now apply advance_same. Qed.

Lemma crypt_step_ok : forall cf T a vars w j B r l', wf_cfg cf -> means cf T a vars w -> slot_of a j = ABuf B ->
  becomes_crypt cf w (var vars j) B r l' ->
  exists vars' w', look (call vars j r) = Ok (SawText None, vars', w') /\
    advances cf T a vars w j (upd a j (ABuf (Buffer l' (crypt_cap B) (bf_alloc B)))) vars' w'.
Proof.
  intros cf T a vars w j B r l' W M Hj (p' & w' & -> & H1 & H2 & H3 & H4 & H5). exists (upd vars j p'), w'. split; [reflexivity|].
  eapply change_ok; eauto. cbn [bf_cap]. unfold crypt_cap. now intros ->.
Qed.

Lemma cut_tail : forall cf m p B b, wf_cfg cf -> buf_at cf m p B -> 0 <= b < Zlen (bf_data B) ->
  exists v, strview_sub cf m (buf_view cf p B) b INT_MAX = Ok v /\ has_view m v (skipn (Z.to_nat b) (bf_data B)).
Proof.
  intros cf m p B b W HB Hb. pose proof (buf_at_view cf m p B W HB) as HV. destruct (buf_at_cap _ _ _ _ HB) as [C _].
  pose proof (cut_ok cf m _ _ b INT_MAX HV ltac:(unfold INT_MIN, INT_MAX in *; lia) ltac:(unfold INT_MIN, INT_MAX; lia)) as H.
  assert (cut (bf_data B) b INT_MAX = Some (firstn (Z.to_nat b) (bf_data B), skipn (Z.to_nat b) (bf_data B), [])) as E.
  { unfold cut. rewrite (proj2 (Z.eqb_neq _ 0)) by lia. unfold py_index. rewrite !(proj2 (Z.ltb_ge _ 0)) by (unfold INT_MAX; lia).
    rewrite (proj2 (Z.leb_le b INT_MAX)), (proj2 (Z.ltb_lt b _)) by lia. cbn [andb]. rewrite (proj2 (Z.leb_le 0 INT_MAX)) by (unfold INT_MAX; lia).
    rewrite Z.max_r, Z.min_l by lia. rewrite Zlen_to_nat, skipn_all. f_equal. f_equal. f_equal. rewrite firstn_all2; auto. rewrite skipn_length. lia. }
  rewrite E in H. destruct H as [H1 ->]. eexists. split; [reflexivity|]. unfold subview. cbn [buf_view v_data]. eapply part_view; eauto.
Qed.

(** The accessories that do not compare pointers: all but packing. *)
Lemma xstep_acc : forall cf A T a vars w o, wf_cfg cf -> means cf T a vars w -> xlegal cf A T a o ->
  match o with XOp _ => False | XPack _ _ _ _ _ => c_ptr cf = true | _ => True end ->
  exists vars' w', xexec cf A vars w o = Ok (fst (xstep cf A a o), vars', w') /\
    advances cf T a vars w (xtarget A o) (snd (xstep cf A a o)) vars' w'.
Proof.
  intros cf A T a vars w o W M Hl Hc. pose proof (mn_wf _ _ _ _ _ M) as Wm. pose proof (mn_fail _ _ _ _ _ M) as Nf.
  destruct o as [o|j e base t x|j b e t|j r|j r|j base key iv|j base key iv|j fmt ps|j fmt ps]; cbn [xlegal] in Hl; [destruct Hc|..].
  all: destruct Hl as (B & Hj & Hl); cbn [xtarget] in Hj; pose proof (slot_in a j _ Hj ltac:(congruence)) as Lj;
    pose proof (mn_slot _ _ _ _ _ M _ Lj) as HB; rewrite Hj in HB; cbn [slot_rel] in HB;
    cbn [xstep xtarget]; rewrite Hj; cbn [fst snd xexec xseen xbuf_step xbuf_legal] in *.
  - (* pack *) unfold Zlen in Hl at 2. rewrite wire_len in Hl.
    destruct (pack_ok cf e w (var vars j) B base t x W Hc Wm Nf HB Hl) as (p' & w' & -> & H1 & H2 & H3 & H4). cbn [bind keep_var].
    eexists _, _. split; [reflexivity|]. destruct (put_keeps cf B (bf_data B ++ wire e t x)). eapply change_ok; eauto.
  - (* unpack *) destruct Hl as [L1 L2]. assert (bits_of t / 8 = Z.of_nat (i_bytes t)) as Eb by (destruct t as [s []]; reflexivity). rewrite Eb in *. rewrite Nat2Z.id.
    assert (0 < Z.of_nat (i_bytes t)) as Pb by (destruct t as [s []]; reflexivity).
    rewrite (view_of_var cf (s_mem w) w (var vars j) B W eq_refl HB). cbn [bind].
    destruct (cut_tail cf (s_mem w) (var vars j) B b W HB ltac:(lia)) as (v & -> & HV). cbn [bind].
    set (d := skipn (Z.to_nat b) (bf_data B)) in *. assert (i_bytes t <= length d)%nat as Ld by (unfold d; rewrite skipn_length; unfold Zlen in *; lia).
    assert (length (firstn (i_bytes t) d) = i_bytes t) as Lf by (apply firstn_length_le; lia).
    assert (Forall is_byte (firstn (i_bytes t) d)) as Ff. { destruct HV as (_ & _ & _ & F). rewrite <- (firstn_skipn (i_bytes t) d) in F. apply Forall_app in F. tauto. }
    pose proof (wire_decode e t _ Lf Ff) as Wd. pose proof (decode_type e t _ Lf Ff) as Td.
    rewrite <- (firstn_skipn (i_bytes t) d), <- Wd in HV. rewrite (unpack_ok cf (s_mem w) v e t _ _ HV Td). cbn [bind].
    eexists _, _. split; [reflexivity|]. pose proof (stay_ok cf T a vars w j B M Hj) as S. unfold var at 1 in S. rewrite upd_nth_same in S. exact S.
  - (* read *) destruct (append_read_ok cf w (var vars j) B r W Wm Nf HB) as (w' & -> & H1 & H2 & H3 & H4 & _).
    { intros l ->. exact Hl. }
    cbn [bind keep_var]. eexists _, _. split; [reflexivity|]. eapply change_ok; eauto.
  - (* write *) destruct (write_ok cf w (var vars j) B r W Wm Nf HB) as (p' & w' & -> & H1 & H2 & H3 & H4). cbn [bind keep_var].
    eexists _, _. split; [reflexivity|]. eapply change_ok; eauto.
  - (* encrypt *) destruct Hl as (Ee & K & Hi & Ln). unfold roomy. destruct (dyn B || (padded_size (Zlen (bf_data B)) <=? bf_cap B)) eqn:R.
    + assert (dyn B = false -> padded_size (Zlen (bf_data B)) <= bf_cap B) as Hr by (intros D; rewrite D in R; now apply Z.leb_le).
      pose proof (encrypt_ok cf w (var vars j) B base key iv W Wm Nf HB K Hi Ln Hr) as Hb. rewrite (enc_is_aes cf key iv (bf_data B) Ee K Hi (proj2 (buf_at_cap _ _ _ _ HB))) in Hb.
      exact (crypt_step_ok cf T a vars w j B _ _ W M Hj Hb).
    + apply orb_false_iff in R as [D R]. apply Z.leb_gt in R. unfold strbuf_encrypt. rewrite (crypt_no_room cf _ w (var vars j) B base key iv W HB D Ln R).
      eexists _, _. split; [reflexivity|]. now apply stay_ok.
  - (* decrypt *) destruct Hl as (Ee & K & Hi & Ln & Lp). unfold roomy. destruct (dyn B || (padded_size (Zlen (bf_data B)) <=? bf_cap B)) eqn:R.
    + assert (dyn B = false -> padded_size (Zlen (bf_data B)) <= bf_cap B) as Hr by (intros D; rewrite D in R; now apply Z.leb_le).
      rewrite <- (dec_is_aes cf key iv (bf_data B) Ee K (proj2 (buf_at_cap _ _ _ _ HB))) in Lp |- *.
      pose proof (decrypt_ok cf w (var vars j) B base key iv W Wm Nf HB K Hi Ln Hr Lp) as Hb. exact (crypt_step_ok cf T a vars w j B _ _ W M Hj Hb).
    + apply orb_false_iff in R as [D R]. apply Z.leb_gt in R. unfold strbuf_decrypt. rewrite (crypt_no_room cf _ w (var vars j) B base key iv W HB D (proj2 Ln) R).
      eexists _, _. split; [reflexivity|]. now apply stay_ok.
  - (* prnf *) destruct Hl as ((P1 & P2 & P3 & P4) & Hs). unfold wanted, plain in *. rewrite <- (full_args cf A a vars ps), <- (app_nil_r (arguments cf _)).
    rewrite <- (full_printed cf A _ a vars ps 0) in *. apply (full_ok cf A _ a vars) in P3. destruct (plain_fine cf A _ 0 P3) as [F1 F2]. rewrite <- F2 in *.
    destruct (parts_ok cf A T a vars w j B ps W M Hj P2) as [Q1 Q2]. destruct (placed_bytes cf T a vars w _ _ M P1) as [Q3 _]. pose proof (placed_apart cf T a vars w _ _ j B M Hj P1) as Q4.
    rewrite <- (full_format cf A a vars ps) in Q3, Q4. rewrite (prnf_format_ok cf A w (var vars j) B) by auto.
    set (t := printed cf (flt A) 0 _) in *. assert (Forall is_byte t) as Ft by (eapply text_bytes; eauto).
    pose proof (prnf_ok cf w (var vars j) B t W Wm Nf HB Ft ltac:(lia) Hs) as Hb. destruct (put_all_keeps cf B t) as [K1 K2].
    destruct (call_ok cf T a vars w j B _ _ W M Hj Hb K1 K2) as (v & vars' & w' & -> & R & _ & Ad). cbn [look bind]. rewrite R. cbn [bind]. eauto.
  - (* append prnf *) destruct Hl as ((P1 & P2 & P3 & P4) & Hs). unfold wanted, plain in *. rewrite <- (full_args cf A a vars ps), <- (app_nil_r (arguments cf _)).
    rewrite <- (full_printed cf A _ a vars ps 0) in *. apply (full_ok cf A _ a vars) in P3. destruct (plain_fine cf A _ 0 P3) as [F1 F2]. rewrite <- F2 in *.
    destruct (parts_ok cf A T a vars w j B ps W M Hj P2) as [Q1 Q2]. destruct (placed_bytes cf T a vars w _ _ M P1) as [Q3 _]. pose proof (placed_apart cf T a vars w _ _ j B M Hj P1) as Q4.
    rewrite <- (full_format cf A a vars ps) in Q3, Q4. rewrite (append_prnf_format_ok cf A w (var vars j) B) by auto.
    set (t := printed cf (flt A) 0 _) in *. assert (Forall is_byte t) as Ft by (eapply text_bytes; eauto).
    pose proof (append_prnf_ok cf w (var vars j) B t W Wm Nf HB Ft ltac:(lia) Hs) as Hb. destruct (put_all_keeps cf B (bf_data B ++ t)) as [K1 K2].
    destruct (call_ok cf T a vars w j B _ _ W M Hj Hb K1 K2) as (v & vars' & w' & -> & R & _ & Ad). cbn [look bind]. rewrite R. cbn [bind]. eauto.
Qed.

Theorem xstep_ok : forall cf A T a vars w o, wf_cfg cf -> c_ptr cf = true -> means cf T a vars w -> xlegal cf A T a o ->
  exists vars' w', xexec cf A vars w o = Ok (fst (xstep cf A a o), vars', w') /\
    advances cf T a vars w (xtarget A o) (snd (xstep cf A a o)) vars' w'.
Proof.
  intros cf A T a vars w o W Hc M Hl. destruct o as [o|j e base t x|j b e t|j r|j r|j base key iv|j base key iv|j fmt ps|j fmt ps];
    try (apply xstep_acc; auto; exact I).
  destruct (step_ok cf T a vars w o W Hc M Hl) as (v & vars' & w' & E & R & Ad). cbn [xexec xstep xtarget]. rewrite E. cbn [look bind]. rewrite R. cbn [bind].
  destruct (astep cf a o) as [y a']. cbn [fst snd] in *. eauto.
Qed.

Theorem xrun_ok : forall cf A T prog a vars w, wf_cfg cf -> c_ptr cf = true -> means cf T a vars w -> all_xlegal cf A T a prog ->
  exists vars' w', xrun cf A vars w prog = Ok (fst (xarun cf A a prog), vars', w') /\ means cf T (snd (xarun cf A a prog)) vars' w'.
Proof.
  intros cf A T prog. induction prog as [|o prog IH]; intros a vars w W Hc M Hl; cbn [xrun xarun].
  - exists vars, w. auto.
  - destruct Hl as (L1 & L2). destruct (xstep_ok cf A T a vars w o W Hc M L1) as (vars1 & w1 & -> & M1 & _). cbn [bind].
    destruct (xstep cf A a o) as [x a1] eqn:Ea. cbn [fst snd] in *. destruct (IH a1 vars1 w1 W Hc M1 L2) as (vars2 & w2 & -> & M2). cbn [bind].
    destruct (xarun cf A a1 prog) as [xs a2]. cbn [fst snd] in *. exists vars2, w2. auto.
Qed.
