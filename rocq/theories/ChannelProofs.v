(** Proofs about messages sent from one program to another. *)
From Verif Require Import Base Mem Libc StrviewModel Spec MemLemmas Alloc StrbufModel BufSpec
  StrbufProofs StrbufProofs7 StrbufProofs9 HistSpec StrbufHistory IoModel IoSpec PackModel PackSpec PackProofs
  AesSpec AesModel CryptModel CryptSpec CryptProofs CryptProofs2 CryptProofs3 CryptProofs4 PrnfModel HistSpec2 StrbufHistory2 ChannelSpec.

Lemma upd_upd : forall {X} (l : list X) n x y, upd (upd l n x) n y = upd l n y.
Proof. intros X l. induction l; intros [|n] x y; cbn; auto. now rewrite IHl. Qed.
Lemma slot_upd : forall a j s, (j < length a)%nat -> slot_of (upd a j s) j = s.
Proof. intros. unfold slot_of. now apply nth_upd_eq. Qed.
Lemma upd_slot : forall a j s, slot_of a j = s -> upd a j s = a.
Proof. intros a j s <-. unfold slot_of. apply upd_nth_same. Qed.

Lemma decode_wire : forall e t x, in_type t x -> decode e t (wire e t x) = x.
Proof.
  intros e t x Hx. rewrite decode_conv by (try apply wire_len; apply wire_byte). rewrite wire_repr.
  replace (match e with LE => match e with LE => le_repr (i_bytes t) x | BE => rev (le_repr (i_bytes t) x) end
                      | BE => rev match e with LE => le_repr (i_bytes t) x | BE => rev (le_repr (i_bytes t) x) end end)
    with (le_repr (i_bytes t) x) by (destruct e; [reflexivity|symmetry; apply rev_involutive]).
  rewrite le_value_repr. rewrite <- (conv_id t x Hx) at 2. unfold PackModel.conv. now rewrite Zmod_mod.
Qed.

Section Phases.
Variable cf : cfg.
Variable A : fops.
Variable T : texts.

Lemma xarun_app : forall p q a, xarun cf A a (p ++ q) =
  (fst (xarun cf A a p) ++ fst (xarun cf A (snd (xarun cf A a p)) q), snd (xarun cf A (snd (xarun cf A a p)) q)).
Proof.
  induction p as [|o p IH]; intros q a; cbn [app xarun fst snd]; [now destruct (xarun cf A a q)|].
  destruct (xstep cf A a o) as [x a1]. rewrite IH. destruct (xarun cf A a1 p) as [xs a2]. cbn [fst snd]. reflexivity.
Qed.
Lemma all_xlegal_app : forall p q a, all_xlegal cf A T a (p ++ q) <-> all_xlegal cf A T a p /\ all_xlegal cf A T (snd (xarun cf A a p)) q.
Proof.
  induction p as [|o p IH]; intros q a; cbn [app all_xlegal xarun]; [cbn [snd]; tauto|].
  destruct (xstep cf A a o) as [x a1]. cbn [snd]. rewrite IH. destruct (xarun cf A a1 p) as [xs a2]. cbn [snd]. tauto.
Qed.

(** The program [prog] is legal, shows [xs] and turns the buffer in variable [j] into [B']. *)
Definition phase (a : list slot) (j : nat) (prog : list (xop (dbl A))) (xs : list seen) (B' : buffer) : Prop :=
  all_xlegal cf A T a prog /\ xarun cf A a prog = (xs, upd a j (ABuf B')).

Lemma phase_nil : forall a j B, slot_of a j = ABuf B -> phase a j [] [] B.
Proof. intros a j B Hj. split; [exact I|]. cbn [xarun]. now rewrite upd_slot. Qed.
Lemma phase_app : forall a j p q xs ys B1 B2, phase a j p xs B1 -> phase (upd a j (ABuf B1)) j q ys B2 -> phase a j (p ++ q) (xs ++ ys) B2.
Proof.
  intros a j p q xs ys B1 B2 [L1 E1] [L2 E2]. split.
  - apply all_xlegal_app. rewrite E1. auto.
  - rewrite xarun_app, E1. cbn [fst snd]. rewrite E2. cbn [fst snd]. now rewrite upd_upd.
Qed.
Lemma phase_cons : forall a j o q B ys B2, slot_of a j = ABuf B -> xtarget A o = j -> match o with XOp _ => False | _ => True end ->
  xbuf_legal cf A T a B o -> phase (upd a j (ABuf (xbuf_step cf A a B o))) j q ys B2 -> phase a j (o :: q) (xseen cf A a B o :: ys) B2.
Proof.
  intros a j o q B ys B2 Hj Ht Ho Hl H. change (o :: q) with ([o] ++ q). change (xseen cf A a B o :: ys) with ([xseen cf A a B o] ++ ys).
  apply phase_app with (xbuf_step cf A a B o); auto. split.
  - cbn [all_xlegal]. split; auto. destruct o; try contradiction; cbn [xlegal]; exists B; rewrite Ht; auto.
  - cbn [xarun]. destruct o; try contradiction; cbn [xstep]; rewrite Ht, Hj; reflexivity.
Qed.

Lemma pack_phase : forall M base a j B, wf_cfg cf -> slot_of a j = ABuf B -> fits B (bf_data B ++ encoded M) = true ->
  sums_ok cf (Zlen (bf_data B ++ encoded M)) ->
  exists xs B', phase a j (pack_ops j base M) xs B' /\ sent xs = [] /\ bf_data B' = bf_data B ++ encoded M /\
    bf_alloc B' = bf_alloc B /\ bf_cap B <= bf_cap B' /\ (dyn B = false -> bf_cap B' = bf_cap B).
Proof.
  induction M as [|[[e t] x] M IH]; intros base a j B W Hj Hf Hs; cbn [pack_ops].
  - exists [], B. split; [now apply phase_nil|]. change (encoded []) with (@nil Z). rewrite app_nil_r. repeat split; auto; lia.
  - change (encoded ((e, t, x) :: M)) with (wire e t x ++ encoded M) in *. rewrite app_assoc in *.
    pose proof (Zlen_nonneg (encoded M)) as Zm. set (d := bf_data B ++ wire e t x) in *.
    assert (fits B d = true) as Hfd. { unfold fits in *. rewrite Zlen_app in Hf. destruct (dyn B); apply Z.leb_le in Hf; apply Z.leb_le; lia. }
    assert (put cf B d = Buffer d (bf_cap (grown cf B (Zlen d))) (bf_alloc B)) as Ep by (unfold put; now rewrite Hfd).
    pose proof (slot_in a j _ Hj ltac:(congruence)) as Lj.
    destruct (IH (fun n => base (S n)) (upd a j (ABuf (put cf B d))) j (put cf B d) W) as (xs & B' & P1 & P2 & P3 & P4 & P5 & P6).
    + now apply slot_upd.
    + unfold fits in *. rewrite put_dyn. rewrite Ep. cbn [bf_data bf_cap]. destruct (dyn B) eqn:E; auto. unfold grown. rewrite E. exact Hf.
    + rewrite Ep. exact Hs.
    + assert (bf_data (put cf B d) = d) as Ed by now rewrite Ep. rewrite Ed in *. rewrite put_alloc in *. rewrite put_dyn in *.
      exists (SawNothing :: xs), B'. split; [|split; [|split; [|split; [|split]]]]; auto.
      * apply (phase_cons a j (XPack j e (base O) t x) _ B xs B'); auto. cbn [xbuf_legal]. rewrite Zlen_app in Hs. rewrite <- Zlen_app. eapply sums_ok_le; [|exact Hs]. fold d. lia.
      * assert (bf_cap B <= bf_cap (put cf B d)); [|lia]. rewrite Ep. unfold grown. cbn [bf_cap]. destruct (dyn B); cbn [andb]; [|lia].
        destruct (bf_cap B <? Zlen d) eqn:E; [|lia]. apply Z.ltb_lt in E. unfold fits in Hfd. destruct (dyn B); [|apply Z.leb_le in Hfd; lia].
        apply Z.leb_le in Hfd. destruct W as [[W1 _] _]. unfold rounded. pose proof (Z.div_mod (Zlen d + c_step cf - 1) (c_step cf) ltac:(lia)).
        pose proof (Z.mod_pos_bound (Zlen d + c_step cf - 1) (c_step cf) ltac:(lia)). lia.
      * intros D. rewrite (P6 D). now apply put_fixed_cap.
Qed.

Lemma write_phase : forall rs a j B, slot_of a j = ABuf B ->
  exists xs rest, phase a j (write_ops j rs) xs (Buffer rest (bf_cap B) (bf_alloc B)) /\ sent xs ++ rest = bf_data B /\
    (Zlen (bf_data B) <= Zlen (filter accepts rs) -> rest = []).
Proof.
  induction rs as [|r rs IH]; intros a j B Hj; cbn [write_ops map].
  - exists [], (bf_data B). split; [replace (Buffer _ _ _) with B by (now destruct B); now apply phase_nil|]. split; auto. cbn [filter].
    intros H. destruct (bf_data B); auto. rewrite Zlen_cons in H. pose proof (Zlen_nonneg l). change (Zlen (@nil wr)) with 0 in H. lia.
  - pose proof (slot_in a j _ Hj ltac:(congruence)) as Lj. set (B1 := Buffer (left_over (bf_data B) r) (bf_cap B) (bf_alloc B)).
    destruct (IH (upd a j (ABuf B1)) j B1 ltac:(now apply slot_upd)) as (xs & rest & P1 & P2 & P3).
    exists (SawSent (wr_result r (taken (bf_data B) r)) (taken (bf_data B) r) :: xs), rest. split; [|split].
    + apply (phase_cons a j (XWrite j r) _ B xs); auto. exact I.
    + cbn [sent flat_map]. fold (sent xs). rewrite <- app_assoc, P2. unfold B1. cbn [bf_data]. destruct r; cbn [taken left_over]; auto. apply firstn_skipn.
    + cbn [filter]. destruct r as [|k]; cbn [accepts].
      * unfold B1 in P3. exact P3.
      * intros H. apply P3. unfold B1. cbn [bf_data left_over]. destruct (0 <? k) eqn:Ek; [apply Z.ltb_lt in Ek; rewrite Zlen_cons in H|].
        { unfold Zlen in *. rewrite skipn_length. lia. }
        { apply Z.ltb_ge in Ek. replace (Z.to_nat k) with 0%nat by lia. exact H. }
Qed.

Lemma read_phase : forall cs a j B, slot_of a j = ABuf B -> Forall (Forall is_byte) cs -> Zlen (bf_data B) + Zlen (concat cs) <= bf_cap B ->
  exists xs, phase a j (read_ops j cs) xs (Buffer (bf_data B ++ concat cs) (bf_cap B) (bf_alloc B)).
Proof.
  induction cs as [|c cs IH]; intros a j B Hj F Hl; cbn [read_ops map concat].
  - exists []. rewrite app_nil_r. replace (Buffer _ _ _) with B by (now destruct B). now apply phase_nil.
  - apply Forall_cons_iff in F as [Fc F]. cbn [concat] in Hl. rewrite Zlen_app in Hl. pose proof (Zlen_nonneg (concat cs)) as Zc. pose proof (Zlen_nonneg c).
    pose proof (slot_in a j _ Hj ltac:(congruence)) as Lj. set (B1 := Buffer (bf_data B ++ c) (bf_cap B) (bf_alloc B)).
    destruct (IH (upd a j (ABuf B1)) j B1 ltac:(now apply slot_upd) F) as (xs & P1). { unfold B1. cbn [bf_data bf_cap]. rewrite Zlen_app. lia. }
    unfold B1 in P1. cbn [bf_data bf_cap bf_alloc] in P1. rewrite <- app_assoc in P1.
    assert (delivered (bf_cap B - Zlen (bf_data B)) (RdBytes c) = c) as Ed by (cbn [delivered]; apply firstn_all2; unfold Zlen in *; lia).
    exists (SawInt (rd_result (RdBytes c) c) :: xs).
    replace (SawInt (rd_result (RdBytes c) c)) with (xseen cf A a B (XRead j (RdBytes c))) by (cbn [xseen]; now rewrite Ed).
    apply (phase_cons a j (XRead j (RdBytes c)) _ B xs); auto. cbn [xbuf_step]. rewrite Ed. exact P1.
Qed.

Lemma unpack_phase : forall M a j B x y, slot_of a j = ABuf B -> message_ok M -> bf_data B = x ++ encoded M ++ y ->
  exists xs, phase a j (unpack_ops j (Zlen x) (map fst M)) xs B /\ ints xs = map snd M.
Proof.
  induction M as [|[[e t] v] M IH]; intros a j B x y Hj F E; cbn [map fst snd unpack_ops].
  - exists []. split; [now apply phase_nil|reflexivity].
  - apply Forall_cons_iff in F as [Fv F]. change (encoded ((e, t, v) :: M)) with (wire e t v ++ encoded M) in E.
    assert (Zlen (wire e t v) = bits_of t / 8) as Lw. { unfold Zlen. rewrite wire_len. destruct t as [s []]; reflexivity. }
    destruct (IH a j B (x ++ wire e t v) y Hj F) as (xs & P1 & P2). { rewrite E, <- !app_assoc. reflexivity. }
    rewrite Zlen_app, Lw in P1.
    exists (SawInt v :: xs). split; [|cbn [ints flat_map app]; now rewrite <- P2].
    assert (xseen cf A a B (XUnpack j (Zlen x) e t) = SawInt v) as Es.
    { cbn [xseen]. f_equal. rewrite E, Zlen_to_nat, skipn_app, skipn_all, Nat.sub_diag. cbn [app skipn]. rewrite <- Lw, Zlen_to_nat, <- !app_assoc.
      rewrite firstn_app, Nat.sub_diag, firstn_all. cbn [firstn]. rewrite app_nil_r. now apply decode_wire. }
    rewrite <- Es. apply (phase_cons a j (XUnpack j (Zlen x) e t) _ B xs); auto.
    + cbn [xbuf_legal]. split; [apply Zlen_nonneg|]. rewrite E, !Zlen_app, Lw. pose proof (Zlen_nonneg (encoded M)). pose proof (Zlen_nonneg y). lia.
    + cbn [xbuf_step]. rewrite (upd_slot a j _ Hj). exact P1.
Qed.
End Phases.

(** ** The cipher *)
Lemma aes_cbc_len : forall key iv l, octets 32 key -> octets 16 iv -> Forall is_byte l -> Zlen (aes_cbc key iv l) = padded_size (Zlen l) /\ Forall is_byte (aes_cbc key iv l).
Proof. intros key iv l K Hi F. rewrite <- (enc_is_aes host_le key iv l eq_refl K Hi F). exact (enc_text host_le key iv l K Hi F). Qed.
Lemma aes_cbc_back : forall key iv l, octets 32 key -> octets 16 iv -> Forall is_byte l ->
  let c := aes_cbc key iv l in let P := aes_cbc_plain key iv c in
  0 <= last P 0 <= Zlen c /\ unpad_with (last P 0) (P ++ skipn (length P) c) = l.
Proof.
  intros key iv l K Hi F c P. destruct (aes_cbc_len key iv l K Hi F) as [Lc Fc]. fold c in Lc, Fc.
  assert (P = pkcs7 l) as ->.
  { unfold P. rewrite <- (dec_is_aes host_le key iv c eq_refl K Fc). unfold c. rewrite <- (enc_is_aes host_le key iv l eq_refl K Hi F).
    exact (plain_text host_le key iv l K Hi F). }
  rewrite pkcs7_last. assert (length l mod 16 < 16)%nat as Hm by (apply Nat.mod_upper_bound; lia). pose proof (Zlen_nonneg l).
  split; [rewrite Lc; unfold padded_size; lia|].
  assert (skipn (length (pkcs7 l)) c = []) as ->. { apply skipn_all2. pose proof (pkcs7_Zlen l) as X. rewrite <- Lc in X. unfold Zlen in X. lia. }
  rewrite app_nil_r. transitivity (unpad (pkcs7 l)); [unfold unpad, unpad_with; now rewrite pkcs7_last|apply unpad_pkcs7].
Qed.

Lemma encoded_byte : forall M, Forall is_byte (encoded M).
Proof. induction M as [|[[e t] x] M IH]; [constructor|]. change (encoded ((e, t, x) :: M)) with (wire e t x ++ encoded M). apply Forall_app. split; auto using wire_byte. Qed.

(** ** Programs *)
Lemma phase_run : forall cf A T a vars w j prog xs B', wf_cfg cf -> c_ptr cf = true -> means cf T a vars w -> phase cf A T a j prog xs B' ->
  exists vars' w', xrun cf A vars w prog = Ok (xs, vars', w') /\ means cf T (upd a j (ABuf B')) vars' w'.
Proof.
  intros cf A T a vars w j prog xs B' W Hc M [L E]. destruct (xrun_ok cf A T prog a vars w W Hc M L) as (vars' & w' & H1 & H2). rewrite E in *. eauto.
Qed.
Lemma sent_app : forall xs ys, sent (xs ++ ys) = sent xs ++ sent ys.
Proof. intros. apply flat_map_app. Qed.
Lemma ints_app : forall xs ys, ints (xs ++ ys) = ints xs ++ ints ys.
Proof. intros. apply flat_map_app. Qed.

Theorem send_plain_ok : forall cf A T a vars w j B base M rs, wf_cfg cf -> c_ptr cf = true -> means cf T a vars w -> slot_of a j = ABuf B -> bf_data B = [] ->
  fits B (encoded M) = true -> sums_ok cf (Zlen (encoded M)) -> Zlen (encoded M) <= Zlen (filter accepts rs) ->
  exists xs vars' w' cap', xrun cf A vars w (send_plain j base M rs) = Ok (xs, vars', w') /\ sent xs = encoded M /\
    means cf T (upd a j (ABuf (Buffer [] cap' (bf_alloc B)))) vars' w'.
Proof.
  intros cf A T a vars w j B base M rs W Hc Hm Hj E Hf Hs Hr. pose proof (slot_in a j _ Hj ltac:(congruence)) as Lj.
  destruct (pack_phase cf A T M base a j B W Hj) as (xs & B1 & P1 & P2 & P3 & P4 & _); rewrite E in *; auto.
  destruct (write_phase cf A T rs (upd a j (ABuf B1)) j B1 ltac:(now apply slot_upd)) as (ys & rest & Q1 & Q2 & Q3).
  cbn [app] in P3. rewrite P3 in *. specialize (Q3 Hr). subst rest. rewrite app_nil_r in Q2. rewrite P4 in Q1.
  destruct (phase_run cf A T a vars w j _ _ _ W Hc Hm (phase_app cf A T _ _ _ _ _ _ _ _ P1 Q1)) as (vars' & w' & R1 & R2).
  exists (xs ++ ys), vars', w', (bf_cap B1). split; [exact R1|]. split; [now rewrite sent_app, P2|exact R2].
Qed.

Theorem recv_plain_ok : forall cf A T a vars w j B M cs, wf_cfg cf -> c_ptr cf = true -> means cf T a vars w -> slot_of a j = ABuf B -> bf_data B = [] ->
  message_ok M -> concat cs = encoded M -> Zlen (encoded M) <= bf_cap B ->
  exists xs ys vars' w', xrun cf A vars w (read_ops j cs ++ recv_plain j (map fst M)) = Ok (xs ++ ys, vars', w') /\
    length xs = length cs /\ ints ys = map snd M.
Proof.
  intros cf A T a vars w j B M cs W Hc Hm Hj E Ho Hcs Hl. pose proof (slot_in a j _ Hj ltac:(congruence)) as Lj.
  assert (Forall (Forall is_byte) cs) as Fc. { apply Forall_forall. intros c Ic. pose proof (encoded_byte M) as F. rewrite <- Hcs in F. rewrite Forall_forall in *. intros b Ib. apply F. apply in_concat. eauto. }
  destruct (read_phase cf A T cs a j B Hj Fc) as (xs & P1). { rewrite E, Hcs. exact Hl. }
  rewrite E, Hcs in P1. cbn [app] in P1. set (B1 := Buffer (encoded M) (bf_cap B) (bf_alloc B)) in *.
  destruct (unpack_phase cf A T M (upd a j (ABuf B1)) j B1 [] [] ltac:(now apply slot_upd) Ho ltac:(cbn [app]; now rewrite app_nil_r)) as (ys & Q1 & Q2).
  change (Zlen (@nil Z)) with 0 in Q1.
  destruct (phase_run cf A T a vars w j _ _ _ W Hc Hm (phase_app cf A T _ _ _ _ _ _ _ _ P1 Q1)) as (vars' & w' & R1 & R2).
  exists xs, ys, vars', w'. split; [exact R1|]. split; auto. destruct P1 as [_ P1]. apply (f_equal fst) in P1. cbn [fst] in P1. rewrite <- P1.
  clear. unfold read_ops. revert a. induction cs as [|c cs IH]; intros a; cbn [map xarun]; [reflexivity|]. destruct (xstep cf A a (XRead j (RdBytes c))) as [x a1].
  specialize (IH a1). destruct (xarun cf A a1 _) as [zs a2]. cbn [fst length] in *. now rewrite IH.
Qed.

Theorem send_secret_ok : forall cf A T a vars w j B base M b key iv rs, wf_cfg cf -> c_ptr cf = true -> c_big_endian cf = false -> means cf T a vars w ->
  slot_of a j = ABuf B -> bf_data B = [] -> octets 32 key -> octets 16 iv -> Zlen (encoded M) < 2147483616 ->
  (dyn B = false -> padded_size (Zlen (encoded M)) <= bf_cap B) -> sums_ok cf (Zlen (encoded M)) ->
  padded_size (Zlen (encoded M)) <= Zlen (filter accepts rs) ->
  exists xs vars' w' cap', xrun cf A vars w (send_secret j base M b key iv rs) = Ok (xs, vars', w') /\ sent xs = aes_cbc key iv (encoded M) /\
    means cf T (upd a j (ABuf (Buffer [] cap' (bf_alloc B)))) vars' w'.
Proof.
  intros cf A T a vars w j B base M b key iv rs W Hc Hb Hm Hj E K Hi Hn Hf Hs Hr. pose proof (slot_in a j _ Hj ltac:(congruence)) as Lj.
  pose proof (Zlen_nonneg (encoded M)) as Zm.
  assert (fits B (encoded M) = true) as Hfit. { unfold fits. destruct (dyn B) eqn:D; apply Z.leb_le; [unfold INT_MAX; lia|]. specialize (Hf eq_refl). unfold padded_size in Hf. lia. }
  destruct (pack_phase cf A T M base a j B W Hj) as (xs & B1 & P1 & P2 & P3 & P4 & P5 & P6); rewrite E in *; auto. cbn [app] in P3.
  assert (dyn B1 = dyn B) as D1 by (unfold dyn; now rewrite P4).
  assert (roomy B1 = true) as Ro. { unfold roomy. rewrite D1. destruct (dyn B) eqn:D; cbn [orb]; auto. rewrite (P6 eq_refl), P3. apply Z.leb_le. auto. }
  destruct (aes_cbc_len key iv (encoded M) K Hi (encoded_byte M)) as [Lc Fc].
  set (B2 := Buffer (aes_cbc key iv (encoded M)) (crypt_cap B1) (bf_alloc B1)).
  destruct (write_phase cf A T rs (upd a j (ABuf B2)) j B2 ltac:(now apply slot_upd)) as (ys & rest & Q1 & Q2 & Q3).
  unfold B2 in Q2, Q3. cbn [bf_data] in Q2, Q3. rewrite Lc in Q3. specialize (Q3 Hr). subst rest. rewrite app_nil_r in Q2.
  assert (phase cf A T (upd a j (ABuf B1)) j (XEncrypt j b key iv :: write_ops j rs) (SawText None :: ys) (Buffer [] (bf_cap B2) (bf_alloc B2))) as P.
  { apply (phase_cons cf A T _ j (XEncrypt j b key iv) _ B1 ys); auto; [now apply slot_upd| |].
    - cbn [xbuf_legal]. rewrite P3. repeat split; try apply K; try apply Hi; auto. lia.
    - cbn [xbuf_step]. rewrite Ro, P3, upd_upd. exact Q1. }
  destruct (phase_run cf A T a vars w j _ _ _ W Hc Hm (phase_app cf A T _ _ _ _ _ _ _ _ P1 P)) as (vars' & w' & R1 & R2).
  exists (xs ++ SawText None :: ys), vars', w', (bf_cap B2). split; [exact R1|]. split; [rewrite sent_app, P2; cbn [app sent flat_map]; exact Q2|]. unfold B2 in R2. cbn [bf_cap bf_alloc] in *. rewrite P4 in R2. exact R2.
Qed.

Theorem recv_secret_ok : forall cf A T a vars w j B M b key iv cs, wf_cfg cf -> c_ptr cf = true -> c_big_endian cf = false -> means cf T a vars w ->
  slot_of a j = ABuf B -> bf_data B = [] -> octets 32 key -> octets 16 iv -> message_ok M -> Zlen (encoded M) < 2147483616 ->
  concat cs = aes_cbc key iv (encoded M) -> padded_size (Zlen (encoded M)) + (if dyn B then 0 else 16) <= bf_cap B ->
  exists xs ys vars' w', xrun cf A vars w (read_ops j cs ++ recv_secret j b key iv (map fst M)) = Ok (xs ++ ys, vars', w') /\
    length xs = length cs /\ ints ys = map snd M.
Proof.
  intros cf A T a vars w j B M b key iv cs W Hc Hb Hm Hj E K Hi Ho Hn Hcs Hl. pose proof (slot_in a j _ Hj ltac:(congruence)) as Lj.
  pose proof (Zlen_nonneg (encoded M)) as Zm. destruct (aes_cbc_len key iv (encoded M) K Hi (encoded_byte M)) as [Lc Fb]. destruct (aes_cbc_back key iv (encoded M) K Hi (encoded_byte M)) as [Bk1 Bk2].
  set (c := aes_cbc key iv (encoded M)) in *.
  assert (Forall (Forall is_byte) cs) as Fc. { apply Forall_forall. intros l Il. rewrite <- Hcs in Fb. rewrite Forall_forall in *. intros x Ix. apply Fb. apply in_concat. eauto. }
  destruct (read_phase cf A T cs a j B Hj Fc) as (xs & P1). { rewrite E, Hcs, Lc. change (Zlen (@nil Z)) with 0. destruct (dyn B); lia. }
  rewrite E, Hcs in P1. cbn [app] in P1. set (B1 := Buffer c (bf_cap B) (bf_alloc B)) in *.
  assert (padded_size (padded_size (Zlen (encoded M))) = padded_size (Zlen (encoded M)) + 16) as Ep by (unfold padded_size; lia).
  assert (roomy B1 = true) as Ro. { unfold roomy, B1. cbn [bf_data bf_cap]. change (dyn (Buffer c (bf_cap B) (bf_alloc B))) with (dyn B). rewrite Lc, Ep. destruct (dyn B); cbn [orb]; auto. now apply Z.leb_le. }
  set (B2 := Buffer (encoded M) (crypt_cap B1) (bf_alloc B)).
  destruct (unpack_phase cf A T M (upd a j (ABuf B2)) j B2 [] [] ltac:(now apply slot_upd) Ho ltac:(cbn [app]; now rewrite app_nil_r)) as (ys & Q1 & Q2).
  change (Zlen (@nil Z)) with 0 in Q1.
  assert (phase cf A T (upd a j (ABuf B1)) j (recv_secret j b key iv (map fst M)) (SawText None :: ys) B2) as P.
  { apply (phase_cons cf A T _ j (XDecrypt j b key iv) _ B1 ys); auto; [now apply slot_upd| |].
    - cbn [xbuf_legal]. unfold B1. cbn [bf_data]. rewrite Lc in *. repeat split; try apply K; try apply Hi; auto; try (unfold padded_size; lia). lia.
    - cbn [xbuf_step]. rewrite Ro. unfold B1 at 2 3 4 5 6. cbn [bf_data bf_alloc]. rewrite Bk2, upd_upd. exact Q1. }
  destruct (phase_run cf A T a vars w j _ _ _ W Hc Hm (phase_app cf A T _ _ _ _ _ _ _ _ P1 P)) as (vars' & w' & R1 & R2).
  exists xs, (SawText None :: ys), vars', w'. split; [exact R1|]. split; [|exact Q2]. destruct P1 as [_ P1]. apply (f_equal fst) in P1. cbn [fst] in P1. rewrite <- P1.
  clear. unfold read_ops. revert a. induction cs as [|l cs IH]; intros a; cbn [map xarun]; [reflexivity|]. destruct (xstep cf A a (XRead j (RdBytes l))) as [x a1].
  specialize (IH a1). destruct (xarun cf A a1 _) as [zs a2]. cbn [fst length] in *. now rewrite IH.
Qed.
