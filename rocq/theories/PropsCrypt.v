(** Property theorems about encrypting and decrypting buffers (C59-C61, C73-C76). *)
From Coq Require Import String.
From Verif Require Import Base Mem Libc StrviewModel Spec MemLemmas Alloc StrbufModel BufSpec ExampleLib BufExample PropsBuf StrbufProofs2
  PackModel AesModel AesSpec AesProofs AesProofs3 CryptModel CryptSpec CryptProofs CryptProofs2 CryptProofs3 CryptProofs4 CryptNeg PropsPack PropsAes.
Local Open Scope string_scope.
Local Open Scope list_scope.
Local Open Scope Z_scope.

(** There is room for a padded text of [n] bytes: dynamic buffers make room. *)
Definition room (B : buffer) (n : Z) : Prop := dyn B = false -> padded_size n <= bf_cap B.

(** ** C59, C76 *)
(** The contents become the AES-256-CBC encryption, padded as in PKCS#7. *)
Theorem C76_encrypt : forall cf w p B base key iv, ready cf w p B -> c_big_endian cf = false -> bytes_n 32 key -> bytes_n 16 iv ->
  Zlen (bf_data B) < 2147483632 -> room B (Zlen (bf_data B)) ->
  becomes_crypt cf w p B (strbuf_encrypt cf w (Some p) base key iv) (aes_cbc key iv (bf_data B)).
Proof.
  intros cf w p B base key iv (H1 & H2 & H3 & H4) E K Hi Hl Hr. rewrite <- (enc_is_aes cf key iv (bf_data B) E K Hi (proj2 (buf_at_cap _ _ _ _ H4))).
  now apply encrypt_ok.
Qed.
Print Assumptions C76_encrypt.
(** A buffer that holds the AES-256-CBC encryption of [l], from anywhere, becomes [l]. *)
Theorem C76_decrypt : forall cf w p B base key iv l, ready cf w p B -> c_big_endian cf = false -> bytes_n 32 key -> bytes_n 16 iv ->
  Forall is_byte l -> bf_data B = aes_cbc key iv l -> Zlen (bf_data B) < 2147483632 -> room B (Zlen (bf_data B)) ->
  becomes_crypt cf w p B (strbuf_decrypt cf w (Some p) base key iv) l.
Proof.
  intros cf w p B base key iv l (H1 & H2 & H3 & H4) E K Hi Fl HD Hl Hr.
  destruct (enc_text cf key iv l K Hi Fl) as [Lt _]. rewrite (enc_is_aes cf key iv l E K Hi Fl) in Lt. rewrite <- HD in Lt.
  pose proof (Zlen_nonneg l) as Zl. destruct (size_bounds _ Zl) as (S1 & S2 & _).
  apply decrypt_text_ok; auto.
  - rewrite Lt in Hl. unfold padded_size in *. lia.
  - now rewrite (enc_is_aes cf key iv l E K Hi Fl).
  - intros D. specialize (Hr D). rewrite Lt in Hr. unfold padded_size in *. lia.
Qed.
Print Assumptions C76_decrypt.
(** On every host: decryption after encryption gives the contents back; the buffer must have
    room for one more block, dynamic buffers make room. *)
Theorem C59_round_trip : forall cf w p B base base' key iv, ready cf w p B -> bytes_n 32 key -> bytes_n 16 iv ->
  Zlen (bf_data B) < 2147483616 -> room B (Zlen (bf_data B) + 16) ->
  exists p1 w1 p2 w2, strbuf_encrypt cf w (Some p) base key iv = Ok (INVALID, Some p1, w1) /\
    strbuf_decrypt cf w1 (Some p1) base' key iv = Ok (INVALID, Some p2, w2) /\
    buf_at cf (s_mem w2) p2 (Buffer (bf_data B) (if dyn B then Z.max (bf_cap B) (padded_size (Zlen (bf_data B) + 16)) else bf_cap B) (bf_alloc B)) /\
    touches cf (s_mem w) (s_mem w2) p p2 B /\ mem_wf (s_mem w2) /\ no_fail w2 /\ (dyn B = false -> p2 = p).
Proof.
  intros cf w p B base base' key iv (H1 & H2 & H3 & H4) K Hi Hl Hr.
  assert (padded_size (Zlen (bf_data B) + 16) = padded_size (Zlen (bf_data B)) + 16) as E by (unfold padded_size; lia).
  unfold room in Hr. rewrite E in *. now apply round_trip_ok.
Qed.
Print Assumptions C59_round_trip.

(** The first block of the vector F.2.5 of NIST SP 800-38A. *)
Definition sp_key : list Z := [96; 61; 235; 16; 21; 202; 113; 190; 43; 115; 174; 240; 133; 125; 119; 129;
                               31; 53; 44; 7; 59; 97; 8; 215; 45; 152; 16; 163; 9; 20; 223; 244].
Definition sp_iv : list Z := map Z.of_nat (seq 0 16).
Definition sp_block1 : list Z := [107; 193; 190; 226; 46; 64; 159; 150; 233; 61; 126; 17; 115; 147; 23; 42].
Definition sp_block2 : list Z := [174; 45; 138; 87; 30; 3; 172; 156; 158; 183; 111; 172; 69; 175; 142; 81].
Definition sp_out : list Z := [245; 140; 76; 4; 214; 229; 241; 186; 119; 158; 171; 251; 95; 123; 251; 214;
                               156; 252; 78; 150; 126; 219; 128; 141; 103; 159; 119; 123; 198; 112; 44; 125].
Lemma sp_ok : bytes_n 32 sp_key /\ bytes_n 16 sp_iv /\ Forall is_byte (sp_block1 ++ sp_block2).
Proof. split; [|split]; [split; [reflexivity|]|split; [reflexivity|]|]; apply byteb_ok; vm_compute; reflexivity. Qed.
Example C76_vector : firstn 32 (aes_cbc sp_key sp_iv (sp_block1 ++ sp_block2)) = sp_out.
Proof.
  destruct sp_ok as (K & I & F). rewrite <- (enc_is_aes gcc64 sp_key sp_iv (sp_block1 ++ sp_block2) eq_refl K I F). vm_compute. reflexivity.
Qed.

(** One buffer alone in memory. *)
Definition one (B : buffer) : st := St [bufblk gcc64 4096 B] (fun _ => Choice false true 0).
Definition pone : ptr := Ptr (PBlk 0) 0.
Definition contents (cf : cfg) (r : outcome (view * option ptr * st)) : option (list Z * Z) :=
  match r with
  | Ok (_, Some p, w) =>
      match load_hdr cf (s_mem w) p with
      | Ok h => match load_bytes (s_mem w) (shift p (hdr_size cf)) (Z.to_nat (h_size h)) with Ok l => Some (l, h_cap h) | _ => None end
      | _ => None
      end
  | _ => None
  end.
Definition secret : list Z := bs "attack at dawn, or later".
Definition b_secret (cap : Z) (a : allocator) : buffer := Buffer secret cap a.
Ltac one_check := split; [exact gcc64_wf|]; split; [wf_check|]; split; [intros ?; reflexivity|]; buf_check 4096.
Definition cipher : list Z := aes_cbc sp_key sp_iv secret.
Example C59_ex :
  ready gcc64 (one (b_secret 48 fixed)) pone (b_secret 48 fixed) /\ room (b_secret 48 fixed) (Zlen secret + 16) /\
  ready gcc64 (one (b_secret 24 heapA)) pone (b_secret 24 heapA) /\ room (b_secret 24 heapA) (Zlen secret + 16) /\
  (let r := strbuf_encrypt gcc64 (one (b_secret 48 fixed)) (Some pone) 0 sp_key sp_iv in
   match r, contents gcc64 r with
   | Ok (_, p, w), Some (l, c) => l <> secret /\ Zlen l = 32 /\ c = 48 /\ contents gcc64 (strbuf_decrypt gcc64 w p 0 sp_key sp_iv) = Some (secret, 48)
   | _, _ => False end) /\
  (let r := strbuf_encrypt gcc64 (one (b_secret 24 heapA)) (Some pone) 0 sp_key sp_iv in
   match r, contents gcc64 r with
   | Ok (_, p, w), Some (l, c) => l <> secret /\ Zlen l = 32 /\ c = 32 /\ contents gcc64 (strbuf_decrypt gcc64 w p 0 sp_key sp_iv) = Some (secret, 48)
   | _, _ => False end).
Proof.
  split; [one_check|]. split; [intros _; vm_compute; discriminate|]. split; [one_check|]. split; [intros X; discriminate X|].
  split; vm_compute; (split; [discriminate|]); repeat split.
Qed.
(** A cipher text from elsewhere is in the buffer. *)
Definition b_cipher (cap : Z) (a : allocator) : buffer := Buffer (cbc_text (fun s => aes256_enc s (aes256_init gcc64 sp_key (List.repeat 0 240))) sp_iv secret) cap a.
Example C76_ex : bf_data (b_cipher 48 heapA) = aes_cbc sp_key sp_iv secret /\ ready gcc64 (one (b_cipher 48 heapA)) pone (b_cipher 48 heapA) /\
  contents gcc64 (strbuf_decrypt gcc64 (one (b_cipher 48 heapA)) (Some pone) 0 sp_key sp_iv) = Some (secret, 48).
Proof.
  destruct sp_ok as (K & I & _). split; [exact (enc_is_aes gcc64 sp_key sp_iv secret eq_refl K I (byteb_ok secret eq_refl))|].
  split; [|vm_compute; reflexivity]. split; [exact gcc64_wf|]. split; [wf_check|]. split; [intros n; reflexivity|].
  eapply (bufblk_at _ _ _ 4096); [exact gcc64_wf|reflexivity|reflexivity|apply byteb_ok; vm_compute; reflexivity|].
  assert (Zlen (bf_data (b_cipher 48 heapA)) = 32) as -> by (vm_compute; reflexivity). cbn. unfold INT_MAX. lia.
Qed.

(** ** C60: the functions are declared to return a view of the buffer *)
Theorem C60_view_refuted : exists cf w p B base key iv p' w' B', ready cf w p B /\ bytes_n 32 key /\ bytes_n 16 iv /\ room B (Zlen (bf_data B)) /\
  strbuf_encrypt cf w (Some p) base key iv = Ok (INVALID, Some p', w') /\ buf_at cf (s_mem w') p' B' /\ Zlen (bf_data B') = 32.
Proof.
  destruct sp_ok as (K & I & _).
  assert (ready gcc64 (one (b_secret 48 fixed)) pone (b_secret 48 fixed)) as R by one_check.
  destruct (C76_encrypt gcc64 (one (b_secret 48 fixed)) pone (b_secret 48 fixed) 0 sp_key sp_iv R eq_refl K I eq_refl) as (p' & w' & E & HB & _).
  { intros _. vm_compute. discriminate. }
  exists gcc64, (one (b_secret 48 fixed)), pone, (b_secret 48 fixed), 0, sp_key, sp_iv, p', w'. eexists. split; [exact R|]. split; auto. split; auto.
  split; [intros _; vm_compute; discriminate|]. split; [exact E|]. split; [exact HB|]. cbn [bf_data].
  rewrite <- (enc_is_aes gcc64 sp_key sp_iv (bf_data (b_secret 48 fixed)) eq_refl K I (byteb_ok secret eq_refl)). vm_compute. reflexivity.
Qed.
Print Assumptions C60_view_refuted.
(** Whatever happens, the view returned is invalid. *)
Theorem C60_always_invalid : forall cf w bp base key iv v bp' w',
  strbuf_encrypt cf w bp base key iv = Ok (v, bp', w') \/ strbuf_decrypt cf w bp base key iv = Ok (v, bp', w') -> v = INVALID.
Proof. intros cf w bp base key iv v bp' w' [H|H]; exact (crypt_invalid _ _ _ _ _ _ _ _ _ _ H). Qed.
Print Assumptions C60_always_invalid.

(** ** C61: decryption of arbitrary contents *)
(** 16 bytes of garbage: the buffer is destroyed, or memory outside of the object is written;
    the empty buffer: memory that holds no characters is read. *)
Definition b_zero (a : allocator) : buffer := Buffer (List.repeat 0 16) 40 a.
Theorem C61_garbage_refuted : exists key iv1 iv2 w w',
  bytes_n 32 key /\ bytes_n 16 iv1 /\ bytes_n 16 iv2 /\ ready gcc64 w pone (b_zero fixed) /\
  strbuf_decrypt gcc64 w (Some pone) 0 key iv1 = UB UB_bounds /\
  strbuf_decrypt gcc64 w (Some pone) 0 key iv2 = Ok (INVALID, Some pone, w') /\ (forall B', ~ buf_at gcc64 (s_mem w') pone B').
Proof.
  exists (List.repeat 0 32), (List.repeat 0 16), (List.repeat 0 15 ++ [160]), (one (b_zero fixed)).
  assert (match strbuf_decrypt gcc64 (one (b_zero fixed)) (Some pone) 0 (List.repeat 0 32) (List.repeat 0 15 ++ [160]) with
          | Ok (v, p, w') => p = Some pone /\ load_hdr gcc64 (s_mem w') pone = UB UB_uninit | _ => False end) as X by (vm_compute; auto).
  destruct (strbuf_decrypt gcc64 (one (b_zero fixed)) (Some pone) 0 (List.repeat 0 32) (List.repeat 0 15 ++ [160])) as [[[v p] w']|e|] eqn:E; [|contradiction|contradiction].
  destruct X as [-> X]. pose proof (C60_always_invalid _ _ _ _ _ _ _ _ _ (or_intror E)) as ->. exists w'.
  do 3 (split; [split; [reflexivity|]; apply byteb_ok; vm_compute; reflexivity|]). split; [one_check|]. split; [vm_compute; reflexivity|].
  split; auto. intros B' HB. rewrite (buf_at_load gcc64 _ _ _ gcc64_wf HB) in X. discriminate X.
Qed.
Print Assumptions C61_garbage_refuted.
Theorem C61_empty_refuted : exists w B key iv, ready gcc64 w pone B /\ bf_data B = [] /\ bytes_n 32 key /\ bytes_n 16 iv /\
  strbuf_decrypt gcc64 w (Some pone) 0 key iv = UB UB_uninit.
Proof.
  exists (one (Buffer [] 40 heapA)), (Buffer [] 40 heapA), (List.repeat 0 32), (List.repeat 0 16). split; [one_check|]. split; [reflexivity|].
  do 2 (split; [split; [reflexivity|]; apply byteb_ok; vm_compute; reflexivity|]). vm_compute. reflexivity.
Qed.
Print Assumptions C61_empty_refuted.
(** What does hold: with at least one complete block, if the last byte of the plain text does
    not exceed the size of the contents, that many bytes are removed; bytes after the last
    complete block are kept as they are; the padding is not checked. *)
Theorem C61_decrypt_partial : forall cf w p B base key iv, ready cf w p B -> c_big_endian cf = false -> bytes_n 32 key -> bytes_n 16 iv ->
  16 <= Zlen (bf_data B) < 2147483632 -> room B (Zlen (bf_data B)) ->
  let P := aes_cbc_plain key iv (bf_data B) in last P 0 <= Zlen (bf_data B) ->
  becomes_crypt cf w p B (strbuf_decrypt cf w (Some p) base key iv) (unpad_with (last P 0) (P ++ skipn (length P) (bf_data B))).
Proof.
  intros cf w p B base key iv (H1 & H2 & H3 & H4) E K Hi Hl Hr. rewrite <- (dec_is_aes cf key iv (bf_data B) E K (proj2 (buf_at_cap _ _ _ _ H4))).
  now apply decrypt_ok.
Qed.
Print Assumptions C61_decrypt_partial.
(** Exactly then: in every other case the function has no defined behaviour, or the pointer no
    longer leads to a buffer. *)
Theorem C61_exact : forall cf w p B base key iv, ready cf w p B -> c_big_endian cf = false -> bytes_n 32 key -> bytes_n 16 iv ->
  Zlen (bf_data B) < 2147483632 -> room B (Zlen (bf_data B)) ->
  (exists v p' w' B', strbuf_decrypt cf w (Some p) base key iv = Ok (v, Some p', w') /\ buf_at cf (s_mem w') p' B') <->
  (16 <= Zlen (bf_data B) /\ last (aes_cbc_plain key iv (bf_data B)) 0 <= Zlen (bf_data B)).
Proof.
  intros cf w p B base key iv R E K Hi Hl Hr. split.
  - intros (v & p' & w' & B' & Ed & HB'). pose proof R as (H1 & H2 & H3 & H4).
    destruct (Z.le_gt_cases 16 (Zlen (bf_data B))) as [L|L].
    + split; auto. rewrite <- (dec_is_aes cf key iv (bf_data B) E K (proj2 (buf_at_cap _ _ _ _ H4))).
      match goal with |- ?x <= _ => destruct (Z.le_gt_cases x (Zlen (bf_data B))) as [M|M]; auto end.
      exfalso. pose proof (decrypt_neg cf w p B base key iv H1 H2 H3 H4 K Hi (conj L Hl) Hr M) as X. rewrite Ed in X. destruct X as (q & Eq & X).
      injection Eq as <-. exact (X B' HB').
    + rewrite (decrypt_short cf w p B base key iv H1 H2 H3 H4 K L Hr) in Ed. discriminate Ed.
  - intros [L M]. destruct (C61_decrypt_partial cf w p B base key iv R E K Hi (conj L Hl) Hr M) as (p' & w' & Ed & HB' & _).
    exists INVALID, p', w'. eexists. split; [exact Ed|exact HB'].
Qed.
Print Assumptions C61_exact.
(** Contents of less than one block are always undefined. *)
Theorem C61_short_refuted : forall cf w p B base key iv, ready cf w p B -> bytes_n 32 key ->
  Zlen (bf_data B) < 16 -> room B (Zlen (bf_data B)) -> strbuf_decrypt cf w (Some p) base key iv = UB UB_uninit.
Proof. intros cf w p B base key iv (H1 & H2 & H3 & H4) K L Hr. exact (decrypt_short cf w p B base key iv H1 H2 H3 H4 K L Hr). Qed.
Print Assumptions C61_short_refuted.
Example C61_ex : ready gcc64 (one (b_zero fixed)) pone (b_zero fixed) /\ room (b_zero fixed) 16 /\
  last (aes_cbc_plain (List.repeat 0 32) (List.repeat 0 15 ++ [180]) (List.repeat 0 16)) 0 = 0 /\
  match contents gcc64 (strbuf_decrypt gcc64 (one (b_zero fixed)) (Some pone) 0 (List.repeat 0 32) (List.repeat 0 15 ++ [180])) with
  | Some (l, c) => Zlen l = 16 /\ last l 1 = 0 | None => False end.
Proof.
  split; [one_check|]. split; [intros _; vm_compute; discriminate|]. split; [|vm_compute; auto].
  rewrite <- (dec_is_aes gcc64); [vm_compute; reflexivity|reflexivity|split; [reflexivity|]; apply byteb_ok; vm_compute; reflexivity|apply byteb_ok; vm_compute; reflexivity].
Qed.

(** ** C73: a fixed buffer without room for the padded text is left alone *)
Theorem C73_no_room : forall cf w p B base key iv, ready cf w p B -> dyn B = false -> Zlen (bf_data B) < 2147483632 ->
  bf_cap B < padded_size (Zlen (bf_data B)) ->
  strbuf_encrypt cf w (Some p) base key iv = Ok (INVALID, Some p, w) /\ strbuf_decrypt cf w (Some p) base key iv = Ok (INVALID, Some p, w).
Proof. intros cf w p B base key iv (H1 & H2 & H3 & H4) D Hl Hr. split; eapply crypt_no_room; eauto. Qed.
Print Assumptions C73_no_room.
(** No buffer, no effect. *)
Theorem C73_null : forall cf w base key iv,
  strbuf_encrypt cf w None base key iv = Ok (INVALID, None, w) /\ strbuf_decrypt cf w None base key iv = Ok (INVALID, None, w).
Proof. intros cf w base key iv. split; apply crypt_null. Qed.
Print Assumptions C73_null.
Example C73_ex : ready gcc64 w_move pfix b_fixed /\ dyn b_fixed = false /\ bf_cap b_fixed < padded_size (Zlen (bf_data b_fixed)).
Proof. split; [exact fix_ready|]. split; vm_compute; reflexivity. Qed.

(** ** C74: what was encrypted in a fixed buffer can be decrypted there *)
(** It fits, it is encrypted, and it cannot be decrypted: decryption asks for one more block. *)
Theorem C74_same_buffer_refuted : forall cf w p B base base' key iv, ready cf w p B -> dyn B = false -> bytes_n 32 key -> bytes_n 16 iv ->
  Zlen (bf_data B) < 2147483616 -> padded_size (Zlen (bf_data B)) <= bf_cap B < padded_size (Zlen (bf_data B)) + 16 ->
  exists w1 l', strbuf_encrypt cf w (Some p) base key iv = Ok (INVALID, Some p, w1) /\
    buf_at cf (s_mem w1) p (Buffer l' (bf_cap B) (bf_alloc B)) /\ l' <> bf_data B /\
    strbuf_decrypt cf w1 (Some p) base' key iv = Ok (INVALID, Some p, w1).
Proof. intros cf w p B base base' key iv (H1 & H2 & H3 & H4). now apply same_buffer. Qed.
Print Assumptions C74_same_buffer_refuted.
Example C74_ex : ready gcc64 (one (b_secret 32 fixed)) pone (b_secret 32 fixed) /\
  padded_size (Zlen secret) <= 32 < padded_size (Zlen secret) + 16 /\
  match strbuf_encrypt gcc64 (one (b_secret 32 fixed)) (Some pone) 0 sp_key sp_iv with
  | Ok (_, p, w) => match contents gcc64 (strbuf_decrypt gcc64 w p 0 sp_key sp_iv) with Some (l, _) => l <> secret | None => False end
  | _ => False end.
Proof. split; [one_check|]. split; [vm_compute; split; [discriminate|reflexivity]|]. vm_compute. discriminate. Qed.
(** With 16 bytes to spare, above the cipher text, the same fixed buffer can decrypt. *)
Theorem C74_room_partial : forall cf w p B base base' key iv, ready cf w p B -> dyn B = false -> bytes_n 32 key -> bytes_n 16 iv ->
  Zlen (bf_data B) < 2147483616 -> padded_size (Zlen (bf_data B)) + 16 <= bf_cap B ->
  exists w1 w2, strbuf_encrypt cf w (Some p) base key iv = Ok (INVALID, Some p, w1) /\
    strbuf_decrypt cf w1 (Some p) base' key iv = Ok (INVALID, Some p, w2) /\ buf_at cf (s_mem w2) p B.
Proof.
  intros cf w p B base base' key iv R D K Hi Hl Hr.
  destruct (C59_round_trip cf w p B base base' key iv R K Hi Hl) as (p1 & w1 & p2 & w2 & E1 & E2 & H & _ & _ & _ & Hp).
  { intros _. replace (padded_size (Zlen (bf_data B) + 16)) with (padded_size (Zlen (bf_data B)) + 16) by (unfold padded_size; lia). exact Hr. }
  rewrite (Hp D) in *. rewrite D in H. destruct R as (H1 & H2 & H3 & H4).
  assert (p1 = p) as ->.
  { assert (becomes_crypt cf w p B (strbuf_encrypt cf w (Some p) base key iv) (cbc_text (fun s => aes256_enc s (key_of cf key)) iv (bf_data B))) as (q & wq & Eq & _ & _ & _ & _ & Q) by (apply encrypt_ok; auto; [lia|intros _; lia]). rewrite E1 in Eq. injection Eq as <- <-. auto. }
  exists w1, w2. split; auto.
Qed.
Print Assumptions C74_room_partial.
Example C74_partial_ex : ready gcc64 (one (b_secret 48 fixed)) pone (b_secret 48 fixed) /\ padded_size (Zlen secret) + 16 <= 48 /\
  match strbuf_encrypt gcc64 (one (b_secret 48 fixed)) (Some pone) 0 sp_key sp_iv with
  | Ok (_, p, w) => match contents gcc64 (strbuf_decrypt gcc64 w p 0 sp_key sp_iv) with Some (l, _) => l = secret | None => False end
  | _ => False end.
Proof. split; [one_check|]. split; [vm_compute; discriminate|]. vm_compute. reflexivity. Qed.


(** ** C75: the largest buffers *)
(** With at least 2147483632 bytes the size of the padded text is not an int. *)
Theorem C75_large_refuted : forall cf w p B base key iv, ready cf w p B -> c_wrapv cf = false -> 2147483632 <= Zlen (bf_data B) ->
  strbuf_encrypt cf w (Some p) base key iv = UB UB_overflow /\ strbuf_decrypt cf w (Some p) base key iv = UB UB_overflow.
Proof. intros cf w p B base key iv (H1 & H2 & H3 & H4) Hw Hl. split; eapply crypt_large; eauto. Qed.
Print Assumptions C75_large_refuted.
Definition b_large (n : Z) : buffer := Buffer (List.repeat 65 (Z.to_nat n)) n heapA.
Lemma large_ready : forall n, 0 <= n <= INT_MAX -> ready iso64 (St [bufblk iso64 4096 (b_large n)] (fun _ => Choice false true 0)) pone (b_large n) /\ Zlen (bf_data (b_large n)) = n.
Proof.
  intros n Hn. assert (Zlen (bf_data (b_large n)) = n) as L by (unfold Zlen; cbn [bf_data b_large]; rewrite repeat_length; lia). split; auto.
  assert (wf_cfg iso64) as W by (split; [cbn; lia|auto]). split; [exact W|]. split; [|split; [intros k; reflexivity|]].
  - split.
    + intros [|[|b]] k H _; try discriminate H. injection H as <-. unfold bufblk. cbn [b_base b_size bf_cap b_large]. pose proof (StrbufProofs.hdr_size_pos iso64 W). lia.
    + intros [|[|b1]] [|[|b2]] k1 k2 X1 X2 _ _ Ne; try discriminate; congruence.
  - apply (bufblk_at iso64 _ 0 4096); auto; [|rewrite L; cbn [bf_cap b_large]; lia]. apply Forall_forall. intros x Hx. apply repeat_spec in Hx. subst. unfold is_byte. lia.
Qed.
(** Every smaller size is handled, in strict ISO C too. *)
Theorem C75_below_partial : forall cf w p B base key iv, ready cf w p B -> bytes_n 32 key -> bytes_n 16 iv ->
  Zlen (bf_data B) < 2147483632 -> room B (Zlen (bf_data B)) ->
  exists p' w' l, strbuf_encrypt cf w (Some p) base key iv = Ok (INVALID, Some p', w') /\
    buf_at cf (s_mem w') p' (Buffer l (if dyn B then Z.max (bf_cap B) (padded_size (Zlen (bf_data B))) else bf_cap B) (bf_alloc B)) /\
    Zlen l = padded_size (Zlen (bf_data B)) /\ Zlen l <= INT_MAX.
Proof.
  intros cf w p B base key iv (H1 & H2 & H3 & H4) K Hi Hl Hr.
  destruct (encrypt_ok cf w p B base key iv H1 H2 H3 H4 K Hi Hl Hr) as (p' & w' & E & HB & _).
  destruct (enc_text cf key iv (bf_data B) K Hi (proj2 (buf_at_cap _ _ _ _ H4))) as [Lt _].
  exists p', w'. eexists. split; [exact E|]. split; [exact HB|]. split; [exact Lt|]. rewrite Lt. unfold padded_size, INT_MAX. lia.
Qed.
Print Assumptions C75_below_partial.
Example C75_partial_ex : ready iso64 (St [bufblk iso64 4096 (b_large 2147483631)] (fun _ => Choice false true 0)) pone (b_large 2147483631)
  /\ Zlen (bf_data (b_large 2147483631)) = 2147483631 /\ padded_size 2147483631 = 2147483632 /\ room (b_large 2147483631) 2147483631.
Proof. pose proof (large_ready 2147483631) as [R L]; [unfold INT_MAX; lia|]. split; [exact R|]. split; [exact L|]. split; [reflexivity|intros D; discriminate]. Qed.

Example C75_ex : exists w p B, ready iso64 w p B /\ c_wrapv iso64 = false /\ 2147483632 <= Zlen (bf_data B).
Proof. eexists _, _, _. destruct (large_ready 2147483632) as [R L]; [unfold INT_MAX; lia|]. split; [exact R|]. split; [reflexivity|]. rewrite L. lia. Qed.
