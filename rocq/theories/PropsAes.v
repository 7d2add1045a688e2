(** Property theorems about the block cipher (C57, C58, C72). *)
From Verif Require Import Base Mem PackModel AesModel AesSpec AesProofs AesProofs2 AesProofs3 BufExample PropsPack.

(** A list of [n] bytes. *)
Definition bytes_n (n : nat) (l : list Z) : Prop := length l = n /\ Forall is_byte l.

(** ** C57: on little endian hosts the cipher is the one of FIPS-197, whatever the context held before. *)
Theorem C57_aes256_enc : forall cf key ctx block, c_big_endian cf = false -> bytes_n 32 key -> length ctx = 240%nat -> bytes_n 16 block ->
  aes256_enc block (aes256_init cf key ctx) = AES key block.
Proof. intros cf key ctx block E [Lk Fk] Lc B. exact (proj1 (enc_spec cf 8 key ctx block E (or_intror (or_intror eq_refl)) Lk Fk Lc B)). Qed.
Print Assumptions C57_aes256_enc.
Theorem C57_aes256_dec : forall cf key ctx block, c_big_endian cf = false -> bytes_n 32 key -> length ctx = 240%nat -> bytes_n 16 block ->
  aes256_dec block (aes256_init cf key ctx) = InvAES key block.
Proof. intros cf key ctx block E [Lk Fk] Lc B. exact (proj2 (enc_spec cf 8 key ctx block E (or_intror (or_intror eq_refl)) Lk Fk Lc B)). Qed.
Print Assumptions C57_aes256_dec.
(** The key schedules for the other key lengths, with the generic core. *)
Theorem C57_aes128 : forall cf key ctx block, c_big_endian cf = false -> bytes_n 16 key -> length ctx = 176%nat -> bytes_n 16 block ->
  aes_encrypt_core block (aes128_init cf key ctx) 10 = AES key block /\ aes_decrypt_core block (aes128_init cf key ctx) 10 = InvAES key block.
Proof. intros cf key ctx block E [Lk Fk] Lc B. exact (enc_spec cf 4 key ctx block E (or_introl eq_refl) Lk Fk Lc B). Qed.
Print Assumptions C57_aes128.
Theorem C57_aes192 : forall cf key ctx block, c_big_endian cf = false -> bytes_n 24 key -> length ctx = 208%nat -> bytes_n 16 block ->
  aes_encrypt_core block (aes192_init cf key ctx) 12 = AES key block /\ aes_decrypt_core block (aes192_init cf key ctx) 12 = InvAES key block.
Proof. intros cf key ctx block E [Lk Fk] Lc B. exact (enc_spec cf 6 key ctx block E (or_intror (or_introl eq_refl)) Lk Fk Lc B). Qed.
Print Assumptions C57_aes192.
(** The substitution tables are the S-box of the standard and its inverse. *)
Theorem C57_sbox : forall b, is_byte b -> sbox b = S_box b /\ invsbox b = InvS_box b.
Proof. intros b Hb. split; symmetry; [now apply sbox_spec|now apply invsbox_spec]. Qed.
Print Assumptions C57_sbox.

(** The example vectors of FIPS-197, appendix C. *)
Definition fips_key (n : nat) : list Z := map Z.of_nat (seq 0 n).
Definition fips_block : list Z := map (fun i => 17 * Z.of_nat i) (seq 0 16).
Lemma fips_key_ok : forall n, (n <= 256)%nat -> bytes_n n (fips_key n).
Proof. intros n H. split; [unfold fips_key; now rewrite map_length, seq_length|]. apply Forall_map, Forall_forall. intros i Hi. apply in_seq in Hi. unfold is_byte. lia. Qed.
Lemma fips_block_ok : bytes_n 16 fips_block.
Proof. split; [reflexivity|]. apply Forall_map, Forall_forall. intros i Hi. apply in_seq in Hi. unfold is_byte. lia. Qed.
Definition fips_out256 : list Z := [142; 162; 183; 202; 81; 103; 69; 191; 234; 252; 73; 144; 75; 73; 96; 137].
Example C57_fips_256 : AES (fips_key 32) fips_block = fips_out256 /\ InvAES (fips_key 32) fips_out256 = fips_block.
Proof.
  assert (bytes_n 16 fips_out256) as Ho by (split; [reflexivity|]; repeat constructor; unfold is_byte; lia).
  rewrite <- (C57_aes256_enc gcc64 (fips_key 32) (repeat 77 240) fips_block eq_refl (fips_key_ok 32 ltac:(lia)) (repeat_length _ _) fips_block_ok).
  rewrite <- (C57_aes256_dec gcc64 (fips_key 32) (repeat 77 240) fips_out256 eq_refl (fips_key_ok 32 ltac:(lia)) (repeat_length _ _) Ho).
  split; vm_compute; reflexivity.
Qed.
Example C57_fips_128 : AES (fips_key 16) fips_block = [105; 196; 224; 216; 106; 123; 4; 48; 216; 205; 183; 128; 112; 180; 197; 90].
Proof.
  rewrite <- (proj1 (C57_aes128 gcc64 (fips_key 16) (repeat 77 176) fips_block eq_refl (fips_key_ok 16 ltac:(lia)) (repeat_length _ _) fips_block_ok)).
  vm_compute; reflexivity.
Qed.
Example C57_fips_192 : AES (fips_key 24) fips_block = [221; 169; 124; 164; 134; 76; 223; 224; 110; 175; 112; 160; 236; 13; 113; 145].
Proof.
  rewrite <- (proj1 (C57_aes192 gcc64 (fips_key 24) (repeat 77 208) fips_block eq_refl (fips_key_ok 24 ltac:(lia)) (repeat_length _ _) fips_block_ok)).
  vm_compute; reflexivity.
Qed.

(** ** C58: on every host, with contexts initialised separately from the same key. *)
Theorem C58_dec_enc : forall cf key ctx ctx' block, bytes_n 32 key -> length ctx = 240%nat -> length ctx' = 240%nat -> bytes_n 16 block ->
  aes256_dec (aes256_enc block (aes256_init cf key ctx)) (aes256_init cf key ctx') = block.
Proof. intros cf key ctx ctx' block [Lk Fk] Lc Lc' B. exact (init_dec_enc cf 8 key ctx ctx' block ltac:(lia) Lk Fk Lc Lc' B). Qed.
Print Assumptions C58_dec_enc.
Theorem C58_enc_dec : forall cf key ctx ctx' block, bytes_n 32 key -> length ctx = 240%nat -> length ctx' = 240%nat -> bytes_n 16 block ->
  aes256_enc (aes256_dec block (aes256_init cf key ctx)) (aes256_init cf key ctx') = block.
Proof. intros cf key ctx ctx' block [Lk Fk] Lc Lc' B. exact (init_enc_dec cf 8 key ctx ctx' block ltac:(lia) Lk Fk Lc Lc' B). Qed.
Print Assumptions C58_enc_dec.
(** Hence the functions of the standard, as written down in AesSpec, invert each other. *)
Theorem C58_standard : forall key block, bytes_n 32 key -> bytes_n 16 block ->
  InvAES key (AES key block) = block /\ AES key (InvAES key block) = block.
Proof. intros key block [Lk Fk] B. exact (aes_inverse 8 key block (or_intror (or_intror eq_refl)) Lk Fk B). Qed.
Print Assumptions C58_standard.
Example C58_case : bytes_n 32 (fips_key 32) /\ bytes_n 16 fips_block /\
  aes256_enc fips_block (aes256_init be64 (fips_key 32) (repeat 1 240)) <> fips_block /\
  aes256_dec (aes256_enc fips_block (aes256_init be64 (fips_key 32) (repeat 1 240))) (aes256_init be64 (fips_key 32) (repeat 2 240)) = fips_block.
Proof.
  split; [apply fips_key_ok; lia|]. split; [apply fips_block_ok|]. split; [vm_compute; discriminate|vm_compute; reflexivity].
Qed.

(** ** C72: the cipher text depends on the byte order of the host. *)
Theorem C72_big_endian_refuted : exists cf key ctx block, c_big_endian cf = true /\ bytes_n 32 key /\ length ctx = 240%nat /\ bytes_n 16 block /\
  aes256_enc block (aes256_init cf key ctx) <> AES key block.
Proof.
  exists be64, (fips_key 32), (repeat 0 240), fips_block. split; [reflexivity|]. split; [apply fips_key_ok; lia|]. split; [reflexivity|]. split; [apply fips_block_ok|].
  rewrite (proj1 C57_fips_256). vm_compute. discriminate.
Qed.
Print Assumptions C72_big_endian_refuted.
(** All hosts of one byte order agree. *)
Theorem C72_same_order : forall cf cf' key ctx ctx' block, c_big_endian cf = c_big_endian cf' -> bytes_n 32 key ->
  length ctx = 240%nat -> length ctx' = 240%nat -> bytes_n 16 block ->
  aes256_enc block (aes256_init cf key ctx) = aes256_enc block (aes256_init cf' key ctx').
Proof.
  intros cf cf' key ctx ctx' block E [Lk Fk] Lc Lc' B.
  exact (f_equal (aes256_enc block) (init_indep cf cf' 8 key ctx ctx' E ltac:(lia) Lk Fk Lc Lc')).
Qed.
Print Assumptions C72_same_order.
