(** Specification of CBC mode with PKCS#7 padding (NIST SP 800-38A, RFC 5652), over a block cipher. *)
From Verif Require Import Base Mem StrviewModel Spec Alloc BufSpec AesSpec.

(** The complete blocks of 16 bytes of a text. *)
Fixpoint chunk (n : nat) (l : list Z) : list (list Z) :=
  match n with O => [] | S n' => firstn 16 l :: chunk n' (skipn 16 l) end.
Definition blocks_of (l : list Z) : list (list Z) := chunk (length l / 16) l.

(** C_1 = E(P_1 + IV), C_j = E(P_j + C_(j-1)) *)
Fixpoint cbc_encrypt (E : list Z -> list Z) (iv : list Z) (P : list (list Z)) : list (list Z) :=
  match P with [] => [] | p :: P' => let c := E (XorWord p iv) in c :: cbc_encrypt E c P' end.
(** P_1 = D(C_1) + IV, P_j = D(C_j) + C_(j-1) *)
Fixpoint cbc_decrypt (D : list Z -> list Z) (iv : list Z) (C : list (list Z)) : list (list Z) :=
  match C with [] => [] | c :: C' => XorWord (D c) iv :: cbc_decrypt D c C' end.

(** n = 16 - (length mod 16) bytes of value n are added. *)
Definition pkcs7 (l : list Z) : list Z :=
  let n := (16 - length l mod 16)%nat in l ++ repeat (Z.of_nat n) n.
(** The size of the padded text. *)
Definition padded_size (n : Z) : Z := 16 * (n / 16 + 1).

Definition cbc_text (E : list Z -> list Z) (iv l : list Z) : list Z := concat (cbc_encrypt E iv (blocks_of (pkcs7 l))).
Definition cbc_plain (D : list Z -> list Z) (iv l : list Z) : list Z := concat (cbc_decrypt D iv (blocks_of l)).
(** AES-CBC encryption of a text of any length. *)
Definition aes_cbc (key iv l : list Z) : list Z := cbc_text (AES key) iv l.
(** AES-CBC decryption of the complete blocks of a text. *)
Definition aes_cbc_plain (key iv l : list Z) : list Z := cbc_plain (InvAES key) iv l.
(** The last byte tells how many bytes to remove. *)
Definition unpad (l : list Z) : list Z := firstn (length l - Z.to_nat (last l 0)) l.
(** The last [n] bytes are removed. *)
Definition unpad_with (n : Z) (l : list Z) : list Z := firstn (length l - Z.to_nat n) l.

(** The capacity of the buffer afterwards: dynamic buffers grow to the size of the padded text. *)
Definition crypt_cap (B : buffer) : Z := if dyn B then Z.max (bf_cap B) (padded_size (Zlen (bf_data B))) else bf_cap B.
(** The buffer becomes [l'], its pointer may have changed if it is dynamic; nothing else changes;
    the view returned is invalid. *)
Definition becomes_crypt (cf : cfg) (w : st) (p : ptr) (B : buffer) (r : outcome (view * option ptr * st)) (l' : list Z) : Prop :=
  exists p' w', r = Ok (INVALID, Some p', w') /\ buf_at cf (s_mem w') p' (Buffer l' (crypt_cap B) (bf_alloc B)) /\
    touches cf (s_mem w) (s_mem w') p p' B /\ mem_wf (s_mem w') /\ no_fail w' /\ (dyn B = false -> p' = p).
