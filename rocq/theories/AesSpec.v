(** FIPS-197, Advanced Encryption Standard, written down from the standard (no tables). *)
From Verif Require Import Base.

(** 4.2 Multiplication in GF(2^8): product of polynomials over GF(2), modulo x^8+x^4+x^3+x+1. *)
Definition poly_mul (a b : Z) : Z :=
  fold_left (fun r i => if Z.testbit a (Z.of_nat i) then Z.lxor r (Z.shiftl b (Z.of_nat i)) else r) (seq 0 8) 0.
Definition poly_mod (a : Z) : Z :=
  fold_left (fun r i => if Z.testbit r (Z.of_nat (i + 8)) then Z.lxor r (Z.shiftl 283 (Z.of_nat i)) else r) (rev (seq 0 7)) a.
Definition gmul (a b : Z) : Z := poly_mod (poly_mul a b).
(** Multiplicative inverse; {00} is mapped to itself (5.1.1). *)
Definition all_bytes : list Z := map Z.of_nat (seq 0 256).
Definition ginv (a : Z) : Z :=
  match find (fun x => gmul a x =? 1) all_bytes with Some x => x | None => 0 end.
Fixpoint gpow (a : Z) (n : nat) : Z := match n with O => 1 | S n' => gmul a (gpow a n') end.

(** 5.1.1 (5.1): b'_i = b_i + b_(i+4 mod 8) + b_(i+5 mod 8) + b_(i+6 mod 8) + b_(i+7 mod 8) + c_i, c = {63} *)
Definition bit (b : Z) (i : nat) : bool := Z.testbit b (Z.of_nat i).
Definition affine (b : Z) : Z :=
  fold_left (fun r i =>
    let v := xorb (bit b i) (xorb (bit b ((i + 4) mod 8)) (xorb (bit b ((i + 5) mod 8))
               (xorb (bit b ((i + 6) mod 8)) (xorb (bit b ((i + 7) mod 8)) (bit 99 i))))) in
    if v then r + 2 ^ Z.of_nat i else r) (seq 0 8) 0.
Definition S_box (b : Z) : Z := affine (ginv b).
(** 5.3.2 the inverse of the S-box *)
Definition InvS_box (b : Z) : Z :=
  match find (fun x => S_box x =? b) all_bytes with Some x => x | None => 0 end.

(** 3.4 The State: row r, column c; in and out are read column by column. *)
Definition state : Type := nat -> nat -> Z.
Definition load_state (input : list Z) : state := fun r c => nth (r + 4 * c) input 0.
Definition store_state (s : state) : list Z := map (fun i => s (i mod 4)%nat (i / 4)%nat) (seq 0 16).

(** 5.1 *)
Definition SubBytes (s : state) : state := fun r c => S_box (s r c).
Definition ShiftRows (s : state) : state := fun r c => s r ((c + r) mod 4)%nat.
Definition xor4 (a b c d : Z) : Z := Z.lxor a (Z.lxor b (Z.lxor c d)).
(** Product with the circulant matrix with first row a0 a1 a2 a3. *)
Definition mix (a0 a1 a2 a3 : Z) (s : state) : state := fun r c =>
  let a i := nth ((i + 4 - r) mod 4)%nat [a0; a1; a2; a3] 0 in
  xor4 (gmul (a 0%nat) (s 0%nat c)) (gmul (a 1%nat) (s 1%nat c)) (gmul (a 2%nat) (s 2%nat c)) (gmul (a 3%nat) (s 3%nat c)).
Definition MixColumns (s : state) : state := mix 2 3 1 1 s.
(** Word c of the round key is added to column c. *)
Definition AddRoundKey (s : state) (w : list (list Z)) (round : nat) : state :=
  fun r c => Z.lxor (s r c) (nth r (nth (4 * round + c) w []) 0).

(** 5.2 Key expansion *)
Definition SubWord (w : list Z) : list Z := map S_box w.
Definition RotWord (w : list Z) : list Z := match w with a :: t => t ++ [a] | [] => [] end.
Definition Rcon (i : nat) : list Z := [gpow 2 (i - 1); 0; 0; 0].
Definition XorWord (a b : list Z) : list Z := map (fun p => Z.lxor (fst p) (snd p)) (combine a b).
Definition key_words (key : list Z) (Nk : nat) : list (list Z) :=
  map (fun i => [nth (4 * i) key 0; nth (4 * i + 1) key 0; nth (4 * i + 2) key 0; nth (4 * i + 3) key 0]) (seq 0 Nk).
(** w[i] from w[0..i-1] *)
Definition next_word (Nk i : nat) (w : list (list Z)) : list Z :=
  let temp := nth (i - 1) w [] in
  let temp :=
    if (i mod Nk =? 0)%nat then XorWord (SubWord (RotWord temp)) (Rcon (i / Nk))
    else if (6 <? Nk)%nat && (i mod Nk =? 4)%nat then SubWord temp
    else temp in
  XorWord (nth (i - Nk) w []) temp.
Definition KeyExpansion (key : list Z) (Nk Nr : nat) : list (list Z) :=
  fold_left (fun w i => w ++ [next_word Nk i w]) (seq Nk (4 * (Nr + 1) - Nk)) (key_words key Nk).

(** 5.1 Cipher *)
Definition Cipher (input : list Z) (Nr : nat) (w : list (list Z)) : list Z :=
  let s := AddRoundKey (load_state input) w 0 in
  let s := fold_left (fun s round => AddRoundKey (MixColumns (ShiftRows (SubBytes s))) w round) (seq 1 (Nr - 1)) s in
  store_state (AddRoundKey (ShiftRows (SubBytes s)) w Nr).

(** 5.3 Inverse cipher *)
Definition InvSubBytes (s : state) : state := fun r c => InvS_box (s r c).
Definition InvShiftRows (s : state) : state := fun r c => s r ((c + 4 - r) mod 4)%nat.
Definition InvMixColumns (s : state) : state := mix 14 11 13 9 s.
Definition InvCipher (input : list Z) (Nr : nat) (w : list (list Z)) : list Z :=
  let s := AddRoundKey (load_state input) w Nr in
  let s := fold_left (fun s round => InvMixColumns (AddRoundKey (InvSubBytes (InvShiftRows s)) w round)) (rev (seq 1 (Nr - 1))) s in
  store_state (AddRoundKey (InvSubBytes (InvShiftRows s)) w 0).

(** AES with the key lengths of the standard: Nr = Nk + 6 *)
Definition AES (key input : list Z) : list Z :=
  let Nk := (length key / 4)%nat in Cipher input (Nk + 6) (KeyExpansion key Nk (Nk + 6)).
Definition InvAES (key input : list Z) : list Z :=
  let Nk := (length key / 4)%nat in InvCipher input (Nk + 6) (KeyExpansion key Nk (Nk + 6)).
