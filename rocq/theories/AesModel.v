(** Model of accessories/strbuf_crypt/aes: the AES block cipher.
    Arrays of uint8_t are lists of bytes, all indices are constants inside of the arrays
    (16 byte states, 240 byte key schedules).
    Simplification: the state, an array in the caller's buffer, is read before and written
    after each operation (see CryptModel for the accesses to the buffer). *)
From Verif Require Import Base Mem PackModel.

(** a[i] and a[i] = x *)
(** Array element, as in aes_enc.c:57 tmp[i] or aes_dec.c:98 state->s[i]; no other counterpart in /repo. *)
Definition ix (a : list Z) (i : nat) : Z := nth i a 0.
(** Assignment of an array element, as in aes_enc.c:57 tmp[i] = ... *)
Definition st_ (a : list Z) (i : nat) (x : Z) : list Z := upd a i x.
(** for(i=0; i<n; ++i) body *)
(** The loops aes_enc.c:56, 64, 85, 95, 103 and 110, aes_dec.c:53, 57, 97, 107, 115 and 127, aes_keyschedule.c:63. *)
Definition for_ (n : nat) (body : nat -> list Z -> list Z) (a : list Z) : list Z :=
  fold_left (fun s i => body i s) (seq 0 n) a.

(** aes/aes_sbox.c:21-38 aes_sbox *)
Definition aes_sbox : list Z :=
  [99; 124; 119; 123; 242; 107; 111; 197; 48; 1; 103; 43; 254; 215; 171; 118;
   202; 130; 201; 125; 250; 89; 71; 240; 173; 212; 162; 175; 156; 164; 114; 192;
   183; 253; 147; 38; 54; 63; 247; 204; 52; 165; 229; 241; 113; 216; 49; 21;
   4; 199; 35; 195; 24; 150; 5; 154; 7; 18; 128; 226; 235; 39; 178; 117;
   9; 131; 44; 26; 27; 110; 90; 160; 82; 59; 214; 179; 41; 227; 47; 132;
   83; 209; 0; 237; 32; 252; 177; 91; 106; 203; 190; 57; 74; 76; 88; 207;
   208; 239; 170; 251; 67; 77; 51; 133; 69; 249; 2; 127; 80; 60; 159; 168;
   81; 163; 64; 143; 146; 157; 56; 245; 188; 182; 218; 33; 16; 255; 243; 210;
   205; 12; 19; 236; 95; 151; 68; 23; 196; 167; 126; 61; 100; 93; 25; 115;
   96; 129; 79; 220; 34; 42; 144; 136; 70; 238; 184; 20; 222; 94; 11; 219;
   224; 50; 58; 10; 73; 6; 36; 92; 194; 211; 172; 98; 145; 149; 228; 121;
   231; 200; 55; 109; 141; 213; 78; 169; 108; 86; 244; 234; 101; 122; 174; 8;
   186; 120; 37; 46; 28; 166; 180; 198; 232; 221; 116; 31; 75; 189; 139; 138;
   112; 62; 181; 102; 72; 3; 246; 14; 97; 53; 87; 185; 134; 193; 29; 158;
   225; 248; 152; 17; 105; 217; 142; 148; 155; 30; 135; 233; 206; 85; 40; 223;
   140; 161; 137; 13; 191; 230; 66; 104; 65; 153; 45; 15; 176; 84; 187; 22].

(** aes/aes_invsbox.c:5-22 aes_invsbox *)
Definition aes_invsbox : list Z :=
  [82; 9; 106; 213; 48; 54; 165; 56; 191; 64; 163; 158; 129; 243; 215; 251;
   124; 227; 57; 130; 155; 47; 255; 135; 52; 142; 67; 68; 196; 222; 233; 203;
   84; 123; 148; 50; 166; 194; 35; 61; 238; 76; 149; 11; 66; 250; 195; 78;
   8; 46; 161; 102; 40; 217; 36; 178; 118; 91; 162; 73; 109; 139; 209; 37;
   114; 248; 246; 100; 134; 104; 152; 22; 212; 164; 92; 204; 93; 101; 182; 146;
   108; 112; 72; 80; 253; 237; 185; 218; 94; 21; 70; 87; 167; 141; 157; 132;
   144; 216; 171; 0; 140; 188; 211; 10; 247; 228; 88; 5; 184; 179; 69; 6;
   208; 44; 30; 143; 202; 63; 15; 2; 193; 175; 189; 3; 1; 19; 138; 107;
   58; 145; 17; 65; 79; 103; 220; 234; 151; 242; 207; 206; 240; 180; 230; 115;
   150; 172; 116; 34; 231; 173; 53; 133; 226; 249; 55; 232; 28; 117; 223; 110;
   71; 241; 26; 113; 29; 41; 197; 137; 111; 183; 98; 14; 170; 24; 190; 27;
   252; 86; 62; 75; 198; 210; 121; 32; 154; 219; 192; 254; 120; 205; 90; 244;
   31; 221; 168; 51; 136; 7; 199; 49; 177; 18; 16; 89; 39; 128; 236; 95;
   96; 81; 127; 169; 25; 181; 74; 13; 45; 229; 122; 159; 147; 201; 156; 239;
   160; 224; 59; 77; 174; 42; 245; 176; 200; 235; 187; 60; 131; 83; 153; 97;
   23; 43; 4; 126; 186; 119; 214; 38; 225; 105; 20; 99; 85; 33; 12; 125].
(** aes_sbox.c:21 aes_sbox[x], read at aes_enc.c:57, 96 and aes_keyschedule.c:68-71, 77-80 *)
Definition sbox (x : Z) : Z := ix aes_sbox (Z.to_nat x).
(** aes_invsbox.c:5 aes_invsbox[x], read at aes_dec.c:98, 116 *)
Definition invsbox (x : Z) : Z := ix aes_invsbox (Z.to_nat x).

(** aes/gf256mul.c:22-40 gf256mul: the loop runs at most seven times *)
Fixpoint gf256mul_loop (fuel : nat) (a b reducer r : Z) : Z :=
  match fuel with
  | O => r
  | S f =>
      if Z.land a 254 =? 0 then if Z.land a 1 =? 0 then r else Z.lxor r b
      else
        let r' := if Z.land a 1 =? 0 then r else Z.lxor r b in
        let a' := Z.shiftr a 1 in
        let b' := if Z.land b 128 =? 0 then Z.shiftl b 1 mod 256 else Z.lxor (Z.shiftl b 1 mod 256) reducer in
        gf256mul_loop f a' b' reducer r'
  end.
(** gf256mul.c:22-40 gf256mul *)
Definition gf256mul (a b reducer : Z) : Z := gf256mul_loop 8 a b reducer 0.

(** aes/aes_enc.c:35-45 aes_shiftcol, data = s + [o] *)
Definition aes_shiftcol (s : list Z) (o shift : nat) : list Z :=
  let tmp := [ix s o; ix s (o + 4); ix s (o + 8); ix s (o + 12)] in
  let s := st_ s o (ix tmp ((shift + 0) mod 4)) in
  let s := st_ s (o + 4) (ix tmp ((shift + 1) mod 4)) in
  let s := st_ s (o + 8) (ix tmp ((shift + 2) mod 4)) in
  st_ s (o + 12) (ix tmp ((shift + 3) mod 4)).

(** aes/aes_enc.c:51-88 aes_enc_round, split at its comments.
    aes/aes_enc.c:55-58 subBytes: tmp *)
Definition sub_bytes (s : list Z) : list Z := for_ 16 (fun i t => st_ t i (sbox (ix s i))) (repeat 0 16).
(** aes/aes_enc.c:59-62 shiftRows *)
Definition shift_rows (t : list Z) : list Z :=
  aes_shiftcol (aes_shiftcol (aes_shiftcol t 1 1) 2 2) 3 3.
(** aes/aes_enc.c:63-82 mixColums *)
Definition mix_columns (tmp s : list Z) : list Z :=
  for_ 4 (fun i s =>
    let t := Z.lxor (Z.lxor (Z.lxor (ix tmp (4 * i + 0)) (ix tmp (4 * i + 1))) (ix tmp (4 * i + 2))) (ix tmp (4 * i + 3)) in
    let s := st_ s (4 * i + 0) (Z.lxor (Z.lxor (gf256mul 2 (Z.lxor (ix tmp (4 * i + 0)) (ix tmp (4 * i + 1))) 27) (ix tmp (4 * i + 0))) t) in
    let s := st_ s (4 * i + 1) (Z.lxor (Z.lxor (gf256mul 2 (Z.lxor (ix tmp (4 * i + 1)) (ix tmp (4 * i + 2))) 27) (ix tmp (4 * i + 1))) t) in
    let s := st_ s (4 * i + 2) (Z.lxor (Z.lxor (gf256mul 2 (Z.lxor (ix tmp (4 * i + 2)) (ix tmp (4 * i + 3))) 27) (ix tmp (4 * i + 2))) t) in
    st_ s (4 * i + 3) (Z.lxor (Z.lxor (gf256mul 2 (Z.lxor (ix tmp (4 * i + 3)) (ix tmp (4 * i + 0))) 27) (ix tmp (4 * i + 3))) t)) s.
(** aes/aes_enc.c:85-87 addKey (also aes_enc.c:103-105, 110-112, aes_dec.c:52-55, 106-109, 127-129) *)
Definition add_key (k s : list Z) : list Z := for_ 16 (fun i s => st_ s i (Z.lxor (ix s i) (ix k i))) s.
(** aes_enc.c:52-88 aes_enc_round *)
Definition aes_enc_round (s k : list Z) : list Z :=
  add_key k (mix_columns (shift_rows (sub_bytes s)) s).

(** aes/aes_enc.c:91-106 aes_enc_lastround: substitutes in place *)
Definition aes_enc_lastround (s k : list Z) : list Z :=
  let s := for_ 16 (fun i s => st_ s i (sbox (ix s i))) s in
  add_key k (shift_rows s).

(** &(ks->key[i]): bytes 16*i to 16*i+15 of the key schedule *)
(** Used at aes_enc.c:111, 115, 118 and aes_dec.c:122, 125, 128. *)
Definition key_at (ks : list Z) (i : nat) : list Z := firstn 16 (skipn (16 * i) ks).

(** aes/aes_enc.c:108-119 aes_encrypt_core: round keys 1 to rounds-1, then round key rounds *)
Definition aes_encrypt_core (s ks : list Z) (rounds : nat) : list Z :=
  let s := add_key (key_at ks 0) s in
  let s := fold_left (fun s i => aes_enc_round s (key_at ks i)) (seq 1 (rounds - 1)) s in
  aes_enc_lastround s (key_at ks rounds).

(** aes/aes256_enc.c:31-33 aes256_enc *)
Definition aes256_enc (s ctx : list Z) : list Z := aes_encrypt_core s ctx 14.

(** aes/aes_dec.c:36-46 aes_invshiftcol *)
Definition aes_invshiftcol (s : list Z) (o shift : nat) : list Z :=
  let tmp := [ix s o; ix s (o + 4); ix s (o + 8); ix s (o + 12)] in
  let s := st_ s o (ix tmp ((4 - shift + 0) mod 4)) in
  let s := st_ s (o + 4) (ix tmp ((4 - shift + 1) mod 4)) in
  let s := st_ s (o + 8) (ix tmp ((4 - shift + 2) mod 4)) in
  st_ s (o + 12) (ix tmp ((4 - shift + 3) mod 4)).
(** aes/aes_dec.c:92-95 and 110-113 shiftRows, aes/aes_dec.c:96-99 and 114-117 subBytes *)
Definition inv_shift_rows (s : list Z) : list Z :=
  aes_invshiftcol (aes_invshiftcol (aes_invshiftcol s 1 1) 2 2) 3 3.
(** aes_dec.c:97-99 and 115-117, the loop over the sixteen bytes *)
Definition inv_sub_bytes (s : list Z) : list Z := for_ 16 (fun i s => st_ s i (invsbox (ix s i))) s.
(** aes/aes_dec.c:56-68 mixColums *)
Definition inv_mix_columns (tmp s : list Z) : list Z :=
  for_ 4 (fun i s =>
    let t := Z.lxor (ix tmp (4 * i + 3)) (ix tmp (4 * i + 2)) in
    let u := Z.lxor (ix tmp (4 * i + 1)) (ix tmp (4 * i + 0)) in
    let v := Z.lxor t u in
    let v := gf256mul 9 v 27 in
    let w := Z.lxor v (gf256mul 4 (Z.lxor (ix tmp (4 * i + 2)) (ix tmp (4 * i + 0))) 27) in
    let v := Z.lxor v (gf256mul 4 (Z.lxor (ix tmp (4 * i + 3)) (ix tmp (4 * i + 1))) 27) in
    let s := st_ s (4 * i + 3) (Z.lxor (Z.lxor (ix tmp (4 * i + 3)) v) (gf256mul 2 (Z.lxor (ix tmp (4 * i + 0)) (ix tmp (4 * i + 3))) 27)) in
    let s := st_ s (4 * i + 2) (Z.lxor (Z.lxor (ix tmp (4 * i + 2)) w) (gf256mul 2 t 27)) in
    let s := st_ s (4 * i + 1) (Z.lxor (Z.lxor (ix tmp (4 * i + 1)) v) (gf256mul 2 (Z.lxor (ix tmp (4 * i + 2)) (ix tmp (4 * i + 1))) 27)) in
    st_ s (4 * i + 0) (Z.lxor (Z.lxor (ix tmp (4 * i + 0)) w) (gf256mul 2 u 27))) s.

(** aes/aes_dec.c:47-100 aes_dec_round *)
Definition aes_dec_round (s k : list Z) : list Z :=
  let tmp := for_ 16 (fun i t => st_ t i (Z.lxor (ix s i) (ix k i))) (repeat 0 16) in
  inv_sub_bytes (inv_shift_rows (inv_mix_columns tmp s)).

(** aes/aes_dec.c:103-118 aes_dec_firstround *)
Definition aes_dec_firstround (s k : list Z) : list Z :=
  inv_sub_bytes (inv_shift_rows (add_key k s)).

(** aes/aes_dec.c:120-130 aes_decrypt_core: round keys rounds, then rounds-1 down to 1 *)
Definition aes_decrypt_core (s ks : list Z) (rounds : nat) : list Z :=
  let s := aes_dec_firstround s (key_at ks rounds) in
  let s := fold_left (fun s i => aes_dec_round s (key_at ks i)) (rev (seq 1 (rounds - 1))) s in
  add_key (key_at ks 0) s.

(** aes/aes256_dec.c:31-33 aes256_dec *)
Definition aes256_dec (s ctx : list Z) : list Z := aes_decrypt_core s ctx 14.

(** aes/aes_keyschedule.c:47-50 rc_tab *)
Definition rc_tab : list Z := [1; 2; 4; 8; 16; 32; 64; 128; 27; 54].

(** memcpy(a + pos, l, 4) inside of an array *)
(** aes_keyschedule.c:84 *)
Definition blit (a : list Z) (pos : nat) (l : list Z) : list Z :=
  firstn pos a ++ l ++ skipn (pos + length l) a.
(** memcpy(tmp, a + pos, 4) *)
(** aes_keyschedule.c:65 *)
Definition word_at (a : list Z) (pos : nat) : list Z := firstn 4 (skipn pos a).
(** aes/memxor.c:5-11 memxor on byte arrays *)
Fixpoint xor_bytes (a b : list Z) : list Z :=
  match a, b with x :: a', y :: b' => Z.lxor x y :: xor_bytes a' b' | _, _ => a end.

Section Cfg.
Variable cf : cfg.

(** aes/aes_keyschedule.c:76 rotation of tmp.v32, whose bytes are tmp.v8 *)
Definition u32 : ity := Ity false W32.
(** aes_keyschedule.c:76 on the bytes of the word (a little endian host, see aes_init) *)
Definition rot_word (v8 : list Z) : list Z :=
  let v32 := of_bytes cf u32 v8 in
  to_bytes cf 4 (Z.lor (Z.shiftr v32 8) (conv u32 (Z.shiftl v32 24))).

(** aes/aes_keyschedule.c:63-90 one iteration of the loop of aes_init.
    State: next_nk (uint8_t), rc, ctx. *)
Definition init_step (nk i : nat) (st0 : nat * nat * list Z) : nat * nat * list Z :=
  let '(next_nk, rc, ctx) := st0 in
  let tmp := word_at ctx ((i - 1) * 4) in
  let '(next_nk, rc, tmp) :=
    if negb (i =? next_nk)%nat then
      (next_nk, rc, if (nk =? 8)%nat && (i mod 8 =? 4)%nat then map sbox tmp else tmp)
    else
      let tmp := map sbox (rot_word tmp) in
      ((next_nk + nk) mod 256, rc + 1, st_ tmp 0 (Z.lxor (ix tmp 0) (ix rc_tab rc)))%nat in
  let ctx := blit ctx (4 * i) (word_at ctx ((i - nk) * 4)) in
  (next_nk, rc, blit ctx (4 * i) (xor_bytes (word_at ctx (4 * i)) tmp)).

(** aes/aes_keyschedule.c:52-91 aes_init; [ctx] is the uninitialised key schedule, keysize_b
    is given in bytes. *)
Definition aes_init (key : list Z) (keybytes : nat) (ctx : list Z) : list Z :=
  let nk := (keybytes / 4)%nat in
  let hi := (4 * (nk + 6 + 1))%nat in
  let ctx := blit ctx 0 (firstn keybytes key) in
  let '(_, _, ctx) := fold_left (fun s i => init_step nk i s) (seq nk (hi - nk)) (nk, O, ctx) in
  ctx.

(** aes/aes_keyschedule.c:93-103 aes128_init, aes192_init, aes256_init *)
Definition aes128_init (key ctx : list Z) : list Z := aes_init key 16 ctx.
(** aes_keyschedule.c:97-99 aes192_init *)
Definition aes192_init (key ctx : list Z) : list Z := aes_init key 24 ctx.
(** aes_keyschedule.c:101-103 aes256_init *)
Definition aes256_init (key ctx : list Z) : list Z := aes_init key 32 ctx.

End Cfg.
