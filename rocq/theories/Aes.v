(** AES-128 as implemented by the bundled tinyaes: model of crypto/tinyaes_src.c and
    crypto/tinyaes.c (the back end used when neither OpenSSL nor MbedTLS is configured).
    The 4x4 state is the list of its 16 bytes in memory order: state[i][j] is element 4*i+j. *)
From Verif Require Import Base.

(* tinyaes_src.c:79-96 *)
Definition sbox : list Z :=
  [99; 124; 119; 123; 242; 107; 111; 197; 48; 1; 103; 43; 254; 215; 171; 118;
   202; 130; 201; 125; 250; 89; 71; 240; 173; 212; 162; 175; 156; 164; 114; 192;
   183; 253; 147; 38; 54; 63; 247; 204; 52; 165; 229; 241; 113; 216; 49; 21;
   4; 199; 35; 195; 24; 150; 5; 154; 7; 18; 128; 226; 235; 39; 178; 117;
   9; 131; 44; 26; 27; 110; 90; 160; 82; 59; 214; 179; 41; 227; 47; 132;
   83; 209; 0; 237; 32; 252; 177; 91; 106; 203; 190; 57; 74; 76; 88; 207;
   208; 239; 170; 251; 67; 77; 51; 133; 69; 249; 2; 127; 80; 60; 159; 168;
   81; 163; 64; 143; 146; 157; 56; 245; 188; 182; 218; 33; 16; 255; 243; 210;
   205; 12; 19; 236; 95; 151; 68; 23; 196; 167; 126; 61; 100; 93; 25; 115;
   96; 129; 79; 220; 34; 42; 144; 136; 70; 238; 184; 20; 222; 94; 11; 219;
   224; 50; 58; 10; 73; 6; 36; 92; 194; 211; 172; 98; 145; 149; 228; 121;
   231; 200; 55; 109; 141; 213; 78; 169; 108; 86; 244; 234; 101; 122; 174; 8;
   186; 120; 37; 46; 28; 166; 180; 198; 232; 221; 116; 31; 75; 189; 139; 138;
   112; 62; 181; 102; 72; 3; 246; 14; 97; 53; 87; 185; 134; 193; 29; 158;
   225; 248; 152; 17; 105; 217; 142; 148; 155; 30; 135; 233; 206; 85; 40; 223;
   140; 161; 137; 13; 191; 230; 66; 104; 65; 153; 45; 15; 176; 84; 187; 22].

(* tinyaes_src.c:99-115 *)
Definition rsbox : list Z :=
  [82; 9; 106; 213; 48; 54; 165; 56; 191; 64; 163; 158; 129; 243; 215; 251;
   124; 227; 57; 130; 155; 47; 255; 135; 52; 142; 67; 68; 196; 222; 233; 203;
   84; 123; 148; 50; 166; 194; 35; 61; 238; 76; 149; 11; 66; 250; 195; 78;
   8; 46; 161; 102; 40; 217; 36; 178; 118; 91; 162; 73; 109; 139; 209; 37;
   114; 248; 246; 100; 134; 104; 152; 22; 212; 164; 92; 204; 93; 101; 182; 146;
   108; 112; 72; 80; 253; 237; 185; 218; 94; 21; 70; 87; 167; 141; 157; 132;
   144; 216; 171; 0; 140; 188; 211; 10; 247; 228; 88; 5; 184; 179; 69; 6;
   208; 44; 30; 143; 202; 63; 15; 2; 193; 175; 189; 3; 1; 19; 138; 107;
   58; 145; 17; 65; 79; 103; 220; 234; 151; 242; 207; 206; 240; 180; 230; 115;
   150; 172; 116; 34; 231; 173; 53; 133; 226; 249; 55; 232; 28; 117; 223; 110;
   71; 241; 26; 113; 29; 41; 197; 137; 111; 183; 98; 14; 170; 24; 190; 27;
   252; 86; 62; 75; 198; 210; 121; 32; 154; 219; 192; 254; 120; 205; 90; 244;
   31; 221; 168; 51; 136; 7; 199; 49; 177; 18; 16; 89; 39; 128; 236; 95;
   96; 81; 127; 169; 25; 181; 74; 13; 45; 229; 122; 159; 147; 201; 156; 239;
   160; 224; 59; 77; 174; 42; 245; 176; 200; 235; 187; 60; 131; 83; 153; 97;
   23; 43; 4; 126; 186; 119; 214; 38; 225; 105; 20; 99; 85; 33; 12; 125].

(* tinyaes_src.c:120-121 *)
Definition Rcon : list Z := [141; 1; 2; 4; 8; 16; 32; 64; 128; 27; 54].

(* tinyaes_src.c:143 and 348: getSBoxValue / getSBoxInvert. *)
Definition sub_byte (b : Z) : Z := getb sbox b.
Definition inv_sub_byte (b : Z) : Z := getb rsbox b.

(* tinyaes_src.c:163-215, one iteration i of the second loop of KeyExpansion: RoundKey so far
   (4*i bytes) gets 4 more bytes.  Nk = 4. *)
Definition key_step (rk : list Z) (i : nat) : list Z :=
  let k := ((i - 1) * 4)%nat in
  let t0 := nth k rk 0 in let t1 := nth (k + 1) rk 0 in
  let t2 := nth (k + 2) rk 0 in let t3 := nth (k + 3) rk 0 in
  let '(a0, a1, a2, a3) :=
    if Nat.eqb (Nat.modulo i 4) 0
    then (Z.lxor (sub_byte t1) (nth (Nat.div i 4) Rcon 0), sub_byte t2, sub_byte t3, sub_byte t0)
    else (t0, t1, t2, t3) in
  let j := ((i - 4) * 4)%nat in
  rk ++ [Z.lxor (nth j rk 0) a0; Z.lxor (nth (j + 1) rk 0) a1;
         Z.lxor (nth (j + 2) rk 0) a2; Z.lxor (nth (j + 3) rk 0) a3].

(* tinyaes_src.c:146-217 KeyExpansion: i runs from Nk = 4 to Nb*(Nr+1)-1 = 43. *)
Definition KeyExpansion (key : list Z) : list Z := fold_left key_step (seq 4 40) key.

(* tinyaes_src.c:237-247 AddRoundKey: the 16 bytes of RoundKey from round*16 are added. *)
Definition AddRoundKey (round : nat) (st rk : list Z) : list Z :=
  xorl st (firstn 16 (skipn (round * 16) rk)).

(* tinyaes_src.c:251-261 SubBytes *)
Definition SubBytes (st : list Z) : list Z := map sub_byte st.

(* tinyaes_src.c:371-381 InvSubBytes *)
Definition InvSubBytes (st : list Z) : list Z := map inv_sub_byte st.

(* tinyaes_src.c:266-292 ShiftRows: element k of the result is the old element whose index is
   listed at position k (state[i][j] is element 4*i+j). *)
Definition ShiftRows (st : list Z) : list Z :=
  map (fun i => nth i st 0) [0;5;10;15; 4;9;14;3; 8;13;2;7; 12;1;6;11]%nat.

(* tinyaes_src.c:383-409 InvShiftRows *)
Definition InvShiftRows (st : list Z) : list Z :=
  map (fun i => nth i st 0) [0;13;10;7; 4;1;14;11; 8;5;2;15; 12;9;6;3]%nat.

(* tinyaes_src.c:294-297 xtime; the result is truncated to uint8_t. *)
Definition xtime (x : Z) : Z :=
  u8 (Z.lxor (Z.shiftl x 1) (Z.land (Z.shiftr x 7) 1 * 27)).

(* tinyaes_src.c:306-311, body of the loop of MixColumns for one column. *)
Definition mix_column (a b c d : Z) : list Z :=
  let tmp := Z.lxor (Z.lxor (Z.lxor a b) c) d in
  [Z.lxor a (Z.lxor (xtime (Z.lxor a b)) tmp);
   Z.lxor b (Z.lxor (xtime (Z.lxor b c)) tmp);
   Z.lxor c (Z.lxor (xtime (Z.lxor c d)) tmp);
   Z.lxor d (Z.lxor (xtime (Z.lxor d a)) tmp)].

(* tinyaes_src.c:300-313 MixColumns *)
Definition MixColumns (st : list Z) : list Z :=
  let g := fun i => nth i st 0 in
  mix_column (g 0%nat) (g 1%nat) (g 2%nat) (g 3%nat) ++
  mix_column (g 4%nat) (g 5%nat) (g 6%nat) (g 7%nat) ++
  mix_column (g 8%nat) (g 9%nat) (g 10%nat) (g 11%nat) ++
  mix_column (g 12%nat) (g 13%nat) (g 14%nat) (g 15%nat).

(* tinyaes_src.c:329-335 Multiply; the operands are bytes, the products of the form (bit * byte). *)
Definition Multiply (x y : Z) : Z :=
  let x1 := xtime x in let x2 := xtime x1 in let x3 := xtime x2 in let x4 := xtime x3 in
  Z.lxor (Z.lxor (Z.lxor (Z.lxor
    (Z.land y 1 * x)
    (Z.land (Z.shiftr y 1) 1 * x1))
    (Z.land (Z.shiftr y 2) 1 * x2))
    (Z.land (Z.shiftr y 3) 1 * x3))
    (Z.land (Z.shiftr y 4) 1 * x4).

(* tinyaes_src.c:356-364, body of the loop of InvMixColumns for one column. *)
Definition inv_mix_column (a b c d : Z) : list Z :=
  [Z.lxor (Z.lxor (Z.lxor (Multiply a 14) (Multiply b 11)) (Multiply c 13)) (Multiply d 9);
   Z.lxor (Z.lxor (Z.lxor (Multiply a 9) (Multiply b 14)) (Multiply c 11)) (Multiply d 13);
   Z.lxor (Z.lxor (Z.lxor (Multiply a 13) (Multiply b 9)) (Multiply c 14)) (Multiply d 11);
   Z.lxor (Z.lxor (Z.lxor (Multiply a 11) (Multiply b 13)) (Multiply c 9)) (Multiply d 14)].

(* tinyaes_src.c:350-366 InvMixColumns *)
Definition InvMixColumns (st : list Z) : list Z :=
  let g := fun i => nth i st 0 in
  inv_mix_column (g 0%nat) (g 1%nat) (g 2%nat) (g 3%nat) ++
  inv_mix_column (g 4%nat) (g 5%nat) (g 6%nat) (g 7%nat) ++
  inv_mix_column (g 8%nat) (g 9%nat) (g 10%nat) (g 11%nat) ++
  inv_mix_column (g 12%nat) (g 13%nat) (g 14%nat) (g 15%nat).

(* tinyaes_src.c:425-434, rounds 1 .. Nr-1 of Cipher. *)
Definition enc_round (rk st : list Z) (round : nat) : list Z :=
  AddRoundKey round (MixColumns (ShiftRows (SubBytes st))) rk.

(* tinyaes_src.c:413-437 Cipher; Nr = 10. *)
Definition Cipher (st rk : list Z) : list Z :=
  let s0 := AddRoundKey 0 st rk in
  let s9 := fold_left (enc_round rk) (seq 1 9) s0 in
  AddRoundKey 10 (ShiftRows (SubBytes s9)) rk.

(* tinyaes_src.c:451-459, rounds 9 .. 1 of InvCipher (the InvMixColumns at the end of the
   iteration belongs to every round but the last, number 0). *)
Definition dec_round (rk st : list Z) (round : nat) : list Z :=
  InvMixColumns (AddRoundKey round (InvSubBytes (InvShiftRows st)) rk).

(* tinyaes_src.c:439-462 InvCipher *)
Definition InvCipher (st rk : list Z) : list Z :=
  let s10 := AddRoundKey 10 st rk in
  let s1 := fold_left (dec_round rk) (rev (seq 1 9)) s10 in
  AddRoundKey 0 (InvSubBytes (InvShiftRows s1)) rk.

(* tinyaes_src.c:218-221 AES_init_ctx + 470-474 AES_ECB_encrypt; tinyaes.c:17-31 osdp_encrypt with
   iv == NULL and one block. *)
Definition aes_ecb_encrypt (key block : list Z) : list Z := Cipher block (KeyExpansion key).

(* tinyaes_src.c:476-480 AES_ECB_decrypt; tinyaes.c:33-47 osdp_decrypt with iv == NULL. *)
Definition aes_ecb_decrypt (key block : list Z) : list Z := InvCipher block (KeyExpansion key).

(* tinyaes_src.c:499-512 AES_CBC_encrypt_buffer: n blocks of 16 bytes are encrypted in place. *)
Fixpoint cbc_enc (rk iv : list Z) (n : nat) (data : list Z) : list Z :=
  match n with
  | O => data
  | S k =>
      let c := Cipher (xorl (firstn 16 data) iv) rk in
      c ++ cbc_enc rk c k (skipn 16 data)
  end.

(* tinyaes_src.c:514-527 AES_CBC_decrypt_buffer *)
Fixpoint cbc_dec (rk iv : list Z) (n : nat) (data : list Z) : list Z :=
  match n with
  | O => data
  | S k =>
      let c := firstn 16 data in
      xorl (InvCipher c rk) iv ++ cbc_dec rk c k (skipn 16 data)
  end.

(* tinyaes.c:17-31 osdp_encrypt with iv != NULL; callers pass a length that is a multiple of 16. *)
Definition aes_cbc_encrypt (key iv data : list Z) : list Z :=
  cbc_enc (KeyExpansion key) iv (length data / 16) data.

(* tinyaes.c:33-47 osdp_decrypt with iv != NULL; callers pass a multiple of 16. *)
Definition aes_cbc_decrypt (key iv data : list Z) : list Z :=
  cbc_dec (KeyExpansion key) iv (length data / 16) data.
