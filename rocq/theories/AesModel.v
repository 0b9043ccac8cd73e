(** AES-256 (FIPS 197), the block function of crypto/aes (Go standard library, not in /repo: a
    contract).  ed25519_model.go:65 and :92 call aes.NewCipher with the 32-byte shared key.  A block
    is a list of 16 bytes, byte (row r, column c) at index r + 4 c. *)
From Verif Require Import GoBase ApiModel.
Open Scope Z_scope.

Definition aes_sbox : list Z :=
  [99; 124; 119; 123; 242; 107; 111; 197; 48; 1; 103; 43; 254; 215; 171; 118;
   202; 130; 201; 125; 250; 89; 71; 240; 173; 212; 162; 175; 156; 164; 114; 192;
   183; 253; 147; 38; 54; 63; 247; 204; 52; 165; 229; 241; 113; 216; 49; 21;
   4; 199; 35; 195; 24; 150; 5; 154; 7; 18; 128; 226; 235; 39; 178; 117;
   9; 131; 44; 26; 27; 110; 90; 160; 82; 59; 214; 179; 41; 227; 47; 132;
   83; 209; 0; 237; 32; 252; 177; 91; 106; 203; 190; 57; 74; 76; 88; 207;
   208; 239; 170; 251; 67; 77; 51; 133; 69; 249; 2; 127; 80; 60; 159; 168;
   81; 163; 64; 143; 146; 157; 56; 245; 188; 182; 218; 33; 16; 255; 243; 210;
   205; 12; 19; 236; 95; 151; 68; 23; 196; 167; 126; 61; 100; 93; 25; 115;
   96; 129; 79; 220; 34; 42; 144; 136; 70; 238; 184; 20; 222; 94; 11; 219;
   224; 50; 58; 10; 73; 6; 36; 92; 194; 211; 172; 98; 145; 149; 228; 121;
   231; 200; 55; 109; 141; 213; 78; 169; 108; 86; 244; 234; 101; 122; 174; 8;
   186; 120; 37; 46; 28; 166; 180; 198; 232; 221; 116; 31; 75; 189; 139; 138;
   112; 62; 181; 102; 72; 3; 246; 14; 97; 53; 87; 185; 134; 193; 29; 158;
   225; 248; 152; 17; 105; 217; 142; 148; 155; 30; 135; 233; 206; 85; 40; 223;
   140; 161; 137; 13; 191; 230; 66; 104; 65; 153; 45; 15; 176; 84; 187; 22].
Definition aes_inv_sbox : list Z :=
  [82; 9; 106; 213; 48; 54; 165; 56; 191; 64; 163; 158; 129; 243; 215; 251;
   124; 227; 57; 130; 155; 47; 255; 135; 52; 142; 67; 68; 196; 222; 233; 203;
   84; 123; 148; 50; 166; 194; 35; 61; 238; 76; 149; 11; 66; 250; 195; 78;
   8; 46; 161; 102; 40; 217; 36; 178; 118; 91; 162; 73; 109; 139; 209; 37;
   114; 248; 246; 100; 134; 104; 152; 22; 212; 164; 92; 204; 93; 101; 182; 146;
   108; 112; 72; 80; 253; 237; 185; 218; 94; 21; 70; 87; 167; 141; 157; 132;
   144; 216; 171; 0; 140; 188; 211; 10; 247; 228; 88; 5; 184; 179; 69; 6;
   208; 44; 30; 143; 202; 63; 15; 2; 193; 175; 189; 3; 1; 19; 138; 107;
   58; 145; 17; 65; 79; 103; 220; 234; 151; 242; 207; 206; 240; 180; 230; 115;
   150; 172; 116; 34; 231; 173; 53; 133; 226; 249; 55; 232; 28; 117; 223; 110;
   71; 241; 26; 113; 29; 41; 197; 137; 111; 183; 98; 14; 170; 24; 190; 27;
   252; 86; 62; 75; 198; 210; 121; 32; 154; 219; 192; 254; 120; 205; 90; 244;
   31; 221; 168; 51; 136; 7; 199; 49; 177; 18; 16; 89; 39; 128; 236; 95;
   96; 81; 127; 169; 25; 181; 74; 13; 45; 229; 122; 159; 147; 201; 156; 239;
   160; 224; 59; 77; 174; 42; 245; 176; 200; 235; 187; 60; 131; 83; 153; 97;
   23; 43; 4; 126; 186; 119; 214; 38; 225; 105; 20; 99; 85; 33; 12; 125].

Definition sub1 (b : Z) : Z := nth (Z.to_nat b) aes_sbox 0.
Definition inv_sub1 (b : Z) : Z := nth (Z.to_nat b) aes_inv_sbox 0.
Definition sub_bytes (s : bytes) : bytes := map sub1 s.
Definition inv_sub_bytes (s : bytes) : bytes := map inv_sub1 s.

Definition shift_rows (s : bytes) : bytes :=
  match s with
  | [a0; a1; a2; a3; a4; a5; a6; a7; a8; a9; a10; a11; a12; a13; a14; a15] =>
    [a0; a5; a10; a15; a4; a9; a14; a3; a8; a13; a2; a7; a12; a1; a6; a11]
  | _ => s
  end.
Definition inv_shift_rows (s : bytes) : bytes :=
  match s with
  | [a0; a1; a2; a3; a4; a5; a6; a7; a8; a9; a10; a11; a12; a13; a14; a15] =>
    [a0; a13; a10; a7; a4; a1; a14; a11; a8; a5; a2; a15; a12; a9; a6; a3]
  | _ => s
  end.

(** multiplication by x in GF(2^8) modulo x^8 + x^4 + x^3 + x + 1 *)
Definition xtime (b : Z) : Z :=
  Z.lxor (Z.land (Z.shiftl b 1) 255) (if Z.testbit b 7 then 27 else 0).
Infix "+x" := Z.lxor (at level 50, left associativity).
Definition mul2 := xtime.
Definition mul3 (b : Z) : Z := xtime b +x b.
Definition mul9 (b : Z) : Z := xtime (xtime (xtime b)) +x b.
Definition mul11 (b : Z) : Z := xtime (xtime (xtime b)) +x xtime b +x b.
Definition mul13 (b : Z) : Z := xtime (xtime (xtime b)) +x xtime (xtime b) +x b.
Definition mul14 (b : Z) : Z := xtime (xtime (xtime b)) +x xtime (xtime b) +x xtime b.
Definition mix_column (a b c d : Z) : bytes :=
  [mul2 a +x mul3 b +x c +x d; a +x mul2 b +x mul3 c +x d;
   a +x b +x mul2 c +x mul3 d; mul3 a +x b +x c +x mul2 d].
Definition inv_mix_column (a b c d : Z) : bytes :=
  [mul14 a +x mul11 b +x mul13 c +x mul9 d; mul9 a +x mul14 b +x mul11 c +x mul13 d;
   mul13 a +x mul9 b +x mul14 c +x mul11 d; mul11 a +x mul13 b +x mul9 c +x mul14 d].
Definition on_columns (f : Z -> Z -> Z -> Z -> bytes) (s : bytes) : bytes :=
  match s with
  | [a0; a1; a2; a3; a4; a5; a6; a7; a8; a9; a10; a11; a12; a13; a14; a15] =>
    f a0 a1 a2 a3 ++ f a4 a5 a6 a7 ++ f a8 a9 a10 a11 ++ f a12 a13 a14 a15
  | _ => s
  end.
Definition mix_columns := on_columns mix_column.
Definition inv_mix_columns := on_columns inv_mix_column.

(** Key expansion for Nk = 8: words of 4 bytes *)
Definition rot_word (w : bytes) : bytes := skipn 1 w ++ firstn 1 w.
Definition rcon (i : nat) : bytes := [nth (i / 8) [0; 1; 2; 4; 8; 16; 32; 64] 0; 0; 0; 0].
Definition next_word (ws : list bytes) : bytes :=
  let i := length ws in
  let temp := nth (i - 1) ws [] in
  let temp := if Nat.eqb (i mod 8) 0 then xor_bytes (sub_bytes (rot_word temp)) (rcon i)
              else if Nat.eqb (i mod 8) 4 then sub_bytes temp else temp in
  xor_bytes (nth (i - 8) ws []) temp.
Fixpoint expand (n : nat) (ws : list bytes) : list bytes :=
  match n with O => ws | S n' => expand n' (ws ++ [next_word ws]) end.
Definition key_words (key : bytes) : list bytes :=
  map (fun i => firstn 4 (skipn (4 * i) key)) (seq 0 8).
Definition round_key (ws : list bytes) (r : nat) : bytes :=
  nth (4 * r) ws [] ++ nth (4 * r + 1) ws [] ++ nth (4 * r + 2) ws [] ++ nth (4 * r + 3) ws [].
Definition round_keys (key : bytes) : list bytes :=
  let ws := expand 52 (key_words key) in map (round_key ws) (seq 0 15).

(** Cipher and inverse cipher for round keys k0, middle ones, and the last *)
Definition aes_round (s k : bytes) : bytes := xor_bytes (mix_columns (shift_rows (sub_bytes s))) k.
Definition aes_inv_round (s k : bytes) : bytes :=
  inv_sub_bytes (inv_shift_rows (inv_mix_columns (xor_bytes s k))).
Definition aes_cipher (k0 : bytes) (mid : list bytes) (kn : bytes) (s : bytes) : bytes :=
  xor_bytes (shift_rows (sub_bytes (fold_left aes_round mid (xor_bytes s k0)))) kn.
Definition aes_inv_cipher (k0 : bytes) (mid : list bytes) (kn : bytes) (s : bytes) : bytes :=
  xor_bytes (fold_left aes_inv_round (rev mid)
    (inv_sub_bytes (inv_shift_rows (xor_bytes s kn)))) k0.
Definition aes_with (f : bytes -> list bytes -> bytes -> bytes -> bytes) (key b : bytes) : bytes :=
  let ks := round_keys key in f (nth 0 ks []) (firstn 13 (skipn 1 ks)) (nth 14 ks []) b.
Definition aes_encrypt (key b : bytes) : bytes := aes_with aes_cipher key b.
Definition aes_decrypt (key b : bytes) : bytes := aes_with aes_inv_cipher key b.

(** Test against FIPS 197, C.3 (a test of the transcription, not a proof). *)
Goal True.
  let b := eval vm_compute in
    (aes_encrypt (map Z.of_nat (seq 0 32)) (map (fun i => 17 * Z.of_nat i) (seq 0 16))) in
  unify b [0x8e; 0xa2; 0xb7; 0xca; 0x51; 0x67; 0x45; 0xbf; 0xea; 0xfc; 0x49; 0x90; 0x4b; 0x49; 0x60; 0x89].
  exact I.
Qed.
