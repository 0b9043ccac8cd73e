(** The other two hash functions of crypto.go: SHA-256 (crypto/sha256 of the Go standard library) and
    RIPEMD-160 (golang.org/x/crypto/ripemd160), with their incremental objects.  Neither source is in
    /repo, so this part is a contract: sha256.go [digest], [Write], [Sum]/[checkSum], sha256block.go
    [blockGeneric]; ripemd160.go [digest], [Write], [Sum], ripemd160block.go [_Block]. *)
From Verif Require Import GoBase.
Open Scope Z_scope.

Definition w32 (x : Z) : Z := x mod 2 ^ 32.
Definition rotl32 (x n : Z) : Z := Z.lor (w32 (Z.shiftl x n)) (Z.shiftr x (32 - n)).
Definition rotr32 (x n : Z) : Z := rotl32 x (32 - n).
Definition not32 (x : Z) : Z := Z.lxor x (2 ^ 32 - 1).
Definition word (l : list Z) (i : nat) : Z := nth i l 0.
(** the 16 words of a block *)
Fixpoint words (read : bytes -> Z) (n : nat) (p : bytes) : list Z :=
  match n with O => [] | S k => read (firstn 4 p) :: words read k (skipn 4 p) end.
Definition be32 (b : bytes) : Z := le_val (rev b).

(** ** SHA-256 block function *)
Definition sha256_k : list Z :=
  [0x428a2f98; 0x71374491; 0xb5c0fbcf; 0xe9b5dba5; 0x3956c25b; 0x59f111f1; 0x923f82a4; 0xab1c5ed5;
   0xd807aa98; 0x12835b01; 0x243185be; 0x550c7dc3; 0x72be5d74; 0x80deb1fe; 0x9bdc06a7; 0xc19bf174;
   0xe49b69c1; 0xefbe4786; 0x0fc19dc6; 0x240ca1cc; 0x2de92c6f; 0x4a7484aa; 0x5cb0a9dc; 0x76f988da;
   0x983e5152; 0xa831c66d; 0xb00327c8; 0xbf597fc7; 0xc6e00bf3; 0xd5a79147; 0x06ca6351; 0x14292967;
   0x27b70a85; 0x2e1b2138; 0x4d2c6dfc; 0x53380d13; 0x650a7354; 0x766a0abb; 0x81c2c92e; 0x92722c85;
   0xa2bfe8a1; 0xa81a664b; 0xc24b8b70; 0xc76c51a3; 0xd192e819; 0xd6990624; 0xf40e3585; 0x106aa070;
   0x19a4c116; 0x1e376c08; 0x2748774c; 0x34b0bcb5; 0x391c0cb3; 0x4ed8aa4a; 0x5b9cca4f; 0x682e6ff3;
   0x748f82ee; 0x78a5636f; 0x84c87814; 0x8cc70208; 0x90befffa; 0xa4506ceb; 0xbef9a3f7; 0xc67178f2].
Definition sha256_init : list Z :=
  [0x6a09e667; 0xbb67ae85; 0x3c6ef372; 0xa54ff53a; 0x510e527f; 0x9b05688c; 0x1f83d9ab; 0x5be0cd19].
(** the message schedule: w[16..63] appended one by one *)
Definition sha256_next (w : list Z) : Z :=
  let i := length w in
  let v1 := word w (i - 2) in
  let t1 := Z.lxor (Z.lxor (rotr32 v1 17) (rotr32 v1 19)) (Z.shiftr v1 10) in
  let v2 := word w (i - 15) in
  let t2 := Z.lxor (Z.lxor (rotr32 v2 7) (rotr32 v2 18)) (Z.shiftr v2 3) in
  w32 (t1 + word w (i - 7) + t2 + word w (i - 16)).
Fixpoint sha256_schedule (n : nat) (w : list Z) : list Z :=
  match n with O => w | S k => sha256_schedule k (w ++ [sha256_next w]) end.
Definition sha256_round (s : list Z) (kw : Z * Z) : list Z :=
  match s with
  | [a; b; c; d; e; f; g; h] =>
    let t1 := w32 (h + Z.lxor (Z.lxor (rotr32 e 6) (rotr32 e 11)) (rotr32 e 25)
                   + Z.lxor (Z.land e f) (Z.land (not32 e) g) + fst kw + snd kw) in
    let t2 := w32 (Z.lxor (Z.lxor (rotr32 a 2) (rotr32 a 13)) (rotr32 a 22)
                   + Z.lxor (Z.lxor (Z.land a b) (Z.land a c)) (Z.land b c)) in
    [w32 (t1 + t2); a; b; c; w32 (d + t1); e; f; g]
  | _ => s
  end.
Definition add_words (a b : list Z) : list Z := map (fun p => w32 (fst p + snd p)) (combine a b).
Definition sha256_block (h : list Z) (p : bytes) : list Z :=
  add_words h (fold_left sha256_round (combine sha256_k (sha256_schedule 48 (words be32 16 p))) h).

(** ** RIPEMD-160 block function: two lines of 80 steps *)
Definition rmd_init : list Z := [0x67452301; 0xefcdab89; 0x98badcfe; 0x10325476; 0xc3d2e1f0].
Definition rmd_n : list nat := [
  0;1;2;3;4;5;6;7;8;9;10;11;12;13;14;15; 7;4;13;1;10;6;15;3;12;0;9;5;2;14;11;8;
  3;10;14;4;9;15;8;1;2;7;0;6;13;11;5;12; 1;9;11;10;0;8;12;4;13;3;7;15;14;5;6;2;
  4;0;5;9;7;12;2;10;14;1;3;8;11;6;15;13]%nat.
Definition rmd_r : list Z := [
  11;14;15;12;5;8;7;9;11;13;14;15;6;7;9;8; 7;6;8;13;11;9;7;15;7;12;15;9;11;7;13;12;
  11;13;6;7;14;9;13;15;14;8;13;6;5;12;7;5; 11;12;14;15;14;15;9;8;9;14;5;6;8;6;5;12;
  9;15;5;11;6;8;13;12;5;12;13;14;11;8;5;6].
Definition rmd_n' : list nat := [
  5;14;7;0;9;2;11;4;13;6;15;8;1;10;3;12; 6;11;3;7;0;13;5;10;14;15;8;12;4;9;1;2;
  15;5;1;3;7;14;6;9;11;8;12;2;10;0;4;13; 8;6;4;1;3;11;15;0;5;12;2;13;9;7;10;14;
  12;15;10;4;1;5;8;7;6;2;13;14;0;3;9;11]%nat.
Definition rmd_r' : list Z := [
  8;9;9;11;13;15;15;5;7;7;8;11;14;14;12;6; 9;13;15;7;12;8;9;11;7;7;12;7;6;15;13;11;
  9;7;15;11;8;6;6;14;12;13;5;14;13;13;7;5; 15;5;8;11;14;14;6;14;6;9;12;9;12;5;15;8;
  8;5;12;9;12;5;14;6;8;13;6;5;15;13;11;11].
Definition rmd_f (j : nat) (b c d : Z) : Z :=
  match j with
  | 0%nat => Z.lxor (Z.lxor b c) d
  | 1%nat => Z.lor (Z.land b c) (Z.land (not32 b) d)
  | 2%nat => Z.lxor (Z.lor b (not32 c)) d
  | 3%nat => Z.lor (Z.land b d) (Z.land c (not32 d))
  | _ => Z.lxor b (Z.lor c (not32 d))
  end.
Definition rmd_k : list Z := [0; 0x5a827999; 0x6ed9eba1; 0x8f1bbcdc; 0xa953fd4e].
Definition rmd_k' : list Z := [0x50a28be6; 0x5c4dd124; 0x6d703ef3; 0x7a6d76e9; 0].
(** one step with function number j, constant k, word x and rotation s *)
Definition rmd_step (st : list Z) (q : (nat * Z) * (Z * Z)) : list Z :=
  match st with
  | [a; b; c; d; e] =>
    let '((j, k), (x, s)) := q in
    let alpha := w32 (a + rmd_f j b c d + x + k) in
    [e; w32 (rotl32 alpha s + e); b; rotl32 c 10; d]
  | _ => st
  end.
Definition rmd_line (fs : list nat) (ks : list Z) (ns : list nat) (rs : list Z) (xs : list Z) (h : list Z) : list Z :=
  fold_left rmd_step
    (combine (flat_map (fun jk => repeat jk 16) (combine fs ks)) (combine (map (word xs) ns) rs)) h.
Definition rmd_block (h : list Z) (p : bytes) : list Z :=
  let xs := words le_val 16 p in
  let l := rmd_line [0; 1; 2; 3; 4]%nat rmd_k rmd_n rmd_r xs h in
  let r := rmd_line [4; 3; 2; 1; 0]%nat rmd_k' rmd_n' rmd_r' xs h in
  map (fun i => w32 (word h ((i + 1) mod 5) + word l ((i + 2) mod 5) + word r ((i + 3) mod 5))) (seq 0 5).

(** ** The incremental object: chaining words h, buffer x (of length nx), byte count *)
Record md : Set := Md { md_h : list Z; md_x : bytes; md_len : Z }.
Section Md.
Variable f : list Z -> bytes -> list Z.     (* the block function *)
Variable h0 : list Z.
Variable put_len : Z -> bytes.              (* 8 bytes of the bit count *)
Variable out : list Z -> bytes.

(** [New()], [Reset] *)
Definition md_new : md := Md h0 [] 0.
(** [block(d, p)]: the whole blocks of p *)
Fixpoint md_blocks (n : nat) (h : list Z) (p : bytes) : list Z :=
  match n with O => h | S k => md_blocks k (f h (firstn 64 p)) (skipn 64 p) end.
(** [Write], which returns no error: fill a partly filled buffer, ... *)
Definition md_fill (s : md) (p : bytes) : list Z * bytes * bytes :=
  if Nat.ltb 0 (length (md_x s)) then
    let n := Nat.min (64 - length (md_x s)) (length p) in
    let x := md_x s ++ firstn n p in
    if Nat.eqb (length x) 64 then (f (md_h s) x, [], skipn n p) else (md_h s, x, skipn n p)
  else (md_h s, md_x s, p).
(** ... then process whole blocks, ... *)
Definition md_whole (h : list Z) (p : bytes) : list Z * bytes :=
  if Nat.leb 64 (length p) then
    let n := (length p / 64)%nat in (md_blocks n h (firstn (64 * n) p), skipn (64 * n) p)
  else (h, p).
(** ... then keep the rest in the buffer *)
Definition md_write (s : md) (p : bytes) : md :=
  let len := (md_len s + Z.of_nat (length p)) mod 2 ^ 64 in
  let '(h, x, p) := md_fill s p in
  let '(h, p) := md_whole h p in
  Md h (if Nat.ltb 0 (length p) then p else x) len.
(** [Sum(nil)] on a copy: 0x80 and zeros up to 56 modulo 64, then the bit count; panics if a partial
    block is left *)
Definition md_sum (s : md) : res bytes :=
  let len := md_len s in
  let k := (if len mod 64 <? 56 then 56 - len mod 64 else 64 + 56 - len mod 64) in
  let s1 := md_write s (firstn (Z.to_nat k) (0x80 :: all_zero 63)) in
  let s2 := md_write s1 (put_len ((8 * len) mod 2 ^ 64)) in
  if negb (Nat.eqb (length (md_x s2)) 0) then Panic else Ok (out (md_h s2)).
(** [hash.Write(b); hash.Sum(nil)] *)
Definition md_hash (b : bytes) : res bytes := md_sum (md_write md_new b).
End Md.

(** the digests: words big endian for SHA-256, little endian for RIPEMD-160 *)
Definition be_out (h : list Z) : bytes := flat_map (fun v => rev (le_bytes 4 v)) h.
Definition le_out (h : list Z) : bytes := flat_map (le_bytes 4) h.
Definition put_be (v : Z) : bytes := rev (le_bytes 8 v).
Definition put_le (v : Z) : bytes := le_bytes 8 v.
(** [HashesSha_256], crypto.go:16-24 *)
Definition HashesSha_256 (b : bytes) : res bytes := md_hash sha256_block sha256_init put_be be_out b.
(** [HashesRipemd160], crypto.go:64-73 *)
Definition HashesRipemd160 (b : bytes) : res bytes := md_hash rmd_block rmd_init put_le le_out b.
Goal True.
  let v := eval vm_compute in (match HashesSha_256 [97; 98; 99] with Ok d => le_val (rev d) | _ => 0 end) in
  unify v 0xba7816bf8f01cfea414140de5dae2223b00361a396177a9cb410ff61f20015ad.
  let v := eval vm_compute in (match HashesSha_256 (map Z.of_nat (seq 0 150)) with Ok d => le_val (rev d) | _ => 0 end) in
  unify v 0xf22b2e614e92d6453612b707385038300293d2cc292b148bc5335754b5ea30fd.
  let v := eval vm_compute in (match HashesRipemd160 [97; 98; 99] with Ok d => le_val (rev d) | _ => 0 end) in
  unify v 0x8eb208f7e05d987a9b044a8e98c6b087f15a0bfc.
  let v := eval vm_compute in (match HashesRipemd160 (map Z.of_nat (seq 0 150)) with Ok d => le_val (rev d) | _ => 0 end) in
  unify v 0x3179e182c03911bce24334f8e2aaa13d3a5b0e17.
  let v := eval vm_compute in (match HashesSha_256 [] with Ok d => le_val (rev d) | _ => 0 end) in
  unify v 0xe3b0c44298fc1c149afbf4c8996fb92427ae41e4649b934ca495991b7852b855.
  let v := eval vm_compute in (match HashesRipemd160 (map Z.of_nat (seq 0 56)) with Ok d => le_val (rev d) | _ => 0 end) in
  unify v 0xebdd79cfd4fd9949ef8089673d2620427f487cfb.
  exact I.
Qed.
