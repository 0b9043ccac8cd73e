(** Specification of an iterated (Merkle-Damgard) hash on one message (FIPS 180-4 section 5.1.1 and
    6.2, RIPEMD-160): pad, cut into 64-byte blocks, fold the block function over them.  Nothing here
    mentions buffers, counters or partial writes. *)
From Verif Require Import GoBase HashSpec.
Open Scope Z_scope.

(** the message, a byte 0x80, the fewest zeros that leave 8 bytes in the last block, the number of
    message bits modulo 2^64 *)
Definition md_padded (put_len : Z -> bytes) (m : bytes) : bytes :=
  let n := Z.of_nat (length m) in
  m ++ [0x80] ++ repeat 0 (Z.to_nat ((55 - n) mod 64)) ++ put_len ((8 * n) mod 2 ^ 64).
Definition md_spec (f : list Z -> bytes -> list Z) (h0 : list Z) (put_len : Z -> bytes) (out : list Z -> bytes) (m : bytes) : bytes :=
  let p := md_padded put_len m in
  out (fold_left f (blocks 64 (length p / 64) p) h0).
