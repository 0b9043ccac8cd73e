(** Property C74: what the blocks of ciphertexts tell about the messages.  Statements; the proofs are in
    [PropCbcLemmas].  A ciphertext is a sequence of 16-byte blocks: blocks 0 and 1 are the salt, block 2 the IV, and
    block 3 + i belongs to block i of the message.  [block_at b i] is block i, [xors] the xor of two strings. *)
From Coq Require Import List ZArith.
From Verif Require Import GoBase FieldModel FieldSpec Fp Curve BasePoint GroupModel GroupSpec ApiModel ApiSpec PadSpec CipherSpec
  PropSigLemmas PropCipherLemmas PropCbcLemmas.
Import ListNotations.
Open Scope Z_scope.

(** Two ciphertexts between the same parties with the same salt (or one ciphertext, taken twice): two blocks are equal
    exactly when the xor of the message blocks is the xor of the ciphertext blocks before. *)
Theorem C74_equal_blocks : forall H, hash_ok 64 H -> forall G, hash1_ok 32 G -> forall E D, cipher_ok E D ->
  forall k spub rpriv rpub P src1 m1 out1 rest1 src2 m2 out2 rest2 i j,
  wf_bytes (pk_raw k) -> wf_bytes rpub -> length rpub = 32%nat -> denotes rpub P ->
  wf_bytes src1 -> wf_bytes m1 -> wf_bytes src2 -> wf_bytes m2 ->
  encrypt H G E (new_block_cipher (KeyPair (Some k) spub) (KeyPair rpriv rpub)) src1 m1 = Ok (out1, rest1) ->
  encrypt H G E (new_block_cipher (KeyPair (Some k) spub) (KeyPair rpriv rpub)) src2 m2 = Ok (out2, rest2) ->
  firstn 32 out1 = firstn 32 out2 -> (16 * i + 16 <= length m1)%nat -> (16 * j + 16 <= length m2)%nat ->
  (block_at out1 (3 + i) = block_at out2 (3 + j) <->
   xors (block_at m1 i) (block_at m2 j) = xors (block_at out1 (2 + i)) (block_at out2 (2 + j))).
Proof. exact encrypt_blocks. Qed.
(** If the random bytes repeat, the ciphertexts agree in their first n blocks exactly as the messages do, *)
Theorem C74_repeated_randomness : forall H, hash_ok 64 H -> forall G, hash1_ok 32 G -> forall E D, cipher_ok E D ->
  forall k spub rpriv rpub P src m1 out1 rest1 m2 out2 rest2 n,
  wf_bytes (pk_raw k) -> wf_bytes rpub -> length rpub = 32%nat -> denotes rpub P ->
  wf_bytes src -> wf_bytes m1 -> wf_bytes m2 ->
  encrypt H G E (new_block_cipher (KeyPair (Some k) spub) (KeyPair rpriv rpub)) src m1 = Ok (out1, rest1) ->
  encrypt H G E (new_block_cipher (KeyPair (Some k) spub) (KeyPair rpriv rpub)) src m2 = Ok (out2, rest2) ->
  (16 * n <= length m1)%nat -> (16 * n <= length m2)%nat ->
  (firstn (48 + 16 * n) out1 = firstn (48 + 16 * n) out2 <-> firstn (16 * n) m1 = firstn (16 * n) m2).
Proof. exact encrypt_prefix. Qed.
(** and are equal exactly for equal messages. *)
Theorem C74_repeated_randomness_whole : forall H, hash_ok 64 H -> forall G, hash1_ok 32 G -> forall E D, cipher_ok E D ->
  forall k spub rpriv rpub P src m1 out1 rest1 m2 out2 rest2,
  wf_bytes (pk_raw k) -> wf_bytes rpub -> length rpub = 32%nat -> denotes rpub P ->
  wf_bytes src -> wf_bytes m1 -> wf_bytes m2 ->
  encrypt H G E (new_block_cipher (KeyPair (Some k) spub) (KeyPair rpriv rpub)) src m1 = Ok (out1, rest1) ->
  encrypt H G E (new_block_cipher (KeyPair (Some k) spub) (KeyPair rpriv rpub)) src m2 = Ok (out2, rest2) ->
  (out1 = out2 <-> m1 = m2).
Proof. exact encrypt_injective. Qed.
(** The same for whatever Decrypt accepts, made by Encrypt or put together by somebody else: a block of the message
    depends on its block of the ciphertext and the one before only, wherever the two are moved. *)
Theorem C74_moved_blocks : forall H, hash_ok 64 H -> forall G, hash1_ok 32 G -> forall E D, cipher_ok E D ->
  forall k rpub spriv spub P input1 m1 input2 m2 i j,
  wf_bytes (pk_raw k) -> length rpub = 32%nat -> wf_bytes spub -> length spub = 32%nat -> denotes spub P ->
  wf_bytes input1 -> wf_bytes input2 ->
  decrypt H G D (new_block_cipher (KeyPair spriv spub) (KeyPair (Some k) rpub)) input1 = Ok m1 ->
  decrypt H G D (new_block_cipher (KeyPair spriv spub) (KeyPair (Some k) rpub)) input2 = Ok m2 ->
  firstn 32 input1 = firstn 32 input2 -> (16 * i + 16 <= length m1)%nat -> (16 * j + 16 <= length m2)%nat ->
  (block_at input1 (3 + i) = block_at input2 (3 + j) <->
   xors (block_at m1 i) (block_at m2 j) = xors (block_at input1 (2 + i)) (block_at input2 (2 + j))).
Proof. exact decrypt_blocks. Qed.
(** two messages that agree in the first block only, encrypted with the same random bytes *)
Example C74_nonvacuous : hash_ok 64 H7 /\ hash1_ok 32 G7 /\ cipher_ok Ex Ex /\
  exists k1 k2 b1 b2 P1 P2 src m1 m2 out1 out2 rest, wf_bytes (pk_raw k1) /\ wf_bytes (pk_raw k2) /\
  wf_bytes b1 /\ length b1 = 32%nat /\ denotes b1 P1 /\ wf_bytes b2 /\ length b2 = 32%nat /\ denotes b2 P2 /\
  wf_bytes src /\ wf_bytes m1 /\ wf_bytes m2 /\ (32 <= length m1)%nat /\ (32 <= length m2)%nat /\
  m1 <> m2 /\ firstn 16 m1 = firstn 16 m2 /\ firstn 32 m1 <> firstn 32 m2 /\
  encrypt H7 G7 Ex (new_block_cipher (KeyPair (Some k1) b1) (KeyPair (Some k2) b2)) src m1 = Ok (out1, rest) /\
  encrypt H7 G7 Ex (new_block_cipher (KeyPair (Some k1) b1) (KeyPair (Some k2) b2)) src m2 = Ok (out2, rest) /\
  wf_bytes out1 /\ wf_bytes out2 /\ firstn 32 out1 = firstn 32 out2 /\
  decrypt H7 G7 Ex (new_block_cipher (KeyPair (Some k1) b1) (KeyPair (Some k2) b2)) out1 = Ok m1 /\
  decrypt H7 G7 Ex (new_block_cipher (KeyPair (Some k1) b1) (KeyPair (Some k2) b2)) out2 = Ok m2.
Proof. exact ex_blocks. Qed.

Print Assumptions C74_equal_blocks.
Print Assumptions C74_repeated_randomness.
Print Assumptions C74_repeated_randomness_whole.
Print Assumptions C74_moved_blocks.
