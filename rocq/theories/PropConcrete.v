(** The theorems of [PropSig] and [PropCipher] for the algorithms the library is linked with:
    SHA3-512, SHA3-256 and AES-256 ([HashModel], [AesModel]).  No hypothesis about hash or cipher
    is left. *)
From Coq Require Import List ZArith Lia Bool.
From Verif Require Import GoBase ApiModel ApiSpec HashModel AesModel AesProofs PropHashLemmas PropSig PropCipher.
Import ListNotations.
Open Scope Z_scope.

(** C32.  AES-256 meets the hypothesis of the cipher theorems. *)
Theorem C32_aes : cipher_ok aes_encrypt aes_decrypt.
Proof. exact aes_cipher_ok. Qed.
(** C01 for SHA3-512. *)
Theorem C01_library : forall k m kp sg, wf_bytes (pk_raw k) -> wf_bytes m ->
  new_key_pair sha3_512 (Some k) None = Ok kp -> sign sha3_512 kp m = Ok sg -> verify sha3_512 kp m sg = Ok true.
Proof. exact (C01_sign_then_verify sha3_512 sha3_512_hash_ok). Qed.
(** C32 for SHA3-512, SHA3-256 and AES-256. *)
Theorem C32_library : forall k1 k2 kp1 kp2 src m,
  wf_bytes (pk_raw k1) -> wf_bytes (pk_raw k2) -> wf_bytes src -> wf_bytes m ->
  new_key_pair sha3_512 (Some k1) None = Ok kp1 -> new_key_pair sha3_512 (Some k2) None = Ok kp2 ->
  (48 <= length src)%nat ->
  exists out rest, encrypt sha3_512 sha3_256 aes_encrypt (new_block_cipher kp1 kp2) src m = Ok (out, rest) /\
    decrypt sha3_512 sha3_256 aes_decrypt (new_block_cipher kp1 kp2) out = Ok m.
Proof.
  exact (C32_decrypt_encrypt sha3_512 sha3_512_hash_ok sha3_256 sha3_256_hash_ok aes_encrypt aes_decrypt aes_cipher_ok).
Qed.

Print Assumptions C32_aes.
Print Assumptions C01_library.
Print Assumptions C32_library.
