(** Property C85: the block cipher is AES-256 as FIPS 197 defines it.  Statements; the proofs are in [PropAesLemmas].
    [Cipher], [key_schedule], [gf_mul] are in [AesSpec]; [block b]: b is 16 bytes. *)
From Coq Require Import List ZArith Bool Lia.
From Verif Require Import GoBase ApiSpec AesModel AesSpec PropAesLemmas.
Import ListNotations.
Open Scope Z_scope.

(** Every key has a key schedule, and a block is encrypted by the cipher of the standard with it. *)
Theorem C85_schedule : forall key, wf_bytes key -> length key = 32%nat -> exists w, key_schedule key w.
Proof. exact schedule_exists. Qed.
Theorem C85_encrypt : forall key b w, wf_bytes key -> length key = 32%nat -> block b -> key_schedule key w ->
  aes_encrypt key b = bytes_of (Cipher w (state_of b)).
Proof. exact fips_encrypt. Qed.
(** A block is decrypted to the one block the cipher maps to it. *)
Theorem C85_decrypt : forall key b w, wf_bytes key -> length key = 32%nat -> block b -> key_schedule key w ->
  block (aes_decrypt key b) /\ bytes_of (Cipher w (state_of (aes_decrypt key b))) = b /\
  forall b', block b' -> bytes_of (Cipher w (state_of b')) = b -> b' = aes_decrypt key b.
Proof. exact fips_decrypt. Qed.
(** [gf_inv], from which the S-box is made, is the inverse in the field. *)
Theorem C85_inverse : forall b, is_byte b -> b <> 0 -> is_byte (gf_inv b) /\ gf_mul b (gf_inv b) = 1.
Proof. exact gf_inverse. Qed.
(** FIPS 197, 4.2: {57} . {83} = {c1}. *)
Example C85_nonvacuous : gf_mul 0x57 0x83 = 0xc1 /\ wf_bytes (repeat 7 32) /\ length (repeat 7 32) = 32%nat /\ block (repeat 9 16).
Proof.
  split; [reflexivity|]. assert (R : forall n x, 0 <= x < 256 -> wf_bytes (repeat x n)).
  { intros n x Hx. apply Forall_forall. intros y Hy. apply repeat_spec in Hy. now subst. }
  split; [apply R; lia|]. split; [reflexivity|]. split; [apply R; lia|reflexivity].
Qed.

Print Assumptions C85_schedule.
Print Assumptions C85_encrypt.
Print Assumptions C85_decrypt.
Print Assumptions C85_inverse.
