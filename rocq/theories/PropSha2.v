(** Property C86: HashesSha_256 is SHA-256.  Statements; the proofs are in [PropSha2Lemmas].  [is_SHA256] ([Sha2Spec])
    is the standard's definition of a message digest, on bit strings; [msb_bits] reads bytes as bits. *)
From Coq Require Import List ZArith Bool Lia.
From Verif Require Import GoBase MdModel Sha2Spec PropSha2Lemmas.
Import ListNotations.
Open Scope Z_scope.

(** For every message the standard allows, HashesSha_256 returns 32 bytes, and their bits are the one and only bit
    string that the standard accepts as the message's digest. *)
Theorem C86_sha256 : forall m, wf_bytes m -> 8 * Z.of_nat (length m) < 2 ^ 64 ->
  exists d, HashesSha_256 m = Ok d /\ wf_bytes d /\ length d = 32%nat /\ forall D, is_SHA256 (msb_bits m) D <-> D = msb_bits d.
Proof. exact sha256_iff. Qed.
(** The bits say which bytes. *)
Theorem C86_bits : forall a b, wf_bytes a -> wf_bytes b -> msb_bits a = msb_bits b -> a = b.
Proof. exact msb_inj. Qed.
(** The constants are determined by their description. *)
Theorem C86_constants : (forall t p q, prime_number t p -> prime_number t q -> p = q) /\
  (forall n p c d, 0 <= n -> root_fraction n p c -> root_fraction n p d -> c = d).
Proof. exact (conj prime_number_unique root_fraction_unique). Qed.
Example C86_nonvacuous : wf_bytes [97; 98; 99] /\ 8 * Z.of_nat (length [97; 98; 99]) < 2 ^ 64 /\
  prime_number 3 7 /\ root_fraction 2 2 0x6a09e667 /\ msb_bits [97] = [false; true; true; false; false; false; false; true].
Proof.
  split; [repeat constructor; lia|]. split; [reflexivity|]. split; [apply (prime_number_nth 3); lia|]. split; [|reflexivity].
  apply root_check_ok. reflexivity.
Qed.

Print Assumptions C86_sha256.
Print Assumptions C86_bits.
Print Assumptions C86_constants.
