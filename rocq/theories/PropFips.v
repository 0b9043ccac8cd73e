(** Property C84: the SHA-3 functions of the library compute what FIPS 202 defines.  Statements; the proofs are in
    [PropFipsLemmas].  [SHA3_512], [SHA3_256], [Keccak_256] ([FipsSpec]) are the functions of the standard on bit
    strings; [bits_of] reads bytes as bits. *)
From Coq Require Import List ZArith Bool Lia.
From Verif Require Import GoBase HashModel FipsSpec PropFipsLemmas.
Import ListNotations.
Open Scope nat_scope.

(** HashesSha3_512 of any number of parts is SHA3-512 of their concatenation. *)
Theorem C84_sha3_512 : forall parts, Forall wf_bytes parts -> exists d, HashesSha3_512 parts = Ok d /\
  wf_bytes d /\ length d = 64 /\ bits_of d = SHA3_512 (bits_of (concat parts)).
Proof. exact fips_sha3_512. Qed.
(** HashesSha3_256 is SHA3-256 and HashesKeccak_256 is Keccak[512] without the suffix of SHA-3. *)
Theorem C84_256 : forall b, wf_bytes b ->
  (exists d, HashesSha3_256 b = Ok d /\ wf_bytes d /\ length d = 32 /\ bits_of d = SHA3_256 (bits_of b)) /\
  (exists d, HashesKeccak_256 b = Ok d /\ wf_bytes d /\ length d = 32 /\ bits_of d = Keccak_256 (bits_of b)).
Proof. exact fips_256. Qed.
(** The permutation is Keccak-p[1600, 24]. *)
Theorem C84_permutation : forall s, wf_bytes s -> length s = 200 -> bits_of (keccak_f s) = Keccak_p (bits_of s).
Proof. exact keccak_bits. Qed.
(** The bits say which bytes. *)
Theorem C84_bits : forall a b, wf_bytes a -> wf_bytes b -> bits_of a = bits_of b -> a = b.
Proof. exact bits_of_inj. Qed.
Example C84_nonvacuous : Forall wf_bytes [[97; 98]; []; [99]]%Z /\ wf_bytes (repeat 1%Z 200) /\ bits_of [97]%Z = [true; false; false; false; false; true; true; false].
Proof.
  split; [repeat constructor; lia|]. split; [|reflexivity]. apply Forall_forall. intros x Hx. apply repeat_spec in Hx. subst. split; lia.
Qed.

Print Assumptions C84_sha3_512.
Print Assumptions C84_256.
Print Assumptions C84_permutation.
Print Assumptions C84_bits.
