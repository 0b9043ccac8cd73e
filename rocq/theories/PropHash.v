(** Property C44: hashing in parts.  Statements; the proofs are in [HashProofs], [PropHashLemmas].
    [sponge_hash] (HashSpec) is the one-shot SHA-3 sponge on a single message. *)
From Coq Require Import List ZArith Lia Bool.
From Verif Require Import GoBase HashModel HashSpec ApiModel ApiSpec PropHashLemmas.
Import ListNotations.
Open Scope Z_scope.

(** C44.  Feeding the hash object part by part, with its internal buffer, gives the SHA3-512 of the
    concatenation; there is no error. *)
Theorem C44_parts : forall parts,
  HashesSha3_512 parts = Ok (sponge_hash keccak_f 72 0x06 64 (concat parts)).
Proof. exact sha3_512_parts. Qed.
(** Moving a boundary between parts, or adding empty parts, changes nothing. *)
Theorem C44_boundaries : forall p q, concat p = concat q -> HashesSha3_512 p = HashesSha3_512 q.
Proof. exact boundary. Qed.
(** The buffering is right for every permutation, rate and domain byte. *)
Theorem C44_any_sponge : forall f rate ds outlen, (0 < rate)%nat -> (outlen <= rate)%nat -> forall parts,
  hash_parts f rate ds outlen parts = Ok (sponge_hash f rate ds outlen (concat parts)).
Proof. exact any_sponge. Qed.
Theorem C44_one_part : forall b,
  HashesSha3_256 b = Ok (sponge_hash keccak_f 136 0x06 32 b) /\
  HashesKeccak_256 b = Ok (sponge_hash keccak_f 136 0x01 32 b).
Proof. exact (fun b => conj (sha3_256_one b) (keccak_256_one b)). Qed.
(** Output sizes; no call fails. *)
Theorem C44_sizes : forall parts b,
  (exists d, HashesSha3_512 parts = Ok d /\ length d = 64%nat /\ wf_bytes d) /\
  (exists d, HashesSha3_256 b = Ok d /\ length d = 32%nat /\ wf_bytes d) /\
  (exists d, HashesKeccak_256 b = Ok d /\ length d = 32%nat /\ wf_bytes d).
Proof. exact sizes. Qed.
(** So the hash functions of the library meet the hypotheses of the signature and cipher theorems. *)
Theorem C44_instances : hash_ok 64 sha3_512 /\ hash1_ok 32 sha3_256.
Proof. exact (conj sha3_512_hash_ok sha3_256_hash_ok). Qed.
Example C44_nonvacuous : concat [[1; 2]; []; [3]] = concat [[1]; [2; 3]] /\ [[1; 2]; []; [3]] <> [[1]; [2; 3]].
Proof. split; [reflexivity|discriminate]. Qed.

Print Assumptions C44_parts.
Print Assumptions C44_boundaries.
Print Assumptions C44_any_sponge.
Print Assumptions C44_one_part.
Print Assumptions C44_sizes.
Print Assumptions C44_instances.
