(** Property C55: SHA-256 and RIPEMD-160.  Statements; the proofs are in [MdProofs], [PropMdLemmas].
    [md_spec] (MdSpec) is the one-shot iterated hash of a single message. *)
From Coq Require Import List ZArith Lia Bool.
From Verif Require Import GoBase HashSpec MdModel MdSpec PropMdLemmas.
Import ListNotations.
Open Scope Z_scope.

(** C55.  HashesSha_256 and HashesRipemd160 never fail or panic and compute the iterated hash of the
    padded message, for messages of every length. *)
Theorem C55_sha256 : forall b, HashesSha_256 b = Ok (md_spec sha256_block sha256_init put_be be_out b).
Proof. exact sha256_ok. Qed.
Theorem C55_ripemd160 : forall b, HashesRipemd160 b = Ok (md_spec rmd_block rmd_init put_le le_out b).
Proof. exact ripemd_ok. Qed.
Theorem C55_sizes : forall b, (exists d, HashesSha_256 b = Ok d /\ length d = 32%nat /\ wf_bytes d) /\
  (exists d, HashesRipemd160 b = Ok d /\ length d = 20%nat /\ wf_bytes d).
Proof. exact md_sizes. Qed.
(** The buffered object is right for every block function and every way of cutting the message *)
Theorem C55_any_parts : forall f h0 put out, (forall v, length (put v) = 8%nat) -> forall ps,
  md_sum f put out (fold_left (md_write f) ps (md_new h0)) = Ok (md_spec f h0 put out (concat ps)).
Proof. exact any_md. Qed.
(** SHA-256 (unlike the SHA-3 functions used for signing) can be extended: from the digest and the
    length of a message m alone one computes the digest of m, its padding and any suffix. *)
Theorem C55_length_extension : forall m s d, HashesSha_256 m = Ok d ->
  let p := md_padded put_be m in
  let n := Z.of_nat (length p + length s) in
  let tail := s ++ [0x80] ++ repeat 0 (Z.to_nat ((55 - n) mod 64)) ++ put_be ((8 * n) mod 2 ^ 64) in
  HashesSha_256 (p ++ s) = Ok (be_out (fold_left sha256_block (blocks 64 (length tail / 64) tail) (words be32 8 d))).
Proof. exact length_extension. Qed.
Example C55_nonvacuous : (exists d, HashesSha_256 [97; 98; 99] = Ok d) /\ forall v, length (put_be v) = 8%nat.
Proof. exact (conj (ex_intro _ _ (sha256_ok [97; 98; 99])) put_be_8). Qed.

Print Assumptions C55_sha256.
Print Assumptions C55_ripemd160.
Print Assumptions C55_sizes.
Print Assumptions C55_any_parts.
Print Assumptions C55_length_extension.
