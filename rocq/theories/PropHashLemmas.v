(** Proofs for [PropHash]. *)
From Coq Require Import List ZArith Lia Bool.
From Verif Require Import GoBase GroupModel HashModel HashSpec HashProofs ApiModel ApiSpec.
Import ListNotations.
Open Scope Z_scope.

Lemma sha3_512_parts : forall parts,
  HashesSha3_512 parts = Ok (sponge_hash keccak_f 72 0x06 64 (concat parts)).
Proof. intros. apply hash_parts_spec; lia. Qed.
Lemma sha3_256_one : forall b, HashesSha3_256 b = Ok (sponge_hash keccak_f 136 0x06 32 b).
Proof. intros. apply hash_one_spec; lia. Qed.
Lemma keccak_256_one : forall b, HashesKeccak_256 b = Ok (sponge_hash keccak_f 136 0x01 32 b).
Proof. intros. apply hash_one_spec; lia. Qed.
Lemma boundary : forall p q, concat p = concat q -> HashesSha3_512 p = HashesSha3_512 q.
Proof. intros p q E. rewrite !sha3_512_parts, E. reflexivity. Qed.
Lemma sizes : forall parts b,
  (exists d, HashesSha3_512 parts = Ok d /\ length d = 64%nat /\ wf_bytes d) /\
  (exists d, HashesSha3_256 b = Ok d /\ length d = 32%nat /\ wf_bytes d) /\
  (exists d, HashesKeccak_256 b = Ok d /\ length d = 32%nat /\ wf_bytes d).
Proof.
  intros. rewrite sha3_512_parts, sha3_256_one, keccak_256_one.
  split; [|split]; (eexists; split; [reflexivity|]);
  (apply sponge_hash_ok; first [exact keccak_f_ok|lia]).
Qed.
Lemma sha3_512_hash_ok : hash_ok 64 sha3_512.
Proof.
  intros parts _. unfold sha3_512. rewrite sha3_512_parts. cbn [ok_bytes].
  apply sponge_hash_ok; first [exact keccak_f_ok|lia].
Qed.
Lemma sha3_256_hash_ok : hash1_ok 32 sha3_256.
Proof.
  intros b _. unfold sha3_256. rewrite sha3_256_one. cbn [ok_bytes].
  apply sponge_hash_ok; first [exact keccak_f_ok|lia].
Qed.
(** any permutation and rate: the object-level statement *)
Lemma any_sponge : forall f rate ds outlen, (0 < rate)%nat -> (outlen <= rate)%nat -> forall parts,
  hash_parts f rate ds outlen parts = Ok (sponge_hash f rate ds outlen (concat parts)).
Proof. intros. apply hash_parts_spec; lia. Qed.
