(** Property C67: the points of the curve, and what this means for shared keys.  Statements; the proofs
    are in [GroupOrder] and [PropOrderLemmas].  [point] is a pair of coordinates with
    y^2 - x^2 = 1 + d x^2 y^2, [padd] the addition law of C21, [zmul n P] the n-fold sum of P. *)
From Coq Require Import List ZArith.
From Verif Require Import GoBase FieldModel FieldSpec Fp Curve BasePoint GroupModel GroupSpec
  ApiModel ApiSpec PropSigLemmas PropSecLemmas GroupOrder PropOrderLemmas.
Import ListNotations.
Open Scope Z_scope.

(** there are 8 q points *)
Theorem C67_number_of_points : exists l : list point, NoDup l /\ (forall P, In P l) /\ Z.of_nat (length l) = 8 * q25519.
Proof. exact number_of_points. Qed.
(** each is aB + jT, for one a below q and one j below 8; T is a point of order 8 *)
Theorem C67_structure : exists T, (forall n, zmul n T = pzero <-> (8 | n)) /\
  forall P, exists a j, 0 <= a < q25519 /\ 0 <= j < 8 /\ P = padd (zmul a Bpt) (zmul j T) /\
    forall a' j', 0 <= a' < q25519 -> 0 <= j' < 8 -> P = padd (zmul a' Bpt) (zmul j' T) -> a' = a /\ j' = j.
Proof. exact structure. Qed.
Theorem C67_exponent : forall P, zmul (8 * q25519) P = pzero.
Proof. exact exponent_8q. Qed.
(** the points whose order divides q are the multiples of the base point *)
Theorem C67_subgroup : forall P, zmul q25519 P = pzero <-> exists a, 0 <= a < q25519 /\ P = zmul a Bpt.
Proof. exact prime_part. Qed.
(** Two public keys give the same shared keys (with one private key, hence with all of them) exactly when they
    differ by a point of order dividing 8. *)
Theorem C67_same_shared_keys : forall H, hash_ok 64 H -> forall k pub1 pub2 P1 P2 salt,
  wf_bytes (pk_raw k) -> wf_bytes pub1 -> wf_bytes pub2 -> length pub1 = 32%nat -> length pub2 = 32%nat ->
  length salt = 32%nat -> denotes pub1 P1 -> denotes pub2 P2 ->
  ((forall G, get_shared_key H G 32 (Some k) pub1 salt = get_shared_key H G 32 (Some k) pub2 salt) <->
   zmul 8 P1 = zmul 8 P2).
Proof. exact same_shared_keys. Qed.
(** the shared key is a function of the salt alone exactly for the keys of C51 *)
Theorem C67_public_shared_key_iff : forall H, hash_ok 64 H -> forall k pub P salt,
  wf_bytes (pk_raw k) -> wf_bytes pub -> length pub = 32%nat -> length salt = 32%nat -> denotes pub P ->
  ((forall G, get_shared_key H G 32 (Some k) pub salt = Ok (G (xor_bytes (1 :: all_zero 31) salt))) <-> zmul 8 P = pzero).
Proof. exact public_shared_key. Qed.
(** whatever the public key, the hashed point is one of the q multiples of the base point; it is the neutral
    one for the keys of C51 only *)
Theorem C67_shared_point : forall H, hash_ok 64 H -> forall G k pub P salt,
  wf_bytes (pk_raw k) -> wf_bytes pub -> length pub = 32%nat -> length salt = 32%nat -> denotes pub P ->
  exists c, 0 <= c < q25519 /\ (c = 0 <-> zmul 8 P = pzero) /\
    get_shared_key H G 32 (Some k) pub salt = Ok (G (xor_bytes (enc_point (zmul c Bpt)) salt)).
Proof. exact shared_subgroup. Qed.
(** never for a derived key: what is hashed is not the encoding of the neutral element *)
Theorem C67_derived_keys : forall H, hash_ok 64 H -> forall k1 k2 pub salt,
  wf_bytes (pk_raw k1) -> wf_bytes (pk_raw k2) -> length salt = 32%nat -> derive_public_key H k2 = Ok pub ->
  get_shared_key H (fun x => x) 32 (Some k1) pub salt <> Ok (xor_bytes (1 :: all_zero 31) salt).
Proof. exact derived_shared. Qed.
(** a key that is neither of small order nor a multiple of the base point; two keys differing by a point of order 8 *)
Example C67_nonvacuous : (exists pub P, wf_bytes pub /\ length pub = 32%nat /\ denotes pub P /\ zmul 8 P <> pzero /\ zmul q25519 P <> pzero) /\
  exists pub1 pub2 P T, wf_bytes pub1 /\ wf_bytes pub2 /\ length pub1 = 32%nat /\ length pub2 = 32%nat /\
  denotes pub1 P /\ denotes pub2 (padd P T) /\ zmul 8 T = pzero /\ T <> pzero /\ pub1 <> pub2 /\ zmul 4 T <> pzero.
Proof. exact (conj ex_mixed ex_torsion). Qed.

Print Assumptions C67_number_of_points.
Print Assumptions C67_structure.
Print Assumptions C67_exponent.
Print Assumptions C67_subgroup.
Print Assumptions C67_same_shared_keys.
Print Assumptions C67_public_shared_key_iff.
Print Assumptions C67_shared_point.
Print Assumptions C67_derived_keys.
