(** Property C87: HashesRipemd160 is RIPEMD-160.  Statements; the proofs are in [PropRipemdLemmas].  [is_RIPEMD160]
    ([RipemdSpec]) is the definition of a hash value in the function's specification. *)
From Coq Require Import List ZArith Bool Lia.
From Verif Require Import GoBase MdModel RipemdSpec PropRipemdLemmas.
Import ListNotations.
Open Scope Z_scope.

(** For every message of less than 2^64 bits, HashesRipemd160 returns the one and only byte string that the
    specification accepts as the message's hash value. *)
Theorem C87_ripemd160 : forall m, wf_bytes m -> 8 * Z.of_nat (length m) < 2 ^ 64 ->
  exists d, HashesRipemd160 m = Ok d /\ forall D, is_RIPEMD160 m D <-> D = d.
Proof. exact ripemd_iff. Qed.
(** The constants are determined by their description. *)
Theorem C87_constants : forall n p c d, 0 <= n -> scaled_root n p c -> scaled_root n p d -> c = d.
Proof. exact scaled_root_unique. Qed.
Example C87_nonvacuous : wf_bytes [97; 98; 99] /\ 8 * Z.of_nat (length [97; 98; 99]) < 2 ^ 64 /\ scaled_root 2 2 0x5a827999 /\
  (r 16 = 7 /\ r' 0 = 5 /\ r' 79 = 11)%nat /\ shift 4 11 = 11.
Proof.
  split; [repeat constructor; lia|]. split; [reflexivity|]. split; [repeat split; vm_compute; congruence|]. now vm_compute.
Qed.

Print Assumptions C87_ripemd160.
Print Assumptions C87_constants.
