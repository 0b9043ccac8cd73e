(** C04, C05, C09, C26, C28 without bounds on the scalars: what happens to every 32-byte scalar.
    [single_scalar], [double_scalar] (file ScalarSpec) are the integers that scalarMultiply and
    doubleScalarMultiplyVariableTime multiply by; only the first 32 bytes of longer scalars count.
    Proofs in [SlideExact]. *)
From Coq Require Import List ZArith Lia Bool.
From Verif Require Import GoBase FieldModel FieldSpec Fp Curve BasePoint GroupModel GroupSpec ScalarSpec
  ApiModel ApiSpec PropSigLemmas ExampleLemmas SlideExact.
Import ListNotations.
Open Scope Z_scope.

(** C26. *)
Theorem C26_every_scalar : forall c P a, repc P3 c P -> wf_bytes a -> (32 <= length a)%nat ->
  exists g r, g_precompute_single (new_ge c) = Ok g /\ g_scalarMultiply g a = Ok r /\
    repc P3 r (zmul (single_scalar (le_val (firstn 32 a))) P).
Proof. exact scalar_mult_precomputed_every. Qed.
Theorem C26_base_every_scalar : forall a, wf_bytes a -> (32 <= length a)%nat ->
  exists g r, get_base_point = Ok g /\ g_scalarMultiply g a = Ok r /\
    repc P3 r (zmul (single_scalar (le_val (firstn 32 a))) Bpt).
Proof. exact scalar_mult_base_every. Qed.
(** the scalars that are multiplied by correctly: up to about 2^255 + 2^252 * 7/15, exactly *)
Theorem C26_correct_range : forall s, 0 <= s < 2 ^ 256 ->
  (single_scalar s = s <-> s < 9 * 16 ^ 63 - 8 * ((16 ^ 63 - 1) / 15)).
Proof. exact single_scalar_iff. Qed.
Theorem C26_small : forall s, 0 <= s <= 2 ^ 255 -> single_scalar s = s.
Proof. exact single_scalar_small. Qed.

(** C28. *)
Theorem C28_every_scalar : forall B A lB lA PB PA a b, double B = Some lB -> double A = Some lA ->
  double_table lB PB -> double_table lA PA ->
  wf_bytes a -> (32 <= length a)%nat -> wf_bytes b -> (32 <= length b)%nat ->
  exists r, g_doubleScalarMultiply B A a b = Ok r /\
  repc P2 r (psub (zmul (double_scalar (le_val (firstn 32 b))) PB) (zmul (double_scalar (le_val (firstn 32 a))) PA)).
Proof. exact dsm_every. Qed.
Theorem C28_used_scalar : forall s, 0 <= s < 2 ^ 256 ->
  (double_scalar s = s \/ double_scalar s = s - 2 ^ 256) /\ (s <= 2 ^ 255 -> double_scalar s = s).
Proof. exact double_scalar_any. Qed.
Theorem C28_used_scalar_example : double_scalar (17 * 2 ^ 251) = 17 * 2 ^ 251 - 2 ^ 256 /\
  double_scalar (15 * 2 ^ 252) = 15 * 2 ^ 252 /\ single_scalar (9 * 2 ^ 252) = 0.
Proof. exact naf_example. Qed.

(** C04, C09.  Verify for public keys of 32 and 64 bytes (others are rejected, C09_wrong_length) and S
    parts of at least 32 bytes (shorter ones panic, C08_short_S_panics). *)
Theorem C04_every_signature : forall H, hash_ok 64 H -> forall kp m sg,
  wf_bytes (kp_pub kp) -> wf_bytes m -> wf_bytes (sR sg) -> wf_bytes (sS sg) ->
  length (kp_pub kp) = 32%nat \/ length (kp_pub kp) = 64%nat -> (32 <= length (sS sg))%nat ->
  exists b, verify H kp m sg = Ok b /\ (b = true <->
    (low64 (le_val (sS sg)) <> 0 /\ low64 (le_val (sS sg)) <> low64 q25519) /\
    kp_pub kp <> all_zero 32 /\
    exists A, denotes (firstn 32 (kp_pub kp)) A /\
      sR sg = enc_point (psub (zmul (double_scalar (le_val (firstn 32 (sS sg)))) Bpt)
                              (zmul (challenge H (sR sg) (kp_pub kp) m) A))).
Proof. exact verify_every. Qed.
(** C05.  The accepted S parts, all of them. *)
Theorem C05_accepted_every : forall H, hash_ok 64 H -> forall kp m R s s',
  wf_bytes (kp_pub kp) -> wf_bytes m -> wf_bytes R -> wf_bytes s -> wf_bytes s' ->
  length (kp_pub kp) = 32%nat -> length s = 32%nat -> length s' = 32%nat ->
  verify H kp m (Sig R s) = Ok true ->
  (verify H kp m (Sig R s') = Ok true <->
   (q25519 | double_scalar (le_val s) - double_scalar (le_val s')) /\ low64 (le_val s') <> 0 /\ low64 (le_val s') <> low64 q25519).
Proof. exact accepted_every. Qed.
Example C04_every_nonvacuous : exists pub m R s, wf_bytes pub /\ wf_bytes m /\ wf_bytes R /\ wf_bytes s /\
  length pub = 32%nat /\ length R = 32%nat /\ length s = 32%nat /\ le_val s < q25519 /\ pub <> neutral_key /\
  verify H7 (KeyPair None pub) m (Sig R s) = Ok true.
Proof. exact ex_accepted. Qed.

Print Assumptions C26_every_scalar.
Print Assumptions C26_base_every_scalar.
Print Assumptions C26_correct_range.
Print Assumptions C26_small.
Print Assumptions C28_every_scalar.
Print Assumptions C28_used_scalar.
Print Assumptions C28_used_scalar_example.
Print Assumptions C04_every_signature.
Print Assumptions C05_accepted_every.
