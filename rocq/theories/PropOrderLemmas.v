(** Lemmas behind C67: the points of the curve and the shared keys. *)
From Coq Require Import List ZArith Lia Bool Znumtheory.
From Verif Require Import GoBase FieldModel FieldSpec ByteLemmas Primality Fp Curve BasePoint GroupModel GroupSpec
  PointCodec PropGroupLemmas ApiModel ApiSpec ApiProofs PropSigLemmas CipherProofs PropSecLemmas GroupOrder.
Import ListNotations.
Open Scope Z_scope.

Lemma list_of_points n (f : Z -> point) : 0 <= n ->
  (forall i j, 0 <= i < n -> 0 <= j < n -> f i = f j -> i = j) -> (forall P, exists i, 0 <= i < n /\ f i = P) ->
  exists l : list point, NoDup l /\ (forall P, In P l) /\ Z.of_nat (length l) = n.
Proof.
  intros N I Su. exists (map f (map Z.of_nat (seq 0 (Z.to_nat n)))). split; [|split].
  - assert (X : forall l, NoDup l -> (forall i, In i l -> 0 <= i < n) -> NoDup (map f l)).
    { induction l as [|a l IH]; intros Nd Rl; [constructor|]. inversion Nd; subst. cbn [map]. constructor.
      - intros K. apply in_map_iff in K as (b & E & Kb). apply I in E; [subst b; contradiction|apply Rl; right; exact Kb|apply Rl; left; reflexivity].
      - apply IH; [assumption|]. intros i K. apply Rl. right. exact K. }
    apply X.
    + apply FinFun.Injective_map_NoDup; [intros a b; lia|apply seq_NoDup].
    + intros i K. apply in_map_iff in K as (k & <- & K). apply in_seq in K. lia.
  - intros P. destruct (Su P) as (i & R & <-). apply in_map. apply in_map_iff. exists (Z.to_nat i). split; [lia|]. apply in_seq. lia.
  - rewrite !map_length, seq_length. lia.
Qed.
Theorem number_of_points : exists l : list point, NoDup l /\ (forall P, In P l) /\ Z.of_nat (length l) = 8 * q25519.
Proof.
  apply (list_of_points _ nth_pt); [discriminate|exact nth_pt_inj|exact all_points].
Qed.
Theorem structure : exists T, (forall n, zmul n T = pzero <-> (8 | n)) /\
  forall P, exists a j, 0 <= a < q25519 /\ 0 <= j < 8 /\ P = padd (zmul a Bpt) (zmul j T) /\
    forall a' j', 0 <= a' < q25519 -> 0 <= j' < 8 -> P = padd (zmul a' Bpt) (zmul j' T) -> a' = a /\ j' = j.
Proof.
  exists T8. split; [exact T8_order|]. intros P. destruct (every_point_pt P) as (a & j & Ra & Rj & ->).
  exists a, j. split; [exact Ra|]. split; [exact Rj|]. split; [reflexivity|]. intros a' j' Ra' Rj' E.
  change (pt a j = pt a' j') in E. apply pt_eq in E as [A J]. set (q := q25519) in *. clearbody q.
  apply small_divide in A; [|lia|lia]. apply small_divide in J; lia.
Qed.
(** multiples that vanish *)
Lemma scalar_kills H key P : zmul (secret_scalar H key) P = pzero <-> zmul 8 P = pzero.
Proof.
  split.
  - destruct (every_point_pt P) as (a & j & Ra & Rj & ->). intros E. unfold pt in *.
    rewrite zmul_padd, <- !zmul_mul in E. destruct (secret_scalar_range H key) as [_ D8].
    rewrite (proj2 (T8_order (secret_scalar H key * j))), padd_0_r in E by (apply Z.divide_mul_l, D8).
    apply order_B_iff in E. apply prime_mult in E; [|exact prime_q25519]. destruct E as [E|E]; [destruct (scalar_not_q H key E)|].
    apply order_B_iff in E. rewrite E, padd_0_l, <- zmul_mul. apply T8_order. exists j. ring.
  - intros E. destruct (secret_scalar_range H key) as [_ (j & ->)]. rewrite zmul_mul, E. apply zmul_zero.
Qed.
Lemma zmul_eq_iff n P Q : zmul n P = zmul n Q <-> zmul n (padd P (pneg Q)) = pzero.
Proof.
  rewrite zmul_padd, zmul_neg. split; [intros ->; apply padd_neg|apply psub_zero].
Qed.
Lemma scalar_equal H key P Q : zmul (secret_scalar H key) P = zmul (secret_scalar H key) Q <-> zmul 8 P = zmul 8 Q.
Proof. rewrite !zmul_eq_iff. apply scalar_kills. Qed.
Lemma xor_inj a b s : length a = length s -> length b = length s -> xor_bytes a s = xor_bytes b s -> a = b.
Proof. intros La Lb E. rewrite <- (xor_twice a s La), <- (xor_twice b s Lb), E. reflexivity. Qed.

Lemma same_shared_keys H : hash_ok 64 H -> forall k pub1 pub2 P1 P2 salt,
  wf_bytes (pk_raw k) -> wf_bytes pub1 -> wf_bytes pub2 -> length pub1 = 32%nat -> length pub2 = 32%nat ->
  length salt = 32%nat -> denotes pub1 P1 -> denotes pub2 P2 ->
  ((forall G, get_shared_key H G 32 (Some k) pub1 salt = get_shared_key H G 32 (Some k) pub2 salt) <->
   zmul 8 P1 = zmul 8 P2).
Proof.
  intros HH k pub1 pub2 P1 P2 salt Wk W1 W2 L1 L2 Ls D1 D2. rewrite <- (scalar_equal H (pk_raw k)). split.
  - intros E. specialize (E (fun x => x)).
    rewrite (shared_key_ok H HH _ k pub1 salt P1), (shared_key_ok H HH _ k pub2 salt P2) in E by assumption.
    apply enc_point_inj. apply (xor_inj _ _ salt); [rewrite enc_point_length, Ls; reflexivity..|]. congruence.
  - intros E G. rewrite (shared_key_ok H HH _ k pub1 salt P1), (shared_key_ok H HH _ k pub2 salt P2), E by assumption. reflexivity.
Qed.
Lemma public_shared_key H : hash_ok 64 H -> forall k pub P salt,
  wf_bytes (pk_raw k) -> wf_bytes pub -> length pub = 32%nat -> length salt = 32%nat -> denotes pub P ->
  ((forall G, get_shared_key H G 32 (Some k) pub salt = Ok (G (xor_bytes (1 :: all_zero 31) salt))) <-> zmul 8 P = pzero).
Proof.
  intros HH k pub P salt Wk Wp Lp Ls D. split.
  - intros E. specialize (E (fun x => x)). apply (scalar_kills H (pk_raw k)).
    rewrite (shared_key_ok H HH _ k pub salt P) in E by assumption.
    apply enc_point_inj. rewrite enc_zero. apply (xor_inj _ _ salt); [rewrite enc_point_length, Ls; reflexivity|rewrite Ls; reflexivity|].
    congruence.
  - intros E G. now apply (small_shared_point H HH G k pub salt P).
Qed.
Lemma shared_subgroup H : hash_ok 64 H -> forall G k pub P salt,
  wf_bytes (pk_raw k) -> wf_bytes pub -> length pub = 32%nat -> length salt = 32%nat -> denotes pub P ->
  exists c, 0 <= c < q25519 /\ (c = 0 <-> zmul 8 P = pzero) /\
    get_shared_key H G 32 (Some k) pub salt = Ok (G (xor_bytes (enc_point (zmul c Bpt)) salt)).
Proof.
  intros HH G k pub P salt Wk Wp Lp Ls D. rewrite (shared_key_ok H HH G k pub salt P) by assumption.
  destruct (secret_scalar_range H (pk_raw k)) as [_ D8].
  assert (X : exists c, 0 <= c < q25519 /\ zmul (secret_scalar H (pk_raw k)) P = zmul c Bpt).
  { destruct D8 as (j & ->). rewrite zmul_mul. destruct (eight_times P) as (a & Ra & ->). rewrite <- zmul_mul.
    exists ((j * a) mod q25519). split; [apply Z.mod_pos_bound; reflexivity|]. symmetry. apply zmul_mod_q. }
  destruct X as (c & Rc & E). exists c. split; [exact Rc|]. split; [|rewrite E; reflexivity].
  rewrite <- (scalar_kills H (pk_raw k)), E, order_B_iff. split; [intros ->; apply Z.divide_0_r|].
  intros Dc. destruct (Z.eq_dec c 0) as [|N]; [assumption|]. apply Z.divide_pos_le in Dc; [|lia]. lia.
Qed.
Lemma derived_shared H : hash_ok 64 H -> forall k1 k2 pub salt,
  wf_bytes (pk_raw k1) -> wf_bytes (pk_raw k2) -> length salt = 32%nat -> derive_public_key H k2 = Ok pub ->
  get_shared_key H (fun x => x) 32 (Some k1) pub salt <> Ok (xor_bytes (1 :: all_zero 31) salt).
Proof.
  intros HH k1 k2 pub salt W1 W2 Ls Ep E.
  destruct (derived_order H HH k2 pub W2 Ep) as (A & DA & O).
  rewrite (derive_ok H HH k2 W2) in Ep. assert (Epub : pub = public_key_of H (pk_raw k2)) by congruence.
  destruct (public_key_wf H (pk_raw k2)) as [Wp Lp]. rewrite <- Epub in Wp, Lp.
  rewrite (shared_key_ok H HH _ k1 pub salt A) in E by assumption.
  assert (E' : zmul (secret_scalar H (pk_raw k1)) A = pzero).
  { apply enc_point_inj. rewrite enc_zero. apply (xor_inj _ _ salt); [rewrite enc_point_length, Ls; reflexivity|rewrite Ls; reflexivity|]. congruence. }
  apply O in E'. exact (scalar_not_q H _ E').
Qed.
(** a key whose shared keys are not public although it is no multiple of the base point *)
Lemma ex_mixed : exists pub P, wf_bytes pub /\ length pub = 32%nat /\ denotes pub P /\ zmul 8 P <> pzero /\ zmul q25519 P <> pzero.
Proof.
  exists (enc_point (pt 1 1)), (pt 1 1). split; [apply enc_point_wf|]. split; [apply enc_point_length|]. split; [apply enc_denotes|].
  unfold pt. rewrite !zmul_padd, <- !zmul_mul. split.
  - intros E. change (pt (8 * 1) (8 * 1) = pzero) in E. apply pt_zero in E as [E _]. apply Z.divide_pos_le in E; [|lia]. revert E. now vm_compute.
  - intros E. change (pt (q25519 * 1) (q25519 * 1) = pzero) in E. apply pt_zero in E as [_ E]. apply Z.mod_divide in E; [|discriminate]. revert E. now vm_compute.
Qed.
