(** Proofs about the scalar multiplication of math.go. *)
From Coq Require Import List ZArith Lia Bool Znumtheory Ring Field.
From Verif Require Import GoBase FieldModel FieldSpec FieldProofs ByteLemmas EncodeProofs Fp Curve BaseCert BasePoint
  GroupModel GroupSpec FieldPow GroupProofs ApiModel PropGroupLemmas MathModel MathSpec MathProofs MathAdd.
Import ListNotations.
Open Scope Z_scope.

Lemma byte_at_le n : forall v k, (k < n)%nat -> byte_at (le_bytes n v) k = (v / 256 ^ Z.of_nat k) mod 256.
Proof.
  unfold byte_at. induction n as [|n IH]; intros v k Hk; [lia|]. cbn [le_bytes]. destruct k as [|k]; cbn [nth].
  - change (256 ^ Z.of_nat 0) with 1. rewrite Z.div_1_r. reflexivity.
  - rewrite IH by lia. rewrite Nat2Z.inj_succ, Z.pow_succ_r by lia.
    rewrite Z.div_div by (try lia; apply Z.pow_pos_nonneg; lia). reflexivity.
Qed.
Lemma get_bit_le v i : (i < 256)%nat -> get_bit (le_bytes 32 v) i = Z.testbit v (Z.of_nat i).
Proof.
  intros Hi. unfold get_bit.
  pose proof (Nat.div_mod i 8 ltac:(lia)) as E. pose proof (Nat.mod_upper_bound i 8 ltac:(lia)) as U.
  rewrite byte_at_le by lia.
  change 256 with (2 ^ 8) at 2. rewrite Z.mod_pow2_bits_low by lia.
  change 256 with (2 ^ 8). rewrite <- Z.pow_mul_r by lia. rewrite Z.div_pow2_bits by lia. f_equal. lia.
Qed.

Lemma step_scalar n i P : 0 <= i ->
  (if Z.testbit n i then padd (padd (zmul (n / 2 ^ (i + 1)) P) (zmul (n / 2 ^ (i + 1)) P)) P
   else padd (zmul (n / 2 ^ (i + 1)) P) (zmul (n / 2 ^ (i + 1)) P)) = zmul (n / 2 ^ i) P.
Proof.
  intros Hi. set (m := n / 2 ^ (i + 1)).
  assert (E : n / 2 ^ i = 2 * m + Z.b2z (Z.testbit n i)).
  { unfold m. rewrite Z.testbit_spec' by exact Hi. rewrite Z.pow_add_r by lia.
    rewrite <- Z.div_div by (try lia; apply Z.pow_pos_nonneg; lia). change (2 ^ 1) with 2.
    apply Z.div_mod. lia. }
  rewrite E. rewrite <- zmul_add. destruct (Z.testbit n i); cbn [Z.b2z].
  - rewrite <- (zmul_1 P) at 2. rewrite <- zmul_add. f_equal. lia.
  - f_equal. lia.
Qed.
Lemma mul_loop_ok v g P : rep g P -> is_P2_P3 (g_cs g) = true -> safe_mul v P ->
  forall k h, (k <= 255)%nat -> repc P3 h (zmul (v / 2 ^ Z.of_nat k) P) ->
  exists r, math_mul_loop k (le_bytes 32 v) g h = Ok r /\ repc P3 r (zmul v P).
Proof.
  intros Rg Cg Sf. induction k as [|k IH]; intros h Hk Rh.
  - cbn [math_mul_loop]. exists h. split; [reflexivity|]. change (2 ^ Z.of_nat 0) with 1 in Rh.
    rewrite Z.div_1_r in Rh. exact Rh.
  - cbn [math_mul_loop]. rewrite get_bit_le by lia.
    replace (Z.of_nat (S k)) with (Z.of_nat k + 1) in Rh by lia.
    destruct (Sf (Z.of_nat k) ltac:(lia)) as [S1 S2].
    pose proof (step_scalar v (Z.of_nat k) P ltac:(lia)) as St. cbv zeta in S1, S2.
    set (H := zmul (v / 2 ^ (Z.of_nat k + 1)) P) in *.
    destruct Rh as [Ch Rh].
    destruct (math_Add_ok h h H H Rh Rh) as (d & Ed & Cd & Rd); [rewrite Ch; reflexivity|rewrite Ch; reflexivity|exact S1|].
    unfold math_Double. rewrite Ed. cbn [bind].
    destruct (Z.testbit v (Z.of_nat k)).
    + destruct (math_Add_ok d g (padd H H) P Rd Rg) as (e & Ee & Re); [rewrite Cd; reflexivity|exact Cg|apply S2; reflexivity|].
      rewrite Ee. cbn [bind]. rewrite St in Re. apply IH; [lia|exact Re].
    + cbn [bind]. rewrite St in Rd. apply IH; [lia|]. split; assumption.
Qed.
Theorem math_ScalarMultiply_ok g f P : rep g P -> is_P2_P3 (g_cs g) = true -> bnd 1000 f ->
  safe_mul (val (rF f)) P ->
  exists r, math_ScalarMultiply g f = Ok r /\ repc P3 r (zmul (val (rF f)) P).
Proof.
  intros Rg Cg B S. unfold math_ScalarMultiply. rewrite fe_encode_ok by exact B.
  change (feval f mod p25519) with (val (rF f)).
  apply mul_loop_ok; [exact Rg|exact Cg|exact S|lia|].
  replace (val (rF f) / 2 ^ Z.of_nat 255) with 0; [apply zero_P3_rep|].
  symmetry. apply Z.div_small. pose proof (val_range (rF f)). unfold p25519 in *.
  change (2 ^ Z.of_nat 255) with (2 ^ 255). lia.
Qed.
Theorem math_doubleScalarMultiply_ok g1 f1 g2 f2 P Q : rep g1 P -> rep g2 Q ->
  is_P2_P3 (g_cs g1) = true -> is_P2_P3 (g_cs g2) = true -> bnd 1000 f1 -> bnd 1000 f2 ->
  let m := val (rF f1) in let n := val (rF f2) in
  safe_mul m P -> safe_mul n Q -> safe (zmul m P) (zmul n Q) ->
  exists r, math_doubleScalarMultiply g1 f1 g2 f2 = Ok r /\ repc P3 r (psub (zmul m P) (zmul n Q)).
Proof.
  intros R1 R2 C1 C2 B1 B2 m n S1 S2 S3. unfold math_doubleScalarMultiply.
  destruct (math_ScalarMultiply_ok g1 f1 P R1 C1 B1 S1) as (h1 & E1 & K1). rewrite E1. cbn [bind].
  destruct (math_ScalarMultiply_ok g2 f2 Q R2 C2 B2 S2) as (h2 & E2 & K2). rewrite E2. cbn [bind].
  destruct (g_negate_ok h2 _ K2) as (h3 & E3 & K3). rewrite E3. cbn [unwrap bind].
  destruct K1 as [Ck1 K1]. destruct K3 as [Ck3 K3].
  apply math_Add_ok; [exact K1|exact K3|rewrite Ck1; reflexivity|rewrite Ck3; reflexivity|].
  exact S3.
Qed.
Theorem math_Negate_ok g P : repc P3 g P -> exists r, math_Negate g = Ok r /\ repc P3 r (pneg P).
Proof.
  intros R. pose proof (rep_P3 g P R) as (X & Y & Z & T & -> & BX & BY & BZ & BT & NZ & EX & EY & ET).
  unfold math_Negate. cbn [newP3 g_cs csys_eqb negb gX gY gZ gT deref bind].
  eexists. split; [reflexivity|].
  apply mk_P3; try assumption; try (apply bnd_neg; [assumption|lia]); rewrite ?(rF_neg 110) by (assumption || lia); cbn [pneg px py];
    rewrite ?EX, ?EY, ?ET; ring.
Qed.

(** a concrete scalar: 7 B, all intermediate points of which are safe *)
Definition nth_pt (j : nat) : Z * Z := nth j (nth 0 row_pts []) (0, 0).
Definition big_pt (c : Z * Z) : bool := (2 ^ 64 <=? fst c) && (2 ^ 64 <=? snd c).
Lemma small_multiples j : (j < 8)%nat ->
  2 ^ 64 <= val (px (zmul (Z.of_nat j + 1) Bpt)) /\ 2 ^ 64 <= val (py (zmul (Z.of_nat j + 1) Bpt)).
Proof.
  intros Hj.
  assert (K : forallb big_pt (nth 0 row_pts []) = true /\ length (nth 0 row_pts []) = 8%nat /\
    nth_error row_pts 0 = Some (nth 0 row_pts [])) by (repeat split; vm_compute; reflexivity).
  destruct K as (K & L & Er).
  destruct (nth_error (nth 0 row_pts []) j) as [c|] eqn:E.
  2:{ apply nth_error_None in E. lia. }
  pose proof (row_pts_ok 0 _ j c Er E) as [Px Py].
  replace (256 ^ Z.of_nat 0 * (Z.of_nat j + 1)) with (Z.of_nat j + 1) in * by (change (256 ^ Z.of_nat 0) with 1; lia).
  rewrite Px, Py. apply nth_error_In in E. rewrite forallb_forall in K. specialize (K c E).
  unfold big_pt in K. apply andb_true_iff in K as [K1 K2]. apply Z.leb_le in K1, K2. auto.
Qed.
Lemma safe_small m n : 0 <= m <= 8 -> 1 <= n <= 8 -> safe (zmul m Bpt) (zmul n Bpt).
Proof.
  intros Hm Hn. destruct (Z.eq_dec m 0) as [->|N]; [left; reflexivity|right].
  pose proof (small_multiples (Z.to_nat (m - 1)) ltac:(lia)) as [A _].
  pose proof (small_multiples (Z.to_nat (n - 1)) ltac:(lia)) as [_ C].
  rewrite Z2Nat.id in * by lia. replace (m - 1 + 1) with m in A by lia. replace (n - 1 + 1) with n in C by lia.
  auto.
Qed.
Lemma safe_zero Q : safe pzero Q. Proof. left. reflexivity. Qed.
Lemma safe_mul_7 : safe_mul 7 Bpt.
Proof.
  intros i Hi. cbv zeta.
  destruct (Z_lt_ge_dec i 3) as [L|L].
  - assert (i = 0 \/ i = 1 \/ i = 2) as [->|[->| ->]] by lia; rewrite <- zmul_add, <- (zmul_1 Bpt) at 1.
    all: rewrite zmul_1.
    + change (7 / 2 ^ (0 + 1)) with 3. split; [apply safe_small; lia|]. intros _. rewrite <- (zmul_1 Bpt) at 2. apply safe_small; lia.
    + change (7 / 2 ^ (1 + 1)) with 1. split; [apply safe_small; lia|]. intros _. rewrite <- (zmul_1 Bpt) at 2. apply safe_small; lia.
    + change (7 / 2 ^ (2 + 1)) with 0. split; [apply safe_zero|]. intros _. apply safe_zero.
  - replace (7 / 2 ^ (i + 1)) with 0.
    2:{ symmetry. apply Z.div_small. split; [lia|]. apply Z.lt_le_trans with (2 ^ 4); [reflexivity|apply Z.pow_le_mono_r; lia]. }
    rewrite zmul_0, padd_0_l. split; [apply safe_zero|intros _; apply safe_zero].
Qed.

(** ** scalars modulo q *)
Lemma q_pos : 0 < q25519. Proof. reflexivity. Qed.
Lemma q_small256 : q25519 < 2 ^ 256. Proof. reflexivity. Qed.
Lemma encode_scalar v : 0 <= v < 2 ^ 256 -> math_ToEncodedFieldElement v = Ok (le_bytes 32 v).
Proof.
  intros H. unfold math_ToEncodedFieldElement, math_ToByteArray.
  replace (2 ^ 256 <=? v) with false by (symmetry; apply Z.leb_gt; lia). cbn [bind].
  unfold utils_BigIntToByteArray. rewrite Z.abs_eq by lia. rewrite le_bytes_length. reflexivity.
Qed.
Theorem math_reduce_ok raw : wf_bytes raw ->
  math_ReduceModGroupOrder raw = Ok (le_bytes 32 (le_val raw mod q25519)).
Proof.
  intros W. unfold math_ReduceModGroupOrder. rewrite bytes_value by exact W. apply encode_scalar.
  pose proof (Z.mod_pos_bound (le_val raw) q25519 q_pos). pose proof q_small256. lia.
Qed.
Theorem math_mulAdd_ok a b c : wf_bytes a -> wf_bytes b -> wf_bytes c ->
  math_multiplyAndAdd a b c = Ok (le_bytes 32 ((le_val a * le_val b + le_val c) mod q25519)).
Proof.
  intros Wa Wb Wc. unfold math_multiplyAndAdd. rewrite !bytes_value by assumption. apply encode_scalar.
  pose proof (Z.mod_pos_bound (le_val a * le_val b + le_val c) q25519 q_pos). pose proof q_small256. lia.
Qed.
