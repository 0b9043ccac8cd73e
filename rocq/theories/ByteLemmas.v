(** Facts about bytes, little endian values, masks and shifts. *)
From Coq Require Import List ZArith Lia Bool.
From Verif Require Import GoBase Slp FieldModel.
Import ListNotations.
Open Scope Z_scope.

Lemma le_val_bound l : wf_bytes l -> 0 <= le_val l < 256 ^ Z.of_nat (length l).
Proof.
  induction 1 as [|b r Hb Hr IH]; cbn [le_val length]; [lia|].
  rewrite Nat2Z.inj_succ, Z.pow_succ_r by lia. unfold is_byte in Hb. lia.
Qed.
Lemma le_val_app a b : le_val (a ++ b) = le_val a + 256 ^ Z.of_nat (length a) * le_val b.
Proof.
  induction a as [|x a IH]; cbn [le_val app length]; [lia|].
  rewrite IH, Nat2Z.inj_succ, Z.pow_succ_r by lia. ring.
Qed.
Lemma le_bytes_length n v : length (le_bytes n v) = n.
Proof. revert v; induction n as [|n IH]; intros v; cbn [le_bytes length]; auto. Qed.
Lemma le_bytes_wf n v : wf_bytes (le_bytes n v).
Proof.
  revert v; induction n as [|n IH]; intros v; cbn [le_bytes]; constructor; [|apply IH].
  apply Z.mod_pos_bound; lia.
Qed.
Lemma le_bytes_val n v : le_val (le_bytes n v) = v mod 256 ^ Z.of_nat n.
Proof.
  revert v; induction n as [|n IH]; intros v; cbn [le_bytes le_val].
  - symmetry. apply Z.mod_1_r.
  - rewrite IH, Nat2Z.inj_succ, Z.pow_succ_r by lia.
    rewrite Z.rem_mul_r by lia. reflexivity.
Qed.
Lemma le_val_inv l : wf_bytes l -> le_bytes (length l) (le_val l) = l.
Proof.
  induction 1 as [|b r Hb Hr IH]; cbn [le_val length le_bytes]; [reflexivity|].
  unfold is_byte in Hb. f_equal.
  - rewrite Z.mul_comm, Z.mod_add by lia. apply Z.mod_small; lia.
  - replace ((b + 256 * le_val r) / 256) with (le_val r); [exact IH|].
    rewrite Z.mul_comm, Z.div_add by lia. rewrite Z.div_small by lia. lia.
Qed.
Lemma le_val_inj a b : wf_bytes a -> wf_bytes b -> length a = length b ->
  le_val a = le_val b -> a = b.
Proof.
  intros Ha Hb Hl Hv. rewrite <- (le_val_inv a Ha), <- (le_val_inv b Hb), Hl, Hv. reflexivity.
Qed.

Lemma beq_bytes_eq a b : beq_bytes a b = true <-> a = b.
Proof.
  revert b; induction a as [|x a IH]; intros [|y b]; cbn [beq_bytes]; split; intros H;
    try discriminate; try reflexivity.
  - apply andb_prop in H as [H1 H2]. apply Z.eqb_eq in H1. apply IH in H2. congruence.
  - injection H as -> ->. rewrite Z.eqb_refl. cbn. apply IH. reflexivity.
Qed.
Lemma ct_equal_eq a b : ct_equal a b = true <-> a = b.
Proof. apply beq_bytes_eq. Qed.
Lemma ct_equal_neq a b : ct_equal a b = false <-> a <> b.
Proof.
  pose proof (ct_equal_eq a b) as H. destruct (ct_equal a b); split; intros G; try congruence.
  - exfalso. apply G, H. reflexivity.
  - intros E. apply H in E. discriminate.
Qed.

(** disjoint or *)
Lemma lor_add a b k : 0 <= k -> 0 <= a < 2 ^ k -> Z.lor a (b * 2 ^ k) = a + b * 2 ^ k.
Proof.
  intros Hk Ha. symmetry.
  rewrite Z.add_nocarry_lxor.
  - apply Z.bits_inj'. intros n Hn. rewrite Z.lor_spec, Z.lxor_spec.
    destruct (Z.lt_ge_cases n k) as [L|L].
    + rewrite Z.mul_pow2_bits_low by lia. now rewrite orb_false_r, xorb_false_r.
    + destruct (Z.eq_dec a 0) as [->|N].
      * rewrite Z.bits_0. now destruct (Z.testbit _ n).
      * rewrite (Z.bits_above_log2 a n); [now destruct (Z.testbit _ n)|lia|].
        apply Z.log2_lt_pow2; [lia|]. apply Z.lt_le_trans with (2 ^ k); [lia|].
        apply Z.pow_le_mono_r; lia.
  - apply Z.bits_inj'. intros n Hn. rewrite Z.land_spec, Z.bits_0.
    destruct (Z.lt_ge_cases n k) as [L|L].
    + rewrite Z.mul_pow2_bits_low by lia. apply andb_false_r.
    + destruct (Z.eq_dec a 0) as [->|N].
      * now rewrite Z.bits_0.
      * rewrite (Z.bits_above_log2 a n); [reflexivity|lia|].
        apply Z.log2_lt_pow2; [lia|]. apply Z.lt_le_trans with (2 ^ k); [lia|].
        apply Z.pow_le_mono_r; lia.
Qed.

Lemma shr64_div x k : 0 <= k -> shr64 x k = x / 2 ^ k.
Proof. intros H. apply Z.shiftr_div_pow2, H. Qed.
Lemma shl64_mul x k : 0 <= x * 2 ^ k < 2 ^ 63 -> shl64 x k = x * 2 ^ k.
Proof. intros H. apply w64_id. unfold in64. lia. Qed.
Lemma land_mask x k : 0 <= k -> Z.land x (2 ^ k - 1) = x mod 2 ^ k.
Proof. intros H. rewrite <- Z.land_ones by exact H. rewrite Z.ones_equiv. rewrite Z.sub_1_r; reflexivity. Qed.
Lemma land255 x : is_byte x -> Z.land x 255 = x.
Proof.
  intros H. unfold is_byte in H. change 255 with (2 ^ 8 - 1). rewrite land_mask by lia.
  apply Z.mod_small. lia.
Qed.

(** combination byte: [byte((x >> i) | (y << k))] with x >> i < 2^k *)
Lemma byte_or x y i k : 0 <= i -> 0 <= k <= 8 -> 0 <= x / 2 ^ i < 2 ^ k -> 0 <= y < 2 ^ 32 ->
  to_byte (Z.lor (shr64 x i) (shl64 y k)) = x / 2 ^ i + 2 ^ k * (y mod 2 ^ (8 - k)).
Proof.
  intros Hi Hk Hx Hy.
  assert (P : 0 < 2 ^ k <= 2 ^ 8) by (split; [apply Z.pow_pos_nonneg; lia|apply Z.pow_le_mono_r; lia]).
  rewrite shr64_div by lia. rewrite shl64_mul by nia. rewrite lor_add by lia.
  unfold to_byte. change 256 with (2 ^ 8). replace (2 ^ 8) with (2 ^ k * 2 ^ (8 - k)).
  2:{ rewrite <- Z.pow_add_r by lia. f_equal. lia. }
  assert (Q : 0 < 2 ^ (8 - k)) by (apply Z.pow_pos_nonneg; lia).
  rewrite Z.rem_mul_r by lia. f_equal.
  - rewrite Z.mod_add by lia. apply Z.mod_small; lia.
  - f_equal. f_equal. rewrite Z.div_add by lia. rewrite Z.div_small by lia. lia.
Qed.
Lemma byte_shr x i : 0 <= i -> to_byte (shr64 x i) = (x / 2 ^ i) mod 256.
Proof. intros H. unfold to_byte. now rewrite shr64_div. Qed.

Lemma split3 x i : 0 <= i ->
  x = x mod 2 ^ i + 2 ^ i * ((x / 2 ^ i) mod 256) + 2 ^ (i + 8) * ((x / 2 ^ (i + 8)) mod 256)
      + 2 ^ (i + 16) * (x / 2 ^ (i + 16)).
Proof.
  intros Hi. assert (Q : 0 < 2 ^ i) by (apply Z.pow_pos_nonneg; lia).
  assert (E8 : 2 ^ (i + 8) = 2 ^ i * 256) by (rewrite Z.pow_add_r by lia; reflexivity).
  assert (E16 : 2 ^ (i + 16) = 2 ^ i * 256 * 256)
    by (rewrite Z.pow_add_r by lia; rewrite <- Z.mul_assoc; reflexivity).
  rewrite E8, E16. generalize dependent (2 ^ i); intros P Q _ _.
  rewrite <- (Z.div_div x (P * 256) 256), <- (Z.div_div x P 256) by lia.
  pose proof (Z.div_mod x P ltac:(lia)). set (a := x / P) in *.
  pose proof (Z.div_mod a 256 ltac:(lia)). set (b := a / 256) in *.
  pose proof (Z.div_mod b 256 ltac:(lia)). set (c := b / 256) in *.
  nia.
Qed.
Lemma split2 x i : 0 <= i ->
  x = x mod 2 ^ i + 2 ^ i * ((x / 2 ^ i) mod 256) + 2 ^ (i + 8) * (x / 2 ^ (i + 8)).
Proof.
  intros Hi. assert (Q : 0 < 2 ^ i) by (apply Z.pow_pos_nonneg; lia).
  rewrite !(Z.pow_add_r 2 i) by lia. change (2 ^ 8) with 256.
  rewrite <- !Z.div_div by lia.
  pose proof (Z.div_mod x (2 ^ i) ltac:(lia)). set (a := x / 2 ^ i) in *.
  pose proof (Z.div_mod a 256 ltac:(lia)). set (b := a / 256) in *.
  nia.
Qed.

(** loads *)
Definition ld3 (a b c : Z) : Z := a + 256 * b + 65536 * c.
Definition ld4 (a b c d : Z) : Z := a + 256 * b + 65536 * c + 16777216 * d.

Lemma load3_val l i : is_byte (byte_at l i) -> is_byte (byte_at l (i + 1)) ->
  is_byte (byte_at l (i + 2)) ->
  load3 l i = ld3 (byte_at l i) (byte_at l (i + 1)) (byte_at l (i + 2)).
Proof.
  intros H0 H1 H2. unfold load3, ld3. rewrite !land255 by assumption.
  unfold is_byte in *. rewrite (shl64_mul _ 8) by lia. rewrite (shl64_mul _ 16) by lia.
  rewrite (lor_add _ _ 8) by lia. rewrite (lor_add _ _ 16) by lia. lia.
Qed.
Lemma load4_val l i : is_byte (byte_at l i) -> is_byte (byte_at l (i + 1)) ->
  is_byte (byte_at l (i + 2)) -> is_byte (byte_at l (i + 3)) ->
  load4 l i = ld4 (byte_at l i) (byte_at l (i + 1)) (byte_at l (i + 2)) (byte_at l (i + 3)).
Proof.
  intros H0 H1 H2 H3. unfold load4, ld4. rewrite !land255 by assumption.
  unfold is_byte in *. rewrite (shl64_mul _ 8) by lia. rewrite (shl64_mul _ 16) by lia.
  rewrite (shl64_mul _ 24) by lia.
  rewrite (lor_add _ _ 8) by lia. rewrite (lor_add _ _ 16) by lia. rewrite (lor_add _ _ 24) by lia.
  change 4294967295 with (2 ^ 32 - 1). rewrite land_mask by lia. rewrite Z.mod_small; lia.
Qed.

Lemma byte_at_byte l i : wf_bytes l -> is_byte (byte_at l i).
Proof.
  intros H. unfold byte_at. destruct (Nat.lt_ge_cases i (length l)) as [L|L].
  - unfold wf_bytes in H. rewrite Forall_forall in H. apply H, nth_In, L.
  - rewrite nth_overflow by exact L. unfold is_byte. lia.
Qed.
