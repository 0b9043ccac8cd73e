(** The curve has exactly 8 q points.

    The points a B + j T, with T of order 8, are 8 q different ones.  A point outside would give 8 q
    more; but a point is determined by y and one bit, so there are at most 2 p < 16 q points. *)
From Coq Require Import List ZArith Lia Bool.
From Verif Require Import GoBase FieldSpec Fp Curve BasePoint GroupSpec PointCodec PropGroupLemmas Torsion PropSecLemmas Primality.
Import ListNotations.
Open Scope Z_scope.

(** ** counting *)
Lemma pigeon n m (f : Z -> Z) : 0 < n -> (forall i, 0 <= i < n -> 0 <= f i < m) ->
  (forall i j, 0 <= i < n -> 0 <= j < n -> f i = f j -> i = j) -> n <= m.
Proof.
  intros N R I.
  assert (M : 0 < m) by (specialize (R 0 ltac:(lia)); lia).
  set (dom := map Z.of_nat (seq 0 (Z.to_nat n))). set (cod := map Z.of_nat (seq 0 (Z.to_nat m))).
  assert (D : forall i, In i dom <-> 0 <= i < n).
  { intros i. unfold dom. rewrite in_map_iff. split.
    - intros (k & <- & K). apply in_seq in K. lia.
    - intros K. exists (Z.to_nat i). split; [lia|]. apply in_seq. lia. }
  assert (C : forall i, In i cod <-> 0 <= i < m).
  { intros i. unfold cod. rewrite in_map_iff. split.
    - intros (k & <- & K). apply in_seq in K. lia.
    - intros K. exists (Z.to_nat i). split; [lia|]. apply in_seq. lia. }
  assert (ND : NoDup (map f dom)).
  { assert (X : forall l, NoDup l -> (forall i, In i l -> 0 <= i < n) -> NoDup (map f l)).
    { induction l as [|a l IH]; intros Nd Rl; [constructor|]. inversion Nd; subst. cbn [map]. constructor.
      - intros K. apply in_map_iff in K as (b & E & Kb). apply I in E; [subst b; contradiction|apply Rl; right; exact Kb|apply Rl; left; reflexivity].
      - apply IH; [assumption|]. intros i K. apply Rl. right. exact K. }
    apply X; [|intros i; apply D]. unfold dom. apply FinFun.Injective_map_NoDup; [intros a b; lia|apply seq_NoDup]. }
  assert (L : (length (map f dom) <= length cod)%nat).
  { apply NoDup_incl_length; [exact ND|]. intros y K. apply in_map_iff in K as (i & <- & K). apply C, R, D, K. }
  unfold dom, cod in L. rewrite !map_length, !seq_length in L. lia.
Qed.
Lemma search_dec (P : Z -> Prop) (dec : forall i, {P i} + {~ P i}) n :
  (exists i, 0 <= i < n /\ P i) \/ (forall i, 0 <= i < n -> ~ P i).
Proof.
  destruct (Z.le_gt_cases n 0) as [|Np]; [right; intros i; lia|].
  assert (X : forall k : nat, (exists i, 0 <= i < Z.of_nat k /\ P i) \/ (forall i, 0 <= i < Z.of_nat k -> ~ P i)).
  { induction k as [|k IH]; [right; intros i; lia|]. destruct IH as [(i & R & H)|N].
    - left. exists i. split; [lia|exact H].
    - destruct (dec (Z.of_nat k)) as [H|H]; [left; exists (Z.of_nat k); split; [lia|exact H]|].
      right. intros i R. destruct (Z.eq_dec i (Z.of_nat k)) as [->|]; [exact H|]. apply N. lia. }
  specialize (X (Z.to_nat n)). rewrite Z2Nat.id in X by lia. exact X.
Qed.

(** ** the point of order 8 *)
Definition T8 : point := mkpt _ _ on_8.
Lemma T8_8 : zmul 8 T8 = pzero.
Proof. apply torsion8_iff. unfold torsion_y. cbn [T8 py]. auto. Qed.
Lemma T8_4 : zmul 4 T8 <> pzero.
Proof.
  intros E. apply torsion4_y in E. cbn [T8 py] in E.
  destruct E as [E|[E|E]]; apply (f_equal val) in E; vm_compute in E; discriminate E.
Qed.
Lemma T8_order n : zmul n T8 = pzero <-> (8 | n).
Proof.
  split.
  - intros E. destruct (Z.eq_dec (n mod 8) 0) as [D|D]; [apply Z.mod_divide; [discriminate|exact D]|exfalso].
    assert (G : zmul (n mod 8) T8 = pzero).
    { pose proof (Z.div_mod n 8 ltac:(discriminate)) as X. rewrite X, zmul_add, (Z.mul_comm 8), zmul_mul, T8_8, zmul_zero, padd_0_l in E. exact E. }
    pose proof (Z.mod_pos_bound n 8 ltac:(lia)) as R. set (r := n mod 8) in *. clearbody r.
    apply T8_4. assert (K : exists j l, 4 = j * r + l * 8).
    { assert (C : r = 1 \/ r = 2 \/ r = 3 \/ r = 4 \/ r = 5 \/ r = 6 \/ r = 7) by lia.
      destruct C as [-> |[-> |[-> |[-> |[-> |[-> | ->]]]]]].
      - now exists 4, 0. - now exists 2, 0. - now exists 4, (-1). - now exists 1, 0.
      - now exists 4, (-2). - now exists 2, (-1). - now exists 4, (-3). }
    destruct K as (j & l & ->). rewrite zmul_add, !zmul_mul, G, T8_8, !zmul_zero. apply padd_0_l.
  - intros (k & ->). rewrite zmul_mul, T8_8. apply zmul_zero.
Qed.

(** ** 8 q points *)
Definition pt (a j : Z) : point := padd (zmul a Bpt) (zmul j T8).
Lemma pt_sub a j b k : padd (pt a j) (pneg (pt b k)) = pt (a - b) (j - k).
Proof.
  unfold pt. rewrite !zmul_sub. unfold psub. rewrite pneg_add.
  rewrite !padd_assoc. f_equal. rewrite padd_swap. reflexivity.
Qed.
Lemma pt_zero a j : pt a j = pzero <-> (q25519 | a) /\ (8 | j).
Proof.
  split.
  - intros E. assert (A : (q25519 | a)).
    { assert (E8 : zmul 8 (pt a j) = pzero) by (rewrite E; apply zmul_zero).
      unfold pt in E8. rewrite zmul_padd, <- !zmul_mul, (proj2 (T8_order (8 * j))), padd_0_r in E8 by (exists j; ring).
      apply order_B_iff in E8. apply Znumtheory.Gauss in E8; [exact E8|].
      apply Znumtheory.prime_rel_prime; [exact prime_q25519|].
      intros D. apply Z.divide_pos_le in D; [|lia]. revert D. now vm_compute. }
    split; [exact A|]. apply order_B_iff in A. unfold pt in E. rewrite A, padd_0_l in E. now apply T8_order.
  - intros [A J]. unfold pt. rewrite (proj2 (order_B_iff a) A), (proj2 (T8_order j) J). apply padd_0_l.
Qed.
Lemma psub_zero P Q : padd P (pneg Q) = pzero -> P = Q.
Proof. intros E. apply (padd_cancel_r (pneg Q)). rewrite E. symmetry. apply padd_neg. Qed.
Lemma pt_eq a j b k : pt a j = pt b k <-> (q25519 | a - b) /\ (8 | j - k).
Proof.
  rewrite <- pt_zero, <- pt_sub. split; [intros ->; apply padd_neg|apply psub_zero].
Qed.
Definition nth_pt (i : Z) : point := pt (i / 8) (i mod 8).
Lemma small_divide n d : 0 < n -> - n < d < n -> (n | d) -> d = 0.
Proof. intros N R (k & ->). assert (k = 0) by nia. subst k. ring. Qed.
Lemma nth_pt_inj i i' : 0 <= i < 8 * q25519 -> 0 <= i' < 8 * q25519 -> nth_pt i = nth_pt i' -> i = i'.
Proof.
  intros R R' E. apply pt_eq in E as [A J]. assert (Q : 0 < q25519) by reflexivity.
  pose proof (Z.div_mod i 8 ltac:(discriminate)). pose proof (Z.div_mod i' 8 ltac:(discriminate)).
  pose proof (Z.mod_pos_bound i 8 ltac:(lia)). pose proof (Z.mod_pos_bound i' 8 ltac:(lia)).
  set (a := i / 8) in *. set (a' := i' / 8) in *. set (j := i mod 8) in *. set (j' := i' mod 8) in *. clearbody a a' j j'.
  set (q := q25519) in *. clearbody q.
  apply small_divide in A; [|lia|lia]. apply small_divide in J; [|lia|lia]. lia.
Qed.
(** ** at most 2 p points *)
Definition code (P : point) : Z := 2 * val (py P) + (if Fneg (px P) then 1 else 0).
Lemma code_range P : 0 <= code P < 2 * p25519.
Proof. unfold code. pose proof (val_range (py P)). destruct (Fneg (px P)); lia. Qed.
Lemma code_inj P Q : code P = code Q -> P = Q.
Proof.
  unfold code. intros E. apply enc_point_inj. unfold enc_point.
  assert (val (py P) = val (py Q) /\ Fneg (px P) = Fneg (px Q)) as [-> ->]; [|reflexivity].
  destruct (Fneg (px P)), (Fneg (px Q)); split; (reflexivity || lia).
Qed.
Lemma many_q : 2 * p25519 < 16 * q25519. Proof. reflexivity. Qed.

Theorem all_points Q : exists i, 0 <= i < 8 * q25519 /\ nth_pt i = Q.
Proof.
  destruct (search_dec (fun i => nth_pt i = Q) (fun i => point_eq_dec _ _) (8 * q25519)) as [E|N]; [exact E|exfalso].
  set (f := fun i => if i <? 8 * q25519 then nth_pt i else padd Q (nth_pt (i - 8 * q25519))).
  assert (Qp : 0 < q25519) by reflexivity. pose proof many_q as MQ.
  assert (O : forall i j, 0 <= i < 8 * q25519 -> 0 <= j < 8 * q25519 -> nth_pt i <> padd Q (nth_pt j)).
  { intros i j Ri Rj E. assert (X : Q = padd (nth_pt i) (pneg (nth_pt j))).
    { rewrite E, padd_assoc, padd_neg, padd_0_r. reflexivity. }
    unfold nth_pt in X. rewrite pt_sub in X. set (a := i / 8 - j / 8) in *. set (k := i mod 8 - j mod 8) in *. clearbody a k.
    apply (N (8 * (a mod q25519) + k mod 8)).
    - pose proof (Z.mod_pos_bound a q25519 Qp). pose proof (Z.mod_pos_bound k 8 ltac:(lia)). lia.
    - rewrite X. unfold nth_pt.
      pose proof (Z.mod_pos_bound k 8 ltac:(lia)) as Rk.
      replace ((8 * (a mod q25519) + k mod 8) / 8) with (a mod q25519) by (rewrite Z.mul_comm, Z.div_add_l, (Z.div_small (k mod 8)) by lia; ring).
      replace ((8 * (a mod q25519) + k mod 8) mod 8) with (k mod 8) by (rewrite Z.add_comm, Z.mul_comm, Z.mod_add, Z.mod_mod by lia; reflexivity).
      apply pt_eq. split.
      + exists (- (a / q25519)). rewrite (Z.mod_eq a) by lia. ring.
      + exists (- (k / 8)). rewrite (Z.mod_eq k) by lia. ring. }
  assert (B : 16 * q25519 <= 2 * p25519); [|lia]. clear MQ.
  apply (pigeon _ _ (fun i => code (f i))); [lia|intros i _; apply code_range|].
  intros i j Ri Rj E. apply code_inj in E. unfold f in E.
  destruct (Z.ltb_spec i (8 * q25519)), (Z.ltb_spec j (8 * q25519)).
  - apply nth_pt_inj; [lia|lia|exact E].
  - exfalso. apply (O i (j - 8 * q25519)); [lia|lia|exact E].
  - exfalso. apply (O j (i - 8 * q25519)); [lia|lia|symmetry; exact E].
  - apply padd_cancel_l in E. apply nth_pt_inj in E; lia.
Qed.
Theorem every_point_pt P : exists a j, 0 <= a < q25519 /\ 0 <= j < 8 /\ P = pt a j.
Proof.
  destruct (all_points P) as (i & R & <-). exists (i / 8), (i mod 8). split; [|split; [apply Z.mod_pos_bound; lia|reflexivity]].
  split; [apply Z.div_pos; lia|]. apply Z.div_lt_upper_bound; lia.
Qed.
Theorem exponent_8q P : zmul (8 * q25519) P = pzero.
Proof.
  destruct (every_point_pt P) as (a & j & _ & _ & ->). unfold pt. rewrite zmul_padd, <- !zmul_mul.
  rewrite (proj2 (order_B_iff _)) by (exists (8 * a); ring). rewrite (proj2 (T8_order _)) by (exists (q25519 * j); ring). apply padd_0_l.
Qed.
(** the prime-order part and the small-order part *)
Lemma prime_part P : zmul q25519 P = pzero <-> exists a, 0 <= a < q25519 /\ P = zmul a Bpt.
Proof.
  split.
  - intros E. destruct (every_point_pt P) as (a & j & Ra & Rj & ->). unfold pt in E. rewrite zmul_padd, <- !zmul_mul in E.
    rewrite (proj2 (order_B_iff _)) in E by (exists a; ring). rewrite padd_0_l in E. apply T8_order in E.
    exists a. split; [exact Ra|]. unfold pt.
    apply Znumtheory.Gauss in E; [|apply Znumtheory.Zgcd_1_rel_prime; now vm_compute].
    rewrite (proj2 (T8_order j) E), padd_0_r. reflexivity.
  - intros (a & _ & ->). rewrite <- zmul_mul. apply order_B_iff. exists a. ring.
Qed.
Lemma eight_times P : exists a, 0 <= a < q25519 /\ zmul 8 P = zmul a Bpt.
Proof.
  apply prime_part. rewrite <- zmul_mul, Z.mul_comm. apply exponent_8q.
Qed.
