(** Proof glue for PropField. *)
From Coq Require Import List ZArith Lia Bool Ring Field Znumtheory.
From Verif Require Import GoBase FieldModel FieldSpec FieldProofs ByteLemmas EncodeProofs
  ScalarModel ScalarProofs Primality Fp Curve GroupSpec FieldPow.
Import ListNotations.
Open Scope Z_scope.

Lemma fe_sq_ok f : bnd 330 f ->
  fe_sq f = fe_sqoptZ false f /\ eqp (feval (fe_sq f)) (feval f * feval f) /\ bnd 101 (fe_sq f).
Proof. intros H. pose proof (fe_sqopt_ok false f H) as G. now rewrite Z.mul_1_l in G. Qed.
Lemma fe_sq2_ok f : bnd 330 f ->
  fe_sq2 f = fe_sqoptZ true f /\ eqp (feval (fe_sq2 f)) (2 * (feval f * feval f)) /\ bnd 101 (fe_sq2 f).
Proof. exact (fe_sqopt_ok true f). Qed.

Definition ex_limbs : fe :=
  Fe 110729625 (-55364812) 110729625 (-55364812) 110729625 (-55364812) 110729625 (-55364812)
     110729625 (-55364812).
Ltac bndc := unfold bnd; repeat split; vm_compute; congruence.
Lemma ex_limbs_ok : bnd 330 ex_limbs /\ feval ex_limbs <> 0 /\ fe_mul ex_limbs ex_limbs <> ex_limbs.
Proof.
  split; [bndc|]. split; [vm_compute; congruence|].
  intros H. apply (f_equal r0) in H. vm_compute in H. discriminate H.
Qed.
Lemma eqp0_mod x : eqp x 0 <-> x mod p25519 = 0.
Proof.
  unfold eqp. rewrite Z.sub_0_r. split; intros H; [apply Zdivide_mod, H|apply Zmod_divide; [discriminate|exact H]].
Qed.
Lemma ex_limbs_nz : bnd 330 ex_limbs /\ ~ eqp (feval ex_limbs) 0.
Proof. split; [bndc|]. rewrite eqp0_mod. vm_compute. congruence. Qed.
Lemma rF_eqp f g : rF f = rF g <-> eqp (feval f) (feval g).
Proof. apply inF_eqp. Qed.
Lemma inF_F0 : inF 0 = F0. Proof. apply F_eq. vm_compute. reflexivity. Qed.
Lemma inF_F1 : inF 1 = F1. Proof. apply F_eq. vm_compute. reflexivity. Qed.
Lemma rF_0 f : rF f = F0 <-> eqp (feval f) 0.
Proof. rewrite <- inF_F0. apply inF_eqp. Qed.
Lemma invert_ok x : bnd 330 x ->
  (~ eqp (feval x) 0 -> eqp (feval (fe_invert x) * feval x) 1) /\
  (eqp (feval x) 0 -> eqp (feval (fe_invert x)) 0) /\ bnd 101 (fe_invert x).
Proof.
  intros B. rewrite <- !rF_0. split; [|split; [|apply bnd_invert, B]].
  - intros N. apply inF_eqp. rewrite inF_mul. rewrite inF_F1.
    change (rF (fe_invert x) * rF x = 1)%F. rewrite rF_invert by exact B. apply Finv_l, N.
  - intros E. rewrite rF_invert by exact B. rewrite E. apply Finv_0.
Qed.
Lemma encode_canonical f : bnd 1000 f -> fe_encode f = le_bytes 32 (feval f mod p25519).
Proof. exact (fe_encode_ok f). Qed.
Lemma equals_ok f g : bnd 1000 f -> bnd 1000 g -> (fe_equals f g = true <-> eqp (feval f) (feval g)).
Proof. intros A B. rewrite <- rF_eqp. apply fe_equals_rF; assumption. Qed.
Lemma is_nonzero_ok f : bnd 1000 f -> (fe_is_nonzero f = true <-> ~ eqp (feval f) 0).
Proof. intros A. rewrite <- rF_0. apply fe_is_nonzero_rF; assumption. Qed.
Lemma is_negative_ok f : bnd 1000 f -> (fe_is_negative f = true <-> Z.odd (feval f mod p25519) = true).
Proof. intros A. rewrite (fe_is_negative_rF f A). unfold Fneg. rewrite val_rF. reflexivity. Qed.
Definition bad_limbs : fe := Fe 0 0 0 0 0 0 0 0 0 (2 ^ 62).
Definition bad_limbs' : fe := Fe (2611340115968 mod 2^26) (2611340115968 / 2^26) 0 0 0 0 0 0 0 0.
Ltac fe64c := unfold fe64, in64; repeat split; vm_compute; congruence.
Lemma arbitrary_limbs :
  ~ (forall f, fe64 f -> fe_encode f = le_bytes 32 (feval f mod p25519)) /\
  ~ (forall f g, fe64 f -> fe64 g -> eqp (feval f) (feval g) -> fe_equals f g = true).
Proof.
  assert (A : fe64 bad_limbs) by fe64c. assert (B : fe64 bad_limbs') by fe64c. split.
  - intros H. specialize (H _ A). vm_compute in H. discriminate H.
  - intros H. specialize (H _ _ A B). assert (E : eqp (feval bad_limbs) (feval bad_limbs')).
    { unfold eqp. apply Zmod_divide; [discriminate|]. vm_compute. reflexivity. }
    specialize (H E). vm_compute in H. discriminate H.
Qed.
Lemma ex_limbs_eq : bnd 1000 ex_limbs /\ bnd 1000 fe_one /\ fe_equals ex_limbs fe_one = false /\
  fe_equals ex_limbs ex_limbs = true.
Proof. split; [bndc|]. split; [bndc|]. split; vm_compute; reflexivity. Qed.

Lemma decode_ok b : wf_bytes b -> length b = 32%nat ->
  exists f, fe_decode b = Ok f /\ bnd 101 f /\ eqp (feval f) (le_val b mod 2 ^ 255) /\
    fe_encode f = le_bytes 32 ((le_val b mod 2 ^ 255) mod p25519) /\
    (fe_encode f = b <-> le_val b < p25519).
Proof.
  intros W L. exists (fe_decode32 b).
  destruct (fe_decode32_ok b W) as [E B]; [lia|]. rewrite firstn_all2 in E by lia.
  assert (D : fe_encode (fe_decode32 b) = le_bytes 32 ((le_val b mod 2 ^ 255) mod p25519)).
  { rewrite fe_encode_ok by (apply (bnd_mono _ _ _ B); lia). f_equal. apply mod_eq_div; [discriminate|]. exact E. }
  pose proof (le_val_bound b W) as R. rewrite L in R. change (256 ^ Z.of_nat 32) with (2 ^ 256) in R.
  split; [unfold fe_decode; rewrite L; reflexivity|]. split; [exact B|]. split; [exact E|]. split; [exact D|].
  rewrite D. split; intros H.
  - rewrite <- H, le_bytes_val. rewrite Z.mod_small.
    + apply Z.mod_pos_bound. reflexivity.
    + pose proof (Z.mod_pos_bound (le_val b mod 2 ^ 255) p25519 ltac:(reflexivity)).
      change (256 ^ Z.of_nat 32) with (2 ^ 256). unfold p25519 in *. lia.
  - rewrite (Z.mod_small (le_val b)) by (unfold p25519 in H; lia). rewrite Z.mod_small by lia.
    rewrite <- L. apply le_val_inv, W.
Qed.
Lemma decode_encode f : bnd 1000 f -> exists g, fe_decode (fe_encode f) = Ok g /\ eqp (feval g) (feval f).
Proof.
  intros B. rewrite (fe_encode_ok f B). set (v := feval f mod p25519).
  assert (R : 0 <= v < p25519) by (apply Z.mod_pos_bound; reflexivity).
  destruct (decode_ok (le_bytes 32 v)) as (g & D & _ & E & _); [apply le_bytes_wf|apply le_bytes_length|].
  exists g. split; [exact D|]. rewrite le_bytes_val in E.
  change (256 ^ Z.of_nat 32) with (2 ^ 256) in E. unfold p25519 in R.
  rewrite (Z.mod_small v) in E by lia. rewrite (Z.mod_small v) in E by lia.
  apply mod_eq_div; [discriminate|]. apply mod_eq_div in E; [|discriminate].
  rewrite E. unfold v. apply Zmod_mod.
Qed.
Lemma byte_at_firstn b i n : (i < n)%nat -> byte_at (firstn n b) i = byte_at b i.
Proof.
  unfold byte_at. revert i b. induction n as [|n IH]; intros i b H; [lia|].
  destruct b as [|x b]; [destruct i; reflexivity|]. destruct i; cbn; [reflexivity|]. apply IH. lia.
Qed.
Lemma decode_long b : wf_bytes b -> (32 <= length b)%nat -> fe_decode b = fe_decode (firstn 32 b).
Proof.
  intros W L. unfold fe_decode. rewrite firstn_length_le by lia.
  replace (Nat.ltb (length b) 32) with false by (symmetry; apply Nat.ltb_ge; lia).
  cbn [Nat.ltb Nat.leb]. f_equal. unfold fe_decode32. do 2 f_equal. f_equal.
  unfold decode_limbs, load3, load4. cbn [Nat.add]. rewrite !byte_at_firstn by lia. reflexivity.
Qed.
Lemma decode_short b : (length b < 32)%nat -> fe_decode b = Panic.
Proof. intros H. unfold fe_decode. now replace (Nat.ltb (length b) 32) with true by (symmetry; apply Nat.ltb_lt; lia). Qed.
Lemma wf_repeat x n : is_byte x -> wf_bytes (repeat x n).
Proof. intros H. apply Forall_forall. intros y Hy. apply repeat_spec in Hy. now subst. Qed.
Lemma ex_ff : wf_bytes (repeat 255 32) /\ length (repeat 255 32) = 32%nat /\ le_val (repeat 255 32) >= p25519.
Proof. split; [apply wf_repeat; unfold is_byte; lia|]. split; [reflexivity|]. vm_compute. congruence. Qed.

Lemma sqrt_ok u v : bnd 330 u -> bnd 330 v -> rF v <> F0 ->
  let x := rF (fe_sqrt u v) in
  ((rF v * (x * x) = rF u \/ rF v * (x * x) = - rF u)%F <-> exists s, (rF v * (s * s) = rF u)%F) /\
  bnd 101 (fe_sqrt u v).
Proof.
  intros Bu Bv N x. destruct (rF_sqrt u v Bu Bv) as [E B]. split; [|exact B].
  unfold x. rewrite E. split.
  - intros [H|H]; [eexists; exact H|]. exists (Fsqrt_cand (rF u) (rF v) * Fi)%F. apply Fi_fix, H.
  - intros [s H]. exact (sqrt_cand_complete _ _ s N H).
Qed.
Lemma sqrt_zero u v : bnd 330 u -> bnd 330 v -> rF u = F0 -> rF (fe_sqrt u v) = F0.
Proof.
  intros Bu Bv H. destruct (rF_sqrt u v Bu Bv) as [E _]. rewrite E, H. unfold Fsqrt_cand. ring.
Qed.
Lemma two_nonsquare : ~ is_square (inF 2).
Proof.
  intros H. pose proof (square_euler _ H F2_nz) as E. rewrite <- half_p_eq in E.
  apply (f_equal val) in E. rewrite <- powp_val in E. vm_compute in E. discriminate E.
Qed.
Lemma ex_sqrt : bnd 330 (Fe 4 0 0 0 0 0 0 0 0 0) /\ bnd 330 (Fe 9 0 0 0 0 0 0 0 0 0) /\
  rF (Fe 9 0 0 0 0 0 0 0 0 0) <> F0 /\
  (exists s, rF (Fe 9 0 0 0 0 0 0 0 0 0) * (s * s) = rF (Fe 4 0 0 0 0 0 0 0 0 0))%F /\
  ~ (exists s, rF (Fe 1 0 0 0 0 0 0 0 0 0) * (s * s) = rF (Fe 2 0 0 0 0 0 0 0 0 0))%F.
Proof.
  assert (E1 : rF (Fe 1 0 0 0 0 0 0 0 0 0) = F1) by (apply F_eq; vm_compute; reflexivity).
  assert (E2 : rF (Fe 2 0 0 0 0 0 0 0 0 0) = inF 2) by (apply F_eq; vm_compute; reflexivity).
  assert (E4 : rF (Fe 4 0 0 0 0 0 0 0 0 0) = inF 4) by (apply F_eq; vm_compute; reflexivity).
  assert (E9 : rF (Fe 9 0 0 0 0 0 0 0 0 0) = inF 9) by (apply F_eq; vm_compute; reflexivity).
  assert (N3 : inF 3 <> F0) by (intros H; apply (f_equal val) in H; vm_compute in H; discriminate H).
  split; [bndc|]. split; [bndc|]. rewrite E1, E2, E4, E9.
  split; [intros H; apply (f_equal val) in H; vm_compute in H; discriminate H|]. split.
  - exists (inF 2 / inF 3)%F. field. exact N3.
  - intros [s H]. apply two_nonsquare. exists s. rewrite <- H. ring.
Qed.

Lemma modQ_bytes b : wf_bytes b -> length b = 64%nat -> sc_modQ b = Ok (le_bytes 32 (le_val b mod q25519)).
Proof.
  intros W L. unfold sc_modQ. rewrite L. cbn [Nat.ltb Nat.leb].
  rewrite sc_modQ64_ok by (assumption || lia). rewrite firstn_all2 by lia. reflexivity.
Qed.
Lemma q_small x : le_val (le_bytes 32 (x mod q25519)) = x mod q25519.
Proof.
  rewrite le_bytes_val. apply Z.mod_small. pose proof (Z.mod_pos_bound x q25519 ltac:(reflexivity)).
  change (256 ^ Z.of_nat 32) with (2 ^ 256). unfold q25519 in *. lia.
Qed.
Lemma modQ_ok b : wf_bytes b -> length b = 64%nat ->
  exists r, sc_modQ b = Ok r /\ length r = 32%nat /\ wf_bytes r /\ le_val r = le_val b mod q25519.
Proof.
  intros W L. eexists. split; [apply modQ_bytes; assumption|].
  split; [apply le_bytes_length|]. split; [apply le_bytes_wf|]. apply q_small.
Qed.
Lemma modQ_short b : (length b < 64)%nat -> sc_modQ b = Panic.
Proof. intros H. unfold sc_modQ. now replace (Nat.ltb (length b) 64) with true by (symmetry; apply Nat.ltb_lt; lia). Qed.
Lemma ex_modQ : exists b, wf_bytes b /\ length b = 64%nat /\ q25519 < le_val b /\ le_val b mod q25519 <> 0.
Proof.
  exists (repeat 255 64). split; [apply wf_repeat; unfold is_byte; lia|]. split; [reflexivity|].
  split; vm_compute; congruence.
Qed.
Lemma mulAdd_bytes a b c : wf_bytes a -> wf_bytes b -> wf_bytes c ->
  length a = 32%nat -> length b = 32%nat -> length c = 32%nat ->
  sc_mulAdd a b c = Ok (le_bytes 32 ((le_val a * le_val b + le_val c) mod q25519)).
Proof.
  intros Wa Wb Wc La Lb Lc. unfold sc_mulAdd. rewrite La, Lb, Lc. cbn [Nat.ltb Nat.leb orb].
  rewrite sc_mulAdd32_ok by (assumption || lia). rewrite !firstn_all2 by lia. reflexivity.
Qed.
Lemma mulAdd_ok a b c : wf_bytes a -> wf_bytes b -> wf_bytes c ->
  length a = 32%nat -> length b = 32%nat -> length c = 32%nat ->
  exists r, sc_mulAdd a b c = Ok r /\ length r = 32%nat /\ wf_bytes r /\
    le_val r = (le_val a * le_val b + le_val c) mod q25519.
Proof.
  intros. eexists. split; [apply mulAdd_bytes; assumption|].
  split; [apply le_bytes_length|]. split; [apply le_bytes_wf|]. apply q_small.
Qed.
Lemma ex_mulAdd : exists a, wf_bytes a /\ length a = 32%nat /\ q25519 < le_val a.
Proof.
  exists (repeat 255 32). split; [apply wf_repeat; unfold is_byte; lia|]. split; [reflexivity|].
  vm_compute; congruence.
Qed.
Lemma modQ_long b : wf_bytes b -> (64 <= length b)%nat -> sc_modQ b = Ok (le_bytes 32 (le_val (firstn 64 b) mod q25519)).
Proof.
  intros W L. unfold sc_modQ. replace (Nat.ltb (length b) 64) with false by (symmetry; apply Nat.ltb_ge; lia).
  rewrite sc_modQ64_ok by (assumption || lia). reflexivity.
Qed.
Lemma mulAdd_long a b c : wf_bytes a -> wf_bytes b -> wf_bytes c ->
  (32 <= length a)%nat -> (32 <= length b)%nat -> (32 <= length c)%nat ->
  sc_mulAdd a b c = Ok (le_bytes 32 ((le_val (firstn 32 a) * le_val (firstn 32 b) + le_val (firstn 32 c)) mod q25519)).
Proof.
  intros Wa Wb Wc La Lb Lc. unfold sc_mulAdd.
  rewrite (proj2 (Nat.ltb_ge _ _) La), (proj2 (Nat.ltb_ge _ _) Lb), (proj2 (Nat.ltb_ge _ _) Lc). cbn [orb].
  rewrite sc_mulAdd32_ok by (assumption || lia). reflexivity.
Qed.
Lemma mulAdd_short a b c : (length a < 32)%nat \/ (length b < 32)%nat \/ (length c < 32)%nat -> sc_mulAdd a b c = Panic.
Proof.
  intros H. unfold sc_mulAdd. destruct (Nat.ltb_spec (length a) 32), (Nat.ltb_spec (length b) 32), (Nat.ltb_spec (length c) 32); try reflexivity. lia.
Qed.
Lemma ex_long : exists a, wf_bytes a /\ (64 < length a)%nat /\ q25519 < le_val (firstn 64 a) /\ firstn 64 a <> a.
Proof.
  exists (repeat 255 70). split; [apply wf_repeat; unfold is_byte; lia|]. rewrite repeat_length. split; [lia|].
  split; vm_compute; congruence.
Qed.
