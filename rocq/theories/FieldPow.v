(** The field operations seen as operations of F; the power chains of invert and sqrt. *)
From Coq Require Import List ZArith Lia Bool.
From Verif Require Import GoBase Slp FieldModel FieldSpec FieldProofs ByteLemmas EncodeProofs
  Primality Fp Curve GroupSpec.
Import ListNotations.
Open Scope Z_scope.

Lemma val_rF f : val (rF f) = feval f mod p25519.
Proof. apply val_inF. Qed.
Lemma rF_mul f g : bnd 330 f -> bnd 330 g -> rF (fe_mul f g) = (rF f * rF g)%F.
Proof.
  intros A B. destruct (fe_mul_ok f g A B) as (_ & H & _). unfold rF. rewrite <- inF_mul.
  apply inF_eqp, H.
Qed.
Lemma bnd_mul f g : bnd 330 f -> bnd 330 g -> bnd 101 (fe_mul f g).
Proof. intros A B. apply (fe_mul_ok f g A B). Qed.
Lemma rF_sq f : bnd 330 f -> rF (fe_sq f) = (rF f * rF f)%F.
Proof.
  intros A. destruct (fe_sqopt_ok false f A) as (_ & H & _). unfold rF, fe_sq. rewrite <- inF_mul.
  apply inF_eqp. now rewrite Z.mul_1_l in H.
Qed.
Lemma bnd_sq f : bnd 330 f -> bnd 101 (fe_sq f).
Proof. intros A. apply (fe_sqopt_ok false f A). Qed.
Lemma rF_sq2 f : bnd 330 f -> rF (fe_sq2 f) = (inF 2 * (rF f * rF f))%F.
Proof.
  intros A. destruct (fe_sqopt_ok true f A) as (_ & H & _). unfold rF, fe_sq2. rewrite <- !inF_mul.
  apply inF_eqp, H.
Qed.
Lemma bnd_sq2 f : bnd 330 f -> bnd 101 (fe_sq2 f).
Proof. intros A. apply (fe_sqopt_ok true f A). Qed.
Lemma rF_add j k f g : bnd j f -> bnd k g -> j <= 1000000 -> k <= 1000000 ->
  rF (fe_add f g) = (rF f + rF g)%F.
Proof.
  intros A B C D. destruct (fe_add_ok j k f g A B C D) as (_ & H & _). unfold rF. rewrite H. apply inF_add.
Qed.
Lemma bnd_add j k l f g : bnd j f -> bnd k g -> j <= 1000000 -> k <= 1000000 -> j + k <= l ->
  bnd l (fe_add f g).
Proof.
  intros A B C D L. destruct (fe_add_ok j k f g A B C D) as (_ & _ & H). exact (bnd_mono _ _ _ H L).
Qed.
Lemma rF_sub j k f g : bnd j f -> bnd k g -> j <= 1000000 -> k <= 1000000 ->
  rF (fe_sub f g) = (rF f - rF g)%F.
Proof.
  intros A B C D. destruct (fe_sub_ok j k f g A B C D) as (_ & H & _). unfold rF. rewrite H. apply inF_sub.
Qed.
Lemma bnd_sub j k l f g : bnd j f -> bnd k g -> j <= 1000000 -> k <= 1000000 -> j + k <= l ->
  bnd l (fe_sub f g).
Proof.
  intros A B C D L. destruct (fe_sub_ok j k f g A B C D) as (_ & _ & H). exact (bnd_mono _ _ _ H L).
Qed.
Lemma rF_neg j f : bnd j f -> j <= 1000000 -> rF (fe_neg f) = (- rF f)%F.
Proof.
  intros A C. destruct (fe_neg_ok j f A C) as (_ & H & _). unfold rF. rewrite H. apply inF_opp.
Qed.
Lemma bnd_neg j f : bnd j f -> j <= 1000000 -> bnd j (fe_neg f).
Proof. intros A C. apply (fe_neg_ok j f A C). Qed.

(** ** encoding and predicates *)
Lemma fe_encode_rF f : bnd 1000 f -> fe_encode f = le_bytes 32 (val (rF f)).
Proof. intros H. rewrite (fe_encode_ok f H), val_rF. reflexivity. Qed.
Lemma val_small a : 0 <= val a < 256 ^ Z.of_nat 32.
Proof. pose proof (val_range a). change (256 ^ Z.of_nat 32) with (2 ^ 256). unfold p25519 in *. lia. Qed.
Lemma le_bytes_val_F a : le_val (le_bytes 32 (val a)) = val a.
Proof. rewrite le_bytes_val. apply Z.mod_small, val_small. Qed.
Lemma le_bytes_F_inj a b : le_bytes 32 (val a) = le_bytes 32 (val b) -> a = b.
Proof. intros H. apply F_eq. rewrite <- (le_bytes_val_F a), <- (le_bytes_val_F b), H. reflexivity. Qed.
Lemma fe_equals_rF f g : bnd 1000 f -> bnd 1000 g -> (fe_equals f g = true <-> rF f = rF g).
Proof.
  intros A B. unfold fe_equals. rewrite (fe_encode_rF f A), (fe_encode_rF g B), ct_equal_eq.
  split; [apply le_bytes_F_inj|intros ->; reflexivity].
Qed.
Lemma val_F0 : val F0 = 0. Proof. reflexivity. Qed.
Lemma val_F1 : val F1 = 1. Proof. reflexivity. Qed.
Lemma fe_is_nonzero_rF f : bnd 1000 f -> (fe_is_nonzero f = true <-> rF f <> F0).
Proof.
  intros A. unfold fe_is_nonzero, efe_is_nonzero. rewrite negb_true_iff, ct_equal_neq.
  rewrite (fe_encode_rF f A), le_bytes_length.
  assert (E : all_zero 32 = le_bytes 32 (val F0)) by reflexivity. rewrite E. split.
  - intros H G. apply H. now rewrite G.
  - intros H G. apply H. apply le_bytes_F_inj, G.
Qed.
Lemma fe_is_nonzero_false f : bnd 1000 f -> (fe_is_nonzero f = false <-> rF f = F0).
Proof.
  intros A. rewrite <- not_true_iff_false, (fe_is_nonzero_rF f A).
  destruct (F_eq_dec (rF f) F0); intuition.
Qed.
Lemma land1_odd x : negb (Z.land x 1 =? 0) = Z.odd x.
Proof.
  replace (Z.land x 1) with (Z.land x (Z.ones 1)) by reflexivity.
  rewrite Z.land_ones by lia. change (2 ^ 1) with 2. rewrite Zmod_odd. now destruct (Z.odd x).
Qed.
Lemma fe_is_negative_rF f : bnd 1000 f -> fe_is_negative f = Fneg (rF f).
Proof.
  intros A. unfold fe_is_negative, efe_is_negative. rewrite land1_odd, (fe_encode_rF f A).
  unfold Fneg. change (byte_at (le_bytes 32 (val (rF f))) 0) with (val (rF f) mod 256).
  rewrite (Z.div_mod (val (rF f)) 256) at 2 by discriminate.
  rewrite Z.odd_add, Z.odd_mul. change (Z.odd 256) with false. cbn [andb].
  now destruct (Z.odd (val (rF f) mod 256)).
Qed.

(** ** constants *)
Lemma rF_zero : rF fe_zero = F0. Proof. apply F_eq. vm_compute. reflexivity. Qed.
Lemma rF_one : rF fe_one = F1. Proof. apply F_eq. vm_compute. reflexivity. Qed.
Lemma rF_two : rF fe_two = inF 2. Proof. apply F_eq. vm_compute. reflexivity. Qed.
Ltac bnd_const := unfold bnd; repeat split; vm_compute; congruence.
Lemma bnd_zero : bnd 101 fe_zero. Proof. bnd_const. Qed.
Lemma bnd_one : bnd 101 fe_one. Proof. bnd_const. Qed.
Lemma bnd_two : bnd 101 fe_two. Proof. bnd_const. Qed.

(** ** power chains *)
Definition pw (x : fe) (n : Z) (f : fe) : Prop := rF f = Fpow (rF x) n /\ bnd 101 f.
Lemma pw_b x n f : pw x n f -> bnd 330 f.
Proof. intros [_ B]. apply (bnd_mono _ _ _ B). lia. Qed.
Lemma pw_sq x n f : 0 <= n -> pw x n f -> pw x (2 * n) (fe_sq f).
Proof.
  intros Hn H. pose proof (pw_b _ _ _ H) as B. destruct H as [H _]. split; [|apply bnd_sq, B].
  rewrite (rF_sq _ B), H, <- Fpow_add by assumption. f_equal. lia.
Qed.
Lemma pw_mul x m n f g : 0 <= m -> 0 <= n -> pw x m f -> pw x n g -> pw x (m + n) (fe_mul f g).
Proof.
  intros Hm Hn H G. pose proof (pw_b _ _ _ H) as B. pose proof (pw_b _ _ _ G) as C.
  split; [|apply bnd_mul; assumption].
  destruct H as [H _], G as [G _]. rewrite (rF_mul _ _ B C), H, G, Fpow_add by assumption. reflexivity.
Qed.
Lemma pw_sqn x k : forall n f, 0 <= n -> pw x n f -> pw x (2 ^ Z.of_nat k * n) (fe_sqn k f).
Proof.
  induction k as [|k IH]; intros n f Hn H; cbn [fe_sqn].
  - change (2 ^ Z.of_nat 0) with 1. now rewrite Z.mul_1_l.
  - replace (2 ^ Z.of_nat (S k) * n) with (2 ^ Z.of_nat k * (2 * n))
      by (rewrite Nat2Z.inj_succ, Z.pow_succ_r by lia; ring).
    apply IH; [lia|]. apply pw_sq; assumption.
Qed.
Lemma pw_cast x m n f : m = n -> pw x m f -> pw x n f.
Proof. intros ->. exact (fun H => H). Qed.
Lemma pw_sq_c x m n f : pw x n f -> (0 <=? n) && (m =? 2 * n) = true -> pw x m (fe_sq f).
Proof.
  intros H. rewrite andb_true_iff, Z.leb_le, Z.eqb_eq. intros [A ->]. now apply pw_sq.
Qed.
Lemma pw_mul_c x l m n f g : pw x m f -> pw x n g ->
  (0 <=? m) && (0 <=? n) && (l =? m + n) = true -> pw x l (fe_mul f g).
Proof.
  intros H G. rewrite !andb_true_iff, !Z.leb_le, Z.eqb_eq. intros [[A B] ->]. now apply pw_mul.
Qed.
Lemma pw_sqn_c x k l n f : pw x n f -> (0 <=? n) && (l =? 2 ^ Z.of_nat k * n) = true -> pw x l (fe_sqn k f).
Proof.
  intros H. rewrite andb_true_iff, Z.leb_le, Z.eqb_eq. intros [A ->]. now apply pw_sqn.
Qed.

Section chain.
Variable x : fe.
Hypothesis Bx : bnd 330 x.
Lemma sq_first : pw x 2 (fe_sq x).
Proof.
  split; [|apply bnd_sq, Bx]. rewrite (rF_sq _ Bx). change 2 with (1 + 1).
  rewrite Fpow_add, Fpow_1 by lia. reflexivity.
Qed.
Lemma pow9 : pw x 9 (fe_pow2to9 x).
Proof.
  unfold fe_pow2to9.
  assert (H : pw x 8 (fe_sq (fe_sq (fe_sq x)))).
  { eapply pw_sq_c with (n := 4); [|reflexivity]. eapply pw_sq_c with (n := 2); [|reflexivity]. exact sq_first. }
  pose proof (pw_b _ _ _ H) as B.
  split; [|apply bnd_mul; assumption].
  destruct H as [H _]. rewrite (rF_mul _ _ Bx B), H. change 9 with (1 + 8).
  rewrite Fpow_add, Fpow_1 by lia. reflexivity.
Qed.
Lemma pow2to252sub4_pw : pw x (2 ^ 252 - 4) (fe_pow2to252sub4 x).
Proof.
  unfold fe_pow2to252sub4. cbv zeta.
  pose proof sq_first as a0. pose proof pow9 as a1.
  set (f0 := fe_sq x) in *. set (f1 := fe_pow2to9 x) in *. clearbody f0 f1.
  pose proof (pw_mul_c x 11 _ _ _ _ a0 a1 eq_refl) as a2. set (f2 := fe_mul f0 f1) in *. clearbody f2.
  pose proof (pw_sq_c x 22 _ _ a2 eq_refl) as a3. set (f3 := fe_sq f2) in *. clearbody f3.
  pose proof (pw_mul_c x 31 _ _ _ _ a1 a3 eq_refl) as a4. set (f4 := fe_mul f1 f3) in *. clearbody f4.
  pose proof (pw_sq_c x 62 _ _ a4 eq_refl) as a5. set (f5 := fe_sq f4) in *. clearbody f5.
  pose proof (pw_sqn_c x 4 (62 * 16) _ _ a5 eq_refl) as a6. set (f6 := fe_sqn 4 f5) in *. clearbody f6.
  pose proof (pw_mul_c x (2 ^ 10 - 1) _ _ _ _ a6 a4 eq_refl) as a7. set (f7 := fe_mul f6 f4) in *. clearbody f7.
  pose proof (pw_sq_c x (2 ^ 11 - 2) _ _ a7 eq_refl) as a8. set (f8 := fe_sq f7) in *. clearbody f8.
  pose proof (pw_sqn_c x 9 (2 ^ 20 - 2 ^ 10) _ _ a8 eq_refl) as a9. set (f9 := fe_sqn 9 f8) in *. clearbody f9.
  pose proof (pw_mul_c x (2 ^ 20 - 1) _ _ _ _ a9 a7 eq_refl) as b0. set (g0 := fe_mul f9 f7) in *. clearbody g0.
  pose proof (pw_sq_c x (2 ^ 21 - 2) _ _ b0 eq_refl) as b1. set (g1 := fe_sq g0) in *. clearbody g1.
  pose proof (pw_sqn_c x 19 (2 ^ 40 - 2 ^ 20) _ _ b1 eq_refl) as b2. set (g2 := fe_sqn 19 g1) in *. clearbody g2.
  pose proof (pw_mul_c x (2 ^ 40 - 1) _ _ _ _ b2 b0 eq_refl) as b3. set (g3 := fe_mul g2 g0) in *. clearbody g3.
  pose proof (pw_sq_c x (2 ^ 41 - 2) _ _ b3 eq_refl) as b4. set (g4 := fe_sq g3) in *. clearbody g4.
  pose proof (pw_sqn_c x 9 (2 ^ 50 - 2 ^ 10) _ _ b4 eq_refl) as b5. set (g5 := fe_sqn 9 g4) in *. clearbody g5.
  pose proof (pw_mul_c x (2 ^ 50 - 1) _ _ _ _ b5 a7 eq_refl) as b6. set (g6 := fe_mul g5 f7) in *. clearbody g6.
  pose proof (pw_sq_c x (2 ^ 51 - 2) _ _ b6 eq_refl) as b7. set (g7 := fe_sq g6) in *. clearbody g7.
  pose proof (pw_sqn_c x 49 (2 ^ 100 - 2 ^ 50) _ _ b7 eq_refl) as b8. set (g8 := fe_sqn 49 g7) in *. clearbody g8.
  pose proof (pw_mul_c x (2 ^ 100 - 1) _ _ _ _ b8 b6 eq_refl) as b9. set (g9 := fe_mul g8 g6) in *. clearbody g9.
  pose proof (pw_sq_c x (2 ^ 101 - 2) _ _ b9 eq_refl) as c0. set (h0 := fe_sq g9) in *. clearbody h0.
  pose proof (pw_sqn_c x 99 (2 ^ 200 - 2 ^ 100) _ _ c0 eq_refl) as c1. set (h1 := fe_sqn 99 h0) in *. clearbody h1.
  pose proof (pw_mul_c x (2 ^ 200 - 1) _ _ _ _ c1 b9 eq_refl) as c2. set (h2 := fe_mul h1 g9) in *. clearbody h2.
  pose proof (pw_sq_c x (2 ^ 201 - 2) _ _ c2 eq_refl) as c3. set (h3 := fe_sq h2) in *. clearbody h3.
  pose proof (pw_sqn_c x 49 (2 ^ 250 - 2 ^ 50) _ _ c3 eq_refl) as c4. set (h4 := fe_sqn 49 h3) in *. clearbody h4.
  pose proof (pw_mul_c x (2 ^ 250 - 1) _ _ _ _ c4 b6 eq_refl) as c5. set (h5 := fe_mul h4 g6) in *. clearbody h5.
  pose proof (pw_sq_c x (2 ^ 251 - 2) _ _ c5 eq_refl) as c6. set (h6 := fe_sq h5) in *. clearbody h6.
  exact (pw_sq_c x (2 ^ 252 - 4) _ _ c6 eq_refl).
Qed.
Lemma invert_pw : pw x (p25519 - 2) (fe_invert x).
Proof.
  unfold fe_invert. cbv zeta.
  pose proof (pw_mul_c x 11 _ _ _ _ sq_first pow9 eq_refl) as a2.
  pose proof (pw_sqn_c x 3 (2 ^ 255 - 32) _ _ pow2to252sub4_pw eq_refl) as a3.
  exact (pw_mul_c x (p25519 - 2) _ _ _ _ a3 a2 eq_refl).
Qed.
Lemma rF_invert : rF (fe_invert x) = Finv (rF x).
Proof. destruct invert_pw as [H _]. exact H. Qed.
Lemma bnd_invert : bnd 101 (fe_invert x).
Proof. apply invert_pw. Qed.
End chain.

(** ** sqrt *)
Definition e252 : Z := 2 ^ 252 - 3.
Lemma e252_eq : 8 * e252 = p25519 - 5. Proof. reflexivity. Qed.
Definition Fsqrt_cand (u v : F) : F :=
  (v * v * v * u * Fpow (v * v * v * (v * v * v) * v * u) e252)%F.
Lemma rF_sqrt u v : bnd 330 u -> bnd 330 v ->
  rF (fe_sqrt u v) = Fsqrt_cand (rF u) (rF v) /\ bnd 101 (fe_sqrt u v).
Proof.
  intros Bu Bv. unfold fe_sqrt, Fsqrt_cand.
  assert (W : forall f, bnd 101 f -> bnd 330 f) by (intros f H; apply (bnd_mono _ _ _ H); lia).
  pose proof (bnd_sq v Bv) as B1. pose proof (bnd_mul _ _ (W _ B1) Bv) as B2.
  set (v3 := fe_mul (fe_sq v) v) in *.
  assert (E2 : rF v3 = (rF v * rF v * rF v)%F) by (unfold v3; rewrite (rF_mul _ _ (W _ B1) Bv), (rF_sq _ Bv); reflexivity).
  pose proof (bnd_sq v3 (W _ B2)) as B3. pose proof (bnd_mul _ _ (W _ B3) Bv) as B4.
  pose proof (bnd_mul _ _ (W _ B4) Bu) as B5.
  set (x := fe_mul (fe_mul (fe_sq v3) v) u) in *.
  assert (E5 : rF x = (rF v3 * rF v3 * rF v * rF u)%F).
  { unfold x. rewrite (rF_mul _ _ (W _ B4) Bu), (rF_mul _ _ (W _ B3) Bv), (rF_sq _ (W _ B2)). reflexivity. }
  pose proof (pow2to252sub4_pw x (W _ B5)) as [E6 B6].
  pose proof (bnd_mul _ _ (W _ B6) (W _ B5)) as B7.
  pose proof (bnd_mul _ _ (W _ B2) Bu) as B8.
  split; [|apply bnd_mul; apply W; assumption].
  rewrite (rF_mul _ _ (W _ B8) (W _ B7)), (rF_mul _ _ (W _ B2) Bu), (rF_mul _ _ (W _ B6) (W _ B5)), E6.
  assert (E7 : (Fpow (rF x) (2 ^ 252 - 4) * rF x = Fpow (rF x) e252)%F).
  { change e252 with (2 ^ 252 - 4 + 1). rewrite Fpow_add by discriminate. now rewrite Fpow_1. }
  rewrite E7, E5, E2. reflexivity.
Qed.

(** v x^2 = u (u v^7)^((p-1)/4) *)
Lemma p14 : (p25519 - 1) / 4 = 2 * e252 + 1. Proof. reflexivity. Qed.
Lemma sqrt_cand_sq u v : (v * (Fsqrt_cand u v * Fsqrt_cand u v) =
  u * Fpow (u * (v * v * v * v * v * v * v)) ((p25519 - 1) / 4))%F.
Proof.
  unfold Fsqrt_cand. rewrite p14.
  assert (E : (v * v * v * (v * v * v) * v * u = u * (v * v * v * v * v * v * v))%F) by ring.
  rewrite E. set (w := (u * (v * v * v * v * v * v * v))%F) in *.
  replace (2 * e252 + 1) with (e252 + e252 + 1) by lia.
  rewrite !Fpow_add, Fpow_1 by discriminate. unfold w. ring.
Qed.
Lemma pow_quarter_square w s : w <> F0 -> (s * s = w)%F ->
  Fpow w ((p25519 - 1) / 4) = F1 \/ Fpow w ((p25519 - 1) / 4) = (- F1)%F.
Proof.
  intros H S. apply F_sq_eq. rewrite p14, <- Fpow_add by (vm_compute; congruence).
  replace (2 * e252 + 1 + (2 * e252 + 1)) with ((p25519 - 1) / 2) by (vm_compute; reflexivity).
  transitivity F1; [|ring]. apply square_euler; [exists s; exact S|exact H].
Qed.
(** the acceptance test of the decoder is exact: with v <> 0, one of v x^2 = u, v x^2 = -u holds
    for the candidate x if and only if u / v is a square *)
Theorem sqrt_cand_complete u v s : v <> F0 -> (v * (s * s) = u)%F ->
  (v * (Fsqrt_cand u v * Fsqrt_cand u v) = u)%F \/ (v * (Fsqrt_cand u v * Fsqrt_cand u v) = - u)%F.
Proof.
  intros Hv Hs. rewrite sqrt_cand_sq. set (w := (u * (v * v * v * v * v * v * v))%F).
  destruct (F_eq_dec u F0) as [U|U].
  { left. rewrite U. ring. }
  assert (W : w <> F0) by (unfold w; repeat apply F_mul_nz; assumption).
  assert (S : ((v * v * v * v * s) * (v * v * v * v * s) = w)%F) by (unfold w; rewrite <- Hs; ring).
  destruct (pow_quarter_square w _ W S) as [E|E]; rewrite E; [left|right]; ring.
Qed.
Lemma Fi_fix u v x : (v * (x * x) = - u)%F -> (v * ((x * Fi) * (x * Fi)) = u)%F.
Proof.
  intros H. transitivity (v * (x * x) * (Fi * Fi))%F; [ring|]. rewrite H, Fi_sq. ring.
Qed.
