(** Lemmas behind C79: the conversions of MathUtils. *)
From Coq Require Import List ZArith Lia Bool Ring Field.
From Verif Require Import GoBase FieldModel FieldSpec FieldProofs ByteLemmas EncodeProofs Fp Curve BasePoint
  GroupModel GroupSpec FieldPow GroupProofs PointCodec ScalarModel ApiModel ApiProofs PropFieldLemmas MathModel MathProofs MathDecode
  ExprModel ExprSpec PropExprLemmas.
Import ListNotations.
Open Scope Z_scope.

Lemma pow_256_32 : 256 ^ Z.of_nat 32 = 2 ^ 256. Proof. reflexivity. Qed.
Lemma field_int f : bnd 1000 f -> math_FieldToBigInteger f = feval f mod p25519.
Proof. intros B. rewrite field_value by exact B. unfold rF. apply val_inF. Qed.

Lemma to_bytes_low b : b < 2 ^ 256 -> math_ToByteArray b = Ok (le_bytes 32 (Z.abs b)).
Proof.
  intros L. unfold math_ToByteArray. replace (2 ^ 256 <=? b) with false by (symmetry; apply Z.leb_gt; exact L). reflexivity.
Qed.
Lemma to_bytes_panic b : math_ToByteArray b = Panic <-> 2 ^ 256 <= b.
Proof. unfold math_ToByteArray. destruct (2 ^ 256 <=? b) eqn:C; rewrite ?Z.leb_le, ?Z.leb_gt in C; split; intros X; try reflexivity; try discriminate X; lia. Qed.
Lemma to_bytes_value b : b < 2 ^ 256 ->
  exists r, math_ToByteArray b = Ok r /\ length r = 32%nat /\ wf_bytes r /\ le_val r = Z.abs b mod 2 ^ 256.
Proof.
  intros L. exists (le_bytes 32 (Z.abs b)). split; [apply to_bytes_low, L|]. split; [apply le_bytes_length|].
  split; [apply le_bytes_wf|]. rewrite le_bytes_val, pow_256_32. reflexivity.
Qed.
Lemma to_encoded b : math_ToEncodedFieldElement b = math_ToByteArray b /\ math_toEncodedFieldElement b = math_ToByteArray b.
Proof.
  unfold math_ToEncodedFieldElement, math_toEncodedFieldElement, new_efe.
  destruct (Z.lt_ge_cases b (2 ^ 256)) as [L|L].
  - rewrite (to_bytes_low b L). cbn [bind]. rewrite le_bytes_length. split; reflexivity.
  - apply to_bytes_panic in L. rewrite L. split; reflexivity.
Qed.
Lemma to_field b : b < 2 ^ 256 ->
  exists f, math_ToFieldElement b = Ok f /\ bnd 101 f /\ eqp (feval f) (Z.abs b mod 2 ^ 255).
Proof.
  intros L. unfold math_ToFieldElement. rewrite (to_bytes_low b L). cbn [bind].
  destruct (decode_ok (le_bytes 32 (Z.abs b)) (le_bytes_wf _ _) (le_bytes_length _ _)) as (f & E & B & V & _).
  exists f. split; [exact E|]. split; [exact B|]. rewrite le_bytes_val, pow_256_32 in V.
  replace ((Z.abs b mod 2 ^ 256) mod 2 ^ 255) with (Z.abs b mod 2 ^ 255) in V; [exact V|].
  change (2 ^ 256) with (2 ^ 255 * 2). rewrite Z.rem_mul_r by lia.
  rewrite (Z.mul_comm (2 ^ 255)), Z.mod_add by lia. symmetry. apply Z.mod_mod. lia.
Qed.
Lemma to_field_panic b : math_ToFieldElement b = Panic <-> 2 ^ 256 <= b.
Proof.
  split.
  - intros X. destruct (Z.lt_ge_cases b (2 ^ 256)) as [L|L]; [|exact L]. destruct (to_field b L) as (f & E & _). rewrite E in X. discriminate X.
  - intros L. apply to_bytes_panic in L. unfold math_ToFieldElement. rewrite L. reflexivity.
Qed.
(** round trips *)
Lemma back_bytes b : wf_bytes b -> length b = 32%nat -> math_ToByteArray (math_BytesToBigInteger b) = Ok b.
Proof.
  intros W L. rewrite bytes_value by exact W. pose proof (le_val_bound b W) as R. rewrite L, pow_256_32 in R.
  rewrite to_bytes_low by lia. rewrite Z.abs_eq by lia. apply f_equal. rewrite <- L at 1. apply le_val_inv, W.
Qed.
Lemma back_int b : 0 <= b < 2 ^ 256 -> exists r, math_ToEncodedFieldElement b = Ok r /\ math_BytesToBigInteger r = b.
Proof.
  intros L. destruct (to_bytes_value b) as (r & E & _ & W & V); [lia|]. exists r. rewrite (proj1 (to_encoded b)). split; [exact E|].
  rewrite bytes_value by exact W. rewrite V, Z.abs_eq, Z.mod_small by lia. reflexivity.
Qed.
Lemma eqp_mod_eq a b : eqp a b -> a mod p25519 = b mod p25519.
Proof. intros (k & E). replace a with (b + k * p25519) by lia. apply Z.mod_add. discriminate. Qed.
Lemma back_field_int b : 0 <= b < 2 ^ 255 -> exists f, math_ToFieldElement b = Ok f /\ math_FieldToBigInteger f = b mod p25519.
Proof.
  intros L. destruct (to_field b) as (f & E & B & V); [lia|]. exists f. split; [exact E|].
  rewrite field_int by (apply (bnd_mono _ _ _ B); lia). rewrite Z.abs_eq, (Z.mod_small b) in V by lia. apply eqp_mod_eq, V.
Qed.
Lemma back_field f : bnd 1000 f -> exists g, math_ToFieldElement (math_FieldToBigInteger f) = Ok g /\ fe_equals g f = true.
Proof.
  intros B. rewrite field_int by exact B.
  pose proof (Z.mod_pos_bound (feval f) p25519 eq_refl) as R.
  destruct (to_fe_mod (feval f)) as (g & E & V & Bg). exists g. split; [exact E|].
  apply equals_ok; [apply (bnd_mono _ _ _ Bg); lia|exact B|]. apply inF_eqp. exact V.
Qed.
(** above 2^255 and below 0 a field element is not the integer it was made from *)
Lemma field_refuted :
  (exists b f, 0 <= b < 2 ^ 256 /\ math_ToFieldElement b = Ok f /\ math_FieldToBigInteger f <> b mod p25519) /\
  (exists b f, b < 0 /\ math_ToFieldElement b = Ok f /\ math_FieldToBigInteger f <> b mod p25519).
Proof.
  split.
  - exists (2 ^ 255). destruct (to_field (2 ^ 255)) as (f & E & B & V); [lia|]. exists f. split; [lia|]. split; [exact E|].
    rewrite field_int by (apply (bnd_mono _ _ _ B); lia). rewrite (eqp_mod_eq _ _ V). vm_compute. discriminate.
  - exists (-1). destruct (to_field (-1)) as (f & E & B & V); [lia|]. exists f. split; [lia|]. split; [exact E|].
    rewrite field_int by (apply (bnd_mono _ _ _ B); lia). rewrite (eqp_mod_eq _ _ V). vm_compute. discriminate.
Qed.
(** square roots *)
Lemma sqrt_root u v : math_sqrt u v = Fp.val (root (inF u) (inF v)).
Proof. rewrite math_sqrt_F, root_cand. reflexivity. Qed.
Lemma sqrt_same u v : bnd 330 u -> bnd 330 v ->
  math_sqrt (math_FieldToBigInteger u) (math_FieldToBigInteger v) = math_FieldToBigInteger (fe_sqrt u v).
Proof.
  intros Bu Bv. destruct (rF_sqrt u v Bu Bv) as (E & B).
  rewrite !field_value by (eapply bnd_mono; [eassumption|lia]). rewrite math_sqrt_F, !inF_val, E. reflexivity.
Qed.
(** GetAffineXFromAffineY *)
Lemma cand_pm u v e : u <> F0 -> v <> F0 -> (e * e = F1)%F -> (v * Fsqrt_cand u v = e * u)%F -> u = (e * v)%F.
Proof.
  intros Nu Nv Ee H.
  set (w := (Finv v * u)%F).
  assert (Eu : u = (v * w)%F) by (unfold w; transitivity (Finv v * v * u)%F; [rewrite Finv_l by exact Nv; ring|ring]).
  assert (Nw : w <> F0) by (intros Z; apply Nu; rewrite Eu, Z; ring).
  assert (V4 : (Fpow v (8 * e252) * (v * v * v * v) = F1)%F).
  { rewrite <- (F_fermat v Nv). change (p25519 - 1) with (8 * e252 + 1 + 1 + 1 + 1). rewrite !Fpow_add by discriminate. rewrite !Fpow_1. ring. }
  assert (W1 : Fpow w e252 = e).
  { assert (E1 : (v * v * v * (v * v * v) * v * u = Fpow v 8 * w)%F).
    { rewrite Eu. change 8 with (7 + 1). rewrite Fpow_add, Fpow_7, Fpow_1 by discriminate. ring. }
    unfold Fsqrt_cand in H. rewrite E1, Fpow_mul_base, <- Fpow_mul in H by discriminate.
    assert (E2 : (u * (Fpow w e252 - e) = F0)%F).
    { transitivity (v * (v * v * v * u * (Fpow v (8 * e252) * Fpow w e252)) - e * u)%F; [|rewrite H; ring].
      transitivity (u * ((Fpow v (8 * e252) * (v * v * v * v)) * Fpow w e252 - e))%F; [rewrite V4; ring|ring]. }
    apply F_integral in E2 as [E2|E2]; [contradiction|]. transitivity (Fpow w e252 - e + e)%F; [ring|rewrite E2; ring]. }
  assert (W2 : w = e).
  { assert (W4 : (w * w * w * w = F1)%F).
    { rewrite <- (F_fermat w Nw). change (p25519 - 1) with (e252 * 8 + 1 + 1 + 1 + 1). rewrite !Fpow_add by discriminate. rewrite !Fpow_1.
      rewrite Fpow_mul by discriminate. rewrite W1. change 8 with (7 + 1). rewrite Fpow_add, Fpow_7, Fpow_1 by discriminate.
      transitivity ((e * e) * (e * e) * (e * e) * (e * e) * w * w * w * w)%F; [rewrite Ee; ring|ring]. }
    rewrite <- W1. change e252 with (4 * (2 ^ 250 - 1) + 1). rewrite Fpow_add, Fpow_mul, Fpow_1 by discriminate.
    replace (Fpow w 4) with F1; [rewrite Fpow_one by discriminate; ring|].
    change 4 with (3 + 1). rewrite Fpow_add, Fpow_3, Fpow_1 by discriminate. symmetry. exact W4. }
  rewrite Eu, W2. ring.
Qed.
Lemma one_plus_d : (1 + Fd)%F <> F0.
Proof.
  intros E. assert (X : ((1 + Fd) * inF 121666 = F1)%F).
  { transitivity (inF 121666 + Fd * inF 121666)%F; [ring|]. rewrite Fd_eq, <- inF_opp, <- inF_add. reflexivity. }
  rewrite E in X. apply F1_neq_F0. rewrite <- X. ring.
Qed.
Lemma y_mod_F y : y mod p25519 = 0 <-> inF y = F0.
Proof. rewrite inF_0_mod. reflexivity. Qed.
Lemma gax_exact y neg : (inF y = F0 \/ inF y = F1 \/ inF y = (- F1)%F -> math_GetAffineX y neg = Ok 0) /\
  (inF y <> F0 -> inF y <> F1 -> inF y <> (- F1)%F -> math_GetAffineX y neg = Err ErrNotGroupElement).
Proof.
  rewrite gax_eq. split.
  - intros C. assert (C' : inF y = F0 \/ gax_u y = F0).
    { destruct C as [C|[C|C]]; [left; exact C|right; unfold gax_u; rewrite C; ring..]. }
    clear C. destruct C' as [C|C].
    + assert (U : gax_u y = (- F1)%F) by (unfold gax_u; rewrite C; ring).
      assert (V : gax_v y = F1) by (unfold gax_v; rewrite C; ring).
      assert (X : gax_x y = F1).
      { unfold gax_x, Fsqrt_cand. rewrite U, V.
        replace (F1 * F1 * F1 * (F1 * F1 * F1) * F1 * - F1)%F with (- F1)%F by ring.
        change e252 with (2 * (2 ^ 251 - 2) + 1). rewrite Fpow_add, <- Fpow_sq, Fpow_1 by lia.
        replace (- F1 * - F1)%F with F1 by ring. rewrite Fpow_one by lia. ring. }
      rewrite U, V, X. destruct (F_eq_dec (F1 * F1)%F (- F1)%F) as [E|_].
      * exfalso. apply (f_equal Fp.val) in E. vm_compute in E. discriminate E.
      * destruct (F_eq_dec (F1 * F1)%F (- - F1)%F) as [_|N]; [|exfalso; apply N; ring].
        replace (F1 * Fi)%F with Fi by ring. unfold gax_out. replace (Z.odd (Fp.val Fi)) with false; [reflexivity|].
        symmetry. vm_compute. reflexivity.
    + assert (X : gax_x y = F0) by (unfold gax_x, Fsqrt_cand; rewrite C; ring).
      rewrite C, X. destruct (F_eq_dec (gax_v y * F0)%F F0) as [_|N]; [|exfalso; apply N; ring]. reflexivity.
  - intros N0 N1 Nm. assert (NU : gax_u y <> F0).
    { unfold gax_u. intros E. assert (E2 : ((inF y - 1) * (inF y + 1) = F0)%F) by (rewrite <- E; ring).
      apply F_integral in E2 as [E2|E2].
      - apply N1. transitivity (inF y - 1 + 1)%F; [ring|rewrite E2; ring].
      - apply Nm. transitivity (inF y + 1 - F1)%F; [ring|rewrite E2; ring]. }
    assert (NV : gax_v y <> F0) by (apply den_v).
    destruct (F_eq_dec _ _) as [E|_].
    { exfalso. assert (Q : gax_u y = (F1 * gax_v y)%F) by (apply cand_pm; [exact NU|exact NV|ring|fold (gax_x y); rewrite E; ring]).
      apply (no_unit_x (inF y)). unfold on_curve, gax_u, gax_v in *. transitivity (inF y * inF y - 1)%F; [ring|rewrite Q; ring]. }
    destruct (F_eq_dec _ _) as [E|_]; [|reflexivity].
    exfalso. assert (Q : gax_u y = ((- F1) * gax_v y)%F) by (apply cand_pm; [exact NU|exact NV|ring|fold (gax_x y); rewrite E; ring]).
    unfold gax_u, gax_v in Q.
    assert (Z : (inF y * (inF y * (1 + Fd)) = F0)%F).
    { transitivity ((inF y * inF y - 1) + (Fd * (inF y * inF y) + 1))%F; [ring|]. rewrite Q. ring. }
    apply F_integral in Z as [Z|Z]; [contradiction|]. apply F_integral in Z as [Z|Z]; [contradiction|]. exact (one_plus_d Z).
Qed.
Lemma affine_x_all y neg : math_GetAffineX y neg =
  if (y mod p25519 =? 0) || (y mod p25519 =? 1) || (y mod p25519 =? p25519 - 1) then Ok 0 else Err ErrNotGroupElement.
Proof.
  destruct (gax_exact y neg) as (A & B).
  assert (E0 : y mod p25519 = 0 <-> inF y = F0) by (symmetry; rewrite inF_0_mod; reflexivity).
  assert (E1 : y mod p25519 = 1 <-> inF y = F1).
  { split; [intros E; rewrite <- inF_mod, E; reflexivity|]. intros E. rewrite <- val_inF, E. reflexivity. }
  assert (Em : y mod p25519 = p25519 - 1 <-> inF y = (- F1)%F).
  { assert (X : inF (p25519 - 1) = (- F1)%F) by (apply F_eq; vm_compute; reflexivity). split.
    - intros E. rewrite <- inF_mod, E. exact X.
    - intros E. rewrite <- val_inF, E, <- X. vm_compute. reflexivity. }
  destruct ((y mod p25519 =? 0) || (y mod p25519 =? 1) || (y mod p25519 =? p25519 - 1)) eqn:C.
  - apply A. rewrite !orb_true_iff, !Z.eqb_eq in C. tauto.
  - rewrite !orb_false_iff, !Z.eqb_neq in C. apply B; tauto.
Qed.
Lemma toGroup_any raw : wf_bytes raw -> (32 <= length raw)%nat ->
  let y := le_val (clear_top raw) in
  (inF y <> F0 -> inF y <> F1 -> inF y <> (- F1)%F -> snd (math_ToGroupElement raw) = Err ErrNotGroupElement) /\
  (inF y = F0 \/ inF y = F1 \/ inF y = (- F1)%F -> 2 ^ 256 <= y -> snd (math_ToGroupElement raw) = Panic) /\
  (inF y = F0 \/ inF y = F1 \/ inF y = (- F1)%F -> y < 2 ^ 255 ->
    exists X Y Z T, snd (math_ToGroupElement raw) = Ok (newP3 X Y Z T) /\ rF X = F0 /\ rF Y = inF y /\ rF Z = F1 /\ rF T = F0).
Proof.
  intros W L y.
  assert (Wc : wf_bytes (clear_top raw)) by (apply clear_top_wf, W).
  unfold math_ToGroupElement. replace (Nat.ltb (length raw) 32) with false by (symmetry; apply Nat.ltb_ge; exact L).
  cbv zeta. fold (clear_top raw). cbn [snd]. rewrite (bytes_value _ Wc). fold y.
  match goal with |- context [math_GetAffineX y ?s] => generalize s end. intros s.
  destruct (gax_exact y s) as (A & B). split; [|split].
  - intros N0 N1 Nm. rewrite (B N0 N1 Nm). reflexivity.
  - intros C G. rewrite (A C). cbn [bind]. destruct (to_fe_ok 0) as (fx & -> & _); [lia|]. cbn [bind].
    apply to_field_panic in G. rewrite G. reflexivity.
  - intros C G. rewrite (A C). cbn [bind]. pose proof (le_val_bound _ Wc) as R. fold y in R.
    destruct (to_fe_ok 0) as (fx & -> & Ex & _); [lia|]. cbn [bind].
    destruct (to_fe_ok y) as (fy & -> & Ey & _); [lia|]. cbn [bind].
    replace ((0 * y) mod p25519) with 0 by (rewrite Z.mul_0_l; reflexivity).
    destruct (to_fe_ok 0) as (ft & -> & Et & _); [lia|]. cbn [bind].
    exists fx, fy, fe_one, ft. split; [reflexivity|]. split; [exact Ex|]. split; [exact Ey|]. split; [apply rF_one|exact Et].
Qed.
Lemma upd_app_l l r : forall i v, (i < length l)%nat -> upd (l ++ r) i v = upd l i v ++ r.
Proof. induction l as [|x l IH]; intros [|i] v L; cbn [app upd length] in *; try lia; [reflexivity|]. rewrite IH by lia. reflexivity. Qed.
Lemma clear_top_any raw : wf_bytes raw -> (32 <= length raw)%nat ->
  le_val (clear_top raw) = le_val (firstn 32 raw) mod 2 ^ 255 + 2 ^ 256 * le_val (skipn 32 raw).
Proof.
  intros W L. assert (Wf : wf_bytes (firstn 32 raw)) by (apply wf_firstn, W).
  assert (Lf : length (firstn 32 raw) = 32%nat) by (apply firstn_length_le, L).
  assert (E : clear_top raw = clear_top (firstn 32 raw) ++ skipn 32 raw).
  { rewrite <- (firstn_skipn 32 raw) at 1. generalize (skipn 32 raw). intros r. revert Lf. generalize (firstn 32 raw). intros l Ll.
    unfold clear_top, byte_at. rewrite app_nth1 by lia. apply upd_app_l. lia. }
  rewrite E, le_val_app, clear_top_val by assumption. unfold clear_top. rewrite upd_length, Lf. reflexivity.
Qed.
Lemma toGroup_every raw : wf_bytes raw -> (32 <= length raw)%nat ->
  let y := le_val (firstn 32 raw) mod 2 ^ 255 + 2 ^ 256 * le_val (skipn 32 raw) in
  let known := y mod p25519 = 0 \/ y mod p25519 = 1 \/ y mod p25519 = p25519 - 1 in
  (~ known -> snd (math_ToGroupElement raw) = Err ErrNotGroupElement) /\
  (known -> 2 ^ 256 <= y -> snd (math_ToGroupElement raw) = Panic) /\
  (known -> y < 2 ^ 256 ->
    exists X Y Z T, snd (math_ToGroupElement raw) = Ok (newP3 X Y Z T) /\ rF X = F0 /\ rF Y = inF y /\ rF Z = F1 /\ rF T = F0).
Proof.
  intros W L. destruct (toGroup_any raw W L) as (A & B & C). rewrite (clear_top_any raw W L) in A, B, C. cbv zeta.
  pose proof (Z.mod_pos_bound (le_val (firstn 32 raw)) (2 ^ 255) eq_refl) as R.
  set (y := le_val (firstn 32 raw) mod 2 ^ 255 + 2 ^ 256 * le_val (skipn 32 raw)) in *.
  assert (E0 : y mod p25519 = 0 <-> inF y = F0) by (symmetry; rewrite inF_0_mod; reflexivity).
  assert (E1 : y mod p25519 = 1 <-> inF y = F1).
  { split; [intros E; rewrite <- inF_mod, E; reflexivity|]. intros E. rewrite <- val_inF, E. reflexivity. }
  assert (Em : y mod p25519 = p25519 - 1 <-> inF y = (- F1)%F).
  { assert (X : inF (p25519 - 1) = (- F1)%F) by (apply F_eq; vm_compute; reflexivity). split.
    - intros E. rewrite <- inF_mod, E. exact X.
    - intros E. rewrite <- val_inF, E, <- X. vm_compute. reflexivity. }
  rewrite E0, E1, Em. split; [intros N; apply A; tauto|]. split; [exact B|]. intros K G. apply C; [exact K|].
  pose proof (le_val_bound (skipn 32 raw) (wf_skipn _ _ W)) as R2.
  subst y. change (2 ^ 256) with (2 * 2 ^ 255) in *. nia.
Qed.
(** random numbers *)
Lemma random_bytes src n : math_GetRandomByteArray src n = if Nat.leb n (length src) then Ok (firstn n src, skipn n src) else Panic.
Proof.
  unfold math_GetRandomByteArray, read_or_panic, read_full. destruct (Nat.leb n (length src)) eqn:C; [apply Nat.leb_le in C|apply Nat.leb_gt in C].
  - replace (Nat.ltb (length src) n) with false by (symmetry; apply Nat.ltb_ge; exact C). reflexivity.
  - replace (Nat.ltb (length src) n) with true by (symmetry; apply Nat.ltb_lt; exact C). reflexivity.
Qed.
Lemma random_int64 src : (8 <= length src)%nat -> exists v, math_GetRandomInt64 src = Ok (v, skipn 8 src) /\
  - 2 ^ 63 <= v < 2 ^ 63 /\ v mod 2 ^ 64 = le_val (firstn 8 src) mod 2 ^ 64.
Proof.
  intros L. unfold math_GetRandomInt64. change (read_or_panic src 8) with (math_GetRandomByteArray src 8). rewrite random_bytes.
  apply Nat.leb_le in L. rewrite L. cbn [bind fst snd]. eexists. split; [reflexivity|]. unfold w64.
  generalize (le_val (firstn 8 src)). intros z. split.
  - pose proof (Z.mod_pos_bound (z + 2 ^ 63) (2 ^ 64) eq_refl). change (2 ^ 64) with (2 * 2 ^ 63) in *. lia.
  - rewrite Zminus_mod_idemp_l. f_equal. lia.
Qed.
Lemma random_int64_short src : (length src < 8)%nat -> math_GetRandomInt64 src = Panic.
Proof.
  intros L. unfold math_GetRandomInt64. change (read_or_panic src 8) with (math_GetRandomByteArray src 8). rewrite random_bytes.
  apply Nat.leb_gt in L. rewrite L. reflexivity.
Qed.

Lemma ex_conv : bnd 330 (Fe 4 (-7) 0 0 0 0 0 0 0 (-1)) /\
  math_ToByteArray (-258) = Ok (2 :: 1 :: repeat 0 30) /\
  math_IntsToBigInteger (Fe (2 ^ 62) 0 0 0 0 0 0 0 0 (-1)) = 2 ^ 62 - 2 ^ 230 /\
  math_GetRandomInt64 (repeat 255 9) = Ok (-1, [255]).
Proof. split; [unfold bnd; cbn; lia|]. repeat split; vm_compute; reflexivity. Qed.
Lemma ex_conv_x : math_GetAffineX (- p25519) true = Ok 0 /\ math_GetAffineX 5 true = Err ErrNotGroupElement.
Proof. rewrite !affine_x_all. split; vm_compute; reflexivity. Qed.
Lemma ex_conv_group : let raw := le_bytes 32 (p25519 + 1 + 2 ^ 255) in wf_bytes raw /\ length raw = 32%nat /\
  (le_val (firstn 32 raw) mod 2 ^ 255 + 2 ^ 256 * le_val (skipn 32 raw)) mod p25519 = 1 /\ exists g, snd (math_ToGroupElement raw) = Ok g.
Proof.
  intros raw. assert (W : wf_bytes raw) by (apply le_bytes_wf). assert (L : length raw = 32%nat) by (apply le_bytes_length).
  assert (E : le_val (firstn 32 raw) mod 2 ^ 255 + 2 ^ 256 * le_val (skipn 32 raw) = p25519 + 1) by (vm_compute; reflexivity).
  split; [exact W|]. split; [exact L|]. rewrite E. split; [vm_compute; reflexivity|].
  destruct (toGroup_every raw W) as (_ & _ & A); [lia|]. rewrite E in A.
  destruct A as (X & Y & Z & T & G & _); [right; left; vm_compute; reflexivity|reflexivity|]. exists (newP3 X Y Z T). exact G.
Qed.
