(** Correctness of Encode and Decode of field elements. *)
From Coq Require Import List ZArith Lia Bool.
From Verif Require Import GoBase Slp Progs FieldModel FieldSpec FieldProofs ByteLemmas.
Import ListNotations.
Open Scope Z_scope.

(** ** pack25 *)
Lemma div_dig x i k n : 0 <= i -> 0 <= x < 2 ^ n -> n = i + k -> 0 <= k -> 0 <= x / 2 ^ i < 2 ^ k.
Proof.
  intros Hi Hx -> Hk. rewrite Z.pow_add_r in Hx by lia.
  assert (0 < 2 ^ i) by (apply Z.pow_pos_nonneg; lia).
  split; [apply Z.div_pos; lia|apply Z.div_lt_upper_bound; lia].
Qed.

Definition pack25_spec (h : fe) : bytes :=
  let '(Fe h0 h1 h2 h3 h4 h5 h6 h7 h8 h9) := h in
  [ h0 mod 256; (h0 / 2^8) mod 256; (h0 / 2^16) mod 256; h0 / 2^24 + 2^2 * (h1 mod 2^6);
    (h1 / 2^6) mod 256; (h1 / 2^14) mod 256; h1 / 2^22 + 2^3 * (h2 mod 2^5);
    (h2 / 2^5) mod 256; (h2 / 2^13) mod 256; h2 / 2^21 + 2^5 * (h3 mod 2^3);
    (h3 / 2^3) mod 256; (h3 / 2^11) mod 256; h3 / 2^19 + 2^6 * (h4 mod 2^2);
    (h4 / 2^2) mod 256; (h4 / 2^10) mod 256; (h4 / 2^18) mod 256;
    h5 mod 256; (h5 / 2^8) mod 256; (h5 / 2^16) mod 256; h5 / 2^24 + 2^1 * (h6 mod 2^7);
    (h6 / 2^7) mod 256; (h6 / 2^15) mod 256; h6 / 2^23 + 2^3 * (h7 mod 2^5);
    (h7 / 2^5) mod 256; (h7 / 2^13) mod 256; h7 / 2^21 + 2^4 * (h8 mod 2^4);
    (h8 / 2^4) mod 256; (h8 / 2^12) mod 256; h8 / 2^20 + 2^6 * (h9 mod 2^2);
    (h9 / 2^2) mod 256; (h9 / 2^10) mod 256; (h9 / 2^18) mod 256 ].

Lemma pack25_eq h : canon h -> pack25 h = pack25_spec h.
Proof.
  destruct h as [h0 h1 h2 h3 h4 h5 h6 h7 h8 h9]. unfold canon; cbn [r0 r1 r2 r3 r4 r5 r6 r7 r8 r9].
  intros (H0&H1&H2&H3&H4&H5&H6&H7&H8&H9).
  unfold pack25, pack25_spec. cbn [map].
  rewrite (byte_or h0 h1 24 2) by (try lia; apply (div_dig _ _ _ 26); lia).
  rewrite (byte_or h1 h2 22 3) by (try lia; apply (div_dig _ _ _ 25); lia).
  rewrite (byte_or h2 h3 21 5) by (try lia; apply (div_dig _ _ _ 26); lia).
  rewrite (byte_or h3 h4 19 6) by (try lia; apply (div_dig _ _ _ 25); lia).
  rewrite (byte_or h5 h6 24 1) by (try lia; apply (div_dig _ _ _ 25); lia).
  rewrite (byte_or h6 h7 23 3) by (try lia; apply (div_dig _ _ _ 26); lia).
  rewrite (byte_or h7 h8 21 4) by (try lia; apply (div_dig _ _ _ 25); lia).
  rewrite (byte_or h8 h9 20 6) by (try lia; apply (div_dig _ _ _ 26); lia).
  rewrite !byte_shr by lia. reflexivity.
Qed.
Lemma pack25_length h : length (pack25 h) = 32%nat.
Proof. destruct h; reflexivity. Qed.
Lemma pack25_wf h : wf_bytes (pack25 h).
Proof.
  destruct h. unfold pack25. cbn [map].
  repeat constructor; apply Z.mod_pos_bound; reflexivity.
Qed.

Lemma le_val_cons b r : le_val (b :: r) = b + 256 * le_val r.
Proof. reflexivity. Qed.

Lemma pack25_val h : canon h -> le_val (pack25 h) = feval h.
Proof.
  intros C. rewrite pack25_eq by exact C.
  destruct h as [h0 h1 h2 h3 h4 h5 h6 h7 h8 h9]. unfold canon in C; cbn [r0 r1 r2 r3 r4 r5 r6 r7 r8 r9] in C.
  destruct C as (H0&H1&H2&H3&H4&H5&H6&H7&H8&H9).
  pose proof (split3 h0 8 ltac:(lia)) as S0.
  pose proof (split3 h1 6 ltac:(lia)) as S1.
  pose proof (split3 h2 5 ltac:(lia)) as S2.
  pose proof (split3 h3 3 ltac:(lia)) as S3.
  pose proof (split3 h4 2 ltac:(lia)) as S4.
  pose proof (split3 h5 8 ltac:(lia)) as S5.
  pose proof (split3 h6 7 ltac:(lia)) as S6.
  pose proof (split3 h7 5 ltac:(lia)) as S7.
  pose proof (split3 h8 4 ltac:(lia)) as S8.
  pose proof (split3 h9 2 ltac:(lia)) as S9.
  cbn [Z.add Pos.add Pos.add_carry Pos.succ] in S0, S1, S2, S3, S4, S5, S6, S7, S8, S9.
  assert (Z.div h4 (2^18) = (h4 / 2^18) mod 256) as T4
    by (symmetry; apply Z.mod_small; apply (div_dig _ _ 8 26); lia).
  assert (Z.div h9 (2^18) = (h9 / 2^18) mod 256) as T9.
  { symmetry; apply Z.mod_small. pose proof (div_dig h9 18 7 25 ltac:(lia) H9 ltac:(lia) ltac:(lia)). lia. }
  rewrite T4 in S4. rewrite T9 in S9.
  unfold pack25_spec, feval. cbn [r0 r1 r2 r3 r4 r5 r6 r7 r8 r9].
  rewrite !le_val_cons. change (le_val []) with 0.
  change (2 ^ 8) with 256 in S0, S5.
  change (2 ^ 8) with 256.
  clear H0 H1 H2 H3 H4 H5 H6 H7 H8 H9 T4 T9.
  repeat match goal with
  | |- context [?a / ?b] => let u := fresh "u" in set (u := a / b) in *; clearbody u
  end.
  repeat match goal with
  | |- context [?a mod ?b] => let u := fresh "u" in set (u := a mod b) in *; clearbody u
  end.
  lia.
Qed.

Theorem fe_encode_ok f : bnd 1000 f -> fe_encode f = le_bytes 32 (feval f mod p25519).
Proof.
  intros H. unfold fe_encode. destruct (fe_modP_ok f H) as [V C].
  rewrite <- V, <- pack25_val by exact C.
  rewrite <- (pack25_length (fe_modP f)) at 1. symmetry. apply le_val_inv, pack25_wf.
Qed.

(** ** Decode *)
Lemma firstn_byte_at n : forall b, (n <= length b)%nat -> firstn n b = map (byte_at b) (seq 0 n).
Proof.
  induction n as [|n IH]; intros b H; [reflexivity|].
  destruct b as [|x b]; cbn [length] in H; [lia|].
  cbn [firstn seq map]. f_equal. rewrite IH by lia.
  rewrite <- seq_shift, map_map. reflexivity.
Qed.

Lemma decode_limbs_itv b : wf_bytes b ->
  let f := decode_limbs b in
  (0 <= r0 f < 2^32) /\ (0 <= r1 f < 2^30) /\ (0 <= r2 f < 2^29) /\ (0 <= r3 f < 2^27) /\
  (0 <= r4 f < 2^26) /\ (0 <= r5 f < 2^32) /\ (0 <= r6 f < 2^31) /\ (0 <= r7 f < 2^29) /\
  (0 <= r8 f < 2^28) /\ (0 <= r9 f < 2^25) /\
  feval f = le_val (map (byte_at b) (seq 0 31)) + 2^248 * (byte_at b 31 mod 128).
Proof.
  intros W. cbv zeta. unfold decode_limbs. cbn [r0 r1 r2 r3 r4 r5 r6 r7 r8 r9].
  rewrite !load4_val by (apply byte_at_byte, W).
  rewrite !load3_val by (apply byte_at_byte, W).
  cbn [Nat.add].
  change 8388607 with (2 ^ 23 - 1). rewrite land_mask by lia.
  unfold feval. cbn [r0 r1 r2 r3 r4 r5 r6 r7 r8 r9 seq map].
  rewrite !le_val_cons. change (le_val []) with 0.
  pose proof (fun i => byte_at_byte b i W) as B. unfold is_byte in B.
  assert (E : ld3 (byte_at b 29) (byte_at b 30) (byte_at b 31) mod 2^23
              = byte_at b 29 + 256 * byte_at b 30 + 65536 * (byte_at b 31 mod 128)).
  { unfold ld3. pose proof (B 29%nat). pose proof (B 30%nat). pose proof (B 31%nat).
    pose proof (Z.div_mod (byte_at b 31) 128 ltac:(lia)).
    pose proof (Z.mod_pos_bound (byte_at b 31) 128 ltac:(lia)).
    symmetry. apply Z.mod_unique with (byte_at b 31 / 128); [left; lia|lia]. }
  rewrite E.
  pose proof (Z.mod_pos_bound (byte_at b 31) 128 ltac:(lia)) as M.
  generalize dependent (byte_at b 31 mod 128). intros top _ M.
  pose proof (B 0%nat) as B0. pose proof (B 1%nat) as B1. pose proof (B 2%nat) as B2. pose proof (B 3%nat) as B3.
  pose proof (B 4%nat) as B4. pose proof (B 5%nat) as B5. pose proof (B 6%nat) as B6. pose proof (B 7%nat) as B7.
  pose proof (B 8%nat) as B8. pose proof (B 9%nat) as B9. pose proof (B 10%nat) as B10. pose proof (B 11%nat) as B11.
  pose proof (B 12%nat) as B12. pose proof (B 13%nat) as B13. pose proof (B 14%nat) as B14. pose proof (B 15%nat) as B15.
  pose proof (B 16%nat) as B16. pose proof (B 17%nat) as B17. pose proof (B 18%nat) as B18. pose proof (B 19%nat) as B19.
  pose proof (B 20%nat) as B20. pose proof (B 21%nat) as B21. pose proof (B 22%nat) as B22. pose proof (B 23%nat) as B23.
  pose proof (B 24%nat) as B24. pose proof (B 25%nat) as B25. pose proof (B 26%nat) as B26. pose proof (B 27%nat) as B27.
  pose proof (B 28%nat) as B28. pose proof (B 29%nat) as B29. pose proof (B 30%nat) as B30. clear B.
  unfold ld3, ld4.
  rewrite (shl64_mul _ 6) by (clear - B4 B5 B6; lia).
  rewrite (shl64_mul _ 5) by (clear - B7 B8 B9; lia).
  rewrite (shl64_mul _ 3) by (clear - B10 B11 B12; lia).
  rewrite (shl64_mul _ 2) by (clear - B13 B14 B15; lia).
  rewrite (shl64_mul _ 7) by (clear - B20 B21 B22; lia).
  rewrite (shl64_mul _ 5) by (clear - B23 B24 B25; lia).
  rewrite (shl64_mul _ 4) by (clear - B26 B27 B28; lia).
  rewrite (shl64_mul _ 2) by (clear - B29 B30 M; lia).
  split; [clear - B0 B1 B2 B3; lia|]. split; [clear - B4 B5 B6; lia|].
  split; [clear - B7 B8 B9; lia|]. split; [clear - B10 B11 B12; lia|].
  split; [clear - B13 B14 B15; lia|]. split; [clear - B16 B17 B18 B19; lia|].
  split; [clear - B20 B21 B22; lia|]. split; [clear - B23 B24 B25; lia|].
  split; [clear - B26 B27 B28; lia|]. split; [clear - B29 B30 M; lia|].
  clear. ring.
Qed.

Lemma le_val_map_bound b n : wf_bytes b ->
  0 <= le_val (map (byte_at b) (seq 0 n)) < 256 ^ Z.of_nat n.
Proof.
  intros W. pose proof (le_val_bound (map (byte_at b) (seq 0 n))) as B.
  rewrite map_length, seq_length in B. apply B.
  apply Forall_forall. intros x Hx. apply in_map_iff in Hx as (i & <- & _).
  apply byte_at_byte, W.
Qed.

Lemma decode_limbs_val b : wf_bytes b -> (32 <= length b)%nat ->
  feval (decode_limbs b) = le_val (firstn 32 b) mod 2^255.
Proof.
  intros W L. destruct (decode_limbs_itv b W) as (_&_&_&_&_&_&_&_&_&_&V). rewrite V. clear V.
  rewrite firstn_byte_at by exact L.
  replace (seq 0 32) with (seq 0 31 ++ [31%nat]) by reflexivity.
  rewrite map_app, le_val_app. cbn [map]. rewrite map_length, seq_length.
  rewrite le_val_cons. change (le_val []) with 0.
  pose proof (le_val_map_bound b 31 W) as B.
  generalize dependent (le_val (map (byte_at b) (seq 0 31))). intros s B.
  change (256 ^ Z.of_nat 31) with (2^248) in *.
  pose proof (Z.div_mod (byte_at b 31) 128 ltac:(lia)).
  pose proof (Z.mod_pos_bound (byte_at b 31) 128 ltac:(lia)).
  apply Z.mod_unique with (byte_at b 31 / 128); [left; lia|lia].
Qed.

Definition dec_itv : list (positive * itv) :=
  [(v_h0, (0, 2^32 - 1)); (v_h1, (0, 2^30 - 1)); (v_h2, (0, 2^29 - 1)); (v_h3, (0, 2^27 - 1));
   (v_h4, (0, 2^26 - 1)); (v_h5, (0, 2^32 - 1)); (v_h6, (0, 2^31 - 1)); (v_h7, (0, 2^29 - 1));
   (v_h8, (0, 2^28 - 1)); (v_h9, (0, 2^25 - 1))].
Lemma decode_check_itv : check_itv decode_prog dec_itv (h_itv 101) = true.
Proof. vm_compute. reflexivity. Qed.
Lemma decode_check_poly : check_poly p25519 decode_prog (lin hs) (lin hs) = true.
Proof. vm_compute. reflexivity. Qed.

Lemma read_load_h f : read_h (mk_env (load_h f)) = f.
Proof. destruct f; reflexivity. Qed.

Theorem fe_decode32_ok b : wf_bytes b -> (32 <= length b)%nat ->
  eqp (feval (fe_decode32 b)) (le_val (firstn 32 b) mod 2^255) /\ bnd 101 (fe_decode32 b).
Proof.
  intros W L. rewrite <- decode_limbs_val by assumption.
  destruct (decode_limbs_itv b W) as (H0&H1&H2&H3&H4&H5&H6&H7&H8&H9&_).
  unfold fe_decode32. generalize dependent (decode_limbs b). intros f H0 H1 H2 H3 H4 H5 H6 H7 H8 H9.
  assert (I : forall x i, In (x, i) dec_itv -> in_itv (get (mk_env (load_h f)) x) i).
  { intros x i Hin. cbn [dec_itv In] in Hin.
    assert (T : forall x n m, 0 <= x < 2 ^ n -> 2 ^ n - 1 = m -> in_itv x (0, m))
      by (unfold in_itv; cbn [fst snd]; lia).
    all_in Hin; (eapply T; [eassumption|reflexivity]). }
  pose proof (read_load_h f) as R.
  generalize dependent (mk_env (load_h f)). intros m I R.
  destruct (check_itv_sound _ _ _ m decode_check_itv I) as [E B].
  rewrite E. split; [|apply h_itv_bnd, B].
  pose proof (check_poly_sound _ _ _ _ m decode_check_poly) as P.
  rewrite !lin_h, R in P. apply cong_eqp, P.
Qed.
