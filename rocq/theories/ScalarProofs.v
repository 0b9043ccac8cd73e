(** Correctness of modQ and multiplyAndAddModQ. *)
From Coq Require Import List ZArith Lia Bool.
From Coq Require Import FMapPositive.
From Verif Require Import GoBase Slp Progs FieldModel FieldSpec FieldProofs ByteLemmas EncodeProofs
  ScalarModel.
Import ListNotations.
Open Scope Z_scope.

(** ** digits *)
Lemma byte_at_val l i : wf_bytes l -> byte_at l i = (le_val l / 256 ^ Z.of_nat i) mod 256.
Proof.
  intros W. revert i. induction W as [|b r Hb Hr IH]; intros i.
  - cbn [le_val]. rewrite Z.div_0_l by (apply Z.pow_nonzero; lia).
    unfold byte_at. destruct i; reflexivity.
  - unfold is_byte in Hb. destruct i as [|i].
    + change (256 ^ Z.of_nat 0) with 1. rewrite Z.div_1_r. cbn [le_val byte_at nth].
      rewrite Z.mul_comm, Z.mod_add by lia. symmetry. apply Z.mod_small. lia.
    + rewrite Nat2Z.inj_succ, Z.pow_succ_r by lia.
      assert (0 < 256 ^ Z.of_nat i) by (apply Z.pow_pos_nonneg; lia).
      rewrite <- Z.div_div by lia. cbn [le_val].
      replace ((b + 256 * le_val r) / 256) with (le_val r).
      2:{ rewrite Z.mul_comm, Z.div_add by lia. rewrite Z.div_small by lia. lia. }
      change (byte_at (b :: r) (S i)) with (byte_at r i). apply IH.
Qed.

Lemma load3_digit l i : wf_bytes l -> load3 l i = (le_val l / 256 ^ Z.of_nat i) mod 2 ^ 24.
Proof.
  intros W. rewrite load3_val by (apply byte_at_byte, W).
  rewrite !byte_at_val by exact W. rewrite !Nat2Z.inj_add.
  assert (0 < 256 ^ Z.of_nat i) by (apply Z.pow_pos_nonneg; lia).
  rewrite !Z.pow_add_r by lia. change (256 ^ Z.of_nat 1) with 256. change (256 ^ Z.of_nat 2) with (256*256).
  rewrite Z.mul_assoc.
  rewrite <- !Z.div_div by lia. set (v := le_val l / 256 ^ Z.of_nat i). clearbody v.
  change (2 ^ 24) with (256 * (256 * 256)). rewrite !Z.rem_mul_r by lia. unfold ld3. lia.
Qed.
Lemma load4_digit l i : wf_bytes l -> load4 l i = (le_val l / 256 ^ Z.of_nat i) mod 2 ^ 32.
Proof.
  intros W. rewrite load4_val by (apply byte_at_byte, W).
  rewrite !byte_at_val by exact W. rewrite !Nat2Z.inj_add.
  assert (0 < 256 ^ Z.of_nat i) by (apply Z.pow_pos_nonneg; lia).
  rewrite !Z.pow_add_r by lia. change (256 ^ Z.of_nat 1) with 256. change (256 ^ Z.of_nat 2) with (256*256).
  change (256 ^ Z.of_nat 3) with (256*256*256).
  rewrite !Z.mul_assoc.
  rewrite <- !Z.div_div by lia. set (v := le_val l / 256 ^ Z.of_nat i). clearbody v.
  change (2 ^ 32) with (256 * (256 * (256 * 256))). rewrite !Z.rem_mul_r by lia. unfold ld4. lia.
Qed.

Lemma div_mod_pow v a j n : 0 <= a -> 0 <= j <= n ->
  (v / 2 ^ a) mod 2 ^ n / 2 ^ j = (v / 2 ^ (a + j)) mod 2 ^ (n - j).
Proof.
  intros Ha Hj. assert (0 < 2 ^ a) by (apply Z.pow_pos_nonneg; lia).
  assert (0 < 2 ^ j) by (apply Z.pow_pos_nonneg; lia).
  rewrite Z.pow_add_r by lia. rewrite <- Z.div_div by lia.
  set (w := v / 2 ^ a). clearbody w.
  replace (2 ^ n) with (2 ^ j * 2 ^ (n - j)) by (rewrite <- Z.pow_add_r by lia; f_equal; lia).
  assert (0 < 2 ^ (n - j)) by (apply Z.pow_pos_nonneg; lia).
  rewrite Z.rem_mul_r by lia.
  rewrite Z.mul_comm, Z.div_add by lia.
  rewrite Z.div_small by (apply Z.mod_pos_bound; lia). lia.
Qed.
Lemma mod_mod_pow v n k : 0 <= k <= n -> (v mod 2 ^ n) mod 2 ^ k = v mod 2 ^ k.
Proof.
  intros H. assert (0 < 2 ^ k) by (apply Z.pow_pos_nonneg; lia).
  replace n with (k + (n - k)) by lia. rewrite Z.pow_add_r by lia.
  assert (0 < 2 ^ (n - k)) by (apply Z.pow_pos_nonneg; lia).
  rewrite Z.rem_mul_r by lia. rewrite Z.mul_comm, Z.mod_add by lia. apply Z.mod_mod. lia.
Qed.
Lemma mask21_mod x : mask21 x = x mod 2 ^ 21.
Proof.
  unfold mask21. rewrite Z.land_comm. change 2097151 with (2 ^ 21 - 1). apply land_mask. lia.
Qed.

Definition dig (v : Z) (k : Z) : Z := (v / 2 ^ (21 * k)) mod 2 ^ 21.

Lemma d3 b i j k : wf_bytes b -> 0 <= j <= 3 -> 8 * Z.of_nat i + j = 21 * k ->
  mask21 (shr64 (load3 b i) j) = dig (le_val b) k.
Proof.
  intros W Hj E. rewrite mask21_mod, shr64_div, load3_digit by (assumption || lia).
  replace 256 with (2 ^ 8) by reflexivity. rewrite <- Z.pow_mul_r by lia.
  rewrite div_mod_pow by lia. rewrite mod_mod_pow by lia. rewrite E. reflexivity.
Qed.
Lemma d4 b i j k : wf_bytes b -> 0 <= j <= 7 -> 8 * Z.of_nat i + j = 21 * k ->
  mask21 (shr64 (load4 b i) j) = dig (le_val b) k.
Proof.
  intros W Hj E. rewrite mask21_mod, shr64_div, load4_digit by (assumption || lia).
  replace 256 with (2 ^ 8) by reflexivity. rewrite <- Z.pow_mul_r by lia.
  rewrite div_mod_pow by lia. rewrite mod_mod_pow by lia. rewrite E. reflexivity.
Qed.
Lemma d30 b i k : wf_bytes b -> 8 * Z.of_nat i = 21 * k -> mask21 (load3 b i) = dig (le_val b) k.
Proof.
  intros W E. rewrite <- (d3 b i 0 k W) by lia. unfold shr64. now rewrite Z.shiftr_0_r.
Qed.
Lemma dtop b i j k : wf_bytes b -> 0 <= j <= 7 -> 8 * Z.of_nat i + j = 21 * k ->
  shr64 (load4 b i) j = (le_val b / 2 ^ (21 * k)) mod 2 ^ (32 - j).
Proof.
  intros W Hj E. rewrite shr64_div, load4_digit by (assumption || lia).
  replace 256 with (2 ^ 8) by reflexivity. rewrite <- Z.pow_mul_r by lia.
  rewrite div_mod_pow by lia. rewrite E. reflexivity.
Qed.

Lemma dig_bound v k : 0 <= dig v k < 2 ^ 21.
Proof. apply Z.mod_pos_bound. lia. Qed.

(** sum of digits *)
Fixpoint dsum (v : Z) (n : nat) : Z :=
  match n with O => 0 | S m => dsum v m + 2 ^ (21 * Z.of_nat m) * dig v (Z.of_nat m) end.
Lemma dsum_mod v n : dsum v n = v mod 2 ^ (21 * Z.of_nat n).
Proof.
  induction n as [|n IH]; cbn [dsum]; [symmetry; apply Z.mod_1_r|].
  rewrite IH. replace (21 * Z.of_nat (S n)) with (21 * Z.of_nat n + 21) by lia.
  rewrite Z.pow_add_r by lia.
  assert (0 < 2 ^ (21 * Z.of_nat n)) by (apply Z.pow_pos_nonneg; lia).
  rewrite Z.rem_mul_r by lia. unfold dig. reflexivity.
Qed.
Lemma dsum_top v n t : 0 <= t ->
  dsum v n + 2 ^ (21 * Z.of_nat n) * ((v / 2 ^ (21 * Z.of_nat n)) mod 2 ^ t)
  = v mod 2 ^ (21 * Z.of_nat n + t).
Proof.
  intros Ht. rewrite dsum_mod. rewrite (Z.pow_add_r 2 _ t) by lia.
  assert (0 < 2 ^ (21 * Z.of_nat n)) by (apply Z.pow_pos_nonneg; lia).
  assert (0 < 2 ^ t) by (apply Z.pow_pos_nonneg; lia).
  rewrite Z.rem_mul_r by lia. reflexivity.
Qed.

Lemma le_val_firstn n l : wf_bytes l -> (n <= length l)%nat ->
  le_val (firstn n l) = le_val l mod 256 ^ Z.of_nat n.
Proof.
  intros W L. rewrite <- (firstn_skipn n l) at 2. rewrite le_val_app.
  rewrite firstn_length_le by exact L.
  rewrite Z.mul_comm, Z.mod_add by (apply Z.pow_nonzero; lia).
  symmetry. apply Z.mod_small.
  pose proof (le_val_bound (firstn n l)) as B. rewrite firstn_length_le in B by exact L. apply B.
  rewrite <- (firstn_skipn n l) in W. apply Forall_app in W. tauto.
Qed.

(** ** pack21 *)
Definition val12 (s0 s1 s2 s3 s4 s5 s6 s7 s8 s9 s10 s11 : Z) : Z :=
  s0 + 2^21 * s1 + 2^42 * s2 + 2^63 * s3 + 2^84 * s4 + 2^105 * s5 + 2^126 * s6 + 2^147 * s7
  + 2^168 * s8 + 2^189 * s9 + 2^210 * s10 + 2^231 * s11.

Definition pack21_spec (s0 s1 s2 s3 s4 s5 s6 s7 s8 s9 s10 s11 : Z) : bytes :=
  [ s0 mod 256; (s0 / 2^8) mod 256; s0 / 2^16 + 2^5 * (s1 mod 2^3);
    (s1 / 2^3) mod 256; (s1 / 2^11) mod 256; s1 / 2^19 + 2^2 * (s2 mod 2^6);
    (s2 / 2^6) mod 256; s2 / 2^14 + 2^7 * (s3 mod 2^1);
    (s3 / 2^1) mod 256; (s3 / 2^9) mod 256; s3 / 2^17 + 2^4 * (s4 mod 2^4);
    (s4 / 2^4) mod 256; (s4 / 2^12) mod 256; s4 / 2^20 + 2^1 * (s5 mod 2^7);
    (s5 / 2^7) mod 256; s5 / 2^15 + 2^6 * (s6 mod 2^2);
    (s6 / 2^2) mod 256; (s6 / 2^10) mod 256; s6 / 2^18 + 2^3 * (s7 mod 2^5);
    (s7 / 2^5) mod 256; (s7 / 2^13) mod 256;
    s8 mod 256; (s8 / 2^8) mod 256; s8 / 2^16 + 2^5 * (s9 mod 2^3);
    (s9 / 2^3) mod 256; (s9 / 2^11) mod 256; s9 / 2^19 + 2^2 * (s10 mod 2^6);
    (s10 / 2^6) mod 256; s10 / 2^14 + 2^7 * (s11 mod 2^1);
    (s11 / 2^1) mod 256; (s11 / 2^9) mod 256; (s11 / 2^17) mod 256 ].

Lemma pack21_val s0 s1 s2 s3 s4 s5 s6 s7 s8 s9 s10 s11 :
  0 <= s0 < 2^21 -> 0 <= s1 < 2^21 -> 0 <= s2 < 2^21 -> 0 <= s3 < 2^21 -> 0 <= s4 < 2^21 ->
  0 <= s5 < 2^21 -> 0 <= s6 < 2^21 -> 0 <= s7 < 2^21 -> 0 <= s8 < 2^21 -> 0 <= s9 < 2^21 ->
  0 <= s10 < 2^21 -> 0 <= s11 < 2^25 ->
  le_val (pack21 s0 s1 s2 s3 s4 s5 s6 s7 s8 s9 s10 s11)
  = val12 s0 s1 s2 s3 s4 s5 s6 s7 s8 s9 s10 s11.
Proof.
  intros H0 H1 H2 H3 H4 H5 H6 H7 H8 H9 H10 H11.
  assert (E : pack21 s0 s1 s2 s3 s4 s5 s6 s7 s8 s9 s10 s11
              = pack21_spec s0 s1 s2 s3 s4 s5 s6 s7 s8 s9 s10 s11).
  { unfold pack21, pack21_spec. cbn [map].
    rewrite (byte_or s0 s1 16 5) by (try lia; apply (div_dig _ _ _ 21); lia).
    rewrite (byte_or s1 s2 19 2) by (try lia; apply (div_dig _ _ _ 21); lia).
    rewrite (byte_or s2 s3 14 7) by (try lia; apply (div_dig _ _ _ 21); lia).
    rewrite (byte_or s3 s4 17 4) by (try lia; apply (div_dig _ _ _ 21); lia).
    rewrite (byte_or s4 s5 20 1) by (try lia; apply (div_dig _ _ _ 21); lia).
    rewrite (byte_or s5 s6 15 6) by (try lia; apply (div_dig _ _ _ 21); lia).
    rewrite (byte_or s6 s7 18 3) by (try lia; apply (div_dig _ _ _ 21); lia).
    rewrite (byte_or s8 s9 16 5) by (try lia; apply (div_dig _ _ _ 21); lia).
    rewrite (byte_or s9 s10 19 2) by (try lia; apply (div_dig _ _ _ 21); lia).
    rewrite (byte_or s10 s11 14 7) by (try lia; apply (div_dig _ _ _ 21); lia).
    rewrite !byte_shr by lia. reflexivity. }
  rewrite E. clear E.
  pose proof (split2 s0 8 ltac:(lia)) as S0.
  pose proof (split3 s1 3 ltac:(lia)) as S1.
  pose proof (split2 s2 6 ltac:(lia)) as S2.
  pose proof (split3 s3 1 ltac:(lia)) as S3.
  pose proof (split3 s4 4 ltac:(lia)) as S4.
  pose proof (split2 s5 7 ltac:(lia)) as S5.
  pose proof (split3 s6 2 ltac:(lia)) as S6.
  pose proof (split2 s7 5 ltac:(lia)) as S7.
  pose proof (split2 s8 8 ltac:(lia)) as S8.
  pose proof (split3 s9 3 ltac:(lia)) as S9.
  pose proof (split2 s10 6 ltac:(lia)) as S10.
  pose proof (split3 s11 1 ltac:(lia)) as S11.
  cbn [Z.add Pos.add Pos.add_carry Pos.succ] in S0, S1, S2, S3, S4, S5, S6, S7, S8, S9, S10, S11.
  assert (Z.div s7 (2^13) = (s7 / 2^13) mod 256) as T7
    by (symmetry; apply Z.mod_small; apply (div_dig _ _ 8 21); lia).
  assert (Z.div s11 (2^17) = (s11 / 2^17) mod 256) as T11
    by (symmetry; apply Z.mod_small; apply (div_dig _ _ 8 25); lia).
  rewrite T7 in S7. rewrite T11 in S11.
  unfold pack21_spec, val12.
  rewrite !le_val_cons. change (le_val []) with 0.
  change (2 ^ 8) with 256 in S0, S8.
  change (2 ^ 8) with 256.
  clear H0 H1 H2 H3 H4 H5 H6 H7 H8 H9 H10 H11 T7 T11.
  repeat match goal with
  | |- context [?a / ?b] => let u := fresh "u" in set (u := a / b) in *; clearbody u
  end.
  repeat match goal with
  | |- context [?a mod ?b] => let u := fresh "u" in set (u := a mod b) in *; clearbody u
  end.
  lia.
Qed.
Lemma pack21_length s0 s1 s2 s3 s4 s5 s6 s7 s8 s9 s10 s11 :
  length (pack21 s0 s1 s2 s3 s4 s5 s6 s7 s8 s9 s10 s11) = 32%nat.
Proof. reflexivity. Qed.
Lemma pack21_wf s0 s1 s2 s3 s4 s5 s6 s7 s8 s9 s10 s11 :
  wf_bytes (pack21 s0 s1 s2 s3 s4 s5 s6 s7 s8 s9 s10 s11).
Proof. unfold pack21. cbn [map]. repeat constructor; apply Z.mod_pos_bound; reflexivity. Qed.

(** environments built from association lists *)
Lemma mk_env_get l : NoDup (map fst l) -> forall x v, In (x, v) l -> get (mk_env l) x = v.
Proof.
  unfold mk_env. intros ND.
  assert (G : forall acc, (forall x v, In (x, v) l ->
     get (fold_left (fun m '(x, v) => set m x v) l acc) x = v) /\
     (forall x, ~ In x (map fst l) ->
     get (fold_left (fun m '(x, v) => set m x v) l acc) x = get acc x)).
  { induction l as [|[y w] l IH]; intros acc.
    - split; [intros x v []|reflexivity].
    - cbn [map fst] in ND. apply NoDup_cons_iff in ND as [N ND]. specialize (IH ND (set acc y w)) as [IH1 IH2].
      cbn [fold_left]. split.
      + intros x v [E|Hin]; [|apply IH1, Hin]. injection E as -> ->.
        rewrite IH2 by exact N. apply get_set_eq.
      + intros x Hx. cbn [map fst In] in Hx. rewrite IH2 by tauto. apply get_set_neq. tauto. }
  apply G.
Qed.
Fixpoint dot (ws vs : list Z) : Z :=
  match ws, vs with w :: ws', v :: vs' => w * v + dot ws' vs' | _, _ => 0 end.
Lemma lin_dot m xs : forall vs ws, (forall x v, In (x, v) (combine xs vs) -> get m x = v) ->
  length xs = length vs ->
  poly_val m (combine (map (fun x => [x]) xs) ws) = dot ws vs.
Proof.
  induction xs as [|x xs IH]; intros [|v vs] ws H L; try discriminate L; cbn [map].
  - destruct ws; reflexivity.
  - destruct ws as [|w ws]; [reflexivity|]. cbn [combine poly_val mono_val dot].
    rewrite (IH vs ws); [|intros y u Hy; apply H; right; exact Hy|cbn in L; lia].
    rewrite (H x v); [ring|left; reflexivity].
Qed.
Lemma dot_app a b c d : length a = length c -> dot (a ++ b) (c ++ d) = dot a c + dot b d.
Proof.
  revert c. induction a as [|x a IH]; intros [|y c] L; try discriminate L; cbn [app dot]; [reflexivity|].
  rewrite IH by (cbn in L; lia). ring.
Qed.
Lemma dot_dsum v n :
  dot (map (fun i => 2 ^ (21 * Z.of_nat i)) (seq 0 n)) (map (fun i => dig v (Z.of_nat i)) (seq 0 n))
  = dsum v n.
Proof.
  induction n as [|n IH]; [reflexivity|]. rewrite seq_S, !map_app, dot_app by (rewrite !map_length; reflexivity).
  rewrite IH. cbn [Nat.add map dot dsum]. ring.
Qed.
Lemma combine_itv m xs vs (P : list (positive * itv)) :
  (forall x v, In (x, v) (combine xs vs) -> get m x = v) ->
  length xs = length vs -> map fst P = xs -> Forall2 in_itv vs (map snd P) ->
  forall x i, In (x, i) P -> in_itv (get m x) i.
Proof.
  revert vs P. induction xs as [|y xs IH]; intros [|v vs] [|[z j] P] H L E F x i Hin;
    try discriminate L; try discriminate E; try contradiction Hin; destruct Hin as [Hin|Hin].
  - injection Hin as -> ->. injection E as -> _. inversion F; subst.
    rewrite (H y v); [assumption|left; reflexivity].
  - injection E as _ E. inversion F; subst. eapply (IH vs P); try eassumption; try reflexivity.
    + intros a b Hab. apply H. right. exact Hab.
    + cbn in L. lia.
Qed.
Ltac nodup := repeat (constructor; [cbn; intuition discriminate|]); constructor.
Lemma digs_itv v n k : Forall2 in_itv (map (fun i => dig v (Z.of_nat i)) (seq k n)) (repeat (0, 2^21 - 1) n).
Proof.
  revert k. induction n as [|n IH]; intros k; cbn [seq map repeat]; constructor; [|apply IH].
  pose proof (dig_bound v (Z.of_nat k)). unfold in_itv; cbn [fst snd]. lia.
Qed.

(** ** the three stages *)
Definition s12vars := [v_s0; v_s1; v_s2; v_s3; v_s4; v_s5; v_s6; v_s7; v_s8; v_s9; v_s10; v_s11].
Definition w21 : list Z := map (fun i => 2 ^ (21 * Z.of_nat i)) (seq 0 24).
Definition lin21 (xs : list positive) : poly := combine (map (fun x => [x]) xs) w21.
Definition s24vars := map fst (modQ_loads []).
Definition sval (m : env) : Z :=
  val12 (get m v_s0) (get m v_s1) (get m v_s2) (get m v_s3) (get m v_s4) (get m v_s5)
        (get m v_s6) (get m v_s7) (get m v_s8) (get m v_s9) (get m v_s10) (get m v_s11).
Lemma lin21_val m : poly_val m (lin21 s12vars) = sval m.
Proof.
  unfold lin21, s12vars, w21, sval, val12. cbn [map combine poly_val mono_val seq].
  cbn [Z.of_nat Z.mul Pos.mul Pos.add Pos.of_succ_nat Pos.succ]. rewrite Z.pow_0_r. ring.
Qed.

Definition mid_itv : list (positive * itv) :=
  map (fun x => (x, (- 2^28, 2^28))) [v_s0; v_s1; v_s2; v_s3; v_s4; v_s5; v_s6; v_s7; v_s8; v_s9; v_s10]
  ++ [(v_s11, (- 2^20, 2^20)); (v_s12, (0, 0))].
Definition dig_itv : list (positive * itv) :=
  map (fun x => (x, (0, 2^21 - 1))) [v_s0; v_s1; v_s2; v_s3; v_s4; v_s5; v_s6; v_s7; v_s8; v_s9; v_s10; v_s11]
  ++ [(v_s12, (-1, 0))].
Definition end_itv : list (positive * itv) :=
  map (fun x => (x, (0, 2^21 - 1))) [v_s0; v_s1; v_s2; v_s3; v_s4; v_s5; v_s6; v_s7; v_s8; v_s9; v_s10]
  ++ [(v_s11, (-2^22, 2^22))].

Lemma same2 : mulAdd_2_prog = modQ_2_prog.
Proof. reflexivity. Qed.
Lemma same3 : mulAdd_3_prog = modQ_3_prog.
Proof. reflexivity. Qed.

Lemma st2_itv : check_itv modQ_2_prog mid_itv dig_itv = true.
Proof. vm_compute. reflexivity. Qed.
Lemma st2_poly : check_poly 0 modQ_2_prog (lin21 s12vars ++ [([v_s12], 2^252)])
   (lin21 s12vars ++ [([v_s12], 2^252)]) = true.
Proof. vm_compute. reflexivity. Qed.
Lemma st3_itv : check_itv modQ_3_prog dig_itv end_itv = true.
Proof. vm_compute. reflexivity. Qed.
Lemma st3_poly : check_poly 0 modQ_3_prog (lin21 s12vars)
   (lin21 s12vars ++ [([v_s12], 2^252 - q25519)]) = true.
Proof. vm_compute. reflexivity. Qed.

Lemma mid_in m : (forall x i, In (x, i) mid_itv -> in_itv (get m x) i) ->
  - 2^251 - 2^240 <= sval m <= 2^251 + 2^240 /\ get m v_s12 = 0.
Proof.
  intros H. unfold sval, val12.
  assert (I : forall x, In (x, (- 2^28, 2^28)) mid_itv -> - 2^28 <= get m x <= 2^28)
    by (intros x Hx; apply H in Hx; exact Hx).
  pose proof (H v_s11 (- 2^20, 2^20) ltac:(cbn; tauto)) as H11.
  pose proof (H v_s12 (0, 0) ltac:(cbn; tauto)) as H12.
  unfold in_itv in H11, H12; cbn [fst snd] in H11, H12.
  pose proof (I v_s0 ltac:(cbn; tauto)). pose proof (I v_s1 ltac:(cbn; tauto)).
  pose proof (I v_s2 ltac:(cbn; tauto)). pose proof (I v_s3 ltac:(cbn; tauto)).
  pose proof (I v_s4 ltac:(cbn; tauto)). pose proof (I v_s5 ltac:(cbn; tauto)).
  pose proof (I v_s6 ltac:(cbn; tauto)). pose proof (I v_s7 ltac:(cbn; tauto)).
  pose proof (I v_s8 ltac:(cbn; tauto)). pose proof (I v_s9 ltac:(cbn; tauto)).
  pose proof (I v_s10 ltac:(cbn; tauto)). clear H I. lia.
Qed.
Definition digits_ok (m : env) : Prop :=
  0 <= get m v_s0 < 2^21 /\ 0 <= get m v_s1 < 2^21 /\ 0 <= get m v_s2 < 2^21 /\
  0 <= get m v_s3 < 2^21 /\ 0 <= get m v_s4 < 2^21 /\ 0 <= get m v_s5 < 2^21 /\
  0 <= get m v_s6 < 2^21 /\ 0 <= get m v_s7 < 2^21 /\ 0 <= get m v_s8 < 2^21 /\
  0 <= get m v_s9 < 2^21 /\ 0 <= get m v_s10 < 2^21.
Lemma end_in m : (forall x i, In (x, i) end_itv -> in_itv (get m x) i) -> digits_ok m.
Proof.
  intros H. unfold digits_ok.
  assert (I : forall x, In (x, (0, 2^21 - 1)) end_itv -> 0 <= get m x < 2^21)
    by (intros x Hx; apply H in Hx; unfold in_itv in Hx; cbn [fst snd] in Hx; lia).
  repeat (split; [apply I; cbn; tauto|]). apply I; cbn; tauto.
Qed.
Lemma dig_in m : (forall x i, In (x, i) dig_itv -> in_itv (get m x) i) ->
  0 <= sval m < 2^252 /\ -1 <= get m v_s12 <= 0.
Proof.
  intros H. unfold sval, val12.
  assert (I : forall x, In (x, (0, 2^21 - 1)) dig_itv -> 0 <= get m x < 2^21)
    by (intros x Hx; apply H in Hx; unfold in_itv in Hx; cbn [fst snd] in Hx; lia).
  pose proof (H v_s12 (-1, 0) ltac:(cbn; tauto)) as H12.
  unfold in_itv in H12; cbn [fst snd] in H12.
  pose proof (I v_s0 ltac:(cbn; tauto)). pose proof (I v_s1 ltac:(cbn; tauto)).
  pose proof (I v_s2 ltac:(cbn; tauto)). pose proof (I v_s3 ltac:(cbn; tauto)).
  pose proof (I v_s4 ltac:(cbn; tauto)). pose proof (I v_s5 ltac:(cbn; tauto)).
  pose proof (I v_s6 ltac:(cbn; tauto)). pose proof (I v_s7 ltac:(cbn; tauto)).
  pose proof (I v_s8 ltac:(cbn; tauto)). pose proof (I v_s9 ltac:(cbn; tauto)).
  pose proof (I v_s10 ltac:(cbn; tauto)). pose proof (I v_s11 ltac:(cbn; tauto)).
  clear H I. lia.
Qed.

Lemma top_nonneg m : digits_ok m -> 0 <= sval m < 2^253 -> 0 <= get m v_s11 < 2^25.
Proof. unfold digits_ok, sval, val12. lia. Qed.

Lemma stage23 m : (forall x i, In (x, i) mid_itv -> in_itv (get m x) i) ->
  pack21_env (run64 (modQ_2_prog ++ modQ_3_prog) m) = le_bytes 32 (sval m mod q25519).
Proof.
  intros B1. rewrite run64_app.
  destruct (mid_in m B1) as [R1 Z1].
  destruct (check_itv_sound _ _ _ m st2_itv B1) as [E2 B2]. rewrite E2. clear E2.
  pose proof (cong0 _ _ (check_poly_sound _ _ _ _ m st2_poly)) as P2.
  rewrite !poly_val_app, !poly_val_1, !lin21_val, Z1 in P2.
  generalize dependent (runZ modQ_2_prog m). intros m2 B2 P2.
  destruct (dig_in m2 B2) as [R2 Z2].
  destruct (check_itv_sound _ _ _ m2 st3_itv B2) as [E3 B3]. rewrite E3. clear E3.
  pose proof (cong0 _ _ (check_poly_sound _ _ _ _ m2 st3_poly)) as P3.
  rewrite !poly_val_app, !poly_val_1, !lin21_val in P3.
  generalize dependent (runZ modQ_3_prog m2). intros m3 B3 P3.
  assert (V : sval m3 = sval m - get m2 v_s12 * q25519) by (rewrite P3; lia).
  assert (R3 : 0 <= sval m3 < q25519) by (rewrite V; unfold q25519; lia).
  assert (M : sval m3 = sval m mod q25519)
    by (apply Z.mod_unique with (get m2 v_s12); [left; exact R3|lia]).
  pose proof (end_in m3 B3) as D.
  pose proof (top_nonneg m3 D ltac:(unfold q25519 in R3; lia)) as T.
  destruct D as (D0&D1&D2&D3&D4&D5&D6&D7&D8&D9&D10).
  rewrite <- M. unfold pack21_env, sval.
  rewrite <- pack21_val by assumption.
  rewrite <- (pack21_length (get m3 v_s0) (get m3 v_s1) (get m3 v_s2) (get m3 v_s3) (get m3 v_s4) (get m3 v_s5)
        (get m3 v_s6) (get m3 v_s7) (get m3 v_s8) (get m3 v_s9) (get m3 v_s10) (get m3 v_s11)) at 1.
  symmetry. apply le_val_inv, pack21_wf.
Qed.

(** ** modQ *)
Definition modQ_itv : list (positive * itv) :=
  map (fun x => (x, (0, 2^21 - 1))) (removelast s24vars) ++ [(v_s23, (0, 2^29 - 1))].
Lemma modQ1_itv : check_itv modQ_1_prog modQ_itv mid_itv = true.
Proof. vm_compute. reflexivity. Qed.
Lemma modQ1_poly : check_poly q25519 modQ_1_prog (lin21 s12vars) (lin21 s24vars) = true.
Proof. vm_compute. reflexivity. Qed.

Lemma modQ_loads_eq b : wf_bytes b ->
  modQ_loads b = combine s24vars (map (fun i => dig (le_val b) (Z.of_nat i)) (seq 0 23)
                                  ++ [(le_val b / 2 ^ (21 * 23)) mod 2 ^ 29]).
Proof.
  intros W. unfold modQ_loads.
  rewrite (d30 b 0 0), (d30 b 21 8), (d30 b 42 16) by (assumption || reflexivity).
  rewrite (d4 b 2 5 1), (d3 b 5 2 2), (d4 b 7 7 3), (d4 b 10 4 4), (d3 b 13 1 5), (d4 b 15 6 6),
    (d3 b 18 3 7), (d4 b 23 5 9), (d3 b 26 2 10), (d4 b 28 7 11), (d4 b 31 4 12), (d3 b 34 1 13),
    (d4 b 36 6 14), (d3 b 39 3 15), (d4 b 44 5 17), (d3 b 47 2 18), (d4 b 49 7 19), (d4 b 52 4 20),
    (d3 b 55 1 21), (d4 b 57 6 22), (dtop b 60 3 23) by (assumption || reflexivity || lia).
  reflexivity.
Qed.

Lemma nd_s24 : NoDup s24vars.
Proof. nodup. Qed.
Lemma cong_mod_q a b : cong q25519 a b -> a mod q25519 = b mod q25519.
Proof.
  intros [k H]. replace a with (b + k * q25519) by lia. apply Z.mod_add. discriminate.
Qed.

Theorem sc_modQ64_ok b : wf_bytes b -> (64 <= length b)%nat ->
  sc_modQ64 b = le_bytes 32 (le_val (firstn 64 b) mod q25519).
Proof.
  intros W L. unfold sc_modQ64. rewrite run64_app, modQ_loads_eq by exact W.
  rewrite le_val_firstn by assumption.
  change (256 ^ Z.of_nat 64) with (2 ^ (21 * Z.of_nat 23 + 29)).
  rewrite <- dsum_top by lia. change (21 * Z.of_nat 23) with (21 * 23).
  pose proof (Z.mod_pos_bound (le_val b / 2 ^ (21 * 23)) (2 ^ 29) ltac:(lia)) as TB.
  generalize dependent ((le_val b / 2 ^ (21 * 23)) mod 2 ^ 29). intros top TB.
  generalize dependent (le_val b). intros v.
  set (l := map (fun i => dig v (Z.of_nat i)) (seq 0 23) ++ [top]).
  pose proof (mk_env_get (combine s24vars l) nd_s24) as G.
  generalize dependent (mk_env (combine s24vars l)). intros m G.
  assert (I : forall x i, In (x, i) modQ_itv -> in_itv (get m x) i).
  { apply (combine_itv m s24vars l modQ_itv G); [reflexivity|reflexivity|].
    unfold l. change (map snd modQ_itv) with (repeat (0, 2^21 - 1) 23 ++ [(0, 2^29 - 1)]).
    apply Forall2_app; [apply digs_itv|]. repeat constructor; cbn [fst snd]; lia. }
  pose proof (lin_dot m s24vars l w21 G eq_refl) as V. fold (lin21 s24vars) in V.
  unfold w21 in V. change (seq 0 24) with (seq 0 23 ++ [23%nat]) in V. unfold l in V.
  rewrite map_app, dot_app in V by (rewrite !map_length; reflexivity).
  rewrite dot_dsum in V. cbn [map dot] in V. clear G l.
  destruct (check_itv_sound _ _ _ m modQ1_itv I) as [E1 B1]. rewrite E1. clear E1.
  rewrite (stage23 _ B1). f_equal.
  pose proof (check_poly_sound _ _ _ _ m modQ1_poly) as P. rewrite lin21_val, V in P.
  apply cong_mod_q in P. rewrite P. f_equal.
  rewrite Z.add_0_r. reflexivity.
Qed.

(** ** multiplyAndAddModQ *)
Definition abc_vars := a_vars ++ b_vars ++ c_vars.
Definition d12_itv : list itv := repeat (0, 2^21 - 1) 11 ++ [(0, 2^25 - 1)].
Definition mulAdd_itv : list (positive * itv) := combine abc_vars (d12_itv ++ d12_itv ++ d12_itv).
Definition mulAdd_target : poly :=
  pmul q25519 (lin21 a_vars) (lin21 b_vars) ++ lin21 c_vars.
Lemma mulAdd1_itv : check_itv mulAdd_1_prog mulAdd_itv mid_itv = true.
Proof. vm_compute. reflexivity. Qed.
Lemma mulAdd1_poly : check_poly q25519 mulAdd_1_prog (lin21 s12vars) mulAdd_target = true.
Proof. vm_compute. reflexivity. Qed.
Lemma nd_abc : NoDup abc_vars.
Proof. nodup. Qed.

Definition digs12 (v : Z) : list Z :=
  map (fun i => dig v (Z.of_nat i)) (seq 0 11) ++ [(v / 2 ^ (21 * 11)) mod 2 ^ 25].
Lemma mulAdd_loads_eq xs b : wf_bytes b -> mulAdd_loads xs b = combine xs (digs12 (le_val b)).
Proof.
  intros W. unfold mulAdd_loads.
  rewrite (d30 b 0 0), (d30 b 21 8) by (assumption || reflexivity).
  rewrite (d4 b 2 5 1), (d3 b 5 2 2), (d4 b 7 7 3), (d4 b 10 4 4), (d3 b 13 1 5), (d4 b 15 6 6),
    (d3 b 18 3 7), (d4 b 23 5 9), (d3 b 26 2 10), (dtop b 28 7 11) by (assumption || reflexivity || lia).
  reflexivity.
Qed.
Lemma digs12_length v : length (digs12 v) = 12%nat.
Proof. reflexivity. Qed.
Lemma digs12_itv v : Forall2 in_itv (digs12 v) d12_itv.
Proof.
  unfold digs12, d12_itv. apply Forall2_app; [apply digs_itv|].
  pose proof (Z.mod_pos_bound (v / 2 ^ (21 * 11)) (2 ^ 25) ltac:(lia)).
  repeat constructor; cbn [fst snd]; lia.
Qed.
Lemma digs12_val m xs v : length xs = 12%nat ->
  (forall x u, In (x, u) (combine xs (digs12 v)) -> get m x = u) ->
  poly_val m (lin21 xs) = v mod 2 ^ 256.
Proof.
  intros L G. unfold lin21. rewrite (lin_dot m xs (digs12 v) w21 G) by (rewrite L; reflexivity).
  unfold digs12, w21. change (seq 0 24) with (seq 0 11 ++ seq 11 13).
  rewrite map_app, dot_app by (rewrite !map_length; reflexivity).
  rewrite dot_dsum. change (seq 11 13) with (11%nat :: seq 12 12). cbn [map dot].
  change (2 ^ 256) with (2 ^ (21 * Z.of_nat 11 + 25)). rewrite <- dsum_top by lia.
  change (21 * Z.of_nat 11) with (21 * 11).
  rewrite Z.add_0_r. reflexivity.
Qed.
Lemma combine_app {A B} (a c : list A) (b d : list B) : length a = length b ->
  combine (a ++ c) (b ++ d) = combine a b ++ combine c d.
Proof.
  revert b. induction a as [|x a IH]; intros [|y b] L; try discriminate L; [reflexivity|].
  cbn [app combine]. f_equal. apply IH. cbn in L. lia.
Qed.

Theorem sc_mulAdd32_ok a b c : wf_bytes a -> wf_bytes b -> wf_bytes c ->
  (32 <= length a)%nat -> (32 <= length b)%nat -> (32 <= length c)%nat ->
  sc_mulAdd32 a b c = le_bytes 32
    ((le_val (firstn 32 a) * le_val (firstn 32 b) + le_val (firstn 32 c)) mod q25519).
Proof.
  intros Wa Wb Wc La Lb Lc. unfold sc_mulAdd32.
  rewrite !mulAdd_loads_eq, !le_val_firstn by assumption.
  change (256 ^ Z.of_nat 32) with (2 ^ 256).
  generalize (le_val a), (le_val b), (le_val c). intros va vb vc.
  clear a b c Wa Wb Wc La Lb Lc.
  rewrite run64_app, same2, same3.
  rewrite <- (combine_app b_vars c_vars) by reflexivity.
  rewrite <- combine_app by reflexivity. fold abc_vars.
  set (l := digs12 va ++ digs12 vb ++ digs12 vc).
  pose proof (mk_env_get (combine abc_vars l) nd_abc) as G.
  generalize dependent (mk_env (combine abc_vars l)). intros m G.
  assert (I : forall x i, In (x, i) mulAdd_itv -> in_itv (get m x) i).
  { apply (combine_itv m abc_vars l mulAdd_itv G); [reflexivity|reflexivity|].
    change (map snd mulAdd_itv) with (d12_itv ++ d12_itv ++ d12_itv). unfold l.
    apply Forall2_app; [apply digs12_itv|]. apply Forall2_app; apply digs12_itv. }
  unfold l, abc_vars in G. rewrite !combine_app in G by reflexivity.
  assert (Va : poly_val m (lin21 a_vars) = va mod 2 ^ 256)
    by (apply digs12_val; [reflexivity|]; intros x u Hx; apply G; rewrite !in_app_iff; tauto).
  assert (Vb : poly_val m (lin21 b_vars) = vb mod 2 ^ 256)
    by (apply digs12_val; [reflexivity|]; intros x u Hx; apply G; rewrite !in_app_iff; tauto).
  assert (Vc : poly_val m (lin21 c_vars) = vc mod 2 ^ 256)
    by (apply digs12_val; [reflexivity|]; intros x u Hx; apply G; rewrite !in_app_iff; tauto).
  clear G l.
  destruct (check_itv_sound _ _ _ m mulAdd1_itv I) as [E1 B1]. rewrite E1. clear E1.
  rewrite (stage23 _ B1). f_equal.
  pose proof (check_poly_sound _ _ _ _ m mulAdd1_poly) as P. rewrite lin21_val in P.
  unfold mulAdd_target in P. rewrite poly_val_app, Vc in P.
  apply cong_mod_q. eapply cong_trans; [exact P|].
  apply cong_add; [|apply cong_refl]. eapply cong_trans; [apply pmul_val|].
  rewrite Va, Vb. apply cong_refl.
Qed.
