(** Precomputed tables, radix-16 digits and scalarMultiply. *)
From Coq Require Import List ZArith Lia Bool Ring Field.
From Verif Require Import GoBase FieldModel FieldSpec FieldProofs ByteLemmas EncodeProofs
  Primality Fp Curve Tables BaseCert BasePoint GroupModel GroupSpec FieldPow GroupProofs
  PointCodec.
Import ListNotations.
Open Scope Z_scope.

(** ** precomputed tables *)
Lemma prec_entry_ok b P : repc P3 b P -> repc PRECOMPUTED (prec_entry b) P.
Proof.
  intros H. apply rep_P3 in H as (X&Y&Z&T&->&B1&B2&B3&B4&N&E1&E2&E3).
  unfold prec_entry. cbn [gX gY gZ newP3].
  assert (Bi : bnd 101 (fe_invert Z)) by (apply bnd_invert; bd).
  assert (Ei : rF (fe_invert Z) = Finv (rF Z)) by (apply rF_invert; bd).
  set (inv := fe_invert Z) in *. clearbody inv.
  assert (Bx : bnd 101 (fe_mul X inv)) by bd. assert (By : bnd 101 (fe_mul Y inv)) by bd.
  assert (Ex : rF (fe_mul X inv) = px P) by (rewrite rF_mul by bd; rewrite E1, Ei, Z_inv by exact N; reflexivity).
  assert (Ey : rF (fe_mul Y inv) = py P) by (rewrite rF_mul by bd; rewrite E2, Ei, Z_inv by exact N; reflexivity).
  set (x := fe_mul X inv) in *. set (y := fe_mul Y inv) in *. clearbody x y.
  apply mk_prec.
  - apply (bnd_add 101 101); bd || lia.
  - apply (bnd_sub 101 101); bd || lia.
  - bd.
  - rewrite (rF_add 101 101) by (bd || lia). now rewrite Ex, Ey.
  - rewrite (rF_sub 101 101) by (bd || lia). now rewrite Ex, Ey.
  - rewrite !rF_mul by bd. rewrite Ex, Ey, rF_d2. ring.
Qed.
Lemma prec_row_ok n : forall Bi Bij P Q, repc P3 Bi P -> repc P3 Bij Q ->
  exists r, prec_row n Bi Bij = Ok r /\ length r = n /\
  forall j e, nth_error r j = Some e -> repc PRECOMPUTED e (padd Q (zmul (Z.of_nat j) P)).
Proof.
  induction n as [|n IH]; intros Bi Bij P Q HP HQ.
  - exists []. split; [reflexivity|]. split; [reflexivity|]. intros [|j] e H; discriminate H.
  - cbn [prec_row]. destruct (add_P3_ok _ _ _ _ HQ HP) as (B' & -> & HB). cbn [bind].
    destruct (IH _ _ _ _ HP HB) as (r & -> & L & R). cbn [bind].
    eexists. split; [reflexivity|]. split; [cbn [length]; now rewrite L|].
    intros [|j] e H; cbn [nth_error] in H.
    + injection H as <-. cbn [Z.of_nat]. rewrite zmul_0, padd_0_r. now apply prec_entry_ok.
    + replace (Z.of_nat (S j)) with (1 + Z.of_nat j) by lia. rewrite zmul_add, zmul_1, <- padd_assoc. eauto.
Qed.
Lemma dbl_n_ok n : forall B P, repc P3 B P -> exists r, dbl_n n B = Ok r /\ repc P3 r (zmul (2 ^ Z.of_nat n) P).
Proof.
  induction n as [|n IH]; intros B P H.
  - exists B. split; [reflexivity|]. cbn [Z.of_nat Z.pow]. now rewrite zmul_1.
  - cbn [dbl_n]. destruct (add_P3_ok _ _ _ _ H H) as (B' & -> & HB). cbn [bind].
    destruct (IH _ _ HB) as (r & -> & R). exists r. split; [reflexivity|].
    rewrite <- zmul_2, <- zmul_mul in R.
    replace (2 ^ Z.of_nat (S n)) with (2 ^ Z.of_nat n * 2); [exact R|].
    rewrite Nat2Z.inj_succ, Z.pow_succ_r by lia. ring.
Qed.
Lemma prec_rows_ok n : forall B P, repc P3 B P ->
  exists rows, prec_rows n B = Ok rows /\ length rows = n /\
  forall i row, nth_error rows i = Some row -> length row = 8%nat /\
    forall j e, nth_error row j = Some e -> repc PRECOMPUTED e (zmul ((Z.of_nat j + 1) * 256 ^ Z.of_nat i) P).
Proof.
  induction n as [|n IH]; intros B P H.
  - exists []. split; [reflexivity|]. split; [reflexivity|]. intros [|i] row E; discriminate E.
  - cbn [prec_rows]. destruct (prec_row_ok 8 _ _ _ _ H H) as (row0 & -> & L0 & R0). cbn [bind].
    destruct (dbl_n_ok 8 _ _ H) as (B' & -> & HB). cbn [bind].
    destruct (IH _ _ HB) as (rows & -> & L & R). cbn [bind].
    eexists. split; [reflexivity|]. split; [cbn [length]; now rewrite L|].
    intros [|i] row E; cbn [nth_error] in E.
    + injection E as <-. split; [exact L0|]. intros j e Hj. specialize (R0 j e Hj).
      replace ((Z.of_nat j + 1) * 256 ^ Z.of_nat 0) with (1 + Z.of_nat j) by (change (256 ^ Z.of_nat 0) with 1; lia).
      rewrite zmul_add, zmul_1. exact R0.
    + destruct (R i row E) as [L' R']. split; [exact L'|]. intros j e Hj. specialize (R' j e Hj).
      change (2 ^ Z.of_nat 8) with 256 in R'. rewrite <- zmul_mul in R'.
      replace ((Z.of_nat j + 1) * 256 ^ Z.of_nat (S i)) with ((Z.of_nat j + 1) * 256 ^ Z.of_nat i * 256); [exact R'|].
      rewrite Nat2Z.inj_succ, Z.pow_succ_r by lia. ring.
Qed.
Theorem g_precompute_single_ok c d P : repc P3 c P ->
  exists rows, g_precompute_single (Ge c None d) = Ok (Ge c (Some rows) d) /\ single_table rows P.
Proof.
  intros H. unfold g_precompute_single. cbn [single]. unfold g_copy. cbn [single core double copy_rows bind].
  destruct (prec_rows_ok 32 _ _ H) as (rows & -> & L & R). cbn [bind].
  exists rows. split; [reflexivity|]. split; assumption.
Qed.
Lemma prec_double_loop_ok n : forall r B P Q, repc P3 r P -> repc P3 B Q ->
  exists l, prec_double_loop n r B = Ok l /\ length l = n /\
  forall j e, nth_error l j = Some e -> repc PRECOMPUTED e (padd Q (zmul (2 * Z.of_nat j) P)).
Proof.
  induction n as [|n IH]; intros r B P Q HP HQ.
  - exists []. split; [reflexivity|]. split; [reflexivity|]. intros [|j] e H; discriminate H.
  - cbn [prec_double_loop]. destruct (add_P3_ok _ _ _ _ HP HQ) as (s & -> & Hs). cbn [bind].
    destruct (add_P3_ok _ _ _ _ HP Hs) as (B' & -> & HB). cbn [bind].
    destruct (IH _ _ _ _ HP HB) as (l & -> & L & R). cbn [bind].
    eexists. split; [reflexivity|]. split; [cbn [length]; now rewrite L|].
    intros [|j] e H; cbn [nth_error] in H.
    + injection H as <-. change (2 * Z.of_nat 0) with 0. rewrite zmul_0, padd_0_r. now apply prec_entry_ok.
    + replace (2 * Z.of_nat (S j)) with (1 + (1 + 2 * Z.of_nat j)) by lia. rewrite !zmul_add, !zmul_1.
      specialize (R j e H).
      replace (padd Q (padd P (padd P (zmul (2 * Z.of_nat j) P))))
        with (padd (padd P (padd P Q)) (zmul (2 * Z.of_nat j) P)); [exact R|].
      rewrite !padd_assoc. rewrite (padd_swap Q P). f_equal. rewrite (padd_swap Q P). reflexivity.
Qed.
Lemma copy_rows_none : copy_rows [] = Ok []. Proof. reflexivity. Qed.
(** an element without tables, or with an empty double table (as [copy] leaves it) *)
Theorem g_precompute_double_ok c d P : repc P3 c P -> d = None \/ d = Some [] ->
  exists l, g_precompute_double (Ge c None d) = Ok (Ge c None (Some l)) /\ double_table l P.
Proof.
  intros H Hd.
  destruct (prec_double_loop_ok 8 _ _ _ _ H H) as (l & E & L & R). exists l. split.
  - unfold g_precompute_double, g_copy. destruct Hd; subst d; cbn [double single core copy_rows bind]; rewrite E; reflexivity.
  - split; [exact L|]. intros j e Hj. specialize (R j e Hj).
    rewrite <- (zmul_1 P) in R at 1. rewrite <- zmul_add in R.
    now replace (2 * Z.of_nat j + 1) with (1 + 2 * Z.of_nat j) by lia.
Qed.

(** ** radix 16 *)
Fixpoint dv (b : Z) (l : list Z) : Z := match l with [] => 0 | x :: r => x + b * dv b r end.
Definition byteb (x : Z) : bool := (0 <=? x) && (x <? 256).
Lemma all_bytes (f : Z -> bool) : forallb f (map Z.of_nat (seq 0 256)) = true -> forall x, is_byte x -> f x = true.
Proof.
  intros H x Hx. rewrite forallb_forall in H. apply H. apply in_map_iff. exists (Z.to_nat x).
  unfold is_byte in Hx. split; [lia|]. apply in_seq. lia.
Qed.
Lemma nibbles_ok x : is_byte x -> exists l h, nibbles x = [l; h] /\ 0 <= l < 16 /\ 0 <= h < 16 /\ l + 16 * h = x.
Proof.
  intros Hx.
  assert (H : (match nibbles x with [l; h] => (0 <=? l) && (l <? 16) && (0 <=? h) && (h <? 16) && (l + 16 * h =? x) | _ => false end) = true).
  { revert x Hx. apply all_bytes. vm_compute. reflexivity. }
  destruct (nibbles x) as [|l [|h [|]]]; try discriminate H. exists l, h.
  rewrite !andb_true_iff, !Z.leb_le, !Z.ltb_lt, Z.eqb_eq in H. split; [reflexivity|]. lia.
Qed.
Lemma flat_nibbles l : wf_bytes l ->
  dv 16 (flat_map nibbles l) = le_val l /\ length (flat_map nibbles l) = (2 * length l)%nat /\
  Forall (fun d => 0 <= d < 16) (flat_map nibbles l).
Proof.
  induction 1 as [|x l Hx _ (IH1 & IH2 & IH3)]; [repeat split; constructor|].
  cbn [flat_map]. destruct (nibbles_ok x Hx) as (a & h & -> & Ha & Hh & E). cbn [app dv length le_val].
  split; [rewrite IH1; lia|]. split; [rewrite IH2; lia|]. auto.
Qed.
Definition small9 (d : Z) : Prop := -8 <= d <= 8.
Lemma carry_digit x c : 0 <= x < 16 -> 0 <= c <= 1 ->
  let y := w8 (x + w8 c) in let c' := Z.shiftr (y + 8) 4 in
  y = x + c /\ 0 <= c' <= 1 /\ w8 (y - w8 (w8 c' * 16)) = x + c - 16 * c' /\ -8 <= x + c - 16 * c' <= 7.
Proof.
  intros Hx Hc.
  assert (Hw : forall z, -128 <= z < 128 -> w8 z = z) by (intros z Hz; unfold w8; rewrite Z.mod_small; lia).
  assert (E : w8 (x + w8 c) = x + c) by (rewrite (Hw c) by lia; apply Hw; lia).
  cbv zeta. rewrite E. split; [reflexivity|]. set (c' := Z.shiftr (x + c + 8) 4).
  assert (C : c' = (x + c + 8) / 16) by (unfold c'; rewrite Z.shiftr_div_pow2 by lia; reflexivity).
  clearbody c'. assert (D : 16 * c' <= x + c + 8 < 16 * c' + 16) by (rewrite C; pose proof (Z.div_mod (x + c + 8) 16); pose proof (Z.mod_pos_bound (x + c + 8) 16); lia).
  split; [lia|]. rewrite (Hw c') by lia. rewrite (Hw (c' * 16)) by lia. rewrite Hw by lia. lia.
Qed.
Lemma radix_carry_cons c x y r : radix_carry c (x :: y :: r) =
  let x' := w8 (x + w8 c) in let c' := Z.shiftr (x' + 8) 4 in
  w8 (x' - w8 (w8 c' * 16)) :: radix_carry c' (y :: r).
Proof. reflexivity. Qed.
Lemma radix_carry_ok l : forall c, Forall (fun d => 0 <= d < 16) l -> 0 <= c <= 1 -> l <> [] ->
  dv 16 (radix_carry c l) = dv 16 l + c /\ length (radix_carry c l) = length l /\
  (forall i, (S i < length l)%nat -> -8 <= nth i (radix_carry c l) 0 <= 7) /\
  0 <= nth (length l - 1) (radix_carry c l) 0 <= 16.
Proof.
  induction l as [|x l IH]; intros c H Hc N; [contradiction|].
  inversion H as [|? ? Hx Hl]; subst.
  destruct (carry_digit x c Hx Hc) as (E1 & E2 & E3 & E4). destruct l as [|y l].
  - cbn [radix_carry dv length nth Nat.sub]. rewrite E1. split; [lia|]. split; [reflexivity|]. split; [intros i Hi; lia|lia].
  - rewrite radix_carry_cons. cbv zeta in *.
    set (c' := Z.shiftr (w8 (x + w8 c) + 8) 4) in *.
    destruct (IH c' Hl E2 ltac:(discriminate)) as (I1 & I2 & I3 & I4).
    set (t := radix_carry c' (y :: l)) in *. clearbody t c'.
    rewrite E3. split; [|split; [|split]].
    + change (dv 16 (x :: y :: l)) with (x + 16 * dv 16 (y :: l)). cbn [dv] in *. lia.
    + cbn [length] in *. lia.
    + intros [|i] Hi; cbn [nth]; [lia|]. apply I3. cbn [length] in *. lia.
    + cbn [length] in *. replace (S (S (length l)) - 1)%nat with (S (length l)) by lia.
      replace (S (length l) - 1)%nat with (length l) in I4 by lia. cbn [nth]. exact I4.
Qed.
Lemma dv_ge l k : (forall i, (i < length l)%nat -> -8 <= nth i l 0) -> k = Z.of_nat (length l) -> dv 16 l >= 1 - 16 ^ k.
Proof.
  revert k. induction l as [|x l IH]; intros k H E; cbn [length] in E.
  - subst k. cbn. lia.
  - cbn [dv]. assert (H0 := H 0%nat). cbn in H0.
    assert (I := IH (Z.of_nat (length l))). specialize (I ltac:(intros i Hi; apply (H (S i)); cbn; lia) eq_refl).
    subst k. rewrite Nat2Z.inj_succ, Z.pow_succ_r by lia.
    assert (0 < 16 ^ Z.of_nat (length l)) by (apply Z.pow_pos_nonneg; lia). lia.
Qed.
Lemma dv_app b l m : dv b (l ++ m) = dv b l + b ^ Z.of_nat (length l) * dv b m.
Proof.
  induction l as [|x l IH]; cbn [dv app length]; [cbn [Z.of_nat Z.pow]; lia|]. rewrite IH, Nat2Z.inj_succ, Z.pow_succ_r by lia. ring.
Qed.
Lemma firstn_last n : forall l : list Z, length l = S n -> l = firstn n l ++ [nth n l 0].
Proof.
  induction n as [|n IH]; intros [|x l] H; cbn [length] in H; try discriminate H.
  - destruct l; [reflexivity|discriminate H].
  - cbn [firstn nth app]. f_equal. apply IH. congruence.
Qed.
Theorem to_radix16_ok a : wf_bytes a -> (32 <= length a)%nat ->
  exists e, to_radix16 a = Ok e /\ length e = 64%nat /\ dv 16 e = le_val (firstn 32 a) /\
  (forall i, (i < 63)%nat -> -8 <= nth i e 0 <= 7) /\ 0 <= nth 63 e 0 <= 16 /\
  (le_val (firstn 32 a) < 2 ^ 255 -> nth 63 e 0 <= 8).
Proof.
  intros W L. unfold to_radix16. replace (Nat.ltb (length a) 32) with false by (symmetry; apply Nat.ltb_ge; lia).
  destruct (flat_nibbles (firstn 32 a) (wf_firstn 32 a W)) as (F1 & F2 & F3).
  rewrite firstn_length_le in F2 by lia. change (2 * 32)%nat with 64%nat in F2.
  destruct (radix_carry_ok _ 0 F3) as (R1 & R2 & R3 & R4); [lia|intros H; rewrite H in F2; discriminate F2|].
  rewrite F2 in *. rewrite F1, Z.add_0_r in R1.
  eexists. split; [reflexivity|]. split; [exact R2|]. split; [exact R1|].
  split; [intros i Hi; apply R3; lia|]. split; [exact R4|].
  set (e := radix_carry 0 (flat_map nibbles (firstn 32 a))) in *. clearbody e.
  intros V. rewrite <- R1, (firstn_last 63 e R2), dv_app in V. rewrite firstn_length_le in V by lia.
  pose proof (dv_ge (firstn 63 e) 63) as G. rewrite firstn_length_le in G by lia.
  assert (K : forall i, (i < 63)%nat -> -8 <= nth i (firstn 63 e) 0).
  { intros i Hi. specialize (R3 i ltac:(lia)). rewrite (firstn_last 63 e R2) in R3.
    rewrite app_nth1 in R3 by (rewrite firstn_length; lia). lia. }
  specialize (G K eq_refl). set (x := nth 63 e 0) in *. clearbody x.
  set (w := dv 16 (firstn 63 e)) in *. clearbody w.
  cbn [dv] in V. change (16 ^ Z.of_nat 63) with (2 ^ 252) in V. change (16 ^ 63) with (2 ^ 252) in G. lia.
Qed.

(** ** Select *)
Definition select_table (row : list gcore) (P : point) : Prop :=
  length row = 8%nat /\ forall j e, nth_error row j = Some e -> repc PRECOMPUTED e (zmul (Z.of_nat j + 1) P).
Lemma byte_eq_small b c : 0 <= b <= 16 -> 1 <= c <= 8 -> is_byte_eq_ct b c = if b =? c then 1 else 0.
Proof.
  intros Hb Hc.
  assert (H : forallb (fun b => forallb (fun c => is_byte_eq_ct b c =? (if b =? c then 1 else 0))
                 (map Z.of_nat (seq 1 8))) (map Z.of_nat (seq 0 17)) = true) by (vm_compute; reflexivity).
  rewrite forallb_forall in H. specialize (H b). rewrite forallb_forall in H.
  apply Z.eqb_eq, H; apply in_map_iff; [exists (Z.to_nat b)|exists (Z.to_nat c)]; (split; [lia|]); apply in_seq; lia.
Qed.
Lemma select_loop_ok b : 0 <= b <= 16 -> forall row i t P, 0 <= i -> i + Z.of_nat (length row) <= 8 ->
  repc PRECOMPUTED t (if (1 <=? b) && (b <=? i) then zmul b P else pzero) ->
  (forall j e, nth_error row j = Some e -> repc PRECOMPUTED e (zmul (i + Z.of_nat j + 1) P)) ->
  exists r, select_loop b i row t = Ok r /\
    repc PRECOMPUTED r (if (1 <=? b) && (b <=? i + Z.of_nat (length row)) then zmul b P else pzero).
Proof.
  intros Hb. induction row as [|el row IH]; intros i t P Hi HL Ht HR; cbn [length] in *.
  - exists t. split; [reflexivity|]. now rewrite Z.add_0_r.
  - cbn [select_loop]. rewrite byte_eq_small by lia.
    replace (i + Z.of_nat (S (length row))) with (i + 1 + Z.of_nat (length row)) in * by lia.
    assert (HR' : forall j e, nth_error row j = Some e -> repc PRECOMPUTED e (zmul (i + 1 + Z.of_nat j + 1) P)).
    { intros j e Hj. replace (i + 1 + Z.of_nat j + 1) with (i + Z.of_nat (S j) + 1) by lia. now apply HR. }
    destruct (b =? i + 1) eqn:E; unfold g_cmov; cbn [Z.eqb Pos.eqb bind]; apply IH; try lia; try assumption.
    + apply Z.eqb_eq in E. subst b. replace (1 <=? i + 1) with true by (symmetry; apply Z.leb_le; lia).
      rewrite Z.leb_refl. cbn [andb]. specialize (HR 0%nat el eq_refl).
      now replace (i + Z.of_nat 0 + 1) with (i + 1) in HR by lia.
    + apply Z.eqb_neq in E. replace (b <=? i + 1) with (b <=? i); [exact Ht|].
      destruct (Z.leb_spec b i), (Z.leb_spec b (i + 1)); try reflexivity; lia.
Qed.
Lemma sign_split b : -8 <= b <= 16 ->
  is_negative_ct b = (if b <? 0 then 1 else 0) /\
  b - Z.shiftl (Z.land (- is_negative_ct b) b) 1 = Z.abs b.
Proof.
  intros Hb.
  assert (H : forallb (fun k => let b := Z.of_nat k - 8 in
     (is_negative_ct b =? (if b <? 0 then 1 else 0)) &&
     (b - Z.shiftl (Z.land (- is_negative_ct b) b) 1 =? Z.abs b)) (seq 0 25) = true) by (vm_compute; reflexivity).
  rewrite forallb_forall in H. specialize (H (Z.to_nat (b + 8))). cbv zeta in H.
  replace (Z.of_nat (Z.to_nat (b + 8)) - 8) with b in H by lia.
  rewrite andb_true_iff, !Z.eqb_eq in H. apply H. apply in_seq. lia.
Qed.
Lemma prec_minus t P : repc PRECOMPUTED t P -> repc PRECOMPUTED (newPrecomputed (gY t) (gX t) (fe_neg (gZ t))) (pneg P).
Proof.
  intros H. apply rep_prec in H as (X&Y&Z&T&->&B1&B2&B3&E1&E2&E3). cbn [gX gY gZ].
  apply mk_prec; try bd; change (px (pneg P)) with (- px P)%F; change (py (pneg P)) with (py P).
  - apply bnd_neg; [exact B3|lia].
  - rewrite E2. ring.
  - rewrite E1. ring.
  - rewrite (rF_neg 330) by (exact B3 || lia). rewrite E3. ring.
Qed.
(** Select picks b times the row's point for -8 <= b <= 8, and the neutral element for 9 <= b <= 16. *)
Theorem g_select_ok g rows P pos b : single g = Some rows -> single_table rows P -> (pos < 32)%nat ->
  -8 <= b <= 16 -> exists r, g_select g pos b = Ok r /\
  repc PRECOMPUTED r (if b <=? 8 then zmul (b * 256 ^ Z.of_nat pos) P else pzero).
Proof.
  intros Hs [L R] Hp Hb. unfold g_select. rewrite Hs.
  destruct (nth_error rows pos) as [row|] eqn:E; [|apply nth_error_None in E; lia].
  destruct (R pos row E) as [Lr Rr]. destruct (sign_split b Hb) as [S1 S2]. rewrite S2, S1.
  destruct (select_loop_ok (Z.abs b) ltac:(lia) row 0 zero_precomputed (zmul (256 ^ Z.of_nat pos) P)) as (t & -> & T).
  - lia.
  - rewrite Lr. lia.
  - replace ((1 <=? Z.abs b) && (Z.abs b <=? 0)) with false; [apply zero_prec_rep|].
    symmetry. apply andb_false_iff. destruct (Z.eq_dec b 0); [left; apply Z.leb_gt; lia|right; apply Z.leb_gt; lia].
  - intros j e Hj. rewrite <- zmul_mul. apply Rr, Hj.
  - cbn [bind]. rewrite Lr in T. change (0 + Z.of_nat 8) with 8 in T. unfold g_cmov.
    destruct (b <? 0) eqn:Nb; cbn [Z.eqb Pos.eqb].
    + apply Z.ltb_lt in Nb. eexists. split; [reflexivity|].
      replace ((1 <=? Z.abs b) && (Z.abs b <=? 8)) with true in T
        by (symmetry; apply andb_true_iff; split; apply Z.leb_le; lia).
      replace (b <=? 8) with true by (symmetry; apply Z.leb_le; lia).
      apply prec_minus in T. rewrite <- zmul_opp, <- zmul_mul in T. now replace (- Z.abs b) with b in T by lia.
    + apply Z.ltb_ge in Nb. eexists. split; [reflexivity|]. rewrite Z.abs_eq in T by lia.
      destruct (Z.eq_dec b 0) as [->|N0].
      * cbn [Z.leb Z.compare andb] in *. rewrite Z.mul_0_l, zmul_0. exact T.
      * replace (1 <=? b) with true in T by (symmetry; apply Z.leb_le; lia). cbn [andb] in T.
        rewrite zmul_mul. exact T.
Qed.

(** ** scalarMultiply *)
Fixpoint dsum (f : nat -> Z) (is : list nat) : Z := match is with [] => 0 | i :: r => f i + dsum f r end.
Lemma dsum_ext f h is : (forall i, In i is -> f i = h i) -> dsum f is = dsum h is.
Proof. induction is as [|i is IH]; intros H; cbn [dsum]; [reflexivity|]. rewrite H by (left; reflexivity). rewrite IH; [reflexivity|]. intros; apply H; now right. Qed.
Lemma dsum_map f h is : dsum f (map h is) = dsum (fun i => f (h i)) is.
Proof. induction is as [|i is IH]; cbn [map dsum]; [reflexivity|]. now rewrite IH. Qed.
(** the digit Select acts on: digits above 8 select the neutral element *)
Definition sel (d : Z) : Z := if d <=? 8 then d else 0.
Lemma sel_point d k P : (if d <=? 8 then zmul (d * k) P else pzero) = zmul (sel d * k) P.
Proof. unfold sel. destruct (d <=? 8); [reflexivity|]. now rewrite Z.mul_0_l, zmul_0. Qed.
Lemma sm_loop_ok g rows P e : single g = Some rows -> single_table rows P ->
  forall is h Q, repc P3 h Q -> (forall i, In i is -> (i < 64)%nat /\ -8 <= nth i e 0 <= 16) ->
  exists r, sm_loop g e is h = Ok r /\
  repc P3 r (padd Q (zmul (dsum (fun i => sel (nth i e 0) * 256 ^ Z.of_nat (i / 2)) is) P)).
Proof.
  intros Hs HT. induction is as [|i is IH]; intros h Q H HI.
  - exists h. split; [reflexivity|]. cbn [dsum]. now rewrite zmul_0, padd_0_r.
  - cbn [sm_loop dsum]. destruct (HI i (or_introl eq_refl)) as [Hi Hd].
    unfold sm_step.
    destruct (g_select_ok g rows P (i / 2) (nth i e 0) Hs HT) as (s & -> & S); [apply Nat.div_lt_upper_bound; lia|lia|].
    cbn [bind]. rewrite sel_point in S.
    destruct (g_precomputedAdd_ok _ _ _ _ H S) as (t & -> & T). cbn [bind].
    destruct (to_P3_P1 _ _ T) as (h' & -> & H'). cbn [bind].
    destruct (IH h' _ H' ltac:(intros; apply HI; now right)) as (r & -> & R).
    exists r. split; [reflexivity|]. rewrite zmul_add, <- padd_assoc. exact R.
Qed.
Lemma dv_pairs n : forall l, length l = (2 * n)%nat ->
  dv 16 l = dsum (fun k => (nth (2 * k) l 0 + 16 * nth (2 * k + 1) l 0) * 256 ^ Z.of_nat k) (seq 0 n).
Proof.
  induction n as [|n IH]; intros l L.
  - destruct l; [reflexivity|discriminate L].
  - destruct l as [|a [|b l]]; [discriminate L|cbn in L; lia|].
    cbn [length] in L. assert (L' : length l = (2 * n)%nat) by lia.
    cbn [dv seq dsum]. rewrite (IH l L'). rewrite <- seq_shift, dsum_map.
    assert (E : dsum (fun k => (nth (2 * S k) (a :: b :: l) 0 + 16 * nth (2 * S k + 1) (a :: b :: l) 0) * 256 ^ Z.of_nat (S k)) (seq 0 n)
       = 256 * dsum (fun k => (nth (2 * k) l 0 + 16 * nth (2 * k + 1) l 0) * 256 ^ Z.of_nat k) (seq 0 n)).
    { generalize (seq 0 n). intros is. induction is as [|i is IHi]; cbn [dsum]; [lia|]. rewrite IHi.
      replace (2 * S i)%nat with (S (S (2 * i))) by lia. cbn [nth Nat.add].
      rewrite Nat2Z.inj_succ, Z.pow_succ_r by lia. ring. }
    rewrite E. change (nth (2 * 0) (a :: b :: l) 0) with a. change (nth (2 * 0 + 1) (a :: b :: l) 0) with b.
    change (256 ^ Z.of_nat 0) with 1. ring.
Qed.
Lemma dsum_add f h is : dsum (fun i => f i + h i) is = dsum f is + dsum h is.
Proof. induction is as [|i is IH]; cbn [dsum]; [reflexivity|]. rewrite IH. ring. Qed.
Lemma dsum_mul c f is : dsum (fun i => c * f i) is = c * dsum f is.
Proof. induction is as [|i is IH]; cbn [dsum]; [ring|]. rewrite IH. ring. Qed.
(** every scalar: the value computed is the one of the digits Select acts on *)
Theorem g_scalarMultiply_gen g rows P a e : single g = Some rows -> single_table rows P ->
  wf_bytes a -> (32 <= length a)%nat -> to_radix16 a = Ok e ->
  exists r, g_scalarMultiply g a = Ok r /\ repc P3 r (zmul (dv 16 (map sel e)) P).
Proof.
  intros Hs HT W L E. destruct (to_radix16_ok a W L) as (e' & E' & Le & De & D1 & D2 & D3).
  rewrite E in E'. injection E' as <-. unfold g_scalarMultiply. rewrite E. cbn [bind].
  assert (K : forall i, (i < 64)%nat -> (i < 64)%nat /\ -8 <= nth i e 0 <= 16).
  { intros i Hi. split; [exact Hi|]. destruct (Nat.eq_dec i 63) as [->|]; [lia|]. specialize (D1 i ltac:(lia)). lia. }
  destruct (sm_loop_ok g rows P e Hs HT (map (fun k => 2 * k + 1)%nat (seq 0 32)) zero_P3 pzero zero_P3_rep) as (h & -> & H).
  { intros i Hi. apply in_map_iff in Hi as (k & <- & Hk). apply in_seq in Hk. apply K. lia. }
  cbn [bind]. rewrite padd_0_l in H.
  destruct (g_dbl_P3 _ _ H) as (d1 & -> & H1). cbn [bind]. destruct (to_P2_P1 _ _ H1) as (h1 & -> & G1). cbn [bind].
  destruct (g_dbl_P2 _ _ G1) as (d2 & -> & H2). cbn [bind]. destruct (to_P2_P1 _ _ H2) as (h2 & -> & G2). cbn [bind].
  destruct (g_dbl_P2 _ _ G2) as (d3 & -> & H3). cbn [bind]. destruct (to_P2_P1 _ _ H3) as (h3 & -> & G3). cbn [bind].
  destruct (g_dbl_P2 _ _ G3) as (d4 & -> & H4). cbn [bind]. destruct (to_P3_P1 _ _ H4) as (h4 & -> & G4). cbn [bind].
  rewrite <- !zmul_2, <- !zmul_mul in G4.
  destruct (sm_loop_ok g rows P e Hs HT (map (fun k => 2 * k)%nat (seq 0 32)) h4 _ G4) as (r & -> & R).
  { intros i Hi. apply in_map_iff in Hi as (k & <- & Hk). apply in_seq in Hk. apply K. lia. }
  exists r. split; [reflexivity|]. rewrite <- zmul_add in R.
  rewrite (dv_pairs 32 (map sel e)) by (rewrite map_length; exact Le).
  match goal with R : repc P3 r (zmul ?u P) |- repc P3 r (zmul ?v P) => replace v with u; [exact R|] end.
  rewrite !dsum_map. rewrite <- !dsum_mul, <- dsum_add. apply dsum_ext. intros k _.
  change 0 with (sel 0) at 3 4. rewrite !map_nth.
  replace ((2 * k + 1) / 2)%nat with k by (apply Nat.div_unique with 1%nat; lia).
  replace ((2 * k) / 2)%nat with k by (apply Nat.div_unique with 0%nat; lia). ring.
Qed.
Lemma sel_id e : length e = 64%nat -> (forall i, (i < 64)%nat -> nth i e 0 <= 8) -> map sel e = e.
Proof.
  intros L H. apply nth_ext with (d := sel 0) (d' := 0); [apply map_length|].
  rewrite map_length. intros n Hn. rewrite map_nth. unfold sel.
  replace (nth n e 0 <=? 8) with true; [reflexivity|]. symmetry. apply Z.leb_le, H. lia.
Qed.
Theorem g_scalarMultiply_ok g rows P a : single g = Some rows -> single_table rows P ->
  wf_bytes a -> (32 <= length a)%nat -> le_val (firstn 32 a) < 2 ^ 255 ->
  exists r, g_scalarMultiply g a = Ok r /\ repc P3 r (zmul (le_val (firstn 32 a)) P).
Proof.
  intros Hs HT W L V. destruct (to_radix16_ok a W L) as (e & E & Le & De & D1 & D2 & D3).
  specialize (D3 V).
  destruct (g_scalarMultiply_gen g rows P a e Hs HT W L E) as (r & R1 & R2). exists r. split; [exact R1|].
  rewrite sel_id, De in R2; [exact R2|exact Le|].
  intros i Hi. destruct (Nat.eq_dec i 63) as [->|]; [exact D3|]. specialize (D1 i ltac:(lia)). lia.
Qed.
Theorem g_scalarMultiply_short g a : (length a < 32)%nat -> g_scalarMultiply g a = Panic.
Proof. intros H. unfold g_scalarMultiply, to_radix16. now replace (Nat.ltb (length a) 32) with true by (symmetry; apply Nat.ltb_lt; lia). Qed.
