(** Proofs about [math_Add]: when the shared digit array does no harm, and when it does. *)
From Coq Require Import List ZArith Lia Bool Znumtheory Ring Field.
From Verif Require Import GoBase FieldModel FieldSpec FieldProofs ByteLemmas EncodeProofs Fp Curve GroupModel
  GroupSpec FieldPow GroupProofs ApiModel TableProofs PointCodec GroupEq ScalarMul SlideProofs PropGroupLemmas MathModel MathSpec MathProofs.
Import ListNotations.
Open Scope Z_scope.

(** ** digit arrays *)
Lemma wlen_nonneg v : 0 <= wlen v.
Proof.
  unfold wlen. destruct (v <=? 0) eqn:E; [lia|].
  pose proof (Z.log2_nonneg v). pose proof (Z.div_pos (Z.log2 v) 64). lia.
Qed.
Lemma wlen_le v k : 0 <= v -> 0 <= k -> (wlen v <= k <-> v < 2 ^ (64 * k)).
Proof.
  intros Hv Hk. unfold wlen. destruct (v <=? 0) eqn:E.
  - apply Z.leb_le in E. split; intros _; [|lia]. assert (v = 0) as -> by lia. apply Z.pow_pos_nonneg; lia.
  - apply Z.leb_gt in E. rewrite (Z.log2_lt_pow2 v (64 * k)) by exact E.
    pose proof (Z.div_mod (Z.log2 v) 64 ltac:(lia)). pose proof (Z.mod_pos_bound (Z.log2 v) 64 ltac:(lia)). lia.
Qed.
Lemma wlen_bound v : 0 <= v -> v < 2 ^ (64 * wlen v).
Proof. intros H. apply wlen_le; [exact H|apply wlen_nonneg|lia]. Qed.
Lemma wlen_0 v : 0 <= v -> wlen v = 0 -> v = 0.
Proof. intros H E. pose proof (wlen_bound v H) as B. rewrite E in B. change (2 ^ (64 * 0)) with 1 in B. lia. Qed.
Lemma wlen_ge v k : 0 <= k -> 2 ^ (64 * k) <= v -> k + 1 <= wlen v.
Proof.
  intros Hk H. assert (0 < 2 ^ (64 * k)) by (apply Z.pow_pos_nonneg; lia).
  destruct (Z_le_gt_dec (wlen v) k) as [L|L]; [|lia]. apply wlen_le in L; lia.
Qed.

Lemma get_put k v B m : 0 <= m <= k -> 0 <= v < 2 ^ (64 * m) -> digits_get m (digits_put k v B) = v.
Proof.
  intros Hm Hv. unfold digits_get, digits_put. set (h := B / 2 ^ (64 * k)).
  replace (64 * k) with (64 * (k - m) + 64 * m) by lia. rewrite Z.pow_add_r by lia.
  replace (v + 2 ^ (64 * (k - m)) * 2 ^ (64 * m) * h) with (v + 2 ^ (64 * (k - m)) * h * 2 ^ (64 * m)) by ring.
  rewrite Z.mod_add by (apply Z.pow_nonzero; lia). apply Z.mod_small. exact Hv.
Qed.
Lemma get_range m B : 0 <= m -> 0 <= digits_get m B < 2 ^ (64 * m).
Proof. intros H. apply Z.mod_pos_bound, Z.pow_pos_nonneg; lia. Qed.

(** a big.Int with the value v *)
Definition den (s : bint * Z) (v : Z) : Prop :=
  bint_val (fst s) (snd s) = v /\ 0 <= v /\ match fst s with Shared m => 0 <= m | Own _ => True end.
(** its value does not depend on the shared array *)
Definition stable (b : bint) : Prop := match b with Shared m => m = 0 | Own _ => True end.
Lemma stable_val b B B' : stable b -> bint_val b B = bint_val b B'.
Proof.
  destruct b as [m|v]; cbn; [|reflexivity]. intros ->. unfold digits_get. change (2 ^ (64 * 0)) with 1.
  rewrite !Z.mod_1_r. reflexivity.
Qed.

Lemma pow64_max a b x y : 0 <= a -> 0 <= b -> 0 <= x < 2 ^ (64 * a) -> 0 <= y < 2 ^ (64 * b) ->
  (a = 1 \/ b = 1) -> 0 <= x * y < 2 ^ (64 * (Z.max a b + 1)).
Proof.
  intros Ha Hb Hx Hy H. split; [nia|].
  assert (Hxy : x * y < 2 ^ (64 * a) * 2 ^ (64 * b)) by nia.
  rewrite <- Z.pow_add_r in Hxy by lia. eapply Z.lt_le_trans; [exact Hxy|].
  apply Z.pow_le_mono_r; lia.
Qed.
Lemma pow64_add a b x y : 0 <= a -> 0 <= b -> 0 <= x < 2 ^ (64 * a) -> 0 <= y < 2 ^ (64 * b) ->
  0 <= x + y < 2 ^ (64 * (Z.max a b + 1)).
Proof.
  intros Ha Hb Hx Hy. split; [lia|].
  assert (2 ^ (64 * a) <= 2 ^ (64 * Z.max a b)) by (apply Z.pow_le_mono_r; lia).
  assert (2 ^ (64 * b) <= 2 ^ (64 * Z.max a b)) by (apply Z.pow_le_mono_r; lia).
  replace (64 * (Z.max a b + 1)) with (64 * Z.max a b + 64) by lia. rewrite Z.pow_add_r by lia.
  assert (2 <= 2 ^ 64) by (vm_compute; discriminate). 
  assert (0 < 2 ^ (64 * Z.max a b)) by (apply Z.pow_pos_nonneg; lia).
  nia.
Qed.
Lemma den_put k v B : 0 <= v -> wlen v <= k -> den (Shared (wlen v), digits_put k v B) v.
Proof.
  intros Hv Hk. unfold den. cbn [fst snd bint_val]. pose proof (wlen_nonneg v).
  split; [|split; [exact Hv|exact H]]. apply get_put; [lia|]. split; [exact Hv|apply wlen_bound, Hv].
Qed.
Lemma den_zero B : den (Shared 0, B) 0.
Proof. unfold den. cbn. unfold digits_get. change (2 ^ (64 * 0)) with 1. rewrite Z.mod_1_r. lia. Qed.

Lemma b_mul_den cap s v y : den s v -> 0 <= y -> den (b_mul cap (fst s) y (snd s)) (v * y).
Proof.
  destruct s as [[m|w] B]; unfold den at 1; cbn [fst snd bint_val]; intros (E & Hv & Hm) Hy.
  2:{ cbn [b_mul]. unfold den. cbn. subst w. nia. }
  cbn [b_mul]. rewrite E. pose proof (get_range m B Hm) as Rx. rewrite E in Rx.
  pose proof (wlen_bound y Hy) as Ry. pose proof (wlen_nonneg y) as Ny.
  destruct ((m =? 0) || (wlen y =? 0)) eqn:E0.
  { apply orb_true_iff in E0 as [E0|E0]; apply Z.eqb_eq in E0.
    - subst m. change (2 ^ (64 * 0)) with 1 in Rx. assert (v = 0) as -> by lia. apply den_zero.
    - apply wlen_0 in E0; [|exact Hy]. subst y. rewrite Z.mul_0_r. apply den_zero. }
  destruct ((m =? 1) || (wlen y =? 1)) eqn:E1.
  2:{ unfold den. cbn. nia. }
  assert (H1 : m = 1 \/ wlen y = 1).
  { apply orb_true_iff in E1 as [E1|E1]; apply Z.eqb_eq in E1; auto. }
  pose proof (pow64_max m (wlen y) v y Hm Ny Rx (conj Hy Ry) H1) as Rxy.
  destruct ((if wlen y =? 1 then y else v) =? 0) eqn:E2.
  { apply Z.eqb_eq in E2. assert (Ev : v * y = 0) by (destruct (wlen y =? 1); rewrite E2; lia).
    rewrite Ev. apply den_zero. }
  destruct (Z.max m (wlen y) + 1 <=? cap).
  - apply den_put; [lia|]. apply wlen_le; lia.
  - unfold den. cbn. nia.
Qed.
Lemma b_add_den cap s v w : den s v -> 0 <= w -> den (b_add cap (fst s) w (snd s)) (v + w).
Proof.
  destruct s as [[m|u] B]; unfold den at 1; cbn [fst snd bint_val]; intros (E & Hv & Hm) Hw.
  2:{ cbn [b_add]. unfold den. cbn. subst u. lia. }
  cbn [b_add]. rewrite E. pose proof (get_range m B Hm) as Rx. rewrite E in Rx.
  pose proof (wlen_bound w Hw) as Rw. pose proof (wlen_nonneg w) as Nw.
  destruct (wlen w =? 0) eqn:E0.
  { apply Z.eqb_eq, wlen_0 in E0; [|exact Hw]. subst w. rewrite Z.add_0_r. unfold den. cbn. auto. }
  destruct (m =? 0) eqn:E1.
  { apply Z.eqb_eq in E1. subst m. change (2 ^ (64 * 0)) with 1 in Rx. assert (v = 0) as -> by lia.
    rewrite Z.add_0_l. destruct (wlen w <=? cap); [apply den_put; lia|unfold den; cbn; lia]. }
  pose proof (pow64_add m (wlen w) v w Hm Nw Rx (conj Hw Rw)) as Rs.
  destruct (Z.max m (wlen w) + 1 <=? cap).
  - apply den_put; [lia|]. apply wlen_le; lia.
  - unfold den. cbn. lia.
Qed.
Lemma b_mod_den s v : den s v -> den (b_mod (fst s) (snd s)) (v mod p25519).
Proof.
  assert (M : 0 <= v mod p25519) by (apply Z.mod_pos_bound; reflexivity).
  destruct s as [[m|u] B]; unfold den at 1; cbn [fst snd bint_val]; intros (E & Hv & Hm).
  - cbn [b_mod]. rewrite E. destruct (v <? p25519) eqn:L.
    + apply Z.ltb_lt in L. rewrite Z.mod_small by lia. unfold den. cbn. auto.
    + unfold den. cbn. auto.
  - cbn [b_mod]. subst u. unfold den. cbn. auto.
Qed.
(** whatever is shared, the value returned by one call is right *)
Lemma xyztd_den cap m y z t d B v : 0 <= m -> digits_get m B = v -> 0 <= y -> 0 <= z -> 0 <= t -> inF d <> F0 ->
  exists s, math_xyztd cap m y z t d B = Ok s /\
    den s (val ((inF v * inF y + inF z * inF t) / inF d)%F).
Proof.
  intros Hm Hv Hy Hz Ht Nd. unfold math_xyztd. rewrite mod_inverse_ok by exact Nd. cbn [bind].
  eexists. split; [reflexivity|].
  assert (D0 : den (Shared m, B) v).
  { unfold den. cbn. pose proof (get_range m B Hm). lia. }
  apply b_mul_den with (cap := cap) (y := y) in D0; [|exact Hy]. cbn [fst snd] in D0.
  apply b_add_den with (cap := cap) (w := z * t) in D0; [|nia].
  apply b_mul_den with (cap := cap) (y := val (Finv (inF d))) in D0; [|apply val_range].
  apply b_mod_den in D0. rewrite <- val_inF, inF_mul, inF_add, !inF_mul, inF_val in D0. exact D0.
Qed.

(** a first call that leaves the array alone and returns a value of its own *)
Lemma xyztd_own cap m y z t d B : 2 <= m -> 2 <= wlen y -> inF d <> F0 ->
  exists v, math_xyztd cap m y z t d B = Ok (Own v, B).
Proof.
  intros Hm Hy Nd. unfold math_xyztd. rewrite mod_inverse_ok by exact Nd. cbn [bind b_mul].
  replace (m =? 0) with false by (symmetry; apply Z.eqb_neq; lia).
  replace (wlen y =? 0) with false by (symmetry; apply Z.eqb_neq; lia).
  replace (m =? 1) with false by (symmetry; apply Z.eqb_neq; lia).
  replace (wlen y =? 1) with false by (symmetry; apply Z.eqb_neq; lia).
  cbn [orb fst snd b_add b_mul b_mod]. eexists. reflexivity.
Qed.
Lemma xyztd_zero y z t d B : inF d <> F0 -> exists b, stable b /\ math_xyztd 0 0 y z t d B = Ok (b, B).
Proof.
  intros Nd. unfold math_xyztd. rewrite mod_inverse_ok by exact Nd. cbn [bind b_mul Z.eqb orb fst snd b_add].
  pose proof (wlen_nonneg (z * t)) as N.
  destruct (wlen (z * t) =? 0) eqn:E.
  - cbn [fst snd b_mul Z.eqb orb b_mod]. unfold digits_get. change (2 ^ (64 * 0)) with 1. rewrite Z.mod_1_r.
    change (0 <? p25519) with true. cbn iota. eexists. split; [|reflexivity]. reflexivity.
  - apply Z.eqb_neq in E. replace (wlen (z * t) <=? 0) with false by (symmetry; apply Z.leb_gt; lia).
    cbn [fst snd b_mul b_mod]. eexists. split; [|reflexivity]. exact I.
Qed.

(** ** addition *)
(** what [math_Add] reads of an element in P2 or P3 *)
Lemma proj_coords g P : rep g P -> is_P2_P3 (g_cs g) = true ->
  rF (gZ g) <> F0 /\ math_FieldToBigInteger (gX g) = val (px P * rF (gZ g))%F /\
  math_FieldToBigInteger (gY g) = val (py P * rF (gZ g))%F /\ math_FieldToBigInteger (gZ g) = val (rF (gZ g)).
Proof.
  intros R C. destruct (g_cs g) eqn:E; try discriminate.
  - pose proof (rep_P2 g P (conj E R)) as (X & Y & Z & T & -> & BX & BY & BZ & NZ & EX & EY).
    cbn [gX gY gZ]. rewrite !field_value by (eapply b1000; [eassumption|lia]). rewrite EX, EY. auto.
  - pose proof (rep_P3 g P (conj E R)) as (X & Y & Z & T & -> & BX & BY & BZ & BT & NZ & EX & EY & _).
    cbn [newP3 gX gY gZ]. rewrite !field_value by (eapply b1000; [eassumption|lia]). rewrite EX, EY. auto.
Qed.
Lemma frac_coord a z : z <> F0 -> math_frac (val (a * z)%F) (val z) = Ok (val a).
Proof. intros N. rewrite frac_ok by (rewrite inF_val; exact N). rewrite !inF_val, div_mul by exact N. reflexivity. Qed.
Lemma get_whole v : 0 <= v -> digits_get (wlen v) v = v.
Proof. intros H. apply Z.mod_small. split; [exact H|apply wlen_bound, H]. Qed.

Definition add_k (P Q : point) : Z :=
  (math_D * val (px P) * val (px Q) * val (py P) * val (py Q)) mod p25519.
Lemma add_k_F P Q : inF (add_k P Q) = (Fd * (px P * px Q) * (py P * py Q))%F.
Proof. unfold add_k. rewrite inF_mod, !inF_mul, !inF_val, math_D_F. ring. Qed.

(** the part of [math_Add] after the coordinates have been read *)
Definition add_tail (cap : Z) (P Q : point) : res gcore :=
  do s1 <- math_xyztd cap (wlen (val (px P))) (val (py Q)) (val (px Q)) (val (py P)) (1 + add_k P Q) (val (px P));
  do s2 <- math_xyztd cap (wlen (val (px P))) (val (px Q)) (val (py P)) (val (py Q)) (1 - add_k P Q) (snd s1);
  let x3 := bint_val (fst s1) (snd s2) in
  let y3 := bint_val (fst s2) (snd s2) in
  do fx <- math_ToFieldElement x3;
  do fy <- math_ToFieldElement y3;
  do ft <- math_ToFieldElement ((x3 * y3) mod p25519);
  Ok (newP3 fx fy fe_one ft).
Lemma add_reduce g1 g2 P Q : rep g1 P -> rep g2 Q -> is_P2_P3 (g_cs g1) = true -> is_P2_P3 (g_cs g2) = true ->
  exists cap, math_Add g1 g2 = add_tail cap P Q /\ (px P = F0 -> cap = 0) /\
    (px P <> F0 -> 6 <= cap).
Proof.
  intros R1 R2 C1 C2. destruct (proj_coords g1 P R1 C1) as (N1 & X1 & Y1 & Z1).
  destruct (proj_coords g2 Q R2 C2) as (N2 & X2 & Y2 & Z2).
  unfold math_Add. rewrite C1, C2. cbn [negb orb]. rewrite X1, Y1, Z1, X2, Y2, Z2.
  rewrite !frac_coord by assumption. cbn [bind].
  rewrite mod_inverse_ok by (rewrite inF_val; exact N1). rewrite inF_val. cbn [bind].
  set (i := val (Finv (rF (gZ g1)))). set (X := val (px P * rF (gZ g1))%F).
  exists (coor_cap X i). split; [reflexivity|]. split; intros H.
  - unfold coor_cap, X. rewrite H. replace (F0 * rF (gZ g1))%F with F0 by ring. reflexivity.
  - assert (NX : 0 < X).
    { pose proof (val_range (px P * rF (gZ g1))%F) as RX. fold X in RX.
      destruct (Z.eq_dec X 0) as [E|]; [exfalso|lia].
      apply (F_mul_nz _ _ H N1). apply F_eq. exact E. }
    assert (Ni : 0 < i).
    { pose proof (val_range (Finv (rF (gZ g1)))) as Ri. fold i in Ri.
      destruct (Z.eq_dec i 0) as [E|]; [exfalso|lia].
      apply (Finv_nz _ N1). apply F_eq. exact E. }
    assert (W : forall v, 0 < v -> 1 <= wlen v).
    { intros v Hv. apply (wlen_ge v 0); [lia|]. change (2 ^ (64 * 0)) with 1. lia. }
    pose proof (W X NX). pose proof (W i Ni). pose proof (W (X * i) ltac:(nia)).
    unfold coor_cap.
    replace (wlen X =? 0) with false by (symmetry; apply Z.eqb_neq; lia).
    replace (wlen i =? 0) with false by (symmetry; apply Z.eqb_neq; lia). cbn [orb].
    destruct (X * i <? p25519); [|lia]. destruct ((wlen X =? 1) || (wlen i =? 1)); lia.
Qed.
Lemma dens P Q : inF (1 + add_k P Q) <> F0 /\ inF (1 - add_k P Q) <> F0 /\
  px (padd P Q) = ((px P * py Q + px Q * py P) / inF (1 + add_k P Q))%F /\
  py (padd P Q) = ((px P * px Q + py P * py Q) / inF (1 - add_k P Q))%F.
Proof.
  pose proof (padd_coords P Q) as (K1 & K2 & EX & EY). rewrite inF_add, inF_sub, add_k_F.
  change (inF 1) with F1. cj; [exact K1|exact K2|exact EX|]. rewrite EY. f_equal. ring.
Qed.
Lemma tail_fields x y : exists fx fy ft,
  (do fx <- math_ToFieldElement (val x);
   do fy <- math_ToFieldElement (val y);
   do ft <- math_ToFieldElement ((val x * val y) mod p25519);
   Ok (newP3 fx fy fe_one ft)) = Ok (newP3 fx fy fe_one ft) /\
  rF fx = x /\ rF fy = y /\ rF ft = (x * y)%F /\ bnd 101 fx /\ bnd 101 fy /\ bnd 101 ft.
Proof.
  destruct (to_fe_val x) as (fx & Ex & Rx & Bx). destruct (to_fe_val y) as (fy & Ey & Ry & By).
  destruct (to_fe_mod (val x * val y)) as (ft & Et & Rt & Bt). rewrite inF_mul, !inF_val in Rt.
  exists fx, fy, ft. rewrite Ex, Ey, Et. cbn [bind]. cj; auto.
Qed.
Lemma tail_rep P x y : px P = x -> py P = y -> exists r,
  (do fx <- math_ToFieldElement (val x);
   do fy <- math_ToFieldElement (val y);
   do ft <- math_ToFieldElement ((val x * val y) mod p25519);
   Ok (newP3 fx fy fe_one ft)) = Ok r /\ repc P3 r P.
Proof.
  intros <- <-. destruct (tail_fields (px P) (py P)) as (fx & fy & ft & E & Rx & Ry & Rt & Bx & By & Bt).
  exists (newP3 fx fy fe_one ft). split; [exact E|].
  apply mk_P3; [apply b110, Bx|apply b110, By|bd|apply b110, Bt|rewrite rF_one_eq; apply F1_neq_F0| | |];
    rewrite rF_one_eq, ?Rx, ?Ry, ?Rt; ring.
Qed.

Theorem math_Add_ok g1 g2 P Q : rep g1 P -> rep g2 Q ->
  is_P2_P3 (g_cs g1) = true -> is_P2_P3 (g_cs g2) = true -> safe P Q ->
  exists r, math_Add g1 g2 = Ok r /\ repc P3 r (padd P Q).
Proof.
  intros R1 R2 C1 C2 S. destruct (add_reduce g1 g2 P Q R1 R2 C1 C2) as (cap & -> & Cap0 & _).
  destruct (dens P Q) as (K1 & K2 & EX & EY).
  pose proof (val_range (px P)) as R1x. pose proof (val_range (py P)) as R1y.
  pose proof (val_range (px Q)) as R2x. pose proof (val_range (py Q)) as R2y.
  unfold add_tail.
  destruct (xyztd_den cap (wlen (val (px P))) (val (py Q)) (val (px Q)) (val (py P)) (1 + add_k P Q)
    (val (px P)) (val (px P))) as (s1 & E1 & D1); try lia; try exact K1; try apply wlen_nonneg.
  { apply get_whole. lia. }
  assert (St : stable (fst s1) /\ snd s1 = val (px P)).
  { destruct S as [Z0|[Bx By]].
    - rewrite (Cap0 Z0), Z0 in E1. change (wlen (val F0)) with 0 in E1.
      destruct (xyztd_zero (val (py Q)) (val (px Q)) (val (py P)) (1 + add_k P Q) (val F0) K1) as (b & Sb & E).
      rewrite E in E1. injection E1 as <-. split; [exact Sb|]. cbn [snd]. rewrite Z0. reflexivity.
    - destruct (xyztd_own cap (wlen (val (px P))) (val (py Q)) (val (px Q)) (val (py P)) (1 + add_k P Q)
        (val (px P))) as [v E]; [apply (wlen_ge _ 1); [lia|exact Bx]|apply (wlen_ge _ 1); [lia|exact By]|exact K1|].
      rewrite E in E1. injection E1 as <-. split; [exact I|reflexivity]. }
  destruct St as [St Sn]. rewrite E1. cbn [bind]. rewrite Sn.
  destruct (xyztd_den cap (wlen (val (px P))) (val (px Q)) (val (py P)) (val (py Q)) (1 - add_k P Q)
    (val (px P)) (val (px P))) as (s2 & E2 & D2); try lia; try exact K2; try apply wlen_nonneg.
  { apply get_whole. lia. }
  rewrite E2. cbn [bind]. cbv zeta.
  destruct D1 as (V1 & _ & _). destruct D2 as (V2 & _ & _).
  rewrite (stable_val _ (snd s2) (snd s1) St), V1, V2, !inF_val.
  apply tail_rep; assumption.
Qed.

(** ** adding the neutral element: the second call overwrites the result of the first *)
Lemma b_mul_one cap m B x : 1 <= m -> m + 1 <= cap -> digits_get m B = x -> wlen x = m ->
  b_mul cap (Shared m) 1 B = (Shared m, digits_put (m + 1) x B).
Proof.
  intros Hm Hc Hx Hw. cbn [b_mul]. change (wlen 1) with 1. rewrite Hx.
  replace (m =? 0) with false by (symmetry; apply Z.eqb_neq; lia). cbn [orb Z.eqb Pos.eqb].
  rewrite orb_true_r. rewrite Z.max_l by lia.
  replace (m + 1 <=? cap) with true by (symmetry; apply Z.leb_le; lia). rewrite Z.mul_1_r, Hw. reflexivity.
Qed.
Lemma put_same k x : 0 <= k -> 0 <= x < 2 ^ (64 * k) -> digits_put k x x = x.
Proof. intros Hk Hx. unfold digits_put. rewrite Z.div_small by exact Hx. lia. Qed.
Lemma b_mod_small m B : digits_get m B < p25519 -> b_mod (Shared m) B = (Shared m, B).
Proof. intros H. cbn [b_mod]. apply Z.ltb_lt in H. rewrite H. reflexivity. Qed.
Lemma inv_one : mod_inverse 1 = Ok 1.
Proof. apply mod_inverse_spec. split; [unfold p25519; lia|reflexivity]. Qed.

Lemma wlen_4 v : 2 ^ 192 <= v < p25519 -> wlen v = 4.
Proof.
  intros H. pose proof (wlen_ge v 3 ltac:(lia) ltac:(exact (proj1 H))).
  assert (wlen v <= 4); [|lia]. apply wlen_le; [lia|lia|]. change (2 ^ (64 * 4)) with (2 ^ 256).
  unfold p25519 in H. lia.
Qed.
Lemma wlen_le4 v : 0 <= v < p25519 -> wlen v <= 4.
Proof.
  intros H. apply wlen_le; [lia|lia|]. change (2 ^ (64 * 4)) with (2 ^ 256). unfold p25519 in H. lia.
Qed.
Lemma xyztd_neutral1 cap x y : 6 <= cap -> 2 ^ 192 <= x < p25519 ->
  math_xyztd cap 4 1 0 y 1 x = Ok (Shared 4, x).
Proof.
  intros Hc Hx. pose proof (wlen_4 x Hx) as W. 
  assert (G : digits_get 4 x = x) by (rewrite <- W; apply get_whole; lia).
  assert (M : b_mul cap (Shared 4) 1 x = (Shared 4, x)).
  { rewrite (b_mul_one cap 4 x x); try lia. rewrite put_same; [reflexivity|lia|].
    change (2 ^ (64 * (4 + 1))) with (2 ^ 320). unfold p25519 in Hx. lia. }
  unfold math_xyztd. rewrite inv_one. cbn [bind]. rewrite M. cbn [fst snd Z.mul b_add].
  change (wlen 0 =? 0) with true. cbn iota. cbn [fst snd]. rewrite M. cbn [fst snd].
  rewrite b_mod_small by lia. reflexivity.
Qed.
Lemma xyztd_neutral2 cap x y : 6 <= cap -> 0 < y < p25519 ->
  let n := wlen y in
  exists B, math_xyztd cap 4 0 y 1 1 x = Ok (Shared n, B) /\ digits_get n B = y /\
    (2 ^ 128 <= y -> digits_get 4 B = y).
Proof.
  intros Hc Hy n. unfold math_xyztd. rewrite inv_one. cbn [bind b_mul].
  change ((4 =? 0) || (wlen 0 =? 0)) with true. cbn iota. cbn [fst snd b_add]. rewrite Z.mul_1_r. fold n.
  assert (N1 : 1 <= n).
  { apply (wlen_ge y 0); [lia|]. change (2 ^ (64 * 0)) with 1. lia. }
  assert (N4 : n <= 4) by (apply wlen_le4; lia).
  replace (n =? 0) with false by (symmetry; apply Z.eqb_neq; lia). change (0 =? 0) with true. cbn iota.
  replace (n <=? cap) with true by (symmetry; apply Z.leb_le; lia). cbn [fst snd].
  assert (Rn : 0 <= y < 2 ^ (64 * n)) by (split; [lia|apply wlen_bound; lia]).
  rewrite (b_mul_one cap n (digits_put n y x) y); [|lia|lia|apply get_put; lia|reflexivity].
  cbn [fst snd].
  assert (G : forall B, digits_get n (digits_put (n + 1) y B) = y) by (intros B; apply get_put; lia).
  rewrite b_mod_small by (rewrite G; lia).
  eexists. split; [reflexivity|]. split; [apply G|]. intros H3.
  pose proof (wlen_ge y 2 ltac:(lia) ltac:(exact H3)) as N3. fold n in N3.
  apply get_put; [lia|]. split; [lia|]. change (2 ^ (64 * 4)) with (2 ^ 256). unfold p25519 in Hy. lia.
Qed.

Theorem math_Add_neutral g1 g2 P : rep g1 P -> rep g2 pzero ->
  is_P2_P3 (g_cs g1) = true -> is_P2_P3 (g_cs g2) = true ->
  2 ^ 192 <= val (px P) -> 2 ^ 128 <= val (py P) ->
  exists r, math_Add g1 g2 = Ok r /\ g_cs r = P3 /\ rF (gZ r) = F1 /\ rF (gX r) = py P /\ rF (gY r) = py P.
Proof.
  intros R1 R2 C1 C2 HX HY. destruct (add_reduce g1 g2 P pzero R1 R2 C1 C2) as (cap & -> & _ & Cap).
  pose proof (val_range (px P)) as R1x. pose proof (val_range (py P)) as R1y.
  assert (Hc : 6 <= cap).
  { apply Cap. intros E. rewrite E in HX. change (val F0) with 0 in HX. lia. }
  unfold add_tail.
  assert (K : add_k P pzero = 0).
  { unfold add_k. cbn [pzero px py]. change (val F0) with 0. rewrite Z.mul_0_r, !Z.mul_0_l. reflexivity. }
  rewrite K. rewrite (wlen_4 (val (px P))) by lia. cbn [pzero px py].
  change (val F0) with 0. change (val F1) with 1. change (1 + 0) with 1. change (1 - 0) with 1.
  rewrite xyztd_neutral1 by lia. cbn [bind fst snd].
  destruct (xyztd_neutral2 cap (val (px P)) (val (py P)) Hc ltac:(lia)) as (B & E & G & G4).
  rewrite E. cbn [bind fst snd bint_val]. cbv zeta. rewrite G, (G4 HY).
  destruct (tail_fields (py P) (py P)) as (fx & fy & ft & E' & Rx & Ry & Rt & Bx & By & Bt).
  exists (newP3 fx fy fe_one ft). rewrite E'. cj; auto. 
Qed.
(** so the result is not the sum, in fact not even on the curve *)
Lemma diagonal_not_on_curve y : ~ on_curve y y.
Proof.
  unfold on_curve. intros H. 
  assert (E : (Fd * (y * y) * (y * y) = - F1)%F).
  { replace (Fd * (y * y) * (y * y))%F with ((1 + Fd * (y * y) * (y * y)) - F1)%F by ring. rewrite <- H. ring. }
  assert (Ny : y <> F0).
  { intros ->. apply F1_neq_F0. replace F1 with (- (Fd * (F0 * F0) * (F0 * F0)))%F by (rewrite E; ring). ring. }
  apply Fd_nonsquare. exists (Fi / (y * y))%F.
  replace (Fi / (y * y) * (Fi / (y * y)))%F with ((Fi * Fi) / (y * y * (y * y)))%F by (field; exact Ny).
  rewrite Fi_sq, <- E. field. exact Ny.
Qed.
