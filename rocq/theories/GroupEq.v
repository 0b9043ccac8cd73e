(** Equals, SatisfiesCurveEquation and the base point. *)
From Coq Require Import List ZArith Lia Bool Ring Field.
From Verif Require Import GoBase FieldModel FieldSpec FieldProofs ByteLemmas EncodeProofs
  Primality Fp Curve Tables BaseCert BasePoint GroupModel GroupSpec FieldPow GroupProofs
  PointCodec TableProofs.
Import ListNotations.
Open Scope Z_scope.

Lemma fe_equals_b f g : bnd 1000 f -> bnd 1000 g -> fe_equals f g = if F_eq_dec (rF f) (rF g) then true else false.
Proof.
  intros A B. destruct (F_eq_dec _ _) as [E|N].
  - now apply fe_equals_rF.
  - apply not_true_iff_false. intros H. apply N. now apply fe_equals_rF.
Qed.
Definition peqb (P Q : point) : bool := if point_eq_dec P Q then true else false.
Lemma peqb_iff P Q (b : bool) : (b = true <-> P = Q) -> b = peqb P Q.
Proof. unfold peqb. intros H. destruct (point_eq_dec P Q) as [E|N]; destruct b; intuition congruence. Qed.
Lemma cross a b z w : z <> F0 -> w <> F0 -> ((a * z * w = b * w * z)%F <-> a = b).
Proof.
  intros Nz Nw. split; [|intros ->; ring]. intros H. apply (F_mul_cancel _ _ (z * w)%F).
  - now apply F_mul_nz.
  - replace (a * (z * w))%F with (a * z * w)%F by ring. rewrite H. ring.
Qed.
Lemma cancel a b z : z <> F0 -> ((a * z = b * z)%F <-> a = b).
Proof. intros N. split; [apply (F_mul_cancel _ _ _ N)|congruence]. Qed.
Lemma point_iff P Q : P = Q <-> px P = px Q /\ py P = py Q.
Proof. split; [intros ->; auto|]. intros [A B]. now apply point_eq. Qed.

Lemma eq_P2P3_ok r g P Q :
  bnd 110 (gX r) -> bnd 110 (gY r) -> bnd 110 (gZ r) -> rF (gZ r) <> F0 ->
  rF (gX r) = (px P * rF (gZ r))%F -> rF (gY r) = (py P * rF (gZ r))%F ->
  bnd 110 (gX g) -> bnd 110 (gY g) -> bnd 110 (gZ g) -> rF (gZ g) <> F0 ->
  rF (gX g) = (px Q * rF (gZ g))%F -> rF (gY g) = (py Q * rF (gZ g))%F ->
  eq_P2P3 r g = peqb P Q.
Proof.
  intros B1 B2 B3 N E1 E2 B1' B2' B3' N' E1' E2'. apply peqb_iff. unfold eq_P2P3.
  rewrite point_iff.
  destruct (fe_equals (gZ r) (gZ g)) eqn:Z; rewrite andb_true_iff.
  - apply fe_equals_rF in Z; [|bd..]. rewrite !fe_equals_rF by bd.
    rewrite E1, E2, E1', E2', <- Z, !cancel by exact N. tauto.
  - rewrite !fe_equals_rF by bd. rewrite !rF_mul by bd. rewrite E1, E2, E1', E2', !cross by assumption. tauto.
Qed.
Lemma xy_sum P Q : (py P + px P)%F = (py Q + px Q)%F -> (py P - px P)%F = (py Q - px Q)%F -> P = Q.
Proof.
  intros A B. apply point_eq; apply (F_mul_cancel _ _ _ F2_nz).
  - replace (px P * inF 2)%F with ((py P + px P) - (py P - px P))%F by ring. rewrite A, B. ring.
  - replace (py P * inF 2)%F with ((py P + px P) + (py P - px P))%F by ring. rewrite A, B. ring.
Qed.

Lemma eq_cached_ok r g P Q : repc CACHED r P -> repc CACHED g Q -> eq_cached r g = Ok (peqb P Q).
Proof.
  intros H1 H2. apply rep_cached in H1 as (X&Y&Z&T&->&B1&B2&B3&B4&N&E1&E2&E3).
  apply rep_cached in H2 as (X'&Y'&Z'&T'&->&B1'&B2'&B3'&B4'&N'&E1'&E2'&E3').
  unfold eq_cached. cbn [gX gY gZ gT newCached deref bind].
  destruct (fe_equals Z Z') eqn:EZ.
  - apply fe_equals_rF in EZ; [|bd..].
    destruct (fe_equals X X' && fe_equals Y Y') eqn:EXY; f_equal; apply peqb_iff.
    + apply andb_prop in EXY as [A B]. apply fe_equals_rF in A, B; [|bd..].
      rewrite E1, E1', <- EZ, cancel in A by exact N. rewrite E2, E2', <- EZ, cancel in B by exact N.
      pose proof (xy_sum P Q A B). subst Q. split; [reflexivity|]. intros _. apply fe_equals_rF; [bd..|].
      rewrite E3, E3', EZ. reflexivity.
    + split; [discriminate|]. intros <-. apply andb_false_iff in EXY as [A|A]; rewrite fe_equals_b in A by bd;
        destruct (F_eq_dec _ _) as [E|K]; try discriminate A; destruct K; congruence.
  - f_equal. apply peqb_iff. rewrite !andb_true_iff, !fe_equals_rF by bd. rewrite !rF_mul by bd.
    rewrite E1, E1', E2, E2', E3, E3', !cross by assumption. split.
    + intros [[A B] _]. now apply xy_sum.
    + intros <-. auto.
Qed.

(** the pairs of coordinate systems between which Equals compares points *)
Definition comparable (a b : csys) : bool :=
  match a, b with
  | P2, (P2 | P3 | P1xP1) | P3, (P3 | P1xP1) | P1xP1, P1xP1
  | PRECOMPUTED, PRECOMPUTED | CACHED, (CACHED | P3) => true
  | _, _ => false
  end.
Ltac prj H := first [apply rep_P3 in H as (?&?&?&?&->&?&?&?&?&?&?&?&?)
                    |apply rep_P2 in H as (?&?&?&?&->&?&?&?&?&?&?)].
Lemma eq_22 r g P Q : repc P2 r P -> repc P2 g Q -> eq_P2P3 r g = peqb P Q.
Proof. intros A B. prj A. prj B. now apply eq_P2P3_ok. Qed.
Lemma eq_33 r g P Q : repc P3 r P -> repc P3 g Q -> eq_P2P3 r g = peqb P Q.
Proof. intros A B. prj A. prj B. now apply eq_P2P3_ok. Qed.
Theorem g_equals_ok r g P Q : rep r P -> rep g Q -> comparable (g_cs r) (g_cs g) = true ->
  g_equals r g = Ok (peqb P Q).
Proof.
  intros HP HQ C. pose proof (repc_self _ _ HP) as RP. pose proof (repc_self _ _ HQ) as RQ.
  unfold g_equals. destruct (g_cs r) eqn:Cr, (g_cs g) eqn:Cg; try discriminate C; cbn [csys_eqb];
    try change (to_cs g P2) with (to_P2 g); try change (to_cs g P3) with (to_P3 g);
    try change (to_cs g CACHED) with (to_cached g).
  - f_equal. now apply eq_22.
  - destruct (to_P2_P3 _ _ RQ) as (g' & -> & R'). cbn [bind recover_false]. f_equal. now apply eq_22.
  - destruct (to_P2_P1 _ _ RQ) as (g' & -> & R'). cbn [bind recover_false]. f_equal. now apply eq_22.
  - f_equal. now apply eq_33.
  - destruct (to_P3_P1 _ _ RQ) as (g' & -> & R'). cbn [bind recover_false]. f_equal. now apply eq_33.
  - destruct (to_P2_P1 _ _ RP) as (r' & -> & R1). destruct (to_P2_P1 _ _ RQ) as (g' & -> & R2).
    cbn [bind recover_false]. f_equal. now apply eq_22.
  - f_equal. apply rep_prec in RP as (X&Y&Z&T&->&B1&B2&B3&E1&E2&E3).
    apply rep_prec in RQ as (X'&Y'&Z'&T'&->&B1'&B2'&B3'&E1'&E2'&E3'). cbn [gX gY gZ].
    apply peqb_iff. rewrite !andb_true_iff, !fe_equals_rF by bd. rewrite E1, E1', E2, E2', E3, E3'. split.
    + intros [[A B] _]. now apply xy_sum.
    + intros <-. auto.
  - destruct (to_cached_P3 _ _ RQ) as (g' & -> & R'). cbn [bind recover_false]. now rewrite (eq_cached_ok r g' P Q RP R').
  - now apply eq_cached_ok.
Qed.
(** for all other pairs the answer is false whatever the points are (a panic for two AFFINE
    elements) *)
Theorem g_equals_other r g : comparable (g_cs r) (g_cs g) = false ->
  g_equals r g = if csys_eqb (g_cs r) AFFINE && csys_eqb (g_cs g) AFFINE then Panic else Ok false.
Proof.
  intros H. unfold g_equals. destruct (g_cs r) eqn:E, (g_cs g) eqn:E'; try discriminate H; cbn [csys_eqb andb];
    try rewrite to_cs_panic by (rewrite E'; reflexivity); reflexivity.
Qed.

(** ** SatisfiesCurveEquation *)
Definition bnd3 (k : Z) (g : gcore) : Prop := bnd k (gX g) /\ bnd k (gY g) /\ bnd k (gZ g).
Lemma beq_enc a b : beq_bytes (fe_encode a) (fe_encode b) = fe_equals a b.
Proof. unfold fe_equals, ct_equal; reflexivity. Qed.
Lemma satisfies_xy g : bnd3 330 g -> g_on_curve_proj g = true <->
  on_curve (rF (gX g) * Finv (rF (gZ g)))%F (rF (gY g) * Finv (rF (gZ g)))%F.
Proof.
  intros (B1 & B2 & B3). unfold g_on_curve_proj, on_curve.
  assert (Bi : bnd 101 (fe_invert (gZ g))) by (apply bnd_invert; bd).
  assert (Ei : rF (fe_invert (gZ g)) = Finv (rF (gZ g))) by (apply rF_invert; bd).
  set (inv := fe_invert (gZ g)) in *. clearbody inv.
  assert (Bx : bnd 101 (fe_mul (gX g) inv)) by bd. assert (By : bnd 101 (fe_mul (gY g) inv)) by bd.
  assert (Ex : rF (fe_mul (gX g) inv) = (rF (gX g) * Finv (rF (gZ g)))%F) by (rewrite rF_mul by bd; now rewrite Ei).
  assert (Ey : rF (fe_mul (gY g) inv) = (rF (gY g) * Finv (rF (gZ g)))%F) by (rewrite rF_mul by bd; now rewrite Ei).
  rewrite <- Ex, <- Ey. clear Ex Ey. set (x := fe_mul (gX g) inv) in *. set (y := fe_mul (gY g) inv) in *.
  clearbody x y.
  assert (Bxx : bnd 101 (fe_sq x)) by bd. assert (Byy : bnd 101 (fe_sq y)) by bd.
  assert (Exx : rF (fe_sq x) = (rF x * rF x)%F) by (apply rF_sq; bd).
  assert (Eyy : rF (fe_sq y) = (rF y * rF y)%F) by (apply rF_sq; bd).
  set (xx := fe_sq x) in *. set (yy := fe_sq y) in *. clearbody xx yy.
  assert (Bt : bnd 101 (fe_mul (fe_mul go_d xx) yy)) by bd.
  assert (Et : rF (fe_mul (fe_mul go_d xx) yy) = (Fd * (rF x * rF x) * (rF y * rF y))%F)
    by (rewrite !rF_mul by bd; rewrite rF_d, Exx, Eyy; reflexivity).
  set (t := fe_mul (fe_mul go_d xx) yy) in *. clearbody t.
  assert (Bs : bnd 202 (fe_add fe_one t)) by (apply (bnd_add 101 101); bd || lia).
  assert (Es : rF (fe_add fe_one t) = (1 + rF t)%F) by (rewrite (rF_add 101 101) by (bd || lia); now rewrite rF_one).
  set (s := fe_add fe_one t) in *. clearbody s.
  assert (Bw : bnd 303 (fe_add s xx)) by (apply (bnd_add 202 101); bd || lia).
  assert (Ew : rF (fe_add s xx) = (1 + Fd * (rF x * rF x) * (rF y * rF y) + rF x * rF x)%F)
    by (rewrite (rF_add 202 101) by (bd || lia); rewrite Es, Et, Exx; reflexivity).
  rewrite beq_enc.
  rewrite fe_equals_rF by bd. rewrite Ew, Eyy. split; intros H.
  - transitivity (1 + Fd * (rF x * rF x) * (rF y * rF y) + rF x * rF x - rF x * rF x)%F; [rewrite H; ring|ring].
  - transitivity (rF y * rF y - rF x * rF x + rF x * rF x)%F; [rewrite H; ring|ring].
Qed.
(** in terms of the projective coordinates *)
Theorem satisfies_proj g : bnd3 330 g -> g_on_curve_proj g = true <->
  let X := rF (gX g) in let Y := rF (gY g) in let Z := rF (gZ g) in
  Z <> F0 /\ ((Y * Y - X * X) * (Z * Z) = Z * Z * (Z * Z) + Fd * (X * X) * (Y * Y))%F.
Proof.
  intros B. rewrite (satisfies_xy g B). cbv zeta. unfold on_curve.
  set (X := rF (gX g)). set (Y := rF (gY g)). set (Z := rF (gZ g)). clearbody X Y Z.
  destruct (F_eq_dec Z F0) as [->|N].
  - rewrite Finv_0. split.
    + intros H. exfalso. apply F1_neq_F0.
      transitivity (1 + Fd * (X * F0 * (X * F0)) * (Y * F0 * (Y * F0)))%F; [ring|]. rewrite <- H. ring.
    + intros [H _]. destruct H. reflexivity.
  - split.
    + intros H. split; [exact N|].
      transitivity ((Y * Finv Z * (Y * Finv Z) - X * Finv Z * (X * Finv Z)) * (Z * Z) * (Z * Z))%F;
        [field; exact N|]. rewrite H. field. exact N.
    + intros [_ H]. apply (F_mul_cancel _ _ (Z * Z * (Z * Z))%F); [repeat apply F_mul_nz; exact N|].
      transitivity ((Y * Y - X * X) * (Z * Z))%F; [field; exact N|]. rewrite H. field. exact N.
Qed.
Theorem g_satisfies_panic g : encodable (g_cs g) = false -> g_satisfies g = Panic.
Proof.
  intros H. unfold g_satisfies, to_P2. destruct (g_cs g) eqn:E; try discriminate H;
    rewrite to_cs_panic by (rewrite E; reflexivity); reflexivity.
Qed.
Lemma rep_satisfies_proj g P : bnd3 110 g -> rF (gZ g) <> F0 ->
  rF (gX g) = (px P * rF (gZ g))%F -> rF (gY g) = (py P * rF (gZ g))%F -> g_on_curve_proj g = true.
Proof.
  intros (B1&B2&B3) N E1 E2. apply satisfies_xy; [split; [|split]; bd|].
  rewrite E1, E2, !Z_inv by exact N. apply pon.
Qed.
Theorem g_satisfies_rep g P : rep g P -> encodable (g_cs g) = true -> g_satisfies g = Ok true.
Proof.
  intros H E. apply repc_self in H. destruct (g_cs g) eqn:C; try discriminate E; unfold g_satisfies; rewrite C.
  - f_equal. prj H. apply (rep_satisfies_proj _ P); try assumption. split; [|split]; assumption.
  - f_equal. prj H. apply (rep_satisfies_proj _ P); try assumption. split; [|split]; assumption.
  - destruct (to_P2_P1 _ _ H) as (r & -> & R). cbn [bind]. f_equal. prj R.
    apply (rep_satisfies_proj _ P); try assumption. split; [|split]; assumption.
Qed.

(** ** the base point *)
Lemma base_bytes_enc : base_bytes = enc_point Bpt.
Proof.
  unfold enc_point. destruct B_pz as [Ex Ey]. rewrite Ey. unfold Fneg. rewrite Ex. vm_compute. reflexivity.
Qed.
Theorem get_base_point_ok : exists c,
  get_base_point = Ok (Ge c (Some base_single) (Some base_double)) /\ repc P3 c Bpt.
Proof.
  unfold get_base_point, new_ege. rewrite base_bytes_enc, enc_point_length. cbn [Nat.eqb bind].
  destruct (g_decode_enc Bpt) as (g & -> & R). exists g. split; [reflexivity|exact R].
Qed.
