(** The group operations implement the Edwards group law. *)
From Coq Require Import List ZArith Lia Bool Ring Field.
From Verif Require Import GoBase FieldModel FieldSpec FieldProofs ByteLemmas EncodeProofs
  Fp Curve Tables BaseCert BasePoint GroupModel GroupSpec FieldPow.
Import ListNotations.
Open Scope Z_scope.

(** ** constants *)
Lemma rF_d : rF go_d = Fd.
Proof.
  rewrite <- (inF_val Fd), Fd_val. apply F_eq. vm_compute. reflexivity.
Qed.
Lemma bnd_d : bnd 101 go_d. Proof. bnd_const. Qed.
Lemma rF_d2 : rF go_d2 = (inF 2 * Fd)%F.
Proof.
  rewrite <- (inF_val Fd), Fd_val. apply F_eq. vm_compute. reflexivity.
Qed.
Lemma bnd_d2 : bnd 101 go_d2. Proof. bnd_const. Qed.
Lemma rF_I : rF fe_I = Fi.
Proof. apply F_eq. vm_compute. reflexivity. Qed.
Lemma bnd_I : bnd 101 fe_I. Proof. bnd_const. Qed.

Lemma csys_eqb_eq a b : csys_eqb a b = true <-> a = b.
Proof. destruct a, b; cbn; split; congruence. Qed.

(** bounds: solve [bnd k f] goals *)
Ltac bd :=
  match goal with
  | H : bnd ?k ?f |- bnd ?k ?f => exact H
  | H : bnd ?k ?f |- bnd ?j ?f => apply (bnd_mono _ _ _ H); lia
  | |- bnd ?j (fe_mul ?f ?g) => apply (bnd_mono 101); [apply bnd_mul; bd|lia]
  | |- bnd ?j (fe_sq ?f) => apply (bnd_mono 101); [apply bnd_sq; bd|lia]
  | |- bnd ?j (fe_sq2 ?f) => apply (bnd_mono 101); [apply bnd_sq2; bd|lia]
  | |- bnd ?j (fe_invert ?f) => apply (bnd_mono 101); [apply bnd_invert; bd|lia]
  | |- bnd ?j go_d => apply (bnd_mono 101); [apply bnd_d|lia]
  | |- bnd ?j go_d2 => apply (bnd_mono 101); [apply bnd_d2|lia]
  | |- bnd ?j fe_I => apply (bnd_mono 101); [apply bnd_I|lia]
  | |- bnd ?j fe_one => apply (bnd_mono 101); [apply bnd_one|lia]
  | |- bnd ?j fe_zero => apply (bnd_mono 101); [apply bnd_zero|lia]
  end.

(** ** sums in completed coordinates *)
Lemma p1_sum P Q k X Y Z T : k <> F0 ->
  X = (k * (px P * py Q + px Q * py P))%F ->
  Y = (k * (py P * py Q + px P * px Q))%F ->
  Z = (k * (1 + Fd * px P * px Q * py P * py Q))%F ->
  T = (k * (1 - Fd * px P * px Q * py P * py Q))%F ->
  Z <> F0 /\ T <> F0 /\ X = (px (padd P Q) * Z)%F /\ Y = (py (padd P Q) * T)%F.
Proof.
  intros Hk -> -> -> ->. destruct P as [x1 y1 C1], Q as [x2 y2 C2]. cbn [px py padd].
  pose proof (complete_p _ _ _ _ C1 C2) as Np. pose proof (complete_m _ _ _ _ C1 C2) as Nm.
  unfold add_x, add_y.
  split; [apply F_mul_nz; assumption|]. split; [apply F_mul_nz; assumption|].
  split; field; assumption.
Qed.

Ltac cj := repeat match goal with |- _ /\ _ => split end.

(** destructing a representation *)
Lemma rep_P3 g P : repc P3 g P -> exists X Y Z T, g = newP3 X Y Z T /\
  bnd 110 X /\ bnd 110 Y /\ bnd 110 Z /\ bnd 110 T /\ rF Z <> F0 /\
  rF X = (px P * rF Z)%F /\ rF Y = (py P * rF Z)%F /\ rF T = (px P * py P * rF Z)%F.
Proof.
  destruct g as [c X Y Z t]. unfold repc, rep, gbnd. cbn. intros [-> ((B1&B2&B3&B4)&H)].
  destruct H as (N&E1&E2&t'&E3&E4). subst t. exists X, Y, Z, t'. cj; (assumption || reflexivity).
Qed.
Lemma rep_P2 g P : repc P2 g P -> exists X Y Z T, g = G P2 X Y Z T /\
  bnd 110 X /\ bnd 110 Y /\ bnd 110 Z /\ rF Z <> F0 /\
  rF X = (px P * rF Z)%F /\ rF Y = (py P * rF Z)%F.
Proof.
  destruct g as [c X Y Z t]. unfold repc, rep, gbnd. cbn. intros [-> ((B1&B2&B3&B4)&H)].
  destruct H as (N&E1&E2). exists X, Y, Z, t. cj; (assumption || reflexivity).
Qed.
Lemma rep_P1 g P : repc P1xP1 g P -> exists X Y Z T, g = newP1xP1 X Y Z T /\
  bnd 330 X /\ bnd 330 Y /\ bnd 330 Z /\ bnd 330 T /\ rF Z <> F0 /\ rF T <> F0 /\
  rF X = (px P * rF Z)%F /\ rF Y = (py P * rF T)%F.
Proof.
  destruct g as [c X Y Z t]. unfold repc, rep, gbnd. cbn. intros [-> ((B1&B2&B3&B4)&H)].
  destruct H as (t'&E3&N1&N2&E1&E2). subst t. exists X, Y, Z, t'. cj; (assumption || reflexivity).
Qed.
Lemma rep_cached g P : repc CACHED g P -> exists X Y Z T, g = newCached X Y Z T /\
  bnd 330 X /\ bnd 330 Y /\ bnd 330 Z /\ bnd 330 T /\ rF Z <> F0 /\
  rF X = ((py P + px P) * rF Z)%F /\ rF Y = ((py P - px P) * rF Z)%F /\
  rF T = (inF 2 * Fd * px P * py P * rF Z)%F.
Proof.
  destruct g as [c X Y Z t]. unfold repc, rep, gbnd. cbn. intros [-> ((B1&B2&B3&B4)&H)].
  destruct H as (N&E1&E2&t'&E3&E4). subst t. exists X, Y, Z, t'. cj; (assumption || reflexivity).
Qed.
Lemma rep_prec g P : repc PRECOMPUTED g P -> exists X Y Z T, g = G PRECOMPUTED X Y Z T /\
  bnd 330 X /\ bnd 330 Y /\ bnd 330 Z /\
  rF X = (py P + px P)%F /\ rF Y = (py P - px P)%F /\ rF Z = (inF 2 * Fd * px P * py P)%F.
Proof.
  destruct g as [c X Y Z t]. unfold repc, rep, gbnd. cbn. intros [-> ((B1&B2&B3&B4)&H)].
  destruct H as (E1&E2&E3). exists X, Y, Z, t. cj; (assumption || reflexivity).
Qed.
Lemma mk_P3 X Y Z T P : bnd 110 X -> bnd 110 Y -> bnd 110 Z -> bnd 110 T -> rF Z <> F0 ->
  rF X = (px P * rF Z)%F -> rF Y = (py P * rF Z)%F -> rF T = (px P * py P * rF Z)%F ->
  repc P3 (newP3 X Y Z T) P.
Proof.
  intros. split; [reflexivity|]. split; [unfold gbnd; cbn [g_cs gX gY gZ gT cs_bound newP2 newP3 newP1xP1 newPrecomputed newCached]; cj; (assumption || exact I)|]. cbn.
  cj; try assumption. exists T. split; [reflexivity|assumption].
Qed.
Lemma mk_P2 X Y Z P : bnd 110 X -> bnd 110 Y -> bnd 110 Z -> rF Z <> F0 ->
  rF X = (px P * rF Z)%F -> rF Y = (py P * rF Z)%F -> repc P2 (newP2 X Y Z) P.
Proof.
  intros. split; [reflexivity|]. split; [unfold gbnd; cbn [g_cs gX gY gZ gT cs_bound newP2 newP3 newP1xP1 newPrecomputed newCached]; cj; (assumption || exact I)|]. cbn. cj; (assumption || reflexivity).
Qed.
Lemma mk_P1 X Y Z T P : bnd 330 X -> bnd 330 Y -> bnd 330 Z -> bnd 330 T ->
  rF Z <> F0 /\ rF T <> F0 /\ rF X = (px P * rF Z)%F /\ rF Y = (py P * rF T)%F ->
  repc P1xP1 (newP1xP1 X Y Z T) P.
Proof.
  intros. split; [reflexivity|]. split; [unfold gbnd; cbn [g_cs gX gY gZ gT cs_bound newP2 newP3 newP1xP1 newPrecomputed newCached]; cj; (assumption || exact I)|]. cbn.
  exists T. split; [reflexivity|assumption].
Qed.
Lemma mk_cached X Y Z T P : bnd 330 X -> bnd 330 Y -> bnd 330 Z -> bnd 330 T -> rF Z <> F0 ->
  rF X = ((py P + px P) * rF Z)%F -> rF Y = ((py P - px P) * rF Z)%F ->
  rF T = (inF 2 * Fd * px P * py P * rF Z)%F -> repc CACHED (newCached X Y Z T) P.
Proof.
  intros. split; [reflexivity|]. split; [unfold gbnd; cbn [g_cs gX gY gZ gT cs_bound newP2 newP3 newP1xP1 newPrecomputed newCached]; cj; (assumption || exact I)|]. cbn.
  cj; try assumption. exists T. split; [reflexivity|assumption].
Qed.
Lemma mk_prec X Y Z P : bnd 330 X -> bnd 330 Y -> bnd 330 Z ->
  rF X = (py P + px P)%F -> rF Y = (py P - px P)%F -> rF Z = (inF 2 * Fd * px P * py P)%F ->
  repc PRECOMPUTED (newPrecomputed X Y Z) P.
Proof.
  intros. split; [reflexivity|]. split; [unfold gbnd; cbn [g_cs gX gY gZ gT cs_bound newP2 newP3 newP1xP1 newPrecomputed newCached]; cj; (assumption || exact I)|]. cbn. cj; (assumption || reflexivity).
Qed.

(** ** conversions *)
Lemma to_P2_P3 g P : repc P3 g P -> exists r, to_P2 g = Ok r /\ repc P2 r P.
Proof.
  intros H. apply rep_P3 in H as (X&Y&Z&T&->&B1&B2&B3&B4&N&E1&E2&E3).
  eexists. split; [reflexivity|]. apply mk_P2; assumption.
Qed.
Lemma to_P2_P2 g P : repc P2 g P -> exists r, to_P2 g = Ok r /\ repc P2 r P.
Proof.
  intros H. apply rep_P2 in H as (X&Y&Z&T&->&B1&B2&B3&N&E1&E2).
  eexists. split; [reflexivity|]. apply mk_P2; assumption.
Qed.
Lemma to_P3_P3 g P : repc P3 g P -> exists r, to_P3 g = Ok r /\ repc P3 r P.
Proof.
  intros H. apply rep_P3 in H as (X&Y&Z&T&->&B1&B2&B3&B4&N&E1&E2&E3).
  eexists. split; [reflexivity|]. apply mk_P3; assumption.
Qed.
Lemma to_P2_P1 g P : repc P1xP1 g P -> exists r, to_P2 g = Ok r /\ repc P2 r P.
Proof.
  intros H. apply rep_P1 in H as (X&Y&Z&T&->&B1&B2&B3&B4&N1&N2&E1&E2).
  eexists. split; [reflexivity|]. cbn [gX gY gZ gT newP1xP1 newP3]. apply mk_P2; try bd.
  - rewrite rF_mul by bd. apply F_mul_nz; assumption.
  - rewrite !rF_mul by bd. rewrite E1. ring.
  - rewrite !rF_mul by bd. rewrite E2. ring.
Qed.
Lemma to_P3_P1 g P : repc P1xP1 g P -> exists r, to_P3 g = Ok r /\ repc P3 r P.
Proof.
  intros H. apply rep_P1 in H as (X&Y&Z&T&->&B1&B2&B3&B4&N1&N2&E1&E2).
  eexists. split; [reflexivity|]. cbn [gX gY gZ gT newP1xP1 newP3]. apply mk_P3; try bd.
  - rewrite rF_mul by bd. apply F_mul_nz; assumption.
  - rewrite !rF_mul by bd. rewrite E1. ring.
  - rewrite !rF_mul by bd. rewrite E2. ring.
  - rewrite !rF_mul by bd. rewrite E1, E2. ring.
Qed.
Lemma to_cached_P3 g P : repc P3 g P -> exists r, to_cached g = Ok r /\ repc CACHED r P.
Proof.
  intros H. apply rep_P3 in H as (X&Y&Z&T&->&B1&B2&B3&B4&N&E1&E2&E3).
  eexists. split; [reflexivity|]. cbn [gX gY gZ gT newP1xP1 newP3]. apply mk_cached; try bd; try assumption.
  - apply (bnd_add 110 110); bd || lia.
  - apply (bnd_sub 110 110); bd || lia.
  - rewrite (rF_add 110 110) by (bd || lia). rewrite E1, E2. ring.
  - rewrite (rF_sub 110 110) by (bd || lia). rewrite E1, E2. ring.
  - rewrite rF_mul by bd. rewrite rF_d2, E3. ring.
Qed.

(** ** group operations *)
Lemma two_k a b : a <> F0 -> b <> F0 -> (inF 2 * a * b)%F <> F0.
Proof. intros. repeat apply F_mul_nz; try assumption. exact F2_nz. Qed.

Theorem g_add_ok g h P Q : repc P3 g P -> repc CACHED h Q ->
  exists r, g_add g h = Ok r /\ repc P1xP1 r (padd P Q).
Proof.
  intros H1 H2. apply rep_P3 in H1 as (X&Y&Z&T&->&B1&B2&B3&B4&N&E1&E2&E3).
  apply rep_cached in H2 as (X'&Y'&Z'&T'&->&B1'&B2'&B3'&B4'&N'&E1'&E2'&E3').
  eexists. split; [reflexivity|]. cbn [gX gY gZ newP3 newCached].
  assert (Bp : bnd 330 (fe_add Y X)) by (apply (bnd_add 110 110); bd || lia).
  assert (Bm : bnd 330 (fe_sub Y X)) by (apply (bnd_sub 110 110); bd || lia).
  assert (Ep : rF (fe_add Y X) = ((py P + px P) * rF Z)%F)
    by (rewrite (rF_add 110 110) by (bd || lia); rewrite E1, E2; ring).
  assert (Em : rF (fe_sub Y X) = ((py P - px P) * rF Z)%F)
    by (rewrite (rF_sub 110 110) by (bd || lia); rewrite E1, E2; ring).
  set (B := fe_mul (fe_add Y X) X'). set (A := fe_mul (fe_sub Y X) Y').
  set (C := fe_mul T' T). set (ZZ := fe_mul Z Z').
  assert (BB : bnd 101 B) by (unfold B; bd). assert (BA : bnd 101 A) by (unfold A; bd).
  assert (BC : bnd 101 C) by (unfold C; bd). assert (BZ : bnd 101 ZZ) by (unfold ZZ; bd).
  assert (EB : rF B = ((py P + px P) * (py Q + px Q) * (rF Z * rF Z'))%F)
    by (unfold B; rewrite rF_mul by bd; rewrite Ep, E1'; ring).
  assert (EA : rF A = ((py P - px P) * (py Q - px Q) * (rF Z * rF Z'))%F)
    by (unfold A; rewrite rF_mul by bd; rewrite Em, E2'; ring).
  assert (EC : rF C = (inF 2 * Fd * px P * px Q * py P * py Q * (rF Z * rF Z'))%F)
    by (unfold C; rewrite rF_mul by bd; rewrite E3, E3'; ring).
  assert (EZ : rF ZZ = (rF Z * rF Z')%F) by (unfold ZZ; rewrite rF_mul by bd; reflexivity).
  assert (BD : bnd 202 (fe_add ZZ ZZ)) by (apply (bnd_add 101 101); bd || lia).
  assert (ED : rF (fe_add ZZ ZZ) = (inF 2 * rF Z * rF Z')%F)
    by (rewrite (rF_add 101 101) by (bd || lia); rewrite EZ; ring).
  set (D := fe_add ZZ ZZ) in *. clearbody A B C D ZZ.
  apply mk_P1.
  - apply (bnd_sub 101 101); bd || lia.
  - apply (bnd_add 101 101); bd || lia.
  - apply (bnd_add 202 101); bd || lia.
  - apply (bnd_sub 202 101); bd || lia.
  - apply (p1_sum P Q (inF 2 * rF Z * rF Z')%F); [apply two_k; assumption|..].
    + rewrite (rF_sub 101 101) by (bd || lia). rewrite EA, EB. ring.
    + rewrite (rF_add 101 101) by (bd || lia). rewrite EA, EB. ring.
    + rewrite (rF_add 202 101) by (bd || lia). rewrite EC, ED. ring.
    + rewrite (rF_sub 202 101) by (bd || lia). rewrite EC, ED. ring.
Qed.

Theorem g_subtract_ok g h P Q : repc P3 g P -> repc CACHED h Q ->
  exists r, g_subtract g h = Ok r /\ repc P1xP1 r (psub P Q).
Proof.
  intros H1 H2. apply rep_P3 in H1 as (X&Y&Z&T&->&B1&B2&B3&B4&N&E1&E2&E3).
  apply rep_cached in H2 as (X'&Y'&Z'&T'&->&B1'&B2'&B3'&B4'&N'&E1'&E2'&E3').
  eexists. split; [reflexivity|]. cbn [gX gY gZ newP3 newCached].
  assert (Bp : bnd 330 (fe_add Y X)) by (apply (bnd_add 110 110); bd || lia).
  assert (Bm : bnd 330 (fe_sub Y X)) by (apply (bnd_sub 110 110); bd || lia).
  assert (Ep : rF (fe_add Y X) = ((py P + px P) * rF Z)%F)
    by (rewrite (rF_add 110 110) by (bd || lia); rewrite E1, E2; ring).
  assert (Em : rF (fe_sub Y X) = ((py P - px P) * rF Z)%F)
    by (rewrite (rF_sub 110 110) by (bd || lia); rewrite E1, E2; ring).
  set (A := fe_mul (fe_add Y X) Y'). set (B := fe_mul (fe_sub Y X) X').
  set (C := fe_mul T' T). set (ZZ := fe_mul Z Z').
  assert (BB : bnd 101 B) by (unfold B; bd). assert (BA : bnd 101 A) by (unfold A; bd).
  assert (BC : bnd 101 C) by (unfold C; bd). assert (BZ : bnd 101 ZZ) by (unfold ZZ; bd).
  assert (EA : rF A = ((py P + px P) * (py Q - px Q) * (rF Z * rF Z'))%F)
    by (unfold A; rewrite rF_mul by bd; rewrite Ep, E2'; ring).
  assert (EB : rF B = ((py P - px P) * (py Q + px Q) * (rF Z * rF Z'))%F)
    by (unfold B; rewrite rF_mul by bd; rewrite Em, E1'; ring).
  assert (EC : rF C = (inF 2 * Fd * px P * px Q * py P * py Q * (rF Z * rF Z'))%F)
    by (unfold C; rewrite rF_mul by bd; rewrite E3, E3'; ring).
  assert (EZ : rF ZZ = (rF Z * rF Z')%F) by (unfold ZZ; rewrite rF_mul by bd; reflexivity).
  assert (BD : bnd 202 (fe_add ZZ ZZ)) by (apply (bnd_add 101 101); bd || lia).
  assert (ED : rF (fe_add ZZ ZZ) = (inF 2 * rF Z * rF Z')%F)
    by (rewrite (rF_add 101 101) by (bd || lia); rewrite EZ; ring).
  set (D := fe_add ZZ ZZ) in *. clearbody A B C D ZZ.
  apply mk_P1.
  - apply (bnd_sub 101 101); bd || lia.
  - apply (bnd_add 101 101); bd || lia.
  - apply (bnd_sub 202 101); bd || lia.
  - apply (bnd_add 202 101); bd || lia.
  - apply (p1_sum P (pneg Q) (inF 2 * rF Z * rF Z')%F); [apply two_k; assumption|..];
      change (px (pneg Q)) with (- px Q)%F; change (py (pneg Q)) with (py Q).
    + rewrite (rF_sub 101 101) by (bd || lia). rewrite EA, EB. ring.
    + rewrite (rF_add 101 101) by (bd || lia). rewrite EA, EB. ring.
    + rewrite (rF_sub 202 101) by (bd || lia). rewrite EC, ED. ring.
    + rewrite (rF_add 202 101) by (bd || lia). rewrite EC, ED. ring.
Qed.

Theorem g_precomputedAdd_ok g h P Q : repc P3 g P -> repc PRECOMPUTED h Q ->
  exists r, g_precomputedAdd g h = Ok r /\ repc P1xP1 r (padd P Q).
Proof.
  intros H1 H2. apply rep_P3 in H1 as (X&Y&Z&T&->&B1&B2&B3&B4&N&E1&E2&E3).
  apply rep_prec in H2 as (X'&Y'&Z'&T'&->&B1'&B2'&B3'&E1'&E2'&E3').
  eexists. split; [reflexivity|]. cbn [gX gY gZ newP3].
  assert (Bp : bnd 330 (fe_add Y X)) by (apply (bnd_add 110 110); bd || lia).
  assert (Bm : bnd 330 (fe_sub Y X)) by (apply (bnd_sub 110 110); bd || lia).
  assert (Ep : rF (fe_add Y X) = ((py P + px P) * rF Z)%F)
    by (rewrite (rF_add 110 110) by (bd || lia); rewrite E1, E2; ring).
  assert (Em : rF (fe_sub Y X) = ((py P - px P) * rF Z)%F)
    by (rewrite (rF_sub 110 110) by (bd || lia); rewrite E1, E2; ring).
  set (A := fe_mul (fe_sub Y X) Y'). set (B := fe_mul (fe_add Y X) X').
  set (C := fe_mul T Z').
  assert (BB : bnd 101 B) by (unfold B; bd). assert (BA : bnd 101 A) by (unfold A; bd). assert (BC : bnd 101 C) by (unfold C; bd).
  assert (EB : rF B = ((py P + px P) * (py Q + px Q) * rF Z)%F)
    by (unfold B; rewrite rF_mul by bd; rewrite Ep, E1'; ring).
  assert (EA : rF A = ((py P - px P) * (py Q - px Q) * rF Z)%F)
    by (unfold A; rewrite rF_mul by bd; rewrite Em, E2'; ring).
  assert (EC : rF C = (inF 2 * Fd * px P * px Q * py P * py Q * rF Z)%F)
    by (unfold C; rewrite rF_mul by bd; rewrite E3, E3'; ring).
  assert (BD : bnd 220 (fe_add Z Z)) by (apply (bnd_add 110 110); bd || lia).
  assert (ED : rF (fe_add Z Z) = (inF 2 * rF Z)%F)
    by (rewrite (rF_add 110 110) by (bd || lia); ring).
  set (D := fe_add Z Z) in *. clearbody A B C D.
  apply mk_P1.
  - apply (bnd_sub 101 101); bd || lia.
  - apply (bnd_add 101 101); bd || lia.
  - apply (bnd_add 220 101); bd || lia.
  - apply (bnd_sub 220 101); bd || lia.
  - apply (p1_sum P Q (inF 2 * rF Z)%F); [apply F_mul_nz; [exact F2_nz|assumption]|..].
    + rewrite (rF_sub 101 101) by (bd || lia). rewrite EA, EB. ring.
    + rewrite (rF_add 101 101) by (bd || lia). rewrite EA, EB. ring.
    + rewrite (rF_add 220 101) by (bd || lia). rewrite EC, ED. ring.
    + rewrite (rF_sub 220 101) by (bd || lia). rewrite EC, ED. ring.
Qed.

Theorem g_precomputedSubtract_ok g h P Q : repc P3 g P -> repc PRECOMPUTED h Q ->
  exists r, g_precomputedSubtract g h = Ok r /\ repc P1xP1 r (psub P Q).
Proof.
  intros H1 H2. apply rep_P3 in H1 as (X&Y&Z&T&->&B1&B2&B3&B4&N&E1&E2&E3).
  apply rep_prec in H2 as (X'&Y'&Z'&T'&->&B1'&B2'&B3'&E1'&E2'&E3').
  eexists. split; [reflexivity|]. cbn [gX gY gZ newP3].
  assert (Bp : bnd 330 (fe_add Y X)) by (apply (bnd_add 110 110); bd || lia).
  assert (Bm : bnd 330 (fe_sub Y X)) by (apply (bnd_sub 110 110); bd || lia).
  assert (Ep : rF (fe_add Y X) = ((py P + px P) * rF Z)%F)
    by (rewrite (rF_add 110 110) by (bd || lia); rewrite E1, E2; ring).
  assert (Em : rF (fe_sub Y X) = ((py P - px P) * rF Z)%F)
    by (rewrite (rF_sub 110 110) by (bd || lia); rewrite E1, E2; ring).
  set (A := fe_mul (fe_add Y X) Y'). set (B := fe_mul (fe_sub Y X) X').
  set (C := fe_mul Z' T).
  assert (BB : bnd 101 B) by (unfold B; bd). assert (BA : bnd 101 A) by (unfold A; bd). assert (BC : bnd 101 C) by (unfold C; bd).
  assert (EA : rF A = ((py P + px P) * (py Q - px Q) * rF Z)%F)
    by (unfold A; rewrite rF_mul by bd; rewrite Ep, E2'; ring).
  assert (EB : rF B = ((py P - px P) * (py Q + px Q) * rF Z)%F)
    by (unfold B; rewrite rF_mul by bd; rewrite Em, E1'; ring).
  assert (EC : rF C = (inF 2 * Fd * px P * px Q * py P * py Q * rF Z)%F)
    by (unfold C; rewrite rF_mul by bd; rewrite E3, E3'; ring).
  assert (BD : bnd 220 (fe_add Z Z)) by (apply (bnd_add 110 110); bd || lia).
  assert (ED : rF (fe_add Z Z) = (inF 2 * rF Z)%F)
    by (rewrite (rF_add 110 110) by (bd || lia); ring).
  set (D := fe_add Z Z) in *. clearbody A B C D.
  apply mk_P1.
  - apply (bnd_sub 101 101); bd || lia.
  - apply (bnd_add 101 101); bd || lia.
  - apply (bnd_sub 220 101); bd || lia.
  - apply (bnd_add 220 101); bd || lia.
  - apply (p1_sum P (pneg Q) (inF 2 * rF Z)%F); [apply F_mul_nz; [exact F2_nz|assumption]|..];
      change (px (pneg Q)) with (- px Q)%F; change (py (pneg Q)) with (py Q).
    + rewrite (rF_sub 101 101) by (bd || lia). rewrite EA, EB. ring.
    + rewrite (rF_add 101 101) by (bd || lia). rewrite EA, EB. ring.
    + rewrite (rF_sub 220 101) by (bd || lia). rewrite EC, ED. ring.
    + rewrite (rF_add 220 101) by (bd || lia). rewrite EC, ED. ring.
Qed.

Lemma g_dbl_core c X Y Z T P : c = P2 \/ c = P3 ->
  bnd 110 X -> bnd 110 Y -> bnd 110 Z -> rF Z <> F0 ->
  rF X = (px P * rF Z)%F -> rF Y = (py P * rF Z)%F ->
  exists r, g_dbl (G c X Y Z T) = Ok r /\ repc P1xP1 r (padd P P).
Proof.
  intros Hc B1 B2 B3 N E1 E2.
  assert (Ba : bnd 330 (fe_add X Y)) by (apply (bnd_add 110 110); bd || lia).
  assert (Ea : rF (fe_add X Y) = ((px P + py P) * rF Z)%F)
    by (rewrite (rF_add 110 110) by (bd || lia); rewrite E1, E2; ring).
  destruct Hc; subst c; (eexists; split; [reflexivity|]); cbn [gX gY gZ];
  set (XX := fe_sq X); set (YY := fe_sq Y); set (BB := fe_sq2 Z); set (AA := fe_sq (fe_add X Y));
  assert (BX : bnd 101 XX) by (unfold XX; bd); assert (BY : bnd 101 YY) by (unfold YY; bd); assert (BBB : bnd 101 BB) by (unfold BB; bd);
  assert (BA : bnd 101 AA) by (unfold AA; bd);
  assert (EX : rF XX = (px P * px P * (rF Z * rF Z))%F) by (unfold XX; rewrite rF_sq by bd; rewrite E1; ring);
  assert (EY : rF YY = (py P * py P * (rF Z * rF Z))%F) by (unfold YY; rewrite rF_sq by bd; rewrite E2; ring);
  assert (EB : rF BB = (inF 2 * (rF Z * rF Z))%F) by (unfold BB; rewrite rF_sq2 by bd; reflexivity);
  assert (EA : rF AA = ((px P + py P) * (px P + py P) * (rF Z * rF Z))%F)
    by (unfold AA; rewrite rF_sq by bd; rewrite Ea; ring);
  clearbody XX YY BB AA;
  assert (Bs : bnd 202 (fe_add YY XX)) by (apply (bnd_add 101 101); bd || lia);
  assert (Bd : bnd 202 (fe_sub YY XX)) by (apply (bnd_sub 101 101); bd || lia);
  assert (Es : rF (fe_add YY XX) = ((py P * py P + px P * px P) * (rF Z * rF Z))%F)
    by (rewrite (rF_add 101 101) by (bd || lia); rewrite EX, EY; ring);
  assert (Ed : rF (fe_sub YY XX) = ((py P * py P - px P * px P) * (rF Z * rF Z))%F)
    by (rewrite (rF_sub 101 101) by (bd || lia); rewrite EX, EY; ring);
  pose proof (pon P) as C; unfold on_curve in C; apply mk_P1;
  [ apply (bnd_sub 101 202); bd || lia | bd | bd | apply (bnd_sub 101 202); bd || lia |
    apply (p1_sum P P (rF Z * rF Z)%F); [apply F_mul_nz; assumption|..]
  | apply (bnd_sub 101 202); bd || lia | bd | bd | apply (bnd_sub 101 202); bd || lia |
    apply (p1_sum P P (rF Z * rF Z)%F); [apply F_mul_nz; assumption|..] ];
  rewrite ?Es, ?Ed; try (rewrite (rF_sub 101 202) by (bd || lia)); rewrite ?EA, ?EB, ?Es, ?Ed;
  first [ring | rewrite C; ring].
Qed.
Theorem g_dbl_P2 g P : repc P2 g P -> exists r, g_dbl g = Ok r /\ repc P1xP1 r (padd P P).
Proof.
  intros H. apply rep_P2 in H as (X&Y&Z&T&->&B1&B2&B3&N&E1&E2). apply g_dbl_core; auto.
Qed.
Theorem g_dbl_P3 g P : repc P3 g P -> exists r, g_dbl g = Ok r /\ repc P1xP1 r (padd P P).
Proof.
  intros H. apply rep_P3 in H as (X&Y&Z&T&->&B1&B2&B3&B4&N&E1&E2&E3). apply g_dbl_core; auto.
Qed.

Lemma zero_P3_rep : repc P3 zero_P3 pzero.
Proof.
  apply mk_P3; try (bd || lia); rewrite ?rF_one, ?rF_zero; cbn [px py pzero]; try ring. exact F1_neq_F0.
Qed.
Lemma zero_P2_rep : repc P2 zero_P2 pzero.
Proof.
  apply mk_P2; try (bd || lia); rewrite ?rF_one, ?rF_zero; cbn [px py pzero]; try ring. exact F1_neq_F0.
Qed.
Lemma zero_prec_rep : repc PRECOMPUTED zero_precomputed pzero.
Proof.
  apply mk_prec; try (bd || lia); rewrite ?rF_one, ?rF_zero; cbn [px py pzero]; ring.
Qed.
Theorem g_negate_ok g P : repc P3 g P -> exists r, g_negate g = Ok r /\ repc P3 r (pneg P).
Proof.
  intros H. unfold g_negate. assert (E : g_cs g = P3) by apply H. rewrite E. cbn [csys_eqb negb].
  destruct (to_cached_P3 g P H) as (c & -> & Hc). cbn [bind].
  destruct (g_subtract_ok _ _ _ _ zero_P3_rep Hc) as (s & -> & Hs). cbn [bind].
  destruct (to_P3_P1 _ _ Hs) as (r & -> & Hr). exists r. split; [reflexivity|].
  unfold psub in Hr. now rewrite padd_0_l in Hr.
Qed.
Lemma add_P3_ok a b P Q : repc P3 a P -> repc P3 b Q ->
  exists r, add_P3 a b = Ok r /\ repc P3 r (padd P Q).
Proof.
  intros Ha Hb. unfold add_P3.
  destruct (to_cached_P3 b Q Hb) as (c & -> & Hc). cbn [bind].
  destruct (g_add_ok _ _ _ _ Ha Hc) as (s & -> & Hs). cbn [bind].
  exact (to_P3_P1 _ _ Hs).
Qed.

(** ** every conversion *)
Lemma repc_self g P : rep g P -> repc (g_cs g) g P.
Proof. intros H. split; [reflexivity|exact H]. Qed.
Definition convertible (a b : csys) : bool :=
  match a, b with
  | P2, P2 | P3, P2 | P3, P3 | P3, CACHED | P1xP1, P2 | P1xP1, P3 | P1xP1, P1xP1
  | PRECOMPUTED, PRECOMPUTED | CACHED, CACHED => true
  | _, _ => false
  end.
Theorem to_cs_ok g P n : rep g P -> convertible (g_cs g) n = true ->
  exists r, to_cs g n = Ok r /\ repc n r P.
Proof.
  intros H C. pose proof (repc_self _ _ H) as Hr. destruct g as [c X Y Z T]. cbn [g_cs] in *.
  destruct c, n; try discriminate C.
  - exact (to_P2_P2 _ _ Hr).
  - exact (to_P2_P3 _ _ Hr).
  - exact (to_P3_P3 _ _ Hr).
  - exact (to_cached_P3 _ _ Hr).
  - exact (to_P2_P1 _ _ Hr).
  - exact (to_P3_P1 _ _ Hr).
  - eexists. split; [reflexivity|exact Hr].
  - eexists. split; [reflexivity|].
    apply rep_prec in Hr as (X'&Y'&Z'&T'&E&B1&B2&B3&E1&E2&E3). injection E as -> -> -> ->.
    apply mk_prec; assumption.
  - eexists. split; [reflexivity|exact Hr].
Qed.
Theorem to_cs_panic g n : convertible (g_cs g) n = false -> to_cs g n = Panic.
Proof. destruct g as [c X Y Z T]. destruct c, n; cbn; try discriminate; reflexivity. Qed.
