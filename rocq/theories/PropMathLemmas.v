(** Proofs of the statements of [PropMath] that need more than one lemma, and concrete instances. *)
From Coq Require Import List ZArith Lia Bool Ring Field.
From Verif Require Import GoBase FieldModel FieldSpec FieldProofs ByteLemmas ScalarModel Fp Curve BaseCert BasePoint
  GroupModel GroupSpec FieldPow GroupProofs PointCodec GroupEq ApiModel ApiProofs PropFieldLemmas PropGroupLemmas
  MathModel MathSpec MathProofs MathAdd MathMul MathDecode.
Import ListNotations.
Open Scope Z_scope.

Lemma p2p3 c : c = P2 \/ c = P3 -> is_P2_P3 c = true.
Proof. intros [-> | ->]; reflexivity. Qed.
Lemma add_ok g1 g2 P Q : rep g1 P -> rep g2 Q -> g_cs g1 = P2 \/ g_cs g1 = P3 -> g_cs g2 = P2 \/ g_cs g2 = P3 ->
  safe P Q -> exists r, math_Add g1 g2 = Ok r /\ repc P3 r (padd P Q).
Proof. intros R1 R2 C1 C2 S. apply math_Add_ok; auto using p2p3. Qed.
Lemma double_ok g P : rep g P -> g_cs g = P2 \/ g_cs g = P3 -> safe P P ->
  exists r, math_Double g = Ok r /\ repc P3 r (padd P P).
Proof. intros R C S. apply math_Add_ok; auto using p2p3. Qed.
Lemma add_neutral_wrong g1 g2 P : rep g1 P -> rep g2 pzero ->
  g_cs g1 = P2 \/ g_cs g1 = P3 -> g_cs g2 = P2 \/ g_cs g2 = P3 ->
  2 ^ 192 <= val (px P) -> 2 ^ 128 <= val (py P) ->
  exists r, math_Add g1 g2 = Ok r /\ g_cs r = P3 /\ rF (gX r) = py P /\ rF (gY r) = py P /\ rF (gZ r) = F1 /\
    forall Q, ~ rep r Q.
Proof.
  intros R1 R2 C1 C2 HX HY.
  destruct (math_Add_neutral g1 g2 P R1 R2 (p2p3 _ C1) (p2p3 _ C2) HX HY) as (r & E & C & EZ & EX & EY).
  exists r. cj; auto. intros Q R.
  pose proof (rep_P3 r Q (conj C R)) as (X & Y & Z & T & -> & _ & _ & _ & _ & _ & HXQ & HYQ & _).
  cbn [newP3 gX gY gZ] in *. rewrite EZ in HXQ, HYQ. rewrite EX in HXQ. rewrite EY in HYQ.
  apply (diagonal_not_on_curve (py P)).
  replace (py P) with (px Q) at 1 by (rewrite HXQ; ring). replace (py P) with (py Q) by (rewrite HYQ; ring).
  apply pon.
Qed.
Lemma add_other g1 g2 : (g_cs g1 <> P2 /\ g_cs g1 <> P3) \/ (g_cs g2 <> P2 /\ g_cs g2 <> P3) -> math_Add g1 g2 = Panic.
Proof.
  intros H. unfold math_Add.
  destruct (g_cs g1) eqn:C1, (g_cs g2) eqn:C2; try reflexivity; exfalso; destruct H as [[A B]|[A B]]; congruence.
Qed.
Lemma negate_other g : g_cs g <> P3 -> math_Negate g = Panic.
Proof. intros H. unfold math_Negate. destruct (g_cs g); try reflexivity. congruence. Qed.
Lemma mul_ok g f P : rep g P -> g_cs g = P2 \/ g_cs g = P3 -> bnd 1000 f ->
  safe_mul (feval f mod p25519) P ->
  exists r, math_ScalarMultiply g f = Ok r /\ repc P3 r (zmul (feval f mod p25519) P).
Proof. intros R C B S. apply (math_ScalarMultiply_ok g f P); auto using p2p3. Qed.
Lemma double_mul_ok g1 f1 g2 f2 P Q : rep g1 P -> rep g2 Q ->
  g_cs g1 = P2 \/ g_cs g1 = P3 -> g_cs g2 = P2 \/ g_cs g2 = P3 -> bnd 1000 f1 -> bnd 1000 f2 ->
  let m := feval f1 mod p25519 in let n := feval f2 mod p25519 in
  safe_mul m P -> safe_mul n Q -> safe (zmul m P) (zmul n Q) ->
  exists r, math_doubleScalarMultiply g1 f1 g2 f2 = Ok r /\ repc P3 r (psub (zmul m P) (zmul n Q)).
Proof.
  intros R1 R2 C1 C2 B1 B2 m n. apply (math_doubleScalarMultiply_ok g1 f1 g2 f2 P Q); auto using p2p3.
Qed.
Lemma reduce_agrees b : wf_bytes b ->
  math_ReduceModGroupOrder b = Ok (le_bytes 32 (le_val b mod q25519)) /\
  (length b = 64%nat -> math_ReduceModGroupOrder b = sc_modQ b).
Proof.
  intros W. split; [apply math_reduce_ok, W|]. intros L. rewrite math_reduce_ok by exact W. symmetry.
  apply modQ_bytes; assumption.
Qed.
Lemma mulAdd_agrees a b c : wf_bytes a -> wf_bytes b -> wf_bytes c ->
  math_multiplyAndAdd a b c = Ok (le_bytes 32 ((le_val a * le_val b + le_val c) mod q25519)) /\
  (length a = 32%nat -> length b = 32%nat -> length c = 32%nat -> math_multiplyAndAdd a b c = sc_mulAdd a b c).
Proof.
  intros Wa Wb Wc. split; [apply math_mulAdd_ok; assumption|]. intros La Lb Lc.
  rewrite math_mulAdd_ok by assumption. symmetry. apply mulAdd_bytes; assumption.
Qed.
Lemma ex_safe : safe Bpt Bpt /\ safe_mul 7 Bpt /\ 2 ^ 192 <= val (px Bpt) /\ 2 ^ 128 <= val (py Bpt).
Proof.
  split; [rewrite <- (zmul_1 Bpt); apply safe_small; lia|]. split; [exact safe_mul_7|].
  destruct B_pz as [-> ->]. split; vm_compute; discriminate.
Qed.

(** C46 *)
Lemma base_wf : wf_bytes base_bytes.
Proof. rewrite base_bytes_enc. apply enc_point_wf. Qed.
Lemma toGroup_base : snd (math_ToGroupElement base_bytes) = Err ErrNotGroupElement.
Proof.
  destruct base_P3 as (g & E & R).
  destruct (g_decode_ok base_bytes) as [(P & h & D & E' & R')|[_ E']]; [apply base_wf|left; reflexivity| |congruence].
  rewrite E in E'. injection E' as <-.
  assert (P = Bpt) as -> by (apply (rep_unique g); [rewrite (proj1 R); discriminate|apply R'|apply R]).
  destruct ex_safe as (_ & _ & HX & HY).
  apply (toGroup_rejects base_bytes Bpt); [apply base_wf|reflexivity|exact D| |].
  - intros Z. rewrite Z in HX. vm_compute in HX. apply HX. reflexivity.
  - intros Z. rewrite Z in HY. vm_compute in HY. apply HY. reflexivity.
Qed.
Lemma toGroup_zero : exists r, snd (math_ToGroupElement (repeat 0 32)) = Ok r /\ forall P, ~ rep r P.
Proof.
  assert (W : wf_bytes (repeat 0 32)) by (apply Forall_forall; intros x Hx; apply repeat_spec in Hx; subst; unfold is_byte; lia).
  assert (L : length (repeat 0 32) = 32%nat) by reflexivity.
  assert (Y : y255 (repeat 0 32) = F0) by reflexivity.
  destruct (toGroup_exact _ W L) as [_ H].
  destruct H as [H|H]; [rewrite Y; intros E; symmetry in E; exact (F1_neq_F0 E)| | |exact H].
  { rewrite Y. intros E. apply F1_neq_F0. transitivity (- - F1)%F; [ring|]. rewrite <- E. ring. }
  exfalso. destruct (toGroup_eq _ W L) as [_ K]. rewrite H, gax_eq in K.
  change (le_val (repeat 0 32) mod 2 ^ 255) with 0 in K.
  assert (U : gax_u 0 = (- F1)%F) by (unfold gax_u; change (inF 0) with F0; ring).
  assert (V : gax_v 0 = F1) by (unfold gax_v; change (inF 0) with F0; ring).
  assert (X : gax_x 0 = F1).
  { unfold gax_x, Fsqrt_cand. rewrite U, V.
    replace (F1 * F1 * F1 * (F1 * F1 * F1) * F1 * - F1)%F with (- F1)%F by ring.
    change e252 with (2 * (2 ^ 251 - 2) + 1). rewrite Fpow_add, <- Fpow_sq, Fpow_1 by lia.
    replace (- F1 * - F1)%F with F1 by ring. rewrite Fpow_one by lia. ring. }
  rewrite U, V, X in K.
  destruct (F_eq_dec (F1 * F1)%F (- F1)%F); [destruct K as (r & K & _); discriminate|].
  destruct (F_eq_dec (F1 * F1)%F (- - F1)%F) as [_|N]; [destruct K as (r & K & _); discriminate|].
  apply N. ring.
Qed.
Lemma ex_toGroup : y255 (le_bytes 32 1) = F1 /\ length (le_bytes 32 1) = 32%nat /\ denotes (le_bytes 32 1) pzero.
Proof.
  split; [apply F_eq; reflexivity|]. split; [reflexivity|]. split; [apply F_eq; reflexivity|right; reflexivity].
Qed.

(** C47 *)
Lemma repr_ok g P n : rep g P -> g_cs g <> PRECOMPUTED -> exists r, math_ToRepresentation g n = Ok r /\ repc n r P.
Proof. exact (toRepresentation_ok g P n). Qed.
Lemma repr_nil_T g n : g_cs g = P1xP1 -> gT g = None -> math_ToRepresentation g n = Err ErrNoTCoordinate.
Proof. intros C T. unfold math_ToRepresentation. rewrite C, T. reflexivity. Qed.
Lemma ex_repr : (exists g, repc PRECOMPUTED g Bpt) /\ (exists g, repc CACHED g Bpt) /\ px Bpt <> F0 /\ py Bpt <> F0.
Proof.
  destruct (every_point Bpt) as (_ & _ & _ & A & B). destruct ex_safe as (_ & _ & HX & HY).
  cj; auto.
  - intros Z. rewrite Z in HX. vm_compute in HX. apply HX. reflexivity.
  - intros Z. rewrite Z in HY. vm_compute in HY. apply HY. reflexivity.
Qed.

(** C48 *)
Lemma encoded_field_ok src n : n = 32%nat \/ n = 64%nat -> wf_bytes src -> (n <= length src)%nat ->
  exists b, math_GetRandomEncodedFieldElement src n = Ok (b, skipn n src) /\ length b = n /\
    forall j, (j < n)%nat -> byte_at b j = if Nat.eqb j 31 then byte_at src 31 mod 128 else byte_at src j.
Proof.
  intros N W L. exists (clear_top (firstn n src)). split; [apply randomEncodedField_ok; assumption|].
  assert (Lf : length (firstn n src) = n) by (apply firstn_length_le; exact L).
  split; [unfold clear_top; rewrite upd_length; exact Lf|]. intros j Hj.
  assert (K : forall i, (i < n)%nat -> byte_at (firstn n src) i = byte_at src i).
  { intros i Hi. unfold byte_at. rewrite <- (firstn_skipn n src) at 2. rewrite app_nth1 by lia. reflexivity. }
  unfold clear_top. rewrite upd_at by lia. rewrite !K by lia.
  change 127 with (2 ^ 7 - 1). rewrite land_mask by lia. reflexivity.
Qed.
Lemma ex_random : wf_bytes base_bytes /\ (32 * 1 <= length base_bytes)%nat /\ exists P, denotes (block base_bytes 0) P.
Proof.
  split; [apply base_wf|]. split; [cbn; lia|].
  change (block base_bytes 0) with base_bytes.
  destruct (g_decode_ok base_bytes) as [(P & h & D & _)|[_ E']]; [apply base_wf|left; reflexivity|exists P; exact D|].
  destruct base_P3 as (g & E & _). congruence.
Qed.
