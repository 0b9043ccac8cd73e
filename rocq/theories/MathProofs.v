(** Proofs about [MathModel]: integers, fractions, representations, addition. *)
From Coq Require Import List ZArith Lia Bool Znumtheory Ring Field.
From Verif Require Import GoBase FieldModel FieldSpec FieldProofs ByteLemmas EncodeProofs Fp Curve GroupModel
  GroupSpec FieldPow GroupProofs ApiModel MathModel.
Import ListNotations.
Open Scope Z_scope.

(** ** integers *)
Lemma bytes_loop_val l : forall i b, 0 <= i -> wf_bytes l -> bytes_loop i b l = b + 2 ^ (8 * i) * le_val l.
Proof.
  induction l as [|v l IH]; intros i b Hi W; cbn [bytes_loop le_val]; [lia|].
  apply Forall_cons_iff in W as [Wv W]. rewrite IH by (assumption || lia).
  change 0xff with (2 ^ 8 - 1). rewrite land_mask, Z.mod_small by (unfold is_byte in *; lia).
  rewrite Z.shiftl_mul_pow2 by lia.
  replace (8 * (i + 1)) with (8 * i + 8) by lia. rewrite Z.pow_add_r by lia.
  replace (i * 8) with (8 * i) by lia. ring.
Qed.
Lemma bytes_value l : wf_bytes l -> math_BytesToBigInteger l = le_val l.
Proof. intros W. unfold math_BytesToBigInteger. rewrite bytes_loop_val by (assumption || lia). change (2 ^ (8 * 0)) with 1. lia. Qed.

Lemma val_small a : 0 <= val a < 256 ^ Z.of_nat 32.
Proof. pose proof (val_range a). unfold p25519 in *. change (256 ^ Z.of_nat 32) with (2 ^ 256). lia. Qed.
Lemma field_value f : bnd 1000 f -> math_FieldToBigInteger f = val (rF f).
Proof.
  intros B. unfold math_FieldToBigInteger. rewrite fe_encode_ok by assumption.
  rewrite bytes_value by apply le_bytes_wf. rewrite le_bytes_val. unfold rF. rewrite val_inF.
  apply Z.mod_small. pose proof (val_small (rF f)) as H. unfold rF in H. rewrite val_inF in H. exact H.
Qed.
Lemma ints_value f : math_IntsToBigInteger f = feval f.
Proof.
  unfold math_IntsToBigInteger, fe_list, exponents. cbn [combine fold_left fst snd].
  rewrite !Z.shiftl_mul_pow2 by lia. unfold feval. 
  change (26 + 25) with 51. change (2 * 26 + 25) with 77. change (2 * 26 + 2 * 25) with 102.
  change (3 * 26 + 2 * 25) with 128. change (3 * 26 + 3 * 25) with 153. change (4 * 26 + 3 * 25) with 179.
  change (4 * 26 + 4 * 25) with 204. change (5 * 26 + 4 * 25) with 230. change (2 ^ 0) with 1. ring.
Qed.
Lemma inF_mod z : inF (z mod p25519) = inF z.
Proof. apply F_eq. rewrite !val_inF. apply Zmod_mod. Qed.

Lemma to_fe_ok v : 0 <= v < 2 ^ 255 -> exists f, math_ToFieldElement v = Ok f /\ rF f = inF v /\ bnd 101 f.
Proof.
  intros H. unfold math_ToFieldElement, math_ToByteArray.
  replace (2 ^ 256 <=? v) with false by (symmetry; apply Z.leb_gt; lia). cbn [bind].
  unfold utils_BigIntToByteArray, fe_decode. rewrite le_bytes_length. cbn [Nat.ltb Nat.leb].
  rewrite Z.abs_eq by lia.
  destruct (fe_decode32_ok (le_bytes 32 v) (le_bytes_wf _ _)) as [E B].
  { rewrite le_bytes_length. lia. }
  exists (fe_decode32 (le_bytes 32 v)). split; [reflexivity|]. split; [|exact B].
  unfold rF. apply inF_eqp. rewrite (firstn_all2 (le_bytes 32 v)) in E by (rewrite le_bytes_length; lia).
  rewrite le_bytes_val in E. change (256 ^ Z.of_nat 32) with (2 ^ 256) in E.
  rewrite (Z.mod_small v) in E by lia. rewrite Z.mod_small in E by lia. exact E.
Qed.
Lemma to_fe_mod z : exists f, math_ToFieldElement (z mod p25519) = Ok f /\ rF f = inF z /\ bnd 101 f.
Proof.
  destruct (to_fe_ok (z mod p25519)) as (f & E & R & B).
  { pose proof (Z.mod_pos_bound z p25519 eq_refl). unfold p25519 in *. lia. }
  exists f. rewrite inF_mod in R. auto.
Qed.
Lemma to_fe_val a : exists f, math_ToFieldElement (val a) = Ok f /\ rF f = a /\ bnd 101 f.
Proof.
  destruct (to_fe_ok (val a)) as (f & E & R & B); [pose proof (val_range a); unfold p25519 in *; lia|].
  exists f. rewrite inF_val in R. auto.
Qed.

Lemma inF_0_mod z : z mod p25519 = 0 <-> inF z = F0.
Proof.
  split; intros H.
  - apply F_eq. rewrite val_inF. exact H.
  - rewrite <- val_inF, H. reflexivity.
Qed.
(** the contract of ModInverse *)
Lemma mod_inverse_spec g r : mod_inverse g = Ok r <->
  0 <= r < p25519 /\ (g * r) mod p25519 = 1.
Proof.
  unfold mod_inverse. destruct (g mod p25519 =? 0) eqn:E.
  - apply Z.eqb_eq in E. split; [discriminate|]. intros [_ H]. rewrite Z.mul_mod, E in H by discriminate.
    rewrite Z.mul_0_l, Z.mod_0_l in H by discriminate. discriminate.
  - apply Z.eqb_neq in E. assert (N : inF g <> F0) by (intros C; apply E, inF_0_mod, C).
    assert (S : forall r, (g * r) mod p25519 = 1 <-> (inF g * inF r)%F = F1).
    { intros s. split; intros H.
      - apply F_eq. rewrite <- inF_mul, val_inF, H. reflexivity.
      - rewrite <- val_inF, inF_mul, H. reflexivity. }
    split; intros H.
    + assert (Er : val (Finv (inF g)) = r) by congruence. subst r. split; [apply val_range|]. apply S. rewrite inF_val.
      rewrite <- (Finv_l _ N). ring.
    + destruct H as [R H]. f_equal. apply S in H. rewrite <- (Z.mod_small r p25519), <- val_inF by assumption. f_equal.
      apply (F_mul_cancel _ _ (inF g) N). rewrite Finv_l by exact N. rewrite <- H. ring.
Qed.
Lemma mod_inverse_ok g : inF g <> F0 -> mod_inverse g = Ok (val (Finv (inF g))).
Proof.
  intros N. unfold mod_inverse. destruct (g mod p25519 =? 0) eqn:E; [|reflexivity].
  apply Z.eqb_eq, inF_0_mod in E. contradiction.
Qed.
Lemma mod_inverse_nil g : inF g = F0 -> mod_inverse g = Panic.
Proof. intros N. unfold mod_inverse. apply inF_0_mod in N. rewrite N. reflexivity. Qed.
Lemma frac_ok x y : inF y <> F0 -> math_frac x y = Ok (val (inF x / inF y)%F).
Proof.
  intros N. unfold math_frac. rewrite mod_inverse_ok by exact N. cbn [bind]. f_equal.
  rewrite <- val_inF, inF_mul, inF_val. reflexivity.
Qed.
Lemma math_D_F : inF math_D = Fd.
Proof.
  apply (F_mul_cancel _ _ (inF 121666) F121666_nz). rewrite Fd_eq. unfold math_D.
  rewrite inF_mul, inF_val. 
  replace (inF (-121665) * Finv (inF 121666) * inF 121666)%F with (inF (-121665) * (Finv (inF 121666) * inF 121666))%F by ring.
  rewrite Finv_l by exact F121666_nz.
  change (-121665) with (- (121665)). rewrite inF_opp. ring.
Qed.

(** ** representations *)
Lemma b110 f : bnd 101 f -> bnd 110 f. Proof. intros H. apply (bnd_mono _ _ _ H). lia. Qed.
Lemma b330 f : bnd 101 f -> bnd 330 f. Proof. intros H. apply (bnd_mono _ _ _ H). lia. Qed.
Lemma b1000 k f : bnd k f -> k <= 1000 -> bnd 1000 f. Proof. intros H L. apply (bnd_mono _ _ _ H L). Qed.
Lemma rF_one_eq : rF fe_one = F1. Proof. reflexivity. Qed.

Lemma getNeeCoor_ok P n : exists r, math_getNeeCoor (val (px P)) (val (py P)) n = Ok r /\ repc n r P.
Proof.
  unfold math_getNeeCoor.
  destruct (to_fe_val (px P)) as (fx & Ex & Rx & Bx). destruct (to_fe_val (py P)) as (fy & Ey & Ry & By).
  rewrite Ex, Ey. cbn [bind].
  destruct (to_fe_mod (val (px P) * val (py P))) as (ft & Et & Rt & Bt).
  destruct (to_fe_mod (val (py P) + val (px P))) as (fs & Es & Rs & Bs).
  destruct (to_fe_mod (val (py P) - val (px P))) as (fd & Ed & Rd & Bd).
  destruct (to_fe_mod (math_D * 2 * val (px P) * val (py P))) as (fz & Ez & Rz & Bz).
  rewrite inF_mul, !inF_val in Rt. rewrite inF_add, !inF_val in Rs. rewrite inF_sub, !inF_val in Rd.
  rewrite !inF_mul, !inF_val, math_D_F in Rz.
  assert (N1 : rF fe_one <> F0) by (rewrite rF_one_eq; apply F1_neq_F0).
  destruct n.
  - eexists. split; [reflexivity|]. split; [reflexivity|]. split.
    + unfold gbnd, newAffine. cbn [g_cs gX gY gZ gT cs_bound]. cj; [apply b110, Bx|apply b110, By|bd|exact I].
    + cbn. auto.
  - eexists. split; [reflexivity|]. apply mk_P2; [apply b110, Bx|apply b110, By|bd|exact N1| |];
      rewrite rF_one_eq, ?Rx, ?Ry; ring.
  - rewrite Et. cbn [bind]. eexists. split; [reflexivity|].
    apply mk_P3; [apply b110, Bx|apply b110, By|bd|apply b110, Bt|exact N1| | |];
      rewrite rF_one_eq, ?Rx, ?Ry, ?Rt; ring.
  - eexists. split; [reflexivity|]. apply mk_P1; [apply b330, Bx|apply b330, By|bd|bd|].
    cj; [exact N1|exact N1| |]; rewrite rF_one_eq, ?Rx, ?Ry; ring.
  - rewrite Es, Ed, Ez. cbn [bind]. eexists. split; [reflexivity|].
    apply mk_prec; [apply b330, Bs|apply b330, Bd|apply b330, Bz|exact Rs|exact Rd|]. rewrite Rz. ring.
  - rewrite Es, Ed, Ez. cbn [bind]. eexists. split; [reflexivity|].
    apply mk_cached; [apply b330, Bs|apply b330, Bd|bd|apply b330, Bz|exact N1| | |];
      rewrite rF_one_eq, ?Rs, ?Rd, ?Rz; ring.
Qed.

Lemma div_mul a z : z <> F0 -> (a * z / z)%F = a.
Proof. intros N. field. exact N. Qed.

Lemma toRepresentation_ok g P n : rep g P -> g_cs g <> PRECOMPUTED ->
  exists r, math_ToRepresentation g n = Ok r /\ repc n r P.
Proof.
  intros R NP. destruct (g_cs g) eqn:C; [| | | |congruence|].
  - destruct R as [(B1 & B2 & B3 & _) H]. rewrite C in *. cbn in H, B1, B2, B3. destruct H as [HX HY].
    unfold math_ToRepresentation. rewrite C.
    rewrite !field_value by (eapply b1000; [eassumption|lia]). rewrite HX, HY. apply getNeeCoor_ok.
  - pose proof (rep_P2 g P (conj C R)) as (X & Y & Z & T & -> & BX & BY & BZ & NZ & EX & EY).
    unfold math_ToRepresentation. cbn [g_cs gX gY gZ].
    rewrite !field_value by (eapply b1000; [eassumption|lia]).
    rewrite !frac_ok by (rewrite inF_val; exact NZ). rewrite !inF_val. cbn [bind].
    rewrite EX, EY, !div_mul by exact NZ. apply getNeeCoor_ok.
  - pose proof (rep_P3 g P (conj C R)) as (X & Y & Z & T & -> & BX & BY & BZ & BT & NZ & EX & EY & _).
    unfold math_ToRepresentation. cbn [newP3 g_cs gX gY gZ].
    rewrite !field_value by (eapply b1000; [eassumption|lia]).
    rewrite !frac_ok by (rewrite inF_val; exact NZ). rewrite !inF_val. cbn [bind].
    rewrite EX, EY, !div_mul by exact NZ. apply getNeeCoor_ok.
  - pose proof (rep_P1 g P (conj C R)) as (X & Y & Z & T & -> & BX & BY & BZ & BT & NZ & NT & EX & EY).
    unfold math_ToRepresentation. cbn [newP1xP1 g_cs gX gY gZ gT].
    rewrite !field_value by (eapply b1000; [eassumption|lia]).
    rewrite !frac_ok by (rewrite inF_val; assumption). rewrite !inF_val. cbn [bind].
    rewrite EX, EY, !div_mul by assumption. apply getNeeCoor_ok.
  - pose proof (rep_cached g P (conj C R)) as (X & Y & Z & T & -> & BX & BY & BZ & BT & NZ & EX & EY & _).
    unfold math_ToRepresentation. cbn [newCached g_cs gX gY gZ gT].
    rewrite !field_value by (eapply b1000; [eassumption|lia]).
    assert (N2 : inF (val (rF Z) * 2) <> F0).
    { rewrite inF_mul, inF_val. apply F_mul_nz; [exact NZ|apply F2_nz]. }
    rewrite !frac_ok by exact N2. rewrite inF_add, inF_sub, inF_mul, !inF_val. cbn [bind]. rewrite EX, EY.
    set (z := rF Z) in *. clearbody z. generalize F2_nz. intros N3.
    replace (((py P + px P) * z - (py P - px P) * z) / (z * inF 2))%F with (px P)
      by (field; split; [exact N3|exact NZ]).
    replace (((py P + px P) * z + (py P - px P) * z) / (z * inF 2))%F with (py P)
      by (field; split; [exact N3|exact NZ]).
    apply getNeeCoor_ok.
Qed.
