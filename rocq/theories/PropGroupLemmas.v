(** Proof glue for PropGroup. *)
From Coq Require Import List ZArith Lia Bool Ring Field Znumtheory.
From Verif Require Import GoBase FieldModel FieldSpec FieldProofs ByteLemmas EncodeProofs
  Primality Fp Curve Tables BaseCert BasePoint GroupModel GroupSpec FieldPow GroupProofs
  TableProofs PointCodec GroupEq ScalarMul SlideProofs.
Import ListNotations.
Open Scope Z_scope.

Lemma base_P3 : exists g, g_decode base_bytes = Ok g /\ repc P3 g Bpt.
Proof. rewrite base_bytes_enc. apply g_decode_enc. Qed.
(** every point has a representation in every coordinate system but AFFINE; the base point's *)
Lemma every_point P : (exists g, repc P2 g P) /\ (exists g, repc P3 g P) /\ (exists g, repc P1xP1 g P) /\
  (exists g, repc PRECOMPUTED g P) /\ (exists g, repc CACHED g P).
Proof.
  destruct (g_decode_enc P) as (g & _ & H).
  destruct (to_P2_P3 _ _ H) as (g2 & _ & H2). destruct (to_cached_P3 _ _ H) as (gc & _ & Hc).
  destruct (g_add_ok _ _ _ _ zero_P3_rep Hc) as (g1 & _ & H1). rewrite padd_0_l in H1.
  pose proof (prec_entry_ok _ _ H) as Hp. eauto 10.
Qed.
Lemma order_B_iff n : zmul n Bpt = pzero <-> (q25519 | n).
Proof.
  rewrite <- (zmul_0 Bpt), zmul_B_inj, Z.mod_0_l by discriminate. split.
  - apply Z.mod_divide. discriminate.
  - apply Zdivide_mod.
Qed.
Lemma rep_unique g P Q : g_cs g <> AFFINE -> rep g P -> rep g Q -> P = Q.
Proof.
  intros NA HP HQ. apply repc_self in HP, HQ. destruct (g_cs g) eqn:C; [contradiction|..].
  - apply rep_P2 in HP as (X&Y&Z&T&->&B1&B2&B3&N&E1&E2). apply rep_P2 in HQ as (X'&Y'&Z'&T'&E&_&_&_&_&E1'&E2').
    injection E as -> -> -> ->. rewrite E1 in E1'. rewrite E2 in E2'. apply cancel in E1', E2'; try exact N.
    now apply point_eq.
  - apply rep_P3 in HP as (X&Y&Z&T&->&B1&B2&B3&B4&N&E1&E2&E3). apply rep_P3 in HQ as (X'&Y'&Z'&T'&E&_&_&_&_&_&E1'&E2'&E3').
    injection E as -> -> -> ->. rewrite E1 in E1'. rewrite E2 in E2'. apply cancel in E1', E2'; try exact N.
    now apply point_eq.
  - apply rep_P1 in HP as (X&Y&Z&T&->&B1&B2&B3&B4&N&N'&E1&E2). apply rep_P1 in HQ as (X'&Y'&Z'&T'&E&_&_&_&_&_&_&E1'&E2').
    injection E as -> -> -> ->. rewrite E1 in E1'. rewrite E2 in E2'. apply cancel in E1'; [|exact N]. apply cancel in E2'; [|exact N'].
    now apply point_eq.
  - apply rep_prec in HP as (X&Y&Z&T&->&B1&B2&B3&E1&E2&E3). apply rep_prec in HQ as (X'&Y'&Z'&T'&E&_&_&_&E1'&E2'&E3').
    injection E as -> -> -> ->. rewrite E1 in E1'. rewrite E2 in E2'. now apply xy_sum.
  - apply rep_cached in HP as (X&Y&Z&T&->&B1&B2&B3&B4&N&E1&E2&E3). apply rep_cached in HQ as (X'&Y'&Z'&T'&E&_&_&_&_&_&E1'&E2'&E3').
    injection E as -> -> -> ->. rewrite E1 in E1'. rewrite E2 in E2'. apply cancel in E1', E2'; try exact N. now apply xy_sum.
Qed.
Lemma encode_roundtrip g P : rep g P -> g_cs g = P2 \/ g_cs g = P3 \/ g_cs g = P1xP1 ->
  exists b h, g_encode g = Ok b /\ length b = 32%nat /\ wf_bytes b /\
    le_val b = val (py P) + (if Z.odd (val (px P)) then 2 ^ 255 else 0) /\
    g_decode b = Ok h /\ g_cs h = P3 /\ rep h P.
Proof.
  intros H C. destruct (g_decode_enc P) as (h & D & R). exists (enc_point P), h.
  split; [apply g_encode_ok; [exact H|destruct C as [-> | [-> | ->]]; reflexivity]|].
  split; [apply enc_point_length|]. split; [apply enc_point_wf|]. split; [apply enc_point_val|].
  split; [exact D|exact R].
Qed.
Lemma encode_same g h P Q b : rep g P -> rep h Q -> g_cs g = P2 \/ g_cs g = P3 \/ g_cs g = P1xP1 ->
  g_cs h = P2 \/ g_cs h = P3 \/ g_cs h = P1xP1 -> g_encode g = Ok b -> (g_encode h = Ok b <-> P = Q).
Proof.
  intros HP HQ Cg Ch. rewrite (g_encode_ok g P HP) by (destruct Cg as [-> | [-> | ->]]; reflexivity).
  rewrite (g_encode_ok h Q HQ) by (destruct Ch as [-> | [-> | ->]]; reflexivity).
  intros E. injection E as <-. split.
  - intros E. assert (E' : enc_point Q = enc_point P) by congruence. symmetry. exact (enc_point_inj _ _ E').
  - intros ->. reflexivity.
Qed.
Lemma encode_other g : g_cs g = AFFINE \/ g_cs g = PRECOMPUTED \/ g_cs g = CACHED -> g_encode g = Panic.
Proof. intros C. apply g_encode_panic. destruct C as [-> | [-> | ->]]; reflexivity. Qed.

(** canonical encodings *)
Definition canonical_point (raw : bytes) : Prop :=
  le_val raw mod 2 ^ 255 < p25519 /\ (2 ^ 255 <= le_val raw -> y255 raw <> F1 /\ y255 raw <> (- F1)%F).
Lemma x0_iff P : px P = F0 <-> py P = F1 \/ py P = (- F1)%F.
Proof.
  pose proof (proj1 (curve_uv _ _) (pon P)) as C. split.
  - intros H. rewrite H in C. apply F_sq_eq. transitivity (py P * py P - 1 + 1)%F; [ring|]. rewrite <- C. ring.
  - intros H. assert (E : (py P * py P = 1)%F) by (destruct H as [-> | ->]; ring).
    rewrite E in C. assert (Z : ((1 * Fd + 1) * (px P * px P) = F0)%F) by (rewrite C; ring).
    apply F_integral in Z as [Z|Z].
    + exfalso. apply (den_v F1). rewrite <- Z. ring.
    + apply F_integral in Z. tauto.
Qed.
Lemma decode_exact raw : wf_bytes raw -> length raw = 32%nat ->
  ((exists P, py P = y255 raw) -> exists g P, g_decode raw = Ok g /\ repc P3 g P /\ py P = y255 raw /\
      (px P <> F0 -> Z.odd (val (px P)) = sign255 raw) /\
      (g_encode g = Ok raw <-> canonical_point raw)) /\
  ((forall P, py P <> y255 raw) -> g_decode raw = Err ErrNotOnCurve).
Proof.
  intros W L. destruct (g_decode_ok raw W (or_introl L)) as [(P & g & D & E & R)|[N E]].
  - split; [intros _|intros H; destruct (H P); apply D].
    destruct D as [Y S]. exists g, P. split; [exact E|]. split; [exact R|]. split; [exact Y|].
    split; [intros N; destruct S as [S|S]; [exact S|contradiction]|].
    rewrite (g_encode_P3 g P R). 
    assert (Q : Ok (enc_point P) = Ok raw <-> enc_point P = raw) by (split; congruence). rewrite Q. clear Q.
    assert (V : enc_point P = raw <-> le_val (enc_point P) = le_val raw).
    { split; [congruence|]. intros H. apply le_val_inj; [apply enc_point_wf|exact W|rewrite enc_point_length; congruence|exact H]. }
    rewrite V, enc_point_val. unfold canonical_point.
    pose proof (le_val_bound raw W) as B. rewrite L in B. change (256 ^ Z.of_nat 32) with (2 * 2 ^ 255) in B.
    unfold sign255, y255 in *. rewrite firstn_all2 in * by lia.
    pose proof (val_range (py P)) as RY. rewrite Y in RY |- *. rewrite val_inF in *.
    set (v := le_val raw) in *. clearbody v.
    assert (DM : v = v mod 2 ^ 255 + (if 2 ^ 255 <=? v then 2 ^ 255 else 0)).
    { destruct (Z.leb_spec (2 ^ 255) v).
      - replace v with (v - 2 ^ 255 + 1 * 2 ^ 255) at 2 by lia. rewrite Z_mod_plus_full, Z.mod_small by lia. lia.
      - rewrite Z.mod_small by lia. lia. }
    pose proof (Z.mod_pos_bound v (2 ^ 255) ltac:(reflexivity)) as MB.
    set (m := v mod 2 ^ 255) in *. clearbody m.
    pose proof (x0_iff P) as X0. rewrite Y in X0.
    assert (Pp : p25519 < 2 ^ 255) by reflexivity. assert (Pq : 2 ^ 255 < p25519 + 20) by reflexivity.
    assert (P0 : 0 < p25519) by reflexivity.
    split.
    + intros H. split.
      * destruct (Fneg (px P)), (2 ^ 255 <=? v); lia.
      * intros Hs. apply Z.leb_le in Hs. rewrite Hs in DM.
        assert (F : Fneg (px P) = true).
        { destruct (Fneg (px P)); [reflexivity|exfalso]. lia. }
        assert (NZ : px P <> F0) by (intros Z; rewrite Z in F; discriminate F).
        split; intros K; apply NZ, X0; [left|right]; exact K.
    + intros [H1 H2]. rewrite (Z.mod_small m) by lia.
      destruct (Z.leb_spec (2 ^ 255) v) as [C|C].
      * destruct (H2 C) as [K1 K2]. destruct S as [S|S]; [rewrite S; lia|].
        exfalso. apply X0 in S as [S|S]; contradiction.
      * destruct S as [S|S]; [rewrite S; lia|]. rewrite S. change (Fneg F0) with false. replace (2 ^ 255 <=? v) with false in DM by (symmetry; apply Z.leb_gt; exact C). cbv iota. lia.
  - split; [|intros _; exact E]. intros [P HP]. exfalso.
    destruct (F_eq_dec (px P) F0) as [Z|NZ].
    { apply (N P). split; [exact HP|right; exact Z]. }
    destruct (Bool.bool_dec (Fneg (px P)) (sign255 raw)) as [S|S].
    { apply (N P). split; [exact HP|left; exact S]. }
    apply (N (pneg P)). split; [exact HP|left]. change (px (pneg P)) with (- px P)%F.
    rewrite Fneg_opp by exact NZ. destruct (Fneg (px P)), (sign255 raw); try reflexivity; destruct S; reflexivity.
Qed.
Lemma decode_64 raw : wf_bytes raw -> length raw = 64%nat -> g_decode raw = g_decode (firstn 32 raw).
Proof.
  intros W L.
  assert (B : forall i, (i < 32)%nat -> byte_at (firstn 32 raw) i = byte_at raw i).
  { intros i Hi. unfold byte_at. rewrite <- (firstn_skipn 32 raw) at 2. rewrite app_nth1; [reflexivity|].
    rewrite firstn_length_le; lia. }
  assert (D : fe_decode32 (firstn 32 raw) = fe_decode32 raw).
  { unfold fe_decode32. do 2 f_equal. unfold decode_limbs, load3, load4. cbn [Nat.add].
    rewrite !B by lia. reflexivity. }
  assert (Y : affine_y (firstn 32 raw) = affine_y raw).
  { unfold affine_y, new_efe, fe_decode. rewrite firstn_length_le by lia. rewrite L. cbn [Nat.eqb orb bind].
    rewrite firstn_length_le by lia. rewrite L. cbn [Nat.ltb Nat.leb]. now rewrite D. }
  assert (S : bit255 (firstn 32 raw) = bit255 raw) by (unfold bit255; now rewrite B by lia).
  unfold g_decode, affine_x. rewrite Y, S. reflexivity.
Qed.
Lemma noncanonical_accepted : exists raw g, wf_bytes raw /\ length raw = 32%nat /\ g_decode raw = Ok g /\ ~ canonical_point raw.
Proof.
  exists (le_bytes 32 (1 + 2 ^ 255)).
  assert (V : le_val (le_bytes 32 (1 + 2 ^ 255)) = 1 + 2 ^ 255) by (rewrite le_bytes_val; reflexivity).
  assert (Y : y255 (le_bytes 32 (1 + 2 ^ 255)) = F1).
  { unfold y255. rewrite firstn_all2 by (rewrite le_bytes_length; lia). rewrite V. apply F_eq. reflexivity. }
  destruct (decode_exact (le_bytes 32 (1 + 2 ^ 255)) (le_bytes_wf _ _) (le_bytes_length _ _)) as [H _].
  destruct H as (g & P & E & _).
  { exists pzero. rewrite Y. reflexivity. }
  exists g. split; [apply le_bytes_wf|]. split; [apply le_bytes_length|]. split; [exact E|].
  intros [_ K]. rewrite V in K. destruct K as [K _]; [lia|]. apply K, Y.
Qed.

Lemma equals_same r g P Q : rep r P -> rep g Q ->
  (g_cs r, g_cs g) = (P2, P2) \/ (g_cs r, g_cs g) = (P2, P3) \/ (g_cs r, g_cs g) = (P2, P1xP1) \/
  (g_cs r, g_cs g) = (P3, P3) \/ (g_cs r, g_cs g) = (P3, P1xP1) \/ (g_cs r, g_cs g) = (P1xP1, P1xP1) \/
  (g_cs r, g_cs g) = (CACHED, CACHED) \/ (g_cs r, g_cs g) = (CACHED, P3) \/
  (g_cs r, g_cs g) = (PRECOMPUTED, PRECOMPUTED) ->
  (P = Q -> g_equals r g = Ok true) /\ (P <> Q -> g_equals r g = Ok false).
Proof.
  intros HP HQ C. rewrite (g_equals_ok r g P Q HP HQ).
  - unfold peqb. destruct (point_eq_dec P Q); split; intros; congruence.
  - destruct (g_cs r), (g_cs g); try reflexivity;
      repeat (destruct C as [C|C]; [discriminate C|]); discriminate C.
Qed.
Lemma equals_asymmetric : ~ (forall r g P, rep r P -> rep g P -> g_cs r = P3 -> g_cs g = P2 -> g_equals r g = Ok true) /\
  exists r g P, rep r P /\ rep g P /\ g_equals r g = Ok false /\ g_equals g r = Ok true.
Proof.
  assert (E1 : g_equals zero_P3 zero_P2 = Ok false) by (apply (g_equals_other zero_P3 zero_P2); reflexivity).
  split.
  - intros H. specialize (H zero_P3 zero_P2 pzero (proj2 zero_P3_rep) (proj2 zero_P2_rep) eq_refl eq_refl).
    rewrite E1 in H. discriminate H.
  - exists zero_P3, zero_P2, pzero. split; [apply zero_P3_rep|]. split; [apply zero_P2_rep|]. split; [exact E1|].
    rewrite (g_equals_ok _ _ pzero pzero); [|apply zero_P2_rep|apply zero_P3_rep|reflexivity].
    unfold peqb. destruct (point_eq_dec _ _); congruence.
Qed.
Lemma equals_false_else r g : convertible (g_cs g) (g_cs r) = false -> g_cs r <> AFFINE -> g_equals r g = Ok false.
Proof.
  intros C NA. rewrite (g_equals_other r g).
  - destruct (g_cs r); try reflexivity. contradiction.
  - destruct (g_cs r), (g_cs g); try reflexivity; discriminate C.
Qed.

Lemma scalar_mult_precomputed c P a : repc P3 c P -> wf_bytes a -> length a = 32%nat -> le_val a < 2 ^ 255 ->
  exists g r, g_precompute_single (new_ge c) = Ok g /\ g_scalarMultiply g a = Ok r /\ repc P3 r (zmul (le_val a) P).
Proof.
  intros H W L V. destruct (g_precompute_single_ok c None P H) as (rows & E & T).
  destruct (g_scalarMultiply_ok (Ge c (Some rows) None) rows P a eq_refl T W) as (r & R1 & R2); [lia|rewrite firstn_all2 by lia; exact V|].
  rewrite firstn_all2 in R2 by lia. eauto.
Qed.
Lemma scalar_mult_base a : wf_bytes a -> length a = 32%nat -> le_val a < 2 ^ 255 ->
  exists g r, get_base_point = Ok g /\ g_scalarMultiply g a = Ok r /\ repc P3 r (zmul (le_val a) Bpt).
Proof.
  intros W L V. destruct get_base_point_ok as (c & E & _).
  destruct (g_scalarMultiply_ok (Ge c (Some base_single) (Some base_double)) base_single Bpt a eq_refl base_single_ok W) as (r & R1 & R2); [lia|rewrite firstn_all2 by lia; exact V|].
  rewrite firstn_all2 in R2 by lia. eauto.
Qed.
Lemma scalar_mult_large : ~ (forall a g, wf_bytes a -> length a = 32%nat -> get_base_point = Ok g ->
  exists r, g_scalarMultiply g a = Ok r /\ repc P3 r (zmul (le_val a) Bpt)).
Proof.
  intros H. destruct get_base_point_ok as (c & E & _).
  assert (W : wf_bytes (repeat 255 32)) by (apply Forall_forall; intros y Hy; apply repeat_spec in Hy; subst; unfold is_byte; lia).
  destruct (H (repeat 255 32) _ W eq_refl E) as (r & R1 & R2).
  destruct (to_radix16_ok (repeat 255 32) W) as (e & Ee & _); [cbn; lia|].
  destruct (g_scalarMultiply_gen (Ge c (Some base_single) (Some base_double)) base_single Bpt _ _ eq_refl base_single_ok W ltac:(cbn; lia) Ee) as (r' & R1' & R2').
  rewrite R1 in R1'. injection R1' as <-.
  assert (N : g_cs r <> AFFINE) by (rewrite (proj1 R2); discriminate).
  pose proof (rep_unique r _ _ N (proj2 R2) (proj2 R2')) as K. apply zmul_B_inj in K.
  vm_compute in Ee. injection Ee as <-. vm_compute in K. discriminate K.
Qed.
Lemma no_table g a : single g = None -> g_scalarMultiply g a = Panic.
Proof.
  intros H. unfold g_scalarMultiply. destruct (to_radix16 a) as [e|e|] eqn:E.
  - cbn [bind seq map sm_loop]. unfold sm_step at 1, g_select at 1. rewrite H. reflexivity.
  - unfold to_radix16 in E. destruct (Nat.ltb _ _); discriminate E.
  - reflexivity.
Qed.
Lemma no_table_refuted : ~ (forall c P a, repc P3 c P -> wf_bytes a -> length a = 32%nat -> le_val a < 2 ^ 255 ->
   exists r, g_scalarMultiply (new_ge c) a = Ok r /\ repc P3 r (zmul (le_val a) P)).
Proof.
  intros H. destruct (H zero_P3 pzero (all_zero 32) zero_P3_rep) as (r & R & _).
  - apply Forall_forall; intros y Hy; apply repeat_spec in Hy; subst; unfold is_byte; lia.
  - reflexivity.
  - vm_compute. reflexivity.
  - rewrite no_table in R by reflexivity. discriminate R.
Qed.
Lemma double_mult_base c P a b : repc P3 c P -> wf_bytes a -> length a = 32%nat -> wf_bytes b -> length b = 32%nat ->
  le_val a <= 2 ^ 255 -> le_val b <= 2 ^ 255 ->
  exists B A r, get_base_point = Ok B /\ g_precompute_double (new_ge c) = Ok A /\
    g_doubleScalarMultiply B A a b = Ok r /\ repc P2 r (psub (zmul (le_val b) Bpt) (zmul (le_val a) P)).
Proof.
  intros H Wa La Wb Lb Va Vb. destruct get_base_point_ok as (cb & E & _).
  destruct (g_precompute_double_ok c None P H (or_introl eq_refl)) as (l & EA & T).
  destruct (g_doubleScalarMultiply_ok (Ge cb (Some base_single) (Some base_double)) (Ge c None (Some l))
    base_double l Bpt P a b eq_refl eq_refl base_double_ok T Wa) as (r & R1 & R2); try assumption; try lia;
    try (rewrite firstn_all2 by lia; assumption).
  rewrite !firstn_all2 in R2 by lia.
  exists (Ge cb (Some base_single) (Some base_double)), (Ge c None (Some l)), r.
  split; [exact E|]. split; [exact EA|]. split; [exact R1|exact R2].
Qed.
Lemma double_mult_gen B A lB lA PB PA a b : double B = Some lB -> double A = Some lA ->
  double_table lB PB -> double_table lA PA ->
  wf_bytes a -> length a = 32%nat -> wf_bytes b -> length b = 32%nat ->
  exists r va vb, g_doubleScalarMultiply B A a b = Ok r /\
  va mod 2 ^ 256 = le_val a /\ vb mod 2 ^ 256 = le_val b /\
  (le_val a <= 2 ^ 255 -> va = le_val a) /\ (le_val b <= 2 ^ 255 -> vb = le_val b) /\
  repc P2 r (psub (zmul vb PB) (zmul va PA)).
Proof.
  intros EB EA TB TA Wa La Wb Lb.
  destruct (g_dsm_gen B A lB lA PB PA a b EB EA TB TA Wa ltac:(lia) Wb ltac:(lia)) as (r & va & vb & E & D1 & D2 & Ha & Hb & R).
  rewrite firstn_all2 in * by lia. pose proof (le_val_bound a Wa) as Ba. pose proof (le_val_bound b Wb) as Bb.
  rewrite La in Ba. rewrite Lb in Bb. change (256 ^ Z.of_nat 32) with (2 ^ 256) in *.
  exists r, va, vb. split; [exact E|]. apply mod_eq_div in D1; [|discriminate]. apply mod_eq_div in D2; [|discriminate].
  split; [rewrite D1; apply Z.mod_small, Ba|]. split; [rewrite D2; apply Z.mod_small, Bb|]. auto.
Qed.
Lemma satisfies_iff g : g_cs g = P2 \/ g_cs g = P3 -> bnd 330 (gX g) -> bnd 330 (gY g) -> bnd 330 (gZ g) ->
  exists b, g_satisfies g = Ok b /\ (b = true <->
    let X := rF (gX g) in let Y := rF (gY g) in let Z := rF (gZ g) in
    Z <> F0 /\ ((Y / Z) * (Y / Z) - (X / Z) * (X / Z) = 1 + Fd * ((X / Z) * (X / Z)) * ((Y / Z) * (Y / Z)))%F).
Proof.
  intros C B1 B2 B3. exists (g_on_curve_proj g). split; [unfold g_satisfies; destruct C as [-> | ->]; reflexivity|].
  assert (B : bnd3 330 g) by (split; [|split]; assumption).
  rewrite (satisfies_proj g B). cbv zeta. set (X := rF (gX g)). set (Y := rF (gY g)). set (Z := rF (gZ g)).
  clearbody X Y Z. split; intros [N H]; (split; [exact N|]).
  - apply (F_mul_cancel _ _ (Z * Z * (Z * Z))%F); [repeat apply F_mul_nz; exact N|].
    transitivity ((Y * Y - X * X) * (Z * Z))%F; [field; exact N|]. rewrite H. field. exact N.
  - transitivity ((Y / Z * (Y / Z) - X / Z * (X / Z)) * (Z * Z) * (Z * Z))%F; [field; exact N|]. rewrite H. field. exact N.
Qed.
Lemma satisfies_rep g P : rep g P -> g_cs g = P2 \/ g_cs g = P3 \/ g_cs g = P1xP1 -> g_satisfies g = Ok true.
Proof. intros H C. apply (g_satisfies_rep g P H). destruct C as [-> | [-> | ->]]; reflexivity. Qed.
Lemma satisfies_false_example : exists g, g_cs g = P3 /\ bnd 330 (gX g) /\ bnd 330 (gY g) /\ bnd 330 (gZ g) /\ g_satisfies g = Ok false.
Proof.
  exists (newP3 fe_one fe_one fe_zero fe_one). cbn [g_cs newP3 gX gY gZ].
  split; [reflexivity|]. split; [bd|]. split; [bd|]. split; [bd|].
  destruct (satisfies_iff (newP3 fe_one fe_one fe_zero fe_one)) as (b & -> & H); [right; reflexivity|cbn [newP3 gX gY gZ]; bd..|].
  f_equal. apply not_true_iff_false. rewrite H. cbv zeta. cbn [newP3 gX gY gZ]. rewrite rF_zero. tauto.
Qed.
Lemma satisfies_other g : g_cs g = AFFINE \/ g_cs g = PRECOMPUTED \/ g_cs g = CACHED -> g_satisfies g = Panic.
Proof. intros C. apply g_satisfies_panic. destruct C as [-> | [-> | ->]]; reflexivity. Qed.

Lemma padd_coords P Q :
  let x1 := px P in let y1 := py P in let x2 := px Q in let y2 := py Q in
  let k := (Fd * (x1 * x2) * (y1 * y2))%F in
  (1 + k <> 0)%F /\ (1 - k <> 0)%F /\
  px (padd P Q) = ((x1 * y2 + x2 * y1) / (1 + k))%F /\
  py (padd P Q) = ((y1 * y2 + x1 * x2) / (1 - k))%F.
Proof.
  cbv zeta. destruct P as [x1 y1 C1], Q as [x2 y2 C2]. cbn [padd px py].
  pose proof (complete_p _ _ _ _ C1 C2) as Np. pose proof (complete_m _ _ _ _ C1 C2) as Nm.
  replace (Fd * (x1 * x2) * (y1 * y2))%F with (Fd * x1 * x2 * y1 * y2)%F by ring.
  split; [exact Np|]. split; [exact Nm|]. split; reflexivity.
Qed.
Lemma B_not_zero : Bpt <> pzero /\ padd Bpt Bpt <> pzero.
Proof.
  split; [apply B_nz|]. rewrite <- zmul_2. intros H. apply order_B_iff in H. apply Z.divide_pos_le in H; [|lia].
  revert H. apply Z.lt_nge. reflexivity.
Qed.
Lemma noncanonical_refuted :
  ~ (forall raw g, wf_bytes raw -> length raw = 32%nat -> g_decode raw = Ok g -> g_encode g = Ok raw).
Proof.
  intros H. destruct noncanonical_accepted as (raw & g & W & L & D & N).
  pose proof (H raw g W L D) as E. apply N.
  destruct (decode_exact raw W L) as [K _].
  destruct (g_decode_ok raw W (or_introl L)) as [(P & g' & [Y _] & _ & _)|[_ E']]; [|rewrite D in E'; discriminate E'].
  destruct (K (ex_intro _ P Y)) as (g2 & P2' & D2 & _ & _ & _ & I). rewrite D in D2.
  assert (g2 = g) by congruence. subst g2. apply I, E.
Qed.
Lemma decode_examples : (exists P, py P = y255 base_bytes) /\ (forall P, py P <> y255 (le_bytes 32 2)).
Proof.
  split.
  - destruct (decode_exact base_bytes) as [_ K]; [rewrite base_bytes_enc; apply enc_point_wf|reflexivity|].
    exists Bpt. pose proof (enc_denotes Bpt) as [Y _]. rewrite <- base_bytes_enc in Y. exact Y.
  - intros P H. destruct (decode_exact (le_bytes 32 2) (le_bytes_wf _ _) (le_bytes_length _ _)) as [K _].
    destruct (K (ex_intro _ P H)) as (g & Q & D & _). vm_compute in D. discriminate D.
Qed.
Lemma equals_example : exists r g, rep r Bpt /\ rep g Bpt /\ g_cs r = P2 /\ g_cs g = P1xP1 /\ Bpt <> pzero.
Proof.
  destruct (every_point Bpt) as ((r & C1 & R1) & _ & (g & C2 & R2) & _). exists r, g.
  repeat (split; [assumption|]). apply B_nz.
Qed.
Lemma convertible_pairs a b : convertible a b = true <->
  In (a, b) [(P2, P2); (P3, P2); (P3, P3); (P3, CACHED); (P1xP1, P2); (P1xP1, P3); (P1xP1, P1xP1);
             (PRECOMPUTED, PRECOMPUTED); (CACHED, CACHED)].
Proof.
  split.
  - destruct a, b; intros H; try discriminate H; cbn; tauto.
  - intros H. cbn in H. repeat (destruct H as [H|H]; [injection H as <- <-; reflexivity|]). destruct H.
Qed.
Lemma convert_example P : exists g, repc P1xP1 g P /\ convertible (g_cs g) P3 = true.
Proof.
  destruct (every_point P) as (_ & _ & (g & C & R) & _). exists g. split; [split; assumption|]. rewrite C. reflexivity.
Qed.
Lemma scalar_mult_example : exists c a, repc P3 c Bpt /\ wf_bytes a /\ length a = 32%nat /\
  q25519 < le_val a < 2 ^ 255 /\ zmul (le_val a) Bpt <> pzero.
Proof.
  destruct base_P3 as (c & _ & R). exists c, (le_bytes 32 (2 ^ 255 - 1)).
  split; [exact R|]. split; [apply le_bytes_wf|]. split; [apply le_bytes_length|].
  rewrite le_bytes_val. change ((2 ^ 255 - 1) mod 256 ^ Z.of_nat 32) with (2 ^ 255 - 1).
  split; [split; reflexivity|].
  intros H. apply order_B_iff in H. apply Zdivide_mod in H. vm_compute in H. discriminate H.
Qed.
Lemma constants_ok : (inF 121666 * rF go_d = - inF 121665)%F /\ rF go_d2 = (inF 2 * rF go_d)%F /\
  (rF fe_I * rF fe_I = - F1)%F /\ rF go_d = Fd.
Proof.
  rewrite rF_d, rF_d2, rF_I. split; [rewrite <- Fd_eq; ring|]. split; [reflexivity|].
  split; [apply Fi_sq|reflexivity].
Qed.

Lemma no_table_example : forall P, exists c, repc P3 c P /\ single (new_ge c) = None.
Proof. intros P. destruct (every_point P) as (_ & [g R] & _). exists g. split; [exact R|reflexivity]. Qed.
