(** Lemmas for C62 - C65. *)
From Coq Require Import List ZArith Lia Bool String Ring Field.
From Verif Require Import GoBase FieldModel FieldSpec FieldProofs ByteLemmas EncodeProofs GroupModel Fp Curve
  GroupSpec FieldPow GroupProofs PointCodec ScalarMul BasePoint PropFieldLemmas PropGroupLemmas ApiModel
  CodecSpec PropCodecLemmas TextModel TextSpec.
Import ListNotations.
Open Scope Z_scope.

Lemma Ok_inj {A} (a b : A) : Ok a = Ok b -> a = b.
Proof. intros E. now injection E. Qed.

(** ** text *)
Lemma hex_inj a b : wf_bytes a -> wf_bytes b -> hex_encode a = hex_encode b -> a = b.
Proof.
  intros A B E. pose proof (hex_roundtrip a A) as Ha. rewrite E, (hex_roundtrip b B) in Ha.
  now injection Ha.
Qed.
Lemma fe_encode_wf f : bnd 1000 f -> wf_bytes (fe_encode f) /\ List.length (fe_encode f) = 32%nat.
Proof. intros B. rewrite (encode_canonical f B). split; [apply le_bytes_wf|apply le_bytes_length]. Qed.
Lemma field_text f : bnd 1000 f -> fe_string f = hex32 (feval f mod p25519) /\ List.length (fe_string f) = 64%nat.
Proof.
  intros B. unfold fe_string, efe_string, fe_Encode, e_raw.
  split; [rewrite (encode_canonical f B); apply hex_lower; apply le_bytes_wf|].
  rewrite hex_encode_length, (proj2 (fe_encode_wf f B)). reflexivity.
Qed.
Lemma field_text_same f g : bnd 1000 f -> bnd 1000 g -> (fe_string f = fe_string g <-> eqp (feval f) (feval g)).
Proof.
  intros A B. rewrite <- (equals_ok f g A B).
  unfold fe_string, efe_string, fe_Encode, e_raw, fe_equals, ct_equal. rewrite beq_bytes_eq. split.
  - intros E. apply hex_inj; [apply (fe_encode_wf f A)|apply (fe_encode_wf g B)|exact E].
  - now intros ->.
Qed.
Lemma hex32_inj u v : 0 <= u < 2 ^ 256 -> 0 <= v < 2 ^ 256 -> hex32 u = hex32 v -> u = v.
Proof.
  intros A B E. unfold hex32 in E. rewrite <- !hex_lower in E by apply le_bytes_wf. apply hex_inj in E; [|apply le_bytes_wf..].
  assert (V : le_val (le_bytes 32 u) = le_val (le_bytes 32 v)) by now rewrite E.
  rewrite !le_bytes_val in V. rewrite !Z.mod_small in V by exact A || exact B. exact V.
Qed.
Lemma hex32_length v : List.length (hex32 v) = 64%nat.
Proof. unfold hex32. rewrite <- hex_lower by apply le_bytes_wf. rewrite hex_encode_length, le_bytes_length. reflexivity. Qed.
Lemma val_256 a : 0 <= val a < 2 ^ 256.
Proof. pose proof (val_range a) as R. assert (p25519 < 2 ^ 256) by reflexivity. lia. Qed.
Lemma app_inv_len {A} (a b c d : list A) : List.length a = List.length b -> a ++ c = b ++ d -> a = b /\ c = d.
Proof.
  revert b. induction a as [|x a IH]; intros [|y b] L E; try discriminate L; cbn in *; [auto|].
  injection E as -> E. destruct (IH b ltac:(lia) E) as [-> ->]. auto.
Qed.
Lemma point_text_inj P Q : point_text P = point_text Q -> P = Q.
Proof.
  unfold point_text. intros E.
  apply app_inv_head in E.
  apply app_inv_len in E; [|now rewrite !hex32_length]. destruct E as [E1 E].
  apply app_inv_head in E. apply app_inv_head in E.
  apply app_inv_len in E; [|now rewrite !hex32_length]. destruct E as [E2 _].
  apply hex32_inj in E1, E2; try apply val_256.
  apply point_eq; apply F_eq; assumption.
Qed.
Lemma fe_string_F f : bnd 1000 f -> fe_string f = hex32 (val (rF f)).
Proof. intros B. rewrite (proj1 (field_text f B)). reflexivity. Qed.

Lemma affine_ok raw P : wf_bytes raw -> List.length raw = 32%nat \/ List.length raw = 64%nat -> denotes raw P ->
  exists x y, affine_x raw = Ok x /\ affine_y raw = Ok y /\ rF x = px P /\ rF y = py P /\ bnd 110 x /\ bnd 110 y.
Proof.
  intros W L D. destruct (g_decode_ok raw W L) as [(Q & g & D' & E & R)|[N _]]; [|destruct (N P D)].
  assert (Q = P) as -> by exact (denotes_unique _ _ _ D' D).
  destruct (affine_y_ok raw W L) as (y & Ey & _ & _).
  revert E. unfold g_decode. rewrite Ey. destruct (affine_x raw) as [x|e|] eqn:Ex; cbn [bind]; [|easy|easy].
  intros E. injection E as <-. exists x, y.
  destruct R as [_ [(B1 & B2 & _) (_ & X & Y & _)]]. cbn [gX gY gZ newP3 g_cs cs_bound] in *.
  rewrite rF_one in X, Y. split; [reflexivity|]. split; [reflexivity || exact Ey|].
  split; [rewrite X; ring|]. split; [rewrite Y; ring|]. split; assumption.
Qed.
Lemma affine_bad raw : wf_bytes raw -> List.length raw = 32%nat \/ List.length raw = 64%nat ->
  (forall P, ~ denotes raw P) -> affine_x raw = Err ErrNotOnCurve.
Proof.
  intros W L N. destruct (g_decode_ok raw W L) as [(Q & g & D' & E & R)|[_ E]]; [destruct (N Q D')|].
  destruct (affine_y_ok raw W L) as (y & Ey & _ & _).
  revert E. unfold g_decode. rewrite Ey. destruct (affine_x raw) as [x|e|] eqn:Ex; cbn [bind]; [easy| |easy].
  intros E. injection E as ->. reflexivity.
Qed.
Lemma group_text raw : wf_bytes raw -> List.length raw = 32%nat \/ List.length raw = 64%nat ->
  (forall P, denotes raw P -> ege_string raw = Ok (point_text P)) /\
  ((forall P, ~ denotes raw P) -> ege_string raw = Ok (lit "not a valid Ed25519EncodedGroupElement.")).
Proof.
  intros W L. split.
  - intros P D. destruct (affine_ok raw P W L D) as (x & y & Ex & Ey & X & Y & Bx & By).
    unfold ege_string. rewrite Ex, Ey. rewrite !fe_string_F by (eapply bnd_mono; [eassumption|lia]).
    rewrite X, Y. reflexivity.
  - intros N. unfold ege_string. rewrite (affine_bad raw W L N). reflexivity.
Qed.

Lemma group_text_length raw : List.length raw <> 32%nat -> List.length raw <> 64%nat ->
  ege_string raw = Ok (lit "Invalid 2^8 bit representation.").
Proof.
  intros A B. unfold ege_string, affine_x, affine_y, new_efe.
  rewrite (proj2 (Nat.eqb_neq _ _) A), (proj2 (Nat.eqb_neq _ _) B). reflexivity.
Qed.
Lemma group_text_same a b P Q : wf_bytes a -> wf_bytes b -> List.length a = 32%nat -> List.length b = 32%nat ->
  denotes a P -> denotes b Q -> (ege_string a = ege_string b <-> P = Q).
Proof.
  intros Wa Wb La Lb Da Db.
  rewrite (proj1 (group_text a Wa (or_introl La)) P Da), (proj1 (group_text b Wb (or_introl Lb)) Q Db). split.
  - intros E. apply Ok_inj in E. now apply point_text_inj.
  - now intros ->.
Qed.
Lemma group_text_not_equal : exists a b, wf_bytes a /\ wf_bytes b /\ List.length a = 32%nat /\ List.length b = 32%nat /\
  ege_string a = ege_string b /\ ege_string a = Ok (point_text pzero) /\ ege_equals a b = false.
Proof.
  exists (le_bytes 32 1), (le_bytes 32 (1 + 2 ^ 255)).
  assert (D1 : denotes (le_bytes 32 1) pzero).
  { split; [|right; reflexivity]. unfold y255. rewrite firstn_all2 by (rewrite le_bytes_length; lia).
    rewrite le_bytes_val. apply F_eq. reflexivity. }
  assert (D2 : denotes (le_bytes 32 (1 + 2 ^ 255)) pzero).
  { split; [|right; reflexivity]. unfold y255. rewrite firstn_all2 by (rewrite le_bytes_length; lia).
    rewrite le_bytes_val. apply F_eq. reflexivity. }
  assert (T1 := proj1 (group_text _ (le_bytes_wf 32 1) (or_introl (le_bytes_length 32 1))) _ D1).
  assert (T2 := proj1 (group_text _ (le_bytes_wf 32 (1 + 2 ^ 255)) (or_introl (le_bytes_length 32 _))) _ D2).
  split; [apply le_bytes_wf|]. split; [apply le_bytes_wf|]. split; [apply le_bytes_length|]. split; [apply le_bytes_length|].
  split; [rewrite T1, T2; reflexivity|]. split; [exact T1|]. vm_compute. reflexivity.
Qed.

(** ** encoded field elements *)
Lemma efe_new_inv raw x : efe_new raw = Ok x -> e_raw x = raw /\ e_zero x = all_zero (List.length raw) /\
  (List.length raw = 32%nat \/ List.length raw = 64%nat).
Proof.
  unfold efe_new. destruct (Nat.eqb_spec (List.length raw) 32) as [L|_];
    [|destruct (Nat.eqb_spec (List.length raw) 64) as [L|_]]; intros E; try discriminate E; injection E as <-;
    cbn [e_raw e_zero]; rewrite L; auto.
Qed.
Lemma efe_new_exact raw : (List.length raw = 32%nat \/ List.length raw = 64%nat -> exists x, efe_new raw = Ok x) /\
  (List.length raw <> 32%nat -> List.length raw <> 64%nat -> efe_new raw = Err ErrEncodedField).
Proof.
  unfold efe_new. split.
  - intros [L|L]; rewrite L; eexists; reflexivity.
  - intros A B. now rewrite (proj2 (Nat.eqb_neq _ _) A), (proj2 (Nat.eqb_neq _ _) B).
Qed.
Lemma efe_compare a b x y : wf_bytes a -> wf_bytes b -> efe_new a = Ok x -> efe_new b = Ok y ->
  (efe_equals x y = true <-> a = b) /\ (efe_string x = efe_string y <-> a = b).
Proof.
  intros Wa Wb Ea Eb. destruct (efe_new_inv a x Ea) as (Ra & _). destruct (efe_new_inv b y Eb) as (Rb & _).
  unfold efe_equals, efe_string, ct_equal. rewrite Ra, Rb. split; [apply beq_bytes_eq|]. split.
  - now apply hex_inj.
  - now intros ->.
Qed.
Lemma le_val_zero_iff l : wf_bytes l -> (le_val l = 0 <-> l = all_zero (List.length l)).
Proof.
  induction l as [|x l IH]; intros W; cbn [le_val List.length all_zero repeat]; [tauto|].
  inversion W as [|x' l' Hx Hl]; subst. unfold is_byte in Hx.
  pose proof (le_val_bound l Hl) as Bl. specialize (IH Hl). unfold all_zero in IH. split.
  - intros E. assert (x = 0) by lia. subst x. f_equal. apply IH. lia.
  - intros E. injection E as -> E. apply IH in E. lia.
Qed.
Lemma efe_facts raw x : wf_bytes raw -> efe_new raw = Ok x ->
  (efe_nonzero x = true <-> le_val raw <> 0) /\ efe_negative x = Ok (Z.odd (le_val raw)).
Proof.
  intros W E. destruct (efe_new_inv raw x E) as (R & Z0 & L). split.
  - unfold efe_nonzero. rewrite R, Z0, negb_true_iff. rewrite (le_val_zero_iff raw W). unfold ct_equal.
    rewrite <- beq_bytes_eq. destruct (beq_bytes raw (all_zero (List.length raw))); intuition congruence.
  - unfold efe_negative. rewrite R. destruct raw as [|b r]; [cbn in L; lia|]. cbn [le_val].
    f_equal. rewrite Z.odd_add, Z.odd_mul. change (Z.odd 256) with false. cbn [andb]. rewrite xorb_false_r.
    change 1 with (Z.ones 1). rewrite Z.land_ones by lia. rewrite Z.pow_1_r, Zmod_odd. destruct (Z.odd b); reflexivity.
Qed.
Lemma nonzero_but_zero : exists raw x f, wf_bytes raw /\ efe_new raw = Ok x /\ efe_nonzero x = true /\
  efe_decode x = Ok f /\ eqp (feval f) 0.
Proof.
  destruct (efe_new_exact (le_bytes 32 p25519)) as [H _].
  destruct (H (or_introl (le_bytes_length _ _))) as (x & E).
  destruct (decode_ok (le_bytes 32 p25519) (le_bytes_wf _ _) (le_bytes_length _ _)) as (f & D & _ & V & _).
  exists (le_bytes 32 p25519), x, f. split; [apply le_bytes_wf|]. split; [exact E|].
  assert (W : le_val (le_bytes 32 p25519) = p25519) by (rewrite le_bytes_val; reflexivity).
  destruct (efe_facts _ x (le_bytes_wf _ _) E) as [N _]. destruct (efe_new_inv _ x E) as (R & _).
  split; [apply N; rewrite W; discriminate|]. split; [unfold efe_decode; rewrite R; exact D|].
  rewrite W in V. change (p25519 mod 2 ^ 255) with p25519 in V.
  unfold eqp in *. replace (feval f - 0) with ((feval f - p25519) + p25519) by ring.
  apply Z.divide_add_r; [exact V|apply Z.divide_refl].
Qed.

(** ** group elements *)
Lemma no_T_text g : gT g = None -> g_string g = Panic.
Proof. intros E. unfold g_string. rewrite E. reflexivity. Qed.
Lemma coords_text g T : bnd 1000 (gX g) -> bnd 1000 (gY g) -> bnd 1000 (gZ g) -> bnd 1000 T -> gT g = Some T ->
  g_string g = Ok (lit "X=" ++ hex32 (val (rF (gX g))) ++ [10] ++ lit "Y=" ++ hex32 (val (rF (gY g))) ++ [10] ++
    lit "Z=" ++ hex32 (val (rF (gZ g))) ++ [10] ++ lit "T=" ++ hex32 (val (rF T)) ++ [10]).
Proof.
  intros A B C D E. unfold g_string. rewrite E. cbn [deref bind]. rewrite !fe_string_F by assumption. reflexivity.
Qed.
Lemma P3_bounds g P : repc P3 g P -> bnd 1000 (gX g) /\ bnd 1000 (gY g) /\ bnd 1000 (gZ g) /\
  exists T, gT g = Some T /\ bnd 1000 T.
Proof.
  intros [C [(B1 & B2 & B3 & B4) R]]. rewrite C in *. cbn [cs_bound] in *.
  destruct R as (_ & _ & _ & T & ET & _). rewrite ET in B4.
  repeat match goal with |- _ /\ _ => split end; try (eapply bnd_mono; [eassumption|lia]).
  exists T. split; [exact ET|]. eapply bnd_mono; [eassumption|lia].
Qed.
Lemma text_point g h P Q s : repc P3 g P -> repc P3 h Q -> g_string g = Ok s -> g_string h = Ok s -> P = Q.
Proof.
  intros Rg Rh Eg Eh.
  destruct (P3_bounds g P Rg) as (A1 & A2 & A3 & T & ET & A4).
  destruct (P3_bounds h Q Rh) as (B1 & B2 & B3 & U & EU & B4).
  rewrite (coords_text g T A1 A2 A3 A4 ET) in Eg. rewrite (coords_text h U B1 B2 B3 B4 EU) in Eh.
  rewrite <- Eg in Eh. apply Ok_inj in Eh.
  apply app_inv_head in Eh. apply app_inv_len in Eh; [|now rewrite !hex32_length]. destruct Eh as [E1 Eh].
  apply app_inv_head in Eh. apply app_inv_head in Eh. apply app_inv_len in Eh; [|now rewrite !hex32_length]. destruct Eh as [E2 Eh].
  apply app_inv_head in Eh. apply app_inv_head in Eh. apply app_inv_len in Eh; [|now rewrite !hex32_length]. destruct Eh as [E3 _].
  apply hex32_inj in E1, E2, E3; try apply val_256. apply F_eq in E1, E2, E3.
  destruct Rg as [Cg [_ Rg]]. destruct Rh as [Ch [_ Rh]]. rewrite Cg in Rg. rewrite Ch in Rh.
  destruct Rg as (Nz & X & Y & _). destruct Rh as (_ & X' & Y' & _).
  rewrite E1, X, E3 in X'. rewrite E2, Y, E3 in Y'.
  apply point_eq; eapply F_mul_cancel; try exact Nz.
  - exact X'.
  - exact Y'.
Qed.
Lemma text_differs : exists g h s t, repc P3 g pzero /\ repc P3 h pzero /\ g_string g = Ok s /\ g_string h = Ok t /\ s <> t /\
  g_equals g h = Ok true.
Proof.
  set (g := newP3 fe_zero fe_one fe_one fe_zero).
  set (two := Fe 2 0 0 0 0 0 0 0 0 0).
  set (h := newP3 fe_zero two two fe_zero).
  assert (B0 : bnd 110 fe_zero) by (repeat split; cbn; lia).
  assert (B1 : bnd 110 fe_one) by (repeat split; cbn; lia).
  assert (B2 : bnd 110 two) by (repeat split; cbn; lia).
  assert (N2 : rF two <> F0) by (intros E; apply (f_equal val) in E; vm_compute in E; discriminate E).
  assert (Z0 : rF fe_zero = F0) by (apply F_eq; vm_compute; reflexivity).
  assert (Rg : repc P3 g pzero).
  { split; [reflexivity|]. split; [split; [exact B0|split; [exact B1|split; [exact B1|exact B0]]]|].
    cbn [g_cs g newP3 gX gY gZ gT]. rewrite rF_one, Z0. change (px pzero) with F0. change (py pzero) with F1.
    split; [exact F1_neq_F0|]. split; [ring|]. split; [ring|]. exists fe_zero. split; [reflexivity|]. rewrite Z0. ring. }
  assert (Rh : repc P3 h pzero).
  { split; [reflexivity|]. split; [split; [exact B0|split; [exact B2|split; [exact B2|exact B0]]]|].
    cbn [g_cs h newP3 gX gY gZ gT]. rewrite Z0. change (px pzero) with F0. change (py pzero) with F1.
    split; [exact N2|]. split; [ring|]. split; [ring|]. exists fe_zero. split; [reflexivity|]. rewrite Z0. ring. }
  destruct (P3_bounds g _ Rg) as (A1 & A2 & A3 & T & ET & A4).
  destruct (P3_bounds h _ Rh) as (C1 & C2 & C3 & U & EU & C4).
  exists g, h. eexists. eexists. split; [exact Rg|]. split; [exact Rh|].
  split; [exact (coords_text g T A1 A2 A3 A4 ET)|]. split; [exact (coords_text h U C1 C2 C3 C4 EU)|]. split.
  - intros Eh. apply app_inv_head in Eh. apply app_inv_len in Eh; [|now rewrite !hex32_length]. destruct Eh as [E1 Eh].
    apply app_inv_head in Eh. apply app_inv_head in Eh. apply app_inv_len in Eh; [|now rewrite !hex32_length]. destruct Eh as [E2 _].
    apply hex32_inj in E2; try apply val_256. vm_compute in E2. discriminate E2.
  - apply (equals_same g h pzero pzero (proj2 Rg) (proj2 Rh)); [|reflexivity].
    right; right; right; left. reflexivity.
Qed.

(** ** Select *)
Lemma byte_eq_exact b c : is_byte_eq_ct b c = if b mod 256 =? c mod 256 then 1 else 0.
Proof.
  unfold is_byte_eq_ct. cbn [fold_left seq Z.of_nat Pos.of_succ_nat Pos.succ]. cbv zeta.
  set (x := Z.lxor b c).
  match goal with |- Z.land (Z.lxor ?r 1) 1 = _ => set (R := r) end.
  assert (HR : Z.testbit R 0 = Z.testbit x 0 || Z.testbit x 1 || Z.testbit x 2 || Z.testbit x 3 ||
    Z.testbit x 4 || Z.testbit x 5 || Z.testbit x 6 || Z.testbit x 7).
  { unfold R. rewrite !Z.lor_spec, !Z.shiftr_spec by lia. rewrite Z.bits_0. reflexivity. }
  assert (HL : Z.land (Z.lxor R 1) 1 = if Z.testbit R 0 then 0 else 1).
  { change (Z.land (Z.lxor R 1) 1) with (Z.land (Z.lxor R 1) (Z.ones 1)). rewrite Z.land_ones by lia.
    rewrite Z.pow_1_r, Zmod_odd, <- Z.bit0_odd, Z.lxor_spec. change (Z.testbit 1 0) with true.
    destruct (Z.testbit R 0); reflexivity. }
  rewrite HL, HR. clearbody R. clear HL HR.
  assert (K : b mod 256 = c mod 256 <-> (forall i, 0 <= i < 8 -> Z.testbit x i = false)).
  { change 256 with (2 ^ 8). split.
    - intros E i Hi. unfold x. rewrite Z.lxor_spec.
      rewrite <- (Z.mod_pow2_bits_low b 8 i), <- (Z.mod_pow2_bits_low c 8 i) by lia. rewrite E. apply xorb_nilpotent.
    - intros H. apply Z.bits_inj'. intros i Hi. destruct (Z.lt_ge_cases i 8) as [L|G].
      + rewrite !Z.mod_pow2_bits_low by lia. specialize (H i ltac:(lia)). unfold x in H. rewrite Z.lxor_spec in H.
        now apply xorb_eq.
      + rewrite !Z.mod_pow2_bits_high by lia. reflexivity. }
  destruct (Z.eqb_spec (b mod 256) (c mod 256)) as [E|E].
  - rewrite K in E. rewrite !E by lia. reflexivity.
  - destruct (Z.testbit x 0) eqn:T0, (Z.testbit x 1) eqn:T1, (Z.testbit x 2) eqn:T2, (Z.testbit x 3) eqn:T3,
      (Z.testbit x 4) eqn:T4, (Z.testbit x 5) eqn:T5, (Z.testbit x 6) eqn:T6, (Z.testbit x 7) eqn:T7; try reflexivity.
    destruct E. apply K. intros i Hi. assert (i = 0 \/ i = 1 \/ i = 2 \/ i = 3 \/ i = 4 \/ i = 5 \/ i = 6 \/ i = 7) as D by lia.
    repeat (destruct D as [->|D]; [assumption|]). subst i. assumption.
Qed.
Lemma negative_exact b : is_negative_ct b = (b / 256) mod 2.
Proof.
  unfold is_negative_ct. change 1 with (Z.ones 1). rewrite Z.land_ones by lia. rewrite Z.shiftr_div_pow2 by lia. reflexivity.
Qed.
Lemma w64_mod256 x : w64 x mod 256 = x mod 256.
Proof. unfold w64. rewrite <- Zminus_mod_idemp_l. rewrite <- Znumtheory.Zmod_div_mod; [|lia|lia|exists (2 ^ 56); reflexivity].
  rewrite Zminus_mod_idemp_l. f_equal. lia. Qed.
Lemma loop_int b i row t : select_loop_int b i row t = select_loop b i row t.
Proof. revert i t. induction row as [|el row IH]; intros i t; [reflexivity|]. cbn [select_loop_int select_loop]. unfold byte_eq_int.
  destruct (g_cmov _ _ _); cbn [bind]; [apply IH|reflexivity|reflexivity]. Qed.
Lemma loop_mod b c row : b mod 256 = c mod 256 -> forall i t, select_loop b i row t = select_loop c i row t.
Proof.
  intros E. induction row as [|el row IH]; intros i t; [reflexivity|]. cbn [select_loop].
  rewrite !byte_eq_exact, E. destruct (g_cmov _ _ _); cbn [bind]; [apply IH|reflexivity|reflexivity].
Qed.
Lemma loop_none b row : forall i t, (forall j, i < j <= i + Z.of_nat (List.length row) -> b mod 256 <> j mod 256) ->
  select_loop b i row t = Ok t.
Proof.
  induction row as [|el row IH]; intros i t H; [reflexivity|]. cbn [select_loop List.length] in *.
  rewrite byte_eq_exact. rewrite (proj2 (Z.eqb_neq _ _) (H (i + 1) ltac:(lia))). unfold g_cmov. cbn [Z.eqb bind].
  apply IH. intros j Hj. apply H. lia.
Qed.
Lemma residue_range b : -256 <= residue b <= 255.
Proof. unfold residue. pose proof (Z.mod_pos_bound (b + 256) 512 ltac:(lia)). lia. Qed.
Lemma residue_eq b : exists k, b = residue b + 512 * k.
Proof. unfold residue. exists ((b + 256) / 512). pose proof (Z.div_mod (b + 256) 512 ltac:(lia)). lia. Qed.
Lemma residue_sign b : is_negative_ct b = if residue b <? 0 then 1 else 0.
Proof.
  rewrite negative_exact. destruct (residue_eq b) as [k E]. pose proof (residue_range b) as R. rewrite E at 1.
  set (r := residue b) in *. clearbody r. replace (r + 512 * k) with (r + (2 * k) * 256) by ring. rewrite Z.div_add by lia.
  destruct (Z.ltb_spec r 0).
  - replace (r / 256) with (-1) by (apply Z.div_unique with (r + 256); lia).
    replace (-1 + 2 * k) with (1 + (k - 1) * 2) by ring. rewrite Z.mod_add by lia. reflexivity.
  - rewrite (Z.div_small r 256) by lia. replace (0 + 2 * k) with (0 + k * 2) by ring. rewrite Z.mod_add by lia. reflexivity.
Qed.
Lemma residue_abs b : w64 (b - w64 (Z.land (- is_negative_ct b) b * 2)) mod 256 = Z.abs (residue b) mod 256.
Proof.
  rewrite w64_mod256. rewrite <- Zminus_mod_idemp_r, w64_mod256, Zminus_mod_idemp_r.
  rewrite residue_sign. destruct (residue_eq b) as [k E]. destruct (Z.ltb_spec (residue b) 0) as [H|H].
  - change (- (1)) with (-1). rewrite Z.land_m1_l. rewrite Z.abs_neq by lia.
    replace (b - b * 2) with (- residue b + (- 2 * k) * 256) by lia. apply Z.mod_add. lia.
  - change (- 0) with 0. rewrite Z.land_0_l. rewrite Z.abs_eq by lia.
    replace (b - 0 * 2) with (residue b + (2 * k) * 256) by lia. apply Z.mod_add. lia.
Qed.
Lemma residue_idem b : residue (residue b) = residue b.
Proof. pose proof (residue_range b). unfold residue at 1. rewrite Z.mod_small by lia. lia. Qed.

Lemma select_int_same g pos b : select_int g (Z.of_nat pos) b = g_select g pos b.
Proof.
  unfold select_int, g_select. rewrite (proj2 (Z.ltb_ge _ _)) by lia. rewrite Nat2Z.id.
  destruct (single g) as [rows|]; [|reflexivity]. destruct (nth_error rows pos) as [row|]; [|reflexivity].
  rewrite loop_int. rewrite (loop_mod _ (b - Z.shiftl (Z.land (- is_negative_ct b) b) 1) row); [reflexivity|].
  rewrite w64_mod256. rewrite <- Zminus_mod_idemp_r, w64_mod256, Zminus_mod_idemp_r.
  rewrite Z.shiftl_mul_pow2 by lia. reflexivity.
Qed.
Lemma select_exact g rows P pos b : single g = Some rows -> single_table rows P -> 0 <= pos < 32 ->
  exists r, select_int g pos b = Ok r /\ repc PRECOMPUTED r (zmul (digit b * 256 ^ pos) P).
Proof.
  intros Hs HT Hp. pose proof HT as [L R].
  assert (E : select_int g pos b = select_int g pos (residue b)).
  { unfold select_int. destruct (pos <? 0); [reflexivity|]. rewrite Hs. destruct (nth_error rows (Z.to_nat pos)) as [row|]; [|reflexivity].
    rewrite !loop_int. rewrite (loop_mod _ (w64 (residue b - w64 (Z.land (- is_negative_ct (residue b)) (residue b) * 2)))).
    - rewrite !residue_sign, residue_idem. reflexivity.
    - rewrite !residue_abs, residue_idem. reflexivity. }
  rewrite E. unfold digit. pose proof (residue_range b) as Hr. pose proof (residue_idem b) as Hi. clear E.
  set (r := residue b) in *. clearbody r. clear b.
  destruct (Z.leb_spec (Z.abs r) 8) as [S8|S8].
  - pose proof (select_int_same g (Z.to_nat pos) r) as Es. rewrite Z2Nat.id in Es by lia. rewrite Es.
    destruct (g_select_ok g rows P (Z.to_nat pos) r Hs HT ltac:(lia) ltac:(lia)) as (x & Ex & Rx).
    exists x. split; [exact Ex|]. rewrite (proj2 (Z.leb_le _ _)) in Rx by lia. rewrite Z2Nat.id in Rx by lia. exact Rx.
  - unfold select_int. rewrite (proj2 (Z.ltb_ge _ _)) by lia. rewrite Hs.
    destruct (nth_error rows (Z.to_nat pos)) as [row|] eqn:En; [|apply nth_error_None in En; lia].
    destruct (R _ row En) as [Lr _]. rewrite loop_int. rewrite loop_none.
    + cbn [bind]. rewrite residue_sign, Hi. rewrite Z.mul_0_l, zmul_0. unfold g_cmov.
      destruct (r <? 0); cbn [Z.eqb Pos.eqb]; eexists; (split; [reflexivity|]); [|apply zero_prec_rep].
      replace pzero with (pneg pzero) by (apply point_eq; [cbn; ring|reflexivity]). apply prec_minus, zero_prec_rep.
    + rewrite Lr. intros j Hj. rewrite residue_abs, Hi. rewrite (Z.mod_small j) by lia.
      intros E. destruct (Z.eq_dec r (-256)) as [->|N]; [vm_compute in E; lia|]. rewrite Z.mod_small in E by lia. lia.
Qed.
Lemma select_panics g pos b : pos < 0 \/ single g = None \/ (exists rows, single g = Some rows /\ Z.of_nat (List.length rows) <= pos) ->
  select_int g pos b = Panic.
Proof.
  unfold select_int. intros [H|[H|(rows & H & L)]].
  - now rewrite (proj2 (Z.ltb_lt _ _) H).
  - rewrite H. now destruct (pos <? 0).
  - rewrite H. destruct (Z.ltb_spec pos 0); [reflexivity|].
    rewrite (proj2 (nth_error_None rows (Z.to_nat pos))) by lia. reflexivity.
Qed.

Lemma residue_of_int : residue 9 = 9 /\ digit 9 = 0 /\ digit 504 = -8 /\ digit (-5) = -5.
Proof. repeat split; reflexivity. Qed.
Lemma select_all_refuted : ~ (forall g rows P pos b r, single g = Some rows -> single_table rows P -> 0 <= pos < 32 ->
  0 <= b < 1000 -> select_int g pos b = Ok r -> repc PRECOMPUTED r (zmul (b * 256 ^ pos) P)).
Proof.
  intros H. 
  destruct (select_exact (Ge zero_P3 (Some base_single) None) base_single Bpt 0 9 eq_refl TableProofs.base_single_ok ltac:(lia)) as (r & E & R).
  pose proof (H (Ge zero_P3 (Some base_single) None) base_single Bpt 0 9 r eq_refl TableProofs.base_single_ok ltac:(lia) ltac:(lia) E) as R'.
  assert (X : zmul (9 * 256 ^ 0) Bpt = zmul (digit 9 * 256 ^ 0) Bpt).
  { apply (rep_unique r); [rewrite (proj1 R); discriminate|exact (proj2 R')|exact (proj2 R)]. }
  apply zmul_B_inj in X. vm_compute in X. discriminate X.
Qed.

(** ** histories of precomputations *)

Lemma copy_rows_8 rows : (forall i row, nth_error rows i = Some row -> List.length row = 8%nat) -> copy_rows rows = Ok rows.
Proof.
  induction rows as [|r rows IH]; intros H; [reflexivity|]. cbn [copy_rows]. unfold copy_row.
  rewrite (H 0%nat r eq_refl). cbn [Nat.ltb Nat.leb bind]. rewrite IH; [reflexivity|].
  intros i row Hi. exact (H (S i) row Hi).
Qed.
Definition state (c : gcore) (rows : list (list gcore)) (l : list gcore) (a b : bool) : ge :=
  Ge c (if a then Some rows else None) (if b then Some l else None).
Definition is_single (x : pcall) : bool := match x with PSingle => true | PDouble => false end.
Lemma state_step c P : repc P3 c P -> exists rows l, single_table rows P /\ double_table l P /\
  forall x a b, pstep (state c rows l a b) x = Ok (state c rows l (a || is_single x) (b || negb (is_single x))).
Proof.
  intros H. destruct (prec_rows_ok 32 _ _ H) as (rows & E & L & R).
  destruct (g_precompute_double_ok c None P H (or_introl eq_refl)) as (l & El & T).
  exists rows, l. split; [split; assumption|]. split; [exact T|].
  assert (El' : prec_double_loop 8 c c = Ok l).
  { revert El. unfold g_precompute_double, g_copy. cbn [double single core copy_rows bind].
    destruct (prec_double_loop 8 c c) as [l'|e|]; cbn [bind]; [|easy|easy]. intros X. injection X as ->. reflexivity. }
  assert (Cr : copy_rows rows = Ok rows) by (apply copy_rows_8; intros i row Hi; apply (R i row Hi)).
  destruct T as [Ll _].
  intros [|] a b; cbn [pstep is_single negb]; rewrite ?orb_true_r, ?orb_false_r; unfold state.
  - destruct a; [reflexivity|]. unfold g_precompute_single, g_copy. cbn [single core double copy_rows bind]. rewrite E. reflexivity.
  - destruct b.
    + unfold g_precompute_double. cbn [double]. destruct l as [|x l]; [discriminate Ll|]. reflexivity.
    + unfold g_precompute_double, g_copy. cbn [double single core]. destruct a; [rewrite Cr|cbn [copy_rows]]; cbn [bind core];
        rewrite El'; reflexivity.
Qed.
Lemma state_run c rows l :
  (forall x a b, pstep (state c rows l a b) x = Ok (state c rows l (a || is_single x) (b || negb (is_single x)))) ->
  forall cs a b, prun (state c rows l a b) cs =
    Ok (state c rows l (a || existsb is_single cs) (b || existsb (fun x => negb (is_single x)) cs)).
Proof.
  intros H. induction cs as [|x cs IH]; intros a b; cbn [prun existsb]; [now rewrite !orb_false_r|].
  rewrite H. cbn [bind]. rewrite IH. now rewrite !orb_assoc.
Qed.
Lemma has_single cs : existsb is_single cs = true <-> In PSingle cs.
Proof.
  rewrite existsb_exists. split; [intros ([|] & I & E); [exact I|discriminate E]|intros I; exists PSingle; auto].
Qed.
Lemma has_double cs : existsb (fun x => negb (is_single x)) cs = true <-> In PDouble cs.
Proof.
  rewrite existsb_exists. split; [intros ([|] & I & E); [discriminate E|exact I]|intros I; exists PDouble; auto].
Qed.
Lemma history c P : repc P3 c P -> forall cs, exists g, prun (new_ge c) cs = Ok g /\ core g = c /\
  (In PSingle cs -> exists rows, single g = Some rows /\ single_table rows P) /\
  (~ In PSingle cs -> single g = None) /\
  (In PDouble cs -> exists l, double g = Some l /\ double_table l P) /\
  (~ In PDouble cs -> double g = None) /\
  (g_is_precomputed_double g = true <-> In PDouble cs).
Proof.
  intros H cs. destruct (state_step c P H) as (rows & l & T1 & T2 & St).
  pose proof (state_run c rows l St cs false false) as E. change (state c rows l false false) with (new_ge c) in E.
  cbn [orb] in E. eexists. split; [exact E|].
  pose proof (has_single cs) as Hs. pose proof (has_double cs) as Hd. unfold state, g_is_precomputed_double. cbn [core single double].
  destruct (existsb is_single cs), (existsb (fun x => negb (is_single x)) cs);
    (split; [reflexivity|]); (split; [intros I; try (exists rows; split; [reflexivity|assumption]); exfalso; apply Hs in I; discriminate I|]);
    (split; [intros I; try reflexivity; destruct I; now apply Hs|]);
    (split; [intros I; try (exists l; split; [reflexivity|assumption]); exfalso; apply Hd in I; discriminate I|]);
    (split; [intros I; try reflexivity; destruct I; now apply Hd|]);
    exact Hd.
Qed.
Lemma history_order c P : repc P3 c P -> forall cs ds, (forall x, In x cs <-> In x ds) ->
  prun (new_ge c) cs = prun (new_ge c) ds.
Proof.
  intros H cs ds E. destruct (state_step c P H) as (rows & l & T1 & T2 & St).
  change (new_ge c) with (state c rows l false false). rewrite !(state_run c rows l St). cbn [orb].
  assert (A : existsb is_single cs = existsb is_single ds).
  { apply eq_true_iff_eq. rewrite !has_single. apply E. }
  assert (B : existsb (fun x => negb (is_single x)) cs = existsb (fun x => negb (is_single x)) ds).
  { apply eq_true_iff_eq. rewrite !has_double. apply E. }
  now rewrite A, B.
Qed.
Lemma add_P3_panic a b : g_cs b <> P3 \/ gT b = None -> g_cs a = g_cs b -> add_P3 a b = Panic.
Proof.
  intros H E. unfold add_P3, to_cached, to_cs, g_add. rewrite E. destruct (g_cs b) eqn:Cb; try reflexivity.
  destruct H as [H|H]; [congruence|]. rewrite H. reflexivity.
Qed.
Lemma not_P3 c x : g_cs c <> P3 \/ gT c = None -> pstep (new_ge c) x = Panic.
Proof.
  intros H. destruct x; cbn [pstep].
  - unfold g_precompute_single, g_copy. cbn [new_ge single double core copy_rows bind prec_rows prec_row].
    rewrite add_P3_panic by auto. reflexivity.
  - unfold g_precompute_double, g_copy. cbn [new_ge single double core copy_rows bind prec_double_loop].
    rewrite add_P3_panic by auto. reflexivity.
Qed.
Lemma copy_tables g : single g = None -> exists g', g_copy g = Ok g' /\ core g' = core g /\
  g_is_precomputed_double g' = true /\ pstep g' PSingle = Ok g' /\ (forall pos b, select_int g' pos b = Panic) /\
  (forall a, g_scalarMultiply g' a = Panic).
Proof.
  intros E. unfold g_copy. rewrite E. cbn [copy_rows bind]. eexists. split; [reflexivity|]. split; [reflexivity|].
  split; [reflexivity|]. split; [reflexivity|].
  match goal with |- context [select_int ?x] => set (g' := x) end.
  assert (S0 : forall pos b, select_int g' pos b = Panic).
  { intros pos b. apply select_panics. destruct (Z.ltb_spec pos 0); [now left|]. right; right. exists []. split; [reflexivity|]. cbn. lia. }
  split; [exact S0|].
  intros a. unfold g_scalarMultiply. destruct (to_radix16 a) as [e|e|] eqn:Er.
  - cbn [bind seq map sm_loop]. unfold sm_step at 1, g_select at 1. reflexivity.
  - unfold to_radix16 in Er. destruct (Nat.ltb _ _); discriminate Er.
  - reflexivity.
Qed.

(** ** bouncycastle_crypto.go *)
Lemma go_copy_nil out : go_copy out [] = (out, 0).
Proof. unfold go_copy. cbn [List.length]. rewrite Nat.min_0_r. reflexivity. Qed.
Lemma nth_app_split (l m : bytes) n i : (n = List.length l)%nat -> nth i (l ++ m) 0 = if Nat.ltb i n then nth i l 0 else nth (i - n) m 0.
Proof.
  intros ->. destruct (Nat.ltb_spec i (List.length l)); [apply app_nth1; assumption|apply app_nth2; lia].
Qed.
Lemma nth_firstn0 (l : bytes) n i : nth i (firstn n l) 0 = if Nat.ltb i n then nth i l 0 else 0.
Proof.
  revert n i. induction l as [|x l IH]; intros n i.
  - rewrite firstn_nil. destruct i; cbn [nth]; now destruct (Nat.ltb _ _).
  - destruct n as [|n]; [destruct i; reflexivity|]. destruct i as [|i]; [reflexivity|]. cbn [firstn nth]. rewrite IH. reflexivity.
Qed.
Lemma nth_skipn0 (l : bytes) n i : nth i (skipn n l) 0 = nth (n + i) l 0.
Proof. revert l. induction n as [|n IH]; intros [|x l]; cbn [skipn plus nth]; try reflexivity; [now destruct i|apply IH]. Qed.
Lemma bc_answers : forall cs, Forall2 answers cs (bc_run bc_new cs).
Proof.
  assert (H : forall c, exists x, bcall_step bc_new c = (bc_new, x) /\ answers c x).
  { intros [n| |e k iv|out off|input inOff len out off]; cbn [bcall_step].
    - eexists. split; [reflexivity|]. constructor.
    - eexists. split; [reflexivity|]. constructor.
    - eexists. split; [reflexivity|]. constructor.
    - unfold bc_new, b_output. rewrite go_copy_nil. eexists. split; [reflexivity|]. constructor.
    - destruct (Z.ltb_spec (Z.of_nat (List.length out)) (w64 (len - inOff))) as [L|L].
      + eexists. split; [reflexivity|]. now constructor.
      + unfold go_copy. eexists. split; [reflexivity|].
        rewrite Nat2Z.inj_min. constructor; [exact L| |].
        * rewrite app_length, firstn_length, skipn_length. lia.
        * intros i Hi. rewrite (nth_app_split _ _ (Nat.min (List.length input) (List.length out))) by (rewrite firstn_length; lia).
          rewrite nth_firstn0, nth_skipn0.
          destruct (Nat.ltb_spec i (Nat.min (List.length input) (List.length out))), (Nat.ltb_spec i (List.length out)); try reflexivity; try lia.
          f_equal. lia. }
  induction cs as [|c cs IH]; cbn [bc_run]; [constructor|].
  destruct (H c) as (x & -> & A). constructor; [exact A|exact IH].
Qed.

(** ** the hypotheses are met *)
Lemma ex_text : bnd 1000 ex_limbs /\ (exists raw, wf_bytes raw /\ List.length raw = 32%nat /\ denotes raw Bpt) /\
  (exists raw, wf_bytes raw /\ List.length raw = 32%nat /\ forall P, ~ denotes raw P) /\
  (exists g, repc P3 g Bpt /\ exists T, gT g = Some T).
Proof.
  split; [eapply bnd_mono; [exact (proj1 ex_limbs_ok)|lia]|].
  split; [exists (enc_point Bpt); split; [apply enc_point_wf|]; split; [apply enc_point_length|apply enc_denotes]|].
  split.
  - exists (le_bytes 32 2). split; [apply le_bytes_wf|]. split; [apply le_bytes_length|].
    intros P [Y _]. exact (proj2 decode_examples P Y).
  - destruct base_P3 as (g & _ & R). exists g. split; [exact R|]. destruct (P3_bounds g _ R) as (_ & _ & _ & T & E & _). eauto.
Qed.
Lemma ex_select : (exists g rows, single g = Some rows /\ single_table rows Bpt) /\
  digit 7 = 7 /\ digit (-5) = -5 /\ digit 504 = -8 /\ digit 9 = 0 /\ digit (-2 ^ 63) = 0.
Proof.
  split; [exists (Ge zero_P3 (Some base_single) None), base_single; split; [reflexivity|exact TableProofs.base_single_ok]|].
  repeat split; reflexivity.
Qed.
Lemma ex_history : exists c, repc P3 c Bpt /\ single (new_ge c) = None.
Proof. destruct base_P3 as (g & _ & R). exists g. split; [exact R|reflexivity]. Qed.
