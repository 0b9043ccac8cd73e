(** Proofs about Verify, canonicity and malleability. *)
From Coq Require Import List ZArith Lia Bool Ring Field Znumtheory.
From Verif Require Import GoBase FieldModel FieldSpec FieldProofs ByteLemmas EncodeProofs
  ScalarModel ScalarProofs Primality Fp Curve Tables BaseCert BasePoint GroupModel GroupSpec FieldPow
  GroupProofs TableProofs PointCodec GroupEq ScalarMul SlideProofs SlideSharp PropFieldLemmas PropGroupLemmas
  ApiModel ApiSpec ApiProofs.
Import ListNotations.
Open Scope Z_scope.

(** the integer the S bytes stand for in the double scalar multiplication *)
Definition sval (s : bytes) : Z := match slide s with Ok l => dv 2 l | _ => 0 end.
Lemma sval_gen s : wf_bytes s -> (32 <= length s)%nat -> exists l, slide s = Ok l /\ sval s = dv 2 l.
Proof. intros W L. unfold sval. destruct (slide_ok s W L) as (l & -> & _). eauto. Qed.
Lemma sval_exact s : wf_bytes s -> length s = 32%nat -> le_val s <= 2 ^ 255 -> sval s = le_val s.
Proof.
  intros W L V. unfold sval. destruct (slide_ok s W ltac:(lia)) as (l & -> & _ & _ & _ & E).
  rewrite firstn_all2 in E by lia. auto.
Qed.
Lemma sval_any s : wf_bytes s -> length s = 32%nat -> sval s = le_val s \/ sval s = le_val s - 2 ^ 256.
Proof.
  intros W L. destruct (sval_gen s W ltac:(lia)) as (l & E & ->).
  pose proof (slide_sharp s l W ltac:(lia) E) as S. rewrite firstn_all2 in S by lia. exact S.
Qed.
Lemma zero32_wf : wf_bytes (all_zero 32).
Proof. apply wf_repeat. unfold is_byte. lia. Qed.
Lemma slide_small n : 0 <= n < q25519 -> exists l, slide (le_bytes 32 n) = Ok l /\ dv 2 l = n.
Proof.
  intros R. assert (V : le_val (le_bytes 32 n) = n).
  { rewrite le_bytes_val. apply Z.mod_small. pose proof q_lt. change (256 ^ Z.of_nat 32) with (8 * 2 ^ 253). lia. }
  destruct (sval_gen (le_bytes 32 n) (le_bytes_wf _ _) ltac:(rewrite le_bytes_length; lia)) as (l & E & S).
  exists l. split; [exact E|]. rewrite <- S, sval_exact; [exact V|apply le_bytes_wf|apply le_bytes_length|].
  rewrite V. pose proof q_lt. change (2 ^ 255) with (4 * 2 ^ 253). lia.
Qed.
Lemma slide_short s : (length s < 32)%nat -> slide s = Panic.
Proof. intros L. unfold slide. apply Nat.ltb_lt in L. rewrite L. reflexivity. Qed.

Lemma bind_ok {A B} (a : A) (f : A -> res B) : bind (Ok a) f = f a. Proof. reflexivity. Qed.
Lemma bind_err {A B} e (f : A -> res B) : bind (Err e) f = Err e. Proof. reflexivity. Qed.

Section H.
Variable H : list bytes -> bytes.
Hypothesis HH : hash_ok 64 H.

(** the verification equation, with the scalar v in place of S *)
Definition accepts (pub m R : bytes) (v : Z) : Prop :=
  exists A, denotes pub A /\ R = enc_point (psub (zmul v Bpt) (zmul (challenge H R pub m) A)).

Lemma verify_core kp m sg : wf_bytes (kp_pub kp) -> wf_bytes m -> wf_bytes (sR sg) -> wf_bytes (sS sg) ->
  length (kp_pub kp) = 32%nat \/ length (kp_pub kp) = 64%nat ->
  is_canonical_signature sg = true -> kp_pub kp <> all_zero 32 ->
  (32 <= length (sS sg))%nat ->
  exists b, verify H kp m sg = Ok b /\ (b = true <-> accepts (kp_pub kp) m (sR sg) (sval (sS sg))).
Proof.
  intros Wp Wm WR WS Lp C NZ LS. unfold verify. rewrite C. cbn [negb].
  destruct (beq_bytes (kp_pub kp) (all_zero 32)) eqn:Z; [apply beq_bytes_eq in Z; contradiction|]. clear Z.
  destruct (HH [sR sg; kp_pub kp; m]) as [L W]; [apply wfs3; assumption|].
  rewrite new_efe_64 by exact L. rewrite bind_ok. rewrite modQ_bytes by assumption. rewrite bind_ok.
  fold (challenge H (sR sg) (kp_pub kp) m). unfold accepts.
  assert (Rh : 0 <= challenge H (sR sg) (kp_pub kp) m < q25519) by (apply Z.mod_pos_bound; reflexivity).
  revert Rh. generalize (challenge H (sR sg) (kp_pub kp) m). intros h Rh.
  destruct (g_decode_ok (kp_pub kp) Wp Lp) as [(A & g & D & -> & R)|[N ->]].
  - rewrite bind_ok. unfold new_ge. destruct (g_precompute_double_ok g None A R (or_introl eq_refl)) as (l & -> & T). rewrite bind_ok.
    destruct base_point_ok as (c & -> & _). rewrite bind_ok.
    destruct (slide_small h Rh) as (sh & Eh & Vh). destruct (sval_gen _ WS LS) as (ss & Es & Vs).
    destruct (g_dsm_slide (Ge c (Some base_single) (Some base_double)) (Ge g None (Some l)) base_double l Bpt A
       (le_bytes 32 h) (sS sg) sh ss eq_refl eq_refl base_double_ok T) as (r & E & Rr);
       try assumption; try apply le_bytes_wf; try (rewrite le_bytes_length; lia).
    rewrite E. rewrite bind_ok. rewrite (g_encode_P2 _ _ Rr). rewrite bind_ok. cbn [or_false].
    eexists. split; [reflexivity|]. rewrite beq_bytes_eq. rewrite Vh. rewrite <- Vs. split.
    + intros K. exists A. split; [exact D|symmetry; exact K].
    + intros (A' & D' & K). rewrite (denotes_unique _ _ _ D' D) in K. symmetry. exact K.
  - rewrite bind_err. cbn [or_false]. exists false. split; [reflexivity|]. split; [discriminate|]. intros (A & D & _). destruct (N A D).
Qed.
(** complete description for keys of 32 or 64 bytes and S parts of at least 32 bytes *)
Lemma verify_gen kp m sg : wf_bytes (kp_pub kp) -> wf_bytes m -> wf_bytes (sR sg) -> wf_bytes (sS sg) ->
  length (kp_pub kp) = 32%nat \/ length (kp_pub kp) = 64%nat -> (32 <= length (sS sg))%nat ->
  exists b, verify H kp m sg = Ok b /\ (b = true <-> is_canonical_signature sg = true /\ kp_pub kp <> all_zero 32 /\
     accepts (kp_pub kp) m (sR sg) (sval (sS sg))).
Proof.
  intros Wp Wm WR WS Lp LS. destruct (is_canonical_signature sg) eqn:C.
  - destruct (beq_bytes (kp_pub kp) (all_zero 32)) eqn:Z.
    + exists false. split; [unfold verify; rewrite C, Z; reflexivity|]. apply beq_bytes_eq in Z.
      split; [discriminate|]. intros (_ & N & _). contradiction.
    + assert (N : kp_pub kp <> all_zero 32) by (intros K; apply beq_bytes_eq in K; congruence).
      destruct (verify_core kp m sg Wp Wm WR WS Lp C N LS) as (b & E & I). exists b. split; [exact E|]. tauto.
  - exists false. split; [unfold verify; rewrite C; reflexivity|]. split; [discriminate|]. intros (K & _). discriminate K.
Qed.
Theorem verify_exact kp m sg : wf_bytes (kp_pub kp) -> wf_bytes m -> wf_bytes (sR sg) -> wf_bytes (sS sg) ->
  length (kp_pub kp) = 32%nat -> length (sS sg) = 32%nat -> le_val (sS sg) <= 2 ^ 255 ->
  exists b, verify H kp m sg = Ok b /\ (b = true <->
    (low64 (le_val (sS sg)) <> 0 /\ low64 (le_val (sS sg)) <> low64 q25519) /\
    kp_pub kp <> all_zero 32 /\
    exists A, denotes (kp_pub kp) A /\
      sR sg = enc_point (psub (zmul (le_val (sS sg)) Bpt) (zmul (challenge H (sR sg) (kp_pub kp) m) A))).
Proof.
  intros Wp Wm WR WS Lp LS V. destruct (verify_gen kp m sg Wp Wm WR WS (or_introl Lp) ltac:(lia)) as (b & E & I).
  exists b. split; [exact E|]. rewrite I, canonical_iff by exact WS. unfold accepts. rewrite sval_exact by assumption. tauto.
Qed.
Theorem verify_large kp m sg : wf_bytes (kp_pub kp) -> wf_bytes m -> wf_bytes (sR sg) -> wf_bytes (sS sg) ->
  length (kp_pub kp) = 32%nat -> length (sS sg) = 32%nat -> verify H kp m sg = Ok true ->
  exists A v, (v = le_val (sS sg) \/ v = le_val (sS sg) - 2 ^ 256) /\ denotes (kp_pub kp) A /\
      sR sg = enc_point (psub (zmul v Bpt) (zmul (challenge H (sR sg) (kp_pub kp) m) A)).
Proof.
  intros Wp Wm WR WS Lp LS V. destruct (verify_gen kp m sg Wp Wm WR WS (or_introl Lp) ltac:(lia)) as (b & E & I).
  rewrite V in E. injection E as <-. destruct (proj1 I eq_refl) as (_ & _ & A & D & K).
  exists A, (sval (sS sg)). split; [apply sval_any; assumption|]. split; assumption.
Qed.

(** ** Sign then Verify *)
Lemma y0_order4 P : py P = F0 -> zmul 4 P = pzero.
Proof.
  intros Y. pose proof (pon P) as C. unfold on_curve in C. rewrite Y in C.
  assert (X : (px P * px P = - F1)%F).
  { transitivity (- (0 * 0 - px P * px P))%F; [ring|]. rewrite C. ring. }
  destruct (padd_coords P P) as (N1 & N2 & E1 & E2). rewrite Y in *.
  assert (D1 : px (padd P P) = F0).
  { rewrite E1. transitivity (0 / (1 + Fd * (px P * px P) * (0 * 0)))%F; [f_equal; ring|]. field. fnz. }
  assert (D2 : py (padd P P) = (- F1)%F).
  { rewrite E2, X. transitivity (- F1 / F1)%F; [f_equal; ring|]. field. fnz. }
  destruct (padd_coords (padd P P) (padd P P)) as (M1 & M2 & F1' & F2'). rewrite D1, D2 in *.
  replace 4 with (2 + 2) by reflexivity. rewrite zmul_add, zmul_2. apply point_eq.
  - rewrite F1'. cbn [pzero px]. transitivity (0 / (1 + Fd * (0 * 0) * (- F1 * - F1)))%F; [f_equal; ring|]. field. fnz.
  - rewrite F2'. cbn [pzero py]. transitivity (F1 / F1)%F; [f_equal; ring|]. field. fnz.
Qed.
Lemma mult_B_not_y0 n : py (zmul n Bpt) <> F0.
Proof.
  intros Y. pose proof (y0_order4 _ Y) as E. rewrite <- zmul_mul in E. apply order_B_iff in E.
  assert (D : (q25519 | n)).
  { apply (Gauss q25519 4 n); [exact E|]. apply rel_prime_sym. apply bezout_rel_prime.
    apply Bezout_intro with (u := - ((q25519 - 1) / 4)) (v := 1). vm_compute. reflexivity. }
  apply order_B_iff in D. rewrite D in Y. apply (f_equal val) in Y. vm_compute in Y. discriminate Y.
Qed.
Lemma all_zero_denotes P : enc_point P = all_zero 32 -> py P = F0.
Proof.
  intros E. destruct (enc_denotes P) as [Y _]. rewrite E in Y. rewrite Y. apply F_eq. vm_compute. reflexivity.
Qed.
Lemma public_key_not_zero key : public_key_of H key <> all_zero 32.
Proof. intros E. apply all_zero_denotes in E. apply (mult_B_not_y0 _ E). Qed.
Theorem sign_verify k m sg : wf_bytes (pk_raw k) -> wf_bytes m ->
  let kp := KeyPair (Some k) (public_key_of H (pk_raw k)) in
  sign H kp m = Ok sg -> verify H kp m sg = Ok true.
Proof.
  intros Wk Wm kp. set (key := pk_raw k) in *. set (pub := public_key_of H key) in *.
  assert (Wp : wf_bytes pub) by apply enc_point_wf.
  unfold kp. rewrite (sign_ok H HH k pub m Wk Wp Wm). fold key. set (S := sig_S H key pub m).
  destruct ((low64 S =? 0) || (low64 S =? low64 q25519)) eqn:C; [discriminate|]. intros E.
  assert (Es : sg = Sig (sig_R H key m) (le_bytes 32 S)) by congruence. subst sg. clear E.
  apply orb_false_iff in C as [C1 C2]. apply Z.eqb_neq in C1, C2.
  assert (V : le_val (le_bytes 32 S) = S) by (unfold S, sig_S; apply q_small).
  assert (RS : 0 <= S < q25519) by (apply Z.mod_pos_bound; reflexivity).
  destruct (verify_exact (KeyPair (Some k) pub) m (Sig (sig_R H key m) (le_bytes 32 S))) as (b & Eb & I);
    cbn [kp_pub sR sS]; try assumption.
  - apply enc_point_wf.
  - apply le_bytes_wf.
  - apply enc_point_length.
  - apply le_bytes_length.
  - rewrite V. pose proof q_lt. change (2 ^ 255) with (4 * 2 ^ 253). lia.
  - rewrite Eb. f_equal. apply I. cbn [kp_pub sR sS]. rewrite V. split; [split; assumption|].
    split; [apply public_key_not_zero|]. exists (public_point H key). split; [apply enc_denotes|].
    unfold sig_R at 1. f_equal. set (h := challenge H (sig_R H key m) pub m).
    unfold public_point. rewrite <- zmul_mul, <- zmul_sub. apply zmul_B_inj.
    unfold S, sig_S. fold h. rewrite Zminus_mod_idemp_l. f_equal. ring.
Qed.
End H.
