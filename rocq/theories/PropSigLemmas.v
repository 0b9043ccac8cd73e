(** Lemmas behind the properties C01 - C12. *)
From Coq Require Import List ZArith Lia Bool Ring Field Znumtheory.
From Verif Require Import GoBase FieldModel FieldSpec FieldProofs ByteLemmas EncodeProofs
  ScalarModel ScalarProofs Primality Fp Curve Tables BaseCert BasePoint GroupModel GroupSpec FieldPow
  GroupProofs TableProofs PointCodec GroupEq ScalarMul SlideProofs SlideSharp PropFieldLemmas PropGroupLemmas
  ApiModel ApiSpec ApiProofs VerifyProofs.
Import ListNotations.
Open Scope Z_scope.

Lemma bytes_of_val (s : bytes) : wf_bytes s -> length s = 32%nat -> s = le_bytes 32 (le_val s).
Proof. intros W L. rewrite <- L. symmetry. apply le_val_inv, W. Qed.
Lemma le_bytes_small n : 0 <= n < 2 ^ 256 -> le_val (le_bytes 32 n) = n.
Proof. intros R. rewrite le_bytes_val. apply Z.mod_small. exact R. Qed.

(** a bit-by-bit reading of the secret scalar *)
Lemma secret_scalar_bits H key i : 0 <= i ->
  Z.testbit (secret_scalar H key) i =
    if i =? 254 then true else if (i <? 3) || (254 <? i) then false
    else Z.testbit (le_val (firstn 32 (H [key]))) i.
Proof.
  intros Hi. unfold secret_scalar. set (v := le_val (firstn 32 (H [key]))).
  assert (E : 8 * (v mod 2 ^ 254 / 8) = Z.shiftl (Z.shiftr (v mod 2 ^ 254) 3) 3).
  { rewrite Z.shiftl_mul_pow2, Z.shiftr_div_pow2 by lia. change (2 ^ 3) with 8. ring. }
  assert (B : 0 <= 8 * (v mod 2 ^ 254 / 8) < 2 ^ 254).
  { pose proof (Z.mod_pos_bound v (2 ^ 254) ltac:(reflexivity)) as M.
    pose proof (Z.div_pos (v mod 2 ^ 254) 8 ltac:(lia) ltac:(lia)).
    pose proof (Z.mul_div_le (v mod 2 ^ 254) 8 ltac:(lia)). lia. }
  set (w := 8 * (v mod 2 ^ 254 / 8)) in *.
  assert (L : 2 ^ 254 + w = Z.lor (2 ^ 254) w).
  { assert (N : Z.land (2 ^ 254) w = 0); [|rewrite Z.add_nocarry_lxor, Z.lxor_lor by exact N; reflexivity].
    apply Z.bits_inj'. intros j Hj. rewrite Z.land_spec, Z.bits_0, Z.pow2_bits_eqb by lia.
    destruct (Z.eqb_spec 254 j) as [<-|]; [|reflexivity].
    destruct (Z.eq_dec w 0) as [->|N]; [now rewrite Z.bits_0|].
    rewrite (Z.bits_above_log2 w 254); [reflexivity|lia|]. apply Z.log2_lt_pow2; lia. }
  rewrite L, Z.lor_spec, Z.pow2_bits_eqb by lia. rewrite E.
  destruct (Z.eqb_spec i 254) as [->|N1]; [reflexivity|].
  replace (254 =? i) with false by (symmetry; apply Z.eqb_neq; lia). cbn [orb].
  destruct (Z.ltb_spec i 3) as [L3|L3].
  - cbn [orb]. apply Z.shiftl_spec_low. lia.
  - cbn [orb]. rewrite Z.shiftl_spec, Z.shiftr_spec by lia. replace (i - 3 + 3) with i by lia.
    destruct (Z.ltb_spec 254 i).
    + apply Z.mod_pow2_bits_high. lia.
    + apply Z.mod_pow2_bits_low. lia.
Qed.

(** the neutral element *)
Lemma enc_zero : enc_point pzero = 1 :: all_zero 31.
Proof.
  unfold enc_point. cbn [pzero px py]. change (Fneg F0) with false. vm_compute. reflexivity.
Qed.
Definition neutral_key : bytes := 1 :: all_zero 31.
Lemma neutral_denotes : denotes neutral_key pzero.
Proof. unfold neutral_key. rewrite <- enc_zero. apply enc_denotes. Qed.
Lemma neutral_wf : wf_bytes neutral_key.
Proof. constructor; [unfold is_byte; lia|apply wf_repeat; unfold is_byte; lia]. Qed.
Lemma zmul_pzero n : zmul n pzero = pzero.
Proof.
  rewrite <- (zmul_0 Bpt). rewrite <- zmul_mul. f_equal. lia.
Qed.
Lemma psub_pzero P : psub P pzero = P.
Proof. unfold psub. assert (pneg pzero = pzero) as ->; [|rewrite padd_comm; apply padd_0_l].
  rewrite <- (padd_0_l (pneg pzero)). apply padd_neg. Qed.
Lemma psub_cancel P Q R : psub P R = psub Q R -> P = Q.
Proof.
  unfold psub. intros E. apply (f_equal (fun X => padd X R)) in E. rewrite !padd_assoc in E.
  rewrite (padd_comm (pneg R)), padd_neg in E. rewrite !(padd_comm _ pzero), !padd_0_l in E. exact E.
Qed.

Section H.
Variable H : list bytes -> bytes.
Hypothesis HH : hash_ok 64 H.

(** C04/C05 *)
Lemma accepts_mod pub m R v w : accepts H pub m R v -> v mod q25519 = w mod q25519 -> accepts H pub m R w.
Proof. intros (A & D & E) V. exists A. split; [exact D|]. etransitivity; [exact E|]. f_equal. apply (f_equal (fun X => psub X _)). apply zmul_B_inj, V. Qed.
Lemma accepts_inj pub m R v w : accepts H pub m R v -> accepts H pub m R w -> v mod q25519 = w mod q25519.
Proof.
  intros (A & D & E) (A' & D' & E'). rewrite (denotes_unique _ _ _ D' D) in E'. apply (eq_trans (eq_sym E)) in E'.
  apply enc_point_inj in E'. apply psub_cancel in E'. apply zmul_B_inj. exact E'.
Qed.
Definition accepted (pub m R s : bytes) : Prop := verify H (KeyPair None pub) m (Sig R s) = Ok true.
(** Verify does not look at the private part *)
Lemma verify_pub kp m sg : verify H kp m sg = verify H (KeyPair None (kp_pub kp)) m sg.
Proof. reflexivity. Qed.

Section Wf.
Variables pub m R : bytes.
Hypotheses (Wp : wf_bytes pub) (Wm : wf_bytes m) (WR : wf_bytes R) (Lp : length pub = 32%nat).

Lemma accepted_iff s : wf_bytes s -> length s = 32%nat ->
  (accepted pub m R s <-> is_canonical_signature (Sig R s) = true /\ pub <> all_zero 32 /\ accepts H pub m R (sval s)).
Proof.
  intros W L. destruct (verify_gen H HH (KeyPair None pub) m (Sig R s) Wp Wm WR W (or_introl Lp) ltac:(cbn [sS]; lia)) as (b & E & I).
  cbn [kp_pub sR sS] in I. unfold accepted. rewrite E. split.
  - intros K. apply I. congruence.
  - intros K. f_equal. apply I, K.
Qed.
Lemma unique_S s s' : wf_bytes s -> wf_bytes s' -> length s = 32%nat -> length s' = 32%nat ->
  le_val s < q25519 -> le_val s' < q25519 -> accepted pub m R s -> accepted pub m R s' -> s = s'.
Proof.
  intros W W' L L' B B' A A'. pose proof q_lt. change (2 ^ 253) with (2 ^ 255 / 4) in *.
  pose proof (le_val_bound s W) as P. pose proof (le_val_bound s' W') as P'.
  apply accepted_iff in A; try assumption. apply accepted_iff in A'; try assumption.
  destruct A as (_ & _ & A), A' as (_ & _ & A').
  assert (2 ^ 255 / 4 < 2 ^ 255) by reflexivity.
  rewrite sval_exact in A by (assumption || lia). rewrite sval_exact in A' by (assumption || lia).
  pose proof (accepts_inj _ _ _ _ _ A A') as E. rewrite !Z.mod_small in E by lia.
  rewrite (bytes_of_val s), (bytes_of_val s') by assumption. now rewrite E.
Qed.
Lemma unique_mod s s' : wf_bytes s -> wf_bytes s' -> length s = 32%nat -> length s' = 32%nat ->
  le_val s <= 2 ^ 255 -> le_val s' <= 2 ^ 255 -> accepted pub m R s -> accepted pub m R s' ->
  (q25519 | le_val s - le_val s').
Proof.
  intros W W' L L' B B' A A'.
  apply accepted_iff in A; try assumption. apply accepted_iff in A'; try assumption.
  destruct A as (_ & _ & A), A' as (_ & _ & A').
  rewrite sval_exact in A by assumption. rewrite sval_exact in A' by assumption.
  pose proof (accepts_inj _ _ _ _ _ A A') as E. apply Z.mod_divide; [discriminate|].
  rewrite Zminus_mod, E, Z.sub_diag. reflexivity.
Qed.
(** exactly the S' congruent to S modulo q *)
Lemma accepted_class s s' : wf_bytes s -> wf_bytes s' -> length s = 32%nat -> length s' = 32%nat ->
  le_val s <= 2 ^ 255 -> le_val s' <= 2 ^ 255 -> accepted pub m R s ->
  (accepted pub m R s' <->
   (q25519 | le_val s - le_val s') /\ low64 (le_val s') <> 0 /\ low64 (le_val s') <> low64 q25519).
Proof.
  intros W W' L L' B B' A. split.
  - intros A'. split; [apply unique_mod; assumption|]. apply accepted_iff in A'; try assumption.
    destruct A' as (C & _). apply canonical_iff in C; assumption.
  - intros (D & C). apply accepted_iff in A; try assumption. destruct A as (_ & N & A). rewrite sval_exact in A by assumption.
    apply accepted_iff; try assumption. split; [apply canonical_iff; assumption|]. split; [exact N|].
    rewrite sval_exact by assumption. apply (accepts_mod _ _ _ _ _ A). destruct D as [k E].
    replace (le_val s) with (le_val s' + k * q25519) by lia. now rewrite Z.mod_add by discriminate.
Qed.
(** S, S+q, S+2q, ... are all accepted *)
Lemma malleable s n : wf_bytes s -> length s = 32%nat -> 0 <= n -> le_val s + n * q25519 <= 2 ^ 255 ->
  low64 (le_val s + n * q25519) <> 0 -> low64 (le_val s + n * q25519) <> low64 q25519 ->
  accepted pub m R s -> accepted pub m R (le_bytes 32 (le_val s + n * q25519)).
Proof.
  intros W L Hn B C1 C2 A. pose proof (le_val_bound s W) as P. assert (0 < q25519) by reflexivity.
  assert (2 ^ 255 < 2 ^ 256) by reflexivity.
  apply accepted_iff in A; try assumption. destruct A as (_ & N & A). rewrite sval_exact in A by (assumption || nia).
  assert (V : le_val (le_bytes 32 (le_val s + n * q25519)) = le_val s + n * q25519) by (apply le_bytes_small; nia).
  apply accepted_iff; [apply le_bytes_wf|apply le_bytes_length|]. split; [|split; [exact N|]].
  - apply canonical_iff; cbn [sS]; [apply le_bytes_wf|]. rewrite V. split; assumption.
  - rewrite sval_exact by (apply le_bytes_wf || apply le_bytes_length || (rewrite V; exact B)). rewrite V.
    apply (accepts_mod _ _ _ _ _ A). now rewrite Z.mod_add by discriminate.
Qed.
End Wf.

Lemma neutral_accepts m s : wf_bytes m -> wf_bytes s -> length s = 32%nat ->
  low64 (le_val s) <> 0 -> low64 (le_val s) <> low64 q25519 ->
  accepted neutral_key m (enc_point (zmul (sval s) Bpt)) s.
Proof.
  intros Wm W L C1 C2. apply accepted_iff; try assumption; try apply neutral_wf; try apply enc_point_wf; try reflexivity.
  split; [apply canonical_iff; [exact W|split; assumption]|]. split; [discriminate|].
  exists pzero. split; [apply neutral_denotes|]. now rewrite zmul_pzero, psub_pzero.
Qed.
Lemma neutral_accepts_small m s : wf_bytes m -> 0 < s <= 2 ^ 255 -> low64 s <> 0 -> low64 s <> low64 q25519 ->
  accepted neutral_key m (enc_point (zmul s Bpt)) (le_bytes 32 s).
Proof.
  intros Wm B C1 C2. assert (2 ^ 255 < 2 ^ 256) by reflexivity.
  assert (V : le_val (le_bytes 32 s) = s) by (apply le_bytes_small; lia).
  rewrite <- (sval_exact (le_bytes 32 s)) in V; [|apply le_bytes_wf|apply le_bytes_length|rewrite V; lia].
  rewrite <- V at 1. apply neutral_accepts; try assumption; try apply le_bytes_wf; try apply le_bytes_length;
    rewrite le_bytes_small by lia; assumption.
Qed.

(** ** MakeSignatureCanonical *)
Lemma make_canonical_ok r s : wf_bytes s -> length r = 32%nat ->
  make_signature_canonical (Sig r s) = Ok (Sig r (le_bytes 32 (le_val (firstn 64 s) mod q25519))).
Proof.
  intros W L. unfold make_signature_canonical. cbn [sS sR].
  assert (Wz : wf_bytes (all_zero 64)) by (apply wf_repeat; unfold is_byte; lia).
  assert (LL : length (firstn 64 (s ++ all_zero 64)) = 64%nat).
  { rewrite firstn_length_le; [reflexivity|]. rewrite app_length. unfold all_zero. rewrite repeat_length. lia. }
  rewrite new_efe_64 by exact LL. rewrite bind_ok.
  rewrite modQ_bytes; [|apply wf_firstn, Forall_app; split; assumption|exact LL]. rewrite bind_ok.
  unfold new_signature. rewrite L, le_bytes_length. cbn [Nat.eqb negb orb]. do 3 f_equal. f_equal.
  rewrite firstn_app. rewrite le_val_app. rewrite <- (Z.add_0_r (le_val (firstn 64 s))) at 2. f_equal.
  assert (Z0 : forall n, le_val (firstn n (all_zero 64)) = 0).
  { intros n. generalize 64%nat. intros k. revert n. induction k as [|k IH]; intros [|n]; try reflexivity.
    cbn [all_zero repeat firstn le_val]. specialize (IH n). unfold all_zero in IH. rewrite IH. lia. }
  rewrite Z0. lia.
Qed.
Lemma make_canonical_bad r s : wf_bytes s -> length r <> 32%nat -> make_signature_canonical (Sig r s) = Err ErrNewSignature.
Proof.
  intros W L. unfold make_signature_canonical. cbn [sS sR].
  assert (Wz : wf_bytes (all_zero 64)) by (apply wf_repeat; unfold is_byte; lia).
  assert (LL : length (firstn 64 (s ++ all_zero 64)) = 64%nat).
  { rewrite firstn_length_le; [reflexivity|]. rewrite app_length. unfold all_zero. rewrite repeat_length. lia. }
  rewrite new_efe_64 by exact LL. rewrite bind_ok.
  rewrite modQ_bytes; [|apply wf_firstn, Forall_app; split; assumption|exact LL]. rewrite bind_ok.
  unfold new_signature. apply Nat.eqb_neq in L. rewrite L. reflexivity.
Qed.
Lemma make_canonical_32 r s : wf_bytes s -> length r = 32%nat -> length s = 32%nat ->
  make_signature_canonical (Sig r s) = Ok (Sig r (le_bytes 32 (le_val s mod q25519))).
Proof. intros W L L'. rewrite make_canonical_ok by assumption. now rewrite firstn_all2 by lia. Qed.
Lemma make_canonical_idem sg sg' : wf_bytes (sS sg) -> length (sR sg) = 32%nat -> length (sS sg) = 32%nat ->
  make_signature_canonical sg = Ok sg' -> make_signature_canonical sg' = Ok sg'.
Proof.
  destruct sg as [r s]. cbn [sR sS]. intros W L L'. rewrite make_canonical_32 by assumption. intros E.
  assert (Es : sg' = Sig r (le_bytes 32 (le_val s mod q25519))) by congruence. subst sg'.
  rewrite make_canonical_32; [|apply le_bytes_wf|exact L|apply le_bytes_length].
  rewrite q_small, Z.mod_mod by discriminate. reflexivity.
Qed.
Lemma make_canonical_verify pub m r s sg' : wf_bytes pub -> wf_bytes m -> wf_bytes r -> wf_bytes s ->
  length pub = 32%nat -> length r = 32%nat -> length s = 32%nat -> le_val s <= 2 ^ 255 ->
  accepted pub m r s -> make_signature_canonical (Sig r s) = Ok sg' -> is_canonical_signature sg' = true ->
  verify H (KeyPair None pub) m sg' = Ok true.
Proof.
  intros Wp Wm Wr Ws Lp Lr Ls B A E C. rewrite make_canonical_32 in E by assumption.
  assert (Es : sg' = Sig r (le_bytes 32 (le_val s mod q25519))) by congruence. subst sg'.
  apply accepted_iff in A; try assumption. destruct A as (_ & N & A). rewrite sval_exact in A by assumption.
  assert (RS : 0 <= le_val s mod q25519 < q25519) by (apply Z.mod_pos_bound; reflexivity).
  apply accepted_iff; try assumption; [apply le_bytes_wf|apply le_bytes_length|]. split; [exact C|]. split; [exact N|].
  rewrite sval_exact; [|apply le_bytes_wf|apply le_bytes_length|].
  - rewrite q_small. apply (accepts_mod _ _ _ _ _ A). now rewrite Z.mod_mod by discriminate.
  - rewrite q_small. pose proof q_lt. change (2 ^ 255) with (4 * 2 ^ 253). lia.
Qed.

(** ** Verify never panics *)
Lemma verify_bad_pub kp m sg : wf_bytes (kp_pub kp) -> wf_bytes m -> wf_bytes (sR sg) ->
  length (kp_pub kp) <> 32%nat -> length (kp_pub kp) <> 64%nat -> verify H kp m sg = Ok false.
Proof.
  intros Wp Wm WR L1 L2. unfold verify. destruct (is_canonical_signature sg); [|reflexivity]. cbn [negb].
  destruct (beq_bytes (kp_pub kp) (all_zero 32)); [reflexivity|].
  destruct (HH [sR sg; kp_pub kp; m]) as [L W]; [apply wfs3; assumption|].
  rewrite new_efe_64 by exact L. rewrite bind_ok. rewrite modQ_bytes by assumption. rewrite bind_ok.
  rewrite g_decode_bad_length by assumption. reflexivity.
Qed.
Lemma verify_total kp m sg : wf_bytes (kp_pub kp) -> wf_bytes m -> wf_bytes (sR sg) -> wf_bytes (sS sg) ->
  (32 <= length (sS sg))%nat -> exists b, verify H kp m sg = Ok b.
Proof.
  intros Wp Wm WR WS L. destruct (Nat.eq_dec (length (kp_pub kp)) 32) as [L1|L1];
    [|destruct (Nat.eq_dec (length (kp_pub kp)) 64) as [L2|L2]].
  - destruct (verify_gen H HH kp m sg Wp Wm WR WS (or_introl L1) L) as (b & E & _). eauto.
  - destruct (verify_gen H HH kp m sg Wp Wm WR WS (or_intror L2) L) as (b & E & _). eauto.
  - exists false. apply verify_bad_pub; assumption.
Qed.
Lemma verify_bad_R kp m sg : wf_bytes (kp_pub kp) -> wf_bytes m -> wf_bytes (sR sg) -> wf_bytes (sS sg) ->
  (32 <= length (sS sg))%nat -> length (sR sg) <> 32%nat -> verify H kp m sg = Ok false.
Proof.
  intros Wp Wm WR WS L LR.
  assert (K : forall b, verify H kp m sg = Ok b /\ (b = true <-> is_canonical_signature sg = true /\ kp_pub kp <> all_zero 32 /\
     accepts H (kp_pub kp) m (sR sg) (sval (sS sg))) -> verify H kp m sg = Ok false).
  { intros b [E I]. rewrite E. destruct b; [|reflexivity]. exfalso. destruct (proj1 I eq_refl) as (_ & _ & A & _ & F).
    apply LR. rewrite F. apply enc_point_length. }
  destruct (Nat.eq_dec (length (kp_pub kp)) 32) as [L1|L1];
    [|destruct (Nat.eq_dec (length (kp_pub kp)) 64) as [L2|L2]].
  - destruct (verify_gen H HH kp m sg Wp Wm WR WS (or_introl L1) L) as (b & E). apply (K b E).
  - destruct (verify_gen H HH kp m sg Wp Wm WR WS (or_intror L2) L) as (b & E). apply (K b E).
  - apply verify_bad_pub; assumption.
Qed.
Lemma verify_short_S kp m sg : wf_bytes (kp_pub kp) -> wf_bytes m -> wf_bytes (sR sg) ->
  (length (sS sg) < 32)%nat -> length (kp_pub kp) = 32%nat -> is_canonical_signature sg = true ->
  kp_pub kp <> all_zero 32 -> (exists A, denotes (kp_pub kp) A) -> verify H kp m sg = Panic.
Proof.
  intros Wp Wm WR LS Lp C NZ (A & D). unfold verify. rewrite C. cbn [negb].
  destruct (beq_bytes (kp_pub kp) (all_zero 32)) eqn:Z; [apply beq_bytes_eq in Z; contradiction|]. clear Z.
  destruct (HH [sR sg; kp_pub kp; m]) as [L W]; [apply wfs3; assumption|].
  rewrite new_efe_64 by exact L. rewrite bind_ok. rewrite modQ_bytes by assumption. rewrite bind_ok.
  destruct (g_decode_ok (kp_pub kp) Wp (or_introl Lp)) as [(A' & g & D' & -> & R)|[N _]]; [|destruct (N A D)].
  rewrite bind_ok. unfold new_ge. destruct (g_precompute_double_ok g None A' R (or_introl eq_refl)) as (l & -> & T).
  rewrite bind_ok. destruct base_point_ok as (c & -> & _). rewrite bind_ok.
  unfold g_doubleScalarMultiply. fold (challenge H (sR sg) (kp_pub kp) m).
  assert (Rh : 0 <= challenge H (sR sg) (kp_pub kp) m < q25519) by (apply Z.mod_pos_bound; reflexivity).
  revert Rh. generalize (challenge H (sR sg) (kp_pub kp) m). intros h Rh.
  destruct (slide_small h Rh) as (sh & Eh & Vh). rewrite Eh, bind_ok. rewrite slide_short by exact LS. reflexivity.
Qed.
Lemma verify_64 kp m sg : wf_bytes (kp_pub kp) -> wf_bytes m -> wf_bytes (sR sg) -> wf_bytes (sS sg) ->
  length (kp_pub kp) = 64%nat -> length (sS sg) = 32%nat -> le_val (sS sg) <= 2 ^ 255 ->
  exists b, verify H kp m sg = Ok b /\ (b = true <->
    (low64 (le_val (sS sg)) <> 0 /\ low64 (le_val (sS sg)) <> low64 q25519) /\
    exists A, denotes (firstn 32 (kp_pub kp)) A /\
      sR sg = enc_point (psub (zmul (le_val (sS sg)) Bpt) (zmul (challenge H (sR sg) (kp_pub kp) m) A))).
Proof.
  intros Wp Wm WR WS Lp LS V. destruct (verify_gen H HH kp m sg Wp Wm WR WS (or_intror Lp) ltac:(lia)) as (b & E & I).
  exists b. split; [exact E|]. rewrite I, canonical_iff by exact WS. unfold accepts. rewrite sval_exact by assumption.
  assert (N : kp_pub kp <> all_zero 32) by (intros K; rewrite K in Lp; discriminate Lp).
  assert (D : forall A, denotes (firstn 32 (kp_pub kp)) A <-> denotes (kp_pub kp) A).
  { intros A. unfold denotes, y255, sign255. rewrite firstn_firstn. cbn [Nat.min]. reflexivity. }
  split; intros K.
  - destruct K as (K1 & _ & A & K2 & K3). split; [exact K1|]. exists A. rewrite D. split; assumption.
  - destruct K as (K1 & A & K2 & K3). rewrite D in K2. split; [exact K1|]. split; [exact N|]. exists A. split; assumption.
Qed.
(** a 64-byte key is read as its first 32 bytes (but hashed whole) *)
Lemma neutral_64 m : wf_bytes m ->
  verify H (KeyPair None (neutral_key ++ all_zero 32)) m (Sig (enc_point Bpt) (le_bytes 32 1)) = Ok true.
Proof.
  intros Wm. set (pub := neutral_key ++ all_zero 32).
  assert (Wp : wf_bytes pub) by (apply Forall_app; split; [apply neutral_wf|apply zero32_wf]).
  destruct (verify_gen H HH (KeyPair None pub) m (Sig (enc_point Bpt) (le_bytes 32 1))) as (b & E & I); cbn [kp_pub sR sS]; try assumption.
  - apply enc_point_wf.
  - apply le_bytes_wf.
  - right. reflexivity.
  - rewrite le_bytes_length. lia.
  - rewrite E. f_equal. apply I. cbn [kp_pub sR sS]. split; [vm_compute; reflexivity|]. split; [discriminate|].
    exists pzero. split; [exact neutral_denotes|]. rewrite zmul_pzero, psub_pzero.
    rewrite sval_exact; [|apply le_bytes_wf|apply le_bytes_length|]; (rewrite le_bytes_small by (split; [discriminate|reflexivity])).
    + now rewrite zmul_1.
    + discriminate.
Qed.
Lemma verify_zero kp m sg : kp_pub kp = all_zero 32 -> verify H kp m sg = Ok false.
Proof.
  intros E. unfold verify. destruct (is_canonical_signature sg); [|reflexivity]. cbn [negb].
  rewrite E. reflexivity.
Qed.
End H.

(** ** Statements used directly by the property file *)
Section P.
Variable H : list bytes -> bytes.
Hypothesis HH : hash_ok 64 H.

Lemma derived_inv k kp : wf_bytes (pk_raw k) -> new_key_pair H (Some k) None = Ok kp ->
  kp = KeyPair (Some k) (public_key_of H (pk_raw k)).
Proof. intros W E. rewrite (new_key_pair_derived H HH) in E by exact W. congruence. Qed.
Lemma sign_verify_pair k m kp sg : wf_bytes (pk_raw k) -> wf_bytes m ->
  new_key_pair H (Some k) None = Ok kp -> sign H kp m = Ok sg -> verify H kp m sg = Ok true.
Proof. intros Wk Wm E. apply derived_inv in E; [|exact Wk]. subst kp. apply (sign_verify H HH); assumption. Qed.
Lemma sign_verify_pub k m kp sg : wf_bytes (pk_raw k) -> wf_bytes m ->
  new_key_pair H (Some k) None = Ok kp -> sign H kp m = Ok sg ->
  exists kp', new_key_pair H None (Some (kp_pub kp)) = Ok kp' /\ verify H kp' m sg = Ok true.
Proof.
  intros Wk Wm E S. exists (KeyPair None (kp_pub kp)). split.
  - pose proof (derived_inv _ _ Wk E) as ->. cbn [kp_pub]. unfold new_key_pair, is_key_compressed.
    destruct (public_key_wf H (pk_raw k)) as [_ ->]. reflexivity.
  - rewrite <- (verify_pub H kp). apply (sign_verify_pair k); assumption.
Qed.
Lemma sign_total k m pub : wf_bytes (pk_raw k) -> wf_bytes m -> wf_bytes pub ->
  (exists sg, sign H (KeyPair (Some k) pub) m = Ok sg /\ length (sR sg) = 32%nat /\ length (sS sg) = 32%nat /\
     wf_bytes (sR sg) /\ wf_bytes (sS sg) /\ le_val (sS sg) = sig_S H (pk_raw k) pub m /\ le_val (sS sg) < q25519) \/
  sign H (KeyPair (Some k) pub) m = Err ErrNotCanonical.
Proof.
  intros Wk Wm Wp. rewrite (sign_ok H HH k pub m Wk Wp Wm).
  destruct (_ || _); [right; reflexivity|left]. eexists. split; [reflexivity|]. cbn [sR sS].
  split; [apply enc_point_length|]. split; [apply le_bytes_length|]. split; [apply enc_point_wf|]. split; [apply le_bytes_wf|].
  unfold sig_S. rewrite q_small. split; [reflexivity|]. apply Z.mod_pos_bound. reflexivity.
Qed.
Lemma sign_fails_iff k m pub : wf_bytes (pk_raw k) -> wf_bytes m -> wf_bytes pub ->
  (sign H (KeyPair (Some k) pub) m = Err ErrNotCanonical <->
   low64 (sig_S H (pk_raw k) pub m) = 0 \/ low64 (sig_S H (pk_raw k) pub m) = low64 q25519).
Proof.
  intros Wk Wm Wp. rewrite (sign_ok H HH k pub m Wk Wp Wm). rewrite <- !Z.eqb_eq, <- orb_true_iff.
  destruct (_ || _); split; (reflexivity || discriminate).
Qed.
Lemma sign_equations k m pub sg : wf_bytes (pk_raw k) -> wf_bytes m -> wf_bytes pub ->
  sign H (KeyPair (Some k) pub) m = Ok sg ->
  exists a r h, 
    a = secret_scalar H (pk_raw k) /\
    r = le_val (H [skipn 32 (H [pk_raw k]); m]) mod q25519 /\
    sR sg = enc_point (zmul r Bpt) /\
    h = le_val (H [sR sg; pub; m]) mod q25519 /\
    sS sg = le_bytes 32 ((r + h * a) mod q25519).
Proof.
  intros Wk Wm Wp. rewrite (sign_ok H HH k pub m Wk Wp Wm). destruct (_ || _); [discriminate|]. intros E.
  assert (Es : sg = Sig (sig_R H (pk_raw k) m) (le_bytes 32 (sig_S H (pk_raw k) pub m))) by congruence. subst sg.
  cbn [sR sS]. repeat eexists.
Qed.
Lemma honest_malleable k m kp sg : wf_bytes (pk_raw k) -> wf_bytes m ->
  new_key_pair H (Some k) None = Ok kp -> sign H kp m = Ok sg ->
  low64 (le_val (sS sg) + q25519) <> 0 ->
  sS sg <> le_bytes 32 (le_val (sS sg) + q25519) /\
  verify H kp m (Sig (sR sg) (le_bytes 32 (le_val (sS sg) + q25519))) = Ok true.
Proof.
  intros Wk Wm E S C. pose proof (sign_verify_pair k m kp sg Wk Wm E S) as V.
  pose proof (derived_inv _ _ Wk E) as K. subst kp. destruct (public_key_wf H (pk_raw k)) as [Wp Lp].
  destruct (sign_total k m _ Wk Wm Wp) as [(sg' & E' & LR & LS & WR & WS & _ & B)|F]; [|congruence].
  assert (sg' = sg) by congruence. subst sg'. pose proof (le_val_bound _ WS) as P.
  assert (V2 : le_val (le_bytes 32 (le_val (sS sg) + q25519)) = le_val (sS sg) + q25519).
  { apply le_bytes_small. pose proof q_lt. assert (2 ^ 253 < 2 ^ 255) by reflexivity.
    change (2 ^ 256) with (8 * 2 ^ 253). assert (0 < q25519) by reflexivity. lia. }
  split.
  - intros F. rewrite <- F in V2. assert (0 < q25519) by reflexivity. lia.
  - rewrite verify_pub in V |- *. cbn [kp_pub] in *. destruct sg as [R s]. cbn [sR sS] in *.
    replace (le_val s + q25519) with (le_val s + 1 * q25519) in * by lia.
    apply malleable; try assumption; try lia.
    + pose proof q_lt. change (2 ^ 255) with (4 * 2 ^ 253). lia.
    + intros F. apply accepted_iff in V; try assumption. destruct V as (Cn & _). apply canonical_iff in Cn; [|exact WS].
      destruct Cn as [Cn _]. apply Cn. cbn [sS]. unfold low64 in *.
      assert (K : (le_val s + 1 * q25519 - q25519) mod 2 ^ 64 = 0) by (rewrite Zminus_mod, F, Z.sub_diag; reflexivity).
      rewrite <- K. f_equal. lia.
Qed.
Lemma derive_total k : wf_bytes (pk_raw k) -> derive_public_key H k = Ok (public_key_of H (pk_raw k)) /\
  length (public_key_of H (pk_raw k)) = 32%nat /\
  exists g, g_decode (public_key_of H (pk_raw k)) = Ok g /\ repc P3 g (zmul (secret_scalar H (pk_raw k)) Bpt).
Proof.
  intros W. split; [apply (derive_ok H HH), W|]. split; [apply enc_point_length|]. apply g_decode_enc.
Qed.
Lemma scalar_shape key : wf_bytes key -> (8 | secret_scalar H key) /\ 2 ^ 254 <= secret_scalar H key < 2 ^ 255 /\
  length (H [key]) = 64%nat.
Proof.
  intros W. split; [|split].
  - unfold secret_scalar. exists (2 ^ 251 + le_val (firstn 32 (H [key])) mod 2 ^ 254 / 8).
    change (2 ^ 254) with (2 ^ 251 * 8) at 1. ring.
  - unfold secret_scalar.
    pose proof (Z.mod_pos_bound (le_val (firstn 32 (H [key]))) (2 ^ 254) ltac:(reflexivity)) as M.
    pose proof (Z.div_pos (le_val (firstn 32 (H [key])) mod 2 ^ 254) 8 ltac:(lia) ltac:(lia)).
    pose proof (Z.mul_div_le (le_val (firstn 32 (H [key])) mod 2 ^ 254) 8 ltac:(lia)).
    change (2 ^ 255) with (2 ^ 254 + 2 ^ 254). lia.
  - apply HH. apply wfs1, W.
Qed.
Lemma refute_malleable m : wf_bytes m -> exists R s s', s <> s' /\ length s = 32%nat /\ length s' = 32%nat /\
  accepted H neutral_key m R s /\ accepted H neutral_key m R s'.
Proof.
  intros Wm. exists (enc_point (zmul 1 Bpt)), (le_bytes 32 1), (le_bytes 32 (1 + q25519)).
  split; [vm_compute; discriminate|]. split; [reflexivity|]. split; [reflexivity|]. split.
  - apply neutral_accepts_small; try assumption; try (split; [reflexivity|discriminate]); vm_compute; discriminate.
  - replace (zmul 1 Bpt) with (zmul (1 + q25519) Bpt).
    + apply neutral_accepts_small; try assumption; try (split; [reflexivity|discriminate]); vm_compute; discriminate.
    + apply zmul_B_inj. vm_compute. reflexivity.
Qed.
(** S = 2^256 - 1 is used as -1 by the verifier; MakeSignatureCanonical reduces it as 2^256 - 1 *)
Lemma refute_make_canonical m : wf_bytes m ->
  exists R s sg', length R = 32%nat /\ length s = 32%nat /\ wf_bytes R /\ wf_bytes s /\
   accepted H neutral_key m R s /\ make_signature_canonical (Sig R s) = Ok sg' /\
   is_canonical_signature sg' = true /\ verify H (KeyPair None neutral_key) m sg' = Ok false.
Proof.
  intros Wm. set (s := repeat 255 32). set (R := enc_point (zmul (sval s) Bpt)).
  assert (Ws : wf_bytes s) by (apply wf_repeat; unfold is_byte; lia).
  assert (Sv : sval s = -1) by (vm_compute; reflexivity).
  exists R, s, (Sig R (le_bytes 32 (le_val s mod q25519))). split; [apply enc_point_length|]. split; [reflexivity|].
  split; [apply enc_point_wf|]. split; [exact Ws|]. split.
  { apply neutral_accepts; try assumption; try reflexivity; vm_compute; discriminate. }
  split; [apply make_canonical_32; [exact Ws|apply enc_point_length|reflexivity]|]. split.
  { apply canonical_iff; cbn [sS]; [apply le_bytes_wf|]. rewrite q_small. split; vm_compute; discriminate. }
  destruct (verify_gen H HH (KeyPair None neutral_key) m (Sig R (le_bytes 32 (le_val s mod q25519)))) as (b & E & I); cbn [kp_pub sR sS].
  - apply neutral_wf.
  - exact Wm.
  - apply enc_point_wf.
  - apply le_bytes_wf.
  - left. reflexivity.
  - rewrite le_bytes_length. lia.
  - rewrite E. f_equal. destruct b; [|reflexivity]. exfalso. destruct (proj1 I eq_refl) as (_ & _ & A). cbn [sR sS kp_pub] in A.
    rewrite sval_exact in A; [|apply le_bytes_wf|apply le_bytes_length|].
    + rewrite q_small in A.
      assert (A2 : accepts H neutral_key m R (-1)).
      { exists pzero. split; [apply neutral_denotes|]. rewrite zmul_pzero, psub_pzero. unfold R. now rewrite Sv. }
      pose proof (accepts_inj _ _ _ _ _ _ A A2) as F. vm_compute in F. discriminate F.
    + rewrite q_small. vm_compute. discriminate.
Qed.
End P.

(** a hash function for the examples: the output is always 64 (32) bytes 7 *)
Definition H7 (parts : list bytes) : bytes := repeat 7 64.
Lemma H7_ok : hash_ok 64 H7.
Proof. intros parts _. split; [reflexivity|]. apply wf_repeat. unfold is_byte. lia. Qed.
Lemma ex_sign : exists k m kp sg, wf_bytes (pk_raw k) /\ wf_bytes m /\
  new_key_pair H7 (Some k) None = Ok kp /\ sign H7 kp m = Ok sg /\ low64 (le_val (sS sg) + q25519) <> 0.
Proof.
  set (k := new_private_key (le_bytes 32 12345)). set (m := le_bytes 5 99).
  assert (Wk : wf_bytes (pk_raw k)) by apply le_bytes_wf. assert (Wm : wf_bytes m) by apply le_bytes_wf.
  exists k, m, (KeyPair (Some k) (public_key_of H7 (pk_raw k))).
  destruct (public_key_wf H7 (pk_raw k)) as [Wp _].
  assert (SS : sig_S H7 (pk_raw k) (public_key_of H7 (pk_raw k)) m =
    (le_val (repeat 7 64) mod q25519 + le_val (repeat 7 64) mod q25519 *
      (2 ^ 254 + 8 * ((le_val (firstn 32 (repeat 7 64)) mod 2 ^ 254) / 8))) mod q25519) by reflexivity.
  pose proof (sign_ok H7 H7_ok k _ m Wk Wp Wm) as S. cbv zeta in S. rewrite SS in S.
  destruct ((low64 _ =? 0) || _) eqn:C in S; [vm_compute in C; discriminate C|].
  eexists. split; [exact Wk|]. split; [exact Wm|]. split; [apply (new_key_pair_derived H7 H7_ok), Wk|].
  split; [exact S|]. cbn [sS]. vm_compute. discriminate.
Qed.
Lemma public_key_neutral H key : public_key_of H key = neutral_key -> secret_scalar H key mod q25519 = 0.
Proof.
  intros N. unfold neutral_key in N. rewrite <- enc_zero in N. unfold public_key_of in N. apply enc_point_inj in N.
  unfold public_point in N. apply order_B_iff in N. apply Z.mod_divide; [discriminate|exact N].
Qed.
Lemma secret_H7 key : secret_scalar H7 key mod q25519 <> 0.
Proof. intros E. unfold secret_scalar, H7 in E. clear key. vm_compute in E. discriminate E. Qed.
Lemma ex_accepted : exists pub m R s, wf_bytes pub /\ wf_bytes m /\ wf_bytes R /\ wf_bytes s /\
  length pub = 32%nat /\ length R = 32%nat /\ length s = 32%nat /\ le_val s < q25519 /\ pub <> neutral_key /\
  accepted H7 pub m R s.
Proof.
  destruct ex_sign as (k & m & kp & sg & Wk & Wm & E & S & _).
  pose proof (sign_verify_pair H7 H7_ok k m kp sg Wk Wm E S) as V.
  pose proof (derived_inv H7 H7_ok _ _ Wk E) as K. subst kp. destruct (public_key_wf H7 (pk_raw k)) as [Wp Lp].
  destruct (sign_total H7 H7_ok k m _ Wk Wm Wp) as [(sg' & E' & LR & LS & WR & WS & _ & B)|F]; [|congruence].
  assert (sg' = sg) by congruence. subst sg'.
  exists (public_key_of H7 (pk_raw k)), m, (sR sg), (sS sg). repeat (split; [assumption|]).
  split; [|rewrite verify_pub in V; destruct sg; exact V].
  intros N. apply public_key_neutral in N. exact (secret_H7 _ N).
Qed.
Lemma ex_canonical_wrong :
  (exists s, length s = 32%nat /\ wf_bytes s /\ is_canonical_signature (Sig (all_zero 32) s) = true /\ q25519 < le_val s) /\
  (exists s, length s = 32%nat /\ wf_bytes s /\ is_canonical_signature (Sig (all_zero 32) s) = false /\ 0 < le_val s < q25519).
Proof.
  split; [exists (le_bytes 32 (q25519 + 1))|exists (le_bytes 32 (2 ^ 64))]; (split; [reflexivity|]); (split; [apply le_bytes_wf|]);
    (split; [vm_compute; reflexivity|]); vm_compute; [|split]; reflexivity.
Qed.
Lemma canonical_partial sg : wf_bytes (sS sg) -> is_canonical_signature sg = true ->
  le_val (sS sg) <> 0 /\ le_val (sS sg) <> q25519.
Proof.
  intros W C. apply canonical_iff in C; [|exact W]. destruct C as [C1 C2].
  split; intros E; [apply C1|apply C2]; rewrite E; reflexivity.
Qed.
