(** Lemmas behind the property C60. *)
From Coq Require Import List ZArith Lia Bool Arith.
From Verif Require Import GoBase FieldModel FieldSpec FieldProofs ByteLemmas EncodeProofs ScalarModel ScalarProofs Fp Curve Primality BasePoint GroupModel GroupSpec
  FieldPow GroupProofs TableProofs PointCodec ScalarMul PropFieldLemmas ApiModel ApiSpec ApiProofs VerifyProofs PropSigLemmas CipherProofs PropSecLemmas LeakModel LeakSpec LeakProofs.
Import ListNotations.
Open Scope Z_scope.

Lemma fst_say {A} t (r : res A) : fst (say t r) = t.
Proof. reflexivity. Qed.
Lemma cons_app {A} (x : A) l l' : (x :: l) ++ l' = x :: l ++ l'.
Proof. reflexivity. Qed.
Lemma nil_app {A} (l : list A) : [] ++ l = l.
Proof. reflexivity. Qed.
Lemma tr {A B} (x : leak A) (f : A -> leak B) a t t' : snd x = Ok a -> fst x = t -> fst (f a) = t' -> fst (lbind x f) = t ++ t'.
Proof. intros E <- <-. apply fst_lbind, E. Qed.
Lemma trc {A B} (x : leak A) (f : A -> leak B) a t t' : snd x = Ok a -> fst x = t -> fst (f a) = t' ->
  fst (lbind (checked x) f) = (t ++ [Cond Elsewhere false]) ++ t'.
Proof. intros E T F. apply (tr _ _ a); [rewrite snd_checked; exact E|rewrite (fst_checked x a E), T; reflexivity|exact F]. Qed.
Lemma trs {A B} t (r : res A) (f : A -> leak B) a t' : r = Ok a -> fst (f a) = t' -> fst (lbind (say t r) f) = t ++ t'.
Proof. intros E F. apply (tr _ _ a); [rewrite snd_say; exact E|apply fst_say|exact F]. Qed.
Lemma trcs {A B} t (r : res A) (f : A -> leak B) a t' : r = Ok a -> fst (f a) = t' -> fst (lbind (checked (say t r)) f) = (t ++ [Cond Elsewhere false]) ++ t'.
Proof. intros E F. apply (trc _ _ a); [rewrite snd_say; exact E|apply fst_say|exact F]. Qed.
Lemma enc_bit P : Z.testbit (le_val (enc_point P)) 255 = Fneg (px P).
Proof.
  rewrite enc_point_val. pose proof (val_range (py P)). unfold p25519 in *.
  rewrite Z.testbit_eqb by lia. destruct (Fneg (px P)).
  - replace ((val (py P) + 2 ^ 255) / 2 ^ 255) with 1; [reflexivity|].
    replace (val (py P) + 2 ^ 255) with (val (py P) + 1 * 2 ^ 255) by ring. rewrite Z.div_add by lia. rewrite Z.div_small; lia.
  - rewrite Z.add_0_r, Z.div_small by lia. reflexivity.
Qed.
Lemma encode_trace g P : repc P3 g P -> fst (l_encode g) = [Switch P3; Cond Elsewhere (Z.testbit (le_val (enc_point P)) 255); Len 32].
Proof.
  intros R. rewrite enc_bit. unfold l_encode. rewrite (fst_lbind _ _ g) by reflexivity. rewrite (proj1 R). cbn [say fst app].
  apply rep_P3 in R as (X&Y&Z&T&->&B1&B2&B3&B4&N&E1&E2&E3). unfold l_encode_proj. cbv zeta. cbn [newP3 gX gY gZ].
  assert (Bi : bnd 101 (fe_invert Z)) by (apply bnd_invert; bd).
  assert (Ei : rF (fe_invert Z) = Finv (rF Z)) by (apply rF_invert; bd).
  set (inv := fe_invert Z) in *. clearbody inv.
  set (x := fe_mul X inv). set (y := fe_mul Y inv).
  assert (Ex : fe_is_negative x = Fneg (px P)).
  { unfold x. rewrite fe_is_negative_rF by bd. rewrite rF_mul by bd. rewrite E1, Ei, Z_inv by exact N. reflexivity. }
  rewrite Ex. rewrite (fst_lbind _ _ (set_sign (Fneg (px P)) (fe_encode y))) by reflexivity. cbn [say fst app l_new_ege].
  unfold l_new_ege, say. cbn [fst]. reflexivity.
Qed.
(** any scalar, any table *)
Lemma read_off g rows P a : single g = Some rows -> single_table rows P -> wf_bytes a -> (32 <= length a)%nat -> le_val (firstn 32 a) < 2 ^ 255 ->
  scalar_in (fst (l_scalarMultiply g a)) = le_val (firstn 32 a).
Proof. intros Hs HT W L V. apply (scalar_trace g rows P a Hs HT W L); [exact V|reflexivity]. Qed.
Lemma traces_equal g1 g2 rows1 rows2 P1 P2 a1 a2 : single g1 = Some rows1 -> single_table rows1 P1 -> single g2 = Some rows2 -> single_table rows2 P2 ->
  wf_bytes a1 -> length a1 = 32%nat -> le_val a1 < 2 ^ 255 -> wf_bytes a2 -> length a2 = 32%nat -> le_val a2 < 2 ^ 255 ->
  fst (l_scalarMultiply g1 a1) = fst (l_scalarMultiply g2 a2) <-> a1 = a2.
Proof.
  intros S1 T1 S2 T2 W1 L1 V1 W2 L2 V2. split.
  - intros E. apply (f_equal scalar_in) in E.
    rewrite (read_off g1 rows1 P1), (read_off g2 rows2 P2) in E by (try assumption; rewrite ?firstn_all2; lia).
    rewrite !firstn_all2 in E by lia. apply le_val_inj; try assumption. congruence.
  - intros <-. destruct (to_radix16_ok a1 W1) as (e & E & _); [lia|].
    rewrite (scalarMultiply_trace g1 rows1 P1 a1 e), (scalarMultiply_trace g2 rows2 P2 a1 e) by (try assumption; lia). reflexivity.
Qed.
Lemma otherwise_same g1 g2 rows1 rows2 P1 P2 a1 a2 : single g1 = Some rows1 -> single_table rows1 P1 -> single g2 = Some rows2 -> single_table rows2 P2 ->
  wf_bytes a1 -> (32 <= length a1)%nat -> wf_bytes a2 -> (32 <= length a2)%nat ->
  elsewhere (fst (l_scalarMultiply g1 a1)) = elsewhere (fst (l_scalarMultiply g2 a2)).
Proof.
  intros S1 T1 S2 T2 W1 L1 W2 L2. rewrite (proj1 (proj2 (scalar_trace g1 rows1 P1 a1 S1 T1 W1 L1))).
  rewrite (proj1 (proj2 (scalar_trace g2 rows2 P2 a2 S2 T2 W2 L2))). reflexivity.
Qed.
Lemma select_leaks g rows P pos b1 b2 : single g = Some rows -> single_table rows P -> (pos < 32)%nat -> -8 <= b1 <= 8 -> -8 <= b2 <= 8 ->
  fst (l_select g pos b1) = fst (l_select g pos b2) <-> b1 = b2.
Proof.
  intros Hs HT Hp B1 B2. split; [|intros ->; reflexivity]. intros E.
  rewrite (select_trace g rows P), (select_trace g rows P) in E by (try assumption; lia).
  assert (X : cmov_args (step_trace pos b1) = cmov_args (step_trace pos b2)) by (unfold step_trace; rewrite E; reflexivity).
  rewrite !(proj2 (step_args _ _)) in X. apply (f_equal digit) in X. rewrite !digit_bits in X by lia. exact X.
Qed.

(** a trace around one scalar multiplication *)
Definition quiet (t : list event) : Prop := forallb quiet_event t = true.
Lemma around pre t post : quiet pre -> complete t -> quiet post -> cmov_args (pre ++ t ++ post) = cmov_args t.
Proof.
  intros Q C Q'. destruct (quiet_args pre Q) as (C1 & N1). destruct (quiet_args post Q') as (_ & N2).
  rewrite C1, N1, C, N2, app_nil_r. reflexivity.
Qed.
Lemma quiet_elsewhere t : quiet t -> elsewhere t = t.
Proof.
  unfold quiet, elsewhere. induction t as [|e t IH]; intros Q; [reflexivity|]. cbn [forallb] in Q. apply andb_true_iff in Q as (Q1 & Q2).
  cbn [filter]. destruct e as [[|] c|c|n|p]; try discriminate Q1; f_equal; apply IH; exact Q2.
Qed.

Section L.
Variable H : list bytes -> bytes.
Hypothesis HH : hash_ok 64 H.
Variable G : bytes -> bytes.

Definition enc_tail (pub : bytes) : list event := [Cond Elsewhere false; Switch P3; Cond Elsewhere (Z.testbit (le_val pub) 255); Len 32].
Lemma enc_tail_inj p1 p2 : enc_tail p1 = enc_tail p2 -> Z.testbit (le_val p1) 255 = Z.testbit (le_val p2) 255.
Proof.
  unfold enc_tail. generalize (Z.testbit (le_val p1) 255). generalize (Z.testbit (le_val p2) 255). intros b1 b2 E. congruence.
Qed.
Lemma derive_trace k : wf_bytes (pk_raw k) -> exists t, complete t /\ elsewhere t = sm_elsewhere /\
  (forall u, cmov_args u = cmov_args t -> scalar_in u = secret_scalar H (pk_raw k)) /\
  fst (l_derive H k) = [Len (length (pk_raw k))] ++ t ++ enc_tail (public_key_of H (pk_raw k)).
Proof.
  intros W. destruct (prepare_ok H HH k W) as (a & Ea & Wa & La & Va).
  destruct base_point_ok as (c & Eb & _). set (B := Ge c (Some base_single) (Some base_double)) in *.
  destruct (g_scalarMultiply_ok B base_single Bpt a eq_refl base_single_ok Wa) as (r & R1 & R2); [lia|rewrite firstn_all2 by lia; rewrite Va; apply secret_scalar_range|].
  rewrite firstn_all2 in R2 by lia. rewrite Va in R2.
  destruct (scalar_trace B base_single Bpt a eq_refl base_single_ok Wa ltac:(lia)) as (C & El & Rd).
  exists (fst (l_scalarMultiply B a)). split; [exact C|]. split; [exact El|]. split.
  - intros u U. rewrite (Rd ltac:(rewrite firstn_all2 by lia; rewrite Va; apply secret_scalar_range) u U). rewrite firstn_all2 by lia. exact Va.
  - remember (fst (l_scalarMultiply B a)) as t eqn:Et. clear C El Rd. unfold l_derive. rewrite (fst_lbind _ _ a) by exact Ea. rewrite (fst_lbind _ _ B) by exact Eb. change (fst l_base_point) with (@nil event).
    rewrite (fst_lbind _ _ r) by (unfold must; cbn [snd]; rewrite same_scalarMultiply, R1; reflexivity).
    unfold must. cbn [fst]. rewrite (fst_checked _ r) by (rewrite same_scalarMultiply; exact R1). rewrite <- Et. clear Et.
    cbv zeta. cbn [fst]. rewrite (encode_trace r _ R2). unfold l_prepare, l_base_point, say. cbn [fst].
    unfold enc_tail, public_key_of, public_point. rewrite <- app_assoc. reflexivity.
Qed.
Lemma derive_scalar k : wf_bytes (pk_raw k) -> scalar_in (fst (l_derive H k)) = secret_scalar H (pk_raw k).
Proof.
  intros W. destruct (derive_trace k W) as (t & C & _ & Rd & ->). apply Rd. apply around; [reflexivity|exact C|reflexivity].
Qed.
Lemma derive_elsewhere k1 k2 pub1 pub2 : wf_bytes (pk_raw k1) -> wf_bytes (pk_raw k2) -> length (pk_raw k1) = length (pk_raw k2) ->
  derive_public_key H k1 = Ok pub1 -> derive_public_key H k2 = Ok pub2 -> Z.testbit (le_val pub1) 255 = Z.testbit (le_val pub2) 255 ->
  elsewhere (fst (l_derive H k1)) = elsewhere (fst (l_derive H k2)).
Proof.
  intros W1 W2 L E1 E2 S. rewrite derive_ok in E1, E2 by assumption.
  assert (X1 : pub1 = public_key_of H (pk_raw k1)) by congruence. assert (X2 : pub2 = public_key_of H (pk_raw k2)) by congruence. clear E1 E2.
  destruct (derive_trace k1 W1) as (t1 & _ & El1 & _ & ->). destruct (derive_trace k2 W2) as (t2 & _ & El2 & _ & ->).
  rewrite !elsewhere_app, El1, El2, L. unfold enc_tail. rewrite <- X1, <- X2, S. reflexivity.
Qed.

Definition sign_head (lk lm : nat) : list event :=
  [Cond Elsewhere false; Len lk; Cond Elsewhere false; Len 32; Len lm; Cond Elsewhere false; Len 64; Cond Elsewhere false].
Definition sign_tail (lk lp lm : nat) (R : bytes) : list event :=
  enc_tail R ++ [Cond Elsewhere false; Len 32; Len lp; Len lm; Cond Elsewhere false; Len 64; Cond Elsewhere false;
    Len lk; Len 32; Len 32; Cond Elsewhere false; Cond Elsewhere true; Cond Elsewhere true; Cond Elsewhere false].
Lemma sign_trace k pub m sg : wf_bytes (pk_raw k) -> wf_bytes pub -> wf_bytes m -> sign H (KeyPair (Some k) pub) m = Ok sg ->
  exists t, complete t /\ elsewhere t = sm_elsewhere /\
  (forall u, cmov_args u = cmov_args t -> scalar_in u = nonce H (pk_raw k) m) /\
  fst (l_sign H (KeyPair (Some k) pub) m) = sign_head (length (pk_raw k)) (length m) ++ t ++
    sign_tail (length (pk_raw k)) (length pub) (length m) (sR sg).
Proof.
  intros Wk Wp Wm S0.
  assert (S := S0). rewrite <- same_sign in S.
  pose proof (sign_ok H HH k pub m Wk Wp Wm) as SO. cbv zeta in SO. rewrite S0 in SO.
  set (S' := sig_S H (pk_raw k) pub m) in *.
  destruct ((low64 S' =? 0) || (low64 S' =? low64 q25519)) eqn:Cn in SO; [discriminate SO|].
  assert (ER : sR sg = sig_R H (pk_raw k) m) by (assert (sg = Sig (sig_R H (pk_raw k) m) (le_bytes 32 S')) by congruence; subst sg; reflexivity).
  clear SO S0. rewrite ER.
  destruct (H1 H HH _ Wk) as [L W].
  destruct (HH [skipn 32 (H [pk_raw k]); m]) as [Lr Wr]; [apply wfs2; [apply wf_skipn, W|exact Wm]|].
  destruct base_point_ok as (c & Eb & _). set (B := Ge c (Some base_single) (Some base_double)) in *.
  set (n := nonce H (pk_raw k) m).
  assert (Rn : 0 <= n < q25519) by apply nonce_range. assert (Q : q25519 < 2 ^ 253) by reflexivity.
  assert (V : le_val (le_bytes 32 n) = n) by (apply le_bytes_small; change (2 ^ 256) with (8 * 2 ^ 253); lia).
  destruct (g_scalarMultiply_ok B base_single Bpt (le_bytes 32 n) eq_refl base_single_ok (le_bytes_wf _ _)) as (r & R1 & R2).
  { rewrite le_bytes_length. lia. }
  { rewrite firstn_all2 by (rewrite le_bytes_length; lia). rewrite V. change (2 ^ 255) with (4 * 2 ^ 253). lia. }
  rewrite firstn_all2 in R2 by (rewrite le_bytes_length; lia). rewrite V in R2.
  destruct (scalar_trace B base_single Bpt (le_bytes 32 n) eq_refl base_single_ok (le_bytes_wf _ _)) as (C & El & Rd); [rewrite le_bytes_length; lia|].
  exists (fst (l_scalarMultiply B (le_bytes 32 n))). split; [exact C|]. split; [exact El|]. split.
  { intros u U. rewrite (Rd ltac:(rewrite firstn_all2 by (rewrite le_bytes_length; lia); rewrite V; change (2 ^ 255) with (4 * 2 ^ 253); lia) u U).
    rewrite firstn_all2 by (rewrite le_bytes_length; lia). exact V. }
  remember (fst (l_scalarMultiply B (le_bytes 32 n))) as t eqn:Et. clear C El Rd.
  assert (ERn : enc_point (zmul n Bpt) = sig_R H (pk_raw k) m) by reflexivity.
  pose proof (encode_trace r _ R2) as ET. pose proof (g_encode_P3 _ _ R2) as EG. rewrite ERn in ET, EG. clear ERn.
  unfold l_sign, l_hash, l_new_efe, l_prepare, l_base_point, l_new_signature. eapply eq_trans.
  { eapply (trs [Cond Elsewhere false] (Ok k) _ k); [reflexivity|].
    eapply (trcs _ _ _ (H [pk_raw k])); [reflexivity|].
    eapply (trs _ _ _ (skipn 32 (H [pk_raw k]))); [rewrite L; reflexivity|].
    set (h1 := H [skipn 32 (H [pk_raw k]); m]) in *.
    eapply (trcs _ _ _ h1); [reflexivity|].
    eapply (trcs _ _ _ h1); [exact (new_efe_64 h1 Lr)|].
    eapply (trs _ _ _ (le_bytes 32 n)); [exact (modQ_bytes h1 Wr Lr)|].
    eapply (trs _ _ _ B); [exact Eb|].
    eapply (trc _ _ r); [rewrite same_scalarMultiply; exact R1|symmetry; exact Et|].
    eapply (trc _ _ (sig_R H (pk_raw k) m)); [rewrite same_encode; exact EG|exact ET|].
    set (R := sig_R H (pk_raw k) m) in *.
    assert (LR : length R = 32%nat) by apply enc_point_length. assert (WR : wf_bytes R) by apply enc_point_wf.
    destruct (HH [R; pub; m]) as [Lh Wh]; [apply wfs3; assumption|].
    eapply (trcs _ _ _ (H [R; pub; m])); [reflexivity|].
    eapply (trcs _ _ _ (H [R; pub; m])); [exact (new_efe_64 _ Lh)|].
    eapply (trs _ _ _ (le_bytes 32 (challenge H R pub m))); [exact (modQ_bytes _ Wh Lh)|].
    destruct (prepare_ok H HH k Wk) as (a & Ea & Wa & La & Va).
    eapply (trs _ _ _ a); [exact Ea|].
    assert (M : sc_mulAdd (le_bytes 32 (challenge H R pub m)) a (le_bytes 32 n) = Ok (le_bytes 32 S')).
    { rewrite mulAdd_bytes; try assumption; try apply le_bytes_wf; try apply le_bytes_length.
      rewrite V. unfold challenge. rewrite q_small, Va. rewrite (Z.add_comm (_ * _)). reflexivity. }
    eapply (trs _ _ _ (le_bytes 32 S')); [exact M|].
    assert (NS : new_signature R (le_bytes 32 S') = Ok (Sig R (le_bytes 32 S'))).
    { unfold new_signature. rewrite le_bytes_length, LR. reflexivity. }
    eapply (trcs _ _ _ (Sig R (le_bytes 32 S'))); [exact NS|].
    pose proof (canonical_iff (Sig R (le_bytes 32 S')) (le_bytes_wf _ _)) as CI. cbn [sS] in CI.
    assert (VS : le_val (le_bytes 32 S') = S') by (unfold S', sig_S; apply q_small). rewrite VS in CI.
    apply orb_false_iff in Cn as (C1 & C2). 
    assert (CT : is_canonical_signature (Sig R (le_bytes 32 S')) = true) by (apply CI; split; apply Z.eqb_neq; assumption).
    eapply (tr _ _ true); [rewrite same_canonical, CT; reflexivity| |apply fst_say].
    revert CT. unfold is_canonical_signature, l_is_canonical. cbv zeta.
    destruct (negb (uint64_of (get_S (Sig R (le_bytes 32 S'))) =? uint64_of q25519)); cbn [andb]; [|discriminate].
    intros ->. reflexivity. }
  assert (LR : length (sig_R H (pk_raw k) m) = 32%nat) by apply enc_point_length.
  assert (Lh : length (H [sig_R H (pk_raw k) m; pub; m]) = 64%nat) by (apply HH, wfs3; try assumption; apply enc_point_wf).
  unfold sign_head, sign_tail, enc_tail.
  cbn [map]. rewrite skipn_length, L, Lr, Lh, LR, le_bytes_length.
  change (64 - 32)%nat with 32%nat. rewrite ?fst_say. rewrite <- !app_assoc. rewrite ?cons_app, ?nil_app. reflexivity.
Qed.
Lemma sign_nonce k pub m sg : wf_bytes (pk_raw k) -> wf_bytes pub -> wf_bytes m -> sign H (KeyPair (Some k) pub) m = Ok sg ->
  scalar_in (fst (l_sign H (KeyPair (Some k) pub) m)) = nonce H (pk_raw k) m.
Proof.
  intros Wk Wp Wm S. destruct (sign_trace k pub m sg Wk Wp Wm S) as (t & C & _ & Rd & ->). apply Rd. apply around; [reflexivity|exact C|reflexivity].
Qed.
Lemma sign_elsewhere k1 k2 pub1 pub2 m1 m2 sg1 sg2 : wf_bytes (pk_raw k1) -> wf_bytes (pk_raw k2) -> wf_bytes pub1 -> wf_bytes pub2 ->
  wf_bytes m1 -> wf_bytes m2 -> length (pk_raw k1) = length (pk_raw k2) -> length pub1 = length pub2 -> length m1 = length m2 ->
  sign H (KeyPair (Some k1) pub1) m1 = Ok sg1 -> sign H (KeyPair (Some k2) pub2) m2 = Ok sg2 ->
  Z.testbit (le_val (sR sg1)) 255 = Z.testbit (le_val (sR sg2)) 255 ->
  elsewhere (fst (l_sign H (KeyPair (Some k1) pub1) m1)) = elsewhere (fst (l_sign H (KeyPair (Some k2) pub2) m2)).
Proof.
  intros Wk1 Wk2 Wp1 Wp2 Wm1 Wm2 Lk Lp Lm S1 S2 Sg.
  destruct (sign_trace k1 pub1 m1 sg1 Wk1 Wp1 Wm1 S1) as (t1 & _ & El1 & _ & ->).
  destruct (sign_trace k2 pub2 m2 sg2 Wk2 Wp2 Wm2 S2) as (t2 & _ & El2 & _ & ->).
  rewrite !elsewhere_app, El1, El2, Lk, Lp, Lm. unfold sign_tail, enc_tail. rewrite Sg. reflexivity.
Qed.
(** one signature and the trace of its making *)
Lemma sign_solves k pub m sg : wf_bytes (pk_raw k) -> wf_bytes pub -> wf_bytes m -> sign H (KeyPair (Some k) pub) m = Ok sg ->
  let h := challenge H (sR sg) pub m in
  ~ (q25519 | h) -> secret_scalar H (pk_raw k) mod q25519 =
    ((le_val (sS sg) - scalar_in (fst (l_sign H (KeyPair (Some k) pub) m))) * h ^ (q25519 - 2)) mod q25519.
Proof.
  intros Wk Wp Wm S h N. rewrite (sign_nonce k pub m sg) by assumption. apply solve_scalar; [exact N|].
  destruct (sign_equations H HH k m pub sg Wk Wm Wp S) as (a & r & h' & Ea & Er & ER & Eh & ES).
  rewrite ES, <- Ea. change (nonce H (pk_raw k) m) with (le_val (H [skipn 32 (H [pk_raw k]); m]) mod q25519). rewrite <- Er.
  unfold h, challenge. rewrite <- Eh.
  rewrite q_small. assert (Q : q25519 <> 0) by discriminate. set (q := q25519) in *. clearbody q. clear -Q.
  apply Z.mod_divide; [exact Q|].
  replace ((r + h' * a) mod q - r - h' * a) with (- (q * ((r + h' * a) / q))) by (pose proof (Z.div_mod (r + h' * a) q Q); lia).
  rewrite Z.mul_comm, <- Z.mul_opp_l. apply Z.mod_mul. exact Q.
Qed.
Lemma sign_trace_forges k pub0 pub m sg m' r : wf_bytes (pk_raw k) -> wf_bytes pub0 -> wf_bytes m -> wf_bytes m' -> derive_public_key H k = Ok pub ->
  sign H (KeyPair (Some k) pub0) m = Ok sg ->
  let h := challenge H (sR sg) pub0 m in
  let a := ((le_val (sS sg) - scalar_in (fst (l_sign H (KeyPair (Some k) pub0) m))) * h ^ (q25519 - 2)) mod q25519 in
  let R := enc_point (zmul r Bpt) in
  let s := (r + challenge H R pub m' * a) mod q25519 in
  ~ (q25519 | h) -> low64 s <> 0 -> low64 s <> low64 q25519 ->
  verify H (KeyPair None pub) m' (Sig R (le_bytes 32 s)) = Ok true.
Proof.
  intros Wk Wp Wm Wm' E S h a R s N. apply (forge H HH k a r m' pub Wk Wm' E).
  unfold a, h. rewrite <- (sign_solves k pub0 m sg Wk Wp Wm S N). apply Z.mod_divide; [discriminate|].
  rewrite Zminus_mod, Z.mod_mod, Z.sub_diag by discriminate. reflexivity.
Qed.

Lemma shared_trace k pub salt P : wf_bytes (pk_raw k) -> wf_bytes pub -> length pub = 32%nat -> denotes pub P -> length salt = 32%nat ->
  exists t, complete t /\ elsewhere t = sm_elsewhere /\
  (forall u, cmov_args u = cmov_args t -> scalar_in u = secret_scalar H (pk_raw k)) /\
  fst (l_get_shared_key H G 32 (Some k) pub salt) = [Len (length (pk_raw k))] ++ t ++
    enc_tail (enc_point (zmul (secret_scalar H (pk_raw k)) P)) ++ [Cond Elsewhere false; Len 32].
Proof.
  intros Wk Wp Lp DP Ls.
  destruct (prepare_ok H HH k Wk) as (a & Ea & Wa & La & Va).
  destruct (g_decode_ok pub Wp (or_introl Lp)) as [(A & g & DA & Eg & R)|[N _]]; [|destruct (N P DP)].
  rewrite (denotes_unique _ _ _ DA DP) in R.
  destruct (g_precompute_single_ok g None P R) as (rows & Er & T).
  set (B := Ge g (Some rows) None) in *.
  destruct (g_scalarMultiply_ok B rows P a eq_refl T Wa) as (r & R1 & R2); [lia|rewrite firstn_all2 by lia; rewrite Va; apply secret_scalar_range|].
  rewrite firstn_all2 in R2 by lia. rewrite Va in R2.
  destruct (scalar_trace B rows P a eq_refl T Wa ltac:(lia)) as (C & El & Rd).
  exists (fst (l_scalarMultiply B a)). split; [exact C|]. split; [exact El|]. split.
  - intros u U. rewrite (Rd ltac:(rewrite firstn_all2 by lia; rewrite Va; apply secret_scalar_range) u U). rewrite firstn_all2 by lia. exact Va.
  - remember (fst (l_scalarMultiply B a)) as t eqn:Et. clear C El Rd. unfold l_get_shared_key, l_prepare. eapply eq_trans.
    { eapply (trs _ _ _ pub); [unfold new_ege; rewrite Lp; reflexivity|].
      eapply (trs _ _ _ g); [exact Eg|]. eapply (trs _ _ _ B); [exact Er|].
      eapply (trs _ _ _ k); [reflexivity|]. eapply (trs _ _ _ a); [exact Ea|].
      eapply (trc _ _ r); [rewrite same_scalarMultiply; exact R1|symmetry; exact Et|].
      eapply (trc _ _ (enc_point (zmul (secret_scalar H (pk_raw k)) P))); [rewrite same_encode; exact (g_encode_P3 _ _ R2)|exact (encode_trace r _ R2)|].
      set (sp := enc_point (zmul (secret_scalar H (pk_raw k)) P)).
      eapply (trs _ _ _ (xor_bytes sp salt)); [apply xor_prefix_ok; [apply enc_point_length|exact Ls]|apply fst_say]. }
    rewrite xor_length by (rewrite enc_point_length; symmetry; exact Ls). rewrite enc_point_length.
    unfold enc_tail. rewrite ?fst_say. rewrite <- !app_assoc. rewrite ?cons_app, ?nil_app. reflexivity.
Qed.
Lemma shared_scalar k pub salt P : wf_bytes (pk_raw k) -> wf_bytes pub -> length pub = 32%nat -> denotes pub P -> length salt = 32%nat ->
  scalar_in (fst (l_get_shared_key H G 32 (Some k) pub salt)) = secret_scalar H (pk_raw k).
Proof.
  intros Wk Wp Lp DP Ls. destruct (shared_trace k pub salt P Wk Wp Lp DP Ls) as (t & C & _ & Rd & ->). apply Rd. apply around; [reflexivity|exact C|reflexivity].
Qed.
(** the sign bit of the shared point *)
Lemma shared_elsewhere k1 k2 pub1 pub2 P1 P2 salt1 salt2 : wf_bytes (pk_raw k1) -> wf_bytes (pk_raw k2) -> length (pk_raw k1) = length (pk_raw k2) ->
  wf_bytes pub1 -> length pub1 = 32%nat -> denotes pub1 P1 -> wf_bytes pub2 -> length pub2 = 32%nat -> denotes pub2 P2 ->
  length salt1 = 32%nat -> length salt2 = 32%nat ->
  elsewhere (fst (l_get_shared_key H G 32 (Some k1) pub1 salt1)) = elsewhere (fst (l_get_shared_key H G 32 (Some k2) pub2 salt2)) <->
  Z.testbit (le_val (enc_point (zmul (secret_scalar H (pk_raw k1)) P1))) 255 = Z.testbit (le_val (enc_point (zmul (secret_scalar H (pk_raw k2)) P2))) 255.
Proof.
  intros Wk1 Wk2 Lk W1 L1 D1 W2 L2 D2 S1 S2.
  destruct (shared_trace k1 pub1 salt1 P1) as (t1 & _ & El1 & _ & ->); try assumption.
  destruct (shared_trace k2 pub2 salt2 P2) as (t2 & _ & El2 & _ & ->); try assumption.
  rewrite !elsewhere_app, El1, El2, Lk. rewrite !(quiet_elsewhere (enc_tail _)) by reflexivity. split.
  - intros E. apply app_inv_head, app_inv_head, app_inv_tail in E. exact (enc_tail_inj _ _ E).
  - intros E. unfold enc_tail. rewrite E. reflexivity.
Qed.
End L.

(** ** Examples *)
Lemma ex_leak : exists k m pub sg, wf_bytes (pk_raw k) /\ wf_bytes m /\ wf_bytes pub /\ sign H7 (KeyPair (Some k) pub) m = Ok sg /\
  derive_public_key H7 k = Ok pub /\ ~ (q25519 | challenge H7 (sR sg) pub m).
Proof.
  destruct ex_sign as (k & m & kp & sg & Wk & Wm & Ek & Es & _). pose proof (derived_inv H7 H7_ok k kp Wk Ek) as E. subst kp.
  destruct (public_key_wf H7 (pk_raw k)) as (Wp & _).
  exists k, m, (public_key_of H7 (pk_raw k)), sg. split; [exact Wk|]. split; [exact Wm|]. split; [exact Wp|]. split; [exact Es|].
  split; [apply (derive_ok H7 H7_ok k Wk)|]. unfold challenge, H7. intros D. apply Z.mod_divide in D; [|discriminate]. vm_compute in D. discriminate D.
Qed.
Lemma ex_table : exists g rows P a1 a2, single g = Some rows /\ single_table rows P /\ wf_bytes a1 /\ length a1 = 32%nat /\ le_val a1 < 2 ^ 255 /\
  wf_bytes a2 /\ length a2 = 32%nat /\ le_val a2 < 2 ^ 255 /\ a1 <> a2.
Proof.
  destruct base_point_ok as (c & _). exists (Ge c (Some base_single) (Some base_double)), base_single, Bpt, (le_bytes 32 5), (le_bytes 32 6).
  split; [reflexivity|]. split; [exact base_single_ok|]. split; [apply le_bytes_wf|]. split; [apply le_bytes_length|].
  split; [reflexivity|]. split; [apply le_bytes_wf|]. split; [apply le_bytes_length|]. split; [reflexivity|]. discriminate.
Qed.
