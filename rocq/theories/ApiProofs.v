(** Proofs about key derivation, signing and verification. *)
From Coq Require Import List ZArith Lia Bool Ring Field Znumtheory.
From Verif Require Import GoBase FieldModel FieldSpec FieldProofs ByteLemmas EncodeProofs
  ScalarModel ScalarProofs Primality Fp Curve Tables BaseCert BasePoint GroupModel GroupSpec FieldPow
  GroupProofs TableProofs PointCodec GroupEq ScalarMul SlideProofs PropFieldLemmas PropGroupLemmas
  ApiModel ApiSpec.
Import ListNotations.
Open Scope Z_scope.

(** ** the base point *)
Lemma copy_rows_ok rows : Forall (fun r : list gcore => (length r <= 8)%nat) rows -> copy_rows rows = Ok rows.
Proof.
  induction 1 as [|r rs Hr Hrs IH]; [reflexivity|]. cbn [copy_rows]. unfold copy_row.
  replace (Nat.ltb 8 (length r)) with false by (symmetry; apply Nat.ltb_ge; exact Hr).
  cbn [bind]. rewrite IH. reflexivity.
Qed.
Lemma base_rows_8 : Forall (fun r : list gcore => (length r <= 8)%nat) base_single.
Proof.
  apply Forall_forall. intros r Hr. apply In_nth_error in Hr as [i Hi].
  destruct (proj2 base_single_ok i r Hi) as [L _]. lia.
Qed.
Lemma base_point_ok : exists c, base_point = Ok (Ge c (Some base_single) (Some base_double)) /\ repc P3 c Bpt.
Proof.
  destruct get_base_point_ok as (c & E & R). exists c. split; [|exact R].
  unfold base_point. rewrite E. cbn [unwrap bind]. unfold g_copy. cbn [single double core].
  rewrite copy_rows_ok by exact base_rows_8. reflexivity.
Qed.

(** ** clamping *)
Lemma upd_length l k v : length (upd l k v) = length l.
Proof. revert k; induction l as [|x l IH]; intros [|k]; cbn [upd length]; try reflexivity. now rewrite IH. Qed.
Lemma upd_wf l k v : wf_bytes l -> is_byte v -> wf_bytes (upd l k v).
Proof.
  intros W B. revert k; induction W as [|x l Hx W IH]; intros [|k]; cbn [upd]; try constructor; auto. apply IH.
Qed.
Lemma upd_val l k v : (k < length l)%nat -> le_val (upd l k v) = le_val l + 256 ^ Z.of_nat k * (v - byte_at l k).
Proof.
  unfold byte_at. revert k; induction l as [|x l IH]; intros [|k] Hk; cbn [upd le_val nth length] in *; try lia.
  rewrite IH by lia. rewrite Nat2Z.inj_succ, Z.pow_succ_r by lia. ring.
Qed.
Lemma upd_at l k v j : (k < length l)%nat -> byte_at (upd l k v) j = if Nat.eqb j k then v else byte_at l j.
Proof.
  unfold byte_at. revert k j; induction l as [|x l IH]; intros [|k] [|j] Hk; cbn [upd nth length Nat.eqb] in *; try lia; try reflexivity.
  apply IH. lia.
Qed.
Lemma land_7f x : is_byte x -> Z.lor (Z.land x 0x7F) 0x40 = 64 + x mod 64.
Proof.
  intros H. apply Z.eqb_eq. revert x H. apply (all_bytes (fun x => Z.lor (Z.land x 0x7F) 0x40 =? 64 + x mod 64)).
  vm_compute. reflexivity.
Qed.
Lemma land_f8 x : is_byte x -> Z.land x 0xF8 = x - x mod 8.
Proof.
  intros H. apply Z.eqb_eq. revert x H. apply (all_bytes (fun x => Z.land x 0xF8 =? x - x mod 8)).
  vm_compute. reflexivity.
Qed.
Lemma byte_top l : wf_bytes l -> length l = 32%nat -> le_val l = le_val (firstn 31 l) + 2 ^ 248 * byte_at l 31.
Proof.
  intros W L. rewrite <- (firstn_skipn 31 l) at 1. rewrite le_val_app, firstn_length_le by lia.
  change (256 ^ Z.of_nat 31) with (2 ^ 248). unfold byte_at.
  assert (S : length (skipn 31 l) = 1%nat) by (rewrite skipn_length; lia).
  assert (N : nth 31 l 0 = nth 0 (skipn 31 l) 0).
  { transitivity (nth 31 (firstn 31 l ++ skipn 31 l) 0); [now rewrite firstn_skipn|].
    rewrite app_nth2; rewrite firstn_length_le by lia; [reflexivity|lia]. }
  rewrite N. clear N.
  destruct (skipn 31 l) as [|x [|y r]]; try discriminate S. cbn [le_val nth]. lia.
Qed.
Lemma clamp_ok a : wf_bytes a -> length a = 32%nat ->
  wf_bytes (clamp a) /\ length (clamp a) = 32%nat /\
  le_val (clamp a) = 2 ^ 254 + 8 * ((le_val a mod 2 ^ 254) / 8).
Proof.
  intros W L. unfold clamp.
  pose proof (byte_at_byte a 31 W) as B31. pose proof (byte_at_byte a 0 W) as B0.
  set (a1 := upd a 31 (Z.land (byte_at a 31) 127)).
  assert (L1 : length a1 = 32%nat) by (unfold a1; rewrite upd_length; exact L).
  assert (T1 : byte_at a1 31 = Z.land (byte_at a 31) 127) by (unfold a1; rewrite upd_at by lia; reflexivity).
  set (a2 := upd a1 31 (Z.lor (byte_at a1 31) 64)).
  assert (L2 : length a2 = 32%nat) by (unfold a2; rewrite upd_length; exact L1).
  assert (T2 : byte_at a2 0 = byte_at a 0).
  { unfold a2. rewrite upd_at by lia. cbn [Nat.eqb]. unfold a1. rewrite upd_at by lia. reflexivity. }
  assert (V1 : le_val a1 = le_val a + 2 ^ 248 * (Z.land (byte_at a 31) 127 - byte_at a 31)).
  { unfold a1. rewrite upd_val by lia. reflexivity. }
  assert (W1 : wf_bytes a1).
  { apply upd_wf; [exact W|]. change 127 with (2 ^ 7 - 1). rewrite land_mask by lia. unfold is_byte.
    pose proof (Z.mod_pos_bound (byte_at a 31) (2 ^ 7) ltac:(reflexivity)). change (2 ^ 7) with 128 in *. lia. }
  assert (V2 : le_val a2 = le_val a + 2 ^ 248 * (64 + byte_at a 31 mod 64 - byte_at a 31)).
  { unfold a2. rewrite upd_val by lia. change (256 ^ Z.of_nat 31) with (2 ^ 248).
    rewrite V1, T1, land_7f by exact B31. ring. }
  assert (W2 : wf_bytes a2).
  { apply upd_wf; [exact W1|]. rewrite T1, land_7f by exact B31. unfold is_byte.
    pose proof (Z.mod_pos_bound (byte_at a 31) 64 ltac:(reflexivity)). lia. }
  split; [|split].
  - apply upd_wf; [exact W2|]. rewrite T2, land_f8 by exact B0. unfold is_byte in *.
    pose proof (Z.mod_pos_bound (byte_at a 0) 8 ltac:(reflexivity)).
    pose proof (Z.mod_le (byte_at a 0) 8 ltac:(lia) ltac:(reflexivity)). lia.
  - rewrite upd_length. exact L2.
  - rewrite upd_val by lia. rewrite T2, land_f8 by exact B0. change (256 ^ Z.of_nat 0) with 1. rewrite V2.
    pose proof (byte_top a W L) as T. 
    assert (M8 : le_val a mod 8 = byte_at a 0 mod 8).
    { unfold byte_at. destruct a as [|x r]; [discriminate L|]. cbn [le_val nth].
      replace (x + 256 * le_val r) with (x + (32 * le_val r) * 8) by ring. apply Z_mod_plus_full. }
    assert (M254 : le_val a mod 2 ^ 254 = le_val (firstn 31 a) + 2 ^ 248 * (byte_at a 31 mod 64)).
    { rewrite T. rewrite (Z.div_mod (byte_at a 31) 64) at 1 by lia.
      replace (le_val (firstn 31 a) + 2 ^ 248 * (64 * (byte_at a 31 / 64) + byte_at a 31 mod 64))
        with (le_val (firstn 31 a) + 2 ^ 248 * (byte_at a 31 mod 64) + byte_at a 31 / 64 * 2 ^ 254) by ring.
      rewrite Z_mod_plus_full. apply Z.mod_small.
      pose proof (le_val_bound (firstn 31 a) (wf_firstn _ _ W)) as B. rewrite firstn_length_le in B by lia.
      change (256 ^ Z.of_nat 31) with (2 ^ 248) in B.
      pose proof (Z.mod_pos_bound (byte_at a 31) 64 ltac:(reflexivity)). change (2 ^ 254) with (64 * 2 ^ 248). nia. }
    assert (M : (le_val a mod 2 ^ 254) mod 8 = byte_at a 0 mod 8).
    { rewrite <- M8. rewrite (Z.mod_eq (le_val a) (2 ^ 254)) by discriminate.
      replace (le_val a - 2 ^ 254 * (le_val a / 2 ^ 254)) with (le_val a + (- 2 ^ 251 * (le_val a / 2 ^ 254)) * 8) by
        (change (2 ^ 254) with (2 ^ 251 * 8); ring). apply Z_mod_plus_full. }
    assert (D : 8 * ((le_val a mod 2 ^ 254) / 8) = le_val a mod 2 ^ 254 - byte_at a 0 mod 8).
    { rewrite <- M. pose proof (Z.div_mod (le_val a mod 2 ^ 254) 8 ltac:(lia)). lia. }
    rewrite D, M254. rewrite T. change (2 ^ 254) with (64 * 2 ^ 248). ring.
Qed.
Lemma secret_scalar_range H key : 2 ^ 254 <= secret_scalar H key < 2 ^ 255 /\ (8 | secret_scalar H key).
Proof.
  unfold secret_scalar. pose proof (Z.mod_pos_bound (le_val (firstn 32 (H [key]))) (2 ^ 254) ltac:(reflexivity)) as B.
  set (m := le_val _ mod 2 ^ 254) in *. clearbody m.
  pose proof (Z.div_mod m 8 ltac:(lia)). pose proof (Z.mod_pos_bound m 8 ltac:(lia)).
  split; [change (2 ^ 255) with (2 * 2 ^ 254); lia|].
  exists (2 ^ 251 + m / 8). change (2 ^ 254) with (8 * 2 ^ 251). ring.
Qed.

Lemma wfs1 a : wf_bytes a -> Forall wf_bytes [a].
Proof. intros A. constructor; [exact A|constructor]. Qed.
Lemma wfs2 a b : wf_bytes a -> wf_bytes b -> Forall wf_bytes [a; b].
Proof. intros A B. constructor; [exact A|apply wfs1, B]. Qed.
Lemma wfs3 a b c : wf_bytes a -> wf_bytes b -> wf_bytes c -> Forall wf_bytes [a; b; c].
Proof. intros A B C. constructor; [exact A|apply wfs2; assumption]. Qed.

Section H.
Variable H : list bytes -> bytes.
Hypothesis HH : hash_ok 64 H.

Lemma H1 k : wf_bytes k -> length (H [k]) = 64%nat /\ wf_bytes (H [k]).
Proof. intros W. apply HH, wfs1, W. Qed.
Lemma prepare_ok k : wf_bytes (pk_raw k) ->
  exists a, prepare_for_scalar_multiply H k = Ok a /\ wf_bytes a /\ length a = 32%nat /\
    le_val a = secret_scalar H (pk_raw k).
Proof.
  intros W. destruct (H1 _ W) as [L W']. unfold prepare_for_scalar_multiply. rewrite L. cbn [Nat.ltb Nat.leb].
  destruct (clamp_ok (firstn 32 (H [pk_raw k]))) as (A1 & A2 & A3).
  - apply wf_firstn, W'.
  - apply firstn_length_le. lia.
  - eauto.
Qed.
Lemma derive_ok k : wf_bytes (pk_raw k) -> derive_public_key H k = Ok (public_key_of H (pk_raw k)).
Proof.
  intros W. unfold derive_public_key. destruct (prepare_ok k W) as (a & -> & Wa & La & Va). cbn [bind].
  destruct base_point_ok as (c & -> & _). cbn [bind].
  destruct (g_scalarMultiply_ok (Ge c (Some base_single) (Some base_double)) base_single Bpt a eq_refl base_single_ok Wa) as (r & R1 & R2).
  - lia.
  - rewrite firstn_all2 by lia. rewrite Va. apply secret_scalar_range.
  - rewrite R1. cbn [unwrap bind]. rewrite firstn_all2 in R2 by lia. rewrite Va in R2.
    rewrite (g_encode_P3 _ _ R2). reflexivity.
Qed.
Lemma public_key_wf key : wf_bytes (public_key_of H key) /\ length (public_key_of H key) = 32%nat.
Proof. split; [apply enc_point_wf|apply enc_point_length]. Qed.
Lemma new_key_pair_derived k : wf_bytes (pk_raw k) ->
  new_key_pair H (Some k) None = Ok (KeyPair (Some k) (public_key_of H (pk_raw k))).
Proof. intros W. unfold new_key_pair. rewrite derive_ok by exact W. reflexivity. Qed.

(** ** canonicity *)
Lemma canonical_iff sg : wf_bytes (sS sg) ->
  (is_canonical_signature sg = true <-> low64 (le_val (sS sg)) <> 0 /\ low64 (le_val (sS sg)) <> low64 q25519).
Proof.
  intros W. unfold is_canonical_signature, get_S, utils_BytesToBigInteger, uint64_of, low64.
  pose proof (le_val_bound _ W) as B. rewrite !Z.abs_eq by (lia || discriminate).
  set (v := le_val (sS sg) mod 2 ^ 64).
  assert (0 <= v) by (apply Z.mod_pos_bound; reflexivity).
  rewrite andb_true_iff, negb_true_iff, Z.eqb_neq, Z.ltb_lt. split; intros []; split; try assumption; lia.
Qed.

(** ** Sign *)
Lemma nonce_range key m : 0 <= nonce H key m < q25519.
Proof. apply Z.mod_pos_bound. reflexivity. Qed.
Lemma q_lt : q25519 < 2 ^ 253. Proof. reflexivity. Qed.
Lemma wf_skipn n (l : bytes) : wf_bytes l -> wf_bytes (skipn n l).
Proof. intros W. rewrite <- (firstn_skipn n l) in W. apply Forall_app in W. apply W. Qed.
Lemma new_efe_64 b : length b = 64%nat -> new_efe b = Ok b.
Proof. intros L. unfold new_efe. rewrite L. reflexivity. Qed.
Lemma hash3_modQ a b c : wf_bytes a -> wf_bytes b -> wf_bytes c ->
  (do h <- new_efe (H [a; b; c]); sc_modQ h) = Ok (le_bytes 32 (challenge H a b c)).
Proof.
  intros Wa Wb Wc. destruct (HH [a; b; c]) as [L W]; [apply wfs3; assumption|].
  rewrite new_efe_64 by exact L. cbn [bind]. apply modQ_bytes; assumption.
Qed.
Lemma base_mul n : 0 <= n < q25519 -> exists B r, base_point = Ok B /\ g_scalarMultiply B (le_bytes 32 n) = Ok r /\
  repc P3 r (zmul n Bpt).
Proof.
  intros R. destruct base_point_ok as (c & E & _).
  assert (V : le_val (le_bytes 32 n) = n).
  { rewrite le_bytes_val. apply Z.mod_small. pose proof q_lt. change (256 ^ Z.of_nat 32) with (8 * 2 ^ 253). lia. }
  destruct (g_scalarMultiply_ok (Ge c (Some base_single) (Some base_double)) base_single Bpt (le_bytes 32 n) eq_refl base_single_ok (le_bytes_wf _ _)) as (r & R1 & R2).
  - rewrite le_bytes_length. lia.
  - rewrite firstn_all2 by (rewrite le_bytes_length; lia). rewrite V. pose proof q_lt. change (2 ^ 255) with (4 * 2 ^ 253). lia.
  - rewrite firstn_all2 in R2 by (rewrite le_bytes_length; lia). rewrite V in R2. eauto.
Qed.
Theorem sign_ok k pub m : wf_bytes (pk_raw k) -> wf_bytes pub -> wf_bytes m ->
  let S := sig_S H (pk_raw k) pub m in
  sign H (KeyPair (Some k) pub) m =
    if (low64 S =? 0) || (low64 S =? low64 q25519) then Err ErrNotCanonical
    else Ok (Sig (sig_R H (pk_raw k) m) (le_bytes 32 S)).
Proof.
  intros Wk Wp Wm. cbv zeta. unfold sign. cbn [has_private_key kp_priv kp_pub negb deref bind].
  destruct (H1 _ Wk) as [L W]. rewrite L. cbn [Nat.ltb Nat.leb].
  destruct (HH [skipn 32 (H [pk_raw k]); m]) as [Lr Wr]; [apply wfs2; [apply wf_skipn, W|exact Wm]|].
  rewrite new_efe_64 by exact Lr. cbn [bind]. rewrite modQ_bytes by assumption. cbn [bind].
  change (le_val (H [skipn 32 (H [pk_raw k]); m]) mod q25519) with (nonce H (pk_raw k) m).
  destruct (base_mul (nonce H (pk_raw k) m) (nonce_range _ _)) as (B & r & -> & E2 & R). cbn [bind]. rewrite E2. cbn [bind].
  rewrite (g_encode_P3 _ _ R). cbn [bind]. fold (sig_R H (pk_raw k) m).
  assert (WR : wf_bytes (sig_R H (pk_raw k) m)) by apply enc_point_wf.
  destruct (HH [sig_R H (pk_raw k) m; pub; m]) as [Lh Wh]; [apply wfs3; assumption|].
  rewrite new_efe_64 by exact Lh. cbn [bind]. rewrite modQ_bytes by assumption. cbn [bind].
  fold (challenge H (sig_R H (pk_raw k) m) pub m).
  destruct (prepare_ok k Wk) as (a & -> & Wa & La & Va). cbn [bind].
  rewrite mulAdd_bytes; try assumption; try apply le_bytes_wf; try apply le_bytes_length. cbn [bind].
  unfold nonce at 1, challenge at 1. rewrite !q_small. fold (nonce H (pk_raw k) m) (challenge H (sig_R H (pk_raw k) m) pub m).
  rewrite Va. rewrite (Z.add_comm (_ * _)). fold (sig_S H (pk_raw k) pub m).
  unfold new_signature. rewrite le_bytes_length. unfold sig_R at 1. rewrite enc_point_length. cbn [Nat.eqb negb orb bind].
  set (S := sig_S H (pk_raw k) pub m). set (R' := sig_R H (pk_raw k) m).
  pose proof (canonical_iff (Sig R' (le_bytes 32 S)) (le_bytes_wf _ _)) as C. cbn [sS] in C.
  assert (V : le_val (le_bytes 32 S) = S) by (unfold S, sig_S; apply q_small). rewrite V in C.
  destruct (is_canonical_signature (Sig R' (le_bytes 32 S))); cbn [negb].
  - destruct (proj1 C eq_refl) as [C1 C2]. apply Z.eqb_neq in C1, C2. rewrite C1, C2. reflexivity.
  - destruct (Z.eqb_spec (low64 S) 0); [reflexivity|]. destruct (Z.eqb_spec (low64 S) (low64 q25519)); [reflexivity|].
    exfalso. assert (false = true) by (apply C; split; assumption). discriminate.
Qed.

End H.
