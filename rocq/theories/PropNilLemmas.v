(** Lemmas behind C70: exactly when calls panic. *)
From Coq Require Import List ZArith Lia Bool.
From Verif Require Import GoBase FieldModel FieldSpec ByteLemmas Fp Curve BasePoint GroupModel GroupSpec GroupProofs TableProofs
  PointCodec ScalarMul SlideProofs PropFieldLemmas PropGroupLemmas ScalarModel ApiModel ApiSpec ApiProofs VerifyProofs PropSigLemmas CipherProofs
  PropCipherLemmas NilModel.
Import ListNotations.
Open Scope Z_scope.

Lemma xor_prefix_iff n : forall k salt, (exists x, xor_prefix n k salt = Ok x /\ length x = length k /\ (wf_bytes k -> wf_bytes salt -> wf_bytes x)) /\
    (n <= length k /\ n <= length salt)%nat \/
  xor_prefix n k salt = Panic /\ (length k < n \/ length salt < n)%nat.
Proof.
  induction n as [|n IH]; intros k salt; [left; split; [exists k; repeat split; auto|lia]|].
  destruct k as [|x k]; [right; cbn; split; [reflexivity|lia]|]. destruct salt as [|y s]; [right; cbn; split; [reflexivity|lia]|].
  cbn [xor_prefix length]. destruct (IH k s) as [((r & -> & Lr & Wr) & L)|[-> L]].
  - left. split; [|lia]. exists (Z.lxor x y :: r). split; [reflexivity|]. split; [cbn [length]; lia|]. intros Wk Ws.
    inversion Wk as [|? ? Bx Wk' Ek]. inversion Ws as [|? ? By Ws' Es]. constructor; [apply lxor_byte; assumption|apply Wr; assumption].
  - right. split; [reflexivity|lia].
Qed.
Section S.
Variable H : list bytes -> bytes.
Hypothesis HH : hash_ok 64 H.

(** ** Verify *)
Lemma verify_short kp m sg : wf_bytes (kp_pub kp) -> wf_bytes m -> wf_bytes (sR sg) ->
  (length (sS sg) < 32)%nat -> length (kp_pub kp) = 32%nat \/ length (kp_pub kp) = 64%nat -> is_canonical_signature sg = true ->
  kp_pub kp <> all_zero 32 ->
  verify H kp m sg = Panic <-> exists A, denotes (kp_pub kp) A.
Proof.
  intros Wp Wm WR LS Lp C NZ. unfold verify. rewrite C. cbn [negb].
  destruct (beq_bytes (kp_pub kp) (all_zero 32)) eqn:Z; [apply beq_bytes_eq in Z; contradiction|]. clear Z.
  destruct (HH [sR sg; kp_pub kp; m]) as [L W]; [apply wfs3; assumption|].
  rewrite new_efe_64 by exact L. rewrite bind_ok. rewrite modQ_bytes by assumption. rewrite bind_ok.
  destruct (g_decode_ok (kp_pub kp) Wp Lp) as [(A' & g & D' & -> & R)|[N ->]].
  - rewrite bind_ok. unfold new_ge. destruct (g_precompute_double_ok g None A' R (or_introl eq_refl)) as (l & -> & T).
    rewrite bind_ok. destruct base_point_ok as (c & -> & _). rewrite bind_ok.
    unfold g_doubleScalarMultiply. fold (challenge H (sR sg) (kp_pub kp) m).
    assert (Rh : 0 <= challenge H (sR sg) (kp_pub kp) m < q25519) by (apply Z.mod_pos_bound; reflexivity).
    revert Rh. generalize (challenge H (sR sg) (kp_pub kp) m). intros h Rh.
    destruct (slide_small h Rh) as (sh & Eh & Vh). rewrite Eh, bind_ok. rewrite slide_short by exact LS.
    split; [intros _; exists A'; exact D'|reflexivity].
  - rewrite bind_err. cbn [or_false]. split; [discriminate|]. intros (A & D). destruct (N A D).
Qed.
Lemma verify_panic_iff kp m sg : wf_bytes (kp_pub kp) -> wf_bytes m -> wf_bytes (sR sg) -> wf_bytes (sS sg) ->
  (verify H kp m sg = Panic <->
   is_canonical_signature sg = true /\ (length (sS sg) < 32)%nat /\ kp_pub kp <> all_zero 32 /\
   (length (kp_pub kp) = 32%nat \/ length (kp_pub kp) = 64%nat) /\ exists A, denotes (kp_pub kp) A).
Proof.
  intros Wp Wm WR WS. split.
  - intros E. assert (C : is_canonical_signature sg = true).
    { destruct (is_canonical_signature sg) eqn:C; [reflexivity|]. unfold verify in E. rewrite C in E. discriminate E. }
    split; [exact C|].
    assert (LS : (length (sS sg) < 32)%nat).
    { destruct (Nat.lt_ge_cases (length (sS sg)) 32) as [|L]; [assumption|]. destruct (verify_total H HH kp m sg Wp Wm WR WS L) as (b & Eb).
      rewrite Eb in E. discriminate E. }
    split; [exact LS|].
    assert (NZ : kp_pub kp <> all_zero 32) by (intros Z; rewrite verify_zero in E by exact Z; discriminate E).
    split; [exact NZ|].
    assert (Lp : length (kp_pub kp) = 32%nat \/ length (kp_pub kp) = 64%nat).
    { destruct (Nat.eq_dec (length (kp_pub kp)) 32) as [|N1]; [auto|]. destruct (Nat.eq_dec (length (kp_pub kp)) 64) as [|N2]; [auto|].
      rewrite (verify_bad_pub H HH kp m sg Wp Wm WR N1 N2) in E. discriminate E. }
    split; [exact Lp|]. apply (verify_short kp m sg Wp Wm WR LS Lp C NZ), E.
  - intros (C & LS & NZ & Lp & D). apply (verify_short kp m sg Wp Wm WR LS Lp C NZ), D.
Qed.
Lemma n_verify_agree kp m sg : n_verify H (Some (of_keypair kp)) m (Some sg) = verify H kp m sg.
Proof. unfold n_verify, verify, n_is_canonical_signature. cbn [deref]. rewrite bind_ok. destruct (is_canonical_signature sg); reflexivity. Qed.
Lemma n_verify_panic kp m sg : wf_bytes m ->
  (forall p b, kp = Some p -> gk_pub p = Some b -> wf_bytes b) -> (forall s, sg = Some s -> wf_bytes (sR s) /\ wf_bytes (sS s)) ->
  (n_verify H kp m sg = Panic <->
   sg = None \/
   exists s, sg = Some s /\ low64 (le_val (sS s)) <> 0 /\ low64 (le_val (sS s)) <> low64 q25519 /\
     (kp = None \/ exists p, kp = Some p /\ (gk_pub p = None \/
        exists pub, gk_pub p = Some pub /\ (length (sS s) < 32)%nat /\ pub <> all_zero 32 /\
          (length pub = 32%nat \/ length pub = 64%nat) /\ exists A, denotes pub A))).
Proof.
  intros Wm Wk Wsg. destruct sg as [s|].
  2:{ split; [intros _; left; reflexivity|reflexivity]. }
  destruct (Wsg s eq_refl) as [WR WS]. pose proof (canonical_iff s WS) as C.
  destruct kp as [[k [pub|]]|].
  - assert (Wp : wf_bytes pub) by (apply (Wk (GoKP k (Some pub)) pub); reflexivity).
    change (n_verify H (Some (GoKP k (Some pub))) m (Some s)) with (n_verify H (Some (of_keypair (KeyPair k pub))) m (Some s)).
    rewrite n_verify_agree. rewrite (verify_panic_iff (KeyPair k pub) m s Wp Wm WR WS). cbn [kp_pub]. rewrite C. split.
    + intros ((N0 & Nq) & LS & NZ & Lp & D). right. exists s. split; [reflexivity|]. split; [exact N0|]. split; [exact Nq|]. right.
      eexists. split; [reflexivity|]. right. exists pub. cbn [gk_pub]. auto.
    + intros [E|(s' & E & N0 & Nq & [Z|(p & Ep & [Z|(pub' & Z & LS & NZ & Lp & D)])])]; try discriminate E; try discriminate Z.
      * assert (p = GoKP k (Some pub)) by congruence. subst p. discriminate Z.
      * assert (p = GoKP k (Some pub)) by congruence. subst p. cbn [gk_pub] in Z. assert (pub' = pub) by congruence. assert (s' = s) by congruence. subst. auto.
  - unfold n_verify, n_is_canonical_signature. cbn [deref]. rewrite !bind_ok. destruct (is_canonical_signature s); cbn [negb deref gk_pub bind].
    + split; [intros _|reflexivity]. right. exists s. destruct (proj1 C eq_refl) as [N0 Nq]. split; [reflexivity|]. split; [exact N0|]. split; [exact Nq|].
      right. eexists. split; [reflexivity|]. left. reflexivity.
    + split; [discriminate|]. intros [E|(s' & E & N0 & Nq & _)]; [discriminate E|]. assert (s' = s) by congruence. subst s'.
      assert (X : false = true) by (apply C; auto). discriminate X.
  - unfold n_verify, n_is_canonical_signature. cbn [deref]. rewrite !bind_ok. destruct (is_canonical_signature s); cbn [negb deref gk_pub bind].
    + split; [intros _|reflexivity]. right. exists s. destruct (proj1 C eq_refl) as [N0 Nq]. split; [reflexivity|]. split; [exact N0|]. split; [exact Nq|].
      left. reflexivity.
    + split; [discriminate|]. intros [E|(s' & E & N0 & Nq & _)]; [discriminate E|]. assert (s' = s) by congruence. subst s'.
      assert (X : false = true) by (apply C; auto). discriminate X.
Qed.

(** ** Sign *)
Lemma n_sign_agree kp m : n_sign H (Some (of_keypair kp)) m = sign H kp m.
Proof. destruct kp as [[k|] pub]; reflexivity. Qed.
Lemma n_sign_no_public k m : wf_bytes (pk_raw k) -> wf_bytes m -> n_sign H (Some (GoKP (Some k) None)) m = Panic.
Proof.
  intros Wk Wm. unfold n_sign. cbn [n_has_private_key deref bind gk_priv gk_pub negb].
  destruct (H1 H HH _ Wk) as [L W]. rewrite L. cbn [Nat.ltb Nat.leb].
  destruct (HH [skipn 32 (H [pk_raw k]); m]) as [Lr Wr]; [apply wfs2; [apply wf_skipn, W|exact Wm]|].
  rewrite new_efe_64 by exact Lr. rewrite bind_ok. rewrite modQ_bytes by assumption. rewrite bind_ok.
  change (le_val (H [skipn 32 (H [pk_raw k]); m]) mod q25519) with (nonce H (pk_raw k) m).
  destruct (base_mul (nonce H (pk_raw k) m) (nonce_range H _ _)) as (B & r & -> & E2 & R). rewrite bind_ok. rewrite E2. rewrite bind_ok.
  rewrite (g_encode_P3 _ _ R). reflexivity.
Qed.
Lemma n_sign_panic kp m : wf_bytes m ->
  (forall p, kp = Some p -> (forall k, gk_priv p = Some k -> wf_bytes (pk_raw k)) /\ (forall b, gk_pub p = Some b -> wf_bytes b)) ->
  (n_sign H kp m = Panic <-> kp = None \/ exists k, kp = Some (GoKP (Some k) None)).
Proof.
  intros Wm Wk. destruct kp as [[[k|] pub]|].
  - destruct (Wk _ eq_refl) as [W1 W2]. specialize (W1 k eq_refl). destruct pub as [pub|].
    + specialize (W2 pub eq_refl).
      change (n_sign H (Some (GoKP (Some k) (Some pub))) m) with (n_sign H (Some (of_keypair (KeyPair (Some k) pub))) m). rewrite n_sign_agree.
      split.
      * intros E. destruct (sign_total H HH k m pub W1 Wm W2) as [(sg & Es & _)|Es]; rewrite Es in E; discriminate E.
      * intros [E|(k' & E)]; discriminate E.
    + rewrite n_sign_no_public by assumption. split; [intros _; right; exists k; reflexivity|reflexivity].
  - split; [discriminate|]. intros [E|(k' & E)]; discriminate E.
  - split; [intros _; left; reflexivity|reflexivity].
Qed.

(** ** keys *)
Lemma n_new_key_pair_panic priv pub : (forall k, priv = Some k -> wf_bytes (pk_raw k)) ->
  (n_new_key_pair H priv pub = Panic <-> priv = None /\ pub = None).
Proof.
  intros W. destruct pub as [p|]; unfold n_new_key_pair.
  - destruct (is_key_compressed p); cbn [negb]; (split; [discriminate|intros [_ E]; discriminate E]).
  - unfold n_derive_public_key. destruct priv as [k|]; cbn [deref]; [|split; auto]. rewrite bind_ok.
    rewrite (derive_ok H HH k (W k eq_refl)). rewrite bind_ok. split; [discriminate|intros [E _]; discriminate E].
Qed.
Lemma n_new_key_pair_agree priv pub kp : n_new_key_pair H priv pub = Ok kp <-> exists p, new_key_pair H priv pub = Ok p /\ kp = of_keypair p.
Proof.
  unfold n_new_key_pair, new_key_pair, n_derive_public_key. destruct pub as [p|].
  - destruct (is_key_compressed p); cbn [negb]; split.
    + intros E. eexists. split; [reflexivity|]. unfold of_keypair. cbn [kp_priv kp_pub]. congruence.
    + intros (q & E & ->). assert (q = KeyPair priv p) by congruence. subst q. reflexivity.
    + discriminate.
    + intros (q & E & _). discriminate E.
  - destruct priv as [k|]; cbn [deref]; [rewrite bind_ok|split; [discriminate|intros (q & E & _); discriminate E]].
    destruct (derive_public_key H k) as [p| |]; [rewrite !bind_ok|split; [discriminate|intros (q & E & _); discriminate E]..]. split.
    + intros E. eexists. split; [reflexivity|]. unfold of_keypair. cbn [kp_priv kp_pub]. congruence.
    + intros (q & E & ->). assert (q = KeyPair (Some k) p) by congruence. subst q. reflexivity.
Qed.
Lemma n_generate_no_panic src : wf_bytes src -> n_generate_key_pair H src <> Panic.
Proof.
  intros Ws. unfold n_generate_key_pair. destruct (Nat.le_gt_cases 32 (length src)) as [L|L].
  - rewrite read_full_ok by exact L. rewrite bind_ok. cbn [fst snd]. unfold n_derive_public_key. cbn [deref]. rewrite bind_ok.
    rewrite (derive_ok H HH (new_private_key (firstn 32 src))) by (apply wf_firstn, Ws). rewrite bind_ok. unfold n_new_key_pair, is_key_compressed.
    destruct (public_key_wf H (pk_raw (new_private_key (firstn 32 src)))) as [_ ->]. discriminate.
  - rewrite read_full_eof by exact L. discriminate.
Qed.

(** ** the block cipher *)
Variable G : bytes -> bytes.
Hypothesis HG : hash1_ok 32 G.
Variables E D : bytes -> bytes -> bytes.
Hypothesis C : cipher_ok E D.

Lemma n_new_block_cipher_panic s r : n_new_block_cipher s r = Panic <-> r = None \/ exists k, r = Some (GoKP k None).
Proof.
  destruct r as [[k [pub|]]|]; unfold n_new_block_cipher; cbn [deref]; rewrite ?bind_ok; cbn [gk_pub deref bind]; split;
    try discriminate; try reflexivity; try (intros [X|(k' & X)]; discriminate X); intros _.
  - right. exists k. reflexivity.
  - left. reflexivity.
Qed.
Lemma shared_gen n priv pub salt : wf_bytes pub -> wf_bytes salt -> (forall k, priv = Some k -> wf_bytes (pk_raw k)) ->
  (exists key, get_shared_key H G n priv pub salt = Ok key /\ length key = 32%nat /\ wf_bytes key /\
     length pub = 32%nat /\ (exists P, denotes pub P) /\ priv <> None /\ (n <= 32)%nat /\ (n <= length salt)%nat) \/
  (exists e, get_shared_key H G n priv pub salt = Err e /\ ~ (length pub = 32%nat /\ exists P, denotes pub P)) \/
  get_shared_key H G n priv pub salt = Panic /\ length pub = 32%nat /\ (exists P, denotes pub P) /\
    (priv = None \/ (32 < n)%nat \/ (length salt < n)%nat).
Proof.
  intros Wp Wsalt Wk.
  destruct (Nat.eq_dec (length pub) 32) as [Lp|Lp].
  2:{ rewrite (shared_key_bad_length H G n priv pub salt Lp). right. left. eexists. split; [reflexivity|]. intros (X & _). contradiction. }
  unfold get_shared_key, new_ege. rewrite Lp. change (Nat.eqb 32 32) with true. cbv iota. rewrite bind_ok.
  destruct (g_decode_ok pub Wp (or_introl Lp)) as [(A & g & DA & -> & R)|[N ->]].
  2:{ rewrite bind_err. right. left. eexists. split; [reflexivity|]. intros (_ & P & DP). destruct (N P DP). }
  assert (Dec : exists P, denotes pub P) by (exists A; exact DA).
  rewrite bind_ok. unfold new_ge.
  destruct (g_precompute_single_ok g None A R) as (rows & -> & T). rewrite bind_ok. destruct priv as [k|].
  2:{ right. right. auto. }
  cbn [deref]. rewrite bind_ok. specialize (Wk k eq_refl).
  destruct (prepare_ok H HH k Wk) as (a & -> & Wa & La & Va). rewrite bind_ok.
  destruct (g_scalarMultiply_ok (Ge g (Some rows) None) rows A a eq_refl T Wa) as (r & -> & Rr);
    [lia|rewrite firstn_all2 by lia; rewrite Va; apply secret_scalar_range|].
  rewrite bind_ok. rewrite (g_encode_P3 _ _ Rr), bind_ok. clear Rr.
  match goal with |- context [enc_point ?X] => generalize X end. intros X.
  destruct (xor_prefix_iff n (enc_point X) salt) as [((x & -> & Lx & Wx) & Ln)|[-> Ln]]; rewrite enc_point_length in *.
  - rewrite bind_ok. left. exists (G x). split; [reflexivity|]. destruct (HG x) as [L W]; [apply Wx; [apply enc_point_wf|exact Wsalt]|].
    split; [exact L|]. split; [exact W|]. split; [reflexivity|]. split; [exact Dec|]. split; [discriminate|]. lia.
  - right. right. split; [reflexivity|]. split; [reflexivity|]. split; [exact Dec|]. right. lia.
Qed.
Lemma xor_prefix_value n : forall k salt, (n <= length k)%nat -> (n <= length salt)%nat ->
  xor_prefix n k salt = Ok (xor_bytes (firstn n k) (firstn n salt) ++ skipn n k).
Proof.
  induction n as [|n IH]; intros k salt Lk Ls; [reflexivity|].
  destruct k as [|x k]; [cbn in Lk; lia|]. destruct salt as [|y s]; [cbn in Ls; lia|].
  cbn [xor_prefix firstn skipn xor_bytes app]. rewrite IH by (cbn in Lk, Ls; lia). reflexivity.
Qed.
Lemma shared_value n k pub salt : wf_bytes (pk_raw k) -> wf_bytes pub ->
  (length pub <> 32%nat -> get_shared_key H G n (Some k) pub salt = Err ErrEncodedGroup) /\
  (length pub = 32%nat -> (forall P, ~ denotes pub P) -> get_shared_key H G n (Some k) pub salt = Err ErrNotOnCurve) /\
  (forall P, length pub = 32%nat -> denotes pub P ->
     let x := enc_point (zmul (secret_scalar H (pk_raw k)) P) in
     ((n <= 32)%nat -> (n <= length salt)%nat ->
      get_shared_key H G n (Some k) pub salt = Ok (G (xor_bytes (firstn n x) (firstn n salt) ++ skipn n x))) /\
     ((32 < n)%nat \/ (length salt < n)%nat -> get_shared_key H G n (Some k) pub salt = Panic)).
Proof.
  intros Wk Wp. split; [apply shared_key_bad_length|]. split; [apply shared_key_bad_point, Wp|].
  intros P Lp DP. cbv zeta. unfold get_shared_key, new_ege. rewrite Lp. change (Nat.eqb 32 32) with true. cbv iota. rewrite bind_ok.
  destruct (g_decode_ok pub Wp (or_introl Lp)) as [(A & g & DA & -> & R)|[N _]]; [|destruct (N P DP)].
  rewrite (denotes_unique _ _ _ DA DP) in R. rewrite bind_ok. unfold new_ge.
  destruct (g_precompute_single_ok g None P R) as (rows & -> & T). rewrite bind_ok. cbn [deref]. rewrite bind_ok.
  destruct (prepare_ok H HH k Wk) as (a & -> & Wa & La & Va). rewrite bind_ok.
  destruct (g_scalarMultiply_ok (Ge g (Some rows) None) rows P a eq_refl T Wa) as (r & -> & Rr);
    [lia|rewrite firstn_all2 by lia; rewrite Va; apply secret_scalar_range|].
  rewrite bind_ok. rewrite firstn_all2 in Rr by lia. rewrite Va in Rr. rewrite (g_encode_P3 _ _ Rr), bind_ok. clear Rr.
  pose proof (enc_point_length (zmul (secret_scalar H (pk_raw k)) P)) as Lx. revert Lx.
  generalize (enc_point (zmul (secret_scalar H (pk_raw k)) P)). intros x Lx. split.
  - intros L1 L2. rewrite xor_prefix_value by lia. rewrite bind_ok. reflexivity.
  - intros L. destruct (xor_prefix_iff n x salt) as [(_ & Ln)|[-> _]]; [lia|reflexivity].
Qed.
Lemma n_shared_panic n priv pub salt : (forall b, pub = Some b -> wf_bytes b) -> wf_bytes salt -> (forall k, priv = Some k -> wf_bytes (pk_raw k)) ->
  (n_get_shared_key H G n priv pub salt = Panic <->
   pub = None \/ exists b, pub = Some b /\ length b = 32%nat /\ (exists P, denotes b P) /\
     (priv = None \/ (32 < n)%nat \/ (length salt < n)%nat)).
Proof.
  intros Wp Ws Wk. unfold n_get_shared_key. destruct pub as [b|].
  2:{ cbn [deref bind]. split; [intros _; left; reflexivity|reflexivity]. }
  cbn [deref]. rewrite bind_ok. specialize (Wp b eq_refl).
  destruct (shared_gen n priv b salt Wp Ws Wk) as [(key & -> & _ & _ & _ & _ & Nk & L1 & L2)|[(e & -> & N)|(-> & L & DP & X)]].
  - split; [discriminate|]. intros [X|(b' & _ & _ & _ & [X|[X|X]])]; [discriminate X|contradiction|lia|lia].
  - split; [discriminate|]. intros [X|(b' & Eb & L & DP & _)]; [discriminate X|]. assert (b' = b) by congruence. subst b'. tauto.
  - split; [intros _|reflexivity]. right. exists b. auto.
Qed.
Lemma n_encrypt_panic s r bc src m : wf_bytes src -> wf_bytes m ->
  (forall p k, s = Some p -> gk_priv p = Some k -> wf_bytes (pk_raw k)) -> (forall p b, r = Some p -> gk_pub p = Some b -> wf_bytes b) ->
  n_new_block_cipher s r = Ok bc ->
  exists p pub, r = Some p /\ gk_pub p = Some pub /\
  (n_encrypt H G E bc src m = Panic <-> (length pub <= length src)%nat /\
     (s = None \/ exists q, s = Some q /\ gk_priv q = None /\ length pub = 32%nat /\ exists P, denotes pub P)).
Proof.
  intros Ws Wm Wk Wp Eb. destruct r as [[k [pub|]]|]; unfold n_new_block_cipher in Eb; cbn [deref] in Eb; rewrite ?bind_ok in Eb;
    cbn [gk_pub deref bind] in Eb; try discriminate Eb.
  exists (GoKP k (Some pub)), pub. split; [reflexivity|]. split; [reflexivity|].
  assert (Ebc : bc = GoBC s (Some (GoKP k (Some pub))) (length pub)) by congruence. subst bc. clear Eb.
  specialize (Wp _ pub eq_refl eq_refl). unfold n_encrypt. cbn [gb_keylen gb_sender gb_recipient].
  destruct (Nat.le_gt_cases (length pub) (length src)) as [L|L].
  2:{ rewrite read_full_eof by exact L. rewrite bind_err. split; [discriminate|]. lia. }
  rewrite read_full_ok by exact L. rewrite bind_ok. cbn [fst snd]. destruct s as [[ks ps]|].
  2:{ cbn [deref bind]. split; [intros _; split; [exact L|left; reflexivity]|reflexivity]. }
  cbn [deref]. rewrite !bind_ok. cbn [gk_priv gk_pub]. unfold n_get_shared_key. cbn [deref]. rewrite bind_ok.
  assert (Wf : wf_bytes (firstn (length pub) src)) by (apply wf_firstn, Ws).
  assert (Lf : length (firstn (length pub) src) = length pub) by (apply firstn_length_le, L).
  assert (Sp : ((length pub <= length src)%nat /\ (Some (GoKP ks ps) = None \/ exists q, Some (GoKP ks ps) = Some q /\ gk_priv q = None /\ length pub = 32%nat /\ exists P, denotes pub P)) <->
    length pub = 32%nat /\ (exists P, denotes pub P) /\ ks = None).
  { split.
    - intros (_ & [Z|(q & Eq & Z & X)]); [discriminate Z|]. assert (q = GoKP ks ps) by congruence. subst q. cbn [gk_priv] in Z. tauto.
    - intros (X & Y & Z). split; [exact L|]. right. exists (GoKP ks ps). auto. }
  rewrite Sp. clear Sp.
  destruct (shared_gen (length pub) ks pub (firstn (length pub) src) Wp Wf) as [(key & -> & Lk & WK & L32 & DP & Nk & _)|[(e & -> & N)|(-> & L32 & DP & X)]];
    [intros k0 E0; apply (Wk (GoKP ks ps)); [reflexivity|exact E0]|..].
  - rewrite bind_ok. destruct (Nat.le_gt_cases 16 (length (skipn (length pub) src))) as [L16|L16].
    + rewrite read_full_ok by exact L16. rewrite bind_ok. cbn [fst snd].
      assert (Bi : block (firstn 16 (skipn (length pub) src))) by (split; [apply wf_firstn, wf_skipn, Ws|apply firstn_length_le, L16]).
      destruct (bc_encode_ok E D C m key _ Wm WK Lk Bi) as (c & -> & _). rewrite bind_ok. split; [discriminate|]. tauto.
    + rewrite read_full_eof by exact L16. rewrite bind_err. split; [discriminate|]. tauto.
  - rewrite bind_err. split; [discriminate|]. tauto.
  - cbn [bind]. split; [intros _|reflexivity]. split; [exact L32|]. split; [exact DP|]. rewrite Lf in X. destruct X as [X|[X|X]]; [exact X|lia|lia].
Qed.
Lemma slice_bad b i j : (j < i \/ length b < j)%nat -> slice b i j = Panic.
Proof.
  intros L. unfold slice. destruct (Nat.ltb_spec j i); [reflexivity|]. destruct (Nat.ltb_spec (length b) j); [reflexivity|lia].
Qed.
Lemma n_decrypt_panic s r bc input : wf_bytes input ->
  (forall p k, r = Some p -> gk_priv p = Some k -> wf_bytes (pk_raw k)) -> (forall p b, s = Some p -> gk_pub p = Some b -> wf_bytes b) ->
  n_new_block_cipher s r = Ok bc ->
  exists p rpub, r = Some p /\ gk_pub p = Some rpub /\
  (n_decrypt H G D bc input = Panic <-> (64 <= length input)%nat /\
     ((48 < length rpub)%nat \/ s = None \/ exists q, s = Some q /\ (gk_pub q = None \/
       exists spub, gk_pub q = Some spub /\ length spub = 32%nat /\ (exists P, denotes spub P) /\
         (gk_priv p = None \/ length rpub <> 32%nat \/ (length input mod 16 <> 0)%nat)))).
Proof.
  intros Wi Wk Wp Eb. destruct r as [[k [rpub|]]|]; unfold n_new_block_cipher in Eb; cbn [deref] in Eb; rewrite ?bind_ok in Eb;
    cbn [gk_pub deref bind] in Eb; try discriminate Eb.
  exists (GoKP k (Some rpub)), rpub. split; [reflexivity|]. split; [reflexivity|].
  assert (Ebc : bc = GoBC s (Some (GoKP k (Some rpub))) (length rpub)) by congruence. subst bc. clear Eb.
  unfold n_decrypt. cbn [gb_keylen gb_sender gb_recipient gk_priv].
  destruct (Nat.ltb_spec (length input) 64) as [Ls|Ls]; [split; [discriminate|lia]|].
  destruct (Nat.le_gt_cases (length rpub) 48) as [L48|L48].
  2:{ split; [intros _; split; [exact Ls|left; exact L48]|intros _].
      destruct (Nat.le_gt_cases (length rpub) (length input)) as [L|L]; [rewrite (slice_ok input 0) by lia|rewrite slice_bad by lia; reflexivity].
      rewrite bind_ok. rewrite slice_bad by lia. reflexivity. }
  rewrite (slice_ok input 0) by lia. rewrite bind_ok. rewrite (slice_ok input (length rpub)) by lia. rewrite bind_ok.
  rewrite (slice_ok input 48) by lia. rewrite bind_ok. cbn [deref]. rewrite bind_ok. cbn [gk_priv].
  rewrite Nat.sub_0_r. change (skipn 0 input) with input. replace (firstn (length input - 48) (skipn 48 input)) with (skipn 48 input).
  2:{ symmetry. apply firstn_all2. rewrite skipn_length. lia. }
  destruct s as [[ks ps]|].
  2:{ cbn [deref bind]. split; [intros _; split; [exact Ls|right; left; reflexivity]|reflexivity]. }
  cbn [deref]. rewrite bind_ok. cbn [gk_pub]. unfold n_get_shared_key. destruct ps as [spub|].
  2:{ cbn [deref bind]. split; [intros _; split; [exact Ls|right; right; eexists; split; [reflexivity|left; reflexivity]]|reflexivity]. }
  cbn [deref]. rewrite bind_ok. specialize (Wp _ spub eq_refl eq_refl).
  assert (Wf : wf_bytes (firstn (length rpub) input)) by (apply wf_firstn, Wi).
  assert (Lf : length (firstn (length rpub) input) = length rpub) by (apply firstn_length_le; lia).
  assert (Sp : ((64 <= length input)%nat /\
     ((48 < length rpub)%nat \/ Some (GoKP ks (Some spub)) = None \/ exists q, Some (GoKP ks (Some spub)) = Some q /\ (gk_pub q = None \/
       exists spub0, gk_pub q = Some spub0 /\ length spub0 = 32%nat /\ (exists P, denotes spub0 P) /\
         (k = None \/ length rpub <> 32%nat \/ (length input mod 16 <> 0)%nat)))) <->
    length spub = 32%nat /\ (exists P, denotes spub P) /\ (k = None \/ length rpub <> 32%nat \/ (length input mod 16 <> 0)%nat)).
  { split.
    - intros (_ & [Z|[Z|(q & Eq & [Z|(sp & Es & X)])]]); [lia|discriminate Z|..]; assert (q = GoKP ks (Some spub)) by congruence; subst q; [discriminate Z|].
      cbn [gk_pub] in Es. assert (sp = spub) by congruence. subst sp. exact X.
    - intros X. split; [exact Ls|]. right. right. eexists. split; [reflexivity|]. right. exists spub. split; [reflexivity|exact X]. }
  rewrite Sp. clear Sp.
  destruct (shared_gen (length rpub) k spub (firstn (length rpub) input) Wp Wf) as [(key & -> & Lk & WK & L32 & DP & Nk & Ln & _)|[(e & -> & N)|(-> & L32 & DP & X)]];
    [intros k0 E0; apply (Wk (GoKP k (Some rpub))); [reflexivity|exact E0]|..].
  - rewrite bind_ok. destruct (Nat.eq_dec (length rpub) 32) as [Lr|Lr].
    + rewrite Lr. change (48 - 32)%nat with 16%nat.
      assert (Bi : block (firstn 16 (skipn 32 input))) by (split; [apply wf_firstn, wf_skipn, Wi|apply firstn_length_le; rewrite skipn_length; lia]).
      assert (Lm : (length (skipn 48 input) mod 16 = length input mod 16)%nat).
      { rewrite skipn_length. replace (length input) with (length input - 48 + 3 * 16)%nat at 2 by lia. now rewrite Nat.mod_add by discriminate. }
      destruct (Nat.eq_dec (length input mod 16) 0) as [M|M].
      * destruct (bc_decode_total E D C (skipn 48 input) key (firstn 16 (skipn 32 input)) (wf_skipn 48 _ Wi)) as [(m & ->)|[->| ->]];
          try assumption; try (rewrite Lm; exact M); try (rewrite skipn_length; lia); (split; [discriminate|tauto]).
      * rewrite bc_decode_panic by (assumption || (rewrite Lm; exact M)). tauto.
    + unfold bc_decode, aes_key_ok. rewrite Lk. cbn [Nat.eqb orb negb]. unfold crypt_blocks.
      assert (Li : length (firstn (48 - length rpub) (skipn (length rpub) input)) = (48 - length rpub)%nat)
        by (apply firstn_length_le; rewrite skipn_length; lia).
      rewrite Li. assert (N16 : (48 - length rpub <> 16)%nat) by lia. apply Nat.eqb_neq in N16. rewrite N16. cbn [negb bind]. tauto.
  - rewrite bind_err. split; [discriminate|]. tauto.
  - cbn [bind]. split; [intros _|reflexivity]. split; [exact L32|]. split; [exact DP|]. rewrite Lf in X. destruct X as [X|[X|X]]; [auto|right; left; lia|lia].
Qed.
Lemma n_encrypt_agree s r src m : n_new_block_cipher (Some (of_keypair s)) (Some (of_keypair r)) = Ok (GoBC (Some (of_keypair s)) (Some (of_keypair r)) (length (kp_pub r))) /\
  n_encrypt H G E (GoBC (Some (of_keypair s)) (Some (of_keypair r)) (length (kp_pub r))) src m = encrypt H G E (new_block_cipher s r) src m.
Proof. split; reflexivity. Qed.
Lemma n_decrypt_agree s r input :
  n_decrypt H G D (GoBC (Some (of_keypair s)) (Some (of_keypair r)) (length (kp_pub r))) input = decrypt H G D (new_block_cipher s r) input.
Proof. reflexivity. Qed.
(** ** values made by the constructors *)
Lemma constructed priv pub kp : (forall k, priv = Some k -> wf_bytes (pk_raw k)) -> (forall b, pub = Some b -> wf_bytes b) ->
  n_new_key_pair H priv pub = Ok kp -> gk_priv kp = priv /\ exists b, gk_pub kp = Some b /\ wf_bytes b /\ length b = 32%nat.
Proof.
  intros W1 W2 Ek. unfold n_new_key_pair in Ek. destruct pub as [b|].
  - destruct (is_key_compressed b) eqn:K; cbn [negb] in Ek; [|discriminate Ek]. assert (X : kp = GoKP priv (Some b)) by congruence. rewrite X. cbn [gk_priv gk_pub].
    split; [reflexivity|]. exists b. split; [reflexivity|]. split; [apply W2; reflexivity|]. unfold is_key_compressed in K. apply Nat.eqb_eq in K. lia.
  - unfold n_derive_public_key in Ek. destruct priv as [k|]; cbn [deref] in Ek; [|discriminate Ek]. rewrite bind_ok in Ek.
    rewrite (derive_ok H HH k (W1 k eq_refl)), bind_ok in Ek.
    assert (X : kp = GoKP (Some k) (Some (public_key_of H (pk_raw k)))) by congruence. rewrite X. cbn [gk_priv gk_pub].
    split; [reflexivity|]. destruct (public_key_wf H (pk_raw k)) as [W L]. eauto.
Qed.
Lemma constructed_sign_verify priv pub kp m r s sg : (forall k, priv = Some k -> wf_bytes (pk_raw k)) -> (forall b, pub = Some b -> wf_bytes b) ->
  wf_bytes m -> wf_bytes r -> wf_bytes s -> n_new_key_pair H priv pub = Ok kp -> new_signature r s = Ok sg ->
  n_sign H (Some kp) m <> Panic /\ n_verify H (Some kp) m (Some sg) <> Panic.
Proof.
  intros W1 W2 Wm Wr Ws Ek Es. destruct (constructed priv pub kp W1 W2 Ek) as (E1 & b & E2 & Wb & Lb). split; intros X.
  - apply n_sign_panic in X; [|exact Wm|].
    + destruct X as [X|(k & X)]; [discriminate X|]. assert (Y : kp = GoKP (Some k) None) by congruence. rewrite Y in E2. discriminate E2.
    + intros p Ep. assert (Y : p = kp) by congruence. rewrite Y, E1. split; [exact W1|]. intros b' Eb. rewrite E2 in Eb. assert (b' = b) by congruence. subst b'. exact Wb.
  - unfold new_signature in Es. destruct (negb _ || negb _) eqn:L in Es; [discriminate Es|]. apply orb_false_iff in L as [_ L].
    apply negb_false_iff, Nat.eqb_eq in L. assert (Z : sg = Sig r s) by congruence. rewrite Z in X. clear Es Z.
    apply n_verify_panic in X; [|exact Wm|..].
    + destruct X as [X|(s' & X & _ & _ & [Y|(p & Ep & [Y|(pb & _ & Y & _)])])]; try discriminate X; try discriminate Y.
      * assert (p = kp) by congruence. subst p. rewrite E2 in Y. discriminate Y.
      * assert (s' = Sig r s) by congruence. subst s'. cbn [sS] in Y. lia.
    + intros p b' Ep Eb. assert (p = kp) by congruence. subst p. rewrite E2 in Eb. assert (b' = b) by congruence. subst b'. exact Wb.
    + intros s' E'. assert (s' = Sig r s) by congruence. subst s'. split; assumption.
Qed.
Lemma constructed_cipher k1 pub1 kp1 k2 pub2 kp2 : wf_bytes (pk_raw k1) -> wf_bytes (pk_raw k2) ->
  (forall b, pub1 = Some b -> wf_bytes b) -> (forall b, pub2 = Some b -> wf_bytes b) ->
  n_new_key_pair H (Some k1) pub1 = Ok kp1 -> n_new_key_pair H (Some k2) pub2 = Ok kp2 ->
  exists bc, n_new_block_cipher (Some kp1) (Some kp2) = Ok bc /\
    (forall src m, wf_bytes src -> wf_bytes m -> n_encrypt H G E bc src m <> Panic) /\
    (forall input, wf_bytes input -> (length input < 64)%nat \/ (length input mod 16 = 0)%nat -> n_decrypt H G D bc input <> Panic).
Proof.
  intros W1 W2 P1 P2 E1 E2.
  destruct (constructed (Some k1) pub1 kp1 ltac:(intros k K; assert (k = k1) by congruence; subst k; exact W1) P1 E1) as (A1 & b1 & B1 & Wb1 & Lb1).
  destruct (constructed (Some k2) pub2 kp2 ltac:(intros k K; assert (k = k2) by congruence; subst k; exact W2) P2 E2) as (A2 & b2 & B2 & Wb2 & Lb2).
  assert (Eb : n_new_block_cipher (Some kp1) (Some kp2) = Ok (GoBC (Some kp1) (Some kp2) (length b2))).
  { unfold n_new_block_cipher. cbn [deref]. rewrite bind_ok, B2. reflexivity. }
  eexists. split; [exact Eb|]. split.
  - intros src m Ws Wm X. destruct (n_encrypt_panic (Some kp1) (Some kp2) (GoBC (Some kp1) (Some kp2) (length b2)) src m Ws Wm) as (p & pb & _ & _ & I); [| |exact Eb|].
    + intros p k Ep Ek. assert (p = kp1) by congruence. subst p. rewrite A1 in Ek. assert (k = k1) by congruence. subst k. exact W1.
    + intros p b Ep Ek. assert (p = kp2) by congruence. subst p. rewrite B2 in Ek. assert (b = b2) by congruence. subst b. exact Wb2.
    + apply I in X. destruct X as (_ & [Z|(q & Eq & Z & _)]); [discriminate Z|]. assert (q = kp1) by congruence. subst q. rewrite A1 in Z. discriminate Z.
  - intros input Wi L X. destruct (n_decrypt_panic (Some kp1) (Some kp2) (GoBC (Some kp1) (Some kp2) (length b2)) input Wi) as (p & rp & Ep & Er & I); [| |exact Eb|].
    + intros p k Ep Ek. assert (p = kp2) by congruence. subst p. rewrite A2 in Ek. assert (k = k2) by congruence. subst k. exact W2.
    + intros p b Ep Ek. assert (p = kp1) by congruence. subst p. rewrite B1 in Ek. assert (b = b1) by congruence. subst b. exact Wb1.
    + apply I in X. assert (p = kp2) by congruence. subst p. rewrite B2 in Er. assert (rp = b2) by congruence. subst rp.
      destruct X as (L64 & [Z|[Z|(q & Eq & [Z|(sp & _ & _ & _ & [Z|[Z|Z]])])]]); try lia; try discriminate Z.
      * assert (q = kp1) by congruence. subst q. rewrite B1 in Z. discriminate Z.
      * rewrite A2 in Z. discriminate Z.
Qed.
End S.

(** ** examples *)
(** a signature that fails the canonicity test is rejected even by a nil key pair; a short S part that passes it *)
Lemma ex_order : n_verify H7 None [] (Some (Sig (all_zero 32) (all_zero 32))) = Ok false /\
  n_verify H7 None [] (Some (Sig (all_zero 32) (le_bytes 32 1))) = Panic /\
  exists s pub, low64 (le_val (sS s)) <> 0 /\ low64 (le_val (sS s)) <> low64 q25519 /\ (length (sS s) < 32)%nat /\ pub <> all_zero 32 /\
    length pub = 32%nat /\ wf_bytes (sR s) /\ wf_bytes (sS s) /\ wf_bytes pub /\ exists A, denotes pub A.
Proof.
  split; [reflexivity|]. split; [reflexivity|]. exists (Sig [] [1]), neutral_key. cbn [sS sR].
  split; [vm_compute; discriminate|]. split; [vm_compute; discriminate|]. split; [cbn; lia|]. split; [discriminate|]. split; [reflexivity|].
  split; [constructor|]. split; [constructor; [unfold is_byte; lia|constructor]|]. split; [apply neutral_wf|]. exists pzero. exact neutral_denotes.
Qed.
Lemma ex_constructed : exists k1 kp1 k2 kp2 sg, wf_bytes (pk_raw k1) /\ wf_bytes (pk_raw k2) /\
  n_new_key_pair H7 (Some k1) None = Ok kp1 /\ n_new_key_pair H7 (Some k2) (Some neutral_key) = Ok kp2 /\ new_signature (all_zero 32) (all_zero 32) = Ok sg.
Proof.
  exists (new_private_key [1]). eexists. exists (new_private_key [2]). eexists. eexists.
  assert (W : forall x, is_byte x -> wf_bytes [x]) by (intros x B; constructor; [exact B|constructor]).
  split; [apply W; unfold is_byte; lia|]. split; [apply W; unfold is_byte; lia|]. split; [|split; reflexivity].
  unfold n_new_key_pair, n_derive_public_key. cbn [deref]. rewrite bind_ok. rewrite (derive_ok H7 H7_ok) by (apply W; unfold is_byte; lia). rewrite bind_ok. reflexivity.
Qed.
(** the helpers. *)
Lemma n_canonical_panic sg : n_is_canonical_signature sg = Panic <-> sg = None.
Proof. destruct sg; split; intro X; (reflexivity || discriminate X). Qed.
Lemma n_has_private_panic kp : n_has_private_key kp = Panic <-> kp = None.
Proof. destruct kp; split; intro X; (reflexivity || discriminate X). Qed.
Lemma n_make_canonical_panic sg : n_make_signature_canonical sg = Panic <-> sg = None.
Proof.
  destruct sg as [s|]; [|split; reflexivity]. split; [|intros X; discriminate X].
  unfold n_make_signature_canonical, make_signature_canonical. cbn [deref]. rewrite bind_ok. cbv zeta.
  assert (L : length (firstn 64 (sS s ++ all_zero 64)) = 64%nat).
  { rewrite firstn_length, app_length. unfold all_zero. rewrite repeat_length. lia. }
  unfold new_efe. rewrite L. cbn [Nat.eqb orb]. rewrite bind_ok. unfold sc_modQ. rewrite L. cbn [Nat.ltb Nat.leb]. rewrite bind_ok.
  unfold new_signature. destruct (_ || _)%bool; intros X; discriminate X.
Qed.
Lemma n_derive_panic H : hash_ok 64 H -> forall priv, (forall k, priv = Some k -> wf_bytes (pk_raw k)) ->
  (n_derive_public_key H priv = Panic <-> priv = None).
Proof.
  intros HH [k|] W; [|split; reflexivity]. split; [|intros X; discriminate X].
  unfold n_derive_public_key. cbn [deref]. rewrite bind_ok, (derive_ok H HH) by (apply W; reflexivity). intros X; discriminate X.
Qed.
Lemma n_same_calls_2 H k sg kp :
  n_derive_public_key H (Some k) = derive_public_key H k /\
  n_is_canonical_signature (Some sg) = Ok (is_canonical_signature sg) /\
  n_make_signature_canonical (Some sg) = make_signature_canonical sg /\
  n_has_private_key (Some (of_keypair kp)) = Ok (has_private_key kp).
Proof. repeat split. Qed.
Lemma n_generate_agree H src : n_generate_key_pair H src = (do r <- generate_key_pair H src; Ok (of_keypair (fst r), snd r)).
Proof.
  unfold n_generate_key_pair, generate_key_pair. destruct (read_full src 32) as [sr|e|]; cbn [bind]; try reflexivity.
  unfold n_derive_public_key. cbn [deref bind]. destruct (derive_public_key H (new_private_key (fst sr))) as [p|e|]; cbn [bind]; try reflexivity.
  unfold n_new_key_pair, new_key_pair. destruct (is_key_compressed p); reflexivity.
Qed.
