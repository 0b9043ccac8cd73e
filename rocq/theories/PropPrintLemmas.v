(** Proofs of C82: what Verify prints. *)
From Coq Require Import String List ZArith Lia Bool.
From Verif Require Import GoBase FieldModel FieldSpec ByteLemmas Fp Curve BasePoint GroupModel GroupSpec GroupProofs TableProofs SlideSharp
  PointCodec ScalarMul SlideProofs PropFieldLemmas PropGroupLemmas ScalarModel ApiModel ApiSpec ApiProofs VerifyProofs PropSigLemmas CipherProofs
  PropCipherLemmas NilModel PropNilLemmas TextModel HandModel HandSpec PropHandLemmas.
Import ListNotations.
Open Scope Z_scope.
#[local] Opaque fe_mul fe_add fe_sub fe_sq fe_sq2 fe_encode fe_invert fe_equals fe_is_negative.
Section H.
Variable H : list bytes -> bytes.
Hypothesis HH : hash_ok 64 H.

Lemma verify_out_result kp m sg : snd (verify_out H kp m sg) = verify H kp m sg.
Proof.
  unfold verify_out, verify. destruct (negb (is_canonical_signature sg)); [reflexivity|].
  destruct (beq_bytes (kp_pub kp) (all_zero 32)); [reflexivity|]. cbn zeta.
  match goal with |- snd (println_false ?x) = _ => generalize x end. intros x. destruct x; reflexivity.
Qed.
Lemma verify_prints kp m sg : wf_bytes (kp_pub kp) -> wf_bytes m -> wf_bytes (sR sg) -> wf_bytes (sS sg) ->
  let looked := is_canonical_signature sg = true /\ kp_pub kp <> all_zero 32 in
  let fits := length (kp_pub kp) = 32%nat \/ length (kp_pub kp) = 64%nat in
  (looked -> ~ fits -> fst (verify_out H kp m sg) = [ErrEncodedField]) /\
  (looked -> fits -> (forall A, ~ denotes (kp_pub kp) A) -> fst (verify_out H kp m sg) = [ErrNotOnCurve]) /\
  (~ looked \/ (fits /\ exists A, denotes (kp_pub kp) A) -> fst (verify_out H kp m sg) = []).
Proof.
  intros Wp Wm WR WS looked fits. unfold looked, fits. clear looked fits. unfold verify_out.
  destruct (is_canonical_signature sg) eqn:C; cbn [negb];
    [|split; [intros (Q & _); discriminate Q|]; split; [intros (Q & _); discriminate Q|reflexivity]].
  destruct (beq_bytes (kp_pub kp) (all_zero 32)) eqn:Z.
  { apply beq_bytes_eq in Z. split; [intros (_ & Q); contradiction|]. split; [intros (_ & Q); contradiction|reflexivity]. }
  assert (NZ : kp_pub kp <> all_zero 32) by (intros Q; rewrite (proj2 (beq_bytes_eq _ _) Q) in Z; discriminate Z). clear Z.
  destruct (HH [sR sg; kp_pub kp; m]) as [L W]; [apply wfs3; assumption|]. cbn zeta.
  rewrite new_efe_64 by exact L. rewrite bind_ok. rewrite modQ_bytes by assumption. rewrite bind_ok.
  fold (challenge H (sR sg) (kp_pub kp) m).
  assert (Rh : 0 <= challenge H (sR sg) (kp_pub kp) m < q25519) by (apply Z.mod_pos_bound; reflexivity).
  revert Rh. generalize (challenge H (sR sg) (kp_pub kp) m). intros h Rh.
  split; [|split].
  - intros _ NF. rewrite g_decode_bad_length by tauto. rewrite bind_err. reflexivity.
  - intros _ Lp N. destruct (g_decode_ok (kp_pub kp) Wp Lp) as [(A' & g & D' & _)|[_ ->]]; [destruct (N A' D')|]. rewrite bind_err. reflexivity.
  - intros [Q|(Lp & A & D)]; [elim Q; auto|].
    destruct (g_decode_ok (kp_pub kp) Wp Lp) as [(A' & g & D' & -> & R)|[N _]]; [|destruct (N A D)].
    rewrite bind_ok. unfold new_ge. destruct (g_precompute_double_ok g None A' R (or_introl eq_refl)) as (l & -> & T).
    rewrite bind_ok. destruct base_point_ok as (c & -> & _). rewrite bind_ok.
    destruct (Nat.lt_ge_cases (length (sS sg)) 32) as [LS|LS].
    + unfold g_doubleScalarMultiply. destruct (slide_small h Rh) as (sh & Eh & Vh). rewrite Eh, bind_ok. rewrite slide_short by exact LS. reflexivity.
    + destruct (slide_small h Rh) as (sh & Eh & Vh). destruct (sval_gen _ WS LS) as (ss & Es & Vs).
      destruct (g_dsm_slide (Ge c (Some base_single) (Some base_double)) (Ge g None (Some l)) base_double l Bpt A'
         (le_bytes 32 h) (sS sg) sh ss eq_refl eq_refl base_double_ok T) as (r & E & Rr);
         try assumption; try apply le_bytes_wf; try (rewrite le_bytes_length; lia).
      rewrite E. rewrite bind_ok. rewrite (g_encode_P2 _ _ Rr). rewrite bind_ok. reflexivity.
Qed.
End H.
Lemma equals_text : forall r g, h_cs r <> h_cs g -> ~ In (h_cs g, h_cs r) pairs ->
  equals_stdout r g = pval_text (refusal (h_cs g)) ++ lit ", "%string ++ decimal (h_cs r) ++ lit ", "%string ++ decimal (h_cs g) /\
  snd (h_equals r g) = Val false.
Proof. intros r g N I. unfold equals_stdout. rewrite (equals_refused r g N I). cbn [fst snd flat_map printed_text]. rewrite app_nil_r. split; reflexivity. Qed.
Lemma verify_text H : hash_ok 64 H -> forall kp m sg, wf_bytes (kp_pub kp) -> wf_bytes m -> wf_bytes (sR sg) -> wf_bytes (sS sg) ->
  let looked := is_canonical_signature sg = true /\ kp_pub kp <> all_zero 32 in
  let fits := length (kp_pub kp) = 32%nat \/ length (kp_pub kp) = 64%nat in
  (looked -> ~ fits -> verify_stdout H kp m sg = lit "Invalid 2^8 bit representation."%string ++ [10] /\ verify H kp m sg = Ok false) /\
  (looked -> fits -> (forall A, ~ denotes (kp_pub kp) A) ->
     verify_stdout H kp m sg = lit "not a valid Ed25519EncodedGroupElement."%string ++ [10] /\ verify H kp m sg = Ok false) /\
  (~ looked \/ (fits /\ exists A, denotes (kp_pub kp) A) -> verify_stdout H kp m sg = []).
Proof.
  intros HH kp m sg Wp Wm WR WS looked fits. destruct (verify_prints H HH kp m sg Wp Wm WR WS) as (A & B & C).
  fold looked fits in A, B, C. unfold verify_stdout.
  assert (F : forall e, fst (verify_out H kp m sg) = [e] -> verify H kp m sg = Ok false).
  { intros e E. rewrite <- verify_out_result. unfold verify_out in *. destruct (negb (is_canonical_signature sg)); [discriminate E|].
    destruct (beq_bytes (kp_pub kp) (all_zero 32)); [discriminate E|]. cbn zeta in *. revert E.
    match goal with |- context [println_false ?x] => generalize x end. intros x. destruct x; cbn [println_false fst snd]; [intros Q; discriminate Q|reflexivity|intros Q; discriminate Q]. }
  split; [|split].
  - intros Q1 Q2. specialize (A Q1 Q2). split; [rewrite A; reflexivity|apply (F _ A)].
  - intros Q1 Q2 Q3. specialize (B Q1 Q2 Q3). split; [rewrite B; reflexivity|apply (F _ B)].
  - intros Q. rewrite (C Q). reflexivity.
Qed.
Lemma print_examples : (forall A, ~ denotes (le_bytes 32 2) A) /\ is_canonical_signature (Sig [] (le_bytes 32 1)) = true /\
  equals_stdout (Hand 2 None None None None) (Hand (-7) None None None None) = lit "NewIllegalArgumentException(-7), 2, -7"%string /\
  equals_stdout (Hand 2 None None None None) (Hand 1 None None None None) = lit "NewIllegalArgumentException P2, 2, 1"%string.
Proof.
  split; [intros A (D & _); exact (proj2 decode_examples A D)|]. repeat split; reflexivity.
Qed.
Lemma texts r g : h_cs r <> h_cs g -> ~ In (h_cs g, h_cs r) pairs ->
  equals_stdout r g = lit "NewIllegalArgumentException"%string ++
    (if h_cs g =? 1 then lit " P2"%string else if h_cs g =? 2 then lit " P3"%string else if h_cs g =? 3 then lit " P1xP1"%string
     else if h_cs g =? 4 then lit " PRECOMPUTED"%string else if h_cs g =? 5 then lit " CACHED"%string
     else lit "("%string ++ decimal (h_cs g) ++ lit ")"%string) ++
    lit ", "%string ++ decimal (h_cs r) ++ lit ", "%string ++ decimal (h_cs g).
Proof.
  intros N I. rewrite (proj1 (equals_text r g N I)). clear N I. generalize (h_cs r) as a, (h_cs g) as b. clear r g. intros a b.
  generalize (decimal a) as da. intros da. unfold refusal, system.
  destruct (Z.eqb_spec b 1) as [->|]; [reflexivity|]. destruct (Z.eqb_spec b 2) as [->|]; [reflexivity|].
  destruct (Z.eqb_spec b 3) as [->|]; [reflexivity|]. destruct (Z.eqb_spec b 4) as [->|]; [reflexivity|].
  destruct (Z.eqb_spec b 5) as [->|]; [reflexivity|].
  replace ((1 <=? b) && (b <=? 5)) with false.
  - cbn [pval_text]. change (lit "NewIllegalArgumentException("%string) with (lit "NewIllegalArgumentException"%string ++ lit "("%string).
    rewrite <- !app_assoc. reflexivity.
  - symmetry. apply andb_false_iff. destruct (Z.leb_spec 1 b); [right; apply Z.leb_gt; lia|left; reflexivity].
Qed.
Lemma nil_text r g : h_cs r <> h_cs g -> In (h_cs g, h_cs r) pairs ->
  equals_stdout r g = [] \/
  (snd (h_equals r g) = Val false /\ exists n, (n = h_cs g \/ n = h_cs r) /\
   equals_stdout r g = lit "runtime error: invalid memory address or nil pointer dereference, "%string ++
     decimal (h_cs r) ++ lit ", "%string ++ decimal n).
Proof.
  intros N I. unfold equals_stdout. destruct (equals_different r g N) as (n & Hn & [(-> & _)|(F & v & L)]); [left; reflexivity|].
  right. split; [exact F|]. exists n. split; [exact Hn|].
  assert (V : v = PNil) by (apply (proj2 (value_equals r g) v (h_cs r) n I); rewrite L; left; reflexivity).
  rewrite L, V. cbn [flat_map printed_text]. rewrite app_nil_r. reflexivity.
Qed.
Lemma nil_example :
  equals_stdout (Hand 1 None None None None) (Hand 2 None None None None) = lit "runtime error: invalid memory address or nil pointer dereference, 1, 1"%string.
Proof. reflexivity. Qed.
