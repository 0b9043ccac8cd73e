(** Property C82: what Equals and Verify write to the standard output.  Statements; the proofs are in [PropPrintLemmas]. *)
From Coq Require Import String List ZArith.
From Verif Require Import GoBase FieldModel GroupModel GroupSpec TextModel ApiModel ApiSpec HandModel HandSpec PropHandLemmas PropPrintLemmas.
Import ListNotations.
Open Scope Z_scope.

(** Equals of elements in different systems, the argument not convertible: one line without newline, and false. *)
Theorem C82_equals_prints : forall r g, h_cs r <> h_cs g -> ~ In (h_cs g, h_cs r) pairs ->
  equals_stdout r g = pval_text (refusal (h_cs g)) ++ lit ", "%string ++ decimal (h_cs r) ++ lit ", "%string ++ decimal (h_cs g) /\
  snd (h_equals r g) = Val false.
Proof. exact equals_text. Qed.
(** The texts: elements of the systems P2, P3, P1xP1, PRECOMPUTED and CACHED, and of all others. *)
Theorem C82_texts : forall r g, h_cs r <> h_cs g -> ~ In (h_cs g, h_cs r) pairs ->
  equals_stdout r g = lit "NewIllegalArgumentException"%string ++
    (if h_cs g =? 1 then lit " P2"%string else if h_cs g =? 2 then lit " P3"%string else if h_cs g =? 3 then lit " P1xP1"%string
     else if h_cs g =? 4 then lit " PRECOMPUTED"%string else if h_cs g =? 5 then lit " CACHED"%string
     else lit "("%string ++ decimal (h_cs g) ++ lit ")"%string) ++
    lit ", "%string ++ decimal (h_cs r) ++ lit ", "%string ++ decimal (h_cs g).
Proof. exact texts. Qed.
(** With missing coordinates: nothing, or the text of Go's runtime, and then false. *)
Theorem C82_equals_nil : forall r g, h_cs r <> h_cs g -> In (h_cs g, h_cs r) pairs ->
  equals_stdout r g = [] \/
  (snd (h_equals r g) = Val false /\ exists n, (n = h_cs g \/ n = h_cs r) /\
   equals_stdout r g = lit "runtime error: invalid memory address or nil pointer dereference, "%string ++
     decimal (h_cs r) ++ lit ", "%string ++ decimal n).
Proof. exact nil_text. Qed.
(** Nothing otherwise, when no coordinate is missing. *)
Theorem C82_equals_silent : forall r g, whole r -> whole g -> h_cs r = h_cs g \/ In (h_cs g, h_cs r) pairs -> equals_stdout r g = [].
Proof. exact equals_silent. Qed.
Theorem C82_library_elements_whole : forall g,
  (g_cs g = P3 \/ g_cs g = P1xP1 \/ g_cs g = CACHED -> gT g <> None) -> whole (lift g).
Proof. exact lift_whole. Qed.
(** Verify prints one line exactly when it gets to a public key that is no point, and then returns false. *)
Theorem C82_verify_prints : forall H, hash_ok 64 H -> forall kp m sg,
  wf_bytes (kp_pub kp) -> wf_bytes m -> wf_bytes (sR sg) -> wf_bytes (sS sg) ->
  let looked := is_canonical_signature sg = true /\ kp_pub kp <> all_zero 32 in
  let fits := length (kp_pub kp) = 32%nat \/ length (kp_pub kp) = 64%nat in
  (looked -> ~ fits -> verify_stdout H kp m sg = lit "Invalid 2^8 bit representation."%string ++ [10] /\ verify H kp m sg = Ok false) /\
  (looked -> fits -> (forall A, ~ denotes (kp_pub kp) A) ->
     verify_stdout H kp m sg = lit "not a valid Ed25519EncodedGroupElement."%string ++ [10] /\ verify H kp m sg = Ok false) /\
  (~ looked \/ (fits /\ exists A, denotes (kp_pub kp) A) -> verify_stdout H kp m sg = []).
Proof. exact verify_text. Qed.
(** Printing changes no answer. *)
Theorem C82_verify_same : forall H kp m sg, snd (verify_out H kp m sg) = verify H kp m sg.
Proof. exact verify_out_result. Qed.
Example C82_nonvacuous_nil :
  equals_stdout (Hand 1 None None None None) (Hand 2 None None None None) = lit "runtime error: invalid memory address or nil pointer dereference, 1, 1"%string.
Proof. exact nil_example. Qed.
Example C82_nonvacuous : (forall A, ~ denotes (le_bytes 32 2) A) /\ is_canonical_signature (Sig [] (le_bytes 32 1)) = true /\
  equals_stdout (Hand 2 None None None None) (Hand (-7) None None None None) = lit "NewIllegalArgumentException(-7), 2, -7"%string /\
  equals_stdout (Hand 2 None None None None) (Hand 1 None None None None) = lit "NewIllegalArgumentException P2, 2, 1"%string.
Proof. exact print_examples. Qed.

Print Assumptions C82_equals_prints.
Print Assumptions C82_texts.
Print Assumptions C82_equals_nil.
Print Assumptions C82_equals_silent.
Print Assumptions C82_library_elements_whole.
Print Assumptions C82_verify_prints.
Print Assumptions C82_verify_same.
