(** Runs of the model on vectors of the repository's own tests
    (tests of the transcription, not proofs; nothing depends on this file). *)
From Verif Require Import GoBase FieldModel GroupModel ApiModel HashModel AesModel.
From Coq Require Import String Ascii.
Open Scope Z_scope.

Definition str (s : string) : bytes := map (fun c => Z.of_nat (nat_of_ascii c)) (list_ascii_of_string s).
Definition hex (s : string) : bytes := ok_bytes (hex_decode (str s)).

(** crypto_test.go:20-50 *)
Goal True.
  let b := eval vm_compute in
    (hex_encode (ok_bytes (HashesKeccak_256 (hex "B778A39A3663719DFC5E48C9D78431B1E45C2AF9DF538782BF199C189DABEAC7")))) in
  let c := eval vm_compute in (str "241c1d54c18c8422def03aa16b4b243a8ba491374295a1a6965545e6ac1af314") in
  unify b c.
  let b := eval vm_compute in
    (hex_encode (sha3_256 (hex "B778A39A3663719DFC5E48C9D78431B1E45C2AF9DF538782BF199C189DABEAC7"))) in
  let c := eval vm_compute in (str "9b3155b37159da50aa52d5967c509b410f5a36a3b1e31ecb5ac76675d79b4a5e") in
  unify b c.
  let b := eval vm_compute in
    (hex_encode (sha3_512 [hex "B778A39A3663719DFC5E48C9D78431B1E45C2AF9DF538782BF199C189DABEAC7680ADA57DCEC8EEE91C4E3BF3BFA9AF6FFDE90CD1D249D1C6121D7B759A001B1"])) in
  let c := eval vm_compute in (str "d23859866f93f2698a5b48586543c608d85a57c74e9ce92d86a0b25065d8155c16754d840026b8c536f2bcb963a7d867f034ec241b87162ac33daf7b707cb5f7") in
  unify b c.
  exact I.
Qed.

(** signature_test.go:84-96 *)
Goal True.
  let b := eval vm_compute in
    (match new_signature_from_bigint (Some 12) (Some 513) with Ok s => signature_string s | _ => [] end) in
  let c := eval vm_compute in (str "0c000000000000000000000000000000000000000000000000000000000000000102000000000000000000000000000000000000000000000000000000000000") in
  unify b c.
  exact I.
Qed.

(** The end-to-end vectors of ed25519_model_test.go (Test_Encrypt, Test_Decrypt) and sign/verify runs
    take too long here; tools/vectors/run.sh extracts the same model to OCaml and runs them. *)
