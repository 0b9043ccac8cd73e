#!/bin/sh
# Extract the model to OCaml (zarith integers) and run it on the vectors of /repo/ed25519_model_test.go.
# Needs a finished build in /verif/rocq.  A test of the transcription; no theorem depends on it.
set -e; d=$(mktemp -d); here=$(cd "$(dirname "$0")"; pwd); cd $d
cat > E.v <<'X'
From Verif Require Import GoBase FieldModel GroupModel ApiModel HashModel AesModel.
From Coq Require Import Extraction ExtrOcamlBasic ExtrOcamlZBigInt ExtrOcamlNatBigInt ZArith.
Extract Constant Z.lxor => "(fun a b -> Z.logxor a b)".
Extract Constant Z.land => "(fun a b -> Z.logand a b)".
Extract Constant Z.lor => "(fun a b -> Z.logor a b)".
Extract Constant Z.testbit => "(fun a n -> Z.testbit a (Z.to_int n))".
Extract Constant Z.shiftl => "(fun a n -> let n = Z.to_int n in if n >= 0 then Z.shift_left a n else Z.shift_right a (-n))".
Extract Constant Z.shiftr => "(fun a n -> let n = Z.to_int n in if n >= 0 then Z.shift_right a n else Z.shift_left a (-n))".
Extract Constant Z.pow => "(fun a n -> if Z.sign n < 0 then Z.zero else Z.pow a (Z.to_int n))".
Extract Constant Z.div => "(fun a b -> if Z.sign b = 0 then Z.zero else if Z.sign b > 0 then Z.fdiv a b else Z.fdiv (Z.neg a) (Z.neg b))".
Extract Constant Z.modulo => "(fun a b -> if Z.sign b = 0 then a else Z.sub a (Z.mul b (if Z.sign b > 0 then Z.fdiv a b else Z.fdiv (Z.neg a) (Z.neg b))))".
Extraction "model.ml" new_private_key_from_hex new_key_pair encrypt decrypt sign verify new_block_cipher sha3_512 sha3_256 aes_encrypt aes_decrypt hex_encode hex_decode generate_key_pair.
X
cat > main.ml <<'X'
open Model
let zi = Big_int_Z.big_int_of_int
let str s = List.init (String.length s) (fun i -> zi (Char.code s.[i]))
let show l = String.concat "" (List.map (fun c -> String.make 1 (Char.chr (Big_int_Z.int_of_big_int c))) l)
let ok = function Ok a -> a | Err _ -> failwith "err" | Panic -> failwith "panic"
let hex s = ok (hex_decode (str s))
let pair s = let k = ok (new_private_key_from_hex (str s)) in ok (new_key_pair sha3_512 (Some k) None)
let () =
  let t = Sys.time () in
  let s = pair "2a91e1d5c110a8d0105aad4683f962c2a56663a3cad46666b16d243174673d90" in
  Printf.printf "pair %f\n%!" (Sys.time () -. t);
  let r = pair "2618090794e9c9682f2ac6504369a2f4fb9fe7ee7746f9560aca228d355b1cb9" in
  let src = hex "4ff36df9cbc91e740867c70b8787cf83b073949bbfb0e8e6d451fe32774dfe1fe1409b724bf6b591456a19ad4caa6932" in
  let (o,_) = ok (encrypt sha3_512 sha3_256 aes_encrypt (new_block_cipher s r) src (str "NEM is awesome !")) in
  Printf.printf "enc %f %s\n%!" (Sys.time () -. t) (show (hex_encode o));
  assert (show (hex_encode o) = "4ff36df9cbc91e740867c70b8787cf83b073949bbfb0e8e6d451fe32774dfe1fe1409b724bf6b591456a19ad4caa6932fcbf5c4898480f73082181d93f4f089b0e92de37c612e2c80c981874eb1be197");
  let m = ok (decrypt sha3_512 sha3_256 aes_decrypt (new_block_cipher s r) o) in
  Printf.printf "dec %s %f\n%!" (show m) (Sys.time () -. t);
  let sg = ok (sign sha3_512 s (str "abcdefg")) in
  Printf.printf "sign %f\n%!" (Sys.time () -. t);
  Printf.printf "verify %b %b %f\n%!" (ok (verify sha3_512 s (str "abcdefg") sg)) (ok (verify sha3_512 s (str "abcdefh") sg)) (Sys.time () -. t)
X
coqc -Q "$here/../../rocq/theories" Verif E.v
ulimit -s unlimited; ocamlfind ocamlopt -package zarith -linkpkg -w -a model.mli model.ml main.ml -o t && ./t; rm -rf $d
