(** Specification of a sponge hash on one message (FIPS 202, byte-oriented): pad, cut into blocks,
    xor each block into the front of the state and permute, take the front of the final state.
    Nothing here mentions buffers or partial writes. *)
From Verif Require Import GoBase.
Open Scope Z_scope.

(** the message followed by the domain byte, zeros, and a top bit in the last byte *)
Definition sponge_padded (rate : nat) (ds : Z) (m : bytes) : bytes :=
  match (rate - length m mod rate)%nat with
  | 1%nat => m ++ [Z.lxor ds 0x80]
  | k => m ++ [ds] ++ repeat 0 (k - 2) ++ [0x80]
  end.
(** the first n blocks of r bytes *)
Fixpoint blocks (r n : nat) (m : bytes) : list bytes :=
  match n with O => [] | S n' => firstn r m :: blocks r n' (skipn r m) end.
(** bytewise xor with a shorter string extended by zeros *)
Definition xor_front (a b : bytes) : bytes :=
  map (fun p => Z.lxor (fst p) (snd p)) (combine a (b ++ repeat 0 (length a - length b))).
Definition sponge_hash (f : bytes -> bytes) (rate : nat) (ds : Z) (outlen : nat) (m : bytes) : bytes :=
  let p := sponge_padded rate ds m in
  firstn outlen
    (fold_left (fun st b => f (xor_front st b)) (blocks rate (length p / rate) p) (repeat 0 200%nat)).
