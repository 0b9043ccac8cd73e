(** Specification vocabulary for the histories of C54: which bytes a call may take, and what a call
    means as a function of those bytes alone (the functions of [ApiModel], about which the other
    properties speak). *)
From Verif Require Import GoBase ApiModel SessionModel.
Open Scope Z_scope.

(** the bytes a reader will deliver, in order *)
Definition bytes_of (r : reader) : bytes := concat (map fst r).
(** a reader that returns no error before its end *)
Definition quiet (r : reader) : Prop := Forall (fun ev => snd ev = None) r.

(** the reader of an engine: crypto/rand's (number 0) for an engine without seed, its own otherwise *)
Definition reader_of (e : engine) : nat := match e with None => O | Some i => i + 1 end.
(** the reader a call draws from, if any, and the number of bytes it needs; a nil engine is the
    default engine, which has no seed *)
Definition source_of (c : call) : option nat :=
  match c with
  | CGenerate (Some e) => Some (reader_of e)
  | CEncrypt _ _ None _ => Some O
  | CEncrypt _ _ (Some e) _ => Some (reader_of e)
  | _ => None
  end.
Definition need (c : call) : nat :=
  match c with
  | CGenerate (Some _) => 32
  | CEncrypt _ r _ _ => length (kp_pub r) + 16
  | _ => 0
  end.
Definition res_map {A B} (f : A -> B) (r : res A) : res B :=
  match r with Ok a => Ok (f a) | Err e => Err e | Panic => Panic end.

Section Spec.
Variable H512 : list bytes -> bytes.
Variable H256 : bytes -> bytes.
Variable aesE aesD : bytes -> bytes -> bytes.
(** the result of a call as a function of its arguments and of the random bytes it takes *)
Definition meaning (c : call) (random : bytes) : res value :=
  match c with
  | CGenerate None => Panic
  | CGenerate (Some _) => res_map (fun x => VPair (fst x)) (generate_key_pair H512 random)
  | CNewKeyPair priv pub _ => res_map VPair (new_key_pair H512 priv pub)
  | CEncrypt s r _ input => res_map (fun x => VBytes (fst x)) (encrypt H512 H256 aesE (new_block_cipher s r) random input)
  | CDecrypt s r _ input => res_map VBytes (decrypt H512 H256 aesD (new_block_cipher s r) input)
  | CSign k _ m => res_map VSig (sign H512 k m)
  | CVerify k _ m sg => res_map VBool (verify H512 k m sg)
  | CIsCanonical _ _ sg => Ok (VBool (is_canonical_signature sg))
  | CMakeCanonical _ _ sg => res_map VSig (make_signature_canonical sg)
  end.
End Spec.
(** the outcome of a call, with the error of a reader seen as "the source ended" *)
Definition seen (o : outcome) : res value :=
  match o with Value v => Ok v | LibError e => Err e | ReadError _ => Err ErrEOF | Panicked => Panic end.

(** the bytes that the calls of a history took from reader i, given what each call took *)
Definition taken (i : nat) (cs : list call) (ws : list bytes) : bytes :=
  concat (map snd (filter (fun cw => match source_of (fst cw) with Some j => Nat.eqb j i | None => false end) (combine cs ws))).
