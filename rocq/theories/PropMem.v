(** Properties C56-C59: memory and goroutines.  Statements; the proofs are in [MemProofs], [MemApi],
    [MemClients] and [PropMemLemmas], the vocabulary in [MemSpec].  [sh] are the byte arrays that exist
    when the goroutines start; [H], [G], [E], [D] are SHA3-512, SHA3-256 and AES, [spare] the capacity
    that append adds.  Values in [ApiModel] are computed from byte strings alone. *)
From Coq Require Import List ZArith Lia Bool.
From Verif Require Import GoBase FieldSpec GroupModel ApiModel ApiSpec HashModel MemModel MemSpec PropSigLemmas PropCipherLemmas PropMemLemmas.
Import ListNotations.
Open Scope nat_scope.

(** ** C57: a call changes none of its arguments and no other memory, and its result is its own *)

(** [effect p m v R]: running [p] in [m] ends with the outcome [v] of the byte-string model, results
    related by [R]; no array that existed is written with anything, old arrays are the same after. *)
Theorem C57_derive : forall H, (forall ps, length (H ps) = 64) -> forall spare m k, wf_priv m k ->
  effect (derive H spare k) m (derive_public_key H (priv_at m k))
    (fun s b m' => wf_sl m' s /\ rd m' s = b /\ is_new m s /\ s_cap s = s_len s).
Proof. exact mem_derive. Qed.
(** NewKeyPair keeps the private key and the public key it is given, and derives a new one otherwise *)
Theorem C57_new_key_pair : forall H, (forall ps, length (H ps) = 64) -> forall spare m k p,
  (forall x, k = Some x -> wf_priv m x) -> (forall s, p = Some s -> wf_sl m s) ->
  effect (mnew_key_pair H spare k p) m (new_key_pair H (opt_at (priv_at m) k) (opt_at (rd m) p))
    (fun x y m' => wf_pair m' x /\ pair_at m' x = y /\ mp_priv x = k /\
       match p with Some s => mp_pub x = s /\ m' = m | None => is_new m (mp_pub x) /\ s_cap (mp_pub x) = s_len (mp_pub x) end).
Proof. exact mem_new_key_pair. Qed.
Theorem C57_generate : forall H, (forall ps, length (H ps) = 64) -> forall spare m random,
  effect (mgenerate H spare random) m (generate_key_pair H random)
    (fun x y m' => wf_pair m' x /\ pair_at m' x = fst y /\ is_new m (mp_pub x) /\ s_cap (mp_pub x) = s_len (mp_pub x) /\
       exists k, mp_priv x = Some k /\ is_new m (mk_raw k) /\ s_cap (mk_raw k) = s_len (mk_raw k)).
Proof. exact mem_generate. Qed.
Theorem C57_sign : forall H, (forall ps, length (H ps) = 64) -> forall spare m kp mess,
  wf_pair m kp -> wf_sl m mess ->
  effect (msign H spare kp mess) m (sign H (pair_at m kp) (rd m mess))
    (fun g x m' => wf_sig m' g /\ sig_at m' g = x /\ is_new m (mR g) /\ is_new m (mS g) /\ s_arr (mR g) <> s_arr (mS g) /\
       s_cap (mR g) = 32 /\ s_len (mR g) = 32 /\ s_cap (mS g) = 32 /\ s_len (mS g) = 32).
Proof. exact mem_sign. Qed.
Theorem C57_verify : forall H spare m kp mess g, wf_pair m kp -> wf_sl m mess -> wf_sig m g ->
  effect (mverify H spare kp mess g) m (verify H (pair_at m kp) (rd m mess) (sig_at m g)) (fun a b _ => a = b).
Proof. exact mem_verify. Qed.
(** the canonical form has the R slice of the signature and a new S *)
Theorem C57_make_canonical : forall m g, wf_sig m g ->
  effect (mmake_canonical g) m (make_signature_canonical (sig_at m g))
    (fun h y m' => wf_sig m' h /\ sig_at m' h = y /\ mR h = mR g /\ is_new m (mS h) /\ s_cap (mS h) = s_len (mS h)).
Proof. exact mem_make_canonical. Qed.
Theorem C57_encrypt : forall H, (forall ps, length (H ps) = 64) -> forall G E spare m s r random inp,
  wf_pair m s -> wf_pair m r -> wf_sl m inp ->
  effect (mencrypt H G E spare s r random inp) m
    (encrypt H G E (new_block_cipher (pair_at m s) (pair_at m r)) random (rd m inp))
    (fun t y m' => wf_sl m' t /\ rd m' t = fst y /\ is_new m t).
Proof. exact mem_encrypt. Qed.
Theorem C57_decrypt : forall H, (forall ps, length (H ps) = 64) -> forall G D spare m s r inp,
  wf_pair m s -> wf_pair m r -> wf_sl m inp ->
  effect (mdecrypt H G D spare s r inp) m
    (decrypt H G D (new_block_cipher (pair_at m s) (pair_at m r)) (rd m inp))
    (fun t b m' => wf_sl m' t /\ rd m' t = b /\ is_new m t).
Proof. exact mem_decrypt. Qed.
(** after an effect, every slice that existed shows what it showed, and writing through any of them
    changes no new slice *)
Theorem C57_unchanged : forall m m', grows m m' -> forall s, wf_sl m s -> wf_sl m' s /\ rd m' s = rd m s.
Proof. exact unchanged. Qed.
Theorem C57_independent : forall m m' s a i v, grows m m' -> wf_sl m a -> is_new m s ->
  rd (snd (exec (set a i v) m')) s = rd m' s.
Proof. exact independent. Qed.

(** a key pair and a message in shared memory, the message in the spare capacity of the key *)
Example C57_nonvacuous : wf_pair (Mem ex_sh []) ex_kp /\ wf_sl (Mem ex_sh []) (SL (Sh 0) 32 5 5) /\ grows (Mem ex_sh []) (Mem ex_sh [repeat 0%Z 3]).
Proof. exact (conj (proj1 ex_shared_ok) (conj (proj2 ex_shared_ok) (conj eq_refl (ex_intro _ [repeat 0%Z 3] eq_refl)))). Qed.

(** ** C56: goroutines *)

(** Any number of goroutines, each with any list of calls on what it can reach of the shared memory
    (private keys, key pairs, messages, signatures, ...), which write to no slice and ask for the
    bytes or string only of signatures whose R has no room behind it: whatever the schedule, shared
    memory stays as it was, nobody is ever about to write to it, a goroutine that is done has the
    results of the calls alone in its place, and it is done after a number of turns that the others
    cannot raise. *)
Theorem C56_goroutines : forall H, (forall ps, length (H ps) = 64) -> forall G E D spare sh clients,
  (forall e os, In (e, os) clients -> Forall (wf_val (Mem sh [])) e /\ tidy H G E D spare no_room (Mem sh []) e os) ->
  forall schedule, let c := crun (start sh (programs H G E D spare clients)) schedule in
  c_sh c = sh /\
  forall t e os, nth_error clients t = Some (e, os) -> exists p own, thread c t = Some (p, own) /\
    (forall n i v k, p <> Put (Sh n) i v k) /\
    (forall r, p = Ret r -> agrees (fun e' pe m => map (view m) e' = pe) r (calls H G E D (map (view (Mem sh [])) e) os) (Mem sh own)) /\
    (accesses (do_ops H G E D spare e os) (Mem sh []) <= turns_of t schedule -> exists r, p = Ret r).
Proof. exact goroutines. Qed.
(** clients without writes, Bytes and String keep to these rules whatever they work on *)
Theorem C56_plain : forall H G E D spare good os, forallb plain os = true -> forall m e, tidy H G E D spare good m e os.
Proof. exact plain_tidy. Qed.
(** so do clients that sign, verify, and print the signature they made, beside ones that encrypt and
    decrypt (with the real hash) *)
Example C56_nonvacuous : forall G E D spare e os, let e0 := [VPair ex_kp; VSl (SL (Sh 0) 32 5 5)] in
  In (e, os) [(e0, [OSign 0 1; OVerify 0 1 2; OBytes 2; OHex 2]); (e0, [OGenerate (repeat 7%Z 32); OEncrypt 0 2 (repeat 5%Z 48) 1; ODecrypt 0 2 3])] ->
  (forall ps, length (sha3_512 ps) = 64) /\
  Forall (wf_val (Mem ex_sh [])) e /\ tidy sha3_512 G E D spare no_room (Mem ex_sh []) e os.
Proof.
  exact (fun G E D spare e os I => conj sha3_64 (goroutines_case sha3_512 sha3_64 G E D spare ex_sh ex_kp _ (proj1 ex_shared_ok) (proj2 ex_shared_ok) e os I)).
Qed.

(** ** C58: Bytes and String of a signature that is shared *)

(** Bytes of a shared signature writes to shared memory, unless R has no room for S behind it *)
Theorem C58_bytes_writes_iff : forall spare m g, wf_sig m g -> (exists n, s_arr (mR g) = Sh n) -> 0 < s_len (mS g) ->
  (quiet (mbytes spare g) m <-> no_room g).
Proof. exact bytes_quiet_iff. Qed.
(** it does for every signature that NewSignatureFromBytes takes from shared bytes (a data race in Go
    when another goroutine reads it), though with the bytes that are there *)
Theorem C58_decoded_writes : forall spare m b g m', wf_sl m b -> (exists n, s_arr b = Sh n) ->
  exec (mnew_signature_from_bytes b) m = (Ok g, m') -> ~ quiet (mbytes spare g) m /\ calm (mbytes spare g) m.
Proof. exact decoded_writes. Qed.
(** if each access is atomic, such clients too have the results of the calls alone, on any schedule *)
Theorem C58_goroutines : forall H, (forall ps, length (H ps) = 64) -> forall G E D spare sh clients,
  (forall e os, In (e, os) clients -> Forall (wf_val (Mem sh [])) e /\
     tidy H G E D spare (fun g => no_room g \/ followed g) (Mem sh []) e os) ->
  forall schedule, let c := crun (start sh (programs H G E D spare clients)) schedule in
  c_sh c = sh /\
  forall t e os, nth_error clients t = Some (e, os) -> exists p own, thread c t = Some (p, own) /\
    (forall r, p = Ret r -> agrees (fun e' pe m => map (view m) e' = pe) r (calls H G E D (map (view (Mem sh [])) e) os) (Mem sh own)) /\
    (accesses (do_ops H G E D spare e os) (Mem sh []) <= turns_of t schedule -> exists r, p = Ret r).
Proof. exact goroutines_calm. Qed.
(** but Bytes of the canonical form of a decoded signature overwrites the S half of the bytes it was
    decoded from: any other goroutine can find them as they were or reduced, depending on the schedule *)
Theorem C58_schedule_matters : forall H G E D spare sh b g,
  wf_sl (Mem sh []) b -> wf_bytes (rd (Mem sh []) b) ->
  exec (mnew_signature_from_bytes b) (Mem sh []) = (Ok g, Mem sh []) ->
  exists sh',
    rd (Mem sh' []) b = firstn 32 (rd (Mem sh []) b) ++ le_bytes 32 (le_val (skipn 32 (rd (Mem sh []) b)) mod q25519) /\
    forall reader : prog env, let c := start sh [do_ops H G E D spare [VSig g] [OMakeCanonical 0; OBytes 1]; reader] in
    (exists schedule own, thread (crun c schedule) 1 = Some (Ret (fst (exec reader (Mem sh []))), own)) /\
    (exists schedule own, thread (crun c schedule) 1 = Some (Ret (fst (exec reader (Mem sh' []))), own)).
Proof. exact schedule_matters. Qed.
(** for example: IsCanonicalSignature of one and the same signature is true or false *)
Theorem C58_two_answers : forall H G E D spare, exists sh g s1 s2 own1 own2,
  let c := start sh [do_ops H G E D spare [VSig g] [OMakeCanonical 0; OBytes 1]; do_ops H G E D spare [VSig g] [OCanonical 0]] in
  thread (crun c s1) 1 = Some (Ret (Ok [VSig g; VBool true]), own1) /\
  thread (crun c s2) 1 = Some (Ret (Ok [VSig g; VBool false]), own2).
Proof. exact ex_schedule. Qed.

(** ** C59: a private key shares the buffer it was made from *)

(** writing to the buffer changes Raw and leaves Value as it was *)
Theorem C59_private_key : forall m s pos v k m1, wf_sl m s -> pos < s_len s -> exec (mnew_private_key s) m = (Ok k, m1) ->
  m1 = m /\ let m2 := snd (exec (set s pos v) m) in
  wf_priv m2 k /\ priv_at m2 k = PrivKey (be_val (rd m s)) (firstn pos (rd m s) ++ v :: skipn (S pos) (rd m s)).
Proof. exact private_shares. Qed.
(** a key pair made before keeps the public key of the old bytes *)
Theorem C59_key_pair : forall H, (forall ps, length (H ps) = 64) -> forall spare m s pos v k kp m2,
  wf_sl m s -> pos < s_len s ->
  exec (mnew_private_key s) m = (Ok k, m) -> exec (mnew_key_pair H spare (Some k) None) m = (Ok kp, m2) ->
  exists pub, derive_public_key H (new_private_key (rd m s)) = Ok pub /\
  let m3 := snd (exec (set s pos v) m2) in
  wf_pair m3 kp /\
  pair_at m3 kp = KeyPair (Some (PrivKey (be_val (rd m s)) (firstn pos (rd m s) ++ v :: skipn (S pos) (rd m s)))) pub.
Proof. exact pair_shares. Qed.
(** and what such a pair signs it refuses itself, except in degenerate cases *)
Theorem C59_signatures_fail : forall H, hash_ok 64 H -> forall v old new m sg,
  wf_bytes old -> wf_bytes new -> wf_bytes m ->
  sign H (KeyPair (Some (PrivKey v new)) (public_key_of H old)) m = Ok sg ->
  exists b, verify H (KeyPair (Some (PrivKey v new)) (public_key_of H old)) m sg = Ok b /\
   (b = true <-> (q25519 | challenge H (sR sg) (public_key_of H old) m)%Z \/ public_key_of H new = public_key_of H old).
Proof. exact old_public_key. Qed.
Example C59_nonvacuous : forall spare, exists m s k kp m2,
  wf_sl m s /\ 3 < s_len s /\ exec (mnew_private_key s) m = (Ok k, m) /\ exec (mnew_key_pair sha3_512 spare (Some k) None) m = (Ok kp, m2).
Proof. exact (fun spare => ex_key sha3_512 sha3_64 spare PropHashLemmas.sha3_512_hash_ok). Qed.

Print Assumptions C57_derive.
Print Assumptions C57_new_key_pair.
Print Assumptions C57_generate.
Print Assumptions C57_sign.
Print Assumptions C57_verify.
Print Assumptions C57_make_canonical.
Print Assumptions C57_encrypt.
Print Assumptions C57_decrypt.
Print Assumptions C57_unchanged.
Print Assumptions C57_independent.
Print Assumptions C56_goroutines.
Print Assumptions C56_plain.
Print Assumptions C58_bytes_writes_iff.
Print Assumptions C58_decoded_writes.
Print Assumptions C58_goroutines.
Print Assumptions C58_schedule_matters.
Print Assumptions C58_two_answers.
Print Assumptions C59_private_key.
Print Assumptions C59_key_pair.
Print Assumptions C59_signatures_fail.
