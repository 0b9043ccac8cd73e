(** Property C41: which memory the signature functions share and write.  Statements; the proofs are in
    [PropAliasLemmas] and [AliasProofs].  [rd h s]: the bytes slice [s] shows in memory [h]. *)
From Coq Require Import List ZArith Lia Bool.
From Verif Require Import GoBase FieldSpec ScalarModel GroupModel ApiModel AliasModel AliasSpec AliasProofs PropAliasLemmas.
Import ListNotations.
Open Scope nat_scope.

(** [Bytes] and [String] always return R followed by S, whatever is shared. *)
Theorem C41_bytes_value : forall x h g h' u, wf_slice h (hR g) -> wf_slice h (hS g) -> bytes_h x h g = (h', u) ->
  rd h' u = rd h (hR g) ++ rd h (hS g).
Proof. exact bytes_value. Qed.
Theorem C41_string_value : forall x h g h' t, wf_slice h (hR g) -> wf_slice h (hS g) -> string_h x h g = (h', t) ->
  t = signature_string (sig_val h g).
Proof. exact string_value. Qed.

(** Without spare capacity in R nothing that existed changes and the result is a new array. *)
Theorem C41_no_spare_capacity : forall x h g h' u, wf_slice h (hR g) -> wf_slice h (hS g) -> bytes_h x h g = (h', u) ->
  gs_cap (hR g) < gs_len (hR g) + gs_len (hS g) ->
  extends h h' /\ gs_arr u = length h /\ (forall s, wf_slice h s -> rd h' s = rd h s).
Proof. exact bytes_tight. Qed.
(** Signatures made by Sign are of that kind, and share nothing with anything older. *)
Theorem C41_sign_fresh : forall H h kp m h' g, sign_h H h kp m = Ok (h', g) ->
  extends h h' /\ sign H kp (rd h m) = Ok (sig_val h' g) /\
  (wf_slice h' (hR g) /\ wf_slice h' (hS g) /\ gs_len (hR g) = 32 /\ gs_len (hS g) = 32) /\
  length h <= gs_arr (hR g) /\ length h <= gs_arr (hS g) /\ gs_arr (hR g) <> gs_arr (hS g) /\ gs_cap (hR g) = 32.
Proof. exact sign_fresh. Qed.

(** With spare capacity the bytes behind R, and only those, become S; the result shows that array. *)
Theorem C41_spare_capacity : forall x h g h' u, wf_slice h (hR g) -> wf_slice h (hS g) -> bytes_h x h g = (h', u) ->
  gs_len (hR g) + gs_len (hS g) <= gs_cap (hR g) ->
  let e := gs_off (hR g) + gs_len (hR g) in
  gs_arr u = gs_arr (hR g) /\
  (forall a, a <> gs_arr (hR g) -> array h' a = array h a) /\
  (forall k, k < e \/ e + gs_len (hS g) <= k ->
     nth k (array h' (gs_arr (hR g))) 0%Z = nth k (array h (gs_arr (hR g))) 0%Z) /\
  behind h' (hR g) (gs_len (hS g)) = rd h (hS g).
Proof. exact bytes_room. Qed.
(** So [Bytes] leaves the existing memory alone if and only if there is no room or S is there already. *)
Theorem C41_exactly : forall x h g h' u, wf_slice h (hR g) -> wf_slice h (hS g) -> bytes_h x h g = (h', u) ->
  (extends h h' <-> harmless h (hR g) (hS g)).
Proof. exact bytes_iff. Qed.

(** A signature decoded from a slice [b] is that memory: it shows whatever [b] shows at any later time,
    [Bytes] writes nothing and returns [b] itself. *)
Theorem C41_from_bytes : forall h b g, wf_slice h b -> new_signature_from_bytes_h b = Ok g ->
  rd h b = signature_bytes (sig_val h g) /\ (forall h', rd h' b = signature_bytes (sig_val h' g)) /\
  harmless h (hR g) (hS g) /\
  (forall x h' u, bytes_h x h g = (h', u) -> h' = h /\ u = b).
Proof. exact from_bytes_shares. Qed.
Theorem C41_constructor_shares : forall r s g h', new_signature_h r s = Ok g -> sig_val h' g = Sig (rd h' r) (rd h' s).
Proof. exact constructor_shares. Qed.

(** The memory-less model of the other properties computes the same values. *)
Theorem C41_new_refines : forall h r s, wf_slice h r -> wf_slice h s ->
  new_signature (rd h r) (rd h s) = (do g <- new_signature_h r s; Ok (sig_val h g)).
Proof. exact new_sig_refines. Qed.
Theorem C41_from_bytes_refines : forall h b, wf_slice h b ->
  new_signature_from_bytes (rd h b) = (do g <- new_signature_from_bytes_h b; Ok (sig_val h g)).
Proof. exact from_bytes_refines. Qed.
Theorem C41_canonical_refines : forall h g,
  (wf_slice h (hR g) /\ wf_slice h (hS g) /\ gs_len (hR g) = 32 /\ gs_len (hS g) = 32) ->
  make_signature_canonical (sig_val h g) =
  (do r <- make_signature_canonical_h h g; Ok (sig_val (fst r) (snd r))).
Proof. exact canonical_refines. Qed.

(** Histories: if R's with spare capacity are combined only with the S behind them (see [safe_op]), then
    whatever a program has seen after [os1] it sees after any [os2] more calls. *)
Theorem C41_history : forall H os1 os2 w1 w2, safe_history H empty_world (os1 ++ os2) ->
  run H empty_world os1 = Some w1 -> run H w1 os2 = Some w2 -> same_view w1 w2.
Proof. exact history. Qed.
(** In particular Verify answers what it would have answered then. *)
Theorem C41_verify_later : forall H os1 os2 w1 w2 kp i m j g, safe_history H empty_world (os1 ++ os2) ->
  run H empty_world os1 = Some w1 -> run H w1 os2 = Some w2 ->
  nth_error (w_slices w1) i = Some m -> nth_error (w_sigs w1) j = Some g ->
  verify_h H (w_heap w2) kp m g = verify H kp (rd (w_heap w1) m) (sig_val (w_heap w1) g).
Proof. exact verify_later. Qed.
Example C41_history_nonvacuous : forall H, safe_history H empty_world ex_ops /\
  exists w, run H empty_world ex_ops = Some w /\ length (w_sigs w) = 4 /\ length (w_slices w) = 5.
Proof. exact ex_history. Qed.

(** The condition is needed.  Decode a signature, make it canonical, ask the canonical one for its bytes:
    this replaces the S of the first signature, in the caller's buffer too.  For every 64 bytes. *)
Theorem C41_canonical_trap : forall x h b g h1 c h2 u, wf_slice h b -> wf_bytes (rd h b) ->
  new_signature_from_bytes_h b = Ok g -> make_signature_canonical_h h g = Ok (h1, c) -> bytes_h x h1 c = (h2, u) ->
  let S' := le_bytes 32 (le_val (sS (sig_val h g)) mod q25519) in
  sig_val h1 g = sig_val h g /\ rd h1 b = rd h b /\
  sig_val h2 g = Sig (sR (sig_val h g)) S' /\ rd h2 b = sR (sig_val h g) ++ S'.
Proof. exact trap. Qed.
Theorem C41_canonical_trap_possible : forall h b, wf_slice h b -> gs_len b = 64 -> wf_bytes (rd h b) -> exists g h1 c,
  new_signature_from_bytes_h b = Ok g /\ make_signature_canonical_h h g = Ok (h1, c).
Proof. exact trap_possible. Qed.
Theorem C41_canonical_trap_changes : exists h b g h1 c h2 u, wf_slice h b /\ wf_bytes (rd h b) /\
  new_signature_from_bytes_h b = Ok g /\ make_signature_canonical_h h g = Ok (h1, c) /\ bytes_h 0 h1 c = (h2, u) /\
  sS (sig_val h g) = le_bytes 32 (q25519 + 1) /\ sS (sig_val h2 g) = le_bytes 32 1 /\ sig_val h2 g <> sig_val h g.
Proof. exact trap_changes. Qed.
(** NewSignature(b[:32], s): Bytes overwrites the second half of b. *)
Theorem C41_buffer_overwritten : forall x h b s h' u g, wf_slice h b -> gs_len b = 64 -> wf_slice h s -> gs_len s = 32 ->
  gs_arr s <> gs_arr b -> forall r, reslice b 0 32 = Ok r -> new_signature_h r s = Ok g -> bytes_h x h g = (h', u) ->
  rd h' b = firstn 32 (rd h b) ++ rd h s.
Proof. exact buffer_overwritten. Qed.

Print Assumptions C41_bytes_value.
Print Assumptions C41_string_value.
Print Assumptions C41_no_spare_capacity.
Print Assumptions C41_sign_fresh.
Print Assumptions C41_spare_capacity.
Print Assumptions C41_exactly.
Print Assumptions C41_from_bytes.
Print Assumptions C41_constructor_shares.
Print Assumptions C41_new_refines.
Print Assumptions C41_from_bytes_refines.
Print Assumptions C41_canonical_refines.
Print Assumptions C41_history.
Print Assumptions C41_canonical_trap.
Print Assumptions C41_canonical_trap_possible.
Print Assumptions C41_canonical_trap_changes.
Print Assumptions C41_buffer_overwritten.
Print Assumptions C41_verify_later.
