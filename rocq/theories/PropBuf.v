(** Property C65 again, with memory: [BufferedBlockCipher] on slices that may overlap.  Statements; the proofs are in [PropBufLemmas]. *)
From Coq Require Import List ZArith.
From Verif Require Import GoBase AliasModel BufModel BufSpec PropBufLemmas.
Import ListNotations.
Open Scope Z_scope.

(** After any calls on a new cipher its output is empty and doFinal delivers nothing. *)
Theorem C65_memory_no_output : forall h cs h' b, b_run h new_buffered cs = (h', b) ->
  (forall n, get_output_size b n = 0) /\ (forall out o, do_final h' b out o = (h', 0)).
Proof. exact never_output. Qed.
(** processBytes copies the output buffer over the input. *)
Theorem C65_memory_process : forall h input out inOff len outOff, wf_slice h input -> wf_slice h out ->
  let n := Nat.min (gs_len input) (gs_len out) in
  (Z.of_nat (gs_len out) < w64 (len - inOff) -> process_bytes h input inOff len out outOff = (h, -1)) /\
  (w64 (len - inOff) <= Z.of_nat (gs_len out) -> exists h', process_bytes h input inOff len out outOff = (h', Z.of_nat n) /\
     rd h' input = firstn n (rd h out) ++ skipn n (rd h input) /\
     (gs_arr out <> gs_arr input -> rd h' out = rd h out) /\
     (forall a i, a <> gs_arr input \/ (i < gs_off input \/ gs_off input + n <= i)%nat -> nth i (array h' a) 0 = nth i (array h a) 0)).
Proof. exact process_exact. Qed.
(** No history of calls writes to an array that was never an input of processBytes. *)
Theorem C65_output_never_written : forall h cs h' b, Forall (good_call h) cs -> b_run h new_buffered cs = (h', b) ->
  forall a, (forall i io l out oo, In (BProcess i io l out oo) cs -> gs_arr i <> a) -> array h' a = array h a.
Proof. exact untouched. Qed.
Theorem C65_plaintext_lost_example : exists h input out h', wf_slice h input /\ wf_slice h out /\
  rd h input = [1; 2; 3] /\ rd h out = [0; 0; 0; 0] /\ process_bytes h input 0 3 out 0 = (h', 3) /\
  rd h' input = [0; 0; 0] /\ rd h' out = [0; 0; 0; 0].
Proof. exact ex_lost. Qed.
Example C65_memory_nonvacuous : exists h input out, wf_slice h input /\ wf_slice h out /\ process_bytes h input 1 (- 2 ^ 63) out 0 = (h, -1).
Proof. exact ex_wrap. Qed.

Print Assumptions C65_memory_no_output.
Print Assumptions C65_memory_process.
Print Assumptions C65_output_never_written.
Print Assumptions C65_plaintext_lost_example.
