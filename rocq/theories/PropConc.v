(** Property C75: goroutines whose calls draw from shared random sources.  Statements; the proofs are in
    [PropConcLemmas].  [calls g] are the calls of goroutine g, in order; the schedule s picks goroutines in any order, and
    a goroutine that is picked does at most one Read.  [m] is the program after the schedule: [results (gos m g)] are the
    outcomes of the calls of g that have returned, [reads m] all Reads, in the order in which they happened. *)
From Coq Require Import List ZArith Arith.
From Verif Require Import GoBase ApiModel SessionModel SessionSpec ConcModel ConcSpec PropSigLemmas PropCipherLemmas PropSessionLemmas PropConcLemmas.
Import ListNotations.
Open Scope nat_scope.

(** A call that has returned has the outcome it has alone (C54) with a reader that behaves as the call's own Reads did,
    and would use all of them.  Other goroutines' Reads do not enter. *)
Theorem C75_as_if_alone : forall S H G E D, sources_ok S -> forall calls w s, let m := run_conc S H G E D s calls w in
  forall g k c o, nth_error (calls g) k = Some c -> nth_error (results (gos m g)) k = Some o ->
  exists w', do_call H G E D c (fun _ => answers g k (reads m)) = (o, w') /\
    (forall i, source_of c = Some i -> w' i = []) /\ (source_of c = None -> answers g k (reads m) = []).
Proof. exact outcomes. Qed.
(** Its outcome is the function of its arguments and of the bytes of its own Reads that C54 speaks of: with a value it
    took exactly as many bytes as it needs, with an error of the reader fewer. *)
Theorem C75_bytes : forall S H G E D, sources_ok S -> forall calls w s, let m := run_conc S H G E D s calls w in
  forall g k c o, nth_error (calls g) k = Some c -> nth_error (results (gos m g)) k = Some o ->
  let b := bytes_of (answers g k (reads m)) in
  seen o = meaning H G E D c b /\ length b <= need c /\
  (forall v, o = Value v -> length b = need c) /\ (forall e, o = ReadError e -> length b < need c).
Proof. exact values. Qed.
(** Calls return in the order in which the goroutine makes them; every Read belongs to a call, goes to the reader of
    that call, and asks for at least one byte. *)
Theorem C75_order : forall S H G E D, sources_ok S -> forall calls w s, let m := run_conc S H G E D s calls w in
  (forall g, length (results (gos m g)) <= length (calls g) /\ todo (gos m g) = skipn (length (results (gos m g))) (calls g)) /\
  (forall e, In e (reads m) -> exists c, nth_error (calls (by_go e)) (in_call e) = Some c /\ source_of c = Some (of_reader e) /\
    0 < asked e /\ length (fst (answer e)) <= asked e).
Proof. exact (fun S H G E D ok calls w s => conj (in_order S H G E D ok calls w s) (own_reads S H G E D ok calls w s)). Qed.
(** If every reader hands out each byte of its tape once, then each Read has its own stretch of the tape, later Reads
    have later stretches, and the stretches of a reader cover its tape without gaps.  So no byte is used by two calls and none is lost. *)
Theorem C75_no_byte_twice : forall S H G E D tape pos, tapes S tape pos -> forall calls w s, let m := run_conc S H G E D s calls w in
  exists ps, length ps = length (reads m) /\
  (forall a e p, nth_error (reads m) a = Some e -> nth_error ps a = Some p ->
     fst (answer e) = map (tape (of_reader e)) (seq p (length (fst (answer e)))) /\
     pos w (of_reader e) <= p /\ p + length (fst (answer e)) <= pos (readers m) (of_reader e) /\
     forall a' e' p', a < a' -> nth_error (reads m) a' = Some e' -> nth_error ps a' = Some p' -> of_reader e' = of_reader e ->
       p + length (fst (answer e)) <= p') /\
  forall i, pos w i <= pos (readers m) i /\
    concat (map (fun e => fst (answer e)) (filter (fun e => Nat.eqb (of_reader e) i) (reads m))) =
      map (tape i) (seq (pos w i) (pos (readers m) i - pos w i)).
Proof. exact stretches. Qed.
(** If every Read gives a byte or an error, a goroutine has made all its calls after at most one turn per byte and three
    per call, whatever the others do and however often they are picked: no goroutine can keep another from finishing. *)
Theorem C75_all_return : forall S H G E D, sources_ok S -> sources_lively S -> forall calls w s g, effort (calls g) <= turns s g ->
  let m := run_conc S H G E D s calls w in todo (gos m g) = [] /\ length (results (gos m g)) = length (calls g).
Proof. exact all_return. Qed.
(** A goroutine whose readers no other goroutine uses, with readers that do not depend on each other, is after the same
    number of turns at the same place with the same results, whatever the others do. *)
Theorem C75_own_readers : forall S H G E D, sources_ok S -> forall P (part : sstate S -> nat -> P), separate S part ->
  forall calls1 calls2 g s1 s2 w1 w2,
  calls1 g = calls2 g -> turns s1 g = turns s2 g -> (forall i, uses (calls1 g) i -> part w1 i = part w2 i) ->
  (forall h, h <> g -> forall i, uses (calls1 g) i -> ~ uses (calls1 h) i /\ ~ uses (calls2 h) i) ->
  gos (run_conc S H G E D s1 calls1 w1) g = gos (run_conc S H G E D s2 calls2 w2) g.
Proof. exact undisturbed. Qed.
(** two goroutines that take turns: each key pair is made of every other five bytes *)
Example C75_nonvacuous :
  (sources_ok five /\ sources_lively five /\ tapes five ex_tape (fun w => w) /\ separate five (fun w => w)) /\
  let m := run_conc five H7 G7 Ex Ex (ex_schedule ++ [1; 0]) ex_calls (fun _ => 0) in
  results (gos m 0) = [Value (VPair (pair_of H7 (ex_seed 0)))] /\ results (gos m 1) = [Value (VPair (pair_of H7 (ex_seed 1)))].
Proof. exact (conj five_ok ex_two). Qed.

Print Assumptions C75_as_if_alone.
Print Assumptions C75_bytes.
Print Assumptions C75_order.
Print Assumptions C75_no_byte_twice.
Print Assumptions C75_all_return.
Print Assumptions C75_own_readers.
