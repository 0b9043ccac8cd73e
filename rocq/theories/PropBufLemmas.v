(** Proofs of C65 (with memory). *)
From Coq Require Import List ZArith Lia Bool Arith.
From Verif Require Import GoBase AliasModel AliasProofs BufModel BufSpec.
Import ListNotations.
Open Scope Z_scope.

Definition written (c : bcall) (a : nat) : Prop := match c with BProcess i _ _ _ _ => gs_arr i = a | _ => False end.

Lemma copy_spec h d s : wf_slice h d -> wf_slice h s ->
  let n := Nat.min (gs_len d) (gs_len s) in
  snd (go_copy h d s) = Z.of_nat n /\
  rd (fst (go_copy h d s)) d = firstn n (rd h s) ++ skipn n (rd h d) /\
  (length (fst (go_copy h d s)) = length h) /\
  (forall a, length (array (fst (go_copy h d s)) a) = length (array h a)) /\
  (forall a i, a <> gs_arr d \/ (i < gs_off d \/ gs_off d + n <= i)%nat -> nth i (array (fst (go_copy h d s)) a) 0 = nth i (array h a) 0).
Proof.
  intros D S n. destruct D as (D1 & D2 & D3). destruct S as (S1 & S2 & S3).
  assert (L : length (firstn n (rd h s)) = n).
  { rewrite firstn_length, (rd_length h s) by (repeat split; assumption). subst n. lia. }
  assert (B : (gs_off d + length (firstn n (rd h s)) <= length (array h (gs_arr d)))%nat) by (rewrite L; subst n; lia).
  unfold go_copy. fold n. cbn [fst snd]. split; [reflexivity|].
  assert (LA : forall a, length (array (wr h (gs_arr d) (gs_off d) (firstn n (rd h s))) a) = length (array h a)).
  { intros a. destruct (Nat.eq_dec a (gs_arr d)) as [->|N].
    - rewrite wr_same by exact D1. apply overwrite_length. exact B.
    - rewrite wr_other by assumption. reflexivity. }
  split; [|split; [apply wr_length; exact D1|split; [exact LA|]]].
  - unfold rd at 1. rewrite wr_same by exact D1. apply (nth_ext _ _ 0 0).
    + rewrite firstn_length, skipn_length, overwrite_length by exact B.
      rewrite app_length, L, skipn_length. unfold rd. rewrite firstn_length, skipn_length. subst n. lia.
    + intros k K. rewrite firstn_length, skipn_length, overwrite_length in K by exact B.
      rewrite nth_firstn by lia. rewrite nth_skipn, overwrite_nth by exact B. rewrite L.
      destruct (Nat.leb_spec (gs_off d) (gs_off d + k)); [|lia]. cbn [andb].
      destruct (Nat.ltb_spec (gs_off d + k) (gs_off d + n)).
      * rewrite app_nth1 by (rewrite L; lia). f_equal. lia.
      * rewrite app_nth2 by (rewrite L; lia). rewrite L, nth_skipn. unfold rd. rewrite nth_firstn by lia. rewrite nth_skipn. f_equal. lia.
  - intros a i H. destruct (Nat.eq_dec a (gs_arr d)) as [->|N].
    + destruct H as [H|H]; [elim H; reflexivity|]. rewrite wr_same by exact D1. rewrite overwrite_nth by exact B. rewrite L.
      destruct (Nat.leb_spec (gs_off d) i), (Nat.ltb_spec i (gs_off d + n)); cbn [andb]; try reflexivity. lia.
    + rewrite wr_other by assumption. reflexivity.
Qed.

Lemma process_exact h input out inOff len outOff : wf_slice h input -> wf_slice h out ->
  let n := Nat.min (gs_len input) (gs_len out) in
  (Z.of_nat (gs_len out) < w64 (len - inOff) -> process_bytes h input inOff len out outOff = (h, -1)) /\
  (w64 (len - inOff) <= Z.of_nat (gs_len out) -> exists h', process_bytes h input inOff len out outOff = (h', Z.of_nat n) /\
     rd h' input = firstn n (rd h out) ++ skipn n (rd h input) /\
     (gs_arr out <> gs_arr input -> rd h' out = rd h out) /\
     (forall a i, a <> gs_arr input \/ (i < gs_off input \/ gs_off input + n <= i)%nat -> nth i (array h' a) 0 = nth i (array h a) 0)).
Proof.
  intros I O' n. unfold process_bytes. destruct (Z.ltb_spec (Z.of_nat (gs_len out)) (w64 (len - inOff))) as [L|L].
  - split; [reflexivity|lia].
  - split; [lia|]. intros _. destruct (copy_spec h input out I O') as (C1 & C2 & C3 & C4 & C5).
    fold n in C1, C2, C5. destruct (go_copy h input out) as (h', k) eqn:E. cbn [fst snd] in *. subst k. exists h'.
    split; [reflexivity|]. split; [exact C2|]. split; [|exact C5].
    intros N. unfold rd. f_equal. f_equal. apply (nth_ext _ _ 0 0); [apply C4|]. intros i _. apply C5. left. exact N.
Qed.

Lemma step_output h b c h' b' o : b_output b = None -> b_step h b c = (h', b', o) -> b_output b' = None.
Proof.
  intros N. destruct c; cbn [b_step]; unfold do_final; rewrite ?N; try (intros E; inversion E; subst; exact N).
  - intros E. inversion E. reflexivity.
  - destruct (process_bytes h input inOff length out outOff). intros E. inversion E. subst. exact N.
Qed.
Lemma run_output cs : forall h b h' b', b_output b = None -> b_run h b cs = (h', b') -> b_output b' = None.
Proof.
  induction cs as [|c cs IH]; intros h b h' b' N E.
  - injection E as <- <-. exact N.
  - cbn [b_run] in E. destruct (b_step h b c) as [[h1 b1] o1] eqn:S1.
    apply (IH h1 b1 h' b' (step_output _ _ _ _ _ _ N S1) E).
Qed.
Lemma never_output h cs h' b : b_run h new_buffered cs = (h', b) ->
  (forall n, get_output_size b n = 0) /\ (forall out o, do_final h' b out o = (h', 0)).
Proof.
  intros E. pose proof (run_output cs h new_buffered h' b eq_refl E) as N. unfold get_output_size, do_final. rewrite N. split; reflexivity.
Qed.

Lemma good_same h h' c : length h' = length h -> (forall a, length (array h' a) = length (array h a)) -> good_call h c -> good_call h' c.
Proof.
  intros L A. assert (W : forall s, wf_slice h s -> wf_slice h' s).
  { intros s (W1 & W2 & W3). repeat split; [rewrite L; exact W1|exact W2|rewrite A; exact W3]. }
  destruct c; cbn [good_call]; auto. intros (X & Y). split; apply W; assumption.
Qed.
Lemma step_arrays h b c h' b' o : b_output b = None -> good_call h c -> b_step h b c = (h', b', o) ->
  length h' = length h /\ (forall a, length (array h' a) = length (array h a)) /\ (forall a, ~ written c a -> array h' a = array h a).
Proof.
  assert (T : forall h : heap, length h = length h /\ (forall a, length (array h a) = length (array h a)) /\ forall a, True -> array h a = array h a) by (repeat split).
  intros N G. destruct c; cbn [b_step written good_call] in *; unfold do_final; rewrite ?N;
    try (intros E; inversion E; subst; repeat split; reflexivity).
  destruct G as (I & O').
  destruct (process_bytes h input inOff length out outOff) as (h1, k) eqn:P. intros E. inversion E. subst h' b' o. clear E.
  unfold process_bytes in P. destruct (_ <? _) in P.
  - inversion P. subst. repeat split; reflexivity.
  - destruct (copy_spec h input out I O') as (_ & _ & C3 & C4 & C5). rewrite P in C3, C4, C5. cbn [fst] in *.
    split; [exact C3|]. split; [exact C4|]. intros a W. apply (nth_ext _ _ 0 0); [apply C4|]. intros i _. apply C5. left. intros ->. apply W. reflexivity.
Qed.
Lemma run_arrays cs : forall h b h' b', b_output b = None -> Forall (good_call h) cs -> b_run h b cs = (h', b') ->
  forall a, (forall c, In c cs -> ~ written c a) -> array h' a = array h a.
Proof.
  induction cs as [|c cs IH]; intros h b h' b' N G E a W.
  - injection E as <- <-. reflexivity.
  - cbn [b_run] in E. destruct (b_step h b c) as [[h1 b1] o1] eqn:S1.
    inversion G as [|? ? G1 G2]. subst. destruct (step_arrays _ _ _ _ _ _ N G1 S1) as (L & A & U).
    rewrite <- (U a) by (apply W; left; reflexivity).
    apply (IH h1 b1 h' b' (step_output _ _ _ _ _ _ N S1)); [|exact E|intros x X; apply W; right; exact X].
    clear - L A G2. induction G2; constructor; [eapply good_same; eassumption|assumption].
Qed.
Lemma untouched h cs h' b : Forall (good_call h) cs -> b_run h new_buffered cs = (h', b) ->
  forall a, (forall i io l out oo, In (BProcess i io l out oo) cs -> gs_arr i <> a) -> array h' a = array h a.
Proof.
  intros G E a W. apply (run_arrays cs h new_buffered h' b eq_refl G E). intros c C. destruct c; cbn [written]; intros X; try exact X.
  exact (W _ _ _ _ _ C X).
Qed.
(** a call in the style of the Java original destroys the plaintext *)
Lemma ex_lost : exists h input out h', wf_slice h input /\ wf_slice h out /\
  rd h input = [1; 2; 3] /\ rd h out = [0; 0; 0; 0] /\ process_bytes h input 0 3 out 0 = (h', 3) /\
  rd h' input = [0; 0; 0] /\ rd h' out = [0; 0; 0; 0].
Proof.
  exists [[1; 2; 3]; [0; 0; 0; 0]], (GS 0 0 3 3), (GS 1 0 4 4), [[0; 0; 0]; [0; 0; 0; 0]].
  repeat split; cbn; lia.
Qed.
Lemma ex_wrap : exists h input out, wf_slice h input /\ wf_slice h out /\ process_bytes h input 1 (- 2 ^ 63) out 0 = (h, -1).
Proof. exists [[1]; [0]], (GS 0 0 1 1), (GS 1 0 1 1). repeat split; cbn; lia. Qed.
