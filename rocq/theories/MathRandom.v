(** The failing cases of [GetRandomGroupElement] and [GetRandomEncodedGroupElement] (lemmas for [PropMath]). *)
From Coq Require Import List ZArith Lia Bool.
From Verif Require Import GoBase FieldModel FieldSpec ByteLemmas Fp Curve BasePoint
  GroupModel GroupSpec PointCodec PropGroupLemmas ApiModel MathModel MathSpec MathDecode.
Import ListNotations.
Open Scope Z_scope.

Lemma block_skip src j : (32 <= length src)%nat -> block (skipn 32 src) j = block src (S j).
Proof.
  intros L. unfold block. f_equal.
  rewrite <- (firstn_skipn 32 src) at 2. replace (32 * S j)%nat with (32 + 32 * j)%nat by lia.
  rewrite skipn_app, firstn_length_le by lia.
  rewrite (skipn_all2 (firstn 32 src)) by (rewrite firstn_length_le; lia). cbn [app]. f_equal. lia.
Qed.
Lemma tries_panic n : forall src, wf_bytes src ->
  (forall k P, (k < n)%nat -> (32 * S k <= length src)%nat -> ~ denotes (block src k) P) ->
  random_group_tries n src = Panic.
Proof.
  induction n as [|n IH]; intros src W H; [reflexivity|]. cbn [random_group_tries]. unfold read_or_panic, read_full.
  destruct (Nat.ltb (length src) 32) eqn:E; [reflexivity|]. apply Nat.ltb_ge in E. cbn [unwrap bind fst snd].
  destruct (g_decode_ok (firstn 32 src)) as [(Q & g & DQ & _)|[N ->]].
  - apply wf_firstn, W.
  - left. apply firstn_length_le. lia.
  - destruct (H 0%nat Q ltac:(lia) ltac:(lia) DQ).
  - apply IH.
    + rewrite <- (firstn_skipn 32 src) in W. apply Forall_app in W. apply W.
    + intros k P Lk LL. rewrite block_skip by exact E. apply H; [lia|]. rewrite skipn_length in LL. lia.
Qed.
Theorem randomGroup_panics src : wf_bytes src ->
  (forall k P, Z.of_nat k < 10 ^ 8 -> (32 * S k <= length src)%nat -> ~ denotes (block src k) P) ->
  math_GetRandomGroupElement src = Panic /\ math_GetRandomEncodedGroupElement src = Panic.
Proof.
  intros W H.
  assert (E : math_GetRandomGroupElement src = Panic).
  { unfold math_GetRandomGroupElement. rewrite tries_count. revert H. generalize (10 ^ 8). intros m Hm.
    apply tries_panic; [exact W|]. intros k P Lk LL. apply Hm; [lia|exact LL]. }
  split; [exact E|]. unfold math_GetRandomEncodedGroupElement. rewrite E. reflexivity.
Qed.
(** two blocks and a half, none of them a point *)
Lemma ex_random_panics : let src := le_bytes 32 2 ++ le_bytes 32 2 ++ repeat 7 16 in
  wf_bytes src /\ (64 < length src)%nat /\
  forall k P, Z.of_nat k < 10 ^ 8 -> (32 * S k <= length src)%nat -> ~ denotes (block src k) P.
Proof.
  cbv zeta. split; [|split].
  - apply Forall_app. split; [apply le_bytes_wf|]. apply Forall_app. split; [apply le_bytes_wf|]. repeat constructor; lia.
  - rewrite !app_length. cbn [repeat length]. rewrite !le_bytes_length. lia.
  - intros k P _ L D. rewrite !app_length, !le_bytes_length in L. cbn [repeat length] in L.
    assert (B : block (le_bytes 32 2 ++ le_bytes 32 2 ++ repeat 7 16) k = le_bytes 32 2).
    { destruct k as [|[|k]]; [reflexivity|reflexivity|lia]. }
    rewrite B in D. destruct D as (D & _). exact (proj2 decode_examples P D).
Qed.
