(** The incremental sponge computes the one-shot sponge of the concatenation. *)
From Verif Require Import GoBase GroupModel HashModel HashSpec ApiSpec.
Open Scope Z_scope.

Lemma xor_in_length a : forall b, length (xor_in a b) = length a.
Proof. induction a; intros [|y b]; cbn; auto. Qed.
Lemma xor_in_nil a : xor_in a [] = a. Proof. destruct a; reflexivity. Qed.

Lemma combine_zeros a : map (fun p => Z.lxor (fst p) (snd p)) (combine a (repeat 0 (length a))) = a.
Proof. induction a; cbn; [reflexivity|]. rewrite IHa, Z.lxor_0_r. reflexivity. Qed.

Lemma xor_front_in a : forall b, xor_front a b = xor_in a b.
Proof.
  unfold xor_front. induction a; intros [|y b]; cbn; auto.
  - rewrite combine_zeros, Z.lxor_0_r. reflexivity.
  - f_equal. apply IHa.
Qed.

Lemma upd_app_last l x v : upd (l ++ [x]) (length l) v = l ++ [v].
Proof. induction l; cbn; [reflexivity|]. f_equal. exact IHl. Qed.

Section S.
Variable f : bytes -> bytes.
Variable rate : nat.
Variable ds : Z.
Variable outlen : nat.
Hypothesis rate_pos : (0 < rate)%nat.
Hypothesis out_rate : (outlen <= rate)%nat.

Let step st b := f (xor_in st b).

(** the state holds message m *)
Definition holds (s : sponge) (m : bytes) : Prop :=
  exists bs r, m = concat bs ++ r /\ Forall (fun b => length b = rate) bs /\ (length r < rate)%nat /\
    s = Sponge (fold_left step bs (all_zero 200)) r.

Lemma holds_new : holds sponge_new [].
Proof. exists [], []. cbn. repeat split; auto. Qed.

Lemma write_loop_holds n : forall s p m, (length p <= n)%nat -> holds s m ->
  holds (sponge_write_loop f rate n s p) (m ++ p).
Proof.
  induction n; intros s p m Hn Hs.
  - destruct p; cbn in Hn; [|lia]. rewrite app_nil_r. exact Hs.
  - cbn [sponge_write_loop]. destruct p as [|p0 p']; [rewrite app_nil_r; exact Hs|].
    set (p := p0 :: p') in *.
    destruct Hs as (bs & r & Em & Hb & Hr & Es). subst s. cbn [sp_buf sp_a].
    destruct (Nat.eqb (length r) 0 && Nat.leb rate (length p)) eqn:C.
    + apply andb_true_iff in C as [C1 C2]. apply Nat.eqb_eq in C1. apply Nat.leb_le in C2.
      destruct r; [|cbn in C1; lia].
      replace (m ++ p) with ((m ++ firstn rate p) ++ skipn rate p) by (rewrite <- app_assoc, firstn_skipn; reflexivity).
      apply IHn. { rewrite skipn_length. lia. }
      exists (bs ++ [firstn rate p]), []. rewrite concat_app, fold_left_app. cbn [concat fold_left].
      repeat split.
      * rewrite Em, !app_nil_r. reflexivity.
      * apply Forall_app; split; [exact Hb|]. constructor; [|constructor]. apply firstn_length_le. lia.
      * cbn. lia.
    + set (todo := Nat.min (rate - length r) (length p)).
      assert (0 < todo)%nat by (subst todo p; cbn [length] in *; lia).
      replace (m ++ p) with ((m ++ firstn todo p) ++ skipn todo p) by (rewrite <- app_assoc, firstn_skipn; reflexivity).
      assert (Hl : length (r ++ firstn todo p) = (length r + todo)%nat)
        by (rewrite app_length, firstn_length_le; [reflexivity|lia]).
      destruct (Nat.eqb (length (r ++ firstn todo p)) rate) eqn:D.
      * apply Nat.eqb_eq in D. apply IHn. { rewrite skipn_length. lia. }
        unfold sponge_permute. cbn [sp_a sp_buf].
        exists (bs ++ [r ++ firstn todo p]), []. rewrite concat_app, fold_left_app. cbn [concat fold_left].
        repeat split.
        -- rewrite Em, !app_nil_r, app_assoc. reflexivity.
        -- apply Forall_app; split; [exact Hb|]. constructor; [exact D|constructor].
        -- cbn. lia.
      * apply Nat.eqb_neq in D. apply IHn. { rewrite skipn_length. lia. }
        exists bs, (r ++ firstn todo p). repeat split; auto.
        -- rewrite Em, app_assoc. reflexivity.
        -- rewrite Hl in *. lia.
Qed.

Lemma write_all_holds parts : forall s m, holds s m ->
  exists s', write_all f rate s parts = Ok s' /\ holds s' (m ++ concat parts).
Proof.
  induction parts as [|b parts IH]; intros s m Hs; cbn [write_all concat].
  - exists s. rewrite app_nil_r. auto.
  - unfold sponge_write. cbn [bind].
    destruct (IH (sponge_write_loop f rate (length b) s b) (m ++ b)) as (s' & E & H).
    { apply write_loop_holds; auto. }
    exists s'. rewrite app_assoc. auto.
Qed.

Lemma blocks_app bs : forall n r, Forall (fun b => length b = rate) bs ->
  blocks rate (length bs + n) (concat bs ++ r) = bs ++ blocks rate n r.
Proof.
  induction bs as [|b bs IH]; intros n r H; cbn [length Nat.add concat app blocks]; [reflexivity|].
  inversion H; subst. rewrite <- app_assoc, firstn_app, skipn_app, Nat.sub_diag.
  rewrite firstn_all, skipn_all. cbn [firstn skipn app]. rewrite app_nil_r. f_equal. apply IH; assumption.
Qed.

Lemma concat_length bs : Forall (fun b : bytes => length b = rate) bs ->
  length (concat bs) = (length bs * rate)%nat.
Proof. induction 1; cbn; [reflexivity|]. rewrite app_length, H, IHForall. reflexivity. Qed.

Lemma fold_step bs : forall st, fold_left (fun st b => f (xor_front st b)) bs st = fold_left step bs st.
Proof. induction bs; intros st; cbn [fold_left]; [reflexivity|]. rewrite xor_front_in. apply IHbs. Qed.

(** the padded last block *)
Definition last_block (r : bytes) : bytes := xor_last rate ((r ++ [ds]) ++ repeat 0 (rate - length (r ++ [ds]))).
Lemma last_block_eq r : (length r < rate)%nat ->
  last_block r = (match (rate - length r)%nat with
                  | 1%nat => r ++ [Z.lxor ds 0x80]
                  | k => r ++ [ds] ++ repeat 0 (k - 2) ++ [0x80] end).
Proof.
  intros Hr. unfold last_block, xor_last. rewrite app_length. cbn [length].
  destruct (rate - length r)%nat as [|[|k]] eqn:K; [lia| |].
  - replace (rate - (length r + 1))%nat with 0%nat by lia. cbn [repeat]. rewrite app_nil_r.
    replace (rate - 1)%nat with (length r) by lia.
    unfold byte_at. rewrite app_nth2, Nat.sub_diag by lia. cbn [nth]. apply upd_app_last.
  - replace (rate - (length r + 1))%nat with (S k) by lia.
    replace (S (S k) - 2)%nat with k by lia.
    replace (repeat 0 (S k)) with (repeat 0 k ++ [0])
      by (symmetry; replace (S k) with (k + 1)%nat by lia; apply repeat_app).
    rewrite app_assoc. set (l := (r ++ [ds]) ++ repeat 0 k).
    assert (L : length l = (rate - 1)%nat) by (subst l; rewrite !app_length, repeat_length; cbn; lia).
    rewrite <- L. unfold byte_at. rewrite app_nth2, Nat.sub_diag by lia. cbn [nth].
    rewrite upd_app_last. subst l. rewrite <- !app_assoc. reflexivity.
Qed.

Lemma last_block_length r : (length r < rate)%nat -> length (last_block r) = rate.
Proof.
  intros H. rewrite last_block_eq by assumption.
  destruct (rate - length r)%nat as [|[|k]] eqn:K; [lia| |];
    rewrite ?app_length; cbn [length app]; rewrite ?app_length, ?repeat_length; cbn [length]; lia.
Qed.

Lemma sum_holds s m : holds s m -> sponge_sum f rate ds outlen s = sponge_hash f rate ds outlen m.
Proof.
  intros (bs & r & Em & Hb & Hr & Es). subst s m.
  assert (Lm : length (concat bs ++ r) = (length bs * rate + length r)%nat)
    by (rewrite app_length, concat_length by assumption; reflexivity).
  assert (Hpad : sponge_padded rate ds (concat bs ++ r) = concat bs ++ last_block r).
  { unfold sponge_padded. rewrite Lm.
    replace ((length bs * rate + length r) mod rate)%nat with (length r)
      by (rewrite Nat.add_comm, Nat.mod_add, Nat.mod_small; lia).
    rewrite last_block_eq by assumption.
    destruct (rate - length r)%nat as [|[|k]]; rewrite <- app_assoc; reflexivity. }
  unfold sponge_hash. rewrite Hpad. cbv zeta. rewrite app_length, concat_length, last_block_length by assumption.
  unfold bytes. replace ((length bs * rate + rate) / rate)%nat with (length bs + 1)%nat
    by (replace (length bs * rate + rate)%nat with ((length bs + 1) * rate)%nat by lia; rewrite Nat.div_mul; lia).
  pose proof (blocks_app bs 1 (last_block r) Hb) as Eb. unfold bytes in Eb. rewrite Eb. clear Eb. cbn [blocks].
  rewrite (firstn_all2 (last_block r)) by (rewrite last_block_length; lia).
  rewrite fold_step, fold_left_app. cbn [fold_left].
  unfold sponge_sum, sponge_pad, sponge_permute. cbn [sp_a sp_buf].
  rewrite firstn_firstn, Nat.min_l by assumption. reflexivity.
Qed.

Lemma hash_parts_spec parts :
  hash_parts f rate ds outlen parts = Ok (sponge_hash f rate ds outlen (concat parts)).
Proof.
  unfold hash_parts. destruct (write_all_holds parts sponge_new [] holds_new) as (s & E & H).
  rewrite E. cbn [bind]. f_equal. apply sum_holds. exact H.
Qed.
Lemma hash_one_spec b : hash_one f rate ds outlen b = Ok (sponge_hash f rate ds outlen b).
Proof.
  pose proof (hash_parts_spec [b]) as E. unfold hash_parts in E. cbn [write_all concat] in E.
  rewrite app_nil_r in E. exact E.
Qed.

(** output length and range, for a permutation that returns 200 bytes *)
Hypothesis f_bytes : forall s, length s = 200%nat -> length (f s) = 200%nat /\ wf_bytes (f s).
Lemma fold_ok bs : forall st, length st = 200%nat -> wf_bytes st ->
  length (fold_left (fun st b => f (xor_front st b)) bs st) = 200%nat /\
  wf_bytes (fold_left (fun st b => f (xor_front st b)) bs st).
Proof.
  induction bs; intros st L W; cbn [fold_left]; [auto|].
  assert (L2 : length (xor_front st a) = 200%nat) by (rewrite xor_front_in, xor_in_length; exact L).
  destruct (f_bytes _ L2). apply IHbs; assumption.
Qed.
Lemma sponge_hash_ok m : (outlen <= 200)%nat ->
  length (sponge_hash f rate ds outlen m) = outlen /\ wf_bytes (sponge_hash f rate ds outlen m).
Proof.
  intros Ho. unfold sponge_hash. cbv zeta.
  set (p := sponge_padded rate ds m).
  destruct (fold_ok (blocks rate (length p / rate) p) (repeat 0 200%nat)) as [L W].
  { apply repeat_length. }
  { apply Forall_forall. intros x Hx. apply repeat_spec in Hx. subst. split; lia. }
  split.
  - rewrite firstn_length_le; [reflexivity|]. rewrite L. exact Ho.
  - unfold wf_bytes in *. rewrite <- (firstn_skipn outlen) in W. apply Forall_app in W. tauto.
Qed.
End S.

(** Keccak-f returns 200 bytes *)
Lemma le_bytes_ok n : forall v, length (le_bytes n v) = n /\ wf_bytes (le_bytes n v).
Proof.
  induction n; intros v; cbn [le_bytes]; [split; [reflexivity|constructor]|].
  destruct (IHn (v / 256)) as [A B]. split; [cbn; f_equal; exact A|].
  constructor; [|exact B]. unfold is_byte. apply Z.mod_pos_bound. lia.
Qed.
Lemma of_lanes_ok a : length (of_lanes a) = (8 * length a)%nat /\ wf_bytes (of_lanes a).
Proof.
  induction a as [|v a [A B]]; cbn [of_lanes flat_map]; [split; [reflexivity|constructor]|].
  destruct (le_bytes_ok 8 v) as [C D]. split.
  - rewrite app_length, C. fold (of_lanes a). rewrite A. cbn [length]. lia.
  - apply Forall_app; split; assumption.
Qed.
Lemma round_length a rc : length (keccak_round a rc) = 25%nat.
Proof.
  unfold keccak_round, iota, chi, all25. cbn [seq map].
  reflexivity.
Qed.
Lemma rounds_length l : forall a, length a = 25%nat -> length (fold_left keccak_round l a) = 25%nat.
Proof. induction l; intros b H; cbn [fold_left]; [exact H|]. apply IHl. apply round_length. Qed.
Lemma keccak_f_ok s : length s = 200%nat -> length (keccak_f s) = 200%nat /\ wf_bytes (keccak_f s).
Proof.
  intros _. unfold keccak_f. destruct (of_lanes_ok (fold_left keccak_round round_constants (to_lanes 25 s))) as [A B].
  split; [|exact B]. rewrite A, rounds_length; reflexivity.
Qed.
