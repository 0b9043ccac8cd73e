(** Lemmas behind the statements of C55. *)
From Coq Require Import List ZArith Lia Bool Arith.
From Verif Require Import GoBase ByteLemmas HashSpec MdModel MdSpec MdProofs.
Import ListNotations.
Open Scope Z_scope.

Lemma put_be_8 v : length (put_be v) = 8%nat. Proof. unfold put_be. rewrite rev_length. apply le_bytes_length. Qed.
Lemma put_le_8 v : length (put_le v) = 8%nat. Proof. apply le_bytes_length. Qed.
Lemma sha256_ok b : HashesSha_256 b = Ok (md_spec sha256_block sha256_init put_be be_out b).
Proof. apply md_hash_ok, put_be_8. Qed.
Lemma ripemd_ok b : HashesRipemd160 b = Ok (md_spec rmd_block rmd_init put_le le_out b).
Proof. apply md_hash_ok, put_le_8. Qed.
Lemma any_md f h0 put out : (forall v, length (put v) = 8%nat) -> forall ps,
  md_sum f put out (fold_left (md_write f) ps (md_new h0)) = Ok (md_spec f h0 put out (concat ps)).
Proof. intros P ps. now apply md_parts. Qed.

(** ** Sizes *)
Definition is_word (v : Z) : Prop := 0 <= v < 2 ^ 32.
Lemma w32_word v : is_word (w32 v). Proof. apply Z.mod_pos_bound. reflexivity. Qed.
Lemma add_words_ok a b : Forall is_word (add_words a b).
Proof. apply Forall_map, Forall_forall. intros x _. apply w32_word. Qed.
Lemma round8 s kw : length s = 8%nat -> length (sha256_round s kw) = 8%nat.
Proof. do 8 (destruct s as [|? s]; [discriminate|]). destruct s; [reflexivity|discriminate]. Qed.
Lemma rounds8 kws : forall s, length s = 8%nat -> length (fold_left sha256_round kws s) = 8%nat.
Proof. induction kws as [|kw kws IH]; intros s L; [exact L|]. cbn [fold_left]. apply IH, round8, L. Qed.
Lemma sha256_block_8 h p : length h = 8%nat -> length (sha256_block h p) = 8%nat.
Proof.
  intros L. unfold sha256_block, add_words. set (r := fold_left _ _ h). assert (Lr : length r = 8%nat) by (apply rounds8, L).
  clearbody r. rewrite map_length, combine_length, L, Lr. reflexivity.
Qed.
Lemma sha256_fold_ok bs : forall h, length h = 8%nat -> Forall is_word h ->
  length (fold_left sha256_block bs h) = 8%nat /\ Forall is_word (fold_left sha256_block bs h).
Proof.
  induction bs as [|b bs IH]; intros h L W; [split; assumption|]. cbn [fold_left]. apply IH; [apply sha256_block_8, L|apply add_words_ok].
Qed.
Lemma sha256_init_ok : length sha256_init = 8%nat /\ Forall is_word sha256_init.
Proof. split; [reflexivity|]. unfold sha256_init. repeat (constructor; [unfold is_word; lia|]). constructor. Qed.
Lemma rmd_fold_5 bs : forall h, length h = 5%nat -> length (fold_left rmd_block bs h) = 5%nat.
Proof.
  induction bs as [|b bs IH]; intros h L; [exact L|]. cbn [fold_left]. apply IH. unfold rmd_block. cbv zeta. rewrite map_length. apply seq_length.
Qed.
Lemma be_out_ok h : length (be_out h) = (4 * length h)%nat /\ wf_bytes (be_out h).
Proof.
  induction h as [|v h [IL IW]]; [split; [reflexivity|constructor]|]. unfold be_out in *. cbn [flat_map]. split.
  - rewrite app_length, rev_length, le_bytes_length, IL. cbn [length]. lia.
  - apply Forall_app. split; [apply Forall_rev, le_bytes_wf|exact IW].
Qed.
Lemma le_out_ok h : length (le_out h) = (4 * length h)%nat /\ wf_bytes (le_out h).
Proof.
  induction h as [|v h [IL IW]]; [split; [reflexivity|constructor]|]. unfold le_out in *. cbn [flat_map]. split.
  - rewrite app_length, le_bytes_length, IL. cbn [length]. lia.
  - apply Forall_app. split; [apply le_bytes_wf|exact IW].
Qed.
Lemma md_sizes b : (exists d, HashesSha_256 b = Ok d /\ length d = 32%nat /\ wf_bytes d) /\
  (exists d, HashesRipemd160 b = Ok d /\ length d = 20%nat /\ wf_bytes d).
Proof.
  split.
  - eexists. split; [apply sha256_ok|]. unfold md_spec. cbv zeta. set (bs := blocks _ _ _). clearbody bs.
    destruct (sha256_fold_ok bs sha256_init (proj1 sha256_init_ok) (proj2 sha256_init_ok)) as [L _].
    set (h := fold_left _ bs _) in *. clearbody h. destruct (be_out_ok h) as [Lo Wo]. rewrite L in Lo. split; assumption.
  - eexists. split; [apply ripemd_ok|]. unfold md_spec. cbv zeta. set (bs := blocks _ _ _). clearbody bs.
    pose proof (rmd_fold_5 bs rmd_init eq_refl) as L. set (h := fold_left _ bs _) in *. clearbody h.
    destruct (le_out_ok h) as [Lo Wo]. rewrite L in Lo. split; assumption.
Qed.

(** ** Length extension *)
Lemma be32_out v : is_word v -> be32 (rev (le_bytes 4 v)) = v.
Proof. intros W. unfold be32. rewrite rev_involutive, le_bytes_val. apply Z.mod_small. exact W. Qed.
Lemma words_be_out h : Forall is_word h -> words be32 (length h) (be_out h) = h.
Proof.
  induction 1 as [|v h W Wh IH]; [reflexivity|]. cbn [length words]. unfold be_out. cbn [flat_map]. fold (be_out h).
  assert (L : length (rev (le_bytes 4 v)) = 4%nat) by (rewrite rev_length; apply le_bytes_length).
  rewrite firstn_app, skipn_app, L, Nat.sub_diag, firstn_all2, skipn_all2 by lia. cbn [firstn skipn]. rewrite app_nil_r.
  rewrite be32_out by exact W. f_equal. exact IH.
Qed.
Lemma padded_mod put m : (forall v, length (put v) = 8%nat) -> exists n, length (md_padded put m) = (64 * n)%nat.
Proof.
  intros P. unfold md_padded. cbv zeta. rewrite !app_length, repeat_length, P. cbn [length].
  pose proof (Z.mod_pos_bound (55 - Z.of_nat (length m)) 64 ltac:(lia)) as B.
  pose proof (Z.div_mod (55 - Z.of_nat (length m)) 64 ltac:(lia)) as Dm.
  set (y := (55 - Z.of_nat (length m)) mod 64) in *. set (d := (55 - Z.of_nat (length m)) / 64) in *.
  exists (Z.to_nat (1 - d)). lia.
Qed.
Lemma length_extension m s d : HashesSha_256 m = Ok d ->
  let p := md_padded put_be m in
  let n := Z.of_nat (length p + length s) in
  let tail := s ++ [0x80] ++ repeat 0 (Z.to_nat ((55 - n) mod 64)) ++ put_be ((8 * n) mod 2 ^ 64) in
  HashesSha_256 (p ++ s) = Ok (be_out (fold_left sha256_block (blocks 64 (length tail / 64) tail) (words be32 8 d))).
Proof.
  intros Hm p n tail. rewrite sha256_ok in Hm |- *. f_equal.
  assert (Ed : md_spec sha256_block sha256_init put_be be_out m = d) by congruence. clear Hm.
  destruct (padded_mod put_be m put_be_8) as (k & Lp). fold p in Lp.
  assert (Ef : md_padded put_be (p ++ s) = p ++ tail).
  { unfold md_padded. rewrite app_length. fold n. unfold tail. rewrite <- app_assoc. reflexivity. }
  unfold md_spec. cbv zeta. rewrite Ef.
  destruct (padded_mod put_be (p ++ s) put_be_8) as (j & Lj). rewrite Ef, app_length, Lp in Lj.
  assert (Lt : length tail = (64 * (j - k))%nat) by lia.
  replace (length (p ++ tail) / 64)%nat with (k + (j - k))%nat.
  2: { rewrite app_length, Lp, Lt, <- Nat.mul_add_distr_l, (Nat.mul_comm 64), Nat.div_mul by lia. reflexivity. }
  replace (length tail / 64)%nat with (j - k)%nat by (rewrite Lt, (Nat.mul_comm 64), Nat.div_mul by lia; reflexivity).
  rewrite blocks_app, fold_left_app, blocks_firstn by lia. rewrite skipn_app, <- Lp, Nat.sub_diag, skipn_all. cbn [skipn app].
  f_equal. f_equal. unfold md_spec in Ed. cbv zeta in Ed. fold p in Ed. rewrite Lp, (Nat.mul_comm 64), Nat.div_mul in Ed by lia.
  destruct (sha256_fold_ok (blocks 64 k p) sha256_init (proj1 sha256_init_ok) (proj2 sha256_init_ok)) as [L W].
  rewrite <- Ed. pose proof (words_be_out _ W) as X. rewrite L in X. symmetry. exact X.
Qed.
