(** Lemmas behind [PropRipemd]: [HashesRipemd160] computes the RIPEMD-160 hash value, and nothing else is one. *)
From Coq Require Import List ZArith Lia Bool Arith.
From Verif Require Import GoBase ByteLemmas HashSpec MdModel MdSpec MdProofs PropMdLemmas PropSha2Lemmas RipemdSpec.
Import ListNotations.
Open Scope Z_scope.

Lemma le_number_val l : le_number l = le_val l.
Proof. induction l as [|b l IH]; [reflexivity|]. cbn [le_number fold_right le_val]. fold (le_number l). now rewrite IH. Qed.
Lemma rol_ok x s : is_word x -> 0 < s < 32 -> rotl32 x s = rol s x.
Proof. intros. unfold rol. now apply rotl32_sum. Qed.
Lemma rol_word x s : is_word x -> 0 < s < 32 -> is_word (rol s x).
Proof.
  intros [X0 X1] L. unfold rol, is_word.
  assert (E : (x * 2 ^ s) mod 2 ^ 32 = (x mod 2 ^ (32 - s)) * 2 ^ s).
  { replace 32 with ((32 - s) + s) at 1 by lia. rewrite Z.pow_add_r by lia. apply Z.mul_mod_distr_r; apply Z.pow_nonzero; lia. }
  rewrite E. assert (P : 2 ^ 32 = 2 ^ (32 - s) * 2 ^ s) by (rewrite <- Z.pow_add_r by lia; f_equal; lia).
  assert (0 < 2 ^ s) by (apply Z.pow_pos_nonneg; lia). assert (0 < 2 ^ (32 - s)) by (apply Z.pow_pos_nonneg; lia).
  pose proof (Z.mod_pos_bound x (2 ^ (32 - s)) ltac:(lia)). 
  assert (0 <= x / 2 ^ (32 - s)) by (apply Z.div_pos; lia).
  assert (x / 2 ^ (32 - s) < 2 ^ s) by (apply Z.div_lt_upper_bound; lia).
  rewrite P. clear P E X1. nia.
Qed.
Lemma F_ok j b c d : is_word b -> is_word c -> is_word d -> rmd_f j b c d = F j b c d.
Proof.
  intros B C D. unfold rmd_f, F, inverted. rewrite !not32_sub by assumption. reflexivity.
Qed.

(** ** One line *)
Definition item (ns : list nat) (rs : list Z) (fks : list (nat * Z)) (xs : list Z) (j : nat) : (nat * Z) * (Z * Z) :=
  (nth j fks (0%nat, 0), (word xs (nth j ns 0%nat), nth j rs 0)).
Lemma items_nth ns rs fks xs j : length ns = 80%nat -> length rs = 80%nat -> length fks = 80%nat -> (j < 80)%nat ->
  nth j (combine fks (combine (map (word xs) ns) rs)) ((0%nat, 0), (0, 0)) = item ns rs fks xs j.
Proof.
  intros L1 L2 L3 J. unfold item. rewrite combine_nth by (rewrite combine_length, map_length; lia). f_equal.
  rewrite combine_nth by (rewrite map_length; lia). f_equal.
  rewrite (nth_indep _ 0 (word xs 0%nat)) by (rewrite map_length; lia). apply map_nth.
Qed.
Lemma step_ok st j k x s : length st = 5%nat -> Forall is_word st -> 0 < s < 32 ->
  step (F j) k x s (word st) (word (rmd_step st ((j, k), (x, s)))) /\
  length (rmd_step st ((j, k), (x, s))) = 5%nat /\ Forall is_word (rmd_step st ((j, k), (x, s))).
Proof.
  intros L W S. destruct st as [|a [|b [|c [|d [|e [|]]]]]]; try discriminate L.
  repeat match goal with H : Forall _ (_ :: _) |- _ => inversion H; clear H; subst end.
  cbn [rmd_step]. split; [|split; [reflexivity|]].
  - unfold step. cbv zeta. cbn [word nth]. rewrite F_ok by assumption. unfold w32 at 1 2. rewrite !rol_ok by (apply Z.mod_pos_bound; reflexivity) || lia || assumption.
    repeat split.
  - repeat constructor; try (apply w32_word); try (unfold is_word in *; lia).
    all: rewrite rol_ok by (assumption || lia); apply rol_word; assumption || lia.
Qed.
Lemma firstn_next {A} (l : list A) d j : (j < length l)%nat -> firstn (S j) l = firstn j l ++ [nth j l d].
Proof.
  revert j. induction l as [|x l IH]; intros j J; [cbn in J; lia|]. destruct j as [|j]; [reflexivity|].
  cbn [length] in J. cbn [firstn nth app]. f_equal. apply IH. lia.
Qed.
Lemma line_ok (qs : list ((nat * Z) * (Z * Z))) h : length h = 5%nat -> Forall is_word h ->
  (forall j, (j < length qs)%nat -> 0 < snd (snd (nth j qs ((0%nat, 0), (0, 0)))) < 32) ->
  let V := fun j => word (fold_left rmd_step (firstn j qs) h) in
  (forall j, (j < length qs)%nat -> let '((f, k), (x, s)) := nth j qs ((0%nat, 0), (0, 0)) in step (F f) k x s (V j) (V (S j))) /\
  length (fold_left rmd_step qs h) = 5%nat.
Proof.
  intros L W S V.
  assert (I : forall j, (j <= length qs)%nat -> length (fold_left rmd_step (firstn j qs) h) = 5%nat /\ Forall is_word (fold_left rmd_step (firstn j qs) h)).
  { induction j as [|j IH]; intros J; [split; assumption|]. destruct (IH ltac:(lia)) as [A B].
    rewrite (firstn_next qs ((0%nat, 0), (0, 0))) by lia. rewrite fold_left_app. cbn [fold_left]. specialize (S j ltac:(lia)).
    destruct (nth j qs ((0%nat, 0), (0, 0))) as [[f k] [x s]]. cbn [snd] in S. apply (step_ok _ f k x s A B S). }
  split.
  - intros j J. destruct (I j ltac:(lia)) as [A B]. unfold V. rewrite (firstn_next qs ((0%nat, 0), (0, 0))) by lia. rewrite fold_left_app. cbn [fold_left].
    specialize (S j J). destruct (nth j qs ((0%nat, 0), (0, 0))) as [[f k] [x s]]. cbn [snd] in S. apply (step_ok _ f k x s A B S).
  - destruct (I (length qs) ltac:(lia)) as [A _]. now rewrite firstn_all in A.
Qed.

(** ** The tables *)
Definition fks_l := flat_map (fun jk => repeat jk 16) (combine [0; 1; 2; 3; 4]%nat rmd_k).
Definition fks_r := flat_map (fun jk => repeat jk 16) (combine [4; 3; 2; 1; 0]%nat rmd_k').
Definition table_check (ns : list nat) (rs : list Z) (fks : list (nat * Z)) (ks : list Z) (ff rr : nat -> nat) (j : nat) : bool :=
  Nat.eqb (nth j ns 0%nat) (rr j) && Nat.ltb (rr j) 16 && (nth j rs 0 =? shift (j / 16) (rr j)) && (0 <? nth j rs 0) && (nth j rs 0 <? 32) &&
  Nat.eqb (fst (nth j fks (0%nat, 0))) (ff j) && (snd (nth j fks (0%nat, 0)) =? word ks (j / 16)).
Lemma tables_l : forallb (table_check rmd_n rmd_r fks_l rmd_k (fun j => j / 16)%nat r) (seq 0 80) = true.
Proof. vm_compute. reflexivity. Qed.
Lemma tables_r : forallb (table_check rmd_n' rmd_r' fks_r rmd_k' (fun j => (79 - j) / 16)%nat r') (seq 0 80) = true.
Proof. vm_compute. reflexivity. Qed.
Lemma rmd_k_ok : left_constants (word rmd_k).
Proof. repeat split; vm_compute; congruence. Qed.
Lemma rmd_k'_ok : right_constants (word rmd_k').
Proof. repeat split; vm_compute; congruence. Qed.

Lemma line_steps ns rs fks ks ff rr xs h (X : nat -> Z) :
  forallb (table_check ns rs fks ks ff rr) (seq 0 80) = true ->
  length ns = 80%nat -> length rs = 80%nat -> length fks = 80%nat -> length h = 5%nat -> Forall is_word h ->
  (forall t, (t < 16)%nat -> word xs t = X t) ->
  let qs := combine fks (combine (map (word xs) ns) rs) in
  let V := fun j => word (fold_left rmd_step (firstn j qs) h) in
  (forall j, (j < 80)%nat -> step (F (ff j)) (word ks (j / 16)) (X (rr j)) (shift (j / 16) (rr j)) (V j) (V (S j))) /\
  V 80%nat = word (fold_left rmd_step qs h).
Proof.
  intros T L1 L2 L3 L W EX qs V. rewrite forallb_forall in T.
  assert (Lq : length qs = 80%nat) by (unfold qs; rewrite !combine_length, map_length; lia).
  assert (TT : forall j, (j < 80)%nat -> nth j qs ((0%nat, 0), (0, 0)) = ((ff j, word ks (j / 16)), (X (rr j), shift (j / 16) (rr j))) /\ 0 < shift (j / 16) (rr j) < 32).
  { intros j J. specialize (T j ltac:(apply in_seq; lia)). unfold table_check in T. rewrite !andb_true_iff in T.
    destruct T as ((((((T1 & T2) & T3) & T4) & T5) & T6) & T7).
    apply Nat.eqb_eq in T1, T6. apply Nat.ltb_lt in T2. apply Z.eqb_eq in T3, T7. apply Z.ltb_lt in T4, T5. rewrite T3 in T4, T5.
    split; [|split; assumption]. unfold qs. rewrite items_nth by assumption. unfold item. rewrite T1, T3, EX by exact T2.
    destruct (nth j fks (0%nat, 0)) as [f k]. cbn [fst snd] in T6, T7. now subst f k. }
  destruct (line_ok qs h L W) as [A _].
  - rewrite Lq. intros j J. destruct (TT j J) as [E S]. rewrite E. exact S.
  - rewrite Lq in A. split.
    + intros j J. specialize (A j J). destruct (TT j J) as [E _]. rewrite E in A. exact A.
    + unfold V. now rewrite firstn_all2 by lia.
Qed.
Lemma line_l_eq xs h : rmd_line [0; 1; 2; 3; 4]%nat rmd_k rmd_n rmd_r xs h = fold_left rmd_step (combine fks_l (combine (map (word xs) rmd_n) rmd_r)) h.
Proof. unfold rmd_line, fks_l. exact eq_refl. Qed.
Lemma line_r_eq xs h : rmd_line [4; 3; 2; 1; 0]%nat rmd_k' rmd_n' rmd_r' xs h = fold_left rmd_step (combine fks_r (combine (map (word xs) rmd_n') rmd_r')) h.
Proof. unfold rmd_line, fks_r. exact eq_refl. Qed.
Lemma compress_ok h p : length h = 5%nat -> Forall is_word h -> 
  compress (fun t => le_val (firstn 4 (skipn (4 * t) p))) (word h) (word (rmd_block h p)).
Proof.
  intros L W. set (xs := words le_val 16 p).
  assert (EX : forall t, (t < 16)%nat -> word xs t = (fun t => le_val (firstn 4 (skipn (4 * t) p))) t) by (intros t T; now apply words_nth).
  destruct (line_steps _ _ _ _ _ _ xs h _ tables_l eq_refl eq_refl eq_refl L W EX) as [A A'].
  destruct (line_steps _ _ _ _ _ _ xs h _ tables_r eq_refl eq_refl eq_refl L W EX) as [B B'].
  exists (word rmd_k), (word rmd_k'), (fun j => word (fold_left rmd_step (firstn j (combine fks_l (combine (map (word xs) rmd_n) rmd_r))) h)),
    (fun j => word (fold_left rmd_step (firstn j (combine fks_r (combine (map (word xs) rmd_n') rmd_r'))) h)).
  split; [exact rmd_k_ok|]. split; [exact rmd_k'_ok|]. split; [intros i _; reflexivity|]. split; [intros i _; reflexivity|].
  split; [intros j J; split; [exact (A j J)|exact (B j J)]|].
  cbv zeta beta in A', B' |- *. rewrite A', B'.
  unfold rmd_block. fold xs. rewrite line_l_eq, line_r_eq.
  generalize (fold_left rmd_step (combine fks_l (combine (map (word xs) rmd_n) rmd_r)) h) as l.
  generalize (fold_left rmd_step (combine fks_r (combine (map (word xs) rmd_n') rmd_r')) h) as r. intros r l.
  repeat split.
Qed.

(** ** The message *)
Lemma rmd_padded_ok m : wf_bytes m -> 8 * Z.of_nat (length m) < 2 ^ 64 -> rmd_padded m (md_padded put_le m).
Proof.
  intros W B. unfold md_padded. cbv zeta. destruct (zeros_count (length m)) as [Z1 Z2]. set (z := Z.to_nat ((55 - Z.of_nat (length m)) mod 64)) in *.
  rewrite Z.mod_small by lia. exists z, (put_le (8 * Z.of_nat (length m))). split; [reflexivity|]. split; [exact Z1|]. split; [exact Z2|].
  split; [apply put_le_8|]. split; [apply le_bytes_wf|]. unfold put_le. rewrite le_number_val, le_bytes_val. apply Z.mod_small.
  change (256 ^ Z.of_nat 8) with (2 ^ 64). lia.
Qed.
Lemma rmd_block_ok h p : length (rmd_block h p) = 5%nat /\ Forall is_word (rmd_block h p).
Proof. split; [reflexivity|]. unfold rmd_block. cbv zeta. cbn [seq map]. repeat constructor; apply Z.mod_pos_bound; reflexivity. Qed.
Lemma rmd_init_ok : length rmd_init = 5%nat /\ Forall is_word rmd_init.
Proof. split; [reflexivity|]. repeat constructor; unfold is_word; lia. Qed.
Lemma words_le_out h : Forall is_word h -> words le_val (length h) (le_out h) = h.
Proof.
  induction 1 as [|v h V F IH]; [reflexivity|]. cbn [length le_out flat_map words]. fold (le_out h).
  rewrite firstn_app, le_bytes_length, Nat.sub_diag, firstn_O, app_nil_r, firstn_all2 by (rewrite le_bytes_length; lia).
  rewrite skipn_app, le_bytes_length, Nat.sub_diag, skipn_O, (skipn_all2 (le_bytes 4 v)) by (rewrite le_bytes_length; lia). cbn [app].
  rewrite IH, le_bytes_val, Z.mod_small by exact V. reflexivity.
Qed.
Lemma ripemd_is m : wf_bytes m -> 8 * Z.of_nat (length m) < 2 ^ 64 ->
  exists d, HashesRipemd160 m = Ok d /\ is_RIPEMD160 m d.
Proof.
  intros W B. rewrite ripemd_ok. eexists. split; [reflexivity|]. unfold md_spec. cbv zeta.
  destruct (padded_mod put_le m put_le_8) as [N LN]. set (p := md_padded put_le m) in *.
  replace (length p / 64)%nat with N by (rewrite LN, Nat.mul_comm, Nat.div_mul; lia).
  set (H := fun i => fold_left rmd_block (blocks 64 i p) rmd_init).
  assert (HS : forall i, H (S i) = rmd_block (H i) (firstn 64 (skipn (64 * i) p))).
  { intros i. unfold H. rewrite blocks_S, fold_left_app. reflexivity. }
  assert (HH : forall i, length (H i) = 5%nat /\ Forall is_word (H i)).
  { intros [|i]; [exact rmd_init_ok|]. rewrite HS. apply rmd_block_ok. }
  fold (H N). destruct (HH N) as [LH FH]. destruct (le_out_ok (H N)) as [Lo Wo]. rewrite LH in Lo.
  exists p, N, (fun i => word (H i)). split; [now apply rmd_padded_ok|]. split; [exact LN|]. split; [repeat split|]. split; [|split; [exact Lo|split; [exact Wo|]]].
  - intros i I. rewrite HS. destruct (HH i) as [Li Fi].
    destruct (compress_ok (H i) (firstn 64 (skipn (64 * i) p)) Li Fi) as (K & K' & V & V' & A & A' & V0 & V0' & VS & E).
    exists K, K', V, V'. split; [exact A|]. split; [exact A'|]. split; [exact V0|]. split; [exact V0'|]. split; [|exact E].
    intros j J. destruct (VS j J) as [S1 S2]. rewrite !le_number_val. split; [exact S1|exact S2].
  - intros j J. rewrite le_number_val. unfold byte_piece. pose proof (words_le_out (H N) FH) as E. rewrite LH in E. rewrite <- E at 2.
    rewrite words_nth by exact J. reflexivity.
Qed.

(** ** Only one hash value *)
Lemma scaled_root_unique n p c d : 0 <= n -> scaled_root n p c -> scaled_root n p d -> c = d.
Proof.
  intros N (C0 & C1 & C2) (D0 & D1 & D2). destruct (Z.lt_trichotomy c d) as [H|[H|H]]; [exfalso|exact H|exfalso].
  - pose proof (Z.pow_le_mono_l (c + 1) d n ltac:(lia)). lia.
  - pose proof (Z.pow_le_mono_l (d + 1) c n ltac:(lia)). lia.
Qed.
Lemma left_unique K K' : left_constants K -> left_constants K' -> same5 K K'.
Proof.
  intros (A0 & A1 & A2 & A3 & A4) (B0 & B1 & B2 & B3 & B4) i I.
  destruct i as [|[|[|[|[|]]]]]; [congruence| | | | |lia]; eapply scaled_root_unique; try eassumption; lia.
Qed.
Lemma right_unique K K' : right_constants K -> right_constants K' -> same5 K K'.
Proof.
  intros (A0 & A1 & A2 & A3 & A4) (B0 & B1 & B2 & B3 & B4) i I.
  destruct i as [|[|[|[|[|]]]]]; [| | | |congruence|lia]; eapply scaled_root_unique; try eassumption; lia.
Qed.
Lemma step_unique f k x s v w v' w' : same5 v w -> step f k x s v v' -> step f k x s w w' -> same5 v' w'.
Proof.
  intros E (A0 & A4 & A3 & A2 & A1) (B0 & B4 & B3 & B2 & B1) i I.
  rewrite <- (E 0%nat), <- (E 1%nat), <- (E 2%nat), <- (E 3%nat), <- (E 4%nat) in B1 by lia.
  rewrite <- (E 4%nat) in B0 by lia. rewrite <- (E 3%nat) in B4 by lia. rewrite <- (E 2%nat) in B3 by lia. rewrite <- (E 1%nat) in B2 by lia.
  do 5 (destruct i as [|i]; [congruence|]). lia.
Qed.
Lemma div16 j : (j < 80)%nat -> (j / 16 < 5)%nat.
Proof. intros J. apply Nat.div_lt_upper_bound; lia. Qed.
Lemma compress_unique X h g h' g' : same5 h g -> compress X h h' -> compress X g g' -> same5 h' g'.
Proof.
  intros E (K1 & L1 & V & U & LK & RK & V0 & U0 & VS & A) (K2 & L2 & W & T & LK' & RK' & W0 & T0 & WS & B).
  pose proof (left_unique _ _ LK LK') as EK. pose proof (right_unique _ _ RK RK') as EL.
  assert (I : forall j, (j <= 80)%nat -> same5 (V j) (W j) /\ same5 (U j) (T j)).
  { induction j as [|j IH]; intros J.
    - split; intros i I; [rewrite V0, W0 by exact I|rewrite U0, T0 by exact I]; now apply E.
    - destruct (IH ltac:(lia)) as [I1 I2]. destruct (VS j ltac:(lia)) as [S1 S2]. destruct (WS j ltac:(lia)) as [S3 S4].
      rewrite <- (EK (j / 16)%nat) in S3 by (apply div16; lia). rewrite <- (EL (j / 16)%nat) in S4 by (apply div16; lia).
      split; [exact (step_unique _ _ _ _ _ _ _ _ I1 S1 S3)|exact (step_unique _ _ _ _ _ _ _ _ I2 S2 S4)]. }
  destruct (I 80%nat ltac:(lia)) as [I1 I2]. cbv zeta in A, B. destruct A as (A0 & A1 & A2 & A3 & A4). destruct B as (B0 & B1 & B2 & B3 & B4).
  intros i Hi. destruct i as [|[|[|[|[|i]]]]]; [rewrite A0, B0|rewrite A1, B1|rewrite A2, B2|rewrite A3, B3|rewrite A4, B4|lia];
  rewrite !E, !I1, !I2 by lia; reflexivity.
Qed.
Lemma byte_pieces_inj (n k : nat) : forall a b : bytes, length a = (n * k)%nat -> length b = (n * k)%nat ->
  (forall i, (i < k)%nat -> byte_piece n i a = byte_piece n i b) -> a = b.
Proof.
  induction k as [|k IH]; intros a b La Lb E.
  - rewrite Nat.mul_0_r in La, Lb. apply length_zero_iff_nil in La, Lb. congruence.
  - rewrite <- (firstn_skipn n a), <- (firstn_skipn n b). f_equal.
    + specialize (E 0%nat ltac:(lia)). unfold byte_piece in E. rewrite Nat.mul_0_r in E. exact E.
    + apply IH; [rewrite skipn_length; lia|rewrite skipn_length; lia|]. intros i Hi. specialize (E (S i) ltac:(lia)).
      unfold byte_piece in E |- *. rewrite !skipn_twice. replace (n + n * i)%nat with (n * S i)%nat by lia. exact E.
Qed.
Lemma ripemd_unique m d d' : is_RIPEMD160 m d -> is_RIPEMD160 m d' -> d = d'.
Proof.
  intros (p & N & H & P & LP & I0 & HB & Ld & Wd & Od) (p' & N' & H' & P' & LP' & I0' & HB' & Ld' & Wd' & Od').
  assert (p = p').
  { destruct P as (k & l & -> & K & Mk & Ll & Wl & Nl). destruct P' as (k' & l' & -> & K' & Mk' & Ll' & Wl' & Nl').
    assert (k = k') by now apply (mod_same (length m + 1) 64 56). subst k'. do 3 f_equal.
    rewrite le_number_val in Nl, Nl'. apply le_val_inj; congruence. }
  subst p'. replace N' with N in * by lia.
  assert (E : forall i, (i <= N)%nat -> same5 (H i) (H' i)).
  { induction i as [|i IH]; intros I.
    - destruct I0 as (A0 & A1 & A2 & A3 & A4). destruct I0' as (B0 & B1 & B2 & B3 & B4). intros i Hi.
      do 5 (destruct i as [|i]; [congruence|]). lia.
    - apply (compress_unique _ (H i) (H' i) _ _ (IH ltac:(lia)) (HB i ltac:(lia)) (HB' i ltac:(lia))). }
  apply (byte_pieces_inj 4 5); [exact Ld|exact Ld'|]. intros j J. apply le_val_inj.
  - now apply wf_first4, wf_skip4.
  - now apply wf_first4, wf_skip4.
  - unfold byte_piece. rewrite !firstn_length, !skipn_length, Ld, Ld'. reflexivity.
  - rewrite <- !le_number_val, Od, Od' by exact J. now apply E.
Qed.
Lemma ripemd_iff m : wf_bytes m -> 8 * Z.of_nat (length m) < 2 ^ 64 ->
  exists d, HashesRipemd160 m = Ok d /\ forall D, is_RIPEMD160 m D <-> D = d.
Proof.
  intros W B. destruct (ripemd_is m W B) as (d & E & I). exists d. split; [exact E|]. intros D. split.
  - intros I'. now apply (ripemd_unique m).
  - intros ->. exact I.
Qed.
