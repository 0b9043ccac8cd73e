(** The incremental SHA-256 / RIPEMD-160 objects compute the hash of the concatenation (C55). *)
From Coq Require Import List ZArith Lia Bool Arith.
From Verif Require Import GoBase HashSpec MdModel MdSpec.
Import ListNotations.
Open Scope Z_scope.

Lemma blocks_app r a : forall b (m : bytes), blocks r (a + b) m = blocks r a m ++ blocks r b (skipn (r * a) m).
Proof.
  induction a as [|a IH]; intros b m; [rewrite Nat.mul_0_r; reflexivity|]. cbn [Nat.add blocks app]. f_equal. rewrite IH. do 2 f_equal.
  rewrite Nat.mul_succ_r, Nat.add_comm. generalize (r * a)%nat as k. clear. intros k. revert m.
  induction r as [|r IH]; intros [|x m]; cbn [Nat.add skipn]; try reflexivity; [now rewrite !skipn_nil|apply IH].
Qed.
Lemma blocks_firstn r n : forall (m q : bytes), (r * n <= length m)%nat -> blocks r n (m ++ q) = blocks r n m.
Proof.
  induction n as [|n IH]; intros m q L; [reflexivity|]. cbn [blocks]. rewrite firstn_app.
  replace (r - length m)%nat with 0%nat by lia. rewrite firstn_O, app_nil_r. f_equal.
  rewrite skipn_app. replace (r - length m)%nat with 0%nat by lia. apply IH. rewrite skipn_length. lia.
Qed.
Section Md.
Variable f : list Z -> bytes -> list Z.
Variable h0 : list Z.
Variable put_len : Z -> bytes.
Variable out : list Z -> bytes.
Hypothesis put_len_8 : forall v, length (put_len v) = 8%nat.

Lemma md_blocks_fold n : forall h p, md_blocks f n h p = fold_left f (blocks 64 n p) h.
Proof. induction n as [|n IH]; intros h p; [reflexivity|]. cbn [md_blocks blocks fold_left]. apply IH. Qed.

(** chaining value h and buffer x after message m *)
Definition rel (h : list Z) (x m : bytes) : Prop :=
  exists n pre, m = pre ++ x /\ length pre = (64 * n)%nat /\ h = fold_left f (blocks 64 n pre) h0.
Lemma rel_buf h x m a : rel h x m -> rel h (x ++ a) (m ++ a).
Proof. intros (n & pre & -> & L & E). exists n, pre. now rewrite app_assoc. Qed.
Lemma rel_more h m p n : rel h [] m -> length p = (64 * n)%nat -> rel (md_blocks f n h p) [] (m ++ p).
Proof.
  intros (k & pre & Em & L & E) Lp. rewrite app_nil_r in Em. subst m. exists (k + n)%nat, (pre ++ p). rewrite app_nil_r.
  split; [reflexivity|]. split; [rewrite app_length; lia|].
  rewrite blocks_app, fold_left_app, blocks_firstn by lia. rewrite <- E. rewrite skipn_app, <- L, Nat.sub_diag, skipn_all. apply md_blocks_fold.
Qed.
Lemma rel_full h x m : rel h x m -> length x = 64%nat -> rel (f h x) [] m.
Proof.
  intros (n & pre & -> & L & E) Lx.
  assert (R : rel h [] pre) by (exists n, pre; rewrite app_nil_r; auto).
  pose proof (rel_more h pre x 1 R ltac:(lia)) as X. cbn [md_blocks] in X. rewrite firstn_all2 in X by lia. exact X.
Qed.
Definition inv (s : md) (m : bytes) : Prop :=
  rel (md_h s) (md_x s) m /\ (length (md_x s) < 64)%nat /\ md_len s = Z.of_nat (length m) mod 2 ^ 64.

Lemma inv_new : inv (md_new h0) [].
Proof. split; [exists 0%nat, []; auto|]. split; [cbn; lia|reflexivity]. Qed.
Lemma inv_write s m p : inv s m -> inv (md_write f s p) (m ++ p).
Proof.
  intros (R & Lx & El).
  assert (Len : (md_len s + Z.of_nat (length p)) mod 2 ^ 64 = Z.of_nat (length (m ++ p)) mod 2 ^ 64).
  { rewrite El, app_length, Nat2Z.inj_add, Zplus_mod_idemp_l. reflexivity. }
  unfold md_write.
  assert (S1 : exists h1 x1 p1 a, md_fill f s p = (h1, x1, p1) /\ p = a ++ p1 /\ rel h1 x1 (m ++ a) /\ (length x1 < 64)%nat /\ (x1 = [] \/ p1 = [])).
  { unfold md_fill. destruct (Nat.ltb_spec 0 (length (md_x s))) as [L0|L0].
    - set (n := Nat.min (64 - length (md_x s)) (length p)).
      assert (Ln : length (firstn n p) = n) by (apply firstn_length_le; lia).
      pose proof (rel_buf _ _ _ (firstn n p) R) as R1.
      destruct (Nat.eqb_spec (length (md_x s ++ firstn n p)) 64) as [L64|L64].
      + eexists _, _, _, (firstn n p). split; [reflexivity|]. split; [symmetry; apply firstn_skipn|].
        split; [apply rel_full; assumption|]. split; [cbn; lia|left; reflexivity].
      + eexists _, _, _, (firstn n p). split; [reflexivity|]. split; [symmetry; apply firstn_skipn|].
        split; [exact R1|]. rewrite app_length in *. split; [lia|right]. apply length_zero_iff_nil. rewrite skipn_length. lia.
    - exists (md_h s), (md_x s), p, []. rewrite app_nil_r. split; [reflexivity|]. split; [reflexivity|]. split; [exact R|].
      split; [exact Lx|left]. apply length_zero_iff_nil. lia. }
  destruct S1 as (h1 & x1 & p1 & a & -> & Ep & R1 & L1 & D1).
  assert (S2 : exists h2 p2, md_whole f h1 p1 = (h2, p2) /\ rel h2 (if Nat.ltb 0 (length p2) then p2 else x1) (m ++ p) /\
      (length (if Nat.ltb 0 (length p2) then p2 else x1) < 64)%nat).
  { unfold md_whole. destruct (Nat.leb_spec 64 (length p1)) as [L64|L64].
    - assert (X1 : x1 = []) by (destruct D1 as [D1|D1]; [exact D1|rewrite D1 in L64; cbn in L64; lia]). rewrite X1 in R1 |- *.
      set (n := (length p1 / 64)%nat). pose proof (Nat.div_mod_eq (length p1) 64) as Dm. fold n in Dm.
      pose proof (Nat.mod_upper_bound (length p1) 64 ltac:(lia)) as Mb.
      assert (Lf : length (firstn (64 * n) p1) = (64 * n)%nat) by (apply firstn_length_le; lia).
      pose proof (rel_more _ _ _ n R1 Lf) as R2. pose proof (rel_buf _ _ _ (skipn (64 * n) p1) R2) as R3.
      rewrite <- !app_assoc, firstn_skipn, <- Ep in R3. cbn [app] in R3.
      eexists _, _. split; [reflexivity|]. set (q := skipn (64 * n) p1) in *.
      assert (Lq : (length q < 64)%nat) by (unfold q; rewrite skipn_length; lia).
      destruct (Nat.ltb_spec 0 (length q)) as [Q|Q].
      + split; [exact R3|exact Lq].
      + assert (Q0 : q = []) by (apply length_zero_iff_nil; lia). rewrite Q0 in R3. split; [exact R3|cbn; lia].
    - exists h1, p1. split; [reflexivity|]. destruct (Nat.ltb_spec 0 (length p1)) as [Q|Q].
      + assert (X1 : x1 = []) by (destruct D1 as [D1|D1]; [exact D1|rewrite D1 in Q; cbn in Q; lia]). rewrite X1 in R1.
        split; [|exact L64]. pose proof (rel_buf _ _ _ p1 R1) as R2. rewrite <- app_assoc, <- Ep in R2. exact R2.
      + assert (Q0 : p1 = []) by (apply length_zero_iff_nil; lia). rewrite Q0, app_nil_r in Ep. subst a. split; [exact R1|exact L1]. }
  destruct S2 as (h2 & p2 & -> & R2 & L2). split; [exact R2|]. split; [exact L2|exact Len].
Qed.
Lemma inv_final s m : inv s m -> (length m mod 64 = 0)%nat -> md_x s = [] /\ md_h s = fold_left f (blocks 64 (length m / 64) m) h0.
Proof.
  intros ((n & pre & Em & L & E) & Lx & _) Lm. assert (X : md_x s = []).
  { apply length_zero_iff_nil. rewrite Em, app_length, L in Lm. rewrite Nat.add_comm, Nat.mul_comm, Nat.mod_add in Lm by lia.
    rewrite Nat.mod_small in Lm by exact Lx. exact Lm. }
  split; [exact X|]. rewrite X, app_nil_r in Em. rewrite Em, L, (Nat.mul_comm 64), Nat.div_mul by lia. exact E.
Qed.
Lemma pad_count n : (let len := n mod 2 ^ 64 in if len mod 64 <? 56 then 56 - len mod 64 else 64 + 56 - len mod 64) = (55 - n) mod 64 + 1.
Proof.
  cbv zeta. rewrite <- (Znumtheory.Zmod_div_mod 64 (2 ^ 64)); [|lia|reflexivity|exists (2 ^ 58); reflexivity].
  pose proof (Z.mod_pos_bound n 64 ltac:(lia)) as B. pose proof (Z.div_mod n 64 ltac:(lia)) as Dm.
  replace (55 - n) with (55 - n mod 64 + (- (n / 64)) * 64) by lia. rewrite Z.mod_add by lia.
  destruct (Z.ltb_spec (n mod 64) 56) as [L|L].
  - rewrite (Z.mod_small (55 - n mod 64)) by lia. lia.
  - replace (55 - n mod 64) with (119 - n mod 64 + (-1) * 64) by lia. rewrite Z.mod_add by lia. rewrite (Z.mod_small (119 - n mod 64)) by lia. lia.
Qed.
Lemma firstn_80 k : (k <= 63)%nat -> firstn (S k) (0x80 :: all_zero 63) = 0x80 :: repeat 0 k.
Proof.
  intros L. cbn [firstn]. f_equal. unfold all_zero. replace 63%nat with (k + (63 - k))%nat by lia. rewrite repeat_app, firstn_app, repeat_length, Nat.sub_diag.
  rewrite firstn_all2 by (rewrite repeat_length; lia). rewrite firstn_O, app_nil_r. reflexivity.
Qed.
Theorem md_sum_ok s m : inv s m -> md_sum f put_len out s = Ok (md_spec f h0 put_len out m).
Proof.
  intros I. pose proof I as (_ & _ & El). unfold md_sum. rewrite El.
  set (n := Z.of_nat (length m)). pose proof (pad_count n) as Pc. cbv zeta in Pc. rewrite Pc.
  pose proof (Z.mod_pos_bound (55 - n) 64 ltac:(lia)) as B. set (z := Z.to_nat ((55 - n) mod 64)).
  replace (Z.to_nat ((55 - n) mod 64 + 1)) with (S z) by lia. rewrite firstn_80 by lia.
  rewrite Z.mul_mod_idemp_r by discriminate.
  pose proof (inv_write _ _ (0x80 :: repeat 0 z) I) as I1. pose proof (inv_write _ _ (put_len ((8 * n) mod 2 ^ 64)) I1) as I2.
  assert (Ep : (m ++ 0x80 :: repeat 0 z) ++ put_len ((8 * n) mod 2 ^ 64) = md_padded put_len m).
  { unfold md_padded. fold n. fold z. cbn [app]. rewrite <- app_assoc. reflexivity. }
  rewrite Ep in I2.
  assert (Lm : (length (md_padded put_len m) mod 64 = 0)%nat).
  { unfold md_padded. fold n. fold z. rewrite !app_length, repeat_length, put_len_8. cbn [length].
    apply Nat2Z.inj. rewrite Nat2Z.inj_mod. rewrite !Nat2Z.inj_add. fold n. unfold z. rewrite Z2Nat.id by lia.
    change (Z.of_nat 64) with 64. change (Z.of_nat 1) with 1. change (Z.of_nat 8) with 8. change (Z.of_nat 0) with 0.
    rewrite Z.mod_eq by lia. pose proof (Z.div_mod (55 - n) 64 ltac:(lia)).
    set (y := (55 - n) mod 64) in *. set (d := (55 - n) / 64) in *.
    replace (n + (1 + (y + 8))) with ((1 - d) * 64) by lia. rewrite Z.div_mul by lia. lia. }
  destruct (inv_final _ _ I2 Lm) as [Hx Hh]. rewrite Hx, Hh. reflexivity.
Qed.
Lemma writes_ok ps : forall s m, inv s m -> inv (fold_left (md_write f) ps s) (m ++ concat ps).
Proof.
  induction ps as [|p ps IH]; intros s m I; cbn [fold_left concat]; [rewrite app_nil_r; exact I|].
  rewrite app_assoc. apply IH, inv_write, I.
Qed.
Theorem md_parts ps : md_sum f put_len out (fold_left (md_write f) ps (md_new h0)) = Ok (md_spec f h0 put_len out (concat ps)).
Proof. apply md_sum_ok, (writes_ok ps _ [] inv_new). Qed.
Theorem md_hash_ok b : md_hash f h0 put_len out b = Ok (md_spec f h0 put_len out b).
Proof. apply md_sum_ok, (inv_write _ [] b inv_new). Qed.
End Md.
