(** Lemmas behind [PropAes]: the tables and lists of [AesModel] are the functions of FIPS 197. *)
From Coq Require Import List ZArith Lia Bool Arith.
From Verif Require Import GoBase ApiModel ApiSpec CipherProofs AesModel AesProofs AesSpec.
Import ListNotations.
Open Scope Z_scope.

(** ** Bytes *)
Lemma sbox_all : forallb (fun b => sub1 b =? SBox b) (map Z.of_nat (seq 0 256)) = true.
Proof. vm_compute. reflexivity. Qed.
Lemma sbox_eq b : is_byte b -> sub1 b = SBox b.
Proof. intros H. apply Z.eqb_eq. exact (byte_range_ind (fun b => sub1 b =? SBox b) sbox_all b H). Qed.
Lemma inv_all : forallb (fun b => (b =? 0) || ((gf_mul b (gf_inv b) =? 1) && byteb (gf_inv b))) (map Z.of_nat (seq 0 256)) = true.
Proof. vm_compute. reflexivity. Qed.
Lemma gf_inverse b : is_byte b -> b <> 0 -> is_byte (gf_inv b) /\ gf_mul b (gf_inv b) = 1.
Proof.
  intros H N. pose proof (byte_range_ind _ inv_all b H) as K. cbv beta in K. apply orb_true_iff in K. destruct K as [K|K].
  - apply Z.eqb_eq in K. contradiction.
  - apply andb_true_iff in K. destruct K as (K1 & K2). split; [now apply byteb_ok|now apply Z.eqb_eq].
Qed.
Lemma mul_all : forallb (fun b => (mul2 b =? gf_mul 2 b) && (mul3 b =? gf_mul 3 b)) (map Z.of_nat (seq 0 256)) = true.
Proof. vm_compute. reflexivity. Qed.
Lemma mul_eq b : is_byte b -> mul2 b = gf_mul 2 b /\ mul3 b = gf_mul 3 b.
Proof.
  intros H. pose proof (byte_range_ind _ mul_all b H) as K. cbv beta in K. apply andb_true_iff in K. destruct K as (K1 & K2).
  split; now apply Z.eqb_eq.
Qed.

(** ** The state *)
Definition same (b : bytes) (s : aes_state) : Prop := block b /\ forall r c, (r < 4)%nat -> (c < 4)%nat -> s r c = nth (r + 4 * c) b 0.
Ltac rc16 r c := destruct r as [|[|[|[|]]]]; [| | | |lia]; (destruct c as [|[|[|[|]]]]; [| | | |lia]).
Lemma same_state b : block b -> same b (state_of b).
Proof. intros H. split; [exact H|]. reflexivity. Qed.
Lemma same_bytes b s : same b s -> bytes_of s = b.
Proof.
  intros ((W & L) & E). unfold bytes_of. do 16 (destruct b as [|? b]; [discriminate L|]). destruct b; [|discriminate L].
  cbn [seq map]. repeat (apply f_equal2; [rewrite E by (cbv; repeat constructor); reflexivity|]). reflexivity.
Qed.
Lemma same_sub b s : same b s -> same (sub_bytes b) (SubBytes s).
Proof.
  intros (H & E). split; [now apply sub_ok|]. intros r c Hr Hc. unfold SubBytes. rewrite E by assumption.
  unfold sub_bytes. destruct H as (W & L). assert (K : (r + 4 * c < length b)%nat) by lia.
  rewrite (nth_indep (map sub1 b) 0 (sub1 0)) by (rewrite map_length; exact K). rewrite map_nth. symmetry. apply sbox_eq.
  unfold wf_bytes in W. rewrite Forall_forall in W. apply W, nth_In, K.
Qed.
Lemma same_shift b s : same b s -> same (shift_rows b) (ShiftRows s).
Proof.
  intros (H & E). split; [now apply shift_ok|]. intros r c Hr Hc. unfold ShiftRows. rewrite E; [|assumption|apply Nat.mod_upper_bound; lia].
  revert H. clear E. revert b. apply block_ind. intros. rc16 r c; reflexivity.
Qed.
Lemma lxor_mix a b c d x : x = Z.lxor a (Z.lxor b (Z.lxor c d)) -> Z.lxor (Z.lxor (Z.lxor a b) c) d = x.
Proof. intros ->. now rewrite !Z.lxor_assoc. Qed.
Lemma same_mix b s : same b s -> same (mix_columns b) (MixColumns s).
Proof.
  intros (H & E). split; [now apply mix_ok|]. intros r c Hr Hc. unfold MixColumns. cbv zeta.
  rewrite !E by (try apply Nat.mod_upper_bound; lia). clear E. revert H. revert b. apply block_ind. intros.
  rc16 r c; cbn [Nat.add Nat.mul Nat.modulo Nat.divmod fst snd Nat.sub nth mix_columns on_columns mix_column app]; unfold mix_columns, on_columns, mix_column; cbn [app nth];
    repeat match goal with h : is_byte ?a |- _ => let p := fresh in let q := fresh in destruct (mul_eq a h) as (p & q); clear h; try rewrite p; try rewrite q; clear p q end;
    apply Z.bits_inj'; intros n Hn; rewrite !Z.lxor_spec; repeat match goal with |- context [Z.testbit ?v n] => generalize (Z.testbit v n); intros ? end;
    repeat match goal with b : bool |- _ => destruct b end; reflexivity.
Qed.
Lemma xor_nth a : forall b i, length a = length b -> (i < length a)%nat -> nth i (xor_bytes a b) 0 = Z.lxor (nth i a 0) (nth i b 0).
Proof.
  induction a as [|x a IH]; intros [|y b] i L H; cbn in L; try lia; [cbn in H; lia|]. cbn [xor_bytes]. destruct i as [|i]; [reflexivity|].
  cbn [nth]. apply IH; cbn in H; lia.
Qed.
(** ** The key schedule *)
Definition wl (w : nat -> nat -> Z) (i : nat) : bytes := map (w i) (seq 0 4).
Lemma word_wl w v i : word v -> (forall r, (r < 4)%nat -> w i r = nth r v 0) -> v = wl w i.
Proof.
  intros (W & L) E. do 4 (destruct v as [|? v]; [discriminate L|]). destruct v; [|discriminate L]. unfold wl. cbn [seq map].
  rewrite !E by lia. reflexivity.
Qed.
Lemma rcon_eq i r : (8 <= i < 60)%nat -> (i mod 8 = 0)%nat -> (r < 4)%nat -> nth r (rcon i) 0 = Rcon (i / 8) r.
Proof.
  intros Hi M Hr. unfold rcon, Rcon. assert (Q : (1 <= i / 8 < 8)%nat).
  { pose proof (Nat.div_mod i 8 ltac:(lia)). lia. }
  set (q := (i / 8)%nat) in *. clearbody q. destruct r as [|[|[|[|]]]]; try reflexivity; [|lia]. cbn [nth Nat.eqb].
  do 8 (destruct q as [|q]; [try lia; reflexivity|]). lia.
Qed.
Lemma expand_wl key w : key_schedule key w -> wf_bytes key -> length key = 32%nat -> forall n ws, Forall word ws -> (8 <= length ws)%nat ->
  ws = map (wl w) (seq 0 (length ws)) -> (n + length ws <= 60)%nat -> expand n ws = map (wl w) (seq 0 (n + length ws)).
Proof.
  intros (K1 & K2) W L n. induction n as [|n IH]; intros ws F H E N; [exact E|]. cbn [expand].
  assert (NW : next_word ws = wl w (length ws)).
  { apply word_wl; [now apply next_word_ok|]. intros r Hr.
    assert (At : forall i, (i < length ws)%nat -> nth i ws [] = wl w i).
    { intros i Hi. rewrite E. rewrite (nth_indep _ [] (wl w 0)) by (rewrite map_length, seq_length; exact Hi). rewrite map_nth, seq_nth by exact Hi. reflexivity. }
    assert (Wn : forall i q, (q < 4)%nat -> nth q (wl w i) 0 = w i q).
    { intros i q Hq. destruct q as [|[|[|[|]]]]; try reflexivity. lia. }
    pose proof (nth_word ws (length ws - 1) F ltac:(lia)) as W1. pose proof (nth_word ws (length ws - 8) F ltac:(lia)) as W8.
    rewrite (At (length ws - 1)%nat ltac:(lia)) in W1. rewrite (At (length ws - 8)%nat ltac:(lia)) in W8.
    unfold next_word. cbv zeta. rewrite !At by lia. rewrite (K2 (length ws) r) by lia.
    set (i := length ws) in *.
    assert (B : forall q, (q < 4)%nat -> is_byte (w (i - 1)%nat q)).
    { intros q Hq. rewrite <- Wn by exact Hq. destruct W1 as (W1 & L1). unfold wf_bytes in W1. rewrite Forall_forall in W1. apply W1, nth_In. rewrite L1. exact Hq. }
    assert (SW : forall v q, word v -> (q < 4)%nat -> nth q (sub_bytes v) 0 = SBox (nth q v 0)).
    { intros v q (Wv & Lv) Hq. unfold sub_bytes. rewrite (nth_indep (map sub1 v) 0 (sub1 0)) by (rewrite map_length, Lv; exact Hq). rewrite map_nth. apply sbox_eq.
      unfold wf_bytes in Wv. rewrite Forall_forall in Wv. apply Wv, nth_In. rewrite Lv. exact Hq. }
    rewrite xor_nth; [| |destruct W8 as (_ & ->); exact Hr].
    - rewrite Wn by exact Hr. f_equal. destruct (Nat.eqb_spec (i mod 8) 0) as [M|M].
      + pose proof (rot_word_ok _ W1) as RW. pose proof (sub_word _ RW) as SRW. rewrite xor_nth; [| |destruct SRW as (_ & ->); exact Hr].
        * rewrite SW, rcon_eq by (try assumption; lia). f_equal. f_equal. unfold wl, rot_word. cbn [seq map skipn firstn app].
          destruct r as [|[|[|[|]]]]; try reflexivity. lia.
        * destruct SRW as (_ & ->). reflexivity.
      + destruct (Nat.eqb (i mod 8) 4); [rewrite SW by assumption; now rewrite Wn|now rewrite Wn].
    - destruct W8 as (_ & ->). destruct (Nat.eqb (i mod 8) 0).
      + symmetry. apply (xor_word _ _ (sub_word _ (rot_word_ok _ W1)) (rcon_ok i)).
      + destruct (Nat.eqb (i mod 8) 4); [symmetry; apply (sub_word _ W1)|symmetry; apply W1]. }
  assert (Ln : length (ws ++ [next_word ws]) = S (length ws)) by (rewrite app_length; cbn; lia).
  rewrite IH.
  - rewrite Ln. f_equal. f_equal. lia.
  - apply Forall_app. split; [exact F|]. constructor; [now apply next_word_ok|constructor].
  - lia.
  - rewrite Ln, seq_S, map_app, <- E, NW. reflexivity.
  - lia.
Qed.
Lemma key_wl key w : key_schedule key w -> wf_bytes key -> length key = 32%nat -> key_words key = map (wl w) (seq 0 8).
Proof.
  intros (K1 & _) W L. unfold key_words. apply map_ext_in. intros i Hi. apply in_seq in Hi. apply word_wl.
  - destruct (key_words_ok key W L) as (F & _). rewrite Forall_forall in F. apply F. unfold key_words. apply in_map_iff. exists i. split; [reflexivity|]. apply in_seq. lia.
  - intros r Hr. rewrite K1 by lia. clear - L Hi Hr. do 32 (destruct key as [|? key]; [discriminate L|]). destruct key; [|discriminate L].
    destruct i as [|[|[|[|[|[|[|[|]]]]]]]]; try lia; (destruct r as [|[|[|[|]]]]; try lia; reflexivity).
Qed.
Lemma round_key_wl key w : key_schedule key w -> wf_bytes key -> length key = 32%nat ->
  round_keys key = map (fun r => wl w (4 * r) ++ wl w (4 * r + 1) ++ wl w (4 * r + 2) ++ wl w (4 * r + 3)) (seq 0 15).
Proof.
  intros K W L. destruct (key_words_ok key W L) as [F8 L8]. unfold round_keys. cbv zeta.
  rewrite (expand_wl key w K W L 52 (key_words key) F8); [|lia|rewrite L8; now apply key_wl|lia]. rewrite L8. change (52 + 8)%nat with 60%nat.
  apply map_ext_in. intros r Hr. apply in_seq in Hr. unfold round_key.
  assert (At : forall i, (i < 60)%nat -> nth i (map (wl w) (seq 0 60)) [] = wl w i).
  { intros i Hi. rewrite (nth_indep _ [] (wl w 0)) by (rewrite map_length, seq_length; exact Hi). rewrite map_nth, seq_nth by exact Hi. reflexivity. }
  rewrite !At by lia. reflexivity.
Qed.
Lemma same_key w b s k round : same b s -> block k -> k = wl w (4 * round) ++ wl w (4 * round + 1) ++ wl w (4 * round + 2) ++ wl w (4 * round + 3) ->
  same (xor_bytes b k) (AddRoundKey w round s).
Proof.
  intros (H & E) Bk Hk. split; [now apply xor_block|]. intros r c Hr Hc. unfold AddRoundKey.
  rewrite xor_nth; [|destruct H as (_ & ->), Bk as (_ & ->); reflexivity|destruct H as (_ & ->); lia]. rewrite E by assumption. f_equal. subst k.
  unfold wl. cbn [seq map app]. rc16 r c; cbn [Nat.add Nat.mul nth]; rewrite ?Nat.add_0_r; reflexivity.
Qed.
Lemma same_rounds w ks : forall b s n m, same b s -> Forall block ks ->
  ks = map (fun r => wl w (4 * r) ++ wl w (4 * r + 1) ++ wl w (4 * r + 2) ++ wl w (4 * r + 3)) (seq n m) ->
  same (fold_left aes_round ks b) (fold_left (fun s round => AddRoundKey w round (MixColumns (ShiftRows (SubBytes s)))) (seq n m) s).
Proof.
  induction ks as [|k ks IH]; intros b s n m H F E; (destruct m as [|m]; cbn [seq map] in E; try discriminate E); [exact H|].
  assert (Ek : k = wl w (4 * n) ++ wl w (4 * n + 1) ++ wl w (4 * n + 2) ++ wl w (4 * n + 3)) by congruence.
  assert (Es : ks = map (fun r => wl w (4 * r) ++ wl w (4 * r + 1) ++ wl w (4 * r + 2) ++ wl w (4 * r + 3)) (seq (S n) m)) by congruence. clear E.
  apply Forall_cons_iff in F. destruct F as (Fk & F). cbn [fold_left seq]. apply IH; [|assumption|exact Es].
  unfold aes_round. apply same_key; [|assumption|exact Ek]. now apply same_mix, same_shift, same_sub.
Qed.
Lemma fips_encrypt key b w : wf_bytes key -> length key = 32%nat -> block b -> key_schedule key w ->
  aes_encrypt key b = bytes_of (Cipher w (state_of b)).
Proof.
  intros W L B K. symmetry. apply same_bytes. unfold aes_encrypt, aes_with, Cipher. cbv zeta.
  destruct (round_keys_ok key W L) as [F N]. pose proof (round_key_wl key w K W L) as E. set (ks := round_keys key) in *. clearbody ks.
  assert (F0 : block (nth 0 ks [])) by (rewrite Forall_forall in F; apply F, nth_In; lia).
  assert (F14 : block (nth 14 ks [])) by (rewrite Forall_forall in F; apply F, nth_In; lia).
  assert (Fm : Forall block (firstn 13 (skipn 1 ks))).
  { rewrite <- (firstn_skipn 1 ks) in F. apply Forall_app in F as [_ F]. rewrite <- (firstn_skipn 13 (skipn 1 ks)) in F. apply Forall_app in F. tauto. }
  unfold aes_cipher. apply same_key; [|exact F14|subst ks; reflexivity].
  apply same_shift, same_sub. apply same_rounds; [|exact Fm|subst ks; reflexivity].
  apply same_key; [now apply same_state|exact F0|subst ks; reflexivity].
Qed.
(** every key has a schedule: that of the model *)
Lemma schedule_exists key : wf_bytes key -> length key = 32%nat -> exists w, key_schedule key w.
Proof.
  intros W L.
  (* words by strong recursion: take the n-th list of the model *)
  assert (P : forall n, (n <= 52)%nat -> exists w, (forall i r, (i < 8)%nat -> (r < 4)%nat -> w i r = nth (4 * i + r) key 0) /\
     (forall i r, (8 <= i < 8 + n)%nat -> (r < 4)%nat -> w i r = Z.lxor (w (i - 8)%nat r)
       (if (i mod 8 =? 0)%nat then Z.lxor (SBox (w (i - 1)%nat ((r + 1) mod 4)%nat)) (Rcon (i / 8) r)
        else if (i mod 8 =? 4)%nat then SBox (w (i - 1)%nat r) else w (i - 1)%nat r))).
  { induction n as [|n IH]; intros Hn.
    - exists (fun i r => nth (4 * i + r) key 0). split; [reflexivity|]. intros i r Hi. lia.
    - destruct (IH ltac:(lia)) as (w & A & B).
      exists (fun i r => if (i <? 8 + n)%nat then w i r else Z.lxor (w (i - 8)%nat r)
       (if (i mod 8 =? 0)%nat then Z.lxor (SBox (w (i - 1)%nat ((r + 1) mod 4)%nat)) (Rcon (i / 8) r)
        else if (i mod 8 =? 4)%nat then SBox (w (i - 1)%nat r) else w (i - 1)%nat r)). split.
      + intros i r Hi Hr. destruct (Nat.ltb_spec i (8 + n)); [now apply A|lia].
      + intros i r Hi Hr. destruct (Nat.ltb_spec (i - 8) (8 + n)); [|lia]. destruct (Nat.ltb_spec (i - 1) (8 + n)); [|lia].
        destruct (Nat.ltb_spec i (8 + n)); [apply B; lia|reflexivity]. }
  destruct (P 52%nat (le_n _)) as (w & A & B). exists w. split; [exact A|]. exact B.
Qed.
Lemma fips_decrypt key b w : wf_bytes key -> length key = 32%nat -> block b -> key_schedule key w ->
  block (aes_decrypt key b) /\ bytes_of (Cipher w (state_of (aes_decrypt key b))) = b /\
  forall b', block b' -> bytes_of (Cipher w (state_of b')) = b -> b' = aes_decrypt key b.
Proof.
  intros W L B K. destruct (aes_cipher_ok key W L b B) as (_ & Bd & _ & E). split; [exact Bd|]. split.
  - rewrite <- (fips_encrypt key _ w W L Bd K). exact E.
  - intros b' B' Hb. rewrite <- (fips_encrypt key b' w W L B' K) in Hb. subst b. now destruct (aes_cipher_ok key W L b' B') as (_ & _ & -> & _).
Qed.
