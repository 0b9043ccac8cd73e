(** AES-256 is a block cipher: decryption inverts encryption and conversely, for every key. *)
From Coq Require Import Btauto.
From Verif Require Import GoBase ApiModel ApiSpec CipherProofs AesModel.
Open Scope Z_scope.

Lemma byte_range_ind (P : Z -> bool) : forallb P (map Z.of_nat (seq 0 256)) = true ->
  forall b, is_byte b -> P b = true.
Proof.
  intros H b Hb. rewrite forallb_forall in H. apply H. apply in_map_iff.
  exists (Z.to_nat b). unfold is_byte in Hb. split; [lia|]. apply in_seq. lia.
Qed.
Definition byteb (b : Z) : bool := (0 <=? b) && (b <? 256).
Lemma byteb_ok b : byteb b = true <-> is_byte b.
Proof. unfold byteb, is_byte. rewrite andb_true_iff, Z.leb_le, Z.ltb_lt. tauto. Qed.
Lemma sub1_inv b : is_byte b -> inv_sub1 (sub1 b) = b /\ is_byte (sub1 b).
Proof.
  intros Hb.
  assert (E : (inv_sub1 (sub1 b) =? b) && byteb (sub1 b) = true).
  { revert b Hb. apply byte_range_ind. vm_compute. reflexivity. }
  apply andb_true_iff in E as [E1 E2]. split; [lia|]. apply byteb_ok, E2.
Qed.
Lemma inv_sub1_inv b : is_byte b -> sub1 (inv_sub1 b) = b /\ is_byte (inv_sub1 b).
Proof.
  intros Hb.
  assert (E : (sub1 (inv_sub1 b) =? b) && byteb (inv_sub1 b) = true).
  { revert b Hb. apply byte_range_ind. vm_compute. reflexivity. }
  apply andb_true_iff in E as [E1 E2]. split; [lia|]. apply byteb_ok, E2.
Qed.
Lemma map_inv (f g : Z -> Z) (H : forall b, is_byte b -> g (f b) = b /\ is_byte (f b)) s :
  wf_bytes s -> map g (map f s) = s /\ wf_bytes (map f s).
Proof.
  induction 1; cbn; [split; [reflexivity|constructor]|].
  destruct (H x H0), IHForall. split; [congruence|constructor; assumption].
Qed.

(** a block is 16 variables *)
Lemma block_ind (P : bytes -> Prop) :
  (forall a0 a1 a2 a3 a4 a5 a6 a7 a8 a9 a10 a11 a12 a13 a14 a15,
    is_byte a0 -> is_byte a1 -> is_byte a2 -> is_byte a3 -> is_byte a4 -> is_byte a5 -> is_byte a6 ->
    is_byte a7 -> is_byte a8 -> is_byte a9 -> is_byte a10 -> is_byte a11 -> is_byte a12 -> is_byte a13 ->
    is_byte a14 -> is_byte a15 ->
    P [a0; a1; a2; a3; a4; a5; a6; a7; a8; a9; a10; a11; a12; a13; a14; a15]) ->
  forall b, block b -> P b.
Proof.
  intros H b [W L]. do 16 (destruct b as [|? b]; [discriminate L|]). destruct b; [|discriminate L].
  repeat match goal with h : wf_bytes _ |- _ => apply Forall_cons_iff in h as [? ?] 
    | h : Forall _ (_ :: _) |- _ => apply Forall_cons_iff in h as [? ?] end.
  apply H; assumption.
Qed.
Ltac blk := split; [unfold wf_bytes; repeat (apply Forall_cons; [auto|]); apply Forall_nil|reflexivity].

Lemma shift_ok b : block b -> inv_shift_rows (shift_rows b) = b /\ block (shift_rows b).
Proof. revert b. apply block_ind. intros. split; [reflexivity|]. cbn. blk. Qed.
Lemma inv_shift_ok b : block b -> shift_rows (inv_shift_rows b) = b /\ block (inv_shift_rows b).
Proof. revert b. apply block_ind. intros. split; [reflexivity|]. cbn. blk. Qed.
Lemma sub_ok b : block b -> inv_sub_bytes (sub_bytes b) = b /\ block (sub_bytes b).
Proof.
  intros [W L]. destruct (map_inv _ _ sub1_inv b W) as [A B]. split; [exact A|].
  split; [exact B|]. unfold sub_bytes. rewrite map_length. exact L.
Qed.
Lemma inv_sub_ok b : block b -> sub_bytes (inv_sub_bytes b) = b /\ block (inv_sub_bytes b).
Proof.
  intros [W L]. destruct (map_inv _ _ inv_sub1_inv b W) as [A B]. split; [exact A|].
  split; [exact B|]. unfold inv_sub_bytes. rewrite map_length. exact L.
Qed.

(** GF(2^8) *)
Lemma xtime_lxor a b : xtime (a +x b) = xtime a +x xtime b.
Proof.
  unfold xtime. rewrite Z.lxor_spec, Z.shiftl_lxor.
  replace (Z.land (Z.shiftl a 1 +x Z.shiftl b 1) 255)
    with (Z.land (Z.shiftl a 1) 255 +x Z.land (Z.shiftl b 1) 255).
  2: { apply Z.bits_inj'. intros n _. rewrite Z.lxor_spec, !Z.land_spec, Z.lxor_spec.
       destruct (Z.testbit (Z.shiftl a 1) n), (Z.testbit (Z.shiftl b 1) n), (Z.testbit 255 n); reflexivity. }
  set (p := Z.land (Z.shiftl a 1) 255). set (q := Z.land (Z.shiftl b 1) 255).
  destruct (Z.testbit a 7), (Z.testbit b 7); cbn [xorb]; apply Z.bits_inj'; intros n _;
    rewrite !Z.lxor_spec; rewrite ?Z.bits_0; destruct (Z.testbit p n), (Z.testbit q n), (Z.testbit 27 n); reflexivity.
Qed.
Lemma xtime_byte b : is_byte (xtime b).
Proof.
  unfold xtime. apply lxor_byte.
  - change 255 with (Z.ones 8). rewrite Z.land_ones by lia. unfold is_byte. apply Z.mod_pos_bound. lia.
  - destruct (Z.testbit b 7); unfold is_byte; lia.
Qed.
Lemma mix_inv a b c d : match mix_column a b c d with
  | [a'; b'; c'; d'] => inv_mix_column a' b' c' d' = [a; b; c; d] | _ => False end.
Proof.
  unfold mix_column, inv_mix_column, mul14, mul13, mul11, mul9, mul3, mul2.
  f_equal; [|f_equal; [|f_equal; [|f_equal]]].
  all: rewrite !xtime_lxor.
  all: apply Z.bits_inj'; intros n _; rewrite !Z.lxor_spec; btauto.
Qed.
Lemma inv_mix_inv a b c d : match inv_mix_column a b c d with
  | [a'; b'; c'; d'] => mix_column a' b' c' d' = [a; b; c; d] | _ => False end.
Proof.
  unfold mix_column, inv_mix_column, mul14, mul13, mul11, mul9, mul3, mul2.
  f_equal; [|f_equal; [|f_equal; [|f_equal]]].
  all: rewrite !xtime_lxor.
  all: apply Z.bits_inj'; intros n _; rewrite !Z.lxor_spec; btauto.
Qed.

Lemma mul_bytes a : is_byte a -> is_byte (mul2 a) /\ is_byte (mul3 a) /\ is_byte (mul9 a) /\ is_byte (mul11 a) /\
  is_byte (mul13 a) /\ is_byte (mul14 a).
Proof.
  intros H. unfold mul2, mul3, mul9, mul11, mul13, mul14.
  refine (conj _ (conj _ (conj _ (conj _ (conj _ _))))); repeat first [exact H | apply xtime_byte | apply lxor_byte].
Qed.
Lemma mix_column_shape a b c d : is_byte a -> is_byte b -> is_byte c -> is_byte d ->
  exists a' b' c' d', mix_column a b c d = [a'; b'; c'; d'] /\ is_byte a' /\ is_byte b' /\ is_byte c' /\ is_byte d' /\
    inv_mix_column a' b' c' d' = [a; b; c; d].
Proof.
  intros A B C D. pose proof (mix_inv a b c d) as M. unfold mix_column in *.
  apply mul_bytes in A as A', B as B', C as C', D as D'.
  do 4 eexists. split; [reflexivity|]. refine (conj _ (conj _ (conj _ (conj _ M)))); repeat first [tauto | apply lxor_byte].
Qed.
Lemma inv_mix_column_shape a b c d : is_byte a -> is_byte b -> is_byte c -> is_byte d ->
  exists a' b' c' d', inv_mix_column a b c d = [a'; b'; c'; d'] /\ is_byte a' /\ is_byte b' /\ is_byte c' /\ is_byte d' /\
    mix_column a' b' c' d' = [a; b; c; d].
Proof.
  intros A B C D. pose proof (inv_mix_inv a b c d) as M. unfold inv_mix_column in *.
  apply mul_bytes in A as A', B as B', C as C', D as D'.
  do 4 eexists. split; [reflexivity|]. refine (conj _ (conj _ (conj _ (conj _ M)))); repeat first [tauto | apply lxor_byte].
Qed.
Section Columns.
Variables f g : Z -> Z -> Z -> Z -> bytes.
Hypothesis fg : forall a b c d, is_byte a -> is_byte b -> is_byte c -> is_byte d ->
  exists a' b' c' d', f a b c d = [a'; b'; c'; d'] /\ is_byte a' /\ is_byte b' /\ is_byte c' /\ is_byte d' /\
    g a' b' c' d' = [a; b; c; d].
Lemma columns_ok b : block b -> on_columns g (on_columns f b) = b /\ block (on_columns f b).
Proof.
  revert b. apply block_ind. intros. cbn [on_columns].
  destruct (fg a0 a1 a2 a3) as (b0 & b1 & b2 & b3 & E0 & ? & ? & ? & ? & G0); auto.
  destruct (fg a4 a5 a6 a7) as (b4 & b5 & b6 & b7 & E1 & ? & ? & ? & ? & G1); auto.
  destruct (fg a8 a9 a10 a11) as (b8 & b9 & b10 & b11 & E2 & ? & ? & ? & ? & G2); auto.
  destruct (fg a12 a13 a14 a15) as (b12 & b13 & b14 & b15 & E3 & ? & ? & ? & ? & G3); auto.
  rewrite E0, E1, E2, E3. cbn [app]. split.
  - cbn [on_columns]. rewrite G0, G1, G2, G3. reflexivity.
  - blk.
Qed.
End Columns.
Lemma mix_ok b : block b -> inv_mix_columns (mix_columns b) = b /\ block (mix_columns b).
Proof. apply columns_ok, mix_column_shape. Qed.
Lemma inv_mix_ok b : block b -> mix_columns (inv_mix_columns b) = b /\ block (inv_mix_columns b).
Proof. apply columns_ok, inv_mix_column_shape. Qed.

(** rounds *)
Lemma xor_block_twice a b : block a -> block b -> xor_bytes (xor_bytes a b) b = a.
Proof. intros [_ A] [_ B]. apply xor_twice. congruence. Qed.
Lemma round_ok s k : block s -> block k -> aes_inv_round (aes_round s k) k = s /\ block (aes_round s k).
Proof.
  intros Hs Hk. unfold aes_round, aes_inv_round.
  destruct (sub_ok s Hs) as [E1 B1]. destruct (shift_ok _ B1) as [E2 B2]. destruct (mix_ok _ B2) as [E3 B3].
  split; [|apply xor_block; assumption].
  rewrite xor_block_twice by assumption. rewrite E3, E2, E1. reflexivity.
Qed.
Lemma inv_round_ok s k : block s -> block k -> aes_round (aes_inv_round s k) k = s /\ block (aes_inv_round s k).
Proof.
  intros Hs Hk. unfold aes_round, aes_inv_round.
  destruct (inv_mix_ok _ (xor_block s k Hs Hk)) as [E1 B1].
  destruct (inv_shift_ok _ B1) as [E2 B2]. destruct (inv_sub_ok _ B2) as [E3 B3].
  split; [|assumption].
  rewrite E3, E2, E1. apply xor_block_twice; assumption.
Qed.
Lemma rounds_ok ks : Forall block ks -> forall s, block s ->
  fold_left aes_inv_round (rev ks) (fold_left aes_round ks s) = s /\ block (fold_left aes_round ks s).
Proof.
  induction ks as [|k ks IH]; intros F s Hs; cbn [fold_left rev]; [auto|].
  apply Forall_cons_iff in F as [Fk F]. destruct (round_ok s k Hs Fk) as [E B].
  destruct (IH F _ B) as [E2 B2]. split; [|exact B2].
  rewrite fold_left_app. cbn [fold_left]. rewrite E2. exact E.
Qed.
Lemma inv_rounds_ok ks : Forall block ks -> forall s, block s ->
  fold_left aes_round ks (fold_left aes_inv_round (rev ks) s) = s /\ block (fold_left aes_inv_round (rev ks) s).
Proof.
  induction ks as [|k ks IH]; intros F s Hs; cbn [fold_left rev]; [auto|].
  apply Forall_cons_iff in F as [Fk F]. rewrite fold_left_app. cbn [fold_left].
  destruct (IH F s Hs) as [E2 B2].
  destruct (inv_round_ok _ k B2 Fk) as [E B]. split; [|exact B].
  rewrite E. exact E2.
Qed.
Lemma cipher_inv k0 mid kn s : block k0 -> Forall block mid -> block kn -> block s ->
  block (aes_cipher k0 mid kn s) /\ block (aes_inv_cipher k0 mid kn s) /\
  aes_inv_cipher k0 mid kn (aes_cipher k0 mid kn s) = s /\
  aes_cipher k0 mid kn (aes_inv_cipher k0 mid kn s) = s.
Proof.
  intros H0 Hm Hn Hs. unfold aes_cipher, aes_inv_cipher.
  destruct (rounds_ok mid Hm _ (xor_block s k0 Hs H0)) as [E1 B1].
  destruct (sub_ok _ B1) as [E2 B2]. destruct (shift_ok _ B2) as [E3 B3].
  destruct (inv_shift_ok _ (xor_block s kn Hs Hn)) as [F1 C1]. destruct (inv_sub_ok _ C1) as [F2 C2].
  destruct (inv_rounds_ok mid Hm _ C2) as [F3 C3].
  split; [apply xor_block; assumption|]. split; [apply xor_block; assumption|]. split.
  - rewrite xor_block_twice by assumption. rewrite E3, E2, E1. apply xor_block_twice; assumption.
  - rewrite xor_block_twice by assumption. rewrite F3, F2, F1. apply xor_block_twice; assumption.
Qed.

(** the key schedule yields blocks *)
Definition word (w : bytes) : Prop := wf_bytes w /\ length w = 4%nat.
Lemma sub_word w : word w -> word (sub_bytes w).
Proof.
  intros [W L]. split; [apply (map_inv _ _ sub1_inv w W)|]. unfold sub_bytes. rewrite map_length. exact L.
Qed.
Lemma rot_word_ok w : word w -> word (rot_word w).
Proof.
  intros [W L]. destruct w as [|a w]; [discriminate L|]. unfold rot_word. cbn [skipn firstn].
  apply Forall_cons_iff in W as [Wa W]. split.
  - apply Forall_app. split; [exact W|]. constructor; [exact Wa|constructor].
  - rewrite app_length. cbn in *. lia.
Qed.
Lemma rcon_ok i : word (rcon i).
Proof.
  split; [|reflexivity]. unfold rcon, wf_bytes.
  assert (is_byte (nth (i / 8) [0; 1; 2; 4; 8; 16; 32; 64] 0)).
  { generalize (i / 8)%nat. intros n. do 8 (destruct n; [unfold is_byte; cbn; lia|]).
    rewrite nth_overflow; [unfold is_byte; lia|cbn; lia]. }
  repeat (constructor; [first [assumption|unfold is_byte; lia]|]). constructor.
Qed.
Lemma xor_word a b : word a -> word b -> word (xor_bytes a b).
Proof.
  intros [A L] [B M]. split; [apply xor_wf; assumption|]. rewrite xor_length; congruence.
Qed.
Lemma nth_word ws i : Forall word ws -> (i < length ws)%nat -> word (nth i ws []).
Proof. intros F H. rewrite Forall_forall in F. apply F, nth_In, H. Qed.
Lemma next_word_ok ws : Forall word ws -> (8 <= length ws)%nat -> word (next_word ws).
Proof.
  intros F H. unfold next_word. apply xor_word; [apply nth_word; [assumption|lia]|].
  assert (W : word (nth (length ws - 1) ws [])) by (apply nth_word; [assumption|lia]).
  destruct (Nat.eqb (length ws mod 8) 0); [apply xor_word; [apply sub_word, rot_word_ok, W|apply rcon_ok]|].
  destruct (Nat.eqb (length ws mod 8) 4); [apply sub_word, W|exact W].
Qed.
Lemma expand_ok n : forall ws, Forall word ws -> (8 <= length ws)%nat ->
  Forall word (expand n ws) /\ length (expand n ws) = (n + length ws)%nat.
Proof.
  induction n; intros ws F H; cbn [expand]; [auto|].
  destruct (IHn (ws ++ [next_word ws])) as [A B].
  - apply Forall_app. split; [exact F|]. constructor; [apply next_word_ok; assumption|constructor].
  - rewrite app_length. lia.
  - split; [exact A|]. rewrite B, app_length. cbn. lia.
Qed.
Lemma wf_firstn n l : wf_bytes l -> wf_bytes (firstn n l).
Proof. unfold wf_bytes. intros H. rewrite <- (firstn_skipn n l) in H. apply Forall_app in H. tauto. Qed.
Lemma wf_skipn n l : wf_bytes l -> wf_bytes (skipn n l).
Proof. unfold wf_bytes. intros H. rewrite <- (firstn_skipn n l) in H. apply Forall_app in H. tauto. Qed.
Lemma key_words_ok key : wf_bytes key -> length key = 32%nat ->
  Forall word (key_words key) /\ length (key_words key) = 8%nat.
Proof.
  intros W L. split; [|reflexivity]. apply Forall_forall. intros w Hw. unfold key_words in Hw.
  apply in_map_iff in Hw as (i & <- & Hi). apply in_seq in Hi.
  split; [apply wf_firstn, wf_skipn, W|]. rewrite firstn_length, skipn_length. lia.
Qed.
Lemma round_keys_ok key : wf_bytes key -> length key = 32%nat ->
  Forall block (round_keys key) /\ length (round_keys key) = 15%nat.
Proof.
  intros W L. destruct (key_words_ok key W L) as [F8 L8].
  unfold round_keys. cbv zeta.
  destruct (expand_ok 52 (key_words key) F8 ltac:(lia)) as [FE LE]. rewrite L8 in LE.
  set (ws := expand 52 (key_words key)) in *. clearbody ws.
  split; [|rewrite map_length, seq_length; reflexivity].
  apply Forall_forall. intros k Hk. apply in_map_iff in Hk as (r & <- & Hr). apply in_seq in Hr.
  unfold round_key.
  destruct (nth_word ws (4 * r) FE ltac:(lia)), (nth_word ws (4 * r + 1) FE ltac:(lia)),
    (nth_word ws (4 * r + 2) FE ltac:(lia)), (nth_word ws (4 * r + 3) FE ltac:(lia)).
  split; [repeat (apply Forall_app; split; [assumption|]); assumption|]. rewrite !app_length. lia.
Qed.
Lemma aes_cipher_ok : cipher_ok aes_encrypt aes_decrypt.
Proof.
  intros k W L b Hb. unfold aes_encrypt, aes_decrypt, aes_with. cbv zeta.
  destruct (round_keys_ok k W L) as [F N]. set (ks := round_keys k) in *. clearbody ks.
  apply cipher_inv; [| | |exact Hb].
  - rewrite Forall_forall in F. apply F, nth_In. lia.
  - rewrite <- (firstn_skipn 1 ks) in F. apply Forall_app in F as [_ F].
    rewrite <- (firstn_skipn 13 (skipn 1 ks)) in F. apply Forall_app in F. tauto.
  - rewrite Forall_forall in F. apply F, nth_In. lia.
Qed.
