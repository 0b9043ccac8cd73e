(** Proofs for C83. *)
From Coq Require Import List ZArith Lia Arith Bool.
From Verif Require Import GoBase ByteLemmas Curve GroupSpec PointCodec ApiModel ApiSpec ApiProofs VerifyProofs CipherProofs SessionModel SessionProofs
  PropSigLemmas PropCipherLemmas ExampleLemmas PropFieldLemmas ReaderModel ReaderSpec PropReaderLemmas RogueModel RogueSpec.
Import ListNotations.
Open Scope Z_scope.

Lemma g_w64_id x : - 2 ^ 63 <= x < 2 ^ 63 -> w64 x = x.
Proof. intros A. unfold w64. rewrite Z.mod_small by lia. lia. Qed.
Lemma wf_zeros n : wf_bytes (zeros n).
Proof. unfold zeros. induction n as [|n IH]; cbn [repeat]; [constructor|]. constructor; [unfold is_byte; lia|exact IH]. Qed.
Lemma len_zeros n : length (zeros n) = n.
Proof. apply repeat_length. Qed.

Section Any.
Variable R : rogue.
Hypothesis HR : rogue_ok R.
Variable H : list bytes -> bytes.
Variable G : bytes -> bytes.
Variable E : bytes -> bytes -> bytes.

Lemma claims_wf s n buf old buf' old' s' : claims R s n buf old buf' old' s' -> wf_bytes buf -> wf_bytes old ->
  length buf' = length buf /\ length old' = length old /\ wf_bytes buf' /\ wf_bytes old'.
Proof.
  induction 1 as [s n buf old L|s n buf old buf1 old1 k s1 buf' old' s' L A _ IH|s n buf old buf1 old1 k e s1 L A L2]; intros W1 W2.
  - auto.
  - destruct (HR _ _ _ _ _ A W1 W2) as (A1 & A2 & A3 & A4 & _). cbn [a_buf a_old] in *. destruct (IH A3 A4) as (B1 & B2 & B3 & B4).
    repeat split; congruence || assumption.
  - destruct (HR _ _ _ _ _ A W1 W2) as (A1 & A2 & A3 & A4 & _). cbn [a_buf a_old] in *. auto.
Qed.
Lemma claims_keeps s n buf old buf' old' s' : keeps R -> claims R s n buf old buf' old' s' -> old' = old.
Proof.
  intros K. induction 1 as [s n buf old L|s n buf old buf1 old1 k s1 buf' old' s' L A _ IH|s n buf old buf1 old1 k e s1 L A L2].
  - reflexivity.
  - apply K in A. cbn [a_old] in A. congruence.
  - apply K in A. exact A.
Qed.
Lemma g_loop_S f s n buf old : g_loop R f s n buf old =
  if Z.of_nat (length buf) <=? n then Some (Read n None buf old s)
  else if n <? 0 then Some Broken
  else match f with
  | O => None
  | S f =>
    match gread R s n buf old with
    | None => Some Broken
    | Some (Answer buf' old' k e s') =>
      match e with
      | Some _ => Some (Read (w64 (n + k)) e buf' old' s')
      | None => g_loop R f s' (w64 (n + k)) buf' old'
      end
    end
  end.
Proof. destruct f; reflexivity. Qed.
Lemma g_loop_more f : forall s n buf old x, g_loop R f s n buf old = Some x -> forall g, (f <= g)%nat -> g_loop R g s n buf old = Some x.
Proof.
  induction f as [|f IH]; intros s n buf old x Hx g L; rewrite g_loop_S in Hx |- *;
    destruct (Z.of_nat (length buf) <=? n); try exact Hx; destruct (n <? 0); try exact Hx; [discriminate Hx|].
  destruct g as [|g]; [lia|]. destruct (gread R s n buf old) as [[b1 o1 k e s1]|]; [|exact Hx]. destruct e; [exact Hx|]. apply (IH _ _ _ _ _ Hx). lia.
Qed.
Lemma loop_sound f : forall s n buf old x, wf_bytes buf -> wf_bytes old -> g_loop R f s n buf old = Some x ->
  match x with
  | Broken => breaks R s n buf old
  | Read n' e buf' old' s' => (Z.of_nat (length buf) <= n' /\ claims R s n buf old buf' old' s') \/
      (n' < Z.of_nat (length buf) /\ exists z, e = Some z /\ gives_up R s n buf old n' z s')
  end.
Proof.
  induction f as [|f IH]; intros s n buf old x W1 W2 Hx; rewrite g_loop_S in Hx;
    (destruct (Z.leb_spec (Z.of_nat (length buf)) n) as [L|L]; [injection Hx as <-; left; split; [exact L|constructor; exact L]|]);
    (destruct (Z.ltb_spec n 0) as [N|N]; [injection Hx as <-; apply BNegative; exact N|]); [discriminate Hx|].
  assert (L' : 0 <= n < Z.of_nat (length buf)) by lia.
  destruct (gread R s n buf old) as [[b1 o1 k e s1]|] eqn:A; [|injection Hx as <-; now apply BPanic].
  destruct (HR _ _ _ _ _ A W1 W2) as (A1 & A2 & A3 & A4 & _). cbn [a_buf a_old] in *.
  destruct e as [z|].
  - injection Hx as <-. destruct (Z.le_gt_cases (Z.of_nat (length buf)) (w64 (n + k))) as [Q|Q].
    + left. split; [exact Q|]. eapply CLast; eassumption.
    + right. split; [exact Q|]. exists z. split; [reflexivity|]. eapply GLast; eassumption.
  - apply IH in Hx; [|assumption|assumption]. destruct x as [|n' e buf' old' s'].
    + eapply BMore; eassumption.
    + rewrite A1 in Hx. destruct Hx as [[Q C]|(Q & z & -> & C)].
      * left. split; [exact Q|]. eapply CMore; eassumption.
      * right. split; [exact Q|]. exists z. split; [reflexivity|]. eapply GMore; eassumption.
Qed.
Lemma go_in s n buf old f : 0 <= n < Z.of_nat (length buf) -> g_loop R (S f) s n buf old =
    match gread R s n buf old with
    | None => Some Broken
    | Some (Answer buf' old' k e s') =>
      match e with
      | Some _ => Some (Read (w64 (n + k)) e buf' old' s')
      | None => g_loop R f s' (w64 (n + k)) buf' old'
      end
    end.
Proof. intros L. rewrite g_loop_S. destruct (Z.leb_spec (Z.of_nat (length buf)) n); [lia|]. destruct (Z.ltb_spec n 0); [lia|]. reflexivity. Qed.
Lemma loop_claims s n buf old buf' old' s' : claims R s n buf old buf' old' s' -> wf_bytes buf -> wf_bytes old ->
  exists f n' e, g_loop R f s n buf old = Some (Read n' e buf' old' s') /\ Z.of_nat (length buf) <= n'.
Proof.
  induction 1 as [s n buf old L|s n buf old buf1 old1 k s1 buf' old' s' L A _ IH|s n buf old buf1 old1 k e s1 L A L2]; intros W1 W2.
  - exists O, n, None. rewrite g_loop_S, (proj2 (Z.leb_le _ _) L). split; [reflexivity|exact L].
  - destruct (HR _ _ _ _ _ A W1 W2) as (A1 & A2 & A3 & A4 & _). cbn [a_buf a_old] in *.
    destruct (IH A3 A4) as (f & n' & e & X & Q). exists (S f), n', e. rewrite go_in by exact L. rewrite A. split; [exact X|lia].
  - exists 1%nat, (w64 (n + k)), (Some e). rewrite go_in by exact L. rewrite A. split; [reflexivity|exact L2].
Qed.
Lemma loop_gives_up s n buf old n' z s' : gives_up R s n buf old n' z s' -> wf_bytes buf -> wf_bytes old ->
  n' < Z.of_nat (length buf) /\ exists f b o, g_loop R f s n buf old = Some (Read n' (Some z) b o s').
Proof.
  induction 1 as [s n buf old buf1 old1 k s1 n' e s' L A _ IH|s n buf old buf1 old1 k e s1 L A L2]; intros W1 W2.
  - destruct (HR _ _ _ _ _ A W1 W2) as (A1 & A2 & A3 & A4 & _). cbn [a_buf a_old] in *.
    destruct (IH A3 A4) as (Q & f & b & o & X). split; [lia|]. exists (S f), b, o. rewrite go_in by exact L. rewrite A. exact X.
  - split; [exact L2|]. exists 1%nat, buf1, old1. rewrite go_in by exact L. rewrite A. reflexivity.
Qed.
Lemma loop_breaks s n buf old : breaks R s n buf old -> exists f, g_loop R f s n buf old = Some Broken.
Proof.
  induction 1 as [s n buf old L|s n buf old L A|s n buf old buf1 old1 k s1 L A _ [f IH]].
  - exists O. rewrite g_loop_S. destruct (Z.leb_spec (Z.of_nat (length buf)) n); [lia|]. now rewrite (proj2 (Z.ltb_lt n 0) L).
  - exists 1%nat. rewrite go_in by exact L. now rewrite A.
  - exists (S f). rewrite go_in by exact L. rewrite A. exact IH.
Qed.

(** io.ReadFull *)
Definition full_is (s : gstate R) (len : nat) (old : bytes) (x : full R) : Prop :=
  match x with
  | FPanic => breaks R s 0 (zeros len) old
  | FErr e s' => exists n z, gives_up R s 0 (zeros len) old n z s' /\ e = given_up n z
  | FOk buf old' s' => claims R s 0 (zeros len) old buf old' s'
  end.
Lemma g_full_sound f s len old x : wf_bytes old -> read_full_g R f s len old = Some x -> full_is s len old x.
Proof.
  intros W X. unfold read_full_g in X. fold (zeros len) in X.
  destruct (g_loop R f s 0 (zeros len) old) as [y|] eqn:Y; [|discriminate X]. apply loop_sound in Y; [|apply wf_zeros|exact W].
  rewrite len_zeros in Y. destruct y as [|n e b o s'].
  - injection X as <-. exact Y.
  - destruct Y as [[Q C]|(Q & z & -> & C)].
    + rewrite (proj2 (Z.leb_le _ _) Q) in X. injection X as <-. exact C.
    + rewrite (proj2 (Z.leb_gt _ _) Q) in X. injection X as <-. cbn [full_is]. exists n, z. split; [exact C|]. destruct z; reflexivity.
Qed.
Lemma g_full_more f s len old x : read_full_g R f s len old = Some x -> forall g, (f <= g)%nat -> read_full_g R g s len old = Some x.
Proof.
  unfold read_full_g. intros X g L. destruct (g_loop R f s 0 (repeat 0 len) old) as [y|] eqn:Y; [|discriminate X].
  rewrite (g_loop_more _ _ _ _ _ _ Y g L). exact X.
Qed.
Lemma g_full_complete s len old x : wf_bytes old -> full_is s len old x -> exists f, read_full_g R f s len old = Some x.
Proof.
  intros W X. unfold read_full_g. fold (zeros len). destruct x as [|e s'|b o s']; cbn [full_is] in X.
  - destruct (loop_breaks _ _ _ _ X) as [f Y]. exists f. rewrite Y. reflexivity.
  - destruct X as (n & z & X & ->). destruct (loop_gives_up _ _ _ _ _ _ _ X (wf_zeros len) W) as (Q & f & b & o & Y).
    exists f. rewrite Y. rewrite len_zeros in Q. rewrite (proj2 (Z.leb_gt _ _) Q). destruct z; reflexivity.
  - destruct (loop_claims _ _ _ _ _ _ _ X (wf_zeros len) W) as (f & n & e & Y & Q). exists f. rewrite Y.
    rewrite len_zeros in Q. rewrite (proj2 (Z.leb_le _ _) Q). reflexivity.
Qed.

(** GenerateKeyPair *)
Hypothesis HH : hash_ok 64 H.
Lemma gen_full f s x : read_full_g R f s 32 [] = Some x -> generate_g R H f s = Some (match x with
  | FPanic => (Panicked, None) | FErr e s' => (ReadError e, Some s') | FOk seed _ s' => (Value (VPair (pair_from H seed)), Some s') end).
Proof.
  intros X. pose proof (g_full_sound _ _ _ _ _ (Forall_nil _) X) as Y. unfold generate_g. rewrite X. destruct x as [|e s'|b o s']; [reflexivity|reflexivity|].
  cbn [full_is] in Y. destruct (claims_wf _ _ _ _ _ _ _ Y (wf_zeros 32) (Forall_nil _)) as (_ & _ & W & _). rewrite generated by assumption. reflexivity.
Qed.
Theorem g_generate_outcome : forall s o, (exists fuel s', generate_g R H fuel s = Some (o, s')) <->
  (exists seed old s', claims R s 0 (zeros 32) [] seed old s' /\ o = Value (VPair (KeyPair (Some (new_private_key seed)) (public_key_of H seed)))) \/
  (exists n e s', gives_up R s 0 (zeros 32) [] n e s' /\ o = ReadError (given_up n e)) \/
  (breaks R s 0 (zeros 32) [] /\ o = Panicked).
Proof.
  intros s o. split.
  - intros (f & s' & X). destruct (read_full_g R f s 32 []) as [x|] eqn:Y; [|unfold generate_g in X; rewrite Y in X; discriminate X].
    rewrite (gen_full _ _ _ Y) in X. apply g_full_sound in Y; [|constructor]. destruct x as [|e s1|b o1 s1]; cbn [full_is] in Y.
    + right. right. split; [exact Y|]. congruence.
    + right. left. destruct Y as (n & z & Y & ->). exists n, z, s1. split; [exact Y|]. congruence.
    + left. exists b, o1, s1. split; [exact Y|]. unfold pair_from in X. congruence.
  - intros [(b & o1 & s1 & C & ->)|[(n & z & s1 & C & ->)|[C ->]]].
    + destruct (g_full_complete s 32 [] (FOk b o1 s1) (Forall_nil _) C) as [f X]. exists f, (Some s1). rewrite (gen_full _ _ _ X). reflexivity.
    + destruct (g_full_complete s 32 [] (FErr (given_up n z) s1) (Forall_nil _)) as [f X]; [exists n, z; auto|]. exists f, (Some s1). rewrite (gen_full _ _ _ X). reflexivity.
    + destruct (g_full_complete s 32 [] FPanic (Forall_nil _) C) as [f X]. exists f, None. rewrite (gen_full _ _ _ X). reflexivity.
Qed.
Theorem generate_fits : forall fuel s v s', generate_g R H fuel s = Some (Value v, s') ->
  exists seed, length seed = 32%nat /\ wf_bytes seed /\ v = VPair (KeyPair (Some (new_private_key seed)) (public_key_of H seed)).
Proof.
  intros f s v s' X. destruct (proj1 (g_generate_outcome s (Value v)) (ex_intro _ f (ex_intro _ s' X))) as [(b & o1 & s1 & C & Q)|[(n & z & s1 & _ & Q)|[_ Q]]];
    [|discriminate Q|discriminate Q].
  destruct (claims_wf _ _ _ _ _ _ _ C (wf_zeros 32) (Forall_nil _)) as (L & _ & W & _). rewrite len_zeros in L. exists b. split; [exact L|]. split; [exact W|]. congruence.
Qed.

(** Encrypt *)
Lemma app_cancel {A} (a b c : list A) : a ++ b = a ++ c -> b = c.
Proof. apply app_inv_head. Qed.
Theorem encrypt_value : forall bc m s out, (exists fuel s', encrypt_g R H G E fuel bc s m = Some (Value (VBytes out), s')) <->
  exists salt o1 s1 salt' iv s2 c, claims R s 0 (zeros (bc_keylen bc)) [] salt o1 s1 /\ claims R s1 0 (zeros 16) salt iv salt' s2 /\
    encrypt H G E bc (salt ++ iv) m = Ok (salt ++ iv ++ c, []) /\ out = salt' ++ iv ++ c.
Proof.
  intros bc m s out. split.
  - intros (f & s' & X). unfold encrypt_g in X.
    destruct (read_full_g R f s (bc_keylen bc) []) as [[|e s1|salt o1 s1]|] eqn:Y; try discriminate X.
    apply g_full_sound in Y; [|constructor]. cbn [full_is] in Y. fold (agreement H G bc salt) in X.
    destruct (agreement H G bc salt) as [key|e|] eqn:A; try discriminate X.
    destruct (claims_wf _ _ _ _ _ _ _ Y (wf_zeros _) (Forall_nil _)) as (L1 & _ & W1 & _). rewrite len_zeros in L1.
    destruct (read_full_g R f s1 16 salt) as [[|e s2|iv salt' s2]|] eqn:Z; try discriminate X.
    apply g_full_sound in Z; [|exact W1]. cbn [full_is] in Z.
    destruct (claims_wf _ _ _ _ _ _ _ Z (wf_zeros _) W1) as (L2 & _ & W2 & _). rewrite len_zeros in L2.
    destruct (bc_encode E m key iv) as [c|e|] eqn:B; try discriminate X. cbn [bind of_res] in X.
    exists salt, o1, s1, salt', iv, s2, c. split; [exact Y|]. split; [exact Z|].
    assert (Q : out = (salt' ++ iv) ++ c) by congruence. split; [|rewrite Q; symmetry; apply app_assoc].
    unfold encrypt. rewrite read_full_ok by (rewrite app_length; lia). rewrite bind_ok. cbn [fst snd].
    replace (firstn (bc_keylen bc) (salt ++ iv)) with salt
      by (rewrite <- L1, firstn_app, Nat.sub_diag, firstn_all; cbn [firstn]; symmetry; apply app_nil_r).
    replace (skipn (bc_keylen bc) (salt ++ iv)) with iv by (rewrite <- L1, skipn_app, Nat.sub_diag, skipn_all; reflexivity).
    fold (agreement H G bc salt). rewrite A, bind_ok. rewrite read_full_ok by lia. rewrite bind_ok. cbn [fst snd].
    rewrite firstn_all2 by lia. rewrite B, bind_ok. rewrite skipn_all2 by lia. rewrite app_assoc. reflexivity.
  - intros (salt & o1 & s1 & salt' & iv & s2 & c & Y & Z & Q & ->).
    destruct (claims_wf _ _ _ _ _ _ _ Y (wf_zeros _) (Forall_nil _)) as (L1 & _ & W1 & _). rewrite len_zeros in L1.
    destruct (claims_wf _ _ _ _ _ _ _ Z (wf_zeros _) W1) as (L2 & _ & W2 & _). rewrite len_zeros in L2.
    destruct (g_full_complete s (bc_keylen bc) [] (FOk salt o1 s1) (Forall_nil _) Y) as [f X].
    destruct (g_full_complete s1 16 salt (FOk iv salt' s2) W1 Z) as [g X2].
    unfold encrypt in Q. rewrite read_full_ok in Q by (rewrite app_length; lia). rewrite bind_ok in Q. cbn [fst snd] in Q.
    replace (firstn (bc_keylen bc) (salt ++ iv)) with salt in Q
      by (rewrite <- L1, firstn_app, Nat.sub_diag, firstn_all; cbn [firstn]; symmetry; apply app_nil_r).
    replace (skipn (bc_keylen bc) (salt ++ iv)) with iv in Q by (rewrite <- L1, skipn_app, Nat.sub_diag, skipn_all; reflexivity).
    fold (agreement H G bc salt) in Q. destruct (agreement H G bc salt) as [key|e|] eqn:A; cbn [bind] in Q; try discriminate Q.
    rewrite read_full_ok in Q by lia. rewrite bind_ok in Q. cbn [fst snd] in Q. rewrite firstn_all2 in Q by lia.
    destruct (bc_encode E m key iv) as [c'|e|] eqn:B; cbn [bind] in Q; try discriminate Q.
    assert (Qc : (salt ++ iv) ++ c' = salt ++ iv ++ c) by congruence. rewrite <- app_assoc in Qc. apply app_cancel, app_cancel in Qc. subst c'.
    exists (f + g)%nat, (Some s2). unfold encrypt_g. rewrite (g_full_more _ _ _ _ _ X (f + g)%nat) by lia. fold (agreement H G bc salt). rewrite A.
    rewrite (g_full_more _ _ _ _ _ X2 (f + g)%nat) by lia. rewrite B. cbn [bind of_res]. rewrite app_assoc. reflexivity.
Qed.
Theorem recipient_reads : keeps R -> hash1_ok 32 G -> forall D, cipher_ok E D ->
  forall k1 k2 kp1 kp2 m fuel s v s', wf_bytes (pk_raw k1) -> wf_bytes (pk_raw k2) -> wf_bytes m ->
  new_key_pair H (Some k1) None = Ok kp1 -> new_key_pair H (Some k2) None = Ok kp2 ->
  encrypt_g R H G E fuel (new_block_cipher kp1 kp2) s m = Some (Value v, s') ->
  exists out, v = VBytes out /\ decrypt H G D (new_block_cipher kp1 kp2) out = Ok m.
Proof.
  intros K HG D CD k1 k2 kp1 kp2 m fuel s v s' W1 W2 Wm E1 E2 X.
  assert (V : exists out, v = VBytes out).
  { unfold encrypt_g in X. destruct (read_full_g R fuel s _ []) as [[|e s1|salt o1 s1]|]; try discriminate X.
    destruct (get_shared_key _ _ _ _ _ _) as [key| |]; try discriminate X.
    destruct (read_full_g R fuel s1 16 salt) as [[|e s2|iv o2 s2]|]; try discriminate X.
    destruct (bc_encode E m key iv) as [c| |]; try discriminate X. cbn [bind of_res] in X. exists ((o2 ++ iv) ++ c). congruence. }
  destruct V as [out ->]. exists out. split; [reflexivity|].
  destruct (proj1 (encrypt_value (new_block_cipher kp1 kp2) m s out) (ex_intro _ fuel (ex_intro _ s' X))) as (salt & o1 & s1 & salt' & iv & s2 & c & Y & Z & Q & ->).
  destruct (claims_wf _ _ _ _ _ _ _ Y (wf_zeros _) (Forall_nil _)) as (L1 & _ & Wa & _). rewrite len_zeros in L1.
  destruct (claims_wf _ _ _ _ _ _ _ Z (wf_zeros _) Wa) as (L2 & _ & Wb & _). rewrite len_zeros in L2.
  rewrite (claims_keeps _ _ _ _ _ _ _ K Z).
  assert (Kl : bc_keylen (new_block_cipher kp1 kp2) = 32%nat).
  { rewrite (derived_inv H HH _ _ W2 E2). cbn [new_block_cipher bc_keylen kp_pub]. apply enc_point_length. }
  destruct (roundtrip H HH G HG E D CD k1 k2 kp1 kp2 (salt ++ iv) m W1 W2 ltac:(apply Forall_app; split; assumption) Wm E1 E2) as (out & rest & R1 & R2).
  { rewrite app_length. lia. }
  rewrite Q in R1. assert (Eo : salt ++ iv ++ c = out) by congruence. rewrite Eo. exact R2.
Qed.
End Any.

(** ** Readers that keep the contract *)
Section Honest.
Variable R : ioreader.
Hypothesis HR : reader_ok R.
Lemma loop_len f s n c e s' : loop_any R f s n = Some (c, e, s') -> (length c <= n)%nat.
Proof.
  intros X. destruct (loop_some R HR _ _ _ _ _ _ X) as [[_ D]|(x & _ & F)].
  - destruct (delivers_len R HR _ _ _ _ D). lia.
  - pose proof (fails_len R _ _ _ _ _ F). lia.
Qed.
Lemma store_front got rem c : (length c <= rem)%nat -> store (got ++ zeros rem) (length got) c = (got ++ c) ++ zeros (rem - length c).
Proof.
  intros L. unfold store. rewrite firstn_app, firstn_all, Nat.sub_diag. cbn [firstn]. rewrite app_nil_r.
  rewrite skipn_app. rewrite skipn_all2 by lia. cbn [app]. replace (length got + length c - length got)%nat with (length c) by lia.
  rewrite <- app_assoc. f_equal. f_equal. unfold zeros. replace rem with (length c + (rem - length c))%nat at 1 by lia.
  rewrite repeat_app. rewrite skipn_app, repeat_length, Nat.sub_diag. cbn [skipn]. rewrite skipn_all2 by (rewrite repeat_length; lia). reflexivity.
Qed.
Lemma honest_loop f : forall s got rem old, Z.of_nat (length got + rem) < 2 ^ 63 ->
  g_loop (honest R) f s (Z.of_nat (length got)) (got ++ zeros rem) old =
  match loop_any R f s rem with
  | None => None
  | Some (c, e, s') => Some (Read (Z.of_nat (length got + length c)) e ((got ++ c) ++ zeros (rem - length c)) old (s' : gstate (honest R)))
  end.
Proof.
  induction f as [|f IH]; intros s got rem old B; rewrite g_loop_S; rewrite app_length, len_zeros;
    (destruct rem as [|rem]; [rewrite (proj2 (Z.leb_le _ _)) by lia; cbn [loop_any length]; rewrite Nat.add_0_r, !app_nil_r; reflexivity|]);
    rewrite (proj2 (Z.leb_gt _ _)) by lia; rewrite (proj2 (Z.ltb_ge _ _)) by lia; [reflexivity|].
  cbn [loop_any gread honest]. rewrite Nat2Z.id, app_length, len_zeros. replace (length got + S rem - length got)%nat with (S rem) by lia.
  destruct (rread R s (S rem)) as [[c e] s1] eqn:A. destruct (HR _ _ _ _ _ A) as [L _].
  rewrite store_front by exact L. rewrite <- Nat2Z.inj_add. rewrite g_w64_id by lia. destruct e as [z|]; [reflexivity|].
  rewrite <- app_length. rewrite IH by (rewrite app_length; lia).
  destruct (loop_any R f s1 (S rem - length c)) as [[[c' e'] s2]|]; [|reflexivity]. rewrite !app_length. rewrite <- !app_assoc.
  replace (length got + length c + length c')%nat with (length got + (length c + length c'))%nat by lia.
  replace (S rem - length c - length c')%nat with (S rem - (length c + length c'))%nat by lia. reflexivity.
Qed.
Lemma honest_full f s len old : Z.of_nat len < 2 ^ 63 -> read_full_g (honest R) f s len old =
  match read_full_any R f s len with
  | None => None
  | Some (inl c, s') => Some (FOk c old (s' : gstate (honest R)))
  | Some (inr e, s') => Some (FErr e (s' : gstate (honest R)))
  end.
Proof.
  intros B. unfold read_full_g, read_full_any. fold (zeros len). pose proof (honest_loop f s [] len old B) as X. cbn [app length Nat.add] in X.
  change (Z.of_nat 0) with 0 in X. rewrite X. clear X. destruct (loop_any R f s len) as [[[c e] s1]|] eqn:A; [|reflexivity].
  pose proof (loop_len _ _ _ _ _ _ A) as L. destruct (Nat.leb_spec len (length c)) as [Q|Q].
  - rewrite (proj2 (Z.leb_le _ _)) by lia. replace (len - length c)%nat with 0%nat by lia. cbn [zeros repeat]. rewrite app_nil_r. reflexivity.
  - rewrite (proj2 (Z.leb_gt _ _)) by lia. unfold g_error, io_error. destruct e as [[|k]|]; [|reflexivity|]; destruct c; reflexivity.
Qed.
Theorem honest_same : forall H G E fuel bc m s, Z.of_nat (bc_keylen bc) < 2 ^ 63 ->
  generate_g (honest R) H fuel s = option_map (fun r => (fst r, Some (snd r))) (generate_any R H fuel s) /\
  encrypt_g (honest R) H G E fuel bc s m = option_map (fun r => (fst r, Some (snd r))) (encrypt_any R H G E fuel bc s m).
Proof.
  intros H G E f bc m s B. split.
  - unfold generate_g, generate_any. rewrite honest_full by reflexivity. destruct (read_full_any R f s 32) as [[[c|e] s1]|]; reflexivity.
  - unfold encrypt_g, encrypt_any. rewrite honest_full by exact B. destruct (read_full_any R f s (bc_keylen bc)) as [[[salt|e] s1]|]; [|reflexivity|reflexivity].
    destruct (get_shared_key H G (bc_keylen bc) (kp_priv (bc_sender bc)) (kp_pub (bc_recipient bc)) salt) as [key| |]; [|reflexivity|reflexivity].
    rewrite honest_full by reflexivity. destruct (read_full_any R f s1 16) as [[[iv|e] s2]|]; reflexivity.
Qed.
Lemma honest_keeps : keeps (honest R).
Proof.
  intros s n buf old a X. cbn [gread honest] in X. destruct (rread R s (length buf - Z.to_nat n)) as [[c e] s1]. injection X as <-. reflexivity.
Qed.
End Honest.

(** ** A reader that stores nothing *)
Lemma claiming_ok k : - 2 ^ 63 <= k < 2 ^ 63 -> rogue_ok (claiming k) /\ keeps (claiming k).
Proof.
  intros B. split.
  - intros s n buf old a X W1 W2. injection X as <-. cbn [a_buf a_old a_num]. auto.
  - intros s n buf old a X. injection X as <-. reflexivity.
Qed.
Lemma claiming_claims k buf old : 0 < k < 2 ^ 63 -> forall d n, 0 <= n -> n = 0 \/ k < Z.of_nat (length buf) -> Z.of_nat (length buf) < 2 ^ 62 ->
  (Z.to_nat (Z.of_nat (length buf) - n) <= d)%nat -> claims (claiming k) tt n buf old buf old tt.
Proof.
  intros K. induction d as [|d IH]; intros n N O B L.
  - constructor. lia.
  - destruct (Z.le_gt_cases (Z.of_nat (length buf)) n) as [Q|Q]; [constructor; exact Q|].
    assert (W : w64 (n + k) = n + k) by (apply g_w64_id; lia).
    apply (CMore (claiming k) tt n buf old buf old k tt); [lia|reflexivity|]. rewrite W.
    destruct (Z.le_gt_cases (Z.of_nat (length buf)) (n + k)) as [Q2|Q2]; [constructor; exact Q2|]. apply IH; lia.
Qed.
Theorem stores_nothing : forall H, hash_ok 64 H -> forall k, - 2 ^ 63 <= k < 2 ^ 63 ->
  (0 < k -> exists fuel, generate_g (claiming k) H fuel tt = Some (Value (VPair (KeyPair (Some (new_private_key (zeros 32))) (public_key_of H (zeros 32)))), Some tt)) /\
  (k = 0 -> forall fuel, generate_g (claiming k) H fuel tt = None) /\
  (k < 0 -> generate_g (claiming k) H 1 tt = Some (Panicked, None)).
Proof.
  intros H HH k B. destruct (claiming_ok k B) as [OK _]. split; [|split].
  - intros K. destruct (g_full_complete (claiming k) OK tt 32 [] (FOk (zeros 32) [] (tt : gstate (claiming k))) (Forall_nil _)) as [f X].
    { cbn [full_is]. apply (claiming_claims k (zeros 32) [] ltac:(lia) 32 0); rewrite ?len_zeros; lia. }
    exists f. rewrite (gen_full (claiming k) OK H HH _ _ _ X). reflexivity.
  - intros -> f. unfold generate_g, read_full_g. assert (Q : g_loop (claiming 0) f tt 0 (repeat 0 32) [] = None).
    { induction f as [|f IH]; [reflexivity|]. rewrite go_in by (rewrite repeat_length; lia). cbn [gread claiming]. exact IH. }
    rewrite Q. reflexivity.
  - intros K. unfold generate_g, read_full_g. rewrite go_in by (rewrite repeat_length; lia). cbn [gread claiming].
    rewrite g_w64_id by lia. rewrite g_loop_S. rewrite repeat_length. rewrite (proj2 (Z.leb_gt _ _)) by lia. rewrite (proj2 (Z.ltb_lt _ _)) by lia. reflexivity.
Qed.

(** ** A reader that keeps the salt and changes it *)
Definition keeper : rogue := Rogue unit (fun s n buf old =>
  Some (Answer buf (match old with [] => [] | _ :: r => 1 :: r end) 32 None s)).
Lemma keeper_ok : rogue_ok keeper.
Proof.
  intros s n buf old a X W1 W2. injection X as <-. cbn [a_buf a_old a_num]. split; [reflexivity|]. split; [now destruct old|]. split; [exact W1|]. split.
  - destruct W2 as [|x r _ W]; constructor; [unfold is_byte; lia|exact W].
  - lia.
Qed.
Definition Gp (b : bytes) : bytes := repeat (if Z.odd (hd 0 b) then 1 else 0) 32.
Lemma Gp_ok : hash1_ok 32 Gp.
Proof. intros b _. split; [apply repeat_length|]. apply wf_repeat. unfold is_byte. destruct (Z.odd (hd 0 b)); lia. Qed.
Lemma Gp_flip x : length x = 32%nat -> exists p, (p = 0 \/ p = 1) /\ Gp (xor_bytes x (zeros 32)) = repeat p 32 /\ Gp (xor_bytes x (1 :: zeros 31)) = repeat (1 - p) 32.
Proof.
  intros L. destruct x as [|a x]; [discriminate L|]. exists (if Z.odd a then 1 else 0).
  assert (E1 : hd 0 (xor_bytes (a :: x) (zeros 32)) = Z.lxor a 0) by reflexivity.
  assert (E2 : hd 0 (xor_bytes (a :: x) (1 :: zeros 31)) = Z.lxor a 1) by reflexivity.
  unfold Gp. rewrite E1, E2. rewrite Z.lxor_0_r.
  assert (O : Z.odd (Z.lxor a 1) = negb (Z.odd a)) by (rewrite <- !Z.bit0_odd, Z.lxor_spec; destruct (Z.testbit a 0); reflexivity).
  rewrite O. destruct (Z.odd a); auto.
Qed.
Theorem salt_changed : ~ (forall R, rogue_ok R -> forall H, hash_ok 64 H -> forall G, hash1_ok 32 G -> forall E D, cipher_ok E D ->
  forall k1 k2 kp1 kp2 m fuel s out s', wf_bytes (pk_raw k1) -> wf_bytes (pk_raw k2) -> wf_bytes m ->
  new_key_pair H (Some k1) None = Ok kp1 -> new_key_pair H (Some k2) None = Ok kp2 ->
  encrypt_g R H G E fuel (new_block_cipher kp1 kp2) s m = Some (Value (VBytes out), s') ->
  decrypt H G D (new_block_cipher kp1 kp2) out = Ok m).
Proof.
  intros K. destruct ex_pairs as (k1 & k2 & kp1 & kp2 & W1 & W2 & _ & E1 & E2).
  pose proof (derived_inv H7 H7_ok _ _ W1 E1) as D1. pose proof (derived_inv H7 H7_ok _ _ W2 E2) as D2.
  set (p1 := public_key_of H7 (pk_raw k1)) in *. set (p2 := public_key_of H7 (pk_raw k2)) in *.
  assert (L1 : length p1 = 32%nat) by apply enc_point_length. assert (L2 : length p2 = 32%nat) by apply enc_point_length.
  (* the key the sender derives is the one the recipient would derive from the same salt *)
  assert (Key : forall salt, length salt = 32%nat -> wf_bytes salt -> exists x, length x = 32%nat /\ get_shared_key H7 Gp 32 (Some k1) p2 salt = Ok (Gp (xor_bytes x salt)) /\
    x = enc_point (zmul (secret_scalar H7 (pk_raw k1)) (public_point H7 (pk_raw k2)))).
  { intros salt L W. exists (enc_point (zmul (secret_scalar H7 (pk_raw k1)) (public_point H7 (pk_raw k2)))). split; [apply enc_point_length|]. split; [|reflexivity].
    apply (shared_key_ok H7 H7_ok Gp); [exact W1|apply enc_point_wf|exact L2|apply enc_denotes|exact L]. }
  assert (Wz : wf_bytes (1 :: zeros 31)) by (constructor; [unfold is_byte; lia|apply wf_zeros]).
  destruct (Key (zeros 32) (len_zeros 32) (wf_zeros 32)) as (x & Lx & S1 & Ex1).
  destruct (Key (1 :: zeros 31) eq_refl Wz) as (y & _ & S2 & Ey). assert (y = x) as -> by congruence. clear Ex1 Ey Key.
  destruct (Gp_flip x Lx) as (p & Hp & G1 & G2). rewrite G1 in S1. rewrite G2 in S2.
  destruct (shared_symmetric H7 H7_ok Gp Gp_ok k1 k2 (1 :: zeros 31) W1 W2 Wz eq_refl) as (key & _ & _ & T1 & T2).
  fold p1 in T2. fold p2 in T1. assert (key = repeat (1 - p) 32) as -> by congruence. clear T1.
  set (out := ((1 :: zeros 31) ++ zeros 16) ++ repeat (Z.lxor 16 p) 16).
  assert (X : encrypt_g keeper H7 Gp Ex 1 (new_block_cipher kp1 kp2) tt [] = Some (Value (VBytes out), Some tt)).
  { rewrite D1, D2. unfold encrypt_g, new_block_cipher. cbn [bc_keylen bc_sender bc_recipient kp_priv kp_pub]. rewrite L2.
    assert (F1 : read_full_g keeper 1 tt 32 [] = Some (FOk (zeros 32) [] (tt : gstate keeper))) by (vm_compute; reflexivity).
    rewrite F1. rewrite S1.
    assert (F2 : read_full_g keeper 1 tt 16 (zeros 32) = Some (FOk (zeros 16) (1 :: zeros 31) (tt : gstate keeper))) by (vm_compute; reflexivity).
    rewrite F2.
    assert (F3 : bc_encode Ex [] (repeat p 32) (zeros 16) = Ok (repeat (Z.lxor 16 p) 16)) by (destruct Hp as [-> | ->]; vm_compute; reflexivity).
    rewrite F3. reflexivity. }
  pose proof (K keeper keeper_ok H7 H7_ok Gp Gp_ok Ex Ex Ex_ok k1 k2 kp1 kp2 [] 1%nat tt out (Some tt) W1 W2 (Forall_nil _) E1 E2 X) as B.
  rewrite D1, D2 in B. rewrite decrypt_steps in B; [|exact L2|apply Nat.le_refl]. cbn [kp_priv kp_pub] in B.
  change (firstn 32 out) with (1 :: zeros 31) in B. rewrite T2, bind_ok in B.
  assert (Q : bc_decode Ex (skipn 48 out) (repeat (1 - p) 32) (firstn 16 (skipn 32 out)) <> Ok []).
  { unfold out. destruct Hp as [-> | ->]; vm_compute; discriminate. }
  exact (Q B).
Qed.

(** ** Examples *)
(** says 1, then the largest int *)
Definition overflowing : rogue := Rogue bool (fun s n buf old => Some (Answer buf old (if s then 2 ^ 63 - 1 else 1) None true)).
Lemma overflowing_ok : rogue_ok overflowing.
Proof.
  intros s n buf old a X W1 W2. injection X as <-. cbn [a_buf a_old a_num]. split; [reflexivity|]. split; [reflexivity|]. split; [exact W1|]. split; [exact W2|]. destruct s; lia.
Qed.
Theorem ex_rogue : rogue_ok (claiming 5) /\ keeps (claiming 5) /\ claims (claiming 5) tt 0 (zeros 32) [] (zeros 32) [] tt /\
  rogue_ok overflowing /\ breaks overflowing false 0 (zeros 32) [] /\ rogue_ok keeper /\ ~ keeps keeper.
Proof.
  destruct (claiming_ok 5 ltac:(lia)) as [A B]. split; [exact A|]. split; [exact B|]. split.
  { apply (claiming_claims 5 (zeros 32) [] ltac:(lia) 32 0); rewrite ?len_zeros; lia. }
  split; [exact overflowing_ok|]. split.
  { eapply (BMore overflowing false 0); [rewrite len_zeros; lia|reflexivity|]. eapply (BMore overflowing true (w64 (0 + 1))); [rewrite len_zeros; change (w64 (0 + 1)) with 1; lia|reflexivity|].
    apply BNegative. reflexivity. }
  split; [exact keeper_ok|]. intros K. specialize (K tt 0 [] [0] _ eq_refl). discriminate K.
Qed.
