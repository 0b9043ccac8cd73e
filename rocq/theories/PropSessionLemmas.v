(** Lemmas behind the statements of C54. *)
From Coq Require Import List ZArith Lia Bool Arith.
From Verif Require Import GoBase ByteLemmas ApiModel ApiSpec SessionModel SessionSpec SessionProofs ApiProofs VerifyProofs PropSigLemmas
  FieldSpec GroupSpec PointCodec PropFieldLemmas CipherProofs PropCodecLemmas PropCipherLemmas.
Import ListNotations.

Lemma generate_random H b kp rest : length b = 32%nat -> generate_key_pair H b = Ok (kp, rest) -> kp_priv kp = Some (new_private_key b).
Proof.
  intros L. unfold generate_key_pair. rewrite read_full_take by lia. cbn [bind fst snd]. rewrite firstn_all2 by lia.
  destruct (derive_public_key H (new_private_key b)) as [p| |]; cbn [bind]; try discriminate. cbn [new_key_pair].
  destruct (is_key_compressed p); cbn [bind]; [|discriminate]. intros X. injection X as <- _. reflexivity.
Qed.
Lemma encrypt_random H G E bc b m out rest : length b = (bc_keylen bc + 16)%nat -> encrypt H G E bc b m = Ok (out, rest) ->
  firstn (length b) out = b.
Proof.
  intros L. unfold encrypt. set (n := bc_keylen bc) in *. rewrite read_full_take by lia. cbn [bind fst snd].
  destruct (get_shared_key _ _ _ _ _ _) as [key| |]; cbn [bind]; try discriminate.
  rewrite read_full_take by (rewrite skipn_length; lia). cbn [bind fst snd].
  destruct (bc_encode E m key _) as [c| |]; cbn [bind]; try discriminate. intros X.
  assert (Eo : out = (firstn n b ++ firstn 16 (skipn n b)) ++ c) by congruence. subst out.
  rewrite (firstn_all2 (skipn n b)) by (rewrite skipn_length; lia). rewrite firstn_skipn, firstn_app, Nat.sub_diag, firstn_all, firstn_O, app_nil_r. reflexivity.
Qed.
Lemma meaning_random H G E D c b v : length b = need c -> meaning H G E D c b = Ok v ->
  (forall e, c = CGenerate (Some e) -> exists kp, v = VPair kp /\ kp_priv kp = Some (new_private_key b)) /\
  (forall s k e m, c = CEncrypt s k e m -> exists out, v = VBytes out /\ firstn (length b) out = b).
Proof.
  intros L M. split.
  - intros e ->. cbn [meaning need] in *. destruct (generate_key_pair H b) as [[kp rest]| |] eqn:Eg; cbn [res_map fst] in M; try discriminate M.
    injection M as <-. exists kp. split; [reflexivity|]. exact (generate_random H b kp rest L Eg).
  - intros s k e m ->. cbn [meaning need] in *. destruct (encrypt H G E (new_block_cipher s k) b m) as [[out rest]| |] eqn:Ee; cbn [res_map fst] in M; try discriminate M.
    injection M as <-. exists out. split; [reflexivity|]. exact (encrypt_random H G E (new_block_cipher s k) b m out rest L Ee).
Qed.
Lemma history H G E D : forall cs w os w', run H G E D cs w = (os, w') ->
  exists ws, length ws = length cs /\ length os = length cs /\
  (forall n c b o, nth_error cs n = Some c -> nth_error ws n = Some b -> nth_error os n = Some o ->
     seen o = meaning H G E D c b /\ (source_of c = None -> b = []) /\ (length b <= need c)%nat /\
     (forall v, o = Value v -> length b = need c) /\ (forall e, o = ReadError e -> (length b < need c)%nat)) /\
  forall i, bytes_of (w i) = taken i cs ws ++ bytes_of (w' i).
Proof. exact (run_good H G E D). Qed.
Lemma chunks_irrelevant H G E D cs w1 w2 : (forall i, quiet (w1 i) /\ quiet (w2 i) /\ bytes_of (w1 i) = bytes_of (w2 i)) ->
  fst (run H G E D cs w1) = fst (run H G E D cs w2) /\
  forall i, bytes_of (snd (run H G E D cs w1) i) = bytes_of (snd (run H G E D cs w2) i).
Proof.
  intros S. destruct (run_same H G E D cs w1 w2 S) as [O S']. split; [exact O|]. intros i. apply S'.
Qed.

(** n key pairs from one reader *)
Section S.
Variable H : list bytes -> bytes.
Hypothesis HH : hash_ok 64 H.
Variable G : bytes -> bytes.
Variables E D : bytes -> bytes -> bytes.
Definition pair_of (seed : bytes) : keypair := KeyPair (Some (new_private_key seed)) (public_key_of H seed).
Lemma generate_value r : quiet r -> wf_bytes (bytes_of r) -> (32 <= length (bytes_of r))%nat ->
  exists r', generate_r H r = (Value (VPair (pair_of (firstn 32 (bytes_of r)))), r') /\ quiet r' /\ bytes_of r' = skipn 32 (bytes_of r).
Proof.
  intros Q W L. destruct (read_full_quiet r 32 Q) as (r' & Q' & B & R). exists r'. split; [|split; assumption].
  unfold generate_r. rewrite R. rewrite (proj2 (Nat.leb_le _ _)) by exact L. f_equal.
  set (seed := firstn 32 (bytes_of r)). assert (Ws : wf_bytes seed) by (apply (PointCodec.wf_firstn _ _ W)).
  rewrite (derive_ok H HH (new_private_key seed)) by exact Ws. cbn [bind new_key_pair].
  assert (K : is_key_compressed (public_key_of H (pk_raw (new_private_key seed))) = true).
  { unfold is_key_compressed. destruct (public_key_wf H (pk_raw (new_private_key seed))) as [_ ->]. reflexivity. }
  rewrite K. reflexivity.
Qed.
Lemma generate_many e : forall n w, quiet (w (reader_of e)) -> wf_bytes (bytes_of (w (reader_of e))) ->
  (32 * n <= length (bytes_of (w (reader_of e))))%nat ->
  fst (run H G E D (repeat (CGenerate (Some e)) n) w) =
    map (fun j => Value (VPair (pair_of (firstn 32 (skipn (32 * j) (bytes_of (w (reader_of e)))))))) (seq 0 n).
Proof.
  rewrite <- seed_reader.
  induction n as [|n IH]; intros w Q W L; [reflexivity|]. cbn [repeat run do_call].
  destruct (generate_value (w (seed_of e)) Q W ltac:(lia)) as (r' & Er & Q' & B'). rewrite Er.
  set (w1 := set_reader w (seed_of e) r').
  assert (W1 : w1 (seed_of e) = r') by (unfold w1, set_reader; rewrite Nat.eqb_refl; reflexivity).
  specialize (IH w1). rewrite W1, B' in IH.
  destruct (run H G E D (repeat (CGenerate (Some e)) n) w1) as [os w2]. cbn [fst] in *.
  cbn [seq map]. f_equal. rewrite IH; [|exact Q'|apply (wf_skipn _ _ W)|rewrite skipn_length; lia].
  rewrite <- (seq_shift n 0), map_map. apply map_ext. intros j. rewrite skipn_skipn.
  replace (32 + 32 * j)%nat with (32 * S j)%nat by lia. reflexivity.
Qed.
End S.
Definition ex_w : world := fun i => match i with O => [(repeat 1 10, None); (repeat 2 3, Some (ROther 3)); (repeat 9 20, None); ([], None); (repeat 9 20, None)]%Z | _ => [] end.
Lemma ex_history : fst (run H7 G7 Ex Ex [CGenerate (Some default_engine); CGenerate (Some default_engine); CGenerate (Some default_engine)] ex_w) =
  [ReadError (IoOther 3); Value (VPair (pair_of H7 (repeat 9 32)%Z)); ReadError IoUnexpectedEOF].
Proof.
  cbn [run do_call].
  assert (R1 : generate_r H7 (ex_w (seed_of default_engine)) = (ReadError (IoOther 3), [(repeat 9 20, None); ([], None); (repeat 9 20, None)]%Z)).
  { unfold generate_r. assert (X : read_full_r (ex_w (seed_of default_engine)) 32 = (inr (IoOther 3), [(repeat 9 20, None); ([], None); (repeat 9 20, None)]%Z)) by (vm_compute; reflexivity).
    rewrite X. reflexivity. }
  rewrite R1. set (w1 := set_reader ex_w (seed_of default_engine) _).
  assert (Q1 : quiet (w1 (seed_of default_engine))).
  { unfold w1, set_reader. rewrite Nat.eqb_refl. repeat (constructor; [reflexivity|]). constructor. }
  assert (B1 : bytes_of (w1 (seed_of default_engine)) = repeat 9%Z 40) by reflexivity.
  destruct (generate_value H7 H7_ok (w1 (seed_of default_engine)) Q1) as (r2 & R2 & Q2 & B2).
  { rewrite B1. apply wf_repeat. unfold is_byte. lia. }
  { rewrite B1, repeat_length. lia. }
  rewrite R2, B1. rewrite B1 in B2. cbn [fst]. set (w2 := set_reader w1 _ r2).
  assert (E2 : w2 (seed_of default_engine) = r2) by reflexivity.
  rewrite E2. unfold generate_r. destruct (read_full_quiet r2 32 Q2) as (r3 & Q3 & B3 & R3). rewrite R3, B2. reflexivity.
Qed.
