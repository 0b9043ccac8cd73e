(** Proofs for C71. *)
From Coq Require Import List ZArith Lia Arith.
From Verif Require Import GoBase ByteLemmas Curve GroupSpec ApiModel ApiSpec ApiProofs VerifyProofs CipherProofs SessionModel SessionProofs
  PropSigLemmas PropCipherLemmas ReaderModel ReaderSpec.
Import ListNotations.
Open Scope Z_scope.

Section Any.
Variable R : ioreader.
Hypothesis HR : reader_ok R.
Variable H : list bytes -> bytes.
Variable G : bytes -> bytes.
Variable E : bytes -> bytes -> bytes.

Lemma delivers_len s n b s' : delivers R s n b s' -> length b = n /\ wf_bytes b.
Proof.
  induction 1 as [s|s n c s' c' s'' P A _ IH|s n c e s' P A L].
  - split; [reflexivity|constructor].
  - destruct (HR _ _ _ _ _ A). destruct IH. rewrite app_length. split; [lia|]. apply Forall_app; split; assumption.
  - destruct (HR _ _ _ _ _ A). split; assumption.
Qed.
Lemma fails_len s n b e s' : fails R s n b e s' -> (length b < n)%nat.
Proof.
  induction 1 as [s n c e s' L A|s n c s' c' e s'' A _ IH]; [exact L|]. rewrite app_length. lia.
Qed.
(** one more Read allowed changes nothing *)
Lemma loop_more f : forall s n x, loop_any R f s n = Some x -> forall g, (f <= g)%nat -> loop_any R g s n = Some x.
Proof.
  induction f as [|f IH]; intros s n x Hx g L.
  - destruct n; [|discriminate Hx]. destruct g; exact Hx.
  - destruct n as [|n]; [destruct g; exact Hx|]. destruct g as [|g]; [lia|]. cbn [loop_any] in Hx |- *.
    destruct (rread R s (S n)) as [[c o] s1]. destruct o; [exact Hx|].
    destruct (loop_any R f s1 (S n - length c)) as [[[c' e'] s2]|] eqn:X; [|discriminate Hx].
    rewrite (IH _ _ _ X g) by lia. exact Hx.
Qed.
(** what the loop returns *)
Lemma loop_some f : forall s n c e s', loop_any R f s n = Some (c, e, s') ->
  ((n <= length c)%nat /\ delivers R s n c s') \/ (exists x, e = Some x /\ fails R s n c x s').
Proof.
  induction f as [|f IH]; intros s n c e s' X.
  - destruct n; [|discriminate X]. left. injection X as <- <- <-. split; [apply Nat.le_refl|constructor].
  - destruct n as [|n]; [left; injection X as <- <- <-; split; [apply Nat.le_refl|constructor]|].
    cbn [loop_any] in X. destruct (rread R s (S n)) as [[c1 o] s1] eqn:A. destruct o as [x|].
    + injection X as <- <- <-. destruct (HR _ _ _ _ _ A) as [L _].
      destruct (Nat.eq_dec (length c1) (S n)) as [Q|Q].
      * left. split; [lia|]. eapply DLast; [lia|exact A|exact Q].
      * right. exists x. split; [reflexivity|]. apply FHere; [lia|exact A].
    + destruct (loop_any R f s1 (S n - length c1)) as [[[c' e'] s2]|] eqn:Y; [|discriminate X].
      injection X as <- <- <-. apply IH in Y. destruct Y as [[L D]|(x & -> & F)].
      * left. split; [rewrite app_length; lia|]. eapply DPart; [lia|exact A|exact D].
      * right. exists x. split; [reflexivity|]. eapply FLater; [exact A|exact F].
Qed.
Lemma loop_delivers s n b s' : delivers R s n b s' -> exists f e, loop_any R f s n = Some (b, e, s').
Proof.
  induction 1 as [s|s n c s' c' s'' P A _ IH|s n c e s' P A L].
  - exists O, None. reflexivity.
  - destruct IH as (f & e & X). exists (S f), e. destruct n; [lia|]. cbn [loop_any]. rewrite A, X. reflexivity.
  - exists 1%nat, (Some e). destruct n; [lia|]. cbn [loop_any]. rewrite A. reflexivity.
Qed.
Lemma loop_fails s n b x s' : fails R s n b x s' -> exists f, loop_any R f s n = Some (b, Some x, s').
Proof.
  induction 1 as [s n c e s' L A|s n c s' c' e s'' A F IH].
  - exists 1%nat. destruct n; [lia|]. cbn [loop_any]. rewrite A. reflexivity.
  - destruct IH as (f & X). exists (S f). pose proof (fails_len _ _ _ _ _ F). destruct n; [lia|]. cbn [loop_any]. rewrite A, X. reflexivity.
Qed.

(** io.ReadFull *)
Definition full_result (s : rstate R) (n : nat) (x : bytes + ioerr) (s' : rstate R) : Prop :=
  (exists b, delivers R s n b s' /\ x = inl b) \/ (exists got e, fails R s n got e s' /\ x = inr (short_read got e)).
Lemma full_sound f s n x s' : read_full_any R f s n = Some (x, s') -> full_result s n x s'.
Proof.
  unfold read_full_any. destruct (loop_any R f s n) as [[[c e] s1]|] eqn:X; [|discriminate].
  intros Y. apply loop_some in X. destruct X as [[L D]|(z & -> & F)].
  - left. exists c. destruct (Nat.leb_spec n (length c)); [|lia]. injection Y as <- <-. split; [exact D|reflexivity].
  - right. exists c, z. pose proof (fails_len _ _ _ _ _ F). destruct (Nat.leb_spec n (length c)); [lia|]. injection Y as <- <-.
    split; [exact F|]. destruct z, c; reflexivity.
Qed.
Lemma full_more f s n x : read_full_any R f s n = Some x -> forall g, (f <= g)%nat -> read_full_any R g s n = Some x.
Proof.
  unfold read_full_any. intros X g L. destruct (loop_any R f s n) as [y|] eqn:Y; [|discriminate X].
  rewrite (loop_more _ _ _ _ Y g L). exact X.
Qed.
Lemma full_complete s n x s' : full_result s n x s' -> exists f, read_full_any R f s n = Some (x, s').
Proof.
  intros [(b & D & ->)|(got & e & F & ->)].
  - destruct (loop_delivers _ _ _ _ D) as (f & e & X). exists f. unfold read_full_any. rewrite X.
    destruct (delivers_len _ _ _ _ D) as [L _]. destruct (Nat.leb_spec n (length b)); [reflexivity|lia].
  - destruct (loop_fails _ _ _ _ _ F) as (f & X). exists f. unfold read_full_any. rewrite X.
    pose proof (fails_len _ _ _ _ _ F). destruct (Nat.leb_spec n (length got)); [lia|]. destruct e, got; reflexivity.
Qed.
Lemma stalls_none f : forall s n, stalls R s n -> loop_any R f s n = None.
Proof.
  induction f as [|f IH]; intros s n X; destruct X as [s n c s' L A X]; (destruct n; [lia|]); [reflexivity|].
  cbn [loop_any]. rewrite A, IH by exact X. reflexivity.
Qed.
Lemma none_stalls : forall s n, (forall f, loop_any R f s n = None) -> stalls R s n.
Proof.
  cofix SELF. intros s n X. destruct (rread R s n) as [[c o] s1] eqn:A.
  destruct n as [|n]; [exfalso; specialize (X O); discriminate X|].
  destruct o as [x|]; [exfalso; specialize (X 1%nat); cbn [loop_any] in X; rewrite A in X; discriminate X|].
  assert (L : (length c < S n)%nat).
  { destruct (HR _ _ _ _ _ A) as [L _]. destruct (Nat.eq_dec (length c) (S n)) as [Q|Q]; [|lia].
    exfalso. specialize (X 1%nat). cbn [loop_any] in X. rewrite A, Q, Nat.sub_diag in X. discriminate X. }
  apply (Stall R s (S n) c s1 L A). apply SELF. intros f. specialize (X (S f)). cbn [loop_any] in X. rewrite A in X.
  destruct (loop_any R f s1 (S n - length c)) as [[[c' e'] s2]|]; [discriminate X|reflexivity].
Qed.
Lemma full_none s n f : read_full_any R f s n = None <-> loop_any R f s n = None.
Proof. unfold read_full_any. destruct (loop_any R f s n) as [[[c e] s1]|]; split; intros X; discriminate X || reflexivity. Qed.

(** GenerateKeyPair *)
Hypothesis HH : hash_ok 64 H.
Definition pair_from (seed : bytes) : keypair := KeyPair (Some (new_private_key seed)) (public_key_of H seed).
Lemma generated seed : wf_bytes seed ->
  of_res VPair (let privateKey := new_private_key seed in do publicKey <- derive_public_key H privateKey;
    new_key_pair H (Some privateKey) (Some publicKey)) = Value (VPair (pair_from seed)).
Proof.
  intros W. cbv zeta. rewrite derive_ok by assumption. rewrite bind_ok. unfold new_key_pair, is_key_compressed.
  destruct (public_key_wf H (pk_raw (new_private_key seed))) as [_ ->]. reflexivity.
Qed.
Theorem generate_outcome : forall s o s', (exists fuel, generate_any R H fuel s = Some (o, s')) <->
  (exists seed, delivers R s 32 seed s' /\ o = Value (VPair (KeyPair (Some (new_private_key seed)) (public_key_of H seed)))) \/
  (exists got e, fails R s 32 got e s' /\ o = ReadError (short_read got e)).
Proof.
  intros s o s'. split.
  - intros [f X]. unfold generate_any in X. destruct (read_full_any R f s 32) as [[[seed|e] s1]|] eqn:Y; [| |discriminate X].
    + apply full_sound in Y. destruct Y as [(b & D & Q)|(g & z & _ & Q)]; [|discriminate Q]. injection Q as ->.
      rewrite generated in X by apply (delivers_len _ _ _ _ D). left. exists b.
      assert (Q2 : (Value (VPair (pair_from b)), s1) = (o, s')) by congruence. clear X. injection Q2 as <- <-. split; [exact D|reflexivity].
    + apply full_sound in Y. destruct Y as [(b & _ & Q)|(g & z & F & Q)]; [discriminate Q|]. injection Q as ->.
      injection X as <- <-. right. exists g, z. split; [exact F|reflexivity].
  - intros [(seed & D & ->)|(g & z & F & ->)].
    + destruct (full_complete s 32 (inl seed) s') as [f X]; [left; exists seed; auto|]. exists f. unfold generate_any. rewrite X.
      rewrite generated by apply (delivers_len _ _ _ _ D). reflexivity.
    + destruct (full_complete s 32 (inr (short_read g z)) s') as [f X]; [right; exists g, z; auto|]. exists f. unfold generate_any. rewrite X. reflexivity.
Qed.
Theorem generate_waits : forall s, (forall fuel, generate_any R H fuel s = None) <-> stalls R s 32.
Proof.
  intros s. split.
  - intros X. apply none_stalls. intros f. apply full_none. specialize (X f). unfold generate_any in X.
    destruct (read_full_any R f s 32) as [[[seed|e] s1]|]; [discriminate X|discriminate X|reflexivity].
  - intros X f. unfold generate_any. pose proof (stalls_none f _ _ X) as Y. apply full_none in Y. rewrite Y. reflexivity.
Qed.
Lemma generate_more f s x : generate_any R H f s = Some x -> forall g, (f <= g)%nat -> generate_any R H g s = Some x.
Proof.
  unfold generate_any. intros X g L. destruct (read_full_any R f s 32) as [y|] eqn:Y; [|discriminate X].
  rewrite (full_more _ _ _ _ Y g L). exact X.
Qed.
Theorem generate_once : forall s f g x y, generate_any R H f s = Some x -> generate_any R H g s = Some y -> x = y.
Proof.
  intros s f g x y X Y. apply (fun e => generate_more _ _ _ e (f + g)%nat) in X; [|lia].
  apply (fun e => generate_more _ _ _ e (f + g)%nat) in Y; [|lia]. congruence.
Qed.

(** Encrypt *)
Definition agreement (bc : blockcipher) (salt : bytes) : res bytes :=
  get_shared_key H G (bc_keylen bc) (kp_priv (bc_sender bc)) (kp_pub (bc_recipient bc)) salt.
Lemma encrypt_list bc salt iv key m : length salt = bc_keylen bc -> length iv = 16%nat -> agreement bc salt = Ok key ->
  (do r <- encrypt H G E bc (salt ++ iv) m; Ok (fst r)) = (do buf <- bc_encode E m key iv; Ok ((salt ++ iv) ++ buf)).
Proof.
  intros L1 L2 A. unfold encrypt. rewrite read_full_ok by (rewrite app_length; lia). rewrite bind_ok. cbn [fst snd].
  replace (firstn (bc_keylen bc) (salt ++ iv)) with salt
    by (rewrite <- L1, firstn_app, Nat.sub_diag, firstn_all; cbn [firstn]; symmetry; apply app_nil_r).
  replace (skipn (bc_keylen bc) (salt ++ iv)) with iv
    by (rewrite <- L1, skipn_app, Nat.sub_diag, skipn_all; reflexivity).
  fold (agreement bc salt). rewrite A, bind_ok. rewrite read_full_ok by lia. rewrite bind_ok. cbn [fst snd].
  rewrite firstn_all2 by lia. destruct (bc_encode E m key iv); reflexivity.
Qed.
Theorem encrypt_outcome : forall bc m s o s', (exists fuel, encrypt_any R H G E fuel bc s m = Some (o, s')) <->
  (exists got e, fails R s (bc_keylen bc) got e s' /\ o = ReadError (short_read got e)) \/
  exists salt s1, delivers R s (bc_keylen bc) salt s1 /\
    ((exists e, agreement bc salt = Err e /\ s' = s1 /\ o = LibError e) \/
     (agreement bc salt = Panic /\ s' = s1 /\ o = Panicked) \/
     exists key, agreement bc salt = Ok key /\
       ((exists got e, fails R s1 16 got e s' /\ o = ReadError (short_read got e)) \/
        (exists iv, delivers R s1 16 iv s' /\ o = of_res VBytes (do r <- encrypt H G E bc (salt ++ iv) m; Ok (fst r))))).
Proof.
  intros bc m s o s'. split.
  - intros [f X]. unfold encrypt_any in X. destruct (read_full_any R f s (bc_keylen bc)) as [[[salt|e] s1]|] eqn:Y; [| |discriminate X].
    + apply full_sound in Y. destruct Y as [(b & D & Q)|(g & z & _ & Q)]; [|discriminate Q]. injection Q as ->.
      right. exists b, s1. split; [exact D|]. fold (agreement bc b) in X. destruct (agreement bc b) as [key|e|] eqn:A.
      * right. right. exists key. split; [reflexivity|].
        destruct (read_full_any R f s1 16) as [[[iv|e] s2]|] eqn:Z; [| |discriminate X].
        -- right. apply full_sound in Z. destruct Z as [(c & D2 & Q)|(g & z & _ & Q)]; [|discriminate Q]. injection Q as ->.
           exists c. destruct (delivers_len _ _ _ _ D) as [L1 _]. destruct (delivers_len _ _ _ _ D2) as [L2 _].
           rewrite (encrypt_list bc b c key m L1 L2 A).
           assert (Q2 : s2 = s') by congruence. subst s2. split; [exact D2|]. congruence.
        -- left. apply full_sound in Z. destruct Z as [(c & _ & Q)|(g & z & F & Q)]; [discriminate Q|]. injection Q as ->.
           injection X as <- <-. exists g, z. split; [exact F|reflexivity].
      * left. exists e. injection X as <- <-. auto.
      * right. left. injection X as <- <-. auto.
    + apply full_sound in Y. destruct Y as [(b & _ & Q)|(g & z & F & Q)]; [discriminate Q|]. injection Q as ->.
      injection X as <- <-. left. exists g, z. split; [exact F|reflexivity].
  - intros [(g & z & F & ->)|(salt & s1 & D & [(e & A & -> & ->)|[(A & -> & ->)|(key & A & Q)]])].
    + destruct (full_complete s (bc_keylen bc) (inr (short_read g z)) s') as [f X]; [right; exists g, z; auto|]. exists f. unfold encrypt_any. rewrite X. reflexivity.
    + destruct (full_complete s (bc_keylen bc) (inl salt) s1) as [f X]; [left; exists salt; auto|]. exists f. unfold encrypt_any. rewrite X.
      fold (agreement bc salt). rewrite A. reflexivity.
    + destruct (full_complete s (bc_keylen bc) (inl salt) s1) as [f X]; [left; exists salt; auto|]. exists f. unfold encrypt_any. rewrite X.
      fold (agreement bc salt). rewrite A. reflexivity.
    + destruct (full_complete s (bc_keylen bc) (inl salt) s1) as [f X]; [left; exists salt; auto|].
      assert (Y : exists g x, read_full_any R g s1 16 = Some (x, s') /\
        o = match x with inr e => ReadError e | inl iv => of_res VBytes (do buf <- bc_encode E m key iv; Ok ((salt ++ iv) ++ buf)) end).
      { destruct Q as [(g & z & F & ->)|(iv & D2 & ->)].
        - destruct (full_complete s1 16 (inr (short_read g z)) s') as [k Y]; [right; exists g, z; auto|]. exists k, (inr (short_read g z)). auto.
        - destruct (full_complete s1 16 (inl iv) s') as [k Y]; [left; exists iv; auto|]. exists k, (inl iv). split; [exact Y|].
          rewrite (encrypt_list bc salt iv key m); [reflexivity| | |exact A]; [apply (delivers_len _ _ _ _ D)|apply (delivers_len _ _ _ _ D2)]. }
      destruct Y as (g & x & Y & ->). exists (f + g)%nat. unfold encrypt_any.
      rewrite (full_more _ _ _ _ X (f + g)%nat) by lia. fold (agreement bc salt). rewrite A.
      rewrite (full_more _ _ _ _ Y (f + g)%nat) by lia. destruct x; reflexivity.
Qed.
Theorem encrypt_waits : forall bc m s,
  (stalls R s (bc_keylen bc) -> forall fuel, encrypt_any R H G E fuel bc s m = None) /\
  ((forall fuel, encrypt_any R H G E fuel bc s m = None) -> (forall salt s1, ~ delivers R s (bc_keylen bc) salt s1) -> stalls R s (bc_keylen bc)) /\
  (forall salt s1, delivers R s (bc_keylen bc) salt s1 ->
     ((forall fuel, encrypt_any R H G E fuel bc s m = None) <-> exists key, agreement bc salt = Ok key /\ stalls R s1 16)).
Proof.
  intros bc m s. split; [|split].
  - intros X f. unfold encrypt_any. pose proof (stalls_none f _ _ X) as Y. apply full_none in Y. rewrite Y. reflexivity.
  - intros X N. apply none_stalls. intros f. apply full_none. destruct (read_full_any R f s (bc_keylen bc)) as [[[b|e] s1]|] eqn:Y; [| |reflexivity]; exfalso.
    + apply full_sound in Y. destruct Y as [(b' & D & _)|(g & z & _ & Q)]; [|discriminate Q]. exact (N _ _ D).
    + specialize (X f). unfold encrypt_any in X. rewrite Y in X. discriminate X.
  - intros salt s1 D. destruct (full_complete s (bc_keylen bc) (inl salt) s1) as [f X]; [left; exists salt; auto|]. split.
    + intros W. pose proof (W f) as Wf. unfold encrypt_any in Wf. rewrite X in Wf. fold (agreement bc salt) in Wf.
      destruct (agreement bc salt) as [key|e|] eqn:A; [|discriminate Wf|discriminate Wf]. exists key. split; [reflexivity|].
      apply none_stalls. intros g. apply full_none. specialize (W (f + g)%nat). unfold encrypt_any in W.
      rewrite (full_more _ _ _ _ X (f + g)%nat) in W by lia. fold (agreement bc salt) in W. rewrite A in W.
      destruct (read_full_any R g s1 16) as [y|] eqn:Y; [|reflexivity]. exfalso.
      rewrite (full_more _ _ _ _ Y (f + g)%nat) in W by lia. destruct y as [[iv|e] s2]; discriminate W.
    + intros (key & A & Z) g. destruct (encrypt_any R H G E g bc s m) as [y|] eqn:Y; [|reflexivity]. exfalso.
      unfold encrypt_any in Y. destruct (read_full_any R g s (bc_keylen bc)) as [w|] eqn:Q; [|discriminate Y].
      apply (fun e => full_more _ _ _ _ e (f + g)%nat) in X; [|lia]. apply (fun e => full_more _ _ _ _ e (f + g)%nat) in Q; [|lia].
      assert (w = (inl salt, s1)) by congruence. subst w. fold (agreement bc salt) in Y. rewrite A in Y.
      pose proof (stalls_none g _ _ Z) as V. apply full_none in V. rewrite V in Y. discriminate Y.
Qed.
Lemma encrypt_more f bc s m x : encrypt_any R H G E f bc s m = Some x -> forall g, (f <= g)%nat -> encrypt_any R H G E g bc s m = Some x.
Proof.
  unfold encrypt_any. intros X g L. destruct (read_full_any R f s (bc_keylen bc)) as [y|] eqn:Y; [|discriminate X].
  rewrite (full_more _ _ _ _ Y g L). destruct y as [[salt|e] s1]; [|exact X].
  destruct (get_shared_key H G (bc_keylen bc) (kp_priv (bc_sender bc)) (kp_pub (bc_recipient bc)) salt); [|exact X|exact X].
  destruct (read_full_any R f s1 16) as [y|] eqn:Z; [|discriminate X]. rewrite (full_more _ _ _ _ Z g L). exact X.
Qed.
Theorem encrypt_once : forall bc m s f g x y, encrypt_any R H G E f bc s m = Some x -> encrypt_any R H G E g bc s m = Some y -> x = y.
Proof.
  intros bc m s f g x y X Y. apply (fun e => encrypt_more _ _ _ _ _ e (f + g)%nat) in X; [|lia].
  apply (fun e => encrypt_more _ _ _ _ _ e (f + g)%nat) in Y; [|lia]. congruence.
Qed.

(** readers that make progress *)
Lemma loop_progress : (forall s n c s', (0 < n)%nat -> rread R s n = (c, None, s') -> c <> []) ->
  forall f s n, (n <= f)%nat -> loop_any R f s n <> None.
Proof.
  intros Pr f. induction f as [|f IH]; intros s n L; (destruct n as [|n]; [discriminate|]); [lia|].
  cbn [loop_any]. destruct (rread R s (S n)) as [[c o] s1] eqn:A. destruct o; [discriminate|].
  specialize (Pr _ _ _ _ (Nat.lt_0_succ n) A). destruct c as [|x c]; [congruence|].
  specialize (IH s1 (S n - length (x :: c))%nat). cbn [length] in *.
  destruct (loop_any R f s1 (S n - S (length c))) as [[[c' e'] s2]|]; [discriminate|]. intros _. apply IH; [lia|reflexivity].
Qed.
Theorem progress : (forall s n c s', (0 < n)%nat -> rread R s n = (c, None, s') -> c <> []) ->
  (forall s, generate_any R H 32 s <> None) /\
  (forall bc m s, encrypt_any R H G E (Nat.max (bc_keylen bc) 16) bc s m <> None).
Proof.
  intros Pr. split.
  - intros s X. unfold generate_any in X. destruct (read_full_any R 32 s 32) as [[[y|e] s1]|] eqn:Y; [discriminate X|discriminate X|].
    apply full_none in Y. exact (loop_progress Pr 32 s 32 (Nat.le_refl _) Y).
  - intros bc m s. unfold encrypt_any. set (f := Nat.max (bc_keylen bc) 16).
    destruct (read_full_any R f s (bc_keylen bc)) as [[[y|e] s1]|] eqn:Y; [|discriminate|].
    + destruct (get_shared_key H G (bc_keylen bc) (kp_priv (bc_sender bc)) (kp_pub (bc_recipient bc)) y); [|discriminate|discriminate].
      destruct (read_full_any R f s1 16) as [[[z|e] s2]|] eqn:Z; [discriminate|discriminate|].
      intros _. apply full_none in Z. refine (loop_progress Pr f s1 16 _ Z). unfold f. lia.
    + intros _. apply full_none in Y. refine (loop_progress Pr f s _ _ Y). unfold f. lia.
Qed.
End Any.

(** finite readers *)
Lemma loop_list : forall f r n, (length r < f)%nat -> loop_any list_reader f r n = Some (read_loop f r n).
Proof.
  induction f as [|f IH]; intros r n L; [lia|]. destruct n as [|n]; [reflexivity|].
  cbn [loop_any read_loop list_reader rread]. change (rread list_reader r (S n)) with (read1 r (S n)).
  destruct (read1 r (S n)) as [[c o] r'] eqn:A. destruct o as [x|]; [reflexivity|].
  unfold read1 in A. destruct r as [|[c0 e0] r0]; [discriminate A|]. cbn [length] in L.
  destruct (Nat.ltb_spec (S n) (length c0)) as [Q|Q].
  - assert (L1 : length c = S n) by (replace c with (firstn (S n) c0) by congruence; apply firstn_length_le; lia).
    clear A. rewrite L1, Nat.sub_diag. destruct f; reflexivity.
  - injection A as <- -> <-. change reader with (rstate list_reader). rewrite IH by lia.
    destruct (read_loop f r0 (S n - length c0)) as [[c' e'] r'']. reflexivity.
Qed.
Lemma full_list f r n : (length r < f)%nat -> read_full_any list_reader f r n = Some (read_full_r r n).
Proof.
  intros L. unfold read_full_any, read_full_r. rewrite loop_list by exact L. rewrite fuel_enough by exact L.
  destruct (read_loop (S (length r)) r n) as [[c e] r']. reflexivity.
Qed.
Lemma full_r_length r n : (length (snd (read_full_r r n)) <= length r)%nat.
Proof.
  unfold read_full_r. assert (Q : forall f r n, (length (snd (read_loop f r n)) <= length r)%nat).
  { induction f as [|f IH]; intros r0 n0; (destruct n0; [apply Nat.le_refl|]); [apply Nat.le_refl|].
    cbn [read_loop]. destruct (read1 r0 (S n0)) as [[c o] r'] eqn:A.
    assert (L : (length r' <= length r0)%nat).
    { unfold read1 in A. destruct r0 as [|[c0 e0] r1]; [injection A as <- <- <-; apply Nat.le_refl|].
      destruct (Nat.ltb (S n0) (length c0)); injection A as <- <- <-; cbn [length]; lia. }
    destruct o; [exact L|]. specialize (IH r' (S n0 - length c)%nat). destruct (read_loop f r' (S n0 - length c)) as [[c' e'] r'']. cbn [snd] in *. lia. }
  specialize (Q (S (length r)) r n). destruct (read_loop (S (length r)) r n) as [[c e] r']. cbn [snd] in *. exact Q.
Qed.
Theorem list_readers : forall H G E r bc m,
  generate_any list_reader H (S (length r)) r = Some (generate_r H r) /\
  encrypt_any list_reader H G E (S (length r)) bc r m = Some (encrypt_r H G E bc r m).
Proof.
  intros H G E r bc m. split.
  - unfold generate_any, generate_r. rewrite full_list by lia. destruct (read_full_r r 32) as [[x|e] r']; reflexivity.
  - unfold encrypt_any, encrypt_r. rewrite full_list by lia. pose proof (full_r_length r (bc_keylen bc)) as L.
    destruct (read_full_r r (bc_keylen bc)) as [[x|e] r']; [|reflexivity]. cbn [snd] in L.
    destruct (get_shared_key H G (bc_keylen bc) (kp_priv (bc_sender bc)) (kp_pub (bc_recipient bc)) x); [|reflexivity|reflexivity].
    rewrite full_list by lia. destruct (read_full_r r' 16) as [[y|e] r'']; reflexivity.
Qed.
Theorem same_bytes : forall R1 R2, reader_ok R1 -> reader_ok R2 -> forall H, hash_ok 64 H -> forall s1 s2 seed s1' s2',
  delivers R1 s1 32 seed s1' -> delivers R2 s2 32 seed s2' ->
  exists o f1 f2, generate_any R1 H f1 s1 = Some (o, s1') /\ generate_any R2 H f2 s2 = Some (o, s2').
Proof.
  intros R1 R2 O1 O2 H HH s1 s2 seed s1' s2' D1 D2.
  destruct (proj2 (generate_outcome R1 O1 H HH s1 _ s1') (or_introl (ex_intro _ seed (conj D1 eq_refl)))) as [f1 E1].
  destruct (proj2 (generate_outcome R2 O2 H HH s2 _ s2') (or_introl (ex_intro _ seed (conj D2 eq_refl)))) as [f2 E2].
  eexists. exists f1, f2. split; [exact E1|exact E2].
Qed.

(** examples: a reader that gives nothing every other time and otherwise one byte, the number of Reads so far; and one that
    gives nothing at all *)
Definition drip : ioreader := Reader nat (fun s n =>
  match n with O => ([], None, S s) | S _ => if Nat.even s then ([], None, S s) else ([Z.of_nat s mod 256], None, S s) end).
Definition silent : ioreader := Reader unit (fun s n => ([], None, s)).
Lemma drip_ok : reader_ok drip.
Proof.
  intros s n c e s' X. cbn [rread drip] in X. destruct n as [|n]; [injection X as <- <- <-; split; [apply Nat.le_refl|constructor]|].
  destruct (Nat.even s); injection X as <- <- <-; (split; [cbn [length]; lia|]); constructor; [|constructor].
  unfold is_byte. pose proof (Z.mod_pos_bound (Z.of_nat s) 256 eq_refl). lia.
Qed.
Lemma silent_ok : reader_ok silent.
Proof. intros s n c e s' X. injection X as <- <- <-. split; [apply Nat.le_0_l|constructor]. Qed.
Theorem ex_readers : reader_ok drip /\ reader_ok silent /\ stalls silent tt 32 /\
  delivers drip O 32 (map (fun k => Z.of_nat (2 * k + 1)) (seq 0 32)) 64%nat.
Proof.
  split; [exact drip_ok|]. split; [exact silent_ok|]. split.
  - assert (Q : forall n, (0 < n)%nat -> stalls silent tt n).
    { cofix SELF. intros n L. apply (Stall silent tt n [] tt); [exact L|reflexivity|]. apply SELF. cbn [length]. rewrite Nat.sub_0_r. exact L. }
    apply Q. lia.
  - assert (X : read_full_any drip 64 O 32 = Some (inl (map (fun k => Z.of_nat (2 * k + 1)) (seq 0 32)), 64%nat)) by (vm_compute; reflexivity).
    apply (full_sound drip drip_ok) in X. destruct X as [(b & D & Q)|(g & z & _ & Q)]; [|discriminate Q]. injection Q as <-. exact D.
Qed.
