(** Lemmas for C75 (goroutines sharing random sources). *)
From Coq Require Import List ZArith Arith Lia Bool.
From Verif Require Import GoBase GroupSpec ApiModel ApiSpec SessionModel SessionSpec SessionProofs ConcModel ConcSpec
  ApiProofs PropSigLemmas PropCipherLemmas PropSessionLemmas.
Import ListNotations.
Open Scope nat_scope.

(** ** io.ReadFull round by round *)

(** [l] is what the Reads returned so far of an io.ReadFull for n bytes that has not ended with an error *)
Inductive fills (n : nat) : reader -> bytes -> Prop :=
| fills_nil : fills n [] []
| fills_more l got c e : fills n l got -> length got < n -> length c <= n - length got ->
    (e = None \/ n <= length (got ++ c)) -> fills n (l ++ [(c, e)]) (got ++ c).

Lemma read1_whole c e r n : length c <= n -> read1 ((c, e) :: r) n = (c, e, r).
Proof. intros L. unfold read1. destruct (Nat.ltb_spec n (length c)); [lia|reflexivity]. Qed.
Lemma loop_step f r n : 0 < n -> read_loop (S f) r n =
  match read1 r n with
  | (c, Some e, r') => (c, Some e, r')
  | (c, None, r') => let '(c', e', r'') := read_loop f r' (n - length c) in (c ++ c', e', r'')
  end.
Proof. intros N. destruct n; [lia|reflexivity]. Qed.
Lemma loop_0 f r : read_loop f r 0 = ([], None, r).
Proof. destruct f; reflexivity. Qed.
Lemma fills_loop n l got : fills n l got -> length got < n -> forall f r,
  read_loop (length l + f) (l ++ r) n =
    let '(c', e', r') := read_loop f r (n - length got) in (got ++ c', e', r').
Proof.
  induction 1 as [|l got c e F IH Lg Lc C]; intros L f r.
  - cbn [length app plus]. rewrite Nat.sub_0_r. destruct (read_loop f r n) as [[c e] r']. reflexivity.
  - rewrite app_length in L. destruct C as [->|C]; [|rewrite app_length in C; lia]. rewrite (app_length got c), (app_length l).
    rewrite <- app_assoc. cbn [length app]. replace (length l + 1 + f) with (length l + S f) by lia.
    rewrite IH by exact Lg. rewrite loop_step by lia. rewrite read1_whole by exact Lc.
    replace (n - (length got + length c)) with (n - length got - length c) by lia.
    destruct (read_loop f r (n - length got - length c)) as [[c' e'] r']. rewrite <- app_assoc. reflexivity.
Qed.
Lemma fills_full n l got : fills n l got -> n <= length got -> forall r, read_full_r (l ++ r) n = (inl got, r).
Proof.
  intros F L r. unfold read_full_r. rewrite app_length, <- Nat.add_succ_r. inversion F as [|l' got' c e F' Lg Lc C]; subst.
  - cbn [length] in *. assert (n = 0) as -> by lia. rewrite loop_0. reflexivity.
  - rewrite app_length in L. rewrite (app_length l'), <- app_assoc. cbn [length app].
    replace (length l' + 1 + S (length r)) with (length l' + S (S (length r))) by lia.
    rewrite (fills_loop n l' got' F' Lg). rewrite loop_step by lia. rewrite read1_whole by exact Lc.
    destruct e as [e|].
    + rewrite app_length. destruct (Nat.leb_spec n (length got' + length c)); [reflexivity|lia].
    + replace (n - length got' - length c) with 0 by lia. rewrite loop_0, app_nil_r, app_length.
      destruct (Nat.leb_spec n (length got' + length c)); [reflexivity|lia].
Qed.
Lemma fills_short n l got : fills n l got -> length got < n -> forall c x, length c <= n - length got ->
  length (got ++ c) < n -> forall r, read_full_r ((l ++ [(c, Some x)]) ++ r) n = (inr (io_error (got ++ c) (Some x)), r).
Proof.
  intros F L c x Lc Ls r. unfold read_full_r. rewrite !app_length, <- app_assoc. cbn [length app].
  replace (S (length l + 1 + length r)) with (length l + S (S (length r))) by lia.
  rewrite (fills_loop n l got F L). rewrite loop_step by lia. rewrite read1_whole by exact Lc.
  destruct (Nat.leb_spec n (length (got ++ c))); [lia|reflexivity].
Qed.

Section Conc.
Variable S : sources.
Variable H : list bytes -> bytes.
Variable G : bytes -> bytes.
Variables E D : bytes -> bytes -> bytes.

(** the call, alone with a reader that behaves as its Reads did, has this outcome and uses these Reads up *)
Definition returned (c : call) (l : reader) (o : outcome) : Prop :=
  exists w', do_call H G E D c (fun _ => l) = (o, w') /\ (forall i, source_of c = Some i -> w' i = []) /\ (source_of c = None -> l = []).
Definition klen (s r : keypair) : nat := bc_keylen (new_block_cipher s r).
Definition agreed (s r : keypair) (salt : bytes) : res bytes :=
  let bc := new_block_cipher s r in get_shared_key H G (bc_keylen bc) (kp_priv (bc_sender bc)) (kp_pub (bc_recipient bc)) salt.
(** a call under way *)
Definition inside (c : call) (p : option place) (l : reader) : Prop :=
  match p with
  | None => l = []
  | Some (Seed got) => exists e, c = CGenerate (Some e) /\ fills 32 l got
  | Some (Salt got) => exists s r e m, c = CEncrypt s r e m /\ fills (klen s r) l got
  | Some (Iv salt key got) => exists s r e m l1 l2, c = CEncrypt s r e m /\ l = l1 ++ l2 /\ fills (klen s r) l1 salt /\
      klen s r <= length salt /\ agreed s r salt = Ok key /\ fills 16 l2 got
  end.
Definition good_go (cs : list call) (go : goroutine) (ans : nat -> reader) : Prop :=
  length (results go) <= length cs /\ todo go = skipn (length (results go)) cs /\
  (forall k c o, nth_error cs k = Some c -> nth_error (results go) k = Some o -> returned c (ans k) o) /\
  match todo go with [] => within go = None | c :: _ => inside c (within go) (ans (length (results go))) end /\
  (forall k, length (results go) < k \/ length cs <= k -> ans k = []).
Definition extend (ans : nat -> reader) (k : nat) (a : reader) : nat -> reader :=
  fun j => if Nat.eqb j k then ans j ++ a else ans j.

Lemma skipn_cons {A} (l : list A) k c rest : skipn k l = c :: rest -> nth_error l k = Some c /\ skipn (k + 1) l = rest /\ k < length l.
Proof.
  revert l. induction k as [|k IH]; intros [|x l] E0; try discriminate.
  - cbn in E0. injection E0 as -> ->. cbn. repeat split; lia.
  - cbn [skipn] in E0. destruct (IH l E0) as (A1 & A2 & A3). cbn. repeat split; auto. lia.
Qed.
Lemma finish_good cs go ans c rest a o : good_go cs go ans -> todo go = c :: rest ->
  returned c (ans (length (results go)) ++ a) o -> good_go cs (finish go o) (extend ans (length (results go)) a).
Proof.
  intros (B1 & B2 & B3 & B4 & B5) T R. rewrite T in B2. symmetry in B2. destruct (skipn_cons _ _ _ _ B2) as (N & K & L).
  unfold good_go, finish. cbn [todo within results]. rewrite T, app_length. cbn [tl length].
  split; [lia|]. split; [symmetry; exact K|]. split; [|split].
  - intros k c' o' Hc Ho. unfold extend. destruct (Nat.eqb_spec k (length (results go))) as [->|Ne].
    + rewrite nth_error_app2, Nat.sub_diag in Ho by lia. cbn in Ho. assert (c' = c) by congruence. assert (o' = o) by congruence. subst. exact R.
    + destruct (Nat.lt_ge_cases k (length (results go))) as [Lt|Ge].
      * rewrite nth_error_app1 in Ho by lia. exact (B3 _ _ _ Hc Ho).
      * rewrite nth_error_app2 in Ho by lia. destruct (k - length (results go)) as [|j] eqn:J; [lia|]. destruct j; discriminate Ho.
  - destruct rest as [|c' rest']; [reflexivity|]. cbn [inside]. unfold extend.
    destruct (Nat.eqb_spec (length (results go) + 1) (length (results go))); [lia|]. apply B5. lia.
  - intros k Hk. unfold extend. destruct (Nat.eqb_spec k (length (results go))) as [->|Ne]; [lia|]. apply B5. lia.
Qed.
Lemma move_good cs go ans c rest a p : good_go cs go ans -> todo go = c :: rest ->
  inside c (Some p) (ans (length (results go)) ++ a) -> good_go cs (move go p) (extend ans (length (results go)) a).
Proof.
  intros (B1 & B2 & B3 & B4 & B5) T R. pose proof B2 as B2'. rewrite T in B2'. symmetry in B2'. destruct (skipn_cons _ _ _ _ B2') as (N & K & L).
  unfold good_go, move. cbn [todo within results]. split; [exact B1|]. split; [exact B2|]. split; [|split].
  - intros k c' o' Hc Ho. unfold extend. destruct (Nat.eqb_spec k (length (results go))) as [->|Ne]; [|exact (B3 _ _ _ Hc Ho)].
    assert (X : nth_error (results go) (length (results go)) = None) by (apply nth_error_None; lia). congruence.
  - rewrite T. unfold extend. rewrite Nat.eqb_refl. exact R.
  - intros k Hk. unfold extend. destruct (Nat.eqb_spec k (length (results go))) as [->|Ne]; [lia|]. apply B5. lia.
Qed.

(** ** The ends of calls *)
Lemma src_generate e : source_of (CGenerate (Some e)) = Some (seed_of e).
Proof. cbn [source_of]. now rewrite seed_reader. Qed.
Lemma set_same w i r : set_reader w i r i = r.
Proof. unfold set_reader. now rewrite Nat.eqb_refl. Qed.
Lemma returned_generate e l o : generate_r H l = (o, []) -> returned (CGenerate (Some e)) l o.
Proof.
  intros R. unfold returned. cbn [do_call]. rewrite R. eexists. split; [reflexivity|]. split; [|discriminate].
  intros i Hi. rewrite src_generate in Hi. injection Hi as <-. apply set_same.
Qed.
Lemma returned_encrypt s r e m l o : encrypt_r H G E (new_block_cipher s r) l m = (o, []) -> returned (CEncrypt s r e m) l o.
Proof.
  intros R. unfold returned. cbn [do_call]. rewrite R. eexists. split; [reflexivity|]. rewrite source_encrypt. split; [|discriminate].
  intros i Hi. injection Hi as <-. apply set_same.
Qed.
Lemma generate_full l seed : read_full_r l 32 = (inl seed, []) ->
  generate_r H l = (of_res VPair (let privateKey := new_private_key seed in
     do publicKey <- derive_public_key H privateKey; new_key_pair H (Some privateKey) (Some publicKey)), []).
Proof. intros R. unfold generate_r. rewrite R. reflexivity. Qed.
Lemma generate_short l x : read_full_r l 32 = (inr x, []) -> generate_r H l = (ReadError x, []).
Proof. intros R. unfold generate_r. rewrite R. reflexivity. Qed.
Lemma encrypt_1 s r m l x : read_full_r l (klen s r) = (inr x, []) ->
  encrypt_r H G E (new_block_cipher s r) l m = (ReadError x, []).
Proof. intros R. unfold encrypt_r. unfold klen in R. rewrite R. reflexivity. Qed.
Lemma encrypt_2 s r m l salt x : read_full_r l (klen s r) = (inl salt, []) -> agreed s r salt = Err x ->
  encrypt_r H G E (new_block_cipher s r) l m = (LibError x, []).
Proof. intros R K. unfold encrypt_r. unfold klen in R. rewrite R. unfold agreed in K. cbv zeta in K. rewrite K. reflexivity. Qed.
Lemma encrypt_3 s r m l salt : read_full_r l (klen s r) = (inl salt, []) -> agreed s r salt = Panic ->
  encrypt_r H G E (new_block_cipher s r) l m = (Panicked, []).
Proof. intros R K. unfold encrypt_r. unfold klen in R. rewrite R. unfold agreed in K. cbv zeta in K. rewrite K. reflexivity. Qed.
Lemma encrypt_4 s r m l l' salt key x : read_full_r l (klen s r) = (inl salt, l') -> agreed s r salt = Ok key ->
  read_full_r l' 16 = (inr x, []) -> encrypt_r H G E (new_block_cipher s r) l m = (ReadError x, []).
Proof. intros R K R'. unfold encrypt_r. unfold klen in R. rewrite R. unfold agreed in K. cbv zeta in K. rewrite K, R'. reflexivity. Qed.
Lemma encrypt_5 s r m l l' salt key iv : read_full_r l (klen s r) = (inl salt, l') -> agreed s r salt = Ok key ->
  read_full_r l' 16 = (inl iv, []) -> encrypt_r H G E (new_block_cipher s r) l m =
    (of_res VBytes (do buf <- bc_encode E m key iv; Ok ((salt ++ iv) ++ buf)), []).
Proof. intros R K R'. unfold encrypt_r. unfold klen in R. rewrite R. unfold agreed in K. cbv zeta in K. rewrite K, R'. reflexivity. Qed.

(** ** One turn *)
Definition added (ev : option (nat * nat * (bytes * option rerr))) : reader :=
  match ev with Some (_, _, a) => [a] | None => [] end.
Definition proper (cs : list call) (k : nat) (ev : option (nat * nat * (bytes * option rerr))) : Prop :=
  forall i n a, ev = Some (i, n, a) -> exists c, nth_error cs k = Some c /\ source_of c = Some i /\ 0 < n /\ length (fst a) <= n.

Lemma round_good (ok : sources_ok S) cs go ans c rest want got p i w go' w' ev :
  good_go cs go ans -> todo go = c :: rest -> source_of c = Some i -> length got < want ->
  (forall ch e, length ch <= want - length got -> (e = None \/ want <= length (got ++ ch)) ->
     inside c (Some (p (got ++ ch))) (ans (length (results go)) ++ [(ch, e)])) ->
  (forall ch x, length ch <= want - length got -> length (got ++ ch) < want ->
     returned c (ans (length (results go)) ++ [(ch, Some x)]) (ReadError (io_error (got ++ ch) (Some x)))) ->
  round S want got p i go w = (go', w', ev) ->
  good_go cs go' (extend ans (length (results go)) (added ev)) /\ proper cs (length (results go)) ev.
Proof.
  intros B T Sc L Hm Hs. unfold round. destruct (sread S w i (want - length got)) as [[ch e] w1] eqn:Rd. intros X.
  pose proof (ok _ _ _ _ _ _ Rd) as Lc.
  assert (Pr : proper cs (length (results go)) (Some (i, want - length got, (ch, e)))).
  { intros i' n' a' X'. assert (i' = i /\ n' = want - length got /\ a' = (ch, e)) as (-> & -> & ->) by (repeat split; congruence).
    destruct B as (B1 & B2 & _). rewrite T in B2. symmetry in B2. destruct (skipn_cons _ _ _ _ B2) as (N & _ & _).
    exists c. repeat split; auto. lia. }
  destruct e as [x|].
  - destruct (Nat.leb_spec want (length (got ++ ch))) as [Le|Lt]; injection X as <- <- <-; (split; [|exact Pr]).
    + eapply move_good; [exact B|exact T|]. apply Hm; auto.
    + eapply finish_good; [exact B|exact T|]. apply Hs; auto.
  - injection X as <- <- <-. split; [|exact Pr]. eapply move_good; [exact B|exact T|]. apply Hm; auto.
Qed.
Lemma proper_none cs k : proper cs k None.
Proof. intros i n a X. discriminate X. Qed.
Lemma extend_nil cs go ans k : good_go cs go ans -> good_go cs go (extend ans k []).
Proof.
  assert (Ex : forall j, extend ans k [] j = ans j) by (intros j; unfold extend; destruct (Nat.eqb j k); [apply app_nil_r|reflexivity]).
  intros (B1 & B2 & B3 & B4 & B5). split; [exact B1|]. split; [exact B2|]. split; [|split].
  - intros. rewrite Ex. eauto.
  - destruct (todo go); [exact B4|]. rewrite Ex. exact B4.
  - intros. rewrite Ex. auto.
Qed.
Lemma pure_returned c : source_of c = None -> returned c [] (fst (do_call H G E D c (fun _ => []))).
Proof.
  intros Sc. unfold returned. destruct (do_call H G E D c (fun _ => [])) as [o w'] eqn:C. exists w'.
  split; [reflexivity|]. rewrite Sc. split; [discriminate|reflexivity].
Qed.
Lemma turn_good (ok : sources_ok S) cs go ans w go' w' ev : good_go cs go ans -> turn S H G E D go w = (go', w', ev) ->
  good_go cs go' (extend ans (length (results go)) (added ev)) /\ proper cs (length (results go)) ev.
Proof.
  intros B. unfold turn. destruct (todo go) as [|c rest] eqn:T.
  { intros X. injection X as <- <- <-. split; [apply extend_nil; exact B|apply proper_none]. }
  pose proof B as (_ & _ & _ & B4 & _). rewrite T in B4. set (k := length (results go)) in *.
  destruct (within go) as [p|].
  - destruct p as [got|got|salt key got]; cbn [inside] in B4.
    + destruct B4 as (e & -> & F). destruct (Nat.leb_spec 32 (length got)) as [Le|Lt]; intros X.
      * injection X as <- <- <-. split; [|apply proper_none]. eapply finish_good; [exact B|exact T|].
        cbn [added]. apply returned_generate, generate_full, fills_full; [exact F|exact Le].
      * refine (round_good ok cs go ans _ _ _ _ _ _ w go' w' ev B T (src_generate e) Lt _ _ X).
        -- intros ch er L1 L2. cbn [inside]. exists e. split; [reflexivity|]. fold k. constructor; auto.
        -- intros ch x L1 L2. apply returned_generate, generate_short. fold k.
           rewrite <- (app_nil_r (ans k ++ _)). now apply fills_short.
    + destruct B4 as (s & r & e & m & -> & F). cbv zeta. fold (klen s r). change (get_shared_key H G (klen s r) _ _ got) with (agreed s r got).
      destruct (Nat.leb_spec (klen s r) (length got)) as [Le|Lt]; intros X.
      * assert (R : read_full_r (ans k ++ []) (klen s r) = (inl got, [])) by (apply fills_full; [exact F|exact Le]).
        destruct (agreed s r got) as [key|x|] eqn:K; cbv iota in X; injection X as <- <- <-; (split; [|apply proper_none]); cbn [added].
        -- eapply move_good; [exact B|exact T|]. cbn [inside]. exists s, r, e, m, (ans k), [].
           split; [reflexivity|]. split; [fold k; reflexivity|]. split; [exact F|]. split; [exact Le|]. split; [exact K|constructor].
        -- eapply finish_good; [exact B|exact T|]. fold k. apply returned_encrypt. exact (encrypt_2 _ _ _ _ _ _ R K).
        -- eapply finish_good; [exact B|exact T|]. fold k. apply returned_encrypt. exact (encrypt_3 _ _ _ _ _ R K).
      * refine (round_good ok cs go ans _ _ _ _ _ _ w go' w' ev B T (source_encrypt s r e m) Lt _ _ X).
        -- intros ch er L1 L2. cbn [inside]. exists s, r, e, m. split; [reflexivity|]. fold k. constructor; auto.
        -- intros ch x L1 L2. apply returned_encrypt, encrypt_1. fold k. rewrite <- (app_nil_r (ans k ++ _)). now apply fills_short.
    + destruct B4 as (s & r & e & m & l1 & l2 & -> & El & F1 & L1 & K & F).
      assert (R1 : forall x, read_full_r (l1 ++ x) (klen s r) = (inl salt, x)) by (intros x; apply fills_full; [exact F1|exact L1]).
      destruct (Nat.leb_spec 16 (length got)) as [Le|Lt]; intros X.
      * injection X as <- <- <-. split; [|apply proper_none]. eapply finish_good; [exact B|exact T|]. cbn [added]. fold k. rewrite El.
        apply returned_encrypt. eapply encrypt_5; [rewrite <- app_assoc; apply R1|exact K|]. apply fills_full; [exact F|exact Le].
      * refine (round_good ok cs go ans _ _ _ _ _ _ w go' w' ev B T (source_encrypt s r e m) Lt _ _ X).
        -- intros ch er L2 L3. cbn [inside]. fold k. rewrite El. exists s, r, e, m, l1, (l2 ++ [(ch, er)]).
           split; [reflexivity|]. split; [now rewrite app_assoc|]. repeat (split; [assumption|]). constructor; auto.
        -- intros ch x L2 L3. fold k. rewrite El. apply returned_encrypt.
           eapply encrypt_4; [rewrite <- app_assoc; apply R1|exact K|]. rewrite <- (app_nil_r (l2 ++ _)). now apply fills_short.
  - cbn [inside] in B4.
    assert (Pu : source_of c = None -> forall X : (finish go (fst (do_call H G E D c (fun _ => []))), w, None) = (go', w', ev),
      good_go cs go' (extend ans k (added ev)) /\ proper cs k ev).
    { intros Sc X. injection X as <- <- <-. split; [|apply proper_none]. eapply finish_good; [exact B|exact T|].
      fold k. rewrite B4. apply pure_returned. exact Sc. }
    destruct c as [[e|]|priv pub e|s r e m|s r e m|kp e m|kp e m sg|kp e sg|kp e sg]; try (apply Pu; reflexivity).
    + intros X. injection X as <- <- <-. split; [|apply proper_none]. eapply move_good; [exact B|exact T|].
      cbn [inside]. exists e. split; [reflexivity|]. fold k. rewrite B4. constructor.
    + intros X. injection X as <- <- <-. split; [|apply proper_none]. eapply move_good; [exact B|exact T|].
      cbn [inside]. exists s, r, e, m. split; [reflexivity|]. fold k. rewrite B4. constructor.
Qed.

(** ** All goroutines *)
Lemma good_ext cs go ans ans' : (forall k, ans k = ans' k) -> good_go cs go ans -> good_go cs go ans'.
Proof.
  intros Ex (B1 & B2 & B3 & B4 & B5). split; [exact B1|]. split; [exact B2|]. split; [|split].
  - intros. rewrite <- Ex. eauto.
  - destruct (todo go); [exact B4|]. rewrite <- Ex. exact B4.
  - intros. rewrite <- Ex. auto.
Qed.
Lemma answers_app g k a b : answers g k (a ++ b) = answers g k a ++ answers g k b.
Proof. unfold answers. now rewrite filter_app, map_app. Qed.
Definition event_ok (calls : nat -> list call) (e : event) : Prop :=
  exists c, nth_error (calls (by_go e)) (in_call e) = Some c /\ source_of c = Some (of_reader e) /\
    0 < asked e /\ length (fst (answer e)) <= asked e.
Definition inv (calls : nat -> list call) (m : machine S) : Prop :=
  (forall g, good_go (calls g) (gos m g) (fun k => answers g k (reads m))) /\ Forall (event_ok calls) (reads m).
Lemma start_inv calls w : inv calls (start S calls w).
Proof.
  split; [|constructor]. intros g. unfold good_go. cbn. split; [lia|]. split; [reflexivity|]. split; [intros [|k] c o _ X; discriminate X|].
  split; [destruct (calls g); reflexivity|reflexivity].
Qed.
Lemma step_inv (ok : sources_ok S) calls m g : inv calls m -> inv calls (step S H G E D m g).
Proof.
  intros [B V]. unfold step. destruct (turn S H G E D (gos m g) (readers m)) as [[go w] ev] eqn:T.
  destruct (turn_good ok _ _ _ _ _ _ _ (B g) T) as [B' P]. split; cbn [gos reads].
  - intros h. destruct (Nat.eqb_spec h g) as [->|N].
    + refine (good_ext _ _ _ _ _ B'). intros k. rewrite answers_app. unfold extend.
      destruct ev as [[[i n] a]|]; cbn [added].
      * unfold answers at 4. cbn [filter by_go in_call]. rewrite Nat.eqb_refl. cbn [andb]. rewrite (Nat.eqb_sym k).
        destruct (Nat.eqb _ k); [reflexivity|cbn [map]; now rewrite app_nil_r].
      * change (answers g k []) with (@nil (bytes * option rerr)). rewrite app_nil_r. now destruct (Nat.eqb k _).
    + refine (good_ext _ _ _ _ _ (B h)). intros k. rewrite answers_app. destruct ev as [[[i n] a]|].
      * unfold answers at 3. cbn [filter by_go]. rewrite Nat.eqb_sym. destruct (Nat.eqb_spec h g); [contradiction|]. cbn. now rewrite app_nil_r.
      * symmetry. apply app_nil_r.
  - apply Forall_app. split; [exact V|]. destruct ev as [[[i n] a]|]; [|constructor]. constructor; [|constructor].
    exact (P i n a eq_refl).
Qed.
Lemma run_inv (ok : sources_ok S) calls s : forall m, inv calls m -> inv calls (fold_left (step S H G E D) s m).
Proof. induction s as [|g s IH]; intros m I; [exact I|]. cbn [fold_left]. apply IH, step_inv; assumption. Qed.
Lemma conc_inv (ok : sources_ok S) calls s w : inv calls (run_conc S H G E D s calls w).
Proof. apply run_inv; [exact ok|apply start_inv]. Qed.

Theorem outcomes : sources_ok S -> forall calls w s, let m := run_conc S H G E D s calls w in
  forall g k c o, nth_error (calls g) k = Some c -> nth_error (results (gos m g)) k = Some o ->
  exists w', do_call H G E D c (fun _ => answers g k (reads m)) = (o, w') /\
    (forall i, source_of c = Some i -> w' i = []) /\ (source_of c = None -> answers g k (reads m) = []).
Proof. intros ok calls w s m g k c o Hc Ho. destruct (conc_inv ok calls s w) as [B _]. destruct (B g) as (_ & _ & B3 & _). exact (B3 _ _ _ Hc Ho). Qed.
Theorem values : sources_ok S -> forall calls w s, let m := run_conc S H G E D s calls w in
  forall g k c o, nth_error (calls g) k = Some c -> nth_error (results (gos m g)) k = Some o ->
  let b := bytes_of (answers g k (reads m)) in
  seen o = meaning H G E D c b /\ length b <= need c /\
  (forall v, o = Value v -> length b = need c) /\ (forall e, o = ReadError e -> length b < need c).
Proof.
  intros ok calls w s m g k c o Hc Ho b. destruct (outcomes ok calls w s g k c o Hc Ho) as (w' & X & U & N). fold m in X, N.
  destruct (call_good H G E D c _ _ _ X) as (b' & (G1 & G2 & G3 & G4 & G5) & R).
  assert (b = b') as ->; [|repeat split; assumption].
  destruct (source_of c) as [j|] eqn:Sc.
  - specialize (R j). rewrite Nat.eqb_refl, (U j eq_refl), app_nil_r in R. exact R.
  - unfold b. rewrite (N eq_refl), (G2 eq_refl). reflexivity.
Qed.
Theorem in_order : sources_ok S -> forall calls w s, let m := run_conc S H G E D s calls w in
  forall g, length (results (gos m g)) <= length (calls g) /\ todo (gos m g) = skipn (length (results (gos m g))) (calls g).
Proof. intros ok calls w s m g. destruct (conc_inv ok calls s w) as [B _]. destruct (B g) as (B1 & B2 & _). auto. Qed.
Theorem own_reads : sources_ok S -> forall calls w s e, In e (reads (run_conc S H G E D s calls w)) ->
  exists c, nth_error (calls (by_go e)) (in_call e) = Some c /\ source_of c = Some (of_reader e) /\
    0 < asked e /\ length (fst (answer e)) <= asked e.
Proof. intros ok calls w s e I. destruct (conc_inv ok calls s w) as [_ V]. rewrite Forall_forall in V. exact (V e I). Qed.

(** ** Reads go through the readers one after the other *)
Lemma turn_read go w go' w' ev : turn S H G E D go w = (go', w', ev) ->
  (ev = None /\ w' = w) \/ exists i n c e, ev = Some (i, n, (c, e)) /\ sread S w i n = (c, e, w').
Proof.
  assert (R : forall want got p i, round S want got p i go w = (go', w', ev) ->
    (ev = None /\ w' = w) \/ exists i n c e, ev = Some (i, n, (c, e)) /\ sread S w i n = (c, e, w')).
  { intros want got p i. unfold round. destruct (sread S w i (want - length got)) as [[c e] w1] eqn:Rd. intros X. injection X as _ <- <-.
    right. exists i, (want - length got), c, e. split; [reflexivity|exact Rd]. }
  unfold turn. destruct (todo go) as [|c rest]; [intros X; injection X as _ <- <-; left; auto|].
  destruct (within go) as [[got|got|salt key got]|]; destruct c as [[e|]|? ? ?|? ? ? ?|? ? ? ?|? ? ?|? ? ? ?|? ? ?|? ? ?];
    cbv zeta; try (intros X; injection X as _ <- <-; left; auto; fail);
    match goal with |- context [if ?b then _ else _] => destruct b end; try apply R; intros X; injection X as _ <- <-; left; auto.
Qed.

Definition of_r (i : nat) (es : list event) : bytes :=
  concat (map (fun e => fst (answer e)) (filter (fun e => Nat.eqb (of_reader e) i) es)).
Definition placed (tape : nat -> nat -> Z) (p0 p1 : nat -> nat) (es : list event) (ps : list nat) : Prop :=
  length ps = length es /\
  (forall m e p, nth_error es m = Some e -> nth_error ps m = Some p ->
     fst (answer e) = map (tape (of_reader e)) (seq p (length (fst (answer e)))) /\
     p0 (of_reader e) <= p /\ p + length (fst (answer e)) <= p1 (of_reader e) /\
     forall m' e' p', m < m' -> nth_error es m' = Some e' -> nth_error ps m' = Some p' -> of_reader e' = of_reader e ->
       p + length (fst (answer e)) <= p') /\
  forall i, p0 i <= p1 i /\ of_r i es = map (tape i) (seq (p0 i) (p1 i - p0 i)).
Lemma nth_error_snoc {A} (l : list A) x k y : nth_error (l ++ [x]) k = Some y ->
  (k < length l /\ nth_error l k = Some y) \/ (k = length l /\ y = x).
Proof.
  intros N. destruct (Nat.lt_ge_cases k (length l)) as [L|L].
  - left. rewrite nth_error_app1 in N by exact L. auto.
  - right. rewrite nth_error_app2 in N by exact L. destruct (k - length l) as [|j] eqn:J; [|destruct j; discriminate N].
    cbn in N. split; [lia|congruence].
Qed.
Lemma step_placed tape pos (T : tapes S tape pos) p0 m g ps : placed tape p0 (pos (readers m)) (reads m) ps ->
  exists ps', placed tape p0 (pos (readers (step S H G E D m g))) (reads (step S H G E D m g)) ps'.
Proof.
  intros (L & P & C). unfold step. destruct (turn S H G E D (gos m g) (readers m)) as [[go w] ev] eqn:Tn. cbn [readers reads].
  destruct (turn_read _ _ _ _ _ Tn) as [[-> ->]|(i & n & c & e & -> & Rd)].
  - exists ps. rewrite app_nil_r. split; [exact L|split; [exact P|exact C]].
  - destruct (T _ _ _ _ _ _ Rd) as (Tc & Tp & To). set (ev := Event g (length (results (gos m g))) i n (c, e)).
    exists (ps ++ [pos (readers m) i]). split; [rewrite !app_length; cbn; lia|]. split.
    + intros k e1 p1 K1 K2. destruct (nth_error_snoc _ _ _ _ K1) as [[Lk K1']|[-> ->]]; destruct (nth_error_snoc _ _ _ _ K2) as [[Lk' K2']|[Ek E2]];
        try (exfalso; cbn in *; lia).
      * destruct (P _ _ _ K1' K2') as (Q1 & Q2 & Q3 & Q4). split; [exact Q1|]. split; [exact Q2|]. split.
        -- destruct (Nat.eq_dec (of_reader e1) i) as [Ei|Ni]; [rewrite Ei in *; lia|rewrite To by exact Ni; exact Q3].
        -- intros m' e' p' Lm J1 J2 Er. destruct (nth_error_snoc _ _ _ _ J1) as [[Lj J1']|[-> ->]]; destruct (nth_error_snoc _ _ _ _ J2) as [[Lj' J2']|[Ej E3]];
             try (exfalso; cbn in *; lia).
           ++ exact (Q4 _ _ _ Lm J1' J2' Er).
           ++ subst p'. cbn [of_reader ev] in Er. rewrite Er. exact Q3.
      * subst p1. cbn [answer of_reader ev fst]. split; [exact Tc|]. split; [apply C|]. split; [lia|].
        intros m' e' p' Lm J1 J2 Er. assert (nth_error (reads m ++ [ev]) m' = None) by (apply nth_error_None; rewrite app_length; cbn; lia). congruence.
    + intros j. destruct (C j) as [C1 C2]. unfold of_r. rewrite filter_app, map_app, concat_app. fold (of_r j (reads m)). rewrite C2.
      cbn [filter of_reader ev]. destruct (Nat.eqb_spec i j) as [<-|N].
      * cbn [map concat answer fst]. rewrite app_nil_r. split; [lia|]. rewrite Tp.
        replace (pos (readers m) i + length c - p0 i) with ((pos (readers m) i - p0 i) + length c) by lia.
        rewrite seq_app, map_app. f_equal. replace (p0 i + (pos (readers m) i - p0 i)) with (pos (readers m) i) by lia. exact Tc.
      * cbn [map concat]. rewrite app_nil_r, To by congruence. auto.
Qed.
Theorem stretches tape pos : tapes S tape pos -> forall calls w s, let m := run_conc S H G E D s calls w in
  exists ps, length ps = length (reads m) /\
  (forall a e p, nth_error (reads m) a = Some e -> nth_error ps a = Some p ->
     fst (answer e) = map (tape (of_reader e)) (seq p (length (fst (answer e)))) /\
     pos w (of_reader e) <= p /\ p + length (fst (answer e)) <= pos (readers m) (of_reader e) /\
     forall a' e' p', a < a' -> nth_error (reads m) a' = Some e' -> nth_error ps a' = Some p' -> of_reader e' = of_reader e ->
       p + length (fst (answer e)) <= p') /\
  forall i, pos w i <= pos (readers m) i /\
    concat (map (fun e => fst (answer e)) (filter (fun e => Nat.eqb (of_reader e) i) (reads m))) =
      map (tape i) (seq (pos w i) (pos (readers m) i - pos w i)).
Proof.
  intros T calls w s m. change (exists ps, placed tape (pos w) (pos (readers m)) (reads m) ps). unfold m, run_conc.
  assert (I : exists ps, placed tape (pos w) (pos (readers (start S calls w))) (reads (start S calls w)) ps).
  { exists []. split; [reflexivity|]. split; [intros [|a]; discriminate|]. intros i. cbn. rewrite Nat.sub_diag. auto. }
  revert I. generalize (start S calls w). induction s as [|g s IH]; intros m0 (ps & I); cbn [fold_left]; [exists ps; exact I|].
  apply IH. exact (step_placed tape pos T _ _ _ _ I).
Qed.

(** ** Every call returns *)
Definition left_in (c : call) (p : option place) : nat :=
  match p with
  | None => need c + 3
  | Some (Seed got) => 32 - length got + 1
  | Some (Salt got) => (need c - 16 - length got) + 18
  | Some (Iv _ _ got) => 16 - length got + 1
  end.
Definition left_go (go : goroutine) : nat :=
  match todo go with [] => 0 | c :: rest => left_in c (within go) + effort rest end.
Lemma left_start cs : left_go (Go cs None []) = effort cs.
Proof. destruct cs; reflexivity. Qed.
Lemma left_finish go c rest o : todo go = c :: rest -> left_go (finish go o) = effort rest.
Proof. intros T. unfold left_go, finish. cbn [todo within]. rewrite T. cbn [tl]. destruct rest; reflexivity. Qed.
Lemma round_left (lv : sources_lively S) go c rest want got p i w go' w' ev : todo go = c :: rest -> length got < want ->
  (forall b, length got < length b -> left_in c (Some (p b)) < left_in c (Some (p got))) ->
  0 < left_in c (Some (p got)) -> round S want got p i go w = (go', w', ev) -> left_go go' < left_in c (Some (p got)) + effort rest.
Proof.
  intros T L Lp Ps. unfold round. destruct (sread S w i (want - length got)) as [[ch e] w1] eqn:Rd. intros X.
  assert (Mv : forall b, length got < length b -> left_go (move go (p b)) < left_in c (Some (p got)) + effort rest).
  { intros b Lb. unfold left_go, move. cbn [todo within]. rewrite T. specialize (Lp b Lb). lia. }
  destruct e as [x|].
  - destruct (Nat.leb_spec want (length (got ++ ch))) as [Le|Lt]; injection X as <- _ _.
    + apply Mv. lia.
    + rewrite (left_finish _ _ _ _ T). lia.
  - injection X as <- _ _. apply Mv. rewrite app_length. assert (ch <> []) by (apply (lv w i (want - length got) ch w1); [lia|exact Rd]).
    destruct ch; [contradiction|cbn; lia].
Qed.
Lemma turn_left (lv : sources_lively S) cs go ans w go' w' ev : good_go cs go ans -> turn S H G E D go w = (go', w', ev) ->
  left_go go' <= left_go go - 1.
Proof.
  intros (_ & _ & _ & B4 & _). unfold turn. unfold left_go at 2. destruct (todo go) as [|c rest] eqn:T.
  { intros X. injection X as <- _ _. unfold left_go. rewrite T. lia. }
  destruct (within go) as [[got|got|salt key got]|]; cbn [inside] in B4.
  - destruct B4 as (e & -> & F). destruct (Nat.leb_spec 32 (length got)) as [Le|Lt]; intros X.
    + injection X as <- _ _. rewrite (left_finish _ _ _ _ T). cbn [left_in]. lia.
    + apply (round_left lv _ _ _ _ _ _ _ _ _ _ _ T) in X; [lia|exact Lt| |cbn [left_in]; lia]. intros b Lb. cbn [left_in]. lia.
  - destruct B4 as (s & r & e & m & -> & F). cbv zeta. assert (Nk : need (CEncrypt s r e m) = klen s r + 16) by reflexivity.
    fold (klen s r). destruct (Nat.leb_spec (klen s r) (length got)) as [Le|Lt]; intros X.
    + destruct (get_shared_key H G _ _ _ got) as [key|x|]; injection X as <- _ _; rewrite ?(left_finish _ _ _ _ T); cbn [left_in]; try lia.
      unfold left_go, move. cbn [todo within]. rewrite T. cbn [left_in length]. lia.
    + apply (round_left lv _ _ _ _ _ _ _ _ _ _ _ T) in X; [lia|exact Lt| |cbn [left_in]; lia]. intros b Lb. cbn [left_in]. rewrite Nk. lia.
  - destruct B4 as (s & r & e & m & l1 & l2 & -> & _). destruct (Nat.leb_spec 16 (length got)) as [Le|Lt]; intros X.
    + injection X as <- _ _. rewrite (left_finish _ _ _ _ T). cbn [left_in]. lia.
    + apply (round_left lv _ _ _ _ _ _ _ _ _ _ _ T) in X; [lia|exact Lt| |cbn [left_in]; lia]. intros b Lb. cbn [left_in]. lia.
  - assert (Pu : forall X : (finish go (fst (do_call H G E D c (fun _ => []))), w, None) = (go', w', ev),
      left_go go' <= left_in c None + effort rest - 1).
    { intros X. injection X as <- _ _. rewrite (left_finish _ _ _ _ T). cbn [left_in]. lia. }
    destruct c as [[e|]|priv pub e|s r e m|s r e m|kp e m|kp e m sg|kp e sg|kp e sg]; try exact Pu;
      intros X; injection X as <- _ _; unfold left_go, move; cbn [todo within]; rewrite T; cbn [left_in need length]; lia.
Qed.
Lemma step_left (ok : sources_ok S) (lv : sources_lively S) calls m g h : inv calls m ->
  left_go (gos (step S H G E D m h) g) <= left_go (gos m g) - (if Nat.eq_dec h g then 1 else 0).
Proof.
  intros [B _]. unfold step. destruct (turn S H G E D (gos m h) (readers m)) as [[go w] ev] eqn:T. cbn [gos].
  destruct (Nat.eqb_spec g h) as [->|N].
  - destruct (Nat.eq_dec h h); [|contradiction]. exact (turn_left lv _ _ _ _ _ _ _ (B h) T).
  - destruct (Nat.eq_dec h g); [congruence|lia].
Qed.
Lemma run_left (ok : sources_ok S) (lv : sources_lively S) calls g s : forall m, inv calls m ->
  left_go (gos (fold_left (step S H G E D) s m) g) <= left_go (gos m g) - turns s g.
Proof.
  induction s as [|h s IH]; intros m I; cbn [fold_left]; [unfold turns; cbn; lia|].
  pose proof (step_left ok lv calls m g h I). specialize (IH _ (step_inv ok calls m h I)). unfold turns in *. cbn [count_occ].
  destruct (Nat.eq_dec h g); lia.
Qed.
Lemma left_pos cs go ans : good_go cs go ans -> left_go go = 0 -> todo go = [].
Proof.
  intros _. unfold left_go. destruct (todo go) as [|c rest]; [reflexivity|]. intros L. exfalso.
  destruct (within go) as [[got|got|salt key got]|]; cbn [left_in] in L; lia.
Qed.
Theorem all_return : sources_ok S -> sources_lively S -> forall calls w s g, effort (calls g) <= turns s g ->
  let m := run_conc S H G E D s calls w in todo (gos m g) = [] /\ length (results (gos m g)) = length (calls g).
Proof.
  intros ok lv calls w s g L m. pose proof (conc_inv ok calls s w) as [B _]. fold m in B.
  assert (Z : left_go (gos m g) = 0).
  { pose proof (run_left ok lv calls g s _ (start_inv calls w)) as R. cbn [start gos] in R. rewrite left_start in R. unfold m, run_conc. lia. }
  pose proof (left_pos _ _ _ (B g) Z) as T. split; [exact T|]. destruct (B g) as (B1 & B2 & _). rewrite T in B2.
  assert (X : length (skipn (length (results (gos m g))) (calls g)) = 0) by (rewrite <- B2; reflexivity). rewrite skipn_length in X. lia.
Qed.

(** ** Separate readers *)
Section Separate.
Variable P : Type.
Variable part : sstate S -> nat -> P.
Hypothesis sep : separate S part.

(** two turns of one goroutine over readers that agree where it matters *)
Lemma turn_same go w1 w2 cs ans : good_go cs go ans -> (forall i, uses cs i -> part w1 i = part w2 i) ->
  forall go1 v1 e1 go2 v2 e2, turn S H G E D go w1 = (go1, v1, e1) -> turn S H G E D go w2 = (go2, v2, e2) ->
  go1 = go2 /\ e1 = e2 /\ forall i, uses cs i -> part v1 i = part v2 i.
Proof.
  intros (_ & B2 & _ & B4 & _) A go1 v1 e1 go2 v2 e2. unfold turn. destruct (todo go) as [|c rest] eqn:T.
  { intros X Y. injection X as <- <- <-. injection Y as <- <- <-. auto. }
  symmetry in B2. destruct (skipn_cons _ _ _ _ B2) as (N & _ & _).
  assert (U : forall i, source_of c = Some i -> uses cs i) by (intros i Hi; exists c; split; [exact (nth_error_In _ _ N)|exact Hi]).
  assert (R : forall want got p i, source_of c = Some i -> round S want got p i go w1 = (go1, v1, e1) ->
    round S want got p i go w2 = (go2, v2, e2) -> go1 = go2 /\ e1 = e2 /\ forall i, uses cs i -> part v1 i = part v2 i).
  { intros want got p i Hi. unfold round. destruct (sep w1 i (want - length got)) as [S1 S2].
    destruct (S1 w2 (A i (U i Hi))) as [S3 S4]. pose proof (proj2 (sep w2 i (want - length got))) as S5.
    destruct (sread S w1 i (want - length got)) as [[c1 x1] u1]. destruct (sread S w2 i (want - length got)) as [[c2 x2] u2].
    cbn [fst snd] in *. injection S3 as <- <-. intros X Y.
    assert (go1 = go2 /\ e1 = e2) as [-> ->] by (split; congruence). split; [reflexivity|]. split; [reflexivity|].
    assert (u1 = v1) as <- by congruence. assert (u2 = v2) as <- by congruence.
    intros j Uj. destruct (Nat.eq_dec j i) as [->|Nj]; [exact S4|]. rewrite S2, S5 by exact Nj. apply A. exact Uj. }
  assert (Q : forall a b, (a, w1, @None (nat * nat * (bytes * option rerr))) = (go1, v1, e1) -> (b, w2, None) = (go2, v2, e2) -> a = b ->
    go1 = go2 /\ e1 = e2 /\ forall i, uses cs i -> part v1 i = part v2 i).
  { intros a b X Y <-. injection X as <- <- <-. injection Y as <- <- <-. auto. }
  destruct (within go) as [[got|got|salt key got]|]; cbn [inside] in B4.
  - destruct B4 as (e & -> & F). destruct (Nat.leb 32 (length got)).
    + intros X Y. exact (Q _ _ X Y eq_refl).
    + apply R, src_generate.
  - destruct B4 as (s & r & e & m & -> & F). cbv zeta. destruct (Nat.leb _ (length got)).
    + intros X Y. exact (Q _ _ X Y eq_refl).
    + apply R, source_encrypt.
  - destruct B4 as (s & r & e & m & l1 & l2 & -> & _). destruct (Nat.leb 16 (length got)).
    + intros X Y. exact (Q _ _ X Y eq_refl).
    + apply R, source_encrypt.
  - destruct c as [[e|]|priv pub e|s r e m|s r e m|kp e m|kp e m sg|kp e sg|kp e sg]; intros X Y; exact (Q _ _ X Y eq_refl).
Qed.
(** the goroutine alone *)
Fixpoint solo (n : nat) (go : goroutine) (w : sstate S) : goroutine * sstate S :=
  match n with O => (go, w) | Datatypes.S n' => let '(go', w', _) := turn S H G E D go w in solo n' go' w' end.
Lemma alone (ok : sources_ok S) calls g (Ot : forall h, h <> g -> forall i, uses (calls g) i -> ~ uses (calls h) i) s :
  forall m v, inv calls m -> (forall i, uses (calls g) i -> part (readers m) i = part v i) ->
  gos (fold_left (step S H G E D) s m) g = fst (solo (turns s g) (gos m g) v).
Proof.
  induction s as [|h s IH]; intros m v I A; [reflexivity|]. cbn [fold_left]. unfold turns. cbn [count_occ].
  pose proof (step_inv ok calls m h I) as I'. destruct (Nat.eq_dec h g) as [->|N].
  - cbn [solo]. destruct (turn S H G E D (gos m g) (readers m)) as [[go1 v1] e1] eqn:T1.
    destruct (turn S H G E D (gos m g) v) as [[go2 v2] e2] eqn:T2.
    destruct (turn_same _ _ _ _ _ (proj1 I g) A _ _ _ _ _ _ T1 T2) as (E1 & E2 & A'). subst go2.
    assert (St : gos (step S H G E D m g) g = go1 /\ readers (step S H G E D m g) = v1).
    { unfold step. rewrite T1. cbn [gos readers]. rewrite Nat.eqb_refl. auto. }
    destruct St as [St1 St2]. rewrite (IH _ v2 I'); [|rewrite St2; exact A']. rewrite St1. reflexivity.
  - destruct (turn S H G E D (gos m h) (readers m)) as [[go1 v1] e1] eqn:T1.
    assert (St : gos (step S H G E D m h) g = gos m g /\ readers (step S H G E D m h) = v1).
    { unfold step. rewrite T1. cbn [gos readers]. destruct (Nat.eqb_spec g h); [congruence|auto]. }
    destruct St as [St1 St2]. rewrite (IH _ v I').
    + rewrite St1. reflexivity.
    + rewrite St2. intros i Ui. destruct (turn_read _ _ _ _ _ T1) as [[_ ->]|(j & n & c & e & -> & Rd)]; [exact (A i Ui)|].
      destruct (turn_good ok _ _ _ _ _ _ _ (proj1 I h) T1) as [_ Pr]. destruct (Pr _ _ _ eq_refl) as (c0 & C1 & C2 & _).
      assert (Nj : i <> j). { intros ->. apply (Ot h N j Ui). exists c0. split; [exact (nth_error_In _ _ C1)|exact C2]. }
      rewrite <- (A i Ui). pose proof (proj2 (sep (readers m) j n) i Nj) as X. rewrite Rd in X. exact X.
Qed.
End Separate.
Theorem undisturbed : sources_ok S -> forall P (part : sstate S -> nat -> P), separate S part ->
  forall calls1 calls2 g s1 s2 w1 w2,
  calls1 g = calls2 g -> turns s1 g = turns s2 g -> (forall i, uses (calls1 g) i -> part w1 i = part w2 i) ->
  (forall h, h <> g -> forall i, uses (calls1 g) i -> ~ uses (calls1 h) i /\ ~ uses (calls2 h) i) ->
  gos (run_conc S H G E D s1 calls1 w1) g = gos (run_conc S H G E D s2 calls2 w2) g.
Proof.
  intros ok P part sep calls1 calls2 g s1 s2 w1 w2 Ec Et Ep Ot. unfold run_conc.
  rewrite (alone P part sep ok calls1 g (fun h N i U => proj1 (Ot h N i U)) s1 (start S calls1 w1) w2); [|apply start_inv|exact Ep].
  rewrite (alone P part sep ok calls2 g) with (v := w2); [|..].
  - rewrite Et. cbn [start gos]. rewrite Ec. reflexivity.
  - intros h N i U. rewrite <- Ec in U. exact (proj2 (Ot h N i U)).
  - apply start_inv.
  - reflexivity.
Qed.
End Conc.

(** ** An example: two goroutines generate key pairs from crypto/rand.Reader, which hands out five bytes at a time *)
Definition ex_tape (i k : nat) : Z := (Z.of_nat (k + i) mod 256)%Z.
Definition five : sources := Sources (nat -> nat)
  (fun w i n => (map (ex_tape i) (seq (w i) (Nat.min n 5)), None, fun j => if Nat.eqb j i then w i + Nat.min n 5 else w j)).
Lemma five_ok : sources_ok five /\ sources_lively five /\ tapes five ex_tape (fun w => w) /\ separate five (fun w => w).
Proof.
  split; [|split; [|split]].
  - intros w i n c e w' X. cbn in X. injection X as <- _ _. rewrite map_length, seq_length. lia.
  - intros w i n c w' N X. cbn in X. injection X as <- _. destruct n; [lia|]. cbn. discriminate.
  - intros w i n c e w' X. cbn in X. injection X as <- _ <-. rewrite map_length, seq_length, Nat.eqb_refl. split; [reflexivity|].
    split; [reflexivity|]. intros j N. destruct (Nat.eqb_spec j i); [contradiction|reflexivity].
  - intros w i n. split.
    + intros w' Ew. cbn. rewrite Nat.eqb_refl, Ew. auto.
    + intros j N. cbn. destruct (Nat.eqb_spec j i); [contradiction|reflexivity].
Qed.
Definition ex_calls (g : nat) : list call := match g with 0 | 1 => [CGenerate (Some default_engine)] | _ => [] end.
Definition ex_schedule : list nat := concat (repeat [0; 1] 8).
Definition ex_seed (g : nat) : bytes := map Z.of_nat
  (concat (map (fun j => seq (10 * j + 5 * g) 5) (seq 0 6)) ++ seq (60 + 2 * g) 2).
Lemma ex_before : let m := run_conc five H7 G7 Ex Ex ex_schedule ex_calls (fun _ => 0) in
  gos m 0 = Go [CGenerate (Some default_engine)] (Some (Seed (ex_seed 0))) [] /\
  gos m 1 = Go [CGenerate (Some default_engine)] (Some (Seed (ex_seed 1))) [].
Proof. cbv zeta. split; lazy; reflexivity. Qed.
Lemma last_turn H (HH : hash_ok 64 H) S G E D go w e rest seed os : go = Go (CGenerate (Some e) :: rest) (Some (Seed seed)) os ->
  wf_bytes seed -> length seed = 32 -> turn S H G E D go w = (Go rest None (os ++ [Value (VPair (pair_of H seed))]), w, None).
Proof.
  intros -> W L. unfold turn. cbn [todo within]. rewrite L. change (Nat.leb 32 32) with true. cbv iota zeta.
  assert (X : (do publicKey <- derive_public_key H (new_private_key seed);
     new_key_pair H (Some (new_private_key seed)) (Some publicKey)) = Ok (pair_of H seed)).
  { rewrite (derive_ok H HH (new_private_key seed)) by exact W. cbn [bind new_key_pair].
    assert (K : is_key_compressed (public_key_of H (pk_raw (new_private_key seed))) = true).
    { unfold is_key_compressed. destruct (public_key_wf H (pk_raw (new_private_key seed))) as [_ ->]. reflexivity. }
    rewrite K. reflexivity. }
  rewrite X. reflexivity.
Qed.
Lemma step_at S H G E D m g go w : turn S H G E D (gos m g) (readers m) = (go, w, None) ->
  gos (step S H G E D m g) g = go /\ forall h, h <> g -> gos (step S H G E D m g) h = gos m h.
Proof.
  intros T. unfold step. rewrite T. cbn [gos]. rewrite Nat.eqb_refl. split; [reflexivity|]. intros h N.
  destruct (Nat.eqb_spec h g); [contradiction|reflexivity].
Qed.
Lemma wf_check b : forallb (fun z => (0 <=? z) && (z <? 256))%Z b = true -> wf_bytes b.
Proof.
  intros F. apply Forall_forall. intros z I. rewrite forallb_forall in F. specialize (F z I).
  apply andb_prop in F. unfold is_byte. lia.
Qed.
Lemma run_app S H G E D s t calls w :
  run_conc S H G E D (s ++ t) calls w = fold_left (step S H G E D) t (run_conc S H G E D s calls w).
Proof. apply fold_left_app. Qed.
Lemma ex_two : let m := run_conc five H7 G7 Ex Ex (ex_schedule ++ [1; 0]) ex_calls (fun _ => 0) in
  results (gos m 0) = [Value (VPair (pair_of H7 (ex_seed 0)))] /\ results (gos m 1) = [Value (VPair (pair_of H7 (ex_seed 1)))].
Proof.
  cbv zeta. rewrite run_app. destruct ex_before as [B0 B1]. revert B0 B1.
  generalize (run_conc five H7 G7 Ex Ex ex_schedule ex_calls (fun _ => 0)).
  intros m B0 B1. cbn [fold_left].
  assert (W : forall g, g < 2 -> wf_bytes (ex_seed g) /\ length (ex_seed g) = 32).
  { intros [|[|g]] L; [| |lia]; (split; [|reflexivity]); apply wf_check; reflexivity. }
  destruct (step_at _ _ _ _ _ m 1 _ _ (last_turn H7 H7_ok five G7 Ex Ex _ (readers m) _ _ _ _ B1 (proj1 (W 1 ltac:(lia))) (proj2 (W 1 ltac:(lia))))) as [S1 S2].
  revert S1 S2. generalize (step five H7 G7 Ex Ex m 1). intros m1 S1 S2.
  assert (B0' : gos m1 0 = Go [CGenerate (Some default_engine)] (Some (Seed (ex_seed 0))) []) by (rewrite S2 by lia; exact B0).
  destruct (step_at _ _ _ _ _ m1 0 _ _ (last_turn H7 H7_ok five G7 Ex Ex _ (readers m1) _ _ _ _ B0' (proj1 (W 0 ltac:(lia))) (proj2 (W 0 ltac:(lia))))) as [S3 S4].
  rewrite S3, (S4 1) by lia. rewrite S1. auto.
Qed.
