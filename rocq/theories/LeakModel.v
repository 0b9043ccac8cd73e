(** What the code that handles secrets shows in its control flow and table accesses.

    The functions of [GroupModel] and [ApiModel] once more, each with the list of conditions it
    evaluates (in [if], [switch], [&&]), lengths it tests and rows of tables it takes, in order.
    Straight-line arithmetic (field and scalar arithmetic, toRadix16, the loops with constant bounds
    in them) evaluates no condition.  Inside the hash functions only the lengths of the inputs
    decide, and they are in the list.  That the results are those of the other models is proved
    (C60). *)
From Coq Require Import List ZArith Bool.
From Verif Require Import GoBase FieldModel FieldSpec GroupModel ScalarModel ApiModel.
Import ListNotations.
Open Scope Z_scope.

(** where a condition is: in cmov (ed25519_encode.go:2785, 2787) or elsewhere *)
Inductive site : Set := InCmov | Elsewhere.
Inductive event : Set :=
| Cond (s : site) (c : bool)       (* the outcome of a condition *)
| Switch (c : csys)                (* switch or comparison on a coordinate system *)
| Len (n : nat)                    (* a length that decides *)
| Row (pos : nat).                 (* index into precomputedForSingle *)
Definition leak (A : Type) : Type := (list event * res A)%type.
Definition say {A} (t : list event) (r : res A) : leak A := (t, r).
Definition lbind {A B} (x : leak A) (f : A -> leak B) : leak B :=
  match x with
  | (t, Ok a) => let '(t', r) := f a in (t ++ t', r)
  | (t, Err e) => (t, Err e)
  | (t, Panic) => (t, Panic)
  end.
Notation "'let!' x := e 'in' f" := (lbind e (fun x => f))
  (at level 200, x name, e at level 100, f at level 200, right associativity).
(** the caller's [if err != nil] after a call *)
Definition checked {A} (x : leak A) : leak A :=
  match x with
  | (t, Ok a) => (t ++ [Cond Elsewhere false], Ok a)
  | (t, Err e) => (t ++ [Cond Elsewhere true], Err e)
  | (t, Panic) => (t, Panic)
  end.
(** the caller's [if err != nil { panic(err) }] *)
Definition must {A} (x : leak A) : leak A := (fst (checked x), unwrap (snd x)).

(** [cmov], ed25519_encode.go:2783-2791. *)
Definition l_cmov (t u : gcore) (b : Z) : leak gcore :=
  if b =? 1 then say [Cond InCmov true] (Ok u)
  else if b =? 0 then say [Cond InCmov false; Cond InCmov true] (Ok t)
  else say [Cond InCmov false; Cond InCmov false] (Err ErrCmov).
(** the loop of [Select], ed25519_encode.go:2518-2526; tt is never nil without error. *)
Fixpoint l_select_loop (bAbs i : Z) (row : list gcore) (t : gcore) : leak gcore :=
  match row with
  | [] => say [] (Ok t)
  | el :: r =>
      let! tt := checked (l_cmov t el (is_byte_eq_ct bAbs (i + 1))) in
      let! t' := say [Cond Elsewhere false] (Ok tt) in
      l_select_loop bAbs (i + 1) r t'
  end.
(** [Select], ed25519_encode.go:2510-2533. *)
Definition l_select (g : ge) (pos : nat) (b : Z) : leak gcore :=
  let bNegative := is_negative_ct b in
  let bAbs := b - Z.shiftl (Z.land (- bNegative) b) 1 in
  match single g with
  | None => say [Row pos] Panic
  | Some rows =>
      match nth_error rows pos with
      | None => say [Row pos] Panic
      | Some row =>
          let! row := say [Row pos] (Ok row) in
          let! t := l_select_loop bAbs 0 row zero_precomputed in
          l_cmov t (newPrecomputed (gY t) (gX t) (fe_neg (gZ t))) bNegative
      end
  end.
(** [precomputedAdd], ed25519_encode.go:2617-2649. *)
Definition l_precomputedAdd (r g : gcore) : leak gcore :=
  say (if csys_eqb (g_cs r) P3 then [Switch (g_cs r); Switch (g_cs g)] else [Switch (g_cs r)]) (g_precomputedAdd r g).
(** [toCoordinateSystem], ed25519_encode.go:2354-2419; [dbl], :2563-2582. *)
Definition l_to_cs (g : gcore) (c : csys) : leak gcore := say [Switch (g_cs g); Switch c] (to_cs g c).
Definition l_dbl (g : gcore) : leak gcore := say [Switch (g_cs g)] (g_dbl g).
(** one round of the loops of scalarMultiply, ed25519_encode.go:2806-2814 and 2819-2827. *)
Definition l_sm_step (g : ge) (e : list Z) (i : nat) (h : gcore) : leak gcore :=
  let! s := checked (l_select g (i / 2) (nth i e 0)) in
  let! t := checked (l_precomputedAdd h s) in
  l_to_cs t P3.
Fixpoint l_sm_loop (g : ge) (e : list Z) (is : list nat) (h : gcore) : leak gcore :=
  match is with
  | [] => say [] (Ok h)
  | i :: r => let! h' := l_sm_step g e i h in l_sm_loop g e r h'
  end.
(** [scalarMultiply], ed25519_encode.go:2801-2830. *)
Definition l_scalarMultiply (g : ge) (a : bytes) : leak gcore :=
  let! e := say [] (to_radix16 a) in
  let! h := l_sm_loop g e (map (fun k => 2 * k + 1)%nat (seq 0 32)) zero_P3 in
  let! d1 := l_dbl h in let! h1 := l_to_cs d1 P2 in
  let! d2 := l_dbl h1 in let! h2 := l_to_cs d2 P2 in
  let! d3 := l_dbl h2 in let! h3 := l_to_cs d3 P2 in
  let! d4 := l_dbl h3 in let! h4 := l_to_cs d4 P3 in
  l_sm_loop g e (map (fun k => 2 * k)%nat (seq 0 32)) h4.
(** [NewEd25519EncodedGroupElement], ed25519_encode.go:1808-1815; [NewEd25519EncodedFieldElement], :931-940. *)
Definition l_new_ege (raw : bytes) : leak bytes := say [Len (length raw)] (new_ege raw).
Definition l_new_efe (raw : bytes) : leak bytes := say [Len (length raw)] (new_efe raw).
(** [Encode], ed25519_encode.go:2308-2325: the condition is the parity of x. *)
Definition l_encode_proj (g : gcore) : leak bytes :=
  let inverse := fe_invert (gZ g) in
  let x := fe_mul (gX g) inverse in
  let y := fe_mul (gY g) inverse in
  let! s := say [Cond Elsewhere (fe_is_negative x)] (Ok (set_sign (fe_is_negative x) (fe_encode y))) in
  l_new_ege s.
Definition l_encode (g : gcore) : leak bytes :=
  let! g := say [Switch (g_cs g)] (Ok g) in
  match g_cs g with
  | P2 | P3 => l_encode_proj g
  | _ => let! g2 := l_to_cs g P2 in let! g2 := say [Switch (g_cs g2)] (Ok g2) in l_encode_proj g2
  end.
(** [Ed25519Group.BASE_POINT()], ed25519_encode.go:1935-1937: lengths of the tables (no secret). *)
Definition l_base_point : leak ge := say [] base_point.
(** [IsCanonicalSignature], ed25519_model.go:325-329. *)
Definition l_is_canonical (s : signature) : leak bool :=
  let sgnS := uint64_of (get_S s) in
  if negb (sgnS =? uint64_of q25519) then say [Cond Elsewhere true; Cond Elsewhere (0 <? sgnS)] (Ok (0 <? sgnS))
  else say [Cond Elsewhere false] (Ok false).
(** [NewSignature], signature.go:29-35. *)
Definition l_new_signature (r s : bytes) : leak signature := say [Len (length r); Len (length s)] (new_signature r s).

Section Api.
Variable H512 : list bytes -> bytes.
Variable H256 : bytes -> bytes.
(** [HashesSha3_512], crypto.go:49-61 *)
Definition l_hash (parts : list bytes) : leak bytes := say (map (fun p => Len (length p)) parts) (Ok (H512 parts)).
(** [PrepareForScalarMultiply], ed25519_encode.go:18-29. *)
Definition l_prepare (k : privkey) : leak bytes := say [Len (length (pk_raw k))] (prepare_for_scalar_multiply H512 k).
(** [DerivePublicKey], ed25519_model.go:374-384: the error of Encode is not tested (an error would
    be a nil dereference). *)
Definition l_derive (k : privkey) : leak bytes :=
  let! a := l_prepare k in
  let! B := l_base_point in
  let! pubKey := must (l_scalarMultiply B a) in
  let r := l_encode pubKey in (fst r, unwrap (snd r)).
(** [Sign], ed25519_model.go:206-266. *)
Definition l_sign (kp : keypair) (mess : bytes) : leak signature :=
  let! k := (if negb (has_private_key kp) then say [Cond Elsewhere true] (Err ErrNoPrivateKey)
             else say [Cond Elsewhere false] (deref (kp_priv kp))) in
  let! hash := checked (l_hash [pk_raw k]) in
  let! second := say [] (if Nat.ltb (length hash) 32 then Panic else Ok (skipn 32 hash)) in
  let! hashR := checked (l_hash [second; mess]) in
  let! r := checked (l_new_efe hashR) in
  let! rModQ := say [] (sc_modQ r) in
  let! B := l_base_point in
  let! R := checked (l_scalarMultiply B rModQ) in
  let! encodedR := checked (l_encode R) in
  let! hashH := checked (l_hash [encodedR; kp_pub kp; mess]) in
  let! h := checked (l_new_efe hashH) in
  let! hModQ := say [] (sc_modQ h) in
  let! a := l_prepare k in
  let! encodedS := say [] (sc_mulAdd hModQ a rModQ) in
  let! sg := checked (l_new_signature encodedR encodedS) in
  let! canonical := l_is_canonical sg in
  if negb canonical then say [Cond Elsewhere true] (Err ErrNotCanonical) else say [Cond Elsewhere false] (Ok sg).
(** [GetSharedKey], ed25519_model.go:120-144.  What happens while the other's public key is decoded and
    its table is made depends on that key only and is not listed. *)
Definition l_get_shared_key (n : nat) (priv : option privkey) (pub salt : bytes) : leak bytes :=
  let! grA := say [] (new_ege pub) in
  let! c := say [] (g_decode grA) in
  let! senderA := say [] (g_precompute_single (new_ge c)) in
  let! k := say [] (deref priv) in
  let! a := l_prepare k in
  let! el := checked (l_scalarMultiply senderA a) in
  let! sharedKey := checked (l_encode el) in
  let! x := say [] (xor_prefix n sharedKey salt) in
  say [Len (length x)] (Ok (H256 x)).
End Api.
