(** Model of the group layer of ed25519_encode.go: Ed25519GroupElement and
    Ed25519EncodedGroupElement.  No proofs here.

    Simplifications that hold for the whole file: the coordinates X, Y, Z are never nil pointers
    (every constructor call in the library passes addresses of values); T may be nil, as the
    constructors of AFFINE, P2 and PRECOMPUTED elements make it.  Field elements are never written
    after their creation, so pointers to them are modelled by their values.  The elements stored in
    precomputed tables carry no tables of their own (true of every element the code stores). *)
From Coq Require Import List ZArith Bool.
From Verif Require Import GoBase FieldModel Tables.
Import ListNotations.
Open Scope Z_scope.

(** [CoordinateSystem], ed25519_encode.go:1910-1926. *)
Inductive csys : Set := AFFINE | P2 | P3 | P1xP1 | PRECOMPUTED | CACHED.
Definition csys_eqb (a b : csys) : bool :=
  match a, b with
  | AFFINE, AFFINE | P2, P2 | P3, P3 | P1xP1, P1xP1 | PRECOMPUTED, PRECOMPUTED
  | CACHED, CACHED => true
  | _, _ => false
  end.

(** [Ed25519GroupElement] without its tables, ed25519_encode.go:2017-2033. *)
Record gcore : Set := G { g_cs : csys; gX : fe; gY : fe; gZ : fe; gT : option fe }.
(** ... and with them; [None] is a nil slice, [Some []] a non-nil empty one. *)
Record ge : Set := Ge { core : gcore; single : option (list (list gcore)); double : option (list gcore) }.

(** [NewEd25519GroupElement] and the five constructors, ed25519_encode.go:2036-2102. *)
Definition new_ge (c : gcore) : ge := Ge c None None.
Definition newP2 (x y z : fe) : gcore := G P2 x y z None.
Definition newP3 (x y z t : fe) : gcore := G P3 x y z (Some t).
Definition newP1xP1 (x y z t : fe) : gcore := G P1xP1 x y z (Some t).
Definition newPrecomputed (x y z : fe) : gcore := G PRECOMPUTED x y z None.
Definition newCached (x y z t : fe) : gcore := G CACHED x y z (Some t).

(** pointer dereference *)
Definition deref {A} (o : option A) : res A := match o with Some a => Ok a | None => Panic end.

(** [ZERO_P2], [ZERO_P3], [ZERO_PRECOMPUTED], ed25519_encode.go:1939-1949. *)
Definition zero_P2 : gcore := newP2 fe_zero fe_one fe_one.
Definition zero_P3 : gcore := newP3 fe_zero fe_one fe_one fe_zero.
Definition zero_precomputed : gcore := newPrecomputed fe_one fe_one fe_zero.

(** [toCoordinateSystem], ed25519_encode.go:2354-2419. *)
Definition to_cs (g : gcore) (n : csys) : res gcore :=
  match g_cs g, n with
  | P2, P2 => Ok (newP2 (gX g) (gY g) (gZ g))
  | P3, P2 => Ok (newP2 (gX g) (gY g) (gZ g))
  | P3, P3 => Ok (G P3 (gX g) (gY g) (gZ g) (gT g))
  | P3, CACHED =>
      let X := fe_add (gY g) (gX g) in
      let Y := fe_sub (gY g) (gX g) in
      do T <- deref (gT g);
      let t := fe_mul T go_d2 in
      Ok (newCached X Y (gZ g) t)
  | P1xP1, P2 =>
      do T <- deref (gT g);
      let x := fe_mul (gX g) T in
      let y := fe_mul (gY g) (gZ g) in
      let z := fe_mul (gZ g) T in
      Ok (newP2 x y z)
  | P1xP1, P3 =>
      do T <- deref (gT g);
      let x := fe_mul (gX g) T in
      let y := fe_mul (gY g) (gZ g) in
      let z := fe_mul (gZ g) T in
      let t := fe_mul (gX g) (gY g) in
      Ok (newP3 x y z t)
  | P1xP1, P1xP1 => Ok (G P1xP1 (gX g) (gY g) (gZ g) (gT g))
  | PRECOMPUTED, PRECOMPUTED => Ok (newPrecomputed (gX g) (gY g) (gZ g))
  | CACHED, CACHED => Ok (G CACHED (gX g) (gY g) (gZ g) (gT g))
  | _, _ => Panic
  end.
(** [toP2], [toP3], [toCached], ed25519_encode.go:2327-2343. *)
Definition to_P2 (g : gcore) : res gcore := to_cs g P2.
Definition to_P3 (g : gcore) : res gcore := to_cs g P3.
Definition to_cached (g : gcore) : res gcore := to_cs g CACHED.

(** [dbl], ed25519_encode.go:2563-2582. *)
Definition g_dbl (g : gcore) : res gcore :=
  match g_cs g with
  | P2 | P3 =>
      let XSquare := fe_sq (gX g) in
      let YSquare := fe_sq (gY g) in
      let B := fe_sq2 (gZ g) in
      let A := fe_add (gX g) (gY g) in
      let ASquare := fe_sq A in
      let YSquarePlusXSquare := fe_add YSquare XSquare in
      let YSquareMinusXSquare := fe_sub YSquare XSquare in
      let X := fe_sub ASquare YSquarePlusXSquare in
      let T := fe_sub B YSquareMinusXSquare in
      Ok (newP1xP1 X YSquarePlusXSquare YSquareMinusXSquare T)
  | _ => Panic
  end.

(** [precomputedAdd], ed25519_encode.go:2617-2649. *)
Definition g_precomputedAdd (r g : gcore) : res gcore :=
  if negb (csys_eqb (g_cs r) P3) then Err ErrUnsupported else
  if negb (csys_eqb (g_cs g) PRECOMPUTED) then Err ErrIllegalArgument else
  let YPlusX := fe_add (gY r) (gX r) in
  let YMinusX := fe_sub (gY r) (gX r) in
  let A := fe_mul YMinusX (gY g) in
  let B := fe_mul YPlusX (gX g) in
  do T <- deref (gT r);
  let C := fe_mul T (gZ g) in
  let D := fe_add (gZ r) (gZ r) in
  let x := fe_sub B A in
  let y := fe_add A B in
  let z := fe_add D C in
  let t := fe_sub D C in
  Ok (newP1xP1 x y z t).

(** [precomputedSubtract], ed25519_encode.go:2661-2683. *)
Definition g_precomputedSubtract (r g : gcore) : res gcore :=
  if negb (csys_eqb (g_cs r) P3) then Panic else
  if negb (csys_eqb (g_cs g) PRECOMPUTED) then Panic else
  let YPlusX := fe_add (gY r) (gX r) in
  let YMinusX := fe_sub (gY r) (gX r) in
  let A := fe_mul YPlusX (gY g) in
  let B := fe_mul YMinusX (gX g) in
  do T <- deref (gT r);
  let C := fe_mul (gZ g) T in
  let D := fe_add (gZ r) (gZ r) in
  let x := fe_sub A B in
  let y := fe_add A B in
  let z := fe_sub D C in
  let t := fe_add D C in
  Ok (newP1xP1 x y z t).

(** [add], ed25519_encode.go:2704-2733. *)
Definition g_add (r g : gcore) : res gcore :=
  if negb (csys_eqb (g_cs r) P3) then Panic else
  if negb (csys_eqb (g_cs g) CACHED) then Panic else
  let B := fe_mul (fe_add (gY r) (gX r)) (gX g) in
  let A := fe_mul (fe_sub (gY r) (gX r)) (gY g) in
  do Tg <- deref (gT g);
  do T <- deref (gT r);
  let C := fe_mul Tg T in
  let ZSquare := fe_mul (gZ r) (gZ g) in
  let D := fe_add ZSquare ZSquare in
  let x := fe_sub B A in
  let y := fe_add A B in
  let z := fe_add D C in
  let t := fe_sub D C in
  Ok (newP1xP1 x y z t).

(** [subtract], ed25519_encode.go:2743-2766. *)
Definition g_subtract (r g : gcore) : res gcore :=
  if negb (csys_eqb (g_cs r) P3) then Panic else
  if negb (csys_eqb (g_cs g) CACHED) then Panic else
  let YPlusX := fe_add (gY r) (gX r) in
  let YMinusX := fe_sub (gY r) (gX r) in
  let A := fe_mul YPlusX (gY g) in
  let B := fe_mul YMinusX (gX g) in
  do Tg <- deref (gT g);
  do T <- deref (gT r);
  let C := fe_mul Tg T in
  let ZSquare := fe_mul (gZ r) (gZ g) in
  let D := fe_add ZSquare ZSquare in
  let x := fe_sub A B in
  let y := fe_add A B in
  let z := fe_sub D C in
  let t := fe_add D C in
  Ok (newP1xP1 x y z t).

(** [negate], ed25519_encode.go:2770-2777. *)
Definition g_negate (r : gcore) : res gcore :=
  if negb (csys_eqb (g_cs r) P3) then Err ErrUnsupported else
  do c <- to_cached r;
  do s <- g_subtract zero_P3 c;
  to_P3 s.

(** the switch of [Equals] for operands of the same coordinate system, except P1xP1,
    ed25519_encode.go:2117-2149. *)
Definition eq_P2P3 (r g : gcore) : bool :=
  if fe_equals (gZ r) (gZ g) then fe_equals (gX r) (gX g) && fe_equals (gY r) (gY g)
  else
    let x1 := fe_mul (gX r) (gZ g) in
    let y1 := fe_mul (gY r) (gZ g) in
    let x2 := fe_mul (gX g) (gZ r) in
    let y2 := fe_mul (gY g) (gZ r) in
    fe_equals x1 x2 && fe_equals y1 y2.
Definition eq_cached (r g : gcore) : res bool :=
  if fe_equals (gZ r) (gZ g) then
    if fe_equals (gX r) (gX g) && fe_equals (gY r) (gY g) then
      do T <- deref (gT r);
      do Tg <- deref (gT g);
      Ok (fe_equals T Tg)
    else Ok false
  else
    let x3 := fe_mul (gX r) (gZ g) in
    let y3 := fe_mul (gY r) (gZ g) in
    do T <- deref (gT r);
    let t3 := fe_mul T (gZ g) in
    let x4 := fe_mul (gX g) (gZ r) in
    let y4 := fe_mul (gY g) (gZ r) in
    do Tg <- deref (gT g);
    let t4 := fe_mul Tg (gZ r) in
    Ok (fe_equals x3 x4 && fe_equals y3 y4 && fe_equals t3 t4).
(** the deferred recover() of ed25519_encode.go:2108-2114: a panic becomes the answer false *)
Definition recover_false (r : res bool) : res bool :=
  match r with Panic => Ok false | x => x end.
(** [Equals], ed25519_encode.go:2105-2150. *)
Definition g_equals (r g : gcore) : res bool :=
  if csys_eqb (g_cs r) (g_cs g) then
    match g_cs r with
    | P2 | P3 => Ok (eq_P2P3 r g)
    | P1xP1 =>            (* ref.toP2().Equals(ge): a P2 element against a P1xP1 element *)
        do r2 <- to_P2 r;
        recover_false (do g2 <- to_P2 g; Ok (eq_P2P3 r2 g2))
    | PRECOMPUTED =>
        Ok (fe_equals (gX r) (gX g) && fe_equals (gY r) (gY g) && fe_equals (gZ r) (gZ g))
    | CACHED => eq_cached r g
    | AFFINE => Panic
    end
  else
    recover_false (
      do g' <- to_cs g (g_cs r);
      match g_cs r with
      | P2 | P3 => Ok (eq_P2P3 r g')
      | P1xP1 => do r2 <- to_P2 r; do g2 <- to_P2 g'; Ok (eq_P2P3 r2 g2)
      | PRECOMPUTED =>
          Ok (fe_equals (gX r) (gX g') && fe_equals (gY r) (gY g') && fe_equals (gZ r) (gZ g'))
      | CACHED => eq_cached r g'
      | AFFINE => Panic
      end).

(** [NewEd25519EncodedGroupElement], ed25519_encode.go:1808-1815. *)
Definition new_ege (raw : bytes) : res bytes :=
  if Nat.eqb (length raw) 32 then Ok raw else Err ErrEncodedGroup.
(** [s[len(s)-1] |= 0x80] or [|= 0], ed25519_encode.go:2316-2320. *)
Definition set_sign (neg : bool) (s : bytes) : bytes :=
  firstn (length s - 1) s ++ [Z.lor (byte_at s (length s - 1)) (if neg then 128 else 0)].
(** [Encode] of P2 and P3 elements, ed25519_encode.go:2311-2321. *)
Definition g_encode_proj (g : gcore) : res bytes :=
  let inverse := fe_invert (gZ g) in
  let x := fe_mul (gX g) inverse in
  let y := fe_mul (gY g) inverse in
  let s := fe_encode y in
  new_ege (set_sign (fe_is_negative x) s).
(** [Encode], ed25519_encode.go:2308-2325. *)
Definition g_encode (g : gcore) : res bytes :=
  match g_cs g with
  | P2 | P3 => g_encode_proj g
  | _ => do g2 <- to_P2 g; g_encode_proj g2
  end.

(** [SatisfiesCurveEquation], ed25519_encode.go:2884-2898. *)
Definition g_on_curve_proj (g : gcore) : bool :=
  let inverse := fe_invert (gZ g) in
  let x := fe_mul (gX g) inverse in
  let y := fe_mul (gY g) inverse in
  let xSquare := fe_sq x in
  let ySquare := fe_sq y in
  let dXSquareYSquare := fe_mul (fe_mul go_d xSquare) ySquare in
  beq_bytes (fe_encode (fe_add (fe_add fe_one dXSquareYSquare) xSquare)) (fe_encode ySquare).
Definition g_satisfies (g : gcore) : res bool :=
  match g_cs g with
  | P2 | P3 => Ok (g_on_curve_proj g)
  | _ => do g2 <- to_P2 g; Ok (g_on_curve_proj g2)
  end.

(** the hex string of ed25519_encode.go:56 decoded: the bytes of I *)
Definition i_bytes : bytes :=
  [0xb0; 0xa0; 0x0e; 0x4a; 0x27; 0x1b; 0xee; 0xc4; 0x78; 0xe4; 0x2f; 0xad; 0x06; 0x18; 0x43; 0x2f;
   0xa7; 0xd7; 0xfb; 0x3d; 0x99; 0x00; 0x4d; 0x2b; 0x0b; 0xdf; 0xc1; 0x4f; 0x80; 0x24; 0x83; 0x2b].
(** [Ed25519Field.I], ed25519_encode.go:110-111. *)
Definition fe_I : fe := fe_decode32 i_bytes.

(** [utils.GetBitToBool(raw, 255)] (contract: bit 255 of the little endian bit string). *)
Definition bit255 (raw : bytes) : bool := Z.testbit (byte_at raw 31) 7.

(** [GetAffineY], ed25519_encode.go:1877-1887. *)
Definition affine_y (raw : bytes) : res fe :=
  do e <- new_efe raw; fe_decode e.
(** [GetAffineX], ed25519_encode.go:1842-1870. *)
Definition affine_x (raw : bytes) : res fe :=
  do y <- affine_y raw;
  let ySquare := fe_sq y in
  let u := fe_sub ySquare fe_one in
  let v := fe_add (fe_mul ySquare go_d) fe_one in
  let x := fe_sqrt u v in
  let vxSquare := fe_mul (fe_sq x) v in
  let checkForZero := fe_sub vxSquare u in
  do x <- (if fe_is_nonzero checkForZero then
             let checkForZero := fe_add vxSquare u in
             if fe_is_nonzero checkForZero then Err ErrNotOnCurve
             else Ok (fe_mul x fe_I)
           else Ok x);
  Ok (if xorb (fe_is_negative x) (bit255 raw) then fe_neg x else x).
(** [Ed25519EncodedGroupElement.Decode], ed25519_encode.go:1818-1831. *)
Definition g_decode (raw : bytes) : res gcore :=
  do x <- affine_x raw;
  do y <- affine_y raw;
  let t := fe_mul x y in
  Ok (newP3 x y fe_one t).

(** [getBasePoint], ed25519_encode.go:1982-2002; [ed25519GroupBasePoint] is "58" followed by
    thirty-one times "66". *)
Definition base_bytes : bytes := 0x58 :: repeat 0x66 31.
Definition of_triple (t : fe * fe * fe) : gcore :=
  let '(x, y, z) := t in newPrecomputed x y z.
Definition base_single : list (list gcore) := map (map of_triple) base_prec_single.
Definition base_double : list gcore := map of_triple base_prec_double.
Definition get_base_point : res ge :=
  do raw <- new_ege base_bytes;
  do c <- g_decode raw;
  Ok (Ge c (Some base_single) (Some base_double)).

(** [copy], ed25519_encode.go:2422-2444: nil tables become empty non-nil ones.  A row is copied
    into a slice of length 8 (a longer row panics; shorter rows do not occur and would be filled
    with nil, which is not modelled). *)
Definition copy_row (row : list gcore) : res (list gcore) :=
  if Nat.ltb 8 (length row) then Panic else Ok row.
Fixpoint copy_rows (rows : list (list gcore)) : res (list (list gcore)) :=
  match rows with
  | [] => Ok []
  | r :: rs => do r' <- copy_row r; do rs' <- copy_rows rs; Ok (r' :: rs')
  end.
Definition g_copy (g : ge) : res ge :=
  do s <- copy_rows (match single g with Some t => t | None => [] end);
  Ok (Ge (core g) (Some s) (Some (match double g with Some t => t | None => [] end))).

(** one entry of a precomputed table, ed25519_encode.go:2459-2466 and 2488-2495. *)
Definition prec_entry (b : gcore) : gcore :=
  let inverse := fe_invert (gZ b) in
  let x := fe_mul (gX b) inverse in
  let y := fe_mul (gY b) inverse in
  let X := fe_add y x in
  let Y := fe_sub y x in
  let Z := fe_mul (fe_mul x y) go_d2 in
  newPrecomputed X Y Z.
(** [a.add(b.toCached()).toP3()]. *)
Definition add_P3 (a b : gcore) : res gcore :=
  do c <- to_cached b;
  do s <- g_add a c;
  to_P3 s.
(** the loop over j, ed25519_encode.go:2458-2468. *)
Fixpoint prec_row (n : nat) (Bi Bij : gcore) : res (list gcore) :=
  match n with
  | O => Ok []
  | S k =>
      let e := prec_entry Bij in
      do Bij' <- add_P3 Bij Bi;
      do r <- prec_row k Bi Bij';
      Ok (e :: r)
  end.
(** the loop over k, ed25519_encode.go:2470-2472. *)
Fixpoint dbl_n (n : nat) (Bi : gcore) : res gcore :=
  match n with
  | O => Ok Bi
  | S k => do B' <- add_P3 Bi Bi; dbl_n k B'
  end.
(** the loop over i, ed25519_encode.go:2455-2474. *)
Fixpoint prec_rows (n : nat) (Bi : gcore) : res (list (list gcore)) :=
  match n with
  | O => Ok []
  | S k =>
      do row <- prec_row 8 Bi Bi;
      do Bi' <- dbl_n 8 Bi;
      do rs <- prec_rows k Bi';
      Ok (row :: rs)
  end.
(** [PrecomputeForScalarMultiplication], ed25519_encode.go:2447-2476; returns the updated
    receiver.  (The inner copies of the receiver differ from it only in their tables, which the
    loops do not read; the copy itself can panic on a malformed table.) *)
Definition g_precompute_single (g : ge) : res ge :=
  match single g with
  | Some _ => Ok g
  | None =>
      do b <- g_copy g;
      do rows <- prec_rows 32 (core b);
      Ok (Ge (core g) (Some rows) (double g))
  end.
(** the loop of [PrecomputeForDoubleScalarMultiplication], ed25519_encode.go:2487-2497. *)
Fixpoint prec_double_loop (n : nat) (r Bi : gcore) : res (list gcore) :=
  match n with
  | O => Ok []
  | S k =>
      let e := prec_entry Bi in
      do s <- add_P3 r Bi;
      do Bi' <- add_P3 r s;
      do l <- prec_double_loop k r Bi';
      Ok (e :: l)
  end.
(** [PrecomputeForDoubleScalarMultiplication], ed25519_encode.go:2479-2498. *)
Definition g_precompute_double (g : ge) : res ge :=
  match double g with
  | Some (_ :: _) => Ok g
  | _ =>
      do b <- g_copy g;
      do l <- prec_double_loop 8 (core g) (core b);
      Ok (Ge (core g) (single g) (Some l))
  end.
(** [IsPrecomputedForDoubleScalarMultiplication], ed25519_encode.go:2301-2304. *)
Definition g_is_precomputed_double (g : ge) : bool :=
  match double g with None => false | Some _ => true end.

(** [isNegativeConstantTime], crypto.go:74-76. *)
Definition is_negative_ct (b : Z) : Z := Z.land (Z.shiftr b 8) 1.
(** [isConstantTimeByteEq], crypto.go:78-87. *)
Definition is_byte_eq_ct (b c : Z) : Z :=
  let xor := Z.lxor b c in
  let result := fold_left (fun r i => Z.lor r (Z.shiftr xor (Z.of_nat i))) (seq 0 8) 0 in
  Z.land (Z.lxor result 1) 1.
(** [cmov], ed25519_encode.go:2783-2791. *)
Definition g_cmov (r u : gcore) (b : Z) : res gcore :=
  if b =? 1 then Ok u else if b =? 0 then Ok r else Err ErrCmov.

(** the loop of [Select], ed25519_encode.go:2518-2526 ([i] counts from 0). *)
Fixpoint select_loop (bAbs : Z) (i : Z) (row : list gcore) (t : gcore) : res gcore :=
  match row with
  | [] => Ok t
  | el :: r => do t' <- g_cmov t el (is_byte_eq_ct bAbs (i + 1)); select_loop bAbs (i + 1) r t'
  end.
(** [Select], ed25519_encode.go:2510-2533. *)
Definition g_select (g : ge) (pos : nat) (b : Z) : res gcore :=
  let bNegative := is_negative_ct b in
  let bAbs := b - Z.shiftl (Z.land (- bNegative) b) 1 in
  match single g with
  | None => Panic
  | Some rows =>
      match nth_error rows pos with
      | None => Panic
      | Some row =>
          do t <- select_loop bAbs 0 row zero_precomputed;
          let z := fe_neg (gZ t) in
          let tMinus := newPrecomputed (gY t) (gX t) z in
          g_cmov t tMinus bNegative
      end
  end.

(** [toRadix16], ed25519_encode.go:2156-2178. *)
Definition nibbles (b : Z) : list Z :=
  [Z.land (w8 b) 15; Z.land (Z.shiftr (w8 b) 4) 15].
Fixpoint radix_carry (carry : Z) (e : list Z) : list Z :=
  match e with
  | [] => []
  | [x] => [w8 (x + w8 carry)]
  | x :: r =>
      let x := w8 (x + w8 carry) in
      let carry := Z.shiftr (x + 8) 4 in
      w8 (x - w8 (w8 carry * 16)) :: radix_carry carry r
  end.
Definition to_radix16 (a : bytes) : res (list Z) :=
  if Nat.ltb (length a) 32 then Panic
  else Ok (radix_carry 0 (flat_map nibbles (firstn 32 a))).

(** one step [h = h.precomputedAdd(g).toP3()], ed25519_encode.go:2806-2814 and 2819-2827. *)
Definition sm_step (g : ge) (e : list Z) (i : nat) (h : gcore) : res gcore :=
  do s <- g_select g (i / 2) (nth i e 0);
  do t <- g_precomputedAdd h s;
  to_P3 t.
Fixpoint sm_loop (g : ge) (e : list Z) (is : list nat) (h : gcore) : res gcore :=
  match is with
  | [] => Ok h
  | i :: r => do h' <- sm_step g e i h; sm_loop g e r h'
  end.
(** [scalarMultiply], ed25519_encode.go:2801-2830. *)
Definition g_scalarMultiply (g : ge) (a : bytes) : res gcore :=
  do e <- to_radix16 a;
  do h <- sm_loop g e (map (fun k => 2 * k + 1)%nat (seq 0 32)) zero_P3;
  do d1 <- g_dbl h; do h1 <- to_P2 d1;
  do d2 <- g_dbl h1; do h2 <- to_P2 d2;
  do d3 <- g_dbl h2; do h3 <- to_P2 d3;
  do d4 <- g_dbl h3; do h4 <- to_P3 d4;
  sm_loop g e (map (fun k => 2 * k)%nat (seq 0 32)) h4.

(** [slide], ed25519_encode.go:2201-2243.  The loops over i, b and k work on the slice r[i:]: the
    element r[i] and the list of the elements after it. *)
Definition slide_bit (a : bytes) (i : nat) : Z :=
  Z.land 1 (Z.shiftr (w8 (byte_at a (i / 8))) (Z.of_nat (i mod 8))).
Fixpoint upd (l : list Z) (k : nat) (v : Z) : list Z :=
  match l, k with
  | [], _ => []
  | _ :: r, O => v :: r
  | x :: r, S k' => x :: upd r k' v
  end.
(** [for k := ib; k < 256; k++ { if r[k] == 0 { r[k] = 1; break }; r[k] = 0 }] *)
Fixpoint carry_from (l : list Z) (k : nat) : list Z :=
  match l, k with
  | [], _ => []
  | x :: r, O => if x =? 0 then 1 :: r else 0 :: carry_from r O
  | x :: r, S k' => x :: carry_from r k'
  end.
Definition shl8 (x : Z) (b : nat) : Z := w8 (x * 2 ^ Z.of_nat b).
(** the loop over b: [n] iterations left *)
Fixpoint slide_inner (n b : nat) (x : Z) (r : list Z) : Z * list Z :=
  match n with
  | O => (x, r)
  | S n' =>
      match nth_error r (b - 1) with
      | None => (x, r)
      | Some d =>
          if d =? 0 then slide_inner n' (b + 1) x r
          else if w8 (x + shl8 d b) <=? 15 then
            slide_inner n' (b + 1) (w8 (x + shl8 d b)) (upd r (b - 1) 0)
          else if -15 <=? w8 (x - shl8 d b) then
            slide_inner n' (b + 1) (w8 (x - shl8 d b)) (carry_from r (b - 1))
          else (x, r)
      end
  end.
Fixpoint slide_loop (n : nat) (l : list Z) : list Z :=
  match n, l with
  | S n', x :: r =>
      if x =? 0 then x :: slide_loop n' r
      else let '(x', r') := slide_inner 6 1 x r in x' :: slide_loop n' r'
  | _, _ => l
  end.
Definition slide (a : bytes) : res (list Z) :=
  if Nat.ltb (length a) 32 then Panic
  else Ok (slide_loop 256 (map (slide_bit a) (seq 0 256))).

(** indexing a table with an int8 *)
Definition tab_at (t : option (list gcore)) (i : Z) : res gcore :=
  match t with
  | None => Panic
  | Some l => if i <? 0 then Panic
              else match nth_error l (Z.to_nat i) with Some e => Ok e | None => Panic end
  end.
(** one iteration of the loop of doubleScalarMultiplyVariableTime, ed25519_encode.go:2851-2875. *)
Definition dsm_step (B A : ge) (ai bi : Z) (r : gcore) : res gcore :=
  do t <- g_dbl r;
  do t <- (if 0 <? ai then
             do t3 <- to_P3 t; do e <- tab_at (double A) (Z.quot ai 2); g_precomputedSubtract t3 e
           else if ai <? 0 then
             do t3 <- to_P3 t; do e <- tab_at (double A) (Z.quot (w8 (- ai)) 2); g_precomputedAdd t3 e
           else Ok t);
  do t <- (if 0 <? bi then
             do t3 <- to_P3 t; do e <- tab_at (double B) (Z.quot bi 2); g_precomputedAdd t3 e
           else if bi <? 0 then
             do t3 <- to_P3 t; do e <- tab_at (double B) (Z.quot (w8 (- bi)) 2); g_precomputedSubtract t3 e
           else Ok t);
  to_P2 t.
(** the loop, over the digits from index 255 down to 0 *)
Fixpoint dsm_loop (B A : ge) (ds : list (Z * Z)) (flag : bool) (r : gcore) : res gcore :=
  match ds with
  | [] => Ok r
  | (ai, bi) :: ds' =>
      let flag := flag || negb (ai =? 0) || negb (bi =? 0) in
      do r' <- (if flag then dsm_step B A ai bi r else Ok r);
      dsm_loop B A ds' flag r'
  end.
(** [doubleScalarMultiplyVariableTime], ed25519_encode.go:2842-2880: r = b * B - a * A. *)
Definition g_doubleScalarMultiply (B A : ge) (a b : bytes) : res gcore :=
  do aSlide <- slide a;
  do bSlide <- slide b;
  dsm_loop B A (rev (combine aSlide bSlide)) false zero_P2.
