(** Model of math.go: [MathUtils], the exported reference arithmetic on math/big integers.

    A [big.Int] is its value (an integer), with one exception: [XMulY_Plus_ZMulT_DelD] takes a
    [big.Int] by value, so the copy shares its digit array with the original.  There the digit
    array is modelled explicitly (section Sharing).
    Contract of math/big (Go 1.12, the version of go.mod): [Mod] is Euclidean; [ModInverse(g, n)] is
    the inverse in [0, n), or nil if there is none, and a nil operand panics; [Exp] is the power;
    reuse of digit arrays is that of nat.mul, nat.mulAddWW, nat.add, nat.set, nat.make, nat.div. *)
From Coq Require Import List ZArith Bool.
From Verif Require Import GoBase FieldModel FieldSpec Fp GroupModel ApiModel.
Import ListNotations.
Open Scope Z_scope.

(** [Ed25519Field.P], ed25519_encode.go:96-101; the integers 0 and 1 are those of math.go:17-23. *)
Notation P25519 := p25519 (only parsing).

(** [x.ModInverse(x, Ed25519Field.P)], used as an operand: nil panics.  [val (Finv (inF g))] is the
    number r with 0 <= r < p and g r = 1 modulo p ([MathProofs.mod_inverse_spec]). *)
Definition mod_inverse (g : Z) : res Z :=
  if g mod p25519 =? 0 then Panic else Ok (val (Finv (inF g))).

(** [MathUtils.EXPONENTS], math.go:612-623. *)
Definition exponents : list Z :=
  [0; 26; 26 + 25; 2 * 26 + 25; 2 * 26 + 2 * 25; 3 * 26 + 2 * 25; 3 * 26 + 3 * 25; 4 * 26 + 3 * 25;
   4 * 26 + 4 * 25; 5 * 26 + 4 * 25].
(** [MathUtils.D], math.go:624-625 (not reduced; 121666 is invertible). *)
Definition math_D : Z := -121665 * val (Finv (inF 121666)).

(** [BytesToBigInteger], math.go:46-58: the loop with its index. *)
Fixpoint bytes_loop (i : Z) (b : Z) (l : bytes) : Z :=
  match l with
  | [] => b
  | v :: r => bytes_loop (i + 1) (b + Z.shiftl (Z.land v 0xff) (i * 8)) r
  end.
Definition math_BytesToBigInteger (l : bytes) : Z := bytes_loop 0 0 l.
(** [EncodedFieldToBigInteger], math.go:66-69; [FieldToBigInteger], math.go:77-80. *)
Definition math_FieldToBigInteger (f : fe) : Z := math_BytesToBigInteger (fe_encode f).
(** [IntsToBigInteger], math.go:87-97. *)
Definition fe_list (f : fe) : list Z := [r0 f; r1 f; r2 f; r3 f; r4 f; r5 f; r6 f; r7 f; r8 f; r9 f].
Definition math_IntsToBigInteger (f : fe) : Z :=
  fold_left (fun b p => b + Z.shiftl (fst p) (snd p)) (combine (fe_list f) exponents) 0.

(** [ToByteArray], math.go:476-485. *)
Definition math_ToByteArray (b : Z) : res bytes :=
  if 2 ^ 256 <=? b then Panic else Ok (utils_BigIntToByteArray b 32).
(** [ToFieldElement], math.go:160-163. *)
Definition math_ToFieldElement (b : Z) : res fe :=
  do a <- math_ToByteArray b; fe_decode a.
(** [ToEncodedFieldElement], math.go:458-468 (ToByteArray always makes 32 bytes). *)
Definition math_ToEncodedFieldElement (b : Z) : res bytes :=
  do a <- math_ToByteArray b;
  if Nat.eqb (length a) 64 || Nat.eqb (length a) 32 then Ok a else Panic.
(** [toEncodedFieldElement], math.go:603-606. *)
Definition math_toEncodedFieldElement (b : Z) : res bytes := do a <- math_ToByteArray b; new_efe a.
(** [ReduceModGroupOrder], math.go:445-450. *)
Definition math_ReduceModGroupOrder (raw : bytes) : res bytes :=
  math_ToEncodedFieldElement (math_BytesToBigInteger raw mod q25519).
(** [multiplyAndAddModGroupOrder], math.go:587-595. *)
Definition math_multiplyAndAdd (a b c : bytes) : res bytes :=
  let res := math_BytesToBigInteger a in
  let res := res * math_BytesToBigInteger b in
  let res := res + math_BytesToBigInteger c in
  math_ToEncodedFieldElement (res mod q25519).

(** ** Square root and decompression *)
(** [getSqrtOfFraction], math.go:235-248. *)
Definition math_sqrt (u v : Z) : Z :=
  let powV3 := v ^ 3 in
  let powV7 := v ^ 7 in
  let x := u * powV7 in
  let x := (val (Fpow (inF x) (2 ^ 252 - 3))) mod p25519 in
  (x * u * powV3) mod p25519.
(** [GetAffineXFromAffineY], math.go:197-225.  Lines 208-209 compute v*x twice where v*x^2 is meant,
    and line 219 overwrites x by its parity. *)
Definition math_GetAffineX (y : Z) (shouldBeNegative : bool) : res Z :=
  let u := (y * y - 1) mod p25519 in
  let v := (math_D * y * y + 1) mod p25519 in
  let x := math_sqrt u v in
  let vx2 := v * x in
  let vx2 := v * x in
  do x <- (if negb ((vx2 - u) mod p25519 =? 0)
           then if negb ((vx2 + u) mod p25519 =? 0) then Err ErrNotGroupElement
                else Ok ((x * math_IntsToBigInteger fe_I) mod p25519)
           else Ok x);
  let x := x mod 2 in
  let isNegative := x =? 1 in
  Ok (if (shouldBeNegative && negb isNegative) || (negb shouldBeNegative && isNegative)
      then (- x) mod p25519 else x).
(** [ToGroupElement], math.go:172-186: also the argument slice as the call leaves it. *)
Definition math_ToGroupElement (raw : bytes) : bytes * res gcore :=
  if Nat.ltb (length raw) 32 then (raw, Panic) else
  let shouldBeNegative := negb (Z.shiftr (byte_at raw 31) 7 =? 0) in
  let raw := upd raw 31 (Z.land (byte_at raw 31) 0x7f) in
  let y := math_BytesToBigInteger raw in
  (raw,
   do x <- math_GetAffineX y shouldBeNegative;
   do fx <- math_ToFieldElement x;
   do fy <- math_ToFieldElement y;
   do ft <- math_ToFieldElement ((x * y) mod p25519);
   Ok (newP3 fx fy fe_one ft)).

(** ** Change of representation *)
Definition newAffine (x y z : fe) : gcore := G AFFINE x y z None.
(** [getNeeCoor], math.go:306-348. *)
Definition math_getNeeCoor (x y : Z) (n : csys) : res gcore :=
  do x1 <- math_ToFieldElement x;
  do y1 <- math_ToFieldElement y;
  match n with
  | AFFINE => Ok (newAffine x1 y1 fe_one)
  | P2 => Ok (newP2 x1 y1 fe_one)
  | P3 => do t <- math_ToFieldElement ((x * y) mod p25519); Ok (newP3 x1 y1 fe_one t)
  | P1xP1 => Ok (newP1xP1 x1 y1 fe_one fe_one)
  | CACHED =>
      do x2 <- math_ToFieldElement ((y + x) mod p25519);
      do y2 <- math_ToFieldElement ((y - x) mod p25519);
      do t <- math_ToFieldElement ((math_D * 2 * x * y) mod p25519);
      Ok (newCached x2 y2 fe_one t)
  | PRECOMPUTED =>
      do x2 <- math_ToFieldElement ((y + x) mod p25519);
      do y2 <- math_ToFieldElement ((y - x) mod p25519);
      do z <- math_ToFieldElement ((math_D * 2 * x * y) mod p25519);
      Ok (newPrecomputed x2 y2 z)
  end.
(** [xMulYModInverseAndModP], math.go:301-304; [coorModify], math.go:486-489 is the same. *)
Definition math_frac (x y : Z) : res Z := do i <- mod_inverse y; Ok ((x * i) mod p25519).
(** [ToRepresentation], math.go:256-299. *)
Definition math_ToRepresentation (g : gcore) (n : csys) : res gcore :=
  let gX_ := math_FieldToBigInteger (gX g) in
  let gY_ := math_FieldToBigInteger (gY g) in
  let gZ_ := math_FieldToBigInteger (gZ g) in
  match g_cs g with
  | AFFINE => math_getNeeCoor gX_ gY_ n
  | P2 | P3 =>
      do x <- math_frac gX_ gZ_; do y <- math_frac gY_ gZ_; math_getNeeCoor x y n
  | P1xP1 =>
      match gT g with
      | None => Err ErrNoTCoordinate
      | Some t =>
          do x <- math_frac gX_ gZ_; do y <- math_frac gY_ (math_FieldToBigInteger t);
          math_getNeeCoor x y n
      end
  | CACHED =>
      let z := gZ_ * 2 in
      do x <- math_frac (gX_ - gY_) z; do y <- math_frac (gX_ + gY_) z; math_getNeeCoor x y n
  | PRECOMPUTED =>
      (* inverts the product instead of multiplying by the inverse, math.go:289-296 *)
      do xi <- mod_inverse ((gX_ - gY_) * (gZ_ * 2)); let x := xi mod p25519 in
      do yi <- mod_inverse ((gX_ + gY_) * 2); let y := yi mod p25519 in
      math_getNeeCoor x y n
  end.

(** ** Sharing: the digit array of the first argument of [XMulY_Plus_ZMulT_DelD] *)
(** number of 64-bit digits of a value (the length of a normalised nat) *)
Definition wlen (v : Z) : Z := if v <=? 0 then 0 else Z.log2 v / 64 + 1.
(** A digit array of cap digits is modelled by the integer its digits form. *)
Definition digits_get (m B : Z) : Z := B mod 2 ^ (64 * m).                  (* its first m digits *)
Definition digits_put (k v B : Z) : Z := v + 2 ^ (64 * k) * (B / 2 ^ (64 * k)). (* overwrite k digits *)
(** A big.Int: its digits are the first m of the shared array, or in an array of its own. *)
Inductive bint : Set := Shared (m : Z) | Own (v : Z).
Definition bint_val (b : bint) (B : Z) : Z := match b with Shared m => digits_get m B | Own v => v end.

Section Sharing.
Variable cap : Z.
(** [b.Mul(b, y)]: nat.mul.  No digit: z[:0].  One operand of one digit: mulAddWW, in place if
    max(m, n) + 1 digits fit.  Otherwise alias(z, x) makes it allocate. *)
Definition b_mul (b : bint) (y : Z) (B : Z) : bint * Z :=
  match b with
  | Own v => (Own (v * y), B)
  | Shared m =>
      let x := digits_get m B in
      let n := wlen y in
      if (m =? 0) || (n =? 0) then (Shared 0, B)
      else if (m =? 1) || (n =? 1) then
        if (if n =? 1 then y else x) =? 0 then (Shared 0, B) else
        let k := Z.max m n + 1 in
        if k <=? cap then (Shared (wlen (x * y)), digits_put k (x * y) B) else (Own (x * y), B)
      else (Own (x * y), B)
  end.
(** [b.Add(b, w)], both non-negative: nat.add, nat.set. *)
Definition b_add (b : bint) (w : Z) (B : Z) : bint * Z :=
  match b with
  | Own v => (Own (v + w), B)
  | Shared m =>
      let x := digits_get m B in
      let n := wlen w in
      if n =? 0 then (Shared m, B)
      else if m =? 0 then if n <=? cap then (Shared n, digits_put n w B) else (Own w, B)
      else let k := Z.max m n + 1 in
        if k <=? cap then (Shared (wlen (x + w)), digits_put k (x + w) B) else (Own (x + w), B)
  end.
(** [b.Mod(b, P)]: nat.div sets in place a dividend below P, allocates otherwise. *)
Definition b_mod (b : bint) (B : Z) : bint * Z :=
  match b with
  | Own v => (Own (v mod p25519), B)
  | Shared m =>
      let x := digits_get m B in
      if x <? p25519 then (Shared m, B) else (Own (x mod p25519), B)
  end.
(** [XMulY_Plus_ZMulT_DelD], math.go:543-546: x is the copy, its digits the first m of array B;
    returns the result and the array as the call leaves it. *)
Definition math_xyztd (m : Z) (y z t d : Z) (B : Z) : res (bint * Z) :=
  let s := b_mul (Shared m) y B in
  let s := b_add (fst s) (z * t) (snd s) in
  do i <- mod_inverse d;
  let s := b_mul (fst s) i (snd s) in
  Ok (b_mod (fst s) (snd s)).
End Sharing.

(** The capacity of the digit array of [coorModify(g, b)] for i = the inverse of b: the array
    allocated by Mul (nat.make adds 4 digits), or by the division in Mod. *)
Definition coor_cap (g i : Z) : Z :=
  let m := wlen g in let n := wlen i in
  if (m =? 0) || (n =? 0) then 0 else
  if g * i <? p25519 then (if (m =? 1) || (n =? 1) then Z.max m n + 1 + 4 else m + n + 4)
  else wlen (g * i) + 1 + 4.

(** [AddGroupElements], math.go:500-541. *)
Definition is_P2_P3 (c : csys) : bool := match c with P2 | P3 => true | _ => false end.
Definition math_Add (g1 g2 : gcore) : res gcore :=
  if negb (is_P2_P3 (g_cs g1)) || negb (is_P2_P3 (g_cs g2)) then Panic else
  let g1X := math_FieldToBigInteger (gX g1) in
  let g1Y := math_FieldToBigInteger (gY g1) in
  let g1Z := math_FieldToBigInteger (gZ g1) in
  let g2X := math_FieldToBigInteger (gX g2) in
  let g2Y := math_FieldToBigInteger (gY g2) in
  let g2Z := math_FieldToBigInteger (gZ g2) in
  do g1x <- math_frac g1X g1Z;
  do g1y <- math_frac g1Y g1Z;
  do g2x <- math_frac g2X g2Z;
  do g2y <- math_frac g2Y g2Z;
  do i1 <- mod_inverse g1Z;
  let cap := coor_cap g1X i1 in
  let m := wlen g1x in
  let dx1x2y1y2 := (math_D * g1x * g2x * g1y * g2y) mod p25519 in
  do s1 <- math_xyztd cap m g2y g2x g1y (1 + dx1x2y1y2) g1x;
  do s2 <- math_xyztd cap m g2x g1y g2y (1 - dx1x2y1y2) (snd s1);
  let x3 := bint_val (fst s1) (snd s2) in
  let y3 := bint_val (fst s2) (snd s2) in
  let t3 := (x3 * y3) mod p25519 in
  do fx <- math_ToFieldElement x3;
  do fy <- math_ToFieldElement y3;
  do ft <- math_ToFieldElement t3;
  Ok (newP3 fx fy fe_one ft).
(** [DoubleGroupElement], math.go:556-559. *)
Definition math_Double (g : gcore) : res gcore := math_Add g g.
(** [NegateGroupElement], math.go:567-576. *)
Definition math_Negate (g : gcore) : res gcore :=
  if negb (csys_eqb (g_cs g) P3) then Panic else
  let x := fe_neg (gX g) in
  do T <- deref (gT g);
  let t := fe_neg T in
  Ok (newP3 x (gY g) (gZ g) t).
(** [ScalarMultiplyGroupElement], math.go:121-133; [utils.GetBitToBool(b, i)] (contract) is bit i of
    the little endian number. *)
Definition get_bit (b : bytes) (i : nat) : bool := Z.testbit (byte_at b (i / 8)) (Z.of_nat (i mod 8)).
Fixpoint math_mul_loop (n : nat) (b : bytes) (g h : gcore) : res gcore :=
  match n with
  | O => Ok h
  | S i => do h <- math_Double h;
           do h <- (if get_bit b i then math_Add h g else Ok h);
           math_mul_loop i b g h
  end.
Definition math_ScalarMultiply (g : gcore) (f : fe) : res gcore :=
  math_mul_loop 255 (fe_encode f) g zero_P3.
(** [doubleScalarMultiplyGroupElements], math.go:144-157. *)
Definition math_doubleScalarMultiply (g1 : gcore) (f1 : fe) (g2 : gcore) (f2 : fe) : res gcore :=
  do h1 <- math_ScalarMultiply g1 f1;
  do h2 <- math_ScalarMultiply g2 f2;
  do h2Neg <- unwrap (g_negate h2);
  math_Add h1 h2Neg.

(** ** Random values; the argument is the list of bytes the source will deliver *)
(** reads that panic on an error *)
Definition read_or_panic (src : bytes) (n : nat) : res (bytes * bytes) := unwrap (read_full src n).
(** [GetRandomFieldElement], math.go:99-115: [SetBytes(v).Lsh(big.NewInt(1), 25)] overwrites the
    bytes just read by 1 << 25. *)
Definition random_limb (v : bytes) : Z :=
  let z := be_val v in
  let z := Z.shiftl 1 25 in
  w64 (z - 2 ^ 24).
Fixpoint random_limbs (n : nat) (src : bytes) : res (list Z * bytes) :=
  match n with
  | O => Ok ([], src)
  | S n' => do r <- read_or_panic src 2;
            do t <- random_limbs n' (snd r);
            Ok (random_limb (fst r) :: fst t, snd t)
  end.
Definition math_GetRandomFieldElement (src : bytes) : res (fe * bytes) :=
  do r <- random_limbs 10 src;
  match fst r with
  | [a0; a1; a2; a3; a4; a5; a6; a7; a8; a9] => Ok (Fe a0 a1 a2 a3 a4 a5 a6 a7 a8 a9, snd r)
  | _ => Panic
  end.
(** [GetRandomByteArray], math.go:419-428; [GetRandomInt64], math.go:430-439. *)
Definition math_GetRandomByteArray (src : bytes) (n : nat) : res (bytes * bytes) := read_or_panic src n.
Definition math_GetRandomInt64 (src : bytes) : res (Z * bytes) :=
  do r <- read_or_panic src 8; Ok (w64 (le_val (fst r)), snd r).
(** [GetRandomEncodedFieldElement], math.go:350-361. *)
Definition math_GetRandomEncodedFieldElement (src : bytes) (n : nat) : res (bytes * bytes) :=
  do r <- math_GetRandomByteArray src n;
  do b <- nth_r (fst r) 31;
  let raw := upd (fst r) 31 (Z.land b 0x7f) in
  if Nat.eqb n 64 || Nat.eqb n 32 then Ok (raw, snd r) else Panic.
(** [random], math.go:31-39, [tryToCreateObject] and [GetRandomGroupElement], math.go:365-391: at most n tries (10^8 in the
    code), each reading 32 bytes. *)
Fixpoint random_group_tries (n : nat) (src : bytes) : res (gcore * bytes) :=
  match n with
  | O => Panic
  | S n' => do r <- read_or_panic src 32;
            match g_decode (fst r) with
            | Ok g => Ok (g, snd r)
            | Err _ => random_group_tries n' (snd r)
            | Panic => Panic
            end
  end.
Definition math_GetRandomGroupElement (src : bytes) : res (gcore * bytes) :=
  random_group_tries (Z.to_nat 100000000) src.
(** [GetRandomEncodedGroupElement], math.go:399-411 (the first try always succeeds, see C48). *)
Definition math_GetRandomEncodedGroupElement (src : bytes) : res (bytes * bytes) :=
  do r <- math_GetRandomGroupElement src;
  do e <- g_encode (fst r);
  Ok (e, snd r).
