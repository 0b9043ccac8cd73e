(** Model of the field arithmetic of ed25519_encode.go: Ed25519FieldElement (ten int64 limbs)
    and Ed25519EncodedFieldElement (byte strings).  No proofs here. *)
From Coq Require Import List ZArith.
From Verif Require Import GoBase Slp Progs.
From Coq Require Import FMapPositive.
Import ListNotations.
Open Scope Z_scope.

(** [FieldElements = [10]int64], ed25519_encode.go:114-124. *)
Record fe : Set := Fe { r0 : Z; r1 : Z; r2 : Z; r3 : Z; r4 : Z;
                        r5 : Z; r6 : Z; r7 : Z; r8 : Z; r9 : Z }.

Definition mk_env (l : list (positive * Z)) : env :=
  fold_left (fun m '(x, v) => set m x v) l (PositiveMap.empty Z).

Definition load_f (f : fe) : list (positive * Z) :=
  [(v_f0, r0 f); (v_f1, r1 f); (v_f2, r2 f); (v_f3, r3 f); (v_f4, r4 f);
   (v_f5, r5 f); (v_f6, r6 f); (v_f7, r7 f); (v_f8, r8 f); (v_f9, r9 f)].
Definition load_g (f : fe) : list (positive * Z) :=
  [(v_g0, r0 f); (v_g1, r1 f); (v_g2, r2 f); (v_g3, r3 f); (v_g4, r4 f);
   (v_g5, r5 f); (v_g6, r6 f); (v_g7, r7 f); (v_g8, r8 f); (v_g9, r9 f)].
Definition load_h (f : fe) : list (positive * Z) :=
  [(v_h0, r0 f); (v_h1, r1 f); (v_h2, r2 f); (v_h3, r3 f); (v_h4, r4 f);
   (v_h5, r5 f); (v_h6, r6 f); (v_h7, r7 f); (v_h8, r8 f); (v_h9, r9 f)].
Definition read_h (m : env) : fe :=
  Fe (get m v_h0) (get m v_h1) (get m v_h2) (get m v_h3) (get m v_h4)
     (get m v_h5) (get m v_h6) (get m v_h7) (get m v_h8) (get m v_h9).

Definition map2_fe (o : Z -> Z -> Z) (f g : fe) : fe :=
  Fe (o (r0 f) (r0 g)) (o (r1 f) (r1 g)) (o (r2 f) (r2 g)) (o (r3 f) (r3 g)) (o (r4 f) (r4 g))
     (o (r5 f) (r5 g)) (o (r6 f) (r6 g)) (o (r7 f) (r7 g)) (o (r8 f) (r8 g)) (o (r9 f) (r9 g)).

(** [Ed25519FieldElement.add], ed25519_encode.go:172-178. *)
Definition fe_add (f g : fe) : fe := map2_fe (fun a b => w64 (a + b)) f g.
(** [Ed25519FieldElement.subtract], ed25519_encode.go:193-200. *)
Definition fe_sub (f g : fe) : fe := map2_fe (fun a b => w64 (a - b)) f g.
(** [Ed25519FieldElement.negate], ed25519_encode.go:213-220. *)
Definition fe_neg (f : fe) : fe := map2_fe (fun a _ => w64 (- a)) f f.
(** [Ed25519FieldElement.multiply], ed25519_encode.go:252-458. *)
Definition fe_mul (f g : fe) : fe := read_h (run64 mul_prog (mk_env (load_f f ++ load_g g))).
(** [Ed25519FieldElement.squareAndOptionalDouble], ed25519_encode.go:508-642. *)
Definition fe_sqopt (dbl : bool) (f : fe) : fe :=
  read_h (run64 (sq_pre_prog ++ (if dbl then sq_dbl_prog else []) ++ sq_post_prog)
                (mk_env (load_f f))).
(** [Ed25519FieldElement.square], ed25519_encode.go:473-476. *)
Definition fe_sq (f : fe) : fe := fe_sqopt false f.
(** [Ed25519FieldElement.squareAndDouble], ed25519_encode.go:490-493. *)
Definition fe_sq2 (f : fe) : fe := fe_sqopt true f.

(** [n] squarings: the loops [for i := 1; i < n+1; i++ { f = f.square() }]. *)
Fixpoint fe_sqn (n : nat) (f : fe) : fe :=
  match n with O => f | S k => fe_sqn k (fe_sq f) end.

(** [Ed25519FieldElement.pow2to9], ed25519_encode.go:671-681. *)
Definition fe_pow2to9 (x : fe) : fe :=
  let f := fe_sq x in
  let f := fe_sq f in
  let f := fe_sq f in
  fe_mul x f.

(** [Ed25519FieldElement.pow2to252sub4], ed25519_encode.go:684-763. *)
Definition fe_pow2to252sub4 (x : fe) : fe :=
  let f0 := fe_sq x in
  let f1 := fe_pow2to9 x in
  let f0 := fe_mul f0 f1 in
  let f0 := fe_sq f0 in
  let f0 := fe_mul f1 f0 in
  let f1 := fe_sq f0 in
  let f1 := fe_sqn 4 f1 in           (* for i := 1; i < 5 *)
  let f0 := fe_mul f1 f0 in
  let f1 := fe_sq f0 in
  let f1 := fe_sqn 9 f1 in           (* for i := 1; i < 10 *)
  let f1 := fe_mul f1 f0 in
  let f2 := fe_sq f1 in
  let f2 := fe_sqn 19 f2 in          (* for i := 1; i < 20 *)
  let f1 := fe_mul f2 f1 in
  let f1 := fe_sq f1 in
  let f1 := fe_sqn 9 f1 in           (* for i := 1; i < 10 *)
  let f0 := fe_mul f1 f0 in
  let f1 := fe_sq f0 in
  let f1 := fe_sqn 49 f1 in          (* for i := 1; i < 50 *)
  let f1 := fe_mul f1 f0 in
  let f2 := fe_sq f1 in
  let f2 := fe_sqn 99 f2 in          (* for i := 1; i < 100 *)
  let f1 := fe_mul f2 f1 in
  let f1 := fe_sq f1 in
  let f1 := fe_sqn 49 f1 in          (* for i := 1; i < 50 *)
  let f0 := fe_mul f1 f0 in
  let f0 := fe_sq f0 in
  fe_sq f0.

(** [Ed25519FieldElement.invert], ed25519_encode.go:650-668. *)
Definition fe_invert (x : fe) : fe :=
  let f0 := fe_sq x in
  let f1 := fe_pow2to9 x in
  let f0 := fe_mul f0 f1 in
  let f1 := fe_pow2to252sub4 x in
  let f1 := fe_sqn 3 f1 in           (* for i := 1; i < 4 *)
  fe_mul f1 f0.

(** [Ed25519FieldElementSqrt], ed25519_encode.go:139-150. *)
Definition fe_sqrt (u v : fe) : fe :=
  let v3 := fe_mul (fe_sq v) v in
  let x := fe_mul (fe_mul (fe_sq v3) v) u in
  let x := fe_mul (fe_pow2to252sub4 x) x in
  fe_mul (fe_mul v3 u) x.

(** [Ed25519FieldElement.modP], ed25519_encode.go:796-845. *)
Definition fe_modP (f : fe) : fe :=
  read_h (run64 (modP_q_prog ++ modP_r_prog) (mk_env (load_f f))).

(** int64 [<<], [>>] and [|] used by the byte packing code. *)
Definition shl64 (x k : Z) : Z := w64 (x * 2 ^ k).
Definition shr64 (x k : Z) : Z := Z.shiftr x k.

(** second step of [Ed25519FieldElement.Encode], ed25519_encode.go:859-890. *)
Definition pack25 (h : fe) : bytes :=
  let '(Fe h0 h1 h2 h3 h4 h5 h6 h7 h8 h9) := h in
  map to_byte
  [ h0; shr64 h0 8; shr64 h0 16; Z.lor (shr64 h0 24) (shl64 h1 2);
    shr64 h1 6; shr64 h1 14; Z.lor (shr64 h1 22) (shl64 h2 3);
    shr64 h2 5; shr64 h2 13; Z.lor (shr64 h2 21) (shl64 h3 5);
    shr64 h3 3; shr64 h3 11; Z.lor (shr64 h3 19) (shl64 h4 6);
    shr64 h4 2; shr64 h4 10; shr64 h4 18;
    h5; shr64 h5 8; shr64 h5 16; Z.lor (shr64 h5 24) (shl64 h6 1);
    shr64 h6 7; shr64 h6 15; Z.lor (shr64 h6 23) (shl64 h7 3);
    shr64 h7 5; shr64 h7 13; Z.lor (shr64 h7 21) (shl64 h8 4);
    shr64 h8 4; shr64 h8 12; Z.lor (shr64 h8 20) (shl64 h9 6);
    shr64 h9 2; shr64 h9 10; shr64 h9 18 ].

(** [Ed25519FieldElement.Encode], ed25519_encode.go:853-892.  The result is the Raw part of the
    encoded element; its [zero] part is always 32 zero bytes. *)
Definition fe_encode (f : fe) : bytes := pack25 (fe_modP f).

(** [subtle.ConstantTimeCompare(x, y) == 1]: equal lengths and equal contents,
    isEqualConstantTime in crypto.go:89-91. *)
Definition ct_equal (x y : bytes) : bool := beq_bytes x y.

(** [Ed25519EncodedFieldElement.IsNegative], ed25519_encode.go:968-971 (Raw is not empty). *)
Definition efe_is_negative (b : bytes) : bool := negb (Z.land (byte_at b 0) 1 =? 0).
(** [Ed25519EncodedFieldElement.IsNonZero], ed25519_encode.go:978-981; the [zero] field made by
    the constructors (ed25519_encode.go:931-940) has the length of Raw. *)
Definition efe_is_nonzero (b : bytes) : bool := negb (ct_equal b (all_zero (length b))).
(** [Ed25519FieldElement.IsNonZero], ed25519_encode.go:153-156. *)
Definition fe_is_nonzero (f : fe) : bool := efe_is_nonzero (fe_encode f).
(** [Ed25519FieldElement.IsNegative], ed25519_encode.go:905-908. *)
Definition fe_is_negative (f : fe) : bool := efe_is_negative (fe_encode f).
(** [Ed25519FieldElement.Equals], ed25519_encode.go:911-914 and 943-945. *)
Definition fe_equals (f g : fe) : bool := ct_equal (fe_encode f) (fe_encode g).

(** [NewEd25519EncodedFieldElement], ed25519_encode.go:931-940. *)
Definition new_efe (raw : bytes) : res bytes :=
  if (Nat.eqb (length raw) 32) || (Nat.eqb (length raw) 64) then Ok raw else Err ErrEncodedField.

(** [threeBytesToLong], ed25519_encode.go:947-952. *)
Definition load3 (b : bytes) (i : nat) : Z :=
  let result := Z.land (byte_at b i) 255 in
  let result := Z.lor result (shl64 (Z.land (byte_at b (i + 1)) 255) 8) in
  Z.lor result (shl64 (Z.land (byte_at b (i + 2)) 255) 16).
(** [fourBytesToLong], ed25519_encode.go:954-960. *)
Definition load4 (b : bytes) (i : nat) : Z :=
  let result := Z.land (byte_at b i) 255 in
  let result := Z.lor result (shl64 (Z.land (byte_at b (i + 1)) 255) 8) in
  let result := Z.lor result (shl64 (Z.land (byte_at b (i + 2)) 255) 16) in
  let result := Z.lor result (shl64 (Z.land (byte_at b (i + 3)) 255) 24) in
  Z.land result 4294967295.

(** the ten loads of [Ed25519EncodedFieldElement.Decode], ed25519_encode.go:991-1002. *)
Definition decode_limbs (b : bytes) : fe :=
  Fe (load4 b 0) (shl64 (load3 b 4) 6) (shl64 (load3 b 7) 5) (shl64 (load3 b 10) 3)
     (shl64 (load3 b 13) 2) (load4 b 16) (shl64 (load3 b 20) 7) (shl64 (load3 b 23) 5)
     (shl64 (load3 b 26) 4) (shl64 (Z.land (load3 b 29) 8388607) 2).

(** [Ed25519EncodedFieldElement.Decode] on at least 32 bytes, ed25519_encode.go:989-1037. *)
Definition fe_decode32 (b : bytes) : fe :=
  read_h (run64 decode_prog (mk_env (load_h (decode_limbs b)))).
(** ... and on any slice: Raw[31] is read, so shorter slices panic. *)
Definition fe_decode (b : bytes) : res fe :=
  if Nat.ltb (length b) 32 then Panic else Ok (fe_decode32 b).

(** Constants, ed25519_encode.go:70-92. *)
Definition fe_zero : fe := Fe 0 0 0 0 0 0 0 0 0 0.
Definition fe_one : fe := Fe 1 0 0 0 0 0 0 0 0 0.
Definition fe_two : fe := Fe 2 0 0 0 0 0 0 0 0 0.
