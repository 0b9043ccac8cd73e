(** Model of the scalar arithmetic modulo the group order: modQ and multiplyAndAddModQ of
    ed25519_encode.go.  No proofs here. *)
From Coq Require Import List ZArith.
From Verif Require Import GoBase Slp Progs FieldModel.
Import ListNotations.
Open Scope Z_scope.

(** [0x1FFFFF & x]. *)
Definition mask21 (x : Z) : Z := Z.land 2097151 x.

(** the twenty-four loads of modQ, ed25519_encode.go:1044-1072. *)
Definition modQ_loads (b : bytes) : list (positive * Z) :=
  [ (v_s0, mask21 (load3 b 0));
    (v_s1, mask21 (shr64 (load4 b 2) 5));
    (v_s2, mask21 (shr64 (load3 b 5) 2));
    (v_s3, mask21 (shr64 (load4 b 7) 7));
    (v_s4, mask21 (shr64 (load4 b 10) 4));
    (v_s5, mask21 (shr64 (load3 b 13) 1));
    (v_s6, mask21 (shr64 (load4 b 15) 6));
    (v_s7, mask21 (shr64 (load3 b 18) 3));
    (v_s8, mask21 (load3 b 21));
    (v_s9, mask21 (shr64 (load4 b 23) 5));
    (v_s10, mask21 (shr64 (load3 b 26) 2));
    (v_s11, mask21 (shr64 (load4 b 28) 7));
    (v_s12, mask21 (shr64 (load4 b 31) 4));
    (v_s13, mask21 (shr64 (load3 b 34) 1));
    (v_s14, mask21 (shr64 (load4 b 36) 6));
    (v_s15, mask21 (shr64 (load3 b 39) 3));
    (v_s16, mask21 (load3 b 42));
    (v_s17, mask21 (shr64 (load4 b 44) 5));
    (v_s18, mask21 (shr64 (load3 b 47) 2));
    (v_s19, mask21 (shr64 (load4 b 49) 7));
    (v_s20, mask21 (shr64 (load4 b 52) 4));
    (v_s21, mask21 (shr64 (load3 b 55) 1));
    (v_s22, mask21 (shr64 (load4 b 57) 6));
    (v_s23, shr64 (load4 b 60) 3) ].

(** the thirty-two result bytes, ed25519_encode.go:1325-1356 and 1763-1794. *)
Definition pack21 (s0 s1 s2 s3 s4 s5 s6 s7 s8 s9 s10 s11 : Z) : bytes :=
  map to_byte
  [ s0; shr64 s0 8; Z.lor (shr64 s0 16) (shl64 s1 5);
    shr64 s1 3; shr64 s1 11; Z.lor (shr64 s1 19) (shl64 s2 2);
    shr64 s2 6; Z.lor (shr64 s2 14) (shl64 s3 7);
    shr64 s3 1; shr64 s3 9; Z.lor (shr64 s3 17) (shl64 s4 4);
    shr64 s4 4; shr64 s4 12; Z.lor (shr64 s4 20) (shl64 s5 1);
    shr64 s5 7; Z.lor (shr64 s5 15) (shl64 s6 6);
    shr64 s6 2; shr64 s6 10; Z.lor (shr64 s6 18) (shl64 s7 3);
    shr64 s7 5; shr64 s7 13;
    s8; shr64 s8 8; Z.lor (shr64 s8 16) (shl64 s9 5);
    shr64 s9 3; shr64 s9 11; Z.lor (shr64 s9 19) (shl64 s10 2);
    shr64 s10 6; Z.lor (shr64 s10 14) (shl64 s11 7);
    shr64 s11 1; shr64 s11 9; shr64 s11 17 ].
Definition pack21_env (m : env) : bytes :=
  pack21 (get m v_s0) (get m v_s1) (get m v_s2) (get m v_s3) (get m v_s4) (get m v_s5)
         (get m v_s6) (get m v_s7) (get m v_s8) (get m v_s9) (get m v_s10) (get m v_s11).

(** [Ed25519EncodedFieldElement.modQ] on at least 64 bytes, ed25519_encode.go:1041-1358. *)
Definition sc_modQ64 (b : bytes) : bytes :=
  pack21_env (run64 (modQ_1_prog ++ modQ_2_prog ++ modQ_3_prog) (mk_env (modQ_loads b))).
(** ... on any slice: Raw[63] is read, so shorter slices panic. *)
Definition sc_modQ (b : bytes) : res bytes :=
  if Nat.ltb (length b) 64 then Panic else Ok (sc_modQ64 b).

(** the loads of multiplyAndAddModQ, ed25519_encode.go:1373-1443 (thirty-six lines, twelve per
    argument, the same twelve offsets and shifts for each). *)
Definition mulAdd_loads (xs : list positive) (b : bytes) : list (positive * Z) :=
  combine xs
  [ mask21 (load3 b 0);
    mask21 (shr64 (load4 b 2) 5);
    mask21 (shr64 (load3 b 5) 2);
    mask21 (shr64 (load4 b 7) 7);
    mask21 (shr64 (load4 b 10) 4);
    mask21 (shr64 (load3 b 13) 1);
    mask21 (shr64 (load4 b 15) 6);
    mask21 (shr64 (load3 b 18) 3);
    mask21 (load3 b 21);
    mask21 (shr64 (load4 b 23) 5);
    mask21 (shr64 (load3 b 26) 2);
    shr64 (load4 b 28) 7 ].
Definition a_vars := [v_a0; v_a1; v_a2; v_a3; v_a4; v_a5; v_a6; v_a7; v_a8; v_a9; v_a10; v_a11].
Definition b_vars := [v_b0; v_b1; v_b2; v_b3; v_b4; v_b5; v_b6; v_b7; v_b8; v_b9; v_b10; v_b11].
Definition c_vars := [v_c0; v_c1; v_c2; v_c3; v_c4; v_c5; v_c6; v_c7; v_c8; v_c9; v_c10; v_c11].

(** [Ed25519EncodedFieldElement.multiplyAndAddModQ] on arguments of at least 32 bytes,
    ed25519_encode.go:1370-1796: the receiver is [a]. *)
Definition sc_mulAdd32 (a b c : bytes) : bytes :=
  pack21_env (run64 (mulAdd_1_prog ++ mulAdd_2_prog ++ mulAdd_3_prog)
     (mk_env (mulAdd_loads a_vars a ++ mulAdd_loads b_vars b ++ mulAdd_loads c_vars c))).
(** ... on any slices: Raw[31] is read, so shorter slices panic. *)
Definition sc_mulAdd (a b c : bytes) : res bytes :=
  if Nat.ltb (length a) 32 || Nat.ltb (length b) 32 || Nat.ltb (length c) 32 then Panic
  else Ok (sc_mulAdd32 a b c).
